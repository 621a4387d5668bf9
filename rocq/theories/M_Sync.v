(** Model of SyncChannel: synchronous calls over a shared reader
    (twink/base.py:829-929). *)

From Verif Require Export M_Controller.
Local Open Scope Z_scope.

(** *** Shared state *)

(** base.py:829-833 [SyncTracker]: trackers are identities; their [data] and
    the flag of their Event are kept in the state.  [sy_map] is the
    dictionary [self.syncs] (xid to tracker), in insertion order.  The reader
    thread executes recv() in separate steps, so that callers can run in
    between:
    - [RIdle]: before the next message;
    - [RHit m]: the test [xid in self.syncs] succeeded (line 849);
    - [RGot m t]: the tracker has been fetched (line 850);
    - [RSet t]: its data has been stored, the event is to be set;
    - [RCrashed e]: recv() raised. *)
Inductive reader : Type :=
| RIdle
| RHit (m : bytes)
| RGot (m : bytes) (t : nat)
| RSet (t : nat)
| RCrashed (e : exn).

Record sync : Type := mkSync {
  sy_map : list (Z * nat);
  sy_data : nat -> option bytes;
  sy_ev : nat -> bool;
  sy_reader : reader
}.

Definition sync_new : sync := mkSync [] (fun _ => None) (fun _ => false) RIdle.

Fixpoint dget {A} (d : list (Z * A)) (x : Z) : option A :=
  match d with
  | [] => None
  | (y, a) :: d' => if y =? x then Some a else dget d' x
  end.

Fixpoint dput {A} (d : list (Z * A)) (x : Z) (a : A) : list (Z * A) :=
  match d with
  | [] => [(x, a)]
  | (y, b) :: d' => if y =? x then (x, a) :: d' else (y, b) :: dput d' x a
  end.

Definition dpop {A} (d : list (Z * A)) (x : Z) : list (Z * A) :=
  filter (fun p => negb (fst p =? x)) d.

Definition upd {A} (f : nat -> A) (t : nat) (a : A) : nat -> A :=
  fun t' => if (t' =? t)%nat then a else f t'.

(** *** Steps of other threads *)

(** - [RTest m]: the reader received [m] and tests its xid (lines 846-849);
    - [RLookup], [RStore], [RSignal]: the following steps of the reader;
    - [OPut x t], [OPop x]: another caller registers its tracker, removes its
      entry;
    - [OClose]: somebody calls close() (lines 885-890; the loop over the
      trackers is one step). *)
Inductive ev : Type :=
| RTest (m : bytes)
| RLookup
| RStore
| RSignal
| OPut (x : Z) (t : nat)
| OPop (x : Z)
| OClose.

(** base.py:851: is the message a multipart (statistics) reply. *)
Definition is_multipart (h : header) : bool :=
  ((h_version h =? 1) && (h_type h =? 17)) || (negb (h_version h =? 1) && (h_type h =? 19)).

(** base.py:851-861, once the tracker is known: the new data, and whether the
    event will be set; struct.error when the flags field is missing (the data
    has been stored by then). *)
Definition store (m : bytes) (d : option bytes) : option bytes * res bool :=
  match parse_ofp_header m with
  | Err e => (d, Err e)
  | Ok h =>
      if is_multipart h then
        (Some (match d with None => m | Some d0 => d0 ++ m end),
         match unpacks "!H" m 10 with
         | Ok [VInt flags] => Ok (negb (Z.odd flags))
         | Ok _ => Err ValueError
         | Err e => Err e
         end)
      else (Some m, Ok true)
  end.

(** One step of the environment; None when it is not possible in this state.
    Once recv() has raised, the reader does not continue. *)
Definition estep (s : sync) (e : ev) : option sync :=
  match e with
  | RTest m =>
      match sy_reader s with
      | RIdle =>
          Some (mkSync (sy_map s) (sy_data s) (sy_ev s)
            (match parse_ofp_header m with
             | Err x => RCrashed x
             | Ok h => match dget (sy_map s) (h_xid h) with Some _ => RHit m | None => RIdle end
             end))
      | _ => None
      end
  | RLookup =>
      match sy_reader s with
      | RHit m =>
          Some (mkSync (sy_map s) (sy_data s) (sy_ev s)
            (match parse_ofp_header m with
             | Err x => RCrashed x
             | Ok h => match dget (sy_map s) (h_xid h) with Some t => RGot m t | None => RCrashed KeyError end
             end))
      | _ => None
      end
  | RStore =>
      match sy_reader s with
      | RGot m t =>
          match store m (sy_data s t) with
          | (d, r) =>
              Some (mkSync (sy_map s) (upd (sy_data s) t d) (sy_ev s)
                (match r with Err x => RCrashed x | Ok true => RSet t | Ok false => RIdle end))
          end
      | _ => None
      end
  | RSignal =>
      match sy_reader s with
      | RSet t => Some (mkSync (sy_map s) (sy_data s) (upd (sy_ev s) t true) RIdle)
      | _ => None
      end
  | OPut x t => Some (mkSync (dput (sy_map s) x t) (sy_data s) (sy_ev s) (sy_reader s))
  | OPop x => Some (mkSync (dpop (sy_map s) x) (sy_data s) (sy_ev s) (sy_reader s))
  | OClose =>
      let ts := map snd (sy_map s) in
      let hit t := existsb (Nat.eqb t) ts in
      Some (mkSync (sy_map s)
              (fun t => if hit t then Some [] else sy_data s t)
              (fun t => if hit t then true else sy_ev s t) (sy_reader s))
  end.

Fixpoint esteps (s : sync) (es : list ev) : option sync :=
  match es with
  | [] => Some s
  | e :: es' => match estep s e with Some s' => esteps s' es' | None => None end
  end.

(** *** send_sync *)

(** The registration of base.py:866-868 and 914-916. *)
Definition register (s : sync) (x : Z) (t : nat) : sync :=
  mkSync (dput (sy_map s) x t) (sy_data s) (sy_ev s) (sy_reader s).

(** [self.syncs.pop(xid)]: KeyError when it is not there. *)
Definition pop (s : sync) (x : Z) : sync * res unit :=
  match dget (sy_map s) x with
  | Some _ => (mkSync (dpop (sy_map s) x) (sy_data s) (sy_ev s) (sy_reader s), Ok tt)
  | None => (s, Err KeyError)
  end.

(** base.py:864-873 [send_sync]: [t] is the new tracker; [e1] happens between
    registration and the end of self.send (whose failure is [o]), [e2] while
    the caller waits (the wait ends by the event or by its timeout, so [e2]
    is any list), [e3] between pop and the reading of the data.  None: the
    schedule is impossible. *)
Definition send_sync (s : sync) (m : bytes) (t : nat) (e1 : list ev) (o : option exn)
    (e2 e3 : list ev) : option (sync * res (option bytes)) :=
  match parse_ofp_header m with
  | Err e => Some (s, Err e)
  | Ok h =>
      match esteps (register s (h_xid h) t) e1 with
      | None => None
      | Some s1 =>
          match o with
          | Some e => Some (s1, Err e)
          | None =>
              match esteps s1 e2 with
              | None => None
              | Some s2 =>
                  match pop s2 (h_xid h) with
                  | (s3, Err e) => Some (s3, Err e)
                  | (s3, Ok _) =>
                      match esteps s3 e3 with
                      | None => None
                      | Some s4 => Some (s4, Ok (sy_data s4 t))
                      end
                  end
              end
          end
      end
  end.

(** base.py:875-883 [_sync_simple]; the name OpenflowError is not defined
    anywhere, so raising it is a NameError. *)
Definition check_simple (res_oftype : Z) (d : option bytes) : res bytes :=
  match d with
  | None | Some [] => Err ChannelClose
  | Some ((_ :: _) as m) =>
      match parse_ofp_header m with
      | Err e => Err e
      | Ok h => if h_type h =? res_oftype then Ok m else Err NameError
      end
  end.

Definition sync_simple (version : option Z) (req res_ty xid : Z) (s : sync) (t : nat)
    (e1 : list ev) (o : option exn) (e2 e3 : list ev) : option (sync * res bytes) :=
  match ofp_header_only req (vint version) xid with
  | Err e => Some (s, Err e)
  | Ok m =>
      match send_sync s m t e1 o e2 e3 with
      | None => None
      | Some (s', Err e) => Some (s', Err e)
      | Some (s', Ok d) => Some (s', check_simple res_ty d)
      end
  end.

(** base.py:892-905: request and reply types of echo, feature, get_config and
    barrier. *)
Inductive simple : Type := SEcho | SFeature | SGetConfig | SBarrierCall.

Definition simple_types (k : simple) (version : option Z) : Z * Z :=
  match k with
  | SEcho => (2, 3)
  | SFeature => (5, 6)
  | SGetConfig => (7, 8)
  | SBarrierCall => match version with Some 1 => (18, 19) | _ => (20, 21) end
  end.

Definition simple_call (k : simple) (version : option Z) (xid : Z) :=
  let '(rq, rs) := simple_types k version in sync_simple version rq rs xid.

(** *** multi *)

(** base.py:911-918: registering and sending the messages; each with the
    tracker to use, what happens until the message has been sent, and the
    failure of the send, if any. *)
Fixpoint multi_send (s : sync) (ms : list (bytes * nat * list ev * option exn))
  : option (sync * res (list Z)) :=
  match ms with
  | [] => Some (s, Ok [])
  | (m, t, es, o) :: ms' =>
      match parse_ofp_header m with
      | Err e => Some (s, Err e)
      | Ok h =>
          match esteps (register s (h_xid h) t) es with
          | None => None
          | Some s1 =>
              match o with
              | Some e => Some (s1, Err e)
              | None =>
                  match multi_send s1 ms' with
                  | Some (s2, Ok xs) => Some (s2, Ok (h_xid h :: xs))
                  | r => r
                  end
              end
          end
      end
  end.

(** base.py:921-929: collecting the results; [ess] is what happens before each
    xid is looked at.  Simplification: test, read and pop of one xid are one
    step. *)
Fixpoint multi_collect (s : sync) (xs : list Z) (ess : list (list ev))
  : option (sync * list (option bytes)) :=
  match xs, ess with
  | [], _ => Some (s, [])
  | x :: xs', [] => None
  | x :: xs', es :: ess' =>
      match esteps s es with
      | None => None
      | Some s1 =>
          match dget (sy_map s1) x with
          | Some t =>
              match multi_collect (fst (pop s1 x)) xs' ess' with
              | Some (s2, rs) => Some (s2, sy_data s1 t :: rs)
              | None => None
              end
          | None =>
              match multi_collect s1 xs' ess' with
              | Some (s2, rs) => Some (s2, None :: rs)
              | None => None
              end
          end
      end
  end.

(** base.py:910-929 [multi]; [bxid], [bt], [b1], [b2], [b3]: xid, tracker and
    schedule of the barrier() call. *)
Definition multi (version : option Z) (s : sync) (ms : list (bytes * nat * list ev * option exn))
    (bxid : Z) (bt : nat) (b1 b2 b3 : list ev) (ess : list (list ev))
  : option (sync * res (list (option bytes))) :=
  match multi_send s ms with
  | None => None
  | Some (s1, Err e) => Some (s1, Err e)
  | Some (s1, Ok xs) =>
      match simple_call SBarrierCall version bxid s1 bt b1 None b2 b3 with
      | None => None
      | Some (s2, Err e) => Some (s2, Err e)
      | Some (s2, Ok _) =>
          match multi_collect s2 xs ess with
          | None => None
          | Some (s3, rs) => Some (s3, Ok rs)
          end
      end
  end.

(** base.py:907-908 [single]: [.pop()] takes the last result. *)
Definition single (version : option Z) (s : sync) (m : bytes * nat * list ev * option exn)
    (bxid : Z) (bt : nat) (b1 b2 b3 : list ev) (ess : list (list ev))
  : option (sync * res (option bytes)) :=
  match multi version s [m] bxid bt b1 b2 b3 ess with
  | None => None
  | Some (s', Err e) => Some (s', Err e)
  | Some (s', Ok rs) => Some (s', match rev rs with r :: _ => Ok r | [] => Err IndexError end)
  end.

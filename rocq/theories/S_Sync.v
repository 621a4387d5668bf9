(** Specification vocabulary for synchronous calls. *)

From Verif Require Import Py M_Hello M_Controller M_Sync S_Hello S_Controller.
Local Open Scope Z_scope.

(** Statistics (OpenFlow 1.0) or multipart reply, and its MORE flag: the low
    bit of the 16-bit flags at offset 10. *)
Definition multipart (m : bytes) : bool :=
  byte_at m 1 =? (if byte_at m 0 =? 1 then 17 else 19).
Definition more (m : bytes) : bool := Z.odd (byte_at m 11).

(** The message completes the answer. *)
Definition final (m : bytes) : bool := negb (multipart m) || negb (more m).

(** What a caller has in hand after the messages [ms] of its transaction:
    parts accumulate, anything else replaces. *)
Definition add (d : option bytes) (m : bytes) : option bytes :=
  if multipart m then Some (match d with None => m | Some d0 => d0 ++ m end) else Some m.
Definition collect (ms : list bytes) : option bytes := fold_left add ms None.

(** Messages received during a schedule, and those of transaction [x]. *)
Fixpoint received (es : list ev) : list bytes :=
  match es with
  | [] => []
  | RTest m :: es' => m :: received es'
  | _ :: es' => received es'
  end.
Definition mine (x : Z) (ms : list bytes) : list bytes := filter (fun m => xid_of m =? x) ms.

(** Other threads leave transaction [x] and tracker [t] alone (transaction ids
    of concurrent calls differ), and nobody closes the channel. *)
Definition rely1 (x : Z) (t : nat) (e : ev) : Prop :=
  match e with
  | OPut y t' => y <> x /\ t' <> t
  | OPop y => y <> x
  | OClose => False
  | RTest _ | RLookup | RStore | RSignal => True
  end.
Definition rely (x : Z) (t : nat) (es : list ev) : Prop := Forall (rely1 x t) es.

(** Tracker and transaction id are new when the call starts. *)
Definition fresh (s : sync) (x : Z) (t : nat) : Prop :=
  dget (sy_map s) x = None /\ (forall y, dget (sy_map s) y <> Some t) /\
  sy_data s t = None /\ sy_ev s t = false /\
  match sy_reader s with
  | RHit m => xid_of m <> x
  | RGot _ t' | RSet t' => t' <> t
  | RIdle | RCrashed _ => True
  end.

Definition prefix {A} (l1 l2 : list A) : Prop := exists l, l2 = l1 ++ l.

(** The same while others may also close the channel. *)
Definition rely_close1 (x : Z) (t : nat) (e : ev) : Prop :=
  match e with OClose => True | _ => rely1 x t e end.
Definition rely_close (x : Z) (t : nat) (es : list ev) : Prop := Forall (rely_close1 x t) es.

(** Type of the expected reply and of the request of a simple call. *)
Definition reply_type (k : simple) (v : Z) : Z :=
  match k with
  | SEcho => 3
  | SFeature => 6
  | SGetConfig => 8
  | SBarrierCall => if v =? 1 then 19 else 21
  end.
Definition request_type (k : simple) (v : Z) : Z := reply_type k v - 1.
Definition request (k : simple) (v x : Z) : bytes := [v; request_type k v; 0; 8] ++ be 4 x.

Notation reqt := (bytes * nat * list ev * option exn)%type.

(** A request of multi(): the message, its tracker and what happens from its
    registration until the next one (or the barrier) is registered. *)
Definition req_msg (q : reqt) : bytes := fst (fst (fst q)).
Definition req_trk (q : reqt) : nat := snd (fst (fst q)).
Definition req_evs (q : reqt) : list ev := snd (fst q).
Definition req_err (q : reqt) : option exn := snd q.

(** What happens from the registration of the i-th request until its result
    is read. *)
Definition since (i : nat) (ms : list reqt)
    (b1 b2 b3 : list ev) (ess : list (list ev)) : list ev :=
  concat (skipn i (map req_evs ms)) ++ b1 ++ b2 ++ b3 ++ concat (firstn (S i) ess).

(** Requirements on a use of multi(): the transaction ids and trackers of the
    requests and of the barrier are new and different, and the other threads
    leave them alone. *)
Definition multi_env (s : sync) (ms : list reqt) (bxid : Z) (bt : nat) (b1 b2 b3 : list ev) (ess : list (list ev)) : Prop :=
  NoDup (map (fun q => xid_of (req_msg q)) ms ++ [bxid]) /\
  NoDup (map req_trk ms ++ [bt]) /\
  forall x t, (exists q, In q ms /\ x = xid_of (req_msg q) /\ t = req_trk q) \/ (x = bxid /\ t = bt) ->
    fresh s x t /\ rely x t (concat (map req_evs ms) ++ b1 ++ b2 ++ b3 ++ concat ess).

(** Model of ControllerChannel: barrier-separated request batches and the
    routing of replies (twink/base.py:349-471). *)

From Verif Require Export M_Loop.
Local Open Scope Z_scope.

(** base.py:349-370.  Elements of [self.seq].  A callback is an identity
    (a number); it is held by weak reference, so an element refers to it
    without keeping it alive.  Simplification: callbacks are compared by
    identity and are true objects (functions, WeakCallback instances). *)
Inductive sel : Type :=
| SChunk (cb : option nat)
| SBarrier (xid : Z) (cb : option nat).

(** State of the channel: [self.seq], the callbacks that have been collected,
    [self.version], the messages handed to the transport so far,
    [self.datapath] and [self.auxiliary].  The lock [seq_lock] makes send()
    and the routing part of handle_proxy() atomic, so histories of any number
    of threads are sequences of the operations below. *)
Record cch : Type := mkCch {
  k_seq : list sel;
  k_dead : list nat;
  k_version : option Z;
  k_wire : list bytes;
  k_datapath : option Z;
  k_aux : option Z
}.

Definition k_new : cch := mkCch [] [] None [] None None.

Definition with_seq (s : cch) (q : list sel) : cch :=
  mkCch q (k_dead s) (k_version s) (k_wire s) (k_datapath s) (k_aux s).

(** base.py:349-353 [WeakCallbackCaller.callback]: None without a reference
    or when the referent is gone. *)
Definition live (dead : list nat) (cb : option nat) : option nat :=
  match cb with
  | Some f => if existsb (Nat.eqb f) dead then None else Some f
  | None => None
  end.

Definition cb_eqb (a b : option nat) : bool :=
  match a, b with
  | Some f, Some g => Nat.eqb f g
  | None, None => true
  | _, _ => false
  end.

(** base.py:376: [cbref] of the channel itself is the class attribute None and
    is never assigned (line 419 sets [cbfunc]), so [self.callback] is None. *)
Definition self_callback : option nat := None.

(** super().send (base.py:113-119); [o]: the exception it raises, if any. *)
Definition k_put (s : cch) (m : bytes) (o : option exn) : cch * res unit :=
  match o with
  | None => (mkCch (k_seq s) (k_dead s) (k_version s) (k_wire s ++ [m]) (k_datapath s) (k_aux s), Ok tt)
  | Some e => (s, Err e)
  end.

(** base.py:396: is it a barrier request. *)
Definition is_barrier_req (h : header) : bool :=
  ((h_type h =? 18) && (h_version h =? 1)) || ((h_type h =? 20) && negb (h_version h =? 1)).

(** base.py:444: is it a barrier reply. *)
Definition is_barrier_rep (h : header) : bool :=
  ((h_type h =? 19) && (h_version h =? 1)) || ((h_type h =? 21) && negb (h_version h =? 1)).

(** base.py:403-406: the separating barrier. *)
Definition barrier_msg (version : option Z) (bxid : Z) : res bytes :=
  match version with
  | Some 1 => ofp_header_only 18 (VInt 1) bxid
  | v => ofp_header_only 20 (vint v) bxid
  end.

(** [list[-1]]. *)
Fixpoint last_of (q : list sel) : option sel :=
  match q with
  | [] => None
  | [e] => Some e
  | _ :: (_ :: _) as q' => last_of q'
  end.

(** base.py:387-421 [ControllerChannel.locked_send].  [bxid] is what hms_xid()
    returns if it is called; [o1] is the outcome of sending the separating
    barrier, [o2] that of sending the message. *)
Definition locked_send (s : cch) (handler : option nat) (m : bytes) (bxid : Z)
    (o1 o2 : option exn) : cch * res unit :=
  match parse_ofp_header m with
  | Err e => (s, Err e)
  | Ok h =>
      if is_barrier_req h then
        k_put (with_seq s (k_seq s ++ [SBarrier (h_xid h) handler])) m o2
      else
        match last_of (k_seq s) with
        | Some (SChunk cb) =>
            if negb (cb_eqb (live (k_dead s) cb) handler) then
              match barrier_msg (k_version s) bxid with
              | Err e => (s, Err e)
              | Ok msg =>
                  let s1 := with_seq s (k_seq s ++ [SBarrier bxid None; SChunk handler]) in
                  match k_put s1 msg o1 with
                  | (s2, Ok _) => k_put s2 m o2
                  | (s2, Err e) => (s2, Err e)
                  end
              end
            else k_put s m o2
        | Some (SBarrier _ _) => k_put (with_seq s (k_seq s ++ [SChunk handler])) m o2
        | None =>
            if negb (cb_eqb self_callback handler)
            then k_put (with_seq s [SChunk handler]) m o2
            else k_put s m o2
        end
  end.

(** The three assertions of base.py:454-458. *)
Inductive why : Type := AMissing | AMultiple | AUnknown.

(** Where a received message goes: to a request's callback, to the default
    handler (super().handle_proxy(handle)), to handle_async, nowhere
    ([return True]), or an exception. *)
Inductive outcome : Type :=
| ToCallback (f : nat)
| ToDefault
| ToAsync
| Swallowed
| FailAssert (w : why)
| FailExn (e : exn).

(** base.py:445-458: the walk over [seq] for a barrier reply.  [drop] is
    [chunk_drop]; the result is the new [seq] (None: unchanged). *)
Fixpoint walk (dead : list nat) (xid : Z) (drop : bool) (q : list sel) : option (list sel) * outcome :=
  match q with
  | [] => (None, FailAssert AUnknown)
  | SBarrier x cb :: q' =>
      if x =? xid then
        (Some q', match live dead cb with Some f => ToCallback f | None => Swallowed end)
      else (None, FailAssert AMissing)
  | SChunk _ :: q' =>
      if drop then (None, FailAssert AMultiple) else walk dead xid true q'
  end.

(** base.py:434-471 [ControllerChannel.handle_proxy], the routing decision.
    [has_async]: the object has a handle_async attribute.  What the chosen
    callback does is not part of the step; since the lock is reentrant it may
    itself send, which is a later operation of the history. *)
Definition intercept (has_async : bool) (s : cch) (m : bytes) : cch * outcome :=
  match parse_ofp_header m with
  | Err e => (s, FailExn e)
  | Ok h =>
      if has_async && ((h_type h =? 10) || (h_type h =? 11) || (h_type h =? 12)) then (s, ToAsync)
      else
        let rest := match self_callback with Some f => ToCallback f | None => ToDefault end in
        match k_seq s with
        | [] => (s, rest)
        | (e :: _) as q =>
            if is_barrier_rep h then
              match walk (k_dead s) (h_xid h) false q with
              | (Some q', r) => (with_seq s q', r)
              | (None, r) => (s, r)
              end
            else
              match e with
              | SChunk cb => match live (k_dead s) cb with
                             | Some f => (s, ToCallback f)
                             | None => (s, rest)
                             end
              | SBarrier _ _ => (s, rest)
              end
        end
  end.

(** base.py:423-432 [ControllerChannel.recv] after the message has been
    received and negotiated; [None < 4] is true in Python 2. *)
Definition ctl_recv (s : cch) (m : bytes) : cch * res unit :=
  match m with
  | [] => (s, Ok tt)
  | _ :: _ =>
      match parse_ofp_header m with
      | Err e => (s, Err e)
      | Ok h =>
          if h_type h =? 6 then
            if match k_version s with None => true | Some v => v <? 4 end then
              match unpacks "!Q" m 8 with
              | Ok [VInt d] =>
                  (mkCch (k_seq s) (k_dead s) (k_version s) (k_wire s) (Some d) (k_aux s), Ok tt)
              | Ok _ => (s, Err ValueError)
              | Err e => (s, Err e)
              end
            else
              match unpacks "!QIBB" m 8 with
              | Ok [VInt d; _; _; VInt a] =>
                  (mkCch (k_seq s) (k_dead s) (k_version s) (k_wire s) (Some d) (Some a), Ok tt)
              | Ok _ => (s, Err ValueError)
              | Err e => (s, Err e)
              end
          else (s, Ok tt)
      end
  end.

(** A history: sends, received messages (recv, then handle_proxy), collection
    of a callback, a change of the negotiated version (base.py:230). *)
Inductive cop : Type :=
| CSend (handler : option nat) (m : bytes) (bxid : Z) (o1 o2 : option exn)
| CRecv (m : bytes)
| CDie (f : nat)
| CVersion (v : Z).

(** What an operation did: the result of a send, or what happened to a
    received message. *)
Inductive cres : Type := CSent (r : res unit) | CGot (o : outcome) | CNone.

Definition cstep (has_async : bool) (s : cch) (o : cop) : cch * cres :=
  match o with
  | CSend h m bxid o1 o2 => let '(s', r) := locked_send s h m bxid o1 o2 in (s', CSent r)
  | CRecv m =>
      match ctl_recv s m with
      | (s1, Err e) => (s1, CGot (FailExn e))
      | (s1, Ok _) => let '(s', r) := intercept has_async s1 m in (s', CGot r)
      end
  | CDie f => (mkCch (k_seq s) (f :: k_dead s) (k_version s) (k_wire s) (k_datapath s) (k_aux s), CNone)
  | CVersion v => (mkCch (k_seq s) (k_dead s) (Some v) (k_wire s) (k_datapath s) (k_aux s), CNone)
  end.

Fixpoint crun (has_async : bool) (s : cch) (os : list cop) : cch * list cres :=
  match os with
  | [] => (s, [])
  | o :: os' =>
      let '(s1, r) := cstep has_async s o in
      let '(s2, rs) := crun has_async s1 os' in (s2, r :: rs)
  end.

(** *** Combination with AutoEchoChannel *)

(** base.py:338-346 on a channel that is also a ControllerChannel: the reply
    goes through ControllerChannel.send without callback.  [next]: what
    super().handle_proxy does.  Result: state, where the message went
    ([Swallowed]: answered here). *)
Definition echo_layer (bxid : Z) (next : cch -> bytes -> cch * outcome) (s : cch) (m : bytes) : cch * outcome :=
  match m with
  | [] => (s, Swallowed)
  | _ :: _ =>
      match parse_ofp_header m with
      | Err e => (s, FailExn e)
      | Ok h =>
          if h_type h =? 2 then
            match packs "!BBHI" [vint (k_version s); VInt 3; VInt (h_length h); VInt (h_xid h)] with
            | Ok p => match locked_send s None (p ++ skipn 8 m) bxid None None with
                      | (s', Ok _) => (s', Swallowed)
                      | (s', Err e) => (s', FailExn e)
                      end
            | Err e => (s, FailExn e)
            end
          else next s m
      end
  end.

(** class (AutoEchoChannel, ControllerChannel, ...): echo first. *)
Definition echo_then_controller (has_async : bool) (bxid : Z) : cch -> bytes -> cch * outcome :=
  echo_layer bxid (intercept has_async).

(** class (ControllerChannel, AutoEchoChannel, ...), the order of
    twink/__main__.py:16 and test/test_basic.py:51: the controller routes
    first and only what it passes on (to the default handler or to
    handle_async) reaches the echo layer. *)
Definition controller_then_echo (has_async : bool) (bxid : Z) (s : cch) (m : bytes) : cch * outcome :=
  match intercept has_async s m with
  | (s1, ToDefault) => echo_layer bxid (fun s m => (s, ToDefault)) s1 m
  | (s1, ToAsync) => echo_layer bxid (fun s m => (s, ToAsync)) s1 m
  | r => r
  end.

(** Specification vocabulary for C117: synchronous calls during which nobody
    receives, and what calls leave behind. *)

From Verif Require Import Py M_Hello M_Controller M_Sync S_Hello S_Controller S_Sync.
Local Open Scope Z_scope.

(** Nobody receives: the call is made by the thread that reads the channel
    (inside the iteration over its messages, or in a callback), or before
    loop() has been started or after it has ended.  Other threads may make calls of their own and close
    the channel.  (handle() of a SyncChannel does not run in the reading
    thread, base.py:558; callbacks do, base.py:451 and 463 - where the lock is
    not reentrant they do not even get to send, C97.) *)
Definition meanwhile1 (x : Z) (t : nat) (e : ev) : Prop :=
  match e with
  | RTest _ | RLookup | RStore | RSignal => False
  | OPut y t' => y <> x /\ t' <> t
  | OPop y => y <> x
  | OClose => True
  end.
Definition meanwhile (x : Z) (t : nat) (es : list ev) : Prop := Forall (meanwhile1 x t) es.

(** Others make no call with transaction id [x]; the reader may do whatever it
    does. *)
Definition leaves1 (x : Z) (e : ev) : Prop :=
  match e with OPut y _ => y <> x | OPop y => y <> x | _ => True end.
Definition leaves (x : Z) (es : list ev) : Prop := Forall (leaves1 x) es.

(** The channel has an entry for transaction [x]. *)
Definition entry (s : sync) (x : Z) : Prop := dget (sy_map s) x <> None.

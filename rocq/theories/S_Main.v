(** Specification of a standalone OpenFlow 1.3 controller that does nothing:
    what it writes, by the messages it receives. *)

From Verif Require Import Py M_Channel M_Hello M_Loop S_Hello S_Loop.
Local Open Scope Z_scope.

(** The HELLO for version 4 alone: a version bitmap with bit 4. *)
Definition hello4 (xid : Z) : bytes := [4; 0; 0; 16] ++ be 4 xid ++ [0; 1; 0; 8; 0; 0; 0; 16].

(** [talk xid fin agreed ms written handled how]: having [agreed] on version 4,
    or not yet, and receiving the messages [ms], it writes [written], gives
    [handled] to the application, and ends [how]: if nothing else happens as
    [fin] says, which is [LReturned] when the stream ends after [ms] and
    [LWaiting] when it stays open. *)
Inductive talk (xid : Z) (fin : lend) : bool -> list bytes -> list bytes -> list bytes -> lend -> Prop :=
| T_end : forall v, talk xid fin v [] [] [] fin
| T_hello : forall v m ms w h e, hello_wf m -> advertises m 4 ->
    talk xid fin true ms w h e -> talk xid fin v (m :: ms) w (m :: h) e
| T_refuse : forall v m ms, hello_wf m -> ~ advertises m 4 ->
    talk xid fin v (m :: ms) [hello_failed 4 xid (bytes_of_string "Accept versions: ['1.3']")] [] LReturned
| T_bad_hello : forall v m ms e, byte_at m 1 = 0 -> ~ hello_wf m -> e = AssertionError \/ e = StructError ->
    talk xid fin v (m :: ms) [] [] (LRaised e)
| T_echo : forall m ms w h e, byte_at m 1 = 2 ->
    talk xid fin true ms w h e -> talk xid fin true (m :: ms) (echo_reply 4 m :: w) h e
| T_early_echo : forall m ms, byte_at m 1 = 2 -> talk xid fin false (m :: ms) [] [] (LRaised StructError)
| T_short_features : forall v m ms, byte_at m 1 = 6 -> zlen m < (if v : bool then 22 else 16) ->
    talk xid fin v (m :: ms) [] [] (LRaised StructError)
| T_features : forall v m ms w h e, byte_at m 1 = 6 -> (if v : bool then 22 else 16) <= zlen m ->
    talk xid fin v ms w h e -> talk xid fin v (m :: ms) w (m :: h) e
| T_other : forall v m ms w h e, byte_at m 1 <> 0 -> byte_at m 1 <> 2 -> byte_at m 1 <> 6 ->
    talk xid fin v ms w h e -> talk xid fin v (m :: ms) w (m :: h) e.

(** What the transport does after the messages: it ends, or stays open. *)
Inductive ending : lend -> list env -> Prop :=
| E_end : forall tl, ending LReturned (ERead (RData []) :: tl)
| E_wait : ending LWaiting [].

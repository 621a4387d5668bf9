(** Specifications for start-up, echo and the server loop. *)

From Verif Require Import Py M_Channel M_Hello M_Loop S_Framing S_Hello.
Local Open Scope Z_scope.

(** The reply to an ECHO_REQUEST: the request with the negotiated version in
    its first byte and type 3 in its second. *)
Definition echo_reply (v : Z) (m : bytes) : bytes := v :: 3 :: skipn 2 m.

Definition is_echo (m : bytes) : bool := byte_at m 1 =? 2.

(** What a server does with a list of messages: [nego] is the verdict of
    version negotiation on a message, [h] the application's handler (a
    function of what it has seen).  Result: messages seen, how the loop ends,
    whether it closed the channel. *)
Fixpoint serve (nego : bytes -> res bytes) (h : list bytes -> bytes -> list bytes * res unit)
    (seen ms : list bytes) : list bytes * lend * bool :=
  match ms with
  | [] => (seen, LReturned, false)
  | m :: ms' =>
      match nego m with
      | Err ChannelClose => (seen, LReturned, true)
      | Err e => (seen, LRaised e, false)
      | Ok _ =>
          match snd (h seen m) with
          | Ok _ => serve nego h (seen ++ [m]) ms'
          | Err ChannelClose => (seen ++ [m], LReturned, true)
          | Err e => (seen ++ [m], LRaised e, false)
          end
      end
  end.

(** A handler that never sends and never fails. *)
Definition silent (h : list bytes -> bytes -> list bytes * res unit) : Prop :=
  forall seen m, h seen m = ([], Ok tt).

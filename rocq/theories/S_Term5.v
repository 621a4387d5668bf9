(** Specification of the places that can hold up the OpenFlow 1.4 parser, and
    of the framing of built messages. *)

From Verif Require Import Py S_Hello.
From Verif Require Import S_Msg4.
Local Open Scope Z_scope.
Local Open Scope list_scope.

(** The first offset at which the parser looks for actions, instructions or
    properties with a length of their own in the message at [off]: PACKET_OUT,
    FLOW_MOD, GROUP_MOD, TABLE_MOD, and the replies with flow, port and queue
    statistics, group descriptions and queue descriptions. *)
Definition tlvs5_from (m : bytes) (off lo : nat) : Prop :=
  let ty := byte_at m (off + 1) in let mt := u16_at m (off + 8) in
  (ty = 13 /\ lo = (off + 24)%nat) \/ (ty = 14 /\ lo = (off + 48)%nat) \/ (ty = 15 /\ lo = (off + 32)%nat) \/
  (ty = 17 /\ lo = (off + 16)%nat) \/
  (ty = 19 /\ mt = 1 /\ lo = (off + 64)%nat) \/ (ty = 19 /\ mt = 4 /\ lo = (off + 136)%nat) \/
  (ty = 19 /\ mt = 5 /\ lo = (off + 64)%nat) \/ (ty = 19 /\ mt = 7 /\ lo = (off + 40)%nat) \/
  (ty = 19 /\ mt = 15 /\ lo = (off + 32)%nat).

(** The message at [o] is the one at [off] or one held in it: a REQUESTFORWARD
    (32) holds one behind its header, a BUNDLE_ADD_MESSAGE (34) behind its
    first sixteen bytes. *)
Inductive holds (m : bytes) : nat -> nat -> Prop :=
| holds_self off : holds m off off
| holds_forward off o : byte_at m (off + 1) = 32 -> holds m (off + 8) o -> holds m off o
| holds_bundle off o : byte_at m (off + 1) = 34 -> holds m (off + 16) o -> holds m off o.

(** Nothing in the message at [off] holds up the parser: no action,
    instruction or property of type 25 or 65535 with length zero, no
    experimenter band, no PORT_MOD, no ROLE_STATUS beginning like an
    experimenter property. *)
Definition unstuck (m : bytes) (off : nat) : Prop :=
  (forall lo, tlvs5_from m off lo -> forall o, (lo <= o)%nat -> ~ stuck_tlv m o) /\
  (byte_at m (off + 1) = 29 -> forall k, ~ stuck_band m (off + 16 + 16 * k)) /\
  (byte_at m (off + 1) = 19 /\ u16_at m (off + 8) = 10 -> forall o, (off + 24 <= o)%nat -> ~ stuck_band m o) /\
  byte_at m (off + 1) <> 16 /\
  (byte_at m (off + 1) = 30 -> u16_at m (off + 8) <> 65535).

(** *** Framing *)

(** A header of version 5 that announces the number of bytes. *)
Definition well_framed5 (b : bytes) : Prop :=
  (8 <= length b)%nat /\ byte_at b 0 = 5 /\ u16_at b 2 = Z.of_nat (length b) /\ Z.of_nat (length b) <= 65535.

(** The functions of ofp5/build.py that return a message, except ofp_meter_mod. *)
Definition message_builders5 : list string :=
  ["ofp_"; "ofp_switch_features"; "ofp_switch_config"; "ofp_table_mod"; "ofp_flow_mod"; "ofp_group_mod"; "ofp_port_mod";
   "ofp_multipart_request"; "ofp_multipart_reply"; "ofp_packet_out"; "ofp_role_request"; "ofp_bundle_ctrl_msg"; "ofp_bundle_add_msg";
   "ofp_async_config"; "ofp_packet_in"; "ofp_flow_removed"; "ofp_port_status"; "ofp_role_status"; "ofp_table_status";
   "ofp_requestforward_header"; "ofp_hello"; "ofp_error_msg"; "ofp_error_experimenter_msg"; "ofp_experimenter_msg"]%string.

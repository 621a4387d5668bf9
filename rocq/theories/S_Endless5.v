(** Specification vocabulary for C123: the byte strings the parser of OpenFlow
    1.4 never comes back from, in terms of the grammar of what it takes. *)

From Coq Require Import String.
From Verif Require Import Py Struct S_Accept4 S_Accept5 S_Unused S_Endless4.
Local Open Scope Z_scope.
Local Open Scope list_scope.

(** Lists of elements that hold no lists: actions (here of OpenFlow 1.4), bands
    (those of OpenFlow 1.3), properties. *)
Definition flat_endless (R : rel) (e off : nat) : Prop := endless R no_inner e off.

Definition instruction_endless (m : bytes) (off : nat) : Prop :=
  exists ty len o, In ty [3; 4; 5] /\ here m off [N 2; N 2; G 4] [VInt ty; VInt len] o /\ flat_endless (an_action m) (end_ off len) o.

(** A structure with a length (its field number [k]) up to which it has a list. *)
Definition list_within (fs : list fld) (k : nat) (E : nat -> nat -> Prop) (m : bytes) (off : nat) : Prop :=
  exists len vs o, here m off fs vs o /\ nth_error vs k = Some (VInt len) /\ E (end_ off len) o.

Definition bucket_endless (m : bytes) : nat -> Prop := list_within [N 2; N 2; N 4; N 4; G 4] 0 (flat_endless (an_action m)) m.

Definition instructions_endless (m : bytes) (e off : nat) : Prop := endless (an_instruction m) (instruction_endless m) e off.
Definition buckets_endless (m : bytes) (e off : nat) : Prop := endless (a_bucket m) (bucket_endless m) e off.

Definition flow_stats_endless (m : bytes) (off : nat) : Prop :=
  exists len vs o1 mt o2,
    here m off [N 2; N 1; G 1; N 4; N 4; N 2; N 2; N 2; N 2; G 4; N 8; N 8; N 8] (VInt len :: vs) o1 /\
    a_match m o1 mt o2 /\ instructions_endless m (end_ off len) o2.

(** The lists of replies that can be endless: type, elements, endless elements.
    Statistics of ports and queues are never taken, but can be endless. *)
Inductive reply_endless (m : bytes) : Z -> rel -> (nat -> Prop) -> Prop :=
| end_flow : reply_endless m 1 (flow_stats m) (flow_stats_endless m)
| end_port_stats : reply_endless m 4 nothing (list_within port_stats_fields 0 (flat_endless (port_stats_prop m)) m)
| end_queue_stats : reply_endless m 5 nothing (list_within queue_stats_fields 0 (flat_endless (queue_stats_prop m)) m)
| end_group_desc : reply_endless m 7 (with_list "ofp_group_desc" [N 2; N 1; G 1; N 4] 0 (a_bucket m) m)
    (list_within [N 2; N 1; G 1; N 4] 0 (buckets_endless m) m)
| end_meter_config : reply_endless m 10 (with_list "ofp_meter_config" [N 2; N 2; N 4] 0 (a_band m) m)
    (list_within [N 2; N 2; N 4] 0 (flat_endless (a_band m)) m)
| end_queue_desc : reply_endless m 15 (with_many "ofp_queue_desc" [N 4; N 4; N 2; G 6] 2 (queue_desc_prop m) m)
    (list_within [N 4; N 4; N 2; G 6] 2 (flat_endless (queue_desc_prop m)) m).

(** A property of a port modification of an unknown type is met again and
    again. *)
Definition unknown_port_mod_prop (m : bytes) (off : nat) : Prop := exists ty, typed m off ty /\ ~ In ty [0; 1; 65535].

(** A message with a header at [off], ending at [e] by that header. *)
Inductive body_endless (m : bytes) (e : nat) (off : nat) : Z -> Prop :=
| end_packet_out b i len o : here m (off + 8) [N 4; N 4; N 2; G 6] [b; i; VInt len] o -> flat_endless (an_action m) (end_ o len) o -> body_endless m e off 13
| end_flow_mod vs o1 mt o2 :
    here m (off + 8) [N 8; N 8; N 1; N 1; N 2; N 2; N 2; N 4; N 4; N 4; N 2; N 2] vs o1 -> a_match m o1 mt o2 ->
    instructions_endless m e o2 -> body_endless m e off 14
| end_group_mod vs o : here m (off + 8) [N 2; N 1; G 1; N 4] vs o -> buckets_endless m e o -> body_endless m e off 15
| end_port_mod vs o : here m off [N 4; G 4; T 6; G 2; N 4; N 4] vs o ->
    endless (port_mod_prop m) (unknown_port_mod_prop m) e (off + 8) -> body_endless m e off 16
| end_table_mod vs o : here m (off + 8) [N 1; G 3; N 4] vs o -> flat_endless (table_mod_prop m) e o -> body_endless m e off 17
| end_reply ty fl o R D : here m (off + 8) [N 2; N 2; G 4] [VInt ty; VInt fl] o -> reply_endless m ty R D ->
    endless R D e o -> body_endless m e off 19
| end_meter_mod vs o : here m (off + 8) [N 2; N 2; N 4] vs o -> flat_endless (a_band m) e o -> body_endless m e off 29
| end_role_status vs o : here m off [N 4; N 1; G 3; N 8] vs o -> (off + 8 < e)%nat -> typed m (off + 8) 65535 -> body_endless m e off 30.

(** Messages hold messages. *)
Inductive message_endless (m : bytes) : nat -> Prop :=
| end_body off ty len h : header m off ty len h -> body_endless m (end_ off len) off ty -> message_endless m off
| end_forwarded off len h : header m off 32 len h -> message_endless m (off + 8) -> message_endless m off
| end_bundle_add off len h vs o : header m off 34 len h -> here m (off + 8) [N 4; G 2; N 2] vs o -> message_endless m o -> message_endless m off.

(** A structure of a type and of length zero, with these fields behind. *)
Definition zero_long (m : bytes) (fs : list fld) (ty : Z) (off : nat) : Prop :=
  exists vs o, here m off (N 2 :: N 2 :: fs) (VInt ty :: VInt 0 :: vs) o.

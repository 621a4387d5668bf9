(** Specification vocabulary for C122: the byte strings the parser of OpenFlow
    1.3 never comes back from, in terms of the grammar of what it takes. *)

From Coq Require Import String.
From Verif Require Import Py Struct S_Name S_Accept4.
Local Open Scope Z_scope.
Local Open Scope list_scope.

(** A list up to [e] that has no end, read from [off]: after some elements,
    still before [e], comes one that ends where it begins, or one that has
    itself no end ([D]). *)
Inductive endless (R : nat -> pyval -> nat -> Prop) (D : nat -> Prop) (e : nat) : nat -> Prop :=
| endless_still off v : (off < e)%nat -> R off v off -> endless R D e off
| endless_inside off : (off < e)%nat -> D off -> endless R D e off
| endless_later off v o : (off < e)%nat -> R off v o -> endless R D e o -> endless R D e off.

Definition no_inner : nat -> Prop := fun _ => False.

(** Actions up to [e]: no action contains a list. *)
Definition actions_endless (m : bytes) (e off : nat) : Prop := endless (an_action m) no_inner e off.

(** An instruction, a bucket: its list of actions. *)
Definition instruction_endless (m : bytes) (off : nat) : Prop :=
  exists ty len o, In ty [3; 4; 5] /\ here m off [N 2; N 2; G 4] [VInt ty; VInt len] o /\ actions_endless m (end_ off len) o.
Definition bucket_endless (m : bytes) (off : nat) : Prop :=
  exists len w p g o, here m off [N 2; N 2; N 4; N 4; G 4] [VInt len; VInt w; VInt p; VInt g] o /\ actions_endless m (end_ off len) o.

Definition instructions_endless (m : bytes) (e off : nat) : Prop := endless (an_instruction m) (instruction_endless m) e off.
Definition buckets_endless (m : bytes) (e off : nat) : Prop := endless (a_bucket m) (bucket_endless m) e off.
Definition bands_endless (m : bytes) (e off : nat) : Prop := endless (a_band m) no_inner e off.

(** Elements of multipart replies. *)
Definition flow_stats_endless (m : bytes) (off : nat) : Prop :=
  exists len vs o1 mt o2,
    here m off [N 2; N 1; G 1; N 4; N 4; N 2; N 2; N 2; N 2; G 4; N 8; N 8; N 8] (VInt len :: vs) o1 /\
    a_match m o1 mt o2 /\ instructions_endless m (end_ off len) o2.
Definition group_desc_endless (m : bytes) (off : nat) : Prop :=
  exists len vs o, here m off [N 2; N 1; G 1; N 4] (VInt len :: vs) o /\ buckets_endless m (end_ off len) o.
Definition meter_config_endless (m : bytes) (off : nat) : Prop :=
  exists len vs o, here m off [N 2; N 2; N 4] (VInt len :: vs) o /\ bands_endless m (end_ off len) o.

Inductive reply_endless (m : bytes) : Z -> (nat -> Prop) -> Prop :=
| end_flow : reply_endless m 1 (flow_stats_endless m)
| end_group_desc : reply_endless m 7 (group_desc_endless m)
| end_meter_config : reply_endless m 10 (meter_config_endless m).

(** What follows the header, the message ending at [e] by its header. *)
Inductive body_endless (m : bytes) (e : nat) (off : nat) : Z -> Prop :=
| end_packet_out b i len o : here m off [N 4; N 4; N 2; G 6] [b; i; VInt len] o -> actions_endless m (end_ o len) o -> body_endless m e off 13
| end_flow_mod vs o1 mt o2 :
    here m off [N 8; N 8; N 1; N 1; N 2; N 2; N 2; N 4; N 4; N 4; N 2; G 2] vs o1 -> a_match m o1 mt o2 ->
    instructions_endless m e o2 -> body_endless m e off 14
| end_group_mod vs o : here m off [N 2; N 1; G 1; N 4] vs o -> buckets_endless m e o -> body_endless m e off 15
| end_reply ty fl o R D : here m off [N 2; N 2; G 4] [VInt ty; VInt fl] o -> reply_element m ty R -> reply_endless m ty D ->
    endless R D e o -> body_endless m e off 19
| end_meter_mod vs o : here m off [N 2; N 2; N 4] vs o -> bands_endless m e o -> body_endless m e off 29.

Definition message_endless (m : bytes) (off : nat) : Prop :=
  exists ty len h, header m off ty len h /\ body_endless m (end_ off len) (off + 8) ty.

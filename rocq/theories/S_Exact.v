(** Specification vocabulary for C115: exactly what a builder accepts and what
    it makes of it.  The layouts are those of the OpenFlow 1.3 and 1.4
    specifications (7.1 to 7.5), with the places where the library differs
    marked.  Independent of the builders. *)

From Coq Require Import String.
From Verif Require Import Py Struct S_Hello S_Head S_Wire4 S_Fixed.
Local Open Scope Z_scope.
Local Open Scope list_scope.

(** The parts of a structure or of the body of a message, in order:
    - fields of fixed size, as in C111;
    - text: bytes, cut or filled up with zeros; text that may be left out;
    - exactly [n] bytes;
    - bytes; bytes that may be left out;
    - one structure;
    - any number of structures: bytes, or a list or tuple of structures, which
      are built in turn, or nothing;
    - the length of the whole, whatever the caller writes for it; it is stated
      as [k], a function of the number of bytes and of how many of them are
      padding at the end;
    - the length of the actions, whatever the caller writes, six zeros and the
      actions (packet_out);
    - zeros up to a multiple of eight bytes. *)
Inductive part : Type :=
| Fields (cs : list cell)
| Text (n : nat)
| OptText (n : nat)
| Data
| OptData
| One
| Many
| Total (w : nat) (k : Z -> Z -> Z)
| Actions
| Align.

(** A value that stands for any number of structures; [o v b]: the value [v] is
    built into the bytes [b]. *)
Inductive many (o : pyval -> bytes -> Prop) : pyval -> bytes -> Prop :=
| many_bytes b : many o (VBytes b) b
| many_none : many o VNone []
| many_list l bs : Forall2 o l bs -> many o (VList l) (concat bs)
| many_tuple c l bs : Forall2 o l bs -> many o (VTup c l) (concat bs).

(** Text of [n] bytes. *)
Definition cut (n : nat) (s : bytes) : bytes := firstn n s ++ repeat 0 (n - length s).

(** The arguments give these bytes; [N] is the number of all bytes, [P] the
    number of those that are padding at the end. *)
Inductive gives (o : pyval -> bytes -> Prop) (N P : nat) : list part -> list pyval -> bytes -> Prop :=
| give_end : gives o N P [] [] []
| give_fields cs ps a args zs b : says cs a zs -> gives o N P ps args b -> gives o N P (Fields cs :: ps) (a ++ args) (laid_out cs zs ++ b)
| give_text n ps s args b : gives o N P ps args b -> gives o N P (Text n :: ps) (VBytes s :: args) (cut n s ++ b)
| give_opttext n ps s args b : gives o N P ps args b -> gives o N P (OptText n :: ps) (VBytes s :: args) (cut n s ++ b)
| give_notext n ps args b : gives o N P ps args b -> gives o N P (OptText n :: ps) (VNone :: args) (repeat 0 n ++ b)
| give_data ps s args b : gives o N P ps args b -> gives o N P (Data :: ps) (VBytes s :: args) (s ++ b)
| give_optdata ps s args b : gives o N P ps args b -> gives o N P (OptData :: ps) (VBytes s :: args) (s ++ b)
| give_nodata ps args b : gives o N P ps args b -> gives o N P (OptData :: ps) (VNone :: args) b
| give_one ps v c args b : o v c -> gives o N P ps args b -> gives o N P (One :: ps) (v :: args) (c ++ b)
| give_many ps v c args b : many o v c -> gives o N P ps args b -> gives o N P (Many :: ps) (v :: args) (c ++ b)
| give_total w k ps a args b : let z := k (Z.of_nat N) (Z.of_nat P) in
    0 <= z < 2 ^ (8 * Z.of_nat w) -> gives o N P ps args b -> gives o N P (Total w k :: ps) (a :: args) (be w z ++ b)
| give_actions ps a v c args b : many o v c -> Z.of_nat (length c) < 65536 -> gives o N P ps args b ->
    gives o N P (Actions :: ps) (a :: v :: args) (be 2 (Z.of_nat (length c)) ++ repeat 0 6 ++ c ++ b)
| give_align ps args b : (P < 8)%nat -> (N mod 8 = 0)%nat -> gives o N P ps args b -> gives o N P (Align :: ps) args (repeat 0 P ++ b).

Definition made (o : pyval -> bytes -> Prop) (ps : list part) (args : list pyval) (b : bytes) : Prop :=
  exists P, gives o (length b) P ps args b.

(** The message with this body: the version, the type the header argument asks
    for - it may be left open where there is only one -, the number of bytes,
    and the transaction id of the header argument or else [dx]. *)
Definition framed (dx version : Z) (types : list Z) (h : pyval) (body b : bytes) : Prop :=
  exists v t' t x, header_says dx h v t' x /\
    (v = None \/ v = Some version) /\ In t types /\ (t' = Some t \/ t' = None /\ types = [t]) /\
    0 <= x < 2 ^ 32 /\ 8 + Z.of_nat (length body) < 65536 /\
    b = be 1 version ++ be 1 t ++ be 2 (8 + Z.of_nat (length body)) ++ be 4 x ++ body.

Local Open Scope string_scope.

(** *** The messages *)

Definition flow_mod_fields (l : list cell) : part :=
  Fields ([Num 8; Num 8; Num 1; Num 1; Num 2; Num 2; Num 2; Opt 4 4294967295; Opt 4 4294967295; Opt 4 4294967295; Num 2] ++ l).

Definition messages : list (string * list Z * list part) :=
  [ ("ofp_hello", [0], [Many]);
    ("ofp_error_msg", [1], [Fields [Num 2; Num 2]; OptData]);
    ("ofp_switch_features", [6], [Fields [Num 8; Num 4; Num 1; Num 1; Gap 2; Num 4; Gap 4]]);
    ("ofp_switch_config", [8; 9], [Fields [Num 2; Opt 2 65535]]);
    ("ofp_packet_in", [10], [Fields [Num 4; Num 2; Num 1; Num 1; Num 8]; One; Fields [Gap 2]; Data]);
    ("ofp_flow_removed", [11], [Fields [Num 8; Num 2; Num 1; Num 1; Num 4; Num 4; Num 2; Num 2; Num 8; Num 8]; One]);
    ("ofp_packet_out", [13], [Fields [Opt 4 4294967295; Num 4]; Actions; OptData]);
    ("ofp_group_mod", [15], [Fields [Num 2; Num 1; Gap 1; Num 4]; Many]);
    ("ofp_role_request", [24; 25], [Fields [Num 4; Gap 4; Num 8]]) ].

Definition messages4 : list (string * list Z * list part) :=
  (messages ++
  [ ("ofp_experimenter_header", [4], [Fields [Num 4; Num 4]; Data]);
    ("ofp_port_status", [12], [Fields [Num 1; Gap 7]; One]);
    ("ofp_flow_mod", [14], [flow_mod_fields [Gap 2]; One; Many]);
    ("ofp_port_mod", [16], [Fields [Num 4; Gap 4]; Text 6; Fields [Gap 2; Num 4; Num 4; Num 4; Gap 4]]);
    ("ofp_table_mod", [17], [Fields [Num 1; Gap 3; Num 4]]);
    ("ofp_queue_get_config_request", [22], [Fields [Num 4; Gap 4]]);
    ("ofp_queue_get_config_reply", [23], [Fields [Num 4; Gap 4]; Many]);
    ("ofp_meter_mod", [29], [Fields [Num 2; Num 2; Num 4]; Many]) ])%list.

(** A role status goes out as a role request or reply; a table status with two
    bytes for the reason. *)
Definition messages5 : list (string * list Z * list part) :=
  (messages ++
  [ ("ofp_error_experimenter_msg", [1], [Fields [Const 2 65535; Num 2; Num 4]; Data]);
    ("ofp_experimenter_msg", [4], [Fields [Num 4; Num 4]; OptData]);
    ("ofp_flow_mod", [14], [flow_mod_fields [Num 2]; One; Many]);
    ("ofp_port_mod", [16], [Fields [Num 4; Gap 4]; Text 6; Fields [Gap 2; Num 4; Num 4]; Many]);
    ("ofp_table_mod", [17], [Fields [Num 1; Gap 3; Num 4]; Data]);
    ("ofp_async_config", [27; 28], [Many]);
    ("ofp_role_status", [24; 25], [Fields [Num 4; Num 1; Gap 3; Num 8]; Many]);
    ("ofp_table_status", [31], [Fields [Num 2; Gap 7]; One]);
    ("ofp_requestforward_header", [32], [One]);
    ("ofp_bundle_ctrl_msg", [33], [Fields [Num 4; Num 2; Num 2]; Many]);
    ("ofp_bundle_add_msg", [34], [Fields [Num 4; Gap 2; Num 2]; One; Many]) ])%list.

(** *** The structures that hold others *)

Definition total (n p : Z) : Z := n.
Definition unpadded (n p : Z) : Z := n - p.

Definition structures : list (string * list part) :=
  [ ("ofp_match", [Fields [Opt 2 1]; Total 2 unpadded; Many; Align]);
    ("ofp_action_set_field", [Fields [Kind 25]; Total 2 total; Data; Align]);
    ("ofp_action_experimenter_", [Fields [Kind 65535]; Total 2 total; Fields [Num 4]; Data; Align]);
    ("ofp_bucket", [Total 2 total; Fields [Num 2; Num 4; Num 4; Gap 4]; Many; Align]);
    ("ofp_meter_band_experimenter", [Fields [Kind 65535]; Total 2 total; Fields [Num 4; Num 4; Num 4]; Data]);
    ("ofp_desc", [OptText 256; OptText 256; OptText 256; OptText 32; OptText 256]);
    ("ofp_flow_stats", [Total 2 total; Fields [Num 1; Gap 1; Num 4; Num 4; Num 2; Num 2; Num 2; Num 2; Gap 4; Num 8; Num 8; Num 8]; One; Many]);
    ("ofp_table_features", [Total 2 total; Fields [Num 1; Gap 5]; Text 32; Fields [Num 8; Num 8; Num 4; Num 4]; Many]);
    ("ofp_table_feature_prop_instructions", [Fields [OneOf [0; 1]]; Total 2 unpadded; Many; Align]);
    ("ofp_table_feature_prop_actions", [Fields [OneOf [4; 5; 6; 7]]; Total 2 unpadded; Many; Align]);
    ("ofp_group_stats", [Total 2 total; Fields [Gap 2; Num 4; Num 4; Gap 4; Num 8; Num 8; Num 4; Num 4]; Many]);
    ("ofp_group_desc", [Total 2 total; Fields [Num 1; Gap 1; Num 4]; Many]);
    (* the length is the caller's *)
    ("ofp_meter_stats", [Fields [Num 4; Num 2; Gap 6; Num 4; Num 8; Num 8; Num 4; Num 4]; Many]);
    ("ofp_meter_config", [Total 2 total; Fields [Num 2; Num 4]; Many]) ].

(** The length of actions is stated rounded up - though they are not padded
    (1.4). *)
Definition rounded (n p : Z) : Z := (n + 7) / 8 * 8.

Definition structures4 : list (string * list part) :=
  (structures ++
  [ ("ofp_packet_queue", [Fields [Num 4; Num 4]; Total 2 total; Fields [Gap 6]; Many]);
    ("ofp_instruction_actions", [Fields [OneOf [3; 4; 5]]; Total 2 total; Fields [Gap 4]; Many]);
    ("ofp_instruction_experimenter", [Fields [Kind 65535]; Total 2 total; Fields [Num 4]; One]);
    ("ofp_table_feature_prop_next_tables", [Fields [OneOf [2; 3]]; Total 2 unpadded; Many; Align]) ])%list.

(** A flow update states eight bytes more than it has. *)
Definition structures5 : list (string * list part) :=
  (structures ++
  [ ("ofp_instruction_actions", [Fields [OneOf [3; 4; 5]]; Total 2 rounded; Fields [Gap 4]; Many]);
    ("ofp_instruction_experimenter_", [Fields [Kind 65535]; Total 2 total; Fields [Num 4]; One]);
    ("ofp_table_desc", [Total 2 total; Fields [Num 1; Gap 1; Num 4]; Many]);
    ("ofp_table_feature_prop_tables", [Fields [OneOf [2; 3]]; Total 2 unpadded; Many; Align]);
    ("ofp_port_stats", [Total 2 total; Fields [Gap 2; Num 4; Num 4; Num 4; Num 8; Num 8; Num 8; Num 8; Num 8; Num 8; Num 8; Num 8]; Many]);
    ("ofp_port_stats_prop_experimenter", [Fields [Const 2 65535]; Total 2 total; Fields [Num 4; Num 4]; OptData]);
    ("ofp_queue_stats", [Total 2 total; Fields [Gap 6; Num 4; Num 4; Num 8; Num 8; Num 8; Num 4; Num 4]; Many]);
    ("ofp_queue_desc", [Fields [Num 4; Num 4]; Total 2 total; Fields [Gap 6]; Many]);
    ("ofp_flow_monitor_request", [Fields [Num 4; Num 4; Num 4; Num 2; Num 1; Num 1]; One]);
    ("ofp_flow_update_full", [Total 2 (fun n _ => n + 8); Fields [Num 2; Num 1; Num 1; Num 2; Num 2; Num 2; Gap 4; Num 8]; One; Many]) ])%list.

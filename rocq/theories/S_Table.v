(** Specification for C110: table features, OpenFlow 1.3 (7.3.5.5). *)

From Verif Require Import Py Struct S_Hello S_Ports S_Wire4.
Local Open Scope Z_scope.
Local Open Scope list_scope.

(** A property: its type and the instructions, tables, actions or match fields
    that the table has; or an experimenter's bytes. *)
Inductive tfprop : Type :=
| TfInstructions (ty : Z) (ids : list Z)
| TfTables (ty : Z) (ids : list Z)
| TfActions (ty : Z) (ids : list Z)
| TfOxm (ty : Z) (ids : list Z)
| TfExperimenter (ty experimenter exp_type : Z) (data : bytes).

Definition tf_type (p : tfprop) : Z :=
  match p with TfInstructions ty _ | TfTables ty _ | TfActions ty _ | TfOxm ty _ | TfExperimenter ty _ _ _ => ty end.

(** The types of each kind: with and without the suffix _MISS. *)
Definition tf_types (p : tfprop) : list Z :=
  match p with
  | TfInstructions _ _ => [0; 1]
  | TfTables _ _ => [2; 3]
  | TfActions _ _ => [4; 5; 6; 7]
  | TfOxm _ _ => [8; 10; 12; 13; 14; 15]
  | TfExperimenter _ _ _ _ => [65534; 65535]
  end.

(** Instructions and actions are named by their type and the length of that
    name, four; tables by one byte, match fields by their OXM header. *)
Definition id_wire (t : Z) : bytes := be 2 t ++ be 2 4.
Definition tf_body (p : tfprop) : bytes :=
  match p with
  | TfInstructions _ ids | TfActions _ ids => concat (map id_wire ids)
  | TfTables _ ids => concat (map (be 1) ids)
  | TfOxm _ ids => concat (map (be 4) ids)
  | TfExperimenter _ e t d => be 4 e ++ be 4 t ++ d
  end.

(** Type, length without the padding, contents, padding to eight bytes. *)
Definition tf_wire (p : tfprop) : bytes :=
  be 2 (tf_type p) ++ be 2 (4 + zlen (tf_body p)) ++ tf_body p ++ zeros (gap (4 + length (tf_body p))).

Definition tf_ok (p : tfprop) : Prop :=
  In (tf_type p) (tf_types p) /\ 4 + zlen (tf_body p) < 65536 /\
  match p with
  | TfInstructions _ ids | TfActions _ ids => Forall u16 ids
  | TfTables _ ids => Forall u8 ids
  | TfOxm _ ids => Forall u32 ids
  | TfExperimenter _ e t _ => u32 e /\ u32 t
  end.

Record tfeat : Type := TFeat { tf_id : Z; tf_name : bytes; tf_match : Z; tf_write : Z; tf_config : Z; tf_max : Z; tf_props : list tfprop }.
Definition tfprops_wire (ps : list tfprop) : bytes := concat (map tf_wire ps).
Definition tfeat_wire (t : tfeat) : bytes :=
  be 2 (64 + zlen (tfprops_wire (tf_props t))) ++ be 1 (tf_id t) ++ zeros 5 ++
  (tf_name t ++ zeros (32 - length (tf_name t))) ++ be 8 (tf_match t) ++ be 8 (tf_write t) ++ be 4 (tf_config t) ++ be 4 (tf_max t) ++
  tfprops_wire (tf_props t).
Definition u64 (z : Z) : Prop := 0 <= z < 18446744073709551616.
Definition tfeat_ok (t : tfeat) : Prop :=
  u8 (tf_id t) /\ (length (tf_name t) <= 32)%nat /\ u64 (tf_match t) /\ u64 (tf_write t) /\ u32 (tf_config t) /\ u32 (tf_max t) /\
  64 + zlen (tfprops_wire (tf_props t)) < 65536 /\ Forall tf_ok (tf_props t).

(** *** What a caller may write *)

Inductive inst_id_arg : pyval -> Z -> Prop :=
| II_bytes t : inst_id_arg (VBytes (id_wire t)) t
| II_obj t : inst_id_arg (VTup "ofp_instruction" [VInt t; VInt 4]) t.
Inductive oxm_ids_arg : pyval -> list Z -> Prop :=
| OI_none : oxm_ids_arg VNone []
| OI_bytes ids : oxm_ids_arg (VBytes (concat (map (be 4) ids))) ids
| OI_list ids : oxm_ids_arg (VList (map VInt ids)) ids
| OI_tup c ids : oxm_ids_arg (VTup c (map VInt ids)) ids.

(** Properties as bytes, or as objects, whose length does not matter, with
    the ids of tables and actions given as bytes and without the types 14 and
    15 of match field properties and without experimenter properties. *)
Inductive tf_arg : pyval -> tfprop -> Prop :=
| TA_bytes p : tf_arg (VBytes (tf_wire p)) p
| TA_instructions ty l v ids : list_arg inst_id_arg id_wire v ids ->
    tf_arg (VTup "ofp_table_feature_prop_instructions" [VInt ty; l; v]) (TfInstructions ty ids)
| TA_tables ty l v ids : list_arg (fun b i => b = VBytes (be 1 i)) (be 1) v ids ->
    tf_arg (VTup "ofp_table_feature_prop_next_tables" [VInt ty; l; v]) (TfTables ty ids)
| TA_actions ty l v ids : list_arg (fun b i => b = VBytes (id_wire i)) id_wire v ids ->
    tf_arg (VTup "ofp_table_feature_prop_actions" [VInt ty; l; v]) (TfActions ty ids)
| TA_oxm ty l v ids : oxm_ids_arg v ids -> ty <> 14 -> ty <> 15 ->
    tf_arg (VTup "ofp_table_feature_prop_oxm" [VInt ty; l; v]) (TfOxm ty ids).

Inductive tfeat_arg : pyval -> tfeat -> Prop :=
| TF_bytes t : tfeat_arg (VBytes (tfeat_wire t)) t
| TF_obj t l v : list_arg tf_arg tf_wire v (tf_props t) ->
    tfeat_arg (VTup "ofp_table_features" [l; VInt (tf_id t); VBytes (tf_name t); VInt (tf_match t); VInt (tf_write t);
      VInt (tf_config t); VInt (tf_max t); v]) t.

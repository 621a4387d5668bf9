(** Specification for C113: table features, OpenFlow 1.4 (7.3.5.5). *)

From Verif Require Import Py Struct S_Hello S_Ports S_Wire4.
Local Open Scope Z_scope.
Local Open Scope list_scope.

(** Instructions and actions are named by their type, the length of the name
    and, for an experimenter's, its data. *)
Definition fid : Type := (Z * bytes)%type.
Definition fid_wire (i : fid) : bytes := be 2 (fst i) ++ be 2 (4 + zlen (snd i)) ++ snd i.
Definition fid_ok (i : fid) : Prop := u16 (fst i) /\ 4 + zlen (snd i) < 65536 /\ (snd i <> [] -> fst i = 65535).

Inductive fprop : Type :=
| FInstructions (ty : Z) (ids : list fid)
| FTables (ty : Z) (ids : list Z)
| FActions (ty : Z) (ids : list fid)
| FOxm (ty : Z) (ids : list Z).

Definition f_type (p : fprop) : Z := match p with FInstructions ty _ | FTables ty _ | FActions ty _ | FOxm ty _ => ty end.
(** Type 16, TABLE_SYNC_FROM, holds tables as 2 and 3 do. *)
Definition f_types (p : fprop) : list Z :=
  match p with
  | FInstructions _ _ => [0; 1]
  | FTables _ _ => [2; 3; 16]
  | FActions _ _ => [4; 5; 6; 7]
  | FOxm _ _ => [8; 10; 12; 13; 14; 15]
  end.
Definition f_body (p : fprop) : bytes :=
  match p with
  | FInstructions _ ids | FActions _ ids => concat (map fid_wire ids)
  | FTables _ ids => concat (map (be 1) ids)
  | FOxm _ ids => concat (map (be 4) ids)
  end.
Definition f_wire (p : fprop) : bytes :=
  be 2 (f_type p) ++ be 2 (4 + zlen (f_body p)) ++ f_body p ++ zeros (gap (4 + length (f_body p))).
Definition f_ok (p : fprop) : Prop :=
  In (f_type p) (f_types p) /\ 4 + zlen (f_body p) < 65536 /\
  match p with
  | FInstructions _ ids | FActions _ ids => Forall fid_ok ids
  | FTables _ ids => Forall u8 ids
  | FOxm _ ids => Forall u32 ids
  end.

Record feat : Type := Feat { ft_id : Z; ft_name : bytes; ft_match : Z; ft_write : Z; ft_caps : Z; ft_max : Z; ft_props : list fprop }.
Definition fprops_wire (ps : list fprop) : bytes := concat (map f_wire ps).
Definition feat_wire (t : feat) : bytes :=
  be 2 (64 + zlen (fprops_wire (ft_props t))) ++ be 1 (ft_id t) ++ zeros 5 ++
  (ft_name t ++ zeros (32 - length (ft_name t))) ++ be 8 (ft_match t) ++ be 8 (ft_write t) ++ be 4 (ft_caps t) ++ be 4 (ft_max t) ++
  fprops_wire (ft_props t).
Definition feat_ok (t : feat) : Prop :=
  u8 (ft_id t) /\ (length (ft_name t) <= 32)%nat /\ 0 <= ft_match t < 18446744073709551616 /\ 0 <= ft_write t < 18446744073709551616 /\
  u32 (ft_caps t) /\ u32 (ft_max t) /\ 64 + zlen (fprops_wire (ft_props t)) < 65536 /\ Forall f_ok (ft_props t).

(** *** What a caller may write *)

(** An id as bytes or as an object whose length does not matter. *)
Inductive fid_arg (cls : string) : pyval -> fid -> Prop :=
| FI_bytes i : fid_arg cls (VBytes (fid_wire i)) i
| FI_obj t l d : fid_arg cls (VTup cls [VInt t; l; VBytes d]) (t, d)
| FI_none t l : fid_arg cls (VTup cls [VInt t; l; VNone]) (t, []).
Inductive words_arg : pyval -> list Z -> Prop :=
| WA_none : words_arg VNone []
| WA_bytes ids : words_arg (VBytes (concat (map (be 4) ids))) ids
| WA_list ids : words_arg (VList (map VInt ids)) ids
| WA_tup c ids : words_arg (VTup c (map VInt ids)) ids.

(** Without the types 14, 15 and 16 for objects, and with the ids of tables as
    bytes. *)
Inductive f_arg : pyval -> fprop -> Prop :=
| FA_bytes p : f_arg (VBytes (f_wire p)) p
| FA_instructions ty l v ids : list_arg (fid_arg "ofp_instruction_id") fid_wire v ids ->
    f_arg (VTup "ofp_table_feature_prop_instructions" [VInt ty; l; v]) (FInstructions ty ids)
| FA_tables ty l v ids : list_arg (fun b i => b = VBytes (be 1 i)) (be 1) v ids -> ty <> 16 ->
    f_arg (VTup "ofp_table_feature_prop_tables" [VInt ty; l; v]) (FTables ty ids)
| FA_actions ty l v ids : list_arg (fid_arg "ofp_action_id") fid_wire v ids ->
    f_arg (VTup "ofp_table_feature_prop_actions" [VInt ty; l; v]) (FActions ty ids)
| FA_oxm ty l v ids : words_arg v ids -> ty <> 14 -> ty <> 15 ->
    f_arg (VTup "ofp_table_feature_prop_oxm" [VInt ty; l; v]) (FOxm ty ids).

Inductive feat_arg : pyval -> feat -> Prop :=
| FT_bytes t : feat_arg (VBytes (feat_wire t)) t
| FT_obj t l v : list_arg f_arg f_wire v (ft_props t) ->
    feat_arg (VTup "ofp_table_features" [l; VInt (ft_id t); VBytes (ft_name t); VInt (ft_match t); VInt (ft_write t);
      VInt (ft_caps t); VInt (ft_max t); v]) t.

(** *** What a parser is to return *)

Definition fid_view (cls : string) (i : fid) : pyval := VTup cls [VInt (fst i); VInt (4 + zlen (snd i)); VBytes (snd i)].
Definition f_view (p : fprop) : pyval :=
  let len := VInt (4 + zlen (f_body p)) in
  match p with
  | FInstructions ty ids => VTup "ofp_table_feature_prop_instructions" [VInt ty; len; VList (map (fid_view "ofp_instruction_id") ids)]
  | FTables ty ids => VTup "ofp_table_feature_prop_tables" [VInt ty; len; VTup "tuple" (map VInt ids)]
  | FActions ty ids => VTup "ofp_table_feature_prop_actions" [VInt ty; len; VList (map (fid_view "ofp_action_id") ids)]
  | FOxm ty ids => VTup "ofp_table_feature_prop_oxm" [VInt ty; len; VTup "tuple" (map VInt ids)]
  end.

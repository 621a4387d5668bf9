(** Property C110: table features, OpenFlow 1.3. *)

From Verif Require Import Py Struct P_Struct S_Hello S_Ports P_Hello S_Wire4 S_Msg4 S_Table M_Build4 M_Parse4 P_Wire4 P_Act4 P_Table.
Local Open Scope Z_scope.
Local Open Scope list_scope.

(** A single property, written in any of the ways, is built as the
    specification lays it out.  Missing: what the refutations below name. *)
Theorem C110_property_built_partial : forall dx d v p, tf_arg v p -> tf_ok p -> (2 <= d)%nat -> obj dx d v = Ok (tf_wire p).
Proof. exact tf_build. Qed.
Print Assumptions C110_property_built_partial.

(** So are requests and replies with any number of tables, each with any
    properties. *)
Theorem C110_request_built_partial : forall dx d xid h f v ts,
  hdr_arg dx true 18 xid h -> u32 xid -> u16 f -> list_arg tfeat_arg tfeat_wire v ts -> v <> VNone -> Forall tfeat_ok ts ->
  zlen (concat (map tfeat_wire ts)) <= 65519 -> (3 <= d)%nat ->
  call (obj dx d) dx "ofp_multipart_request" [h; VInt 12; VInt f; v] = Ok (msg 4 18 xid (be 2 12 ++ be 2 f ++ zeros 4 ++ concat (map tfeat_wire ts))).
Proof. exact request_build. Qed.
Print Assumptions C110_request_built_partial.

Theorem C110_reply_built_partial : forall dx d xid h f v ts,
  hdr_arg dx true 19 xid h -> u32 xid -> u16 f -> items_arg tfeat_arg v ts -> Forall tfeat_ok ts ->
  zlen (concat (map tfeat_wire ts)) <= 65519 -> (3 <= d)%nat ->
  call (obj dx d) dx "ofp_multipart_reply" [h; VInt 12; VInt f; v] = Ok (msg 4 19 xid (be 2 12 ++ be 2 f ++ zeros 4 ++ concat (map tfeat_wire ts))).
Proof. exact reply_build. Qed.
Print Assumptions C110_reply_built_partial.

(** A property of a type that is not of its kind is refused. *)
Theorem C110_wrong_type : forall dx d ty l v,
  (~ In ty [0; 1] -> forall w, obj dx d (VTup "ofp_table_feature_prop_instructions" [VInt ty; l; v]) <> Ok w) /\
  (~ In ty [2; 3] -> forall w, obj dx d (VTup "ofp_table_feature_prop_next_tables" [VInt ty; l; v]) <> Ok w) /\
  (~ In ty [4; 5; 6; 7] -> forall w, obj dx d (VTup "ofp_table_feature_prop_actions" [VInt ty; l; v]) <> Ok w).
Proof.
  intros dx [|d] ty l v; [repeat split; intros _ w E; discriminate E|].
  assert (N : forall types ids w, ~ In ty types -> feature_prop (VInt ty) types ids <> Ok w).
  { intros types ids w Hn. unfold feature_prop. destruct (py_inz (VInt ty) types) eqn:E; [|discriminate].
    exfalso. apply Hn. unfold py_inz in E. apply existsb_exists in E. destruct E as (z & Hz & Ez).
    apply Z.eqb_eq in Ez. subst z. exact Hz. }
  repeat split; intros Hn w.
  - change (ofp_table_feature_prop_instructions (obj dx d) (VInt ty) l v <> Ok w). unfold ofp_table_feature_prop_instructions.
    destruct (seqarg (obj dx d) v); [apply N; exact Hn | discriminate].
  - change (ofp_table_feature_prop_next_tables (obj dx d) (VInt ty) l v <> Ok w). unfold ofp_table_feature_prop_next_tables.
    destruct (seqarg (obj dx d) v); [apply N; exact Hn | discriminate].
  - change (ofp_table_feature_prop_actions (obj dx d) (VInt ty) l v <> Ok w). unfold ofp_table_feature_prop_actions.
    destruct (seqarg (obj dx d) v); [apply N; exact Hn | discriminate].
Qed.
Print Assumptions C110_wrong_type.

(** Refuted for the properties with match fields: the types APPLY_SETFIELD and
    APPLY_SETFIELD_MISS, 14 and 15, are refused; 9 and 11, which are no types,
    are built. *)
Theorem C110_oxm_types_refuted : forall dx d l v ids, oxm_ids_arg v ids -> Forall u32 ids -> 4 + 4 * Z.of_nat (length ids) < 65536 -> (1 <= d)%nat ->
  (forall ty, In ty [14; 15] -> obj dx d (VTup "ofp_table_feature_prop_oxm" [VInt ty; l; v]) = Err AssertionError) /\
  (forall ty, In ty [9; 11] -> obj dx d (VTup "ofp_table_feature_prop_oxm" [VInt ty; l; v]) = Ok (tf_wire (TfOxm ty ids))).
Proof.
  intros dx [|d] l v ids Hv Hi Hl Hd; [lia|]. split; intros ty Ht;
    change (obj dx (S d) (VTup "ofp_table_feature_prop_oxm" [VInt ty; l; v])) with (ofp_table_feature_prop_oxm (VInt ty) l v);
    unfold ofp_table_feature_prop_oxm; rewrite (oxm_ids_build v ids Hv Hi); cbn [bind].
  - destruct Ht as [<-|[<-|[]]]; reflexivity.
  - refine (proj1 (feature_build ty [8; 9; 10; 11; 12; 13] l _ _ _ _)).
    + cbn in *. intuition lia.
    + cbn in Ht. unfold u16. intuition lia.
    + unfold zlen. rewrite be_words_len. lia.
Qed.
Print Assumptions C110_oxm_types_refuted.

(** Refuted: no experimenter property is built from an object. *)
Theorem C110_experimenter_refuted : forall dx d ty l e t data, (1 <= d)%nat ->
  obj dx d (VTup "ofp_table_feature_prop_experimenter" [ty; l; e; t; data]) = Err NameError.
Proof. intros dx [|d] ty l e t data Hd; [lia | reflexivity]. Qed.
Print Assumptions C110_experimenter_refuted.

(** Refuted: the ids of the next tables cannot be given as numbers. *)
Theorem C110_table_ids_refuted : forall dx d ty l i ids, (2 <= d)%nat ->
  obj dx d (VTup "ofp_table_feature_prop_next_tables" [ty; l; VList (VInt i :: ids)]) = Err ValueError.
Proof. intros dx [|[|d]] ty l i ids Hd; try lia. reflexivity. Qed.
Print Assumptions C110_table_ids_refuted.

(** Refuted: actions named by header objects - what the parser returns for
    them - take twice the room that the specification gives them. *)
Theorem C110_action_ids_refuted : forall dx d ty l ids, In ty [4; 5; 6; 7] -> Forall u16 ids -> 4 + 8 * Z.of_nat (length ids) < 65536 ->
  ids <> [] -> (2 <= d)%nat ->
  exists w, obj dx d (VTup "ofp_table_feature_prop_actions" [VInt ty; l; VList (map (fun t => VTup "ofp_action_header" [VInt t; VInt 4]) ids)]) = Ok w /\
    w <> tf_wire (TfActions ty ids) /\ u16_at w 2 = 4 + 8 * Z.of_nat (length ids).
Proof.
  intros dx [|d] ty l ids Ht Hi Hl Hn Hd; [lia|].
  set (eight := fun t => id_wire t ++ zeros 4).
  assert (L8 : length (concat (map eight ids)) = (8 * length ids)%nat).
  { clear. induction ids as [|x ids IH]; cbn [map concat length]; [lia|]. rewrite app_length, IH. unfold eight, id_wire. rewrite !app_length, !be_length, zeros_length. lia. }
  exists (be 2 ty ++ be 2 (4 + zlen (concat (map eight ids))) ++ concat (map eight ids) ++ zeros (gap (4 + length (concat (map eight ids))))).
  assert (Z8 : 4 + zlen (concat (map eight ids)) = 4 + 8 * Z.of_nat (length ids)) by (unfold zlen; lia).
  assert (Hlen : (0 < length ids)%nat) by (destruct ids; [destruct (Hn eq_refl) | cbn; lia]).
  split; [|split].
  - change (ofp_table_feature_prop_actions (obj dx d) (VInt ty) l (VList (map (fun t => VTup "ofp_action_header" [VInt t; VInt 4]) ids)) =
      Ok (be 2 ty ++ be 2 (4 + zlen (concat (map eight ids))) ++ concat (map eight ids) ++ zeros (gap (4 + length (concat (map eight ids)))))).
    unfold ofp_table_feature_prop_actions.
    assert (S : seqarg (obj dx d) (VList (map (fun t => VTup "ofp_action_header" [VInt t; VInt 4]) ids)) = Ok (concat (map eight ids))).
    { apply (seqarg_spec (fun v t => v = VTup "ofp_action_header" [VInt t; VInt 4]) eight).
      - apply LA_list. clear. induction ids as [|x ids IH]; constructor; [reflexivity | exact IH].
      - intros v x Hin ->. assert (Ux : u16 x) by exact (Forall_In _ _ _ Hi Hin). destruct d as [|d]; [lia|].
        change (ofp_action_header (VInt x) (VInt 4) = Ok (eight x)). unfold ofp_action_header.
        pose proof (packs_enc "HH4x" [U 2 x; U 2 4; P 4] eq_refl ltac:(repeat constructor; cbn; unfold u16 in *; lia)) as K. cbn [vals] in K. rewrite K.
        unfold eight, id_wire, enc. cbn [map concat enc1]. rewrite app_nil_r, <- app_assoc. reflexivity. }
    rewrite S. cbn [bind]. refine (proj1 (feature_build ty [4; 5; 6; 7] l _ Ht _ _)); [|lia]. cbn in Ht. unfold u16. intuition lia.
  - intros E. apply (f_equal (fun w => u16_at w 2)) in E. unfold tf_wire in E. cbn [tf_body tf_type] in E.
    rewrite !u16_at_2 in E; try (unfold zlen; rewrite ?ids_wire_len; lia).
    unfold zlen in E. rewrite ids_wire_len, L8 in E. lia.
  - rewrite u16_at_2 by lia. exact Z8.
Qed.
Print Assumptions C110_action_ids_refuted.

(** Refuted: the request that asks for the features of all tables, without a
    body, is not built. *)
Theorem C110_query_refuted : forall dx d h f w, call (obj dx d) dx "ofp_multipart_request" [h; VInt 12; f; VNone] <> Ok w.
Proof.
  intros dx d h f w. change (ofp_multipart_request (obj dx d) dx h (VInt 12) f VNone <> Ok w).
  unfold ofp_multipart_request. cbn [py_inz py_eqz existsb Z.eqb Pos.eqb orb bind]. unfold message. destruct (packs "HH4x" [VInt 12; f]); discriminate.
Qed.
Print Assumptions C110_query_refuted.

(** *** The parsers of the properties *)

(** Match fields: all of them, and the cursor behind the property. *)
Theorem C110_oxm_parsed : forall ty ids m off, at_ m off (tf_wire (TfOxm ty ids)) -> tf_ok (TfOxm ty ids) ->
  p_table_feature_prop_oxm m off = Ok (VTup "ofp_table_feature_prop_oxm" [VInt ty; VInt (4 + 4 * Z.of_nat (length ids)); VTup "tuple" (map VInt ids)],
    (off + length (tf_wire (TfOxm ty ids)))%nat).
Proof. exact oxm_parse. Qed.
Print Assumptions C110_oxm_parsed.

(** Refuted for instructions: none is parsed ... *)
Theorem C110_instructions_parse_refuted : forall ty ids m off,
  at_ m off (tf_wire (TfInstructions ty ids)) -> tf_ok (TfInstructions ty ids) -> ids <> [] ->
  p_table_feature_prop_instructions m off = Err TypeError.
Proof. exact instructions_bad. Qed.
Print Assumptions C110_instructions_parse_refuted.

(** ... for tables: the ids returned are the first bytes of the property, its
    own type and length among them, and the cursor is left [length ids] bytes
    before the end ... *)
Theorem C110_tables_parse_refuted : forall ty ids m off,
  at_ m off (tf_wire (TfTables ty ids)) -> tf_ok (TfTables ty ids) ->
  p_table_feature_prop_next_tables m off =
  Ok (VTup "ofp_table_feature_prop_next_tables" [VInt ty; VInt (4 + Z.of_nat (length ids));
        VTup "tuple" (map VInt (firstn (length ids) (tf_wire (TfTables ty ids))))],
      (off + length (tf_wire (TfTables ty ids)) - length ids)%nat).
Proof. exact tables_parse. Qed.
Print Assumptions C110_tables_parse_refuted.

(** ... for actions: the loop never ends ... *)
Theorem C110_actions_parse_refuted : forall n ty i ids m off,
  at_ m off (tf_wire (TfActions ty (i :: ids))) -> tf_ok (TfActions ty (i :: ids)) -> i <> 65535 -> (off + 12 <= length m)%nat ->
  p_table_feature_prop_actions n m off = Err OutOfFuel.
Proof. exact actions_parse. Qed.
Print Assumptions C110_actions_parse_refuted.

(** ... and for experimenters: the data are right, but the cursor is left
    before the end. *)
Theorem C110_experimenter_parse_refuted : forall ty e t data m off,
  at_ m off (tf_wire (TfExperimenter ty e t data)) -> tf_ok (TfExperimenter ty e t data) ->
  p_table_feature_prop_experimenter m off =
  Ok (VTup "ofp_table_feature_prop_experimenter" [VInt ty; VInt (12 + zlen data); VInt e; VInt t; VBytes data],
      (off + length (tf_wire (TfExperimenter ty e t data)) - length data)%nat).
Proof. exact experimenter_parse. Qed.
Print Assumptions C110_experimenter_parse_refuted.

Definition example_table : tfeat :=
  TFeat 3 [116; 49] 255 65535 3 1000 [TfInstructions 0 [1; 4; 3]; TfTables 2 [4; 5]; TfActions 6 [0; 22]; TfOxm 8 [2147483652; 2147484162]; TfOxm 14 [2147483652]].

Example C110_example :
  tfeat_ok example_table /\
  (let v := VTup "ofp_table_features" [VNone; VInt 3; VBytes [116; 49]; VInt 255; VInt 65535; VInt 3; VInt 1000;
      VList [VTup "ofp_table_feature_prop_instructions" [VInt 0; VNone; VList [VTup "ofp_instruction" [VInt 1; VInt 4]; VBytes [0; 4; 0; 4]; VTup "ofp_instruction" [VInt 3; VInt 4]]];
             VTup "ofp_table_feature_prop_next_tables" [VInt 2; VInt 77; VBytes [4; 5]];
             VTup "ofp_table_feature_prop_actions" [VInt 6; VNone; VList [VBytes [0; 0; 0; 4]; VBytes [0; 22; 0; 4]]];
             VTup "ofp_table_feature_prop_oxm" [VInt 8; VNone; VList [VInt 2147483652; VInt 2147484162]];
             VBytes (tf_wire (TfOxm 14 [2147483652]))]] in
   tfeat_arg v example_table /\
   call (obj 9 3) 9 "ofp_multipart_reply" [VNone; VInt 12; VInt 1; VList [v]] = Ok (msg 4 19 9 (be 2 12 ++ be 2 1 ++ zeros 4 ++ tfeat_wire example_table))) /\
  tf_wire (TfTables 2 [4; 5]) = [0; 2; 0; 6; 4; 5; 0; 0] /\ tf_wire (TfActions 6 [0; 22]) = [0; 6; 0; 12; 0; 0; 0; 4; 0; 22; 0; 4; 0; 0; 0; 0] /\
  length (tfeat_wire example_table) = 128%nat /\
  p_table_feature_prop_next_tables (tf_wire (TfTables 2 [4; 5])) 0 =
    Ok (VTup "ofp_table_feature_prop_next_tables" [VInt 2; VInt 6; VTup "tuple" [VInt 0; VInt 2]], 6%nat) /\
  p_table_feature_prop_actions 1000 (tf_wire (TfActions 6 [0; 22])) 0 = Err OutOfFuel /\
  p_table_feature_prop_instructions (tf_wire (TfInstructions 0 [1; 4; 3])) 0 = Err TypeError /\
  p_table_feature_prop_oxm (tf_wire (TfOxm 8 [2147483652; 2147484162])) 0 =
    Ok (VTup "ofp_table_feature_prop_oxm" [VInt 8; VInt 12; VTup "tuple" [VInt 2147483652; VInt 2147484162]], 16%nat).
Proof.
  assert (B : forall t w, id_wire t = w -> VBytes w = VBytes (id_wire t)) by (intros t w <-; reflexivity).
  split; [|split].
  - unfold tfeat_ok, example_table. cbn [tf_id tf_name tf_match tf_write tf_config tf_max tf_props]. unfold u8, u32, u64.
    split; [lia|]. split; [cbn [length]; lia|]. do 4 (split; [lia|]). split; [vm_compute; reflexivity|].
    repeat first [apply Forall_nil | apply Forall_cons];
      (split; [cbn; auto 10 | split; [vm_compute; reflexivity | repeat first [apply Forall_nil | apply Forall_cons]; unfold u8, u16, u32; split; vm_compute; intuition discriminate]]).
  - cbv zeta. split; [|vm_compute; reflexivity].
    apply (TF_obj example_table VNone). apply LA_list. cbn [tf_props example_table]. apply Forall2_cons; [|apply Forall2_cons; [|apply Forall2_cons; [|apply Forall2_cons; [|apply Forall2_cons; [|apply Forall2_nil]]]]].
    + apply TA_instructions. apply LA_list. apply Forall2_cons; [apply II_obj|]. apply Forall2_cons; [rewrite (B 4) by (vm_compute; reflexivity); apply II_bytes|].
      apply Forall2_cons; [apply II_obj|apply Forall2_nil].
    + apply TA_tables. exact (LA_bytes _ (be 1) [4; 5]).
    + apply TA_actions. apply LA_list. apply Forall2_cons; [apply B; vm_compute; reflexivity|]. apply Forall2_cons; [apply B; vm_compute; reflexivity|apply Forall2_nil].
    + apply (TA_oxm 8 VNone (VList (map VInt [2147483652; 2147484162])) [2147483652; 2147484162]); [apply OI_list | lia | lia].
    + apply TA_bytes.
  - repeat match goal with |- _ /\ _ => split end; vm_compute; reflexivity.
Qed.

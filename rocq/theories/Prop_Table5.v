(** Property C113: table features of OpenFlow 1.4. *)

From Coq Require Import String.
From Verif Require Import Py Struct P_Struct S_Hello S_Ports S_Wire4 S_Msg4 M_Build4 M_Parse4 P_Wire4 P_Act4.
From Verif Require Import S_Wire5 M_Build5 M_Parse5 P_Wire5 S_Table5 P_Table5.
From Verif Require P_Table P_Fixed.
Local Open Scope Z_scope.
Local Open Scope list_scope.

(** The name of an instruction or action is built from exactly a type of 16
    bits and, for the types that may have them, data or None; the length given
    is not looked at, data of other types are dropped. *)
Theorem C113_id_built : forall dx d cls exps t l v b,
  In (cls, exps) [("ofp_instruction_id"%string, [65534; 65535]); ("ofp_action_id"%string, [65535])] ->
  obj dx (S d) (VTup cls [VInt t; l; v]) = Ok b <->
  u16 t /\ exists data, (In t exps /\ (v = VBytes data \/ v = VNone /\ data = []) \/ ~ In t exps /\ data = []) /\
    4 + zlen data < 65536 /\ b = fid_wire (t, data).
Proof.
  intros dx d cls exps t l v b Hin.
  assert (K : obj dx (S d) (VTup cls [VInt t; l; v]) = id_with_data exps (VInt t) v)
    by (destruct Hin as [H|[H|[]]]; injection H as <- <-; reflexivity).
  assert (X : existsb (Z.eqb t) exps = true <-> In t exps).
  { rewrite existsb_exists. split; [intros (y & Hy & E); apply Z.eqb_eq in E; subst; exact Hy|].
    intros H. exists t. split; [exact H|apply Z.eqb_refl]. }
  rewrite K, id_exactly. destruct (existsb (Z.eqb t) exps).
  - assert (In t exps) by (apply X; reflexivity). split; intros (Ht & data & H1 & H2); (split; [exact Ht|]); exists data; intuition.
  - assert (~ In t exps) by (intros H; apply X in H; discriminate H).
    split; intros (Ht & data & H1 & H2); (split; [exact Ht|]); exists data; intuition.
Qed.
Print Assumptions C113_id_built.

Example C113_id_example :
  obj 0 1 (VTup "ofp_action_id" [VInt 65535; VNone; VBytes [0; 0; 0; 7]]) = Ok [255; 255; 0; 8; 0; 0; 0; 7] /\
  obj 0 1 (VTup "ofp_action_id" [VInt 22; VNone; VBytes [0; 0; 0; 7]]) = Ok [0; 22; 0; 4].
Proof. split; vm_compute; reflexivity. Qed.

(** A single property, written in any of the ways, is built as the
    specification lays it out.  Missing: the refutations below, and the
    experimenter property (C112). *)
Theorem C113_property_built_partial : forall dx d v p, f_arg v p -> f_ok p -> (2 <= d)%nat -> obj dx d v = Ok (f_wire p).
Proof. exact f_build. Qed.
Print Assumptions C113_property_built_partial.

(** So are requests and replies with any number of tables, each with any
    properties. *)
Theorem C113_request_built_partial : forall dx d xid h f v ts,
  hdr_arg dx true 18 xid h -> u32 xid -> u16 f -> list_arg feat_arg feat_wire v ts -> v <> VNone -> Forall feat_ok ts ->
  zlen (concat (map feat_wire ts)) <= 65519 -> (3 <= d)%nat ->
  call (obj dx d) dx "ofp_multipart_request" [h; VInt 12; VInt f; v] = Ok (msg 5 18 xid (be 2 12 ++ be 2 f ++ zeros 4 ++ concat (map feat_wire ts))).
Proof. exact request_build5. Qed.
Print Assumptions C113_request_built_partial.

Theorem C113_reply_built_partial : forall dx d xid h f v ts,
  hdr_arg dx true 19 xid h -> u32 xid -> u16 f -> items_arg feat_arg v ts -> Forall feat_ok ts ->
  zlen (concat (map feat_wire ts)) <= 65519 -> (3 <= d)%nat ->
  call (obj dx d) dx "ofp_multipart_reply" [h; VInt 12; VInt f; v] = Ok (msg 5 19 xid (be 2 12 ++ be 2 f ++ zeros 4 ++ concat (map feat_wire ts))).
Proof. exact reply_build5. Qed.
Print Assumptions C113_reply_built_partial.

(** A property of a type that is not of its kind is refused, whatever its
    contents. *)
Theorem C113_wrong_type : forall dx d ty l v w,
  (~ In ty [0; 1] -> obj dx d (VTup "ofp_table_feature_prop_instructions" [VInt ty; l; v]) <> Ok w) /\
  (~ In ty [2; 3; 16] -> obj dx d (VTup "ofp_table_feature_prop_tables" [VInt ty; l; v]) <> Ok w) /\
  (~ In ty [4; 5; 6; 7] -> obj dx d (VTup "ofp_table_feature_prop_actions" [VInt ty; l; v]) <> Ok w).
Proof.
  intros dx [|d] ty l v w; [repeat split; intros _ E; discriminate E|].
  assert (N : forall types ids, ~ In ty types -> feature_prop (VInt ty) types ids <> Ok w).
  { intros types ids Hn. unfold feature_prop. destruct (py_inz (VInt ty) types) eqn:E; [|discriminate].
    exfalso. apply Hn. unfold py_inz in E. apply existsb_exists in E. destruct E as (z & Hz & Ez).
    apply Z.eqb_eq in Ez. subst z. exact Hz. }
  repeat split; intros Hn.
  - change (ofp_table_feature_prop_instructions (obj dx d) (VInt ty) l v <> Ok w). unfold ofp_table_feature_prop_instructions.
    destruct (seqarg (obj dx d) v); [apply N; exact Hn | discriminate].
  - change (ofp_table_feature_prop_tables (obj dx d) (VInt ty) l v <> Ok w). unfold ofp_table_feature_prop_tables.
    destruct (seqarg (obj dx d) v); [apply N; cbn in *; tauto | discriminate].
  - change (ofp_table_feature_prop_actions (obj dx d) (VInt ty) l v <> Ok w). unfold ofp_table_feature_prop_actions.
    destruct (seqarg (obj dx d) v); [apply N; exact Hn | discriminate].
Qed.
Print Assumptions C113_wrong_type.

(** Refuted: the tables this one is synchronised from, type 16, and the match
    fields that may be set, types 14 and 15, are refused; types 9 and 11, which
    do not exist, are built. *)
Theorem C113_types_refuted : forall dx d l v ids, words_arg v ids -> Forall u32 ids -> 4 + 4 * Z.of_nat (length ids) < 65536 -> (1 <= d)%nat ->
  (forall ty, In ty [14; 15] -> obj dx d (VTup "ofp_table_feature_prop_oxm" [VInt ty; l; v]) = Err AssertionError) /\
  (forall ty, In ty [9; 11] -> obj dx d (VTup "ofp_table_feature_prop_oxm" [VInt ty; l; v]) = Ok (f_wire (FOxm ty ids))) /\
  (forall b, obj dx d (VTup "ofp_table_feature_prop_tables" [VInt 16; l; VBytes b]) = Err AssertionError).
Proof.
  intros dx [|d] l v ids Hv Hi Hl Hd; [lia|]. split; [|split; [|reflexivity]]; intros ty Ht;
    change (obj dx (S d) (VTup "ofp_table_feature_prop_oxm" [VInt ty; l; v])) with (ofp_table_feature_prop_oxm (VInt ty) l v);
    unfold ofp_table_feature_prop_oxm; rewrite (words_build v ids Hv Hi); cbn [bind].
  - destruct Ht as [<-|[<-|[]]]; reflexivity.
  - refine (proj1 (P_Table.feature_build ty [8; 9; 10; 11; 12; 13] l _ _ _ _)).
    + cbn in *. intuition lia.
    + cbn in Ht. unfold u16. intuition lia.
    + unfold zlen. rewrite P_Table.be_words_len. lia.
Qed.
Print Assumptions C113_types_refuted.

(** Refuted: the ids of tables cannot be given as numbers, nor can the request
    that asks for the features of all tables be built. *)
Theorem C113_table_ids_refuted : forall dx d ty l i ids, (2 <= d)%nat ->
  obj dx d (VTup "ofp_table_feature_prop_tables" [ty; l; VList (VInt i :: ids)]) = Err ValueError.
Proof. intros dx [|[|d]] ty l i ids Hd; try lia. reflexivity. Qed.
Print Assumptions C113_table_ids_refuted.
Theorem C113_query_refuted : forall dx d h f w, call (obj dx d) dx "ofp_multipart_request" [h; VInt 12; f; VNone] <> Ok w.
Proof.
  intros dx d h f w. change (ofp_multipart_request (obj dx d) dx h (VInt 12) f VNone <> Ok w).
  unfold ofp_multipart_request. cbn [py_inz py_eqz existsb Z.eqb Pos.eqb orb bind]. unfold message. destruct (packs "HH4x" [VInt 12; f]); discriminate.
Qed.
Print Assumptions C113_query_refuted.

(** *** The parsers *)

(** Match fields, and instructions without data: all of them, and the cursor
    behind the property. *)
Definition parses_right (p : fprop) : Prop :=
  match p with FInstructions _ ids => Forall (fun i => snd i = []) ids | FOxm ty _ => ty <> 14 /\ ty <> 15 | _ => False end.

Lemma type_read p m off : at_ m off (f_wire p) -> f_ok p -> prop_type m off = Ok (f_type p).
Proof. intros A O. unfold prop_type. destruct (f_head p m off A O) as (U & _). rewrite U. reflexivity. Qed.

Theorem C113_property_parsed_partial : forall n p m off, at_ m off (f_wire p) -> f_ok p -> parses_right p -> (length m <= n)%nat ->
  p_table_feature_prop n m off = Ok (f_view p, (off + length (f_wire p))%nat).
Proof.
  intros n p m off A O R Hn. unfold p_table_feature_prop. rewrite (type_read p m off A O). cbn [bind].
  pose proof (proj1 O) as Ht. destruct p as [ty ids|ty ids|ty ids|ty ids]; [|destruct R|destruct R|]; cbn [f_type f_types parses_right] in *.
  - replace (py_inz (VInt ty) [0; 1]) with true by (symmetry; apply py_inz_In; exact Ht).
    apply instructions_parse5; assumption.
  - destruct R as [R1 R2]. destruct Ht as [<-|[<-|[<-|[<-|[<-|[<-|[]]]]]]]; try congruence; apply oxm_parse5; assumption.
Qed.
Print Assumptions C113_property_parsed_partial.

(** A table with such properties only is parsed whole; but the value bears the
    name of another structure, so that it cannot be built (C79). *)
Theorem C113_table_parsed_partial : forall n t m off, at_ m off (feat_wire t) -> feat_ok t -> Forall parses_right (ft_props t) ->
  (forall z, In z (ft_name t) -> z <> 0) -> (length m <= n)%nat ->
  p_table_features n m off =
  Ok (VTup "ofp_table_feature_prop_header" [VInt (64 + zlen (fprops_wire (ft_props t))); VInt (ft_id t); VBytes (ft_name t);
        VInt (ft_match t); VInt (ft_write t); VInt (ft_caps t); VInt (ft_max t); VList (map f_view (ft_props t))],
      (off + length (feat_wire t))%nat).
Proof.
  intros n t m off A O R Hz Hn. pose proof (feat_fits t O) as F. pose proof (feat_len t O) as L. pose proof (feat_name32 t O) as H32.
  assert (Lw : length (feat_wire t) = (64 + length (fprops_wire (ft_props t)))%nat) by (rewrite feat_enc, app_length, enc_length, L; reflexivity).
  rewrite Lw. rewrite feat_enc in A. apply at_app in A. destruct A as [A1 A2]. rewrite enc_length, L in A2.
  unfold p_table_features.
  rewrite (unp_enc "HB5x32sQQII" (feat_fields t) m off); [| |exact F|exact A1].
  2:{ unfold feat_fields. cbn [map shape]. rewrite H32. reflexivity. }
  rewrite L. cbn [bind feat_fields vals].
  replace (before_nul (ft_name t ++ zeros (32 - length (ft_name t)))) with (ft_name t).
  2:{ generalize (32 - length (ft_name t))%nat as k. revert Hz. clear. intros Hz k. induction (ft_name t) as [|x l IH].
      - destruct k; reflexivity.
      - cbn [Datatypes.app before_nul]. replace (x =? 0) with false by (symmetry; apply Z.eqb_neq; apply Hz; left; reflexivity).
        f_equal. apply IH. intros z Hin. apply Hz. right. exact Hin. }
  destruct O as (_ & _ & _ & _ & _ & _ & _ & Ho).
  rewrite (while_fetch_spec f_wire f_view (p_table_feature_prop n m) m (ft_props t)).
  - cbn [bind Datatypes.app]. do 2 f_equal. unfold zlen. lia.
  - intros p o Hin Ap. apply C113_property_parsed_partial; [exact Ap|exact (Forall_In _ _ _ Ho Hin)|exact (Forall_In _ _ _ R Hin)|exact Hn].
  - apply Forall_forall. intros p _. rewrite f_length. lia.
  - exact A2.
  - unfold fprops_wire, zlen. lia.
  - exact Hn.
Qed.
Print Assumptions C113_table_parsed_partial.

(** Refuted where an instruction has data: the data are read as further
    instructions, so the parser returns too many or fails. *)
Theorem C113_instructions_refuted : forall n ty ids m off v o,
  at_ m off (f_wire (FInstructions ty ids)) -> f_ok (FInstructions ty ids) -> (exists i, In i ids /\ snd i <> []) ->
  p_table_feature_prop_instructions n m off = Ok (v, o) ->
  exists len vs, v = VTup "ofp_table_feature_prop_instructions" [VInt ty; len; VList vs] /\ (length ids < length vs)%nat.
Proof.
  intros n ty ids m off v o A O (i & Hi & Hd) E. apply (instructions_more n ty ids m off v o A O); [|exact E].
  intros C. apply Hd. clear -Hi C. induction ids as [|j ids IH]; [destruct Hi|]. cbn [map concat] in C.
  apply app_eq_nil in C. destruct C as [C1 C2]. destruct Hi as [->|Hi]; [exact C1|exact (IH Hi C2)].
Qed.
Print Assumptions C113_instructions_refuted.

(** Refuted for tables: the ids returned are the first bytes of the property,
    and the cursor is left before its end; and for actions: never parsed. *)
Theorem C113_tables_refuted : forall ty ids m off, at_ m off (f_wire (FTables ty ids)) -> f_ok (FTables ty ids) ->
  p_table_feature_prop_tables m off =
  Ok (VTup "ofp_table_feature_prop_tables" [VInt ty; VInt (4 + Z.of_nat (length ids));
        VTup "tuple" (map VInt (firstn (length ids) (f_wire (FTables ty ids))))],
      (off + length (f_wire (FTables ty ids)) - length ids)%nat).
Proof. exact tables_parse5. Qed.
Print Assumptions C113_tables_refuted.
Theorem C113_actions_refuted : forall n ty ids m off, at_ m off (f_wire (FActions ty ids)) -> f_ok (FActions ty ids) ->
  p_table_feature_prop n m off = Err TypeError.
Proof.
  intros n ty ids m off A O. unfold p_table_feature_prop. rewrite (type_read _ m off A O).
  destruct (f_head _ m off A O) as (U & _). cbn [bind f_type]. destruct O as (Ht & _). cbn [f_type f_types] in Ht.
  destruct Ht as [<-|[<-|[<-|[<-|[]]]]]; cbn [py_inz existsb Z.eqb Pos.eqb orb]; unfold p_table_feature_prop_actions; rewrite U; reflexivity.
Qed.
Print Assumptions C113_actions_refuted.

(** Refuted for the types 14, 15 and 16: the first is taken for tables, the
    others fail. *)
Theorem C113_parsed_types_refuted : forall n p m off, at_ m off (f_wire p) -> f_ok p ->
  (f_type p = 14 -> forall v o, p_table_feature_prop n m off = Ok (v, o) -> v <> f_view p /\ exists fields, v = VTup "ofp_table_feature_prop_tables" fields) /\
  (In (f_type p) [15; 16] -> p_table_feature_prop n m off = Err ValueError).
Proof.
  intros n p m off A O. split.
  - intros Ht v o. unfold p_table_feature_prop. rewrite (type_read p m off A O), Ht. cbn [bind py_inz existsb Z.eqb Pos.eqb orb].
    intros E. assert (Q : exists fields, v = VTup "ofp_table_feature_prop_tables" fields).
    { unfold p_table_feature_prop_tables in E. destruct (unp "HH" m off) as [[ws o1]|]; [|discriminate E]. cbn [bind] in E.
      destruct ws as [|a [|[|len| | | |] [|]]]; try discriminate E. cbv zeta in E.
      destruct (unp_count (FU 1) (len - 4) m off) as [[is o2]|]; [|discriminate E]. cbn [bind] in E. injection E as <- _. eauto. }
    split; [|exact Q]. destruct Q as (fields & ->). destruct O as (Hin & _). intros C.
    destruct p; cbn [f_type f_types] in *; subst ty; try (cbn in Hin; intuition discriminate); discriminate C.
  - intros Ht. unfold p_table_feature_prop. rewrite (type_read p m off A O). cbn [bind].
    destruct Ht as [<-|[<-|[]]]; reflexivity.
Qed.
Print Assumptions C113_parsed_types_refuted.

Definition example_feat : feat :=
  Feat 3 [116; 49] 255 65535 3 1000 [FInstructions 0 [(1, []); (4, [])]; FOxm 8 [2147483652; 2147484162]].
Definition example_value : pyval :=
  VTup "ofp_table_features" [VNone; VInt 3; VBytes [116; 49]; VInt 255; VInt 65535; VInt 3; VInt 1000;
    VList [VTup "ofp_table_feature_prop_instructions" [VInt 0; VNone; VList [VTup "ofp_instruction_id" [VInt 1; VNone; VNone]; VBytes [0; 4; 0; 4]]];
           VTup "ofp_table_feature_prop_oxm" [VInt 8; VNone; VList [VInt 2147483652; VInt 2147484162]]]].

Example C113_example :
  feat_ok example_feat /\ Forall parses_right (ft_props example_feat) /\
  obj 0 3 example_value = Ok (feat_wire example_feat) /\
  p_table_features 200 ([9] ++ feat_wire example_feat ++ [9]) 1 =
  Ok (VTup "ofp_table_feature_prop_header" [VInt 96; VInt 3; VBytes [116; 49]; VInt 255; VInt 65535; VInt 3; VInt 1000;
        VList [VTup "ofp_table_feature_prop_instructions" [VInt 0; VInt 12;
                 VList [VTup "ofp_instruction_id" [VInt 1; VInt 4; VBytes []]; VTup "ofp_instruction_id" [VInt 4; VInt 4; VBytes []]]];
               VTup "ofp_table_feature_prop_oxm" [VInt 8; VInt 12; VTup "tuple" [VInt 2147483652; VInt 2147484162]]]], 97%nat).
Proof.
  split; [|split; [|split; vm_compute; reflexivity]].
  - unfold feat_ok, u8, u32. split; [cbv; intuition discriminate|]. split; [apply Nat.leb_le; reflexivity|].
    split; [cbv; intuition discriminate|]. split; [cbv; intuition discriminate|]. split; [cbv; intuition discriminate|].
    split; [cbv; intuition discriminate|]. split; [vm_compute; reflexivity|].
    change (ft_props example_feat) with [FInstructions 0 [(1, []); (4, [])]; FOxm 8 [2147483652; 2147484162]].
    constructor; [|constructor; [|constructor]].
    + split; [left; reflexivity|]. split; [vm_compute; reflexivity|].
      constructor; [|constructor; [|constructor]]; (split; [cbv; intuition discriminate|split; [vm_compute; reflexivity|]]); intros H; destruct (H eq_refl).
    + split; [left; reflexivity|]. split; [vm_compute; reflexivity|].
      constructor; [|constructor; [|constructor]]; cbv; intuition discriminate.
  - change (ft_props example_feat) with [FInstructions 0 [(1, []); (4, [])]; FOxm 8 [2147483652; 2147484162]].
    constructor; [|constructor; [|constructor]].
    + constructor; [reflexivity|constructor; [reflexivity|constructor]].
    + split; discriminate.
Qed.

(** Data of an instruction: read as one more. *)
Example C113_data_example :
  f_ok (FInstructions 0 [(65535, [0; 0; 0; 7])]) /\
  p_table_feature_prop_instructions 50 (f_wire (FInstructions 0 [(65535, [0; 0; 0; 7])])) 0 =
  Ok (VTup "ofp_table_feature_prop_instructions" [VInt 0; VInt 12;
        VList [VTup "ofp_instruction_id" [VInt 65535; VInt 8; VBytes [0; 0; 0; 7]]; VTup "ofp_instruction_id" [VInt 0; VInt 7; VBytes [0; 0; 0]]]], 16%nat).
Proof.
  split; [|vm_compute; reflexivity]. split; [left; reflexivity|]. split; [vm_compute; reflexivity|].
  constructor; [|constructor]. split; [cbv; intuition discriminate|]. split; [vm_compute; reflexivity|intros _; reflexivity].
Qed.

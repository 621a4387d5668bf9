(** Table features. *)

From Verif Require Import Py Struct P_Struct S_Hello S_Ports P_Hello P_Ports S_Wire4 S_Msg4 M_Build4 M_Parse4 P_Wire4 P_Act4 P_Stat4 P_Msg4 P_MsgParse4 S_Table.
Local Open Scope Z_scope.
Local Open Scope list_scope.

Lemma id_enc t : id_wire t = enc [U 2 t; U 2 4].
Proof. unfold enc, id_wire. cbn [map concat enc1]. rewrite app_nil_r. reflexivity. Qed.

Lemma feature_build ty types l ids : In ty types -> u16 ty -> 4 + zlen ids < 65536 ->
  feature_prop (VInt ty) types ids = Ok (be 2 ty ++ be 2 (4 + zlen ids) ++ ids ++ zeros (gap (4 + length ids))) /\ l = l :> pyval.
Proof.
  intros Hi Ht Hl. split; [|reflexivity]. unfold feature_prop. rewrite (py_inz_In ty types Hi). cbn [assert_ bind]. cbv zeta.
  rewrite padding_gap. replace (Z.of_nat (4 + length ids)) with (4 + zlen ids) by (unfold zlen; lia).
  pose proof (packs_enc "HH" [U 2 ty; U 2 (4 + zlen ids)] eq_refl) as K. cbn [vals] in K. rewrite K by (repeat constructor; cbn; unfold u16, zlen in *; lia).
  cbn [bind]. unfold enc. cbn [map concat enc1]. rewrite app_nil_r, <- !app_assoc. reflexivity.
Qed.

Lemma inst_ids_build dx d v ids : list_arg inst_id_arg id_wire v ids -> Forall u16 ids -> (1 <= d)%nat ->
  seqarg (obj dx d) v = Ok (concat (map id_wire ids)).
Proof.
  intros Hv Hi Hd. apply (seqarg_spec inst_id_arg id_wire (obj dx d) v ids Hv). intros w x Hin Hw.
  destruct d as [|d]; [lia|]. destruct Hw as [t|t]; [reflexivity|].
  change (ofp_instruction (VInt t) (VInt 4) = Ok (id_wire t)). unfold ofp_instruction. rewrite id_enc.
  assert (u16 t) by exact (Forall_In _ _ _ Hi Hin).
  exact (packs_enc "HH" [U 2 t; U 2 4] eq_refl ltac:(repeat constructor; cbn; unfold u16 in *; lia)).
Qed.

Lemma bytes_ids_build dx d (w : Z -> bytes) v ids : list_arg (fun b i => b = VBytes (w i)) w v ids ->
  seqarg (obj dx d) v = Ok (concat (map w ids)).
Proof. intros Hv. apply (seqarg_spec (fun b i => b = VBytes (w i)) w (obj dx d) v ids Hv). intros b x _ ->. apply obj_bytes. Qed.

Lemma oxm_ids_build v ids : oxm_ids_arg v ids -> Forall u32 ids ->
  match v with VList l | VTup _ l => pack (repeat (FU 4) (length l)) l | VBytes b => Ok b | VNone => Ok [] | _ => Err ValueError end =
  Ok (concat (map (be 4) ids)).
Proof.
  intros Hv Hi.
  assert (E : pack (repeat (FU 4) (length (map VInt ids))) (map VInt ids) = Ok (concat (map (be 4) ids))).
  { rewrite map_length, <- (shape_words ids), <- (vals_words ids), <- enc_words. apply pack_enc. apply fits_words. exact Hi. }
  destruct Hv; try reflexivity; exact E.
Qed.

Lemma tf_u16 p : tf_ok p -> u16 (tf_type p).
Proof. intros [H _]. destruct p; cbn in *; unfold u16; intuition lia. Qed.

Lemma tf_build dx d v p : tf_arg v p -> tf_ok p -> (2 <= d)%nat -> obj dx d v = Ok (tf_wire p).
Proof.
  intros Ha Hok Hd. pose proof (tf_u16 p Hok) as Ht. destruct Hok as (Hty & Hl & Hi). destruct d as [|d]; [lia|].
  destruct Ha as [p|ty l v ids Hv|ty l v ids Hv|ty l v ids Hv|ty l v ids Hv N14 N15]; [reflexivity| | | |]; cbn [tf_type tf_types tf_body] in *.
  - change (ofp_table_feature_prop_instructions (obj dx d) (VInt ty) l v = Ok (tf_wire (TfInstructions ty ids))).
    unfold ofp_table_feature_prop_instructions. rewrite (inst_ids_build dx d v ids Hv Hi) by lia. cbn [bind].
    exact (proj1 (feature_build ty [0; 1] l _ Hty Ht Hl)).
  - change (ofp_table_feature_prop_next_tables (obj dx d) (VInt ty) l v = Ok (tf_wire (TfTables ty ids))).
    unfold ofp_table_feature_prop_next_tables. rewrite (bytes_ids_build dx d (be 1) v ids Hv). cbn [bind].
    exact (proj1 (feature_build ty [2; 3] l _ Hty Ht Hl)).
  - change (ofp_table_feature_prop_actions (obj dx d) (VInt ty) l v = Ok (tf_wire (TfActions ty ids))).
    unfold ofp_table_feature_prop_actions. rewrite (bytes_ids_build dx d id_wire v ids Hv). cbn [bind].
    exact (proj1 (feature_build ty [4; 5; 6; 7] l _ Hty Ht Hl)).
  - change (ofp_table_feature_prop_oxm (VInt ty) l v = Ok (tf_wire (TfOxm ty ids))).
    unfold ofp_table_feature_prop_oxm. rewrite (oxm_ids_build v ids Hv Hi). cbn [bind].
    refine (proj1 (feature_build ty [8; 9; 10; 11; 12; 13] l _ _ Ht Hl)). cbn in *. intuition lia.
Qed.

Definition tfeat_fields (t : tfeat) : list fld :=
  [U 2 (64 + zlen (tfprops_wire (tf_props t))); U 1 (tf_id t); P 5; R (tf_name t ++ zeros (32 - length (tf_name t)));
   U 8 (tf_match t); U 8 (tf_write t); U 4 (tf_config t); U 4 (tf_max t)].

Lemma tfeat_enc t : tfeat_wire t = enc (tfeat_fields t) ++ tfprops_wire (tf_props t).
Proof. unfold tfeat_wire, tfeat_fields, enc. cbn [map concat enc1]. rewrite app_nil_r, <- !app_assoc. reflexivity. Qed.

Lemma tfeat_fits t : tfeat_ok t -> fits (tfeat_fields t).
Proof.
  intros (A & B & C & D & E & F & G & _). unfold fits, tfeat_fields. unfold u8, u64, u32 in *.
  repeat first [apply Forall_nil | apply Forall_cons]; cbn [in_range]; try exact Logic.I; unfold zlen in *;
    match goal with |- context[256 ^ ?n] => let x := eval vm_compute in (256 ^ n) in change (256 ^ n) with x end; lia.
Qed.

Lemma tfeat_len t : tfeat_ok t -> flen (tfeat_fields t) = 64%nat.
Proof. intros (_ & B & _). cbn [tfeat_fields flen fld_len]. rewrite app_length, zeros_length. lia. Qed.

Lemma tfeat_build dx d v t : tfeat_arg v t -> tfeat_ok t -> (3 <= d)%nat -> obj dx d v = Ok (tfeat_wire t).
Proof.
  intros Ha Hok Hd. pose proof (tfeat_fits t Hok) as Hf. pose proof (tfeat_len t Hok) as HL.
  destruct d as [|d]; [lia|]. destruct Ha as [t|t l v Hv]; [reflexivity|].
  change (ofp_table_features (obj dx d) l (VInt (tf_id t)) (VBytes (tf_name t)) (VInt (tf_match t)) (VInt (tf_write t)) (VInt (tf_config t)) (VInt (tf_max t)) v
    = Ok (tfeat_wire t)).
  destruct Hok as (A & B & C & D & E & F & G & H). unfold ofp_table_features.
  rewrite (seqarg_spec tf_arg tf_wire (obj dx d) v (tf_props t) Hv) by (intros w x Hin Hw; apply tf_build; [exact Hw | exact (Forall_In _ _ _ H Hin) | lia]).
  cbn [bind]. cbv zeta. change (concat (map tf_wire (tf_props t))) with (tfprops_wire (tf_props t)).
  replace (Z.of_nat (64 + length (tfprops_wire (tf_props t)))) with (64 + zlen (tfprops_wire (tf_props t))) by (unfold zlen; lia).
  apply sized_ok.
  - unfold pack_app. rewrite (packs_norm "HB5x32sQQII" (tfeat_fields t)); [cbn [bind]; rewrite tfeat_enc; reflexivity | | exact Hf | | ].
    + unfold tfeat_fields. cbn [map shape]. replace (length (tf_name t ++ zeros (32 - length (tf_name t)))) with 32%nat by (rewrite app_length, zeros_length; lia). reflexivity.
    + unfold tfeat_fields. cbn [map shape norm vals]. replace (length (tf_name t ++ zeros (32 - length (tf_name t)))) with 32%nat by (rewrite app_length, zeros_length; lia).
      cbn [norm_item]. rewrite (pad_short 32 (tf_name t) B). reflexivity.
    + reflexivity.
  - rewrite tfeat_enc, app_length, enc_length, HL. reflexivity.
Qed.

Lemma tfeats_len_body f b : length (be 2 12 ++ be 2 f ++ zeros 4 ++ b) = (8 + length b)%nat.
Proof. rewrite !app_length, !be_length, zeros_length. lia. Qed.

Lemma tfeats_enc f b : enc ([U 2 12; U 2 f; P 4] ++ [R b]) = be 2 12 ++ be 2 f ++ zeros 4 ++ b.
Proof. unfold enc. cbn [Datatypes.app map concat enc1]. rewrite app_nil_r. reflexivity. Qed.

Lemma reply_build dx d xid h f v ts :
  hdr_arg dx true 19 xid h -> u32 xid -> u16 f -> items_arg tfeat_arg v ts -> Forall tfeat_ok ts ->
  zlen (concat (map tfeat_wire ts)) <= 65519 -> (3 <= d)%nat ->
  call (obj dx d) dx "ofp_multipart_reply" [h; VInt 12; VInt f; v] = Ok (msg 4 19 xid (be 2 12 ++ be 2 f ++ zeros 4 ++ concat (map tfeat_wire ts))).
Proof.
  intros Hh Hx Hf Hv Ht Hl Hd.
  change (ofp_multipart_reply (obj dx d) dx h (VInt 12) (VInt f) v = Ok (msg 4 19 xid (be 2 12 ++ be 2 f ++ zeros 4 ++ concat (map tfeat_wire ts)))).
  unfold ofp_multipart_reply. change (py_inz (VInt 12) [0; 2; 8; 11]) with false. change (py_inz (VInt 12) [1; 3; 4; 5; 6; 7; 9; 10; 12; 13]) with true. cbv iota.
  rewrite (items_spec tfeat_arg tfeat_wire (obj dx d) v ts Hv) by (intros w x Hin Hw; apply tfeat_build; [exact Hw | exact (Forall_In _ _ _ Ht Hin) | lia]).
  cbn [bind].
  pose proof (pack_app_enc "HH4x" [U 2 12; U 2 f; P 4] (concat (map tfeat_wire ts)) eq_refl ltac:(repeat constructor; cbn; unfold u16 in Hf; lia)) as K.
  cbn [vals] in K. rewrite K. rewrite tfeats_enc. apply message_ok with true; try assumption.
  - unfold u8; lia.
  - left. split; reflexivity.
  - unfold zlen in *. rewrite tfeats_len_body. lia.
Qed.

Lemma request_build dx d xid h f v ts :
  hdr_arg dx true 18 xid h -> u32 xid -> u16 f -> list_arg tfeat_arg tfeat_wire v ts -> v <> VNone -> Forall tfeat_ok ts ->
  zlen (concat (map tfeat_wire ts)) <= 65519 -> (3 <= d)%nat ->
  call (obj dx d) dx "ofp_multipart_request" [h; VInt 12; VInt f; v] = Ok (msg 4 18 xid (be 2 12 ++ be 2 f ++ zeros 4 ++ concat (map tfeat_wire ts))).
Proof.
  intros Hh Hx Hf Hv Hn Ht Hl Hd.
  change (ofp_multipart_request (obj dx d) dx h (VInt 12) (VInt f) v = Ok (msg 4 18 xid (be 2 12 ++ be 2 f ++ zeros 4 ++ concat (map tfeat_wire ts)))).
  unfold ofp_multipart_request. change (py_inz (VInt 12) [0; 3; 7; 8; 11; 13]) with false. change (py_inz (VInt 12) [1; 2; 4; 5; 6; 9; 10]) with false.
  change (py_eqz (VInt 12) 12) with true. cbv iota.
  match goal with |- bind ?r _ = _ => assert (Er : r = Ok (VBytes (concat (map tfeat_wire ts)))) end.
  { destruct Hv as [|ts|vs ts H2|c vs ts H2]; [destruct (Hn eq_refl) | reflexivity | |];
      rewrite (join_spec tfeat_arg tfeat_wire (obj dx d) ts vs H2) by (intros w x Hin Hw; apply tfeat_build; [exact Hw | exact (Forall_In _ _ _ Ht Hin) | lia]); reflexivity. }
  rewrite Er. cbn [bind as_bytes].
  pose proof (packs_enc "HH4x" [U 2 12; U 2 f; P 4] eq_refl ltac:(repeat constructor; cbn; unfold u16 in Hf; lia)) as K. cbn [vals] in K. rewrite K. cbn [bind].
  replace (enc [U 2 12; U 2 f; P 4] ++ concat (map tfeat_wire ts)) with (be 2 12 ++ be 2 f ++ zeros 4 ++ concat (map tfeat_wire ts)) by (rewrite <- tfeats_enc, enc_app, enc_R; reflexivity).
  apply message_ok with true; try assumption.
  - unfold u8; lia.
  - left. split; reflexivity.
  - unfold zlen in *. rewrite tfeats_len_body. lia.
Qed.

(** *** Parsing *)

Lemma tf_head p m off : at_ m off (tf_wire p) -> tf_ok p ->
  unp "HH" m off = Ok ([VInt (tf_type p); VInt (4 + zlen (tf_body p))], (off + 4)%nat) /\ at_ m (off + 4) (tf_body p) /\
  (align8 (Z.to_nat (4 + zlen (tf_body p))) - Z.to_nat (4 + zlen (tf_body p)) = gap (4 + length (tf_body p)))%nat.
Proof.
  intros Hat Hok. pose proof (tf_u16 p Hok) as Ht. destruct Hok as (_ & Hl & _). unfold tf_wire in Hat.
  assert (E : be 2 (tf_type p) ++ be 2 (4 + zlen (tf_body p)) ++ tf_body p ++ zeros (gap (4 + length (tf_body p))) =
    enc ([U 2 (tf_type p); U 2 (4 + zlen (tf_body p))] ++ [R (tf_body p ++ zeros (gap (4 + length (tf_body p))))]))
    by (unfold enc; cbn [Datatypes.app map concat enc1]; rewrite app_nil_r; reflexivity).
  rewrite E in Hat. apply at_enc_app in Hat. destruct Hat as [A1 A2]. rewrite enc_R in A2. apply at_app in A2. destruct A2 as [A2 _].
  split; [|split].
  - rewrite (unp_enc "HH" [U 2 (tf_type p); U 2 (4 + zlen (tf_body p))] m off eq_refl); [reflexivity | | exact A1].
    repeat constructor; cbn; unfold u16, zlen in *; lia.
  - exact A2.
  - replace (Z.to_nat (4 + zlen (tf_body p))) with (4 + length (tf_body p))%nat by (unfold zlen; lia). rewrite gap_align. lia.
Qed.

Lemma be_words_len w ids : length (concat (map (be w) ids)) = (w * length ids)%nat.
Proof. induction ids as [|x ids IH]; cbn [map concat length]; [lia|]. rewrite app_length, be_length, IH. lia. Qed.

Lemma ids_wire_len ids : length (concat (map id_wire ids)) = (4 * length ids)%nat.
Proof. induction ids as [|x ids IH]; cbn [map concat length]; [lia|]. rewrite app_length, IH. unfold id_wire. rewrite app_length, !be_length. lia. Qed.

Lemma tf_length p : length (tf_wire p) = (4 + length (tf_body p) + gap (4 + length (tf_body p)))%nat.
Proof. unfold tf_wire. rewrite !app_length, !be_length, zeros_length. lia. Qed.

Lemma oxm_parse ty ids m off : at_ m off (tf_wire (TfOxm ty ids)) -> tf_ok (TfOxm ty ids) ->
  p_table_feature_prop_oxm m off = Ok (VTup "ofp_table_feature_prop_oxm" [VInt ty; VInt (4 + 4 * Z.of_nat (length ids)); VTup "tuple" (map VInt ids)],
    (off + length (tf_wire (TfOxm ty ids)))%nat).
Proof.
  intros Hat Hok. destruct (tf_head _ m off Hat Hok) as (E & A & G). destruct Hok as (_ & _ & Hi). rewrite tf_length.
  unfold p_table_feature_prop_oxm. rewrite E. cbn [bind tf_type]. cbv zeta. rewrite G. clear G E Hat. cbn [tf_body] in *.
  set (b := concat (map (be 4) ids)) in *. assert (Lb : length b = (4 * length ids)%nat) by apply be_words_len.
  replace (4 + zlen b - 4) with (Z.of_nat (length ids) * 4) by (unfold zlen; lia). rewrite Z.div_mul by lia.
  unfold unp_count. replace (Z.of_nat (length ids) <? 0) with false by (symmetry; apply Z.ltb_ge; lia). rewrite Nat2Z.id.
  unfold b in A. rewrite <- enc_words in A.
  assert (K : unpack_from (repeat (FU 4) (length ids)) m (off + 4) = Ok (map VInt ids)).
  { rewrite <- (shape_words ids), <- (vals_words ids).
    rewrite (unpack_decode _ _ _ _ A) by (rewrite enc_length, shape_size; reflexivity).
    rewrite <- (app_nil_r (enc (map (U 4) ids))), decode_enc by (apply fits_words; exact Hi). reflexivity. }
  rewrite K. cbn [bind]. rewrite <- (shape_words ids), shape_size, flen_words.
  cbn [Datatypes.app]. do 2 f_equal; [do 4 f_equal; unfold zlen; lia | lia].
Qed.

Lemma instructions_bad ty ids m off : at_ m off (tf_wire (TfInstructions ty ids)) -> tf_ok (TfInstructions ty ids) -> ids <> [] ->
  p_table_feature_prop_instructions m off = Err TypeError.
Proof.
  intros Hat Hok Hn. destruct (tf_head _ m off Hat Hok) as (E & A & _).
  unfold p_table_feature_prop_instructions. rewrite E. cbn [bind tf_type tf_body] in *. cbv zeta.
  destruct ids as [|i ids]; [destruct (Hn eq_refl)|].
  replace (off + 4 <? off + Z.to_nat (4 + zlen (concat (map id_wire (i :: ids)))))%nat with true; [reflexivity|].
  symmetry. apply Nat.ltb_lt. pose proof (ids_wire_len (i :: ids)) as L. cbn [length] in L. unfold zlen. lia.
Qed.

(** The bytes of the property itself, from its start. *)
Lemma tables_parse ty ids m off : at_ m off (tf_wire (TfTables ty ids)) -> tf_ok (TfTables ty ids) ->
  p_table_feature_prop_next_tables m off =
  Ok (VTup "ofp_table_feature_prop_next_tables" [VInt ty; VInt (4 + Z.of_nat (length ids));
        VTup "tuple" (map VInt (firstn (length ids) (tf_wire (TfTables ty ids))))],
      (off + length (tf_wire (TfTables ty ids)) - length ids)%nat).
Proof.
  intros Hat Hok. destruct (tf_head _ m off Hat Hok) as (E & A & G). rewrite tf_length.
  unfold p_table_feature_prop_next_tables. rewrite E. cbn [bind tf_type]. cbv zeta. rewrite G. clear G E.
  change (tf_body (TfTables ty ids)) with (concat (map (be 1) ids)) in *.
  set (b := concat (map (be 1) ids)) in *. assert (Lb : length b = length ids) by (unfold b; rewrite be_words_len; lia).
  replace (4 + zlen b - 4) with (Z.of_nat (length ids)) by (unfold zlen; lia).
  unfold unp_count. replace (Z.of_nat (length ids) <? 0) with false by (symmetry; apply Z.ltb_ge; lia). rewrite Nat2Z.id.
  set (w := tf_wire (TfTables ty ids)) in *.
  assert (Lw : (length ids <= length w)%nat) by (unfold w; rewrite tf_length; change (tf_body (TfTables ty ids)) with b; lia).
  assert (A' : at_ m off (firstn (length ids) w)) by (rewrite <- (firstn_skipn (length ids) w) in Hat; apply at_app in Hat; exact (proj1 Hat)).
  assert (C : forall k, calcsize (repeat (FU 1) k) = k) by (induction k as [|k IH]; [reflexivity|]; cbn [repeat calcsize item_size]; rewrite IH; reflexivity).
  rewrite (unpack_decode _ _ _ _ A') by (rewrite C, firstn_length; lia).
  assert (D : forall x : bytes, decode (repeat (FU 1) (length x)) x = map VInt x).
  { induction x as [|z x IH]; [reflexivity|]. cbn [length repeat decode map firstn skipn]. rewrite IH. do 2 f_equal. }
  replace (repeat (FU 1) (length ids)) with (repeat (FU 1) (length (firstn (length ids) w))) by (rewrite firstn_length; do 2 f_equal; lia).
  rewrite D. cbn [bind Datatypes.app]. do 2 f_equal; [do 4 f_equal; unfold zlen; lia | lia].
Qed.

(** The loop over the ids never moves on. *)
Lemma actions_parse n ty i ids m off : at_ m off (tf_wire (TfActions ty (i :: ids))) -> tf_ok (TfActions ty (i :: ids)) -> i <> 65535 ->
  (off + 12 <= length m)%nat -> p_table_feature_prop_actions n m off = Err OutOfFuel.
Proof.
  intros Hat Hok Hx Hm. destruct (tf_head _ m off Hat Hok) as (E & A & _). destruct Hok as (_ & _ & Hi).
  unfold p_table_feature_prop_actions. rewrite E. cbn [bind tf_type tf_body] in *. cbv zeta.
  pose proof (ids_wire_len (i :: ids)) as L. cbn [length] in L.
  assert (lim : exists lim, (off + Z.to_nat (4 + zlen (concat (map id_wire (i :: ids)))))%nat = lim /\ (off + 4 < lim)%nat) by (eexists; split; [reflexivity|]; unfold zlen; lia).
  destruct lim as (lim & -> & Hlim).
  assert (P : p_action_id m (off + 4) = Ok (VTup "ofp_action_header" [VInt i; VInt 4], (off + 4)%nat)).
  { unfold p_action_id. cbn [map concat] in A. apply at_app in A. destruct A as [A _]. rewrite id_enc in A.
    assert (Ui : u16 i) by exact (Forall_inv Hi). unfold u16 in Ui.
    unfold p_action_header, fixed, unp, unpacks, sizes. change (fmt "HH4x") with (Ok [FU 2; FU 2; FX 4]). cbn [bind]. unfold unpack_from.
    cbn [calcsize item_size].
    replace (off + 4 + (2 + (2 + (4 + 0))) <=? length m)%nat with true by (symmetry; apply Nat.leb_le; lia). cbn [bind].
    destruct (at_skipn _ _ _ A) as [r Hr]. rewrite Hr. rewrite !enc_cons, <- !app_assoc. cbn [enc1].
    rewrite !decode_FU by (apply in_u_range; cbn; lia). cbn [decode bind].
    replace (i =? 65535) with false by (symmetry; apply Z.eqb_neq; exact Hx). reflexivity. }
  assert (W : while_fetch n (p_action_id m) lim (off + 4) = Err OutOfFuel).
  { clear -P Hlim. apply Nat.ltb_lt in Hlim. induction n as [|n IH]; cbn [while_fetch]; rewrite Hlim; [reflexivity|].
    rewrite P. cbn [bind]. rewrite IH. reflexivity. }
  rewrite W. reflexivity.
Qed.

Lemma experimenter_parse ty e t data m off : at_ m off (tf_wire (TfExperimenter ty e t data)) -> tf_ok (TfExperimenter ty e t data) ->
  p_table_feature_prop_experimenter m off =
  Ok (VTup "ofp_table_feature_prop_experimenter" [VInt ty; VInt (12 + zlen data); VInt e; VInt t; VBytes data],
      (off + length (tf_wire (TfExperimenter ty e t data)) - length data)%nat).
Proof.
  intros Hat Hok. pose proof (tf_u16 _ Hok) as Ht. destruct (tf_head _ m off Hat Hok) as (_ & _ & G).
  destruct Hok as (_ & Hl & He & Hu). rewrite tf_length.
  set (b := tf_body (TfExperimenter ty e t data)) in *.
  assert (Lb : length b = (8 + length data)%nat) by (unfold b; cbn [tf_body]; rewrite !app_length, !be_length; lia).
  assert (Ew : tf_wire (TfExperimenter ty e t data) = enc ([U 2 ty; U 2 (12 + zlen data); U 4 e; U 4 t] ++ [R (data ++ zeros (gap (4 + length b)))])).
  { unfold tf_wire. fold b. cbn [tf_type]. replace (4 + zlen b) with (12 + zlen data) by (unfold zlen; lia). unfold b at 1. cbn [tf_body].
    unfold enc. cbn [Datatypes.app map concat enc1]. rewrite app_nil_r, <- !app_assoc. reflexivity. }
  rewrite Ew in Hat. apply at_enc_app in Hat. destruct Hat as [A1 A2]. rewrite enc_R in A2. apply at_app in A2. destruct A2 as [A2 _].
  unfold p_table_feature_prop_experimenter.
  rewrite (unp_enc "HHII" [U 2 ty; U 2 (12 + zlen data); U 4 e; U 4 t] m off eq_refl); [| | exact A1].
  2:{ cbn [tf_type] in Ht. unfold u16, u32, zlen in *. repeat first [apply Forall_nil | apply Forall_cons]; cbn; lia. }
  cbn [bind vals flen fld_len] in *. cbv zeta.
  replace (12 + zlen data) with (4 + zlen b) at 2 3 4 by (unfold zlen; lia). rewrite G.
  rewrite (slice_at m _ data) by (exact A2 || (unfold zlen; lia)).
  cbn [Datatypes.app]. do 2 f_equal. lia.
Qed.

(** The length field of a structure that starts with type and length. *)
Lemma u16_at_2 a n rest : 0 <= n < 65536 -> u16_at (be 2 a ++ be 2 n ++ rest) 2 = n.
Proof.
  intros H. unfold u16_at, byte_at. cbn [be Datatypes.app nth Nat.add].
  change (256 ^ Z.of_nat 1) with 256. change (256 ^ Z.of_nat 0) with 1.
  rewrite ?Z.div_1_r, (Z.mod_small (n / 256)) by (split; [apply Z.div_pos | apply Z.div_lt_upper_bound]; lia).
  pose proof (Z.div_mod n 256). lia.
Qed.

(** Table features of OpenFlow 1.4 (C113). *)

From Coq Require Import String.
From Verif Require Import Py Struct P_Struct S_Hello S_Ports P_Hello P_Ports S_Wire4 S_Msg4 M_Build4 M_Parse4 P_Wire4 P_Act4 P_Stat4 P_Msg4 P_Table.
From Verif Require Import S_Wire5 M_Build5 M_Parse5 P_Wire5 S_Table5.
From Verif Require P_Fixed.
Local Open Scope Z_scope.
Local Open Scope list_scope.

Lemma fid_enc i : fid_wire i = enc [U 2 (fst i); U 2 (4 + zlen (snd i)); R (snd i)].
Proof. unfold enc, fid_wire. cbn [map concat enc1]. rewrite app_nil_r. reflexivity. Qed.

Lemma fid_len i : length (fid_wire i) = (4 + length (snd i))%nat.
Proof. unfold fid_wire. rewrite !app_length, !be_length. lia. Qed.

(** *** Building *)

Lemma id_exactly exps t v b : id_with_data exps (VInt t) v = Ok b <->
  u16 t /\ exists d, (if existsb (Z.eqb t) exps then v = VBytes d \/ v = VNone /\ d = [] else d = []) /\
    4 + zlen d < 65536 /\ b = fid_wire (t, d).
Proof.
  assert (P : forall d : bytes, u16 t -> 4 + zlen d < 65536 -> packs "HH" [VInt t; VInt (4 + Z.of_nat (length d))] = Ok (be 2 t ++ be 2 (4 + zlen d))).
  { intros d Ht Hl. pose proof (packs_enc "HH" [U 2 t; U 2 (4 + zlen d)] eq_refl) as K. cbn [vals] in K. unfold zlen in K.
    rewrite K by (repeat constructor; cbn; unfold u16, zlen in *; lia). unfold enc. cbn [map concat enc1]. rewrite app_nil_r. reflexivity. }
  assert (N : forall (d : bytes) p, packs "HH" [VInt t; VInt (4 + Z.of_nat (length d))] = Ok p -> u16 t /\ 4 + zlen d < 65536).
  { intros d p E. unfold packs in E. change (fmt "HH") with (@Ok (list fitem) [FU 2; FU 2]) in E. cbn [bind pack pack_item] in E.
    destruct (in_u 2 t) eqn:E1; [|discriminate E]. cbn [bind] in E. destruct (in_u 2 (4 + Z.of_nat (length d))) eqn:E2; [|discriminate E].
    apply P_Fixed.in_u_iff in E1. apply P_Fixed.in_u_iff in E2. change (2 ^ (8 * Z.of_nat 2)) with 65536 in *. unfold u16, zlen. lia. }
  unfold id_with_data. assert (X : py_inz (VInt t) exps = existsb (Z.eqb t) exps) by reflexivity. rewrite X. clear X.
  destruct (existsb (Z.eqb t) exps).
  - split.
    + intros E. destruct v as [| |d|tx|l|c l]; cbn [dflt_bytes] in E; cbv zeta in E; try (cbn [len_of bind] in E).
      * destruct (packs "HH" [VInt t; VInt (4 + Z.of_nat (length (@nil Z)))]) as [p|] eqn:Ep; [|discriminate E].
        destruct (N [] p Ep) as (Ht & Hl). rewrite (P [] Ht Hl) in Ep. injection Ep as <-. cbn [bind as_bytes] in E. injection E as <-.
        split; [exact Ht|]. exists []. split; [right; auto|]. split; [exact Hl|]. unfold fid_wire. cbn [fst snd]. rewrite <- ?app_assoc. reflexivity.
      * discriminate E.
      * destruct (packs "HH" [VInt t; VInt (4 + Z.of_nat (length d))]) as [p|] eqn:Ep; [|discriminate E].
        destruct (N d p Ep) as (Ht & Hl). rewrite (P d Ht Hl) in Ep. injection Ep as <-. cbn [bind as_bytes] in E. injection E as <-.
        split; [exact Ht|]. exists d. split; [left; auto|]. split; [exact Hl|]. unfold fid_wire. cbn [fst snd]. rewrite <- ?app_assoc. reflexivity.
      * destruct (packs "HH" [VInt t; VInt (4 + Z.of_nat (length tx))]); discriminate E.
      * destruct (packs "HH" [VInt t; VInt (4 + Z.of_nat (length l))]); discriminate E.
      * destruct (packs "HH" [VInt t; VInt (4 + Z.of_nat (length l))]); discriminate E.
    + intros (Ht & d & [->|[-> ->]] & Hl & ->); cbn [dflt_bytes]; cbv zeta; cbn [len_of bind]; rewrite (P _ Ht Hl); cbn [bind as_bytes];
        unfold fid_wire; cbn [fst snd]; rewrite <- ?app_assoc; reflexivity.
  - cbv zeta. cbn [len_of bind]. split.
    + intros E. destruct (packs "HH" [VInt t; VInt (4 + Z.of_nat (length (@nil Z)))]) as [p|] eqn:Ep; [|discriminate E].
      destruct (N [] p Ep) as (Ht & Hl). rewrite (P [] Ht Hl) in Ep. injection Ep as <-. cbn [bind as_bytes] in E. injection E as <-.
      split; [exact Ht|]. exists []. split; [reflexivity|]. split; [exact Hl|]. unfold fid_wire. cbn [fst snd]. rewrite <- ?app_assoc. reflexivity.
    + intros (Ht & d & -> & Hl & ->). rewrite (P [] Ht Hl). cbn [bind as_bytes]. unfold fid_wire. cbn [fst snd]. rewrite <- ?app_assoc. reflexivity.
Qed.

Lemma fid_build dx d cls v i : In cls ["ofp_instruction_id"; "ofp_action_id"]%string -> fid_arg cls v i -> fid_ok i -> (1 <= d)%nat ->
  obj dx d v = Ok (fid_wire i).
Proof.
  intros Hc Ha (Ht & Hl & Hx) Hd. destruct d as [|d]; [lia|].
  assert (Q : forall t l v, exists exps, In 65535 exps /\ obj dx (S d) (VTup cls [VInt t; l; v]) = id_with_data exps (VInt t) v).
  { intros t l w. destruct Hc as [<-|[<-|[]]]; eexists; (split; [|reflexivity]); cbn; auto. }
  destruct Ha as [i|t l data|t l]; [reflexivity| |]; destruct (Q t l (VBytes [])) as (exps & _).
  - destruct (Q t l (VBytes data)) as (ex & Hex & ->). cbn [fst snd] in *. apply id_exactly. split; [exact Ht|]. exists data. split; [|auto].
    destruct (existsb (Z.eqb t) ex) eqn:E; [left; reflexivity|]. destruct data as [|x data]; [reflexivity|]. exfalso.
    rewrite (Hx ltac:(discriminate)) in E. apply Bool.not_true_iff_false in E. apply E. apply existsb_exists. exists 65535. split; [exact Hex|reflexivity].
  - destruct (Q t l VNone) as (ex & _ & ->). cbn [fst snd] in *. apply id_exactly. split; [exact Ht|]. exists []. split; [|auto].
    destruct (existsb (Z.eqb t) ex); auto.
Qed.

Lemma fids_build dx d cls v ids : In cls ["ofp_instruction_id"; "ofp_action_id"]%string -> list_arg (fid_arg cls) fid_wire v ids -> Forall fid_ok ids -> (1 <= d)%nat ->
  seqarg (obj dx d) v = Ok (concat (map fid_wire ids)).
Proof.
  intros Hc Hv Hi Hd. apply (seqarg_spec (fid_arg cls) fid_wire (obj dx d) v ids Hv). intros w x Hin Hw.
  apply (fid_build dx d cls); try assumption. exact (Forall_In _ _ _ Hi Hin).
Qed.

Lemma bytes_build5 dx d (w : Z -> bytes) v ids : list_arg (fun b i => b = VBytes (w i)) w v ids ->
  seqarg (obj dx d) v = Ok (concat (map w ids)).
Proof. intros Hv. apply (seqarg_spec (fun b i => b = VBytes (w i)) w (obj dx d) v ids Hv). intros b x _ ->. apply obj_bytes. Qed.

Lemma words_build v ids : words_arg v ids -> Forall u32 ids ->
  match v with VList l | VTup _ l => pack (repeat (FU 4) (length l)) l | VBytes b => Ok b | VNone => Ok [] | _ => Err ValueError end =
  Ok (concat (map (be 4) ids)).
Proof.
  intros Hv Hi.
  assert (E : pack (repeat (FU 4) (length (map VInt ids))) (map VInt ids) = Ok (concat (map (be 4) ids))).
  { rewrite map_length, <- (shape_words ids), <- (vals_words ids), <- enc_words. apply pack_enc. apply fits_words. exact Hi. }
  destruct Hv; try reflexivity; exact E.
Qed.

Lemma f_u16 p : f_ok p -> u16 (f_type p).
Proof. intros [H _]. destruct p; cbn in *; unfold u16; intuition lia. Qed.

Lemma f_build dx d v p : f_arg v p -> f_ok p -> (2 <= d)%nat -> obj dx d v = Ok (f_wire p).
Proof.
  intros Ha Hok Hd. pose proof (f_u16 p Hok) as Ht. destruct Hok as (Hty & Hl & Hi). destruct d as [|d]; [lia|].
  destruct Ha as [p|ty l v ids Hv|ty l v ids Hv N16|ty l v ids Hv|ty l v ids Hv N14 N15]; [reflexivity| | | |]; cbn [f_type f_types f_body] in *.
  - change (ofp_table_feature_prop_instructions (obj dx d) (VInt ty) l v = Ok (f_wire (FInstructions ty ids))).
    unfold ofp_table_feature_prop_instructions. rewrite (fids_build dx d "ofp_instruction_id" v ids) by (cbn; auto; lia). cbn [bind].
    exact (proj1 (feature_build ty [0; 1] l _ Hty Ht Hl)).
  - change (ofp_table_feature_prop_tables (obj dx d) (VInt ty) l v = Ok (f_wire (FTables ty ids))).
    unfold ofp_table_feature_prop_tables. rewrite (bytes_build5 dx d (be 1) v ids Hv). cbn [bind].
    refine (proj1 (feature_build ty [2; 3] l _ _ Ht Hl)). cbn in *. intuition lia.
  - change (ofp_table_feature_prop_actions (obj dx d) (VInt ty) l v = Ok (f_wire (FActions ty ids))).
    unfold ofp_table_feature_prop_actions. rewrite (fids_build dx d "ofp_action_id" v ids) by (cbn; auto; lia). cbn [bind].
    exact (proj1 (feature_build ty [4; 5; 6; 7] l _ Hty Ht Hl)).
  - change (ofp_table_feature_prop_oxm (VInt ty) l v = Ok (f_wire (FOxm ty ids))).
    unfold ofp_table_feature_prop_oxm. rewrite (words_build v ids Hv Hi). cbn [bind].
    refine (proj1 (feature_build ty [8; 9; 10; 11; 12; 13] l _ _ Ht Hl)). cbn in *. intuition lia.
Qed.

Definition feat_fields (t : feat) : list fld :=
  [U 2 (64 + zlen (fprops_wire (ft_props t))); U 1 (ft_id t); P 5; R (ft_name t ++ zeros (32 - length (ft_name t)));
   U 8 (ft_match t); U 8 (ft_write t); U 4 (ft_caps t); U 4 (ft_max t)].

Lemma feat_enc t : feat_wire t = enc (feat_fields t) ++ fprops_wire (ft_props t).
Proof. unfold feat_wire, feat_fields, enc. cbn [map concat enc1]. rewrite app_nil_r, <- !app_assoc. reflexivity. Qed.

Lemma feat_fits t : feat_ok t -> fits (feat_fields t).
Proof.
  intros (A & B & C & D & E & F & G & _). unfold fits, feat_fields. unfold u8, u32 in *.
  repeat first [apply Forall_nil | apply Forall_cons]; cbn [in_range]; try exact Logic.I; unfold zlen in *;
    match goal with |- context[256 ^ ?n] => let x := eval vm_compute in (256 ^ n) in change (256 ^ n) with x end; lia.
Qed.

Lemma feat_name32 t : feat_ok t -> length (ft_name t ++ zeros (32 - length (ft_name t))) = 32%nat.
Proof. intros (_ & B & _). rewrite app_length, zeros_length. lia. Qed.

Lemma feat_len t : feat_ok t -> flen (feat_fields t) = 64%nat.
Proof. intros H. cbn [feat_fields flen fld_len]. rewrite (feat_name32 t H). reflexivity. Qed.

Lemma feat_build dx d v t : feat_arg v t -> feat_ok t -> (3 <= d)%nat -> obj dx d v = Ok (feat_wire t).
Proof.
  intros Ha Hok Hd. pose proof (feat_fits t Hok) as Hf. pose proof (feat_len t Hok) as HL. pose proof (feat_name32 t Hok) as H32.
  destruct d as [|d]; [lia|]. destruct Ha as [t|t l v Hv]; [reflexivity|].
  change (ofp_table_features (obj dx d) l (VInt (ft_id t)) (VBytes (ft_name t)) (VInt (ft_match t)) (VInt (ft_write t)) (VInt (ft_caps t)) (VInt (ft_max t)) v
    = Ok (feat_wire t)).
  destruct Hok as (A & B & C & D & E & F & G & H). unfold ofp_table_features.
  rewrite (seqarg_spec f_arg f_wire (obj dx d) v (ft_props t) Hv) by (intros w x Hin Hw; apply f_build; [exact Hw | exact (Forall_In _ _ _ H Hin) | lia]).
  cbn [bind]. cbv zeta. change (concat (map f_wire (ft_props t))) with (fprops_wire (ft_props t)).
  replace (Z.of_nat (64 + length (fprops_wire (ft_props t)))) with (64 + zlen (fprops_wire (ft_props t))) by (unfold zlen; lia).
  apply sized_ok.
  - unfold pack_app. rewrite (packs_norm "HB5x32sQQII" (feat_fields t)); [cbn [bind]; rewrite feat_enc; reflexivity | | exact Hf | | ].
    + unfold feat_fields. cbn [map shape]. rewrite H32. reflexivity.
    + unfold feat_fields. cbn [map shape norm vals]. rewrite H32. cbn [norm_item]. rewrite (pad_short 32 (ft_name t) B). reflexivity.
    + reflexivity.
  - rewrite feat_enc, app_length, enc_length, HL. reflexivity.
Qed.

Lemma reply_build5 dx d xid h f v ts :
  hdr_arg dx true 19 xid h -> u32 xid -> u16 f -> items_arg feat_arg v ts -> Forall feat_ok ts ->
  zlen (concat (map feat_wire ts)) <= 65519 -> (3 <= d)%nat ->
  call (obj dx d) dx "ofp_multipart_reply" [h; VInt 12; VInt f; v] = Ok (msg 5 19 xid (be 2 12 ++ be 2 f ++ zeros 4 ++ concat (map feat_wire ts))).
Proof.
  intros Hh Hx Hf Hv Ht Hl Hd.
  change (ofp_multipart_reply (obj dx d) dx h (VInt 12) (VInt f) v = Ok (msg 5 19 xid (be 2 12 ++ be 2 f ++ zeros 4 ++ concat (map feat_wire ts)))).
  unfold ofp_multipart_reply. change (py_inz (VInt 12) [0; 2; 8; 11]) with false. change (py_inz (VInt 12) [1; 3; 4; 5; 6; 7; 9; 10; 12; 13]) with true. cbv iota.
  rewrite (items_spec feat_arg feat_wire (obj dx d) v ts Hv) by (intros w x Hin Hw; apply feat_build; [exact Hw | exact (Forall_In _ _ _ Ht Hin) | lia]).
  cbn [bind].
  pose proof (pack_app_enc "HH4x" [U 2 12; U 2 f; P 4] (concat (map feat_wire ts)) eq_refl ltac:(repeat constructor; cbn; unfold u16 in Hf; lia)) as K.
  cbn [vals] in K. rewrite K. rewrite tfeats_enc. apply message_ok with true; try assumption.
  - unfold u8; lia.
  - left. split; reflexivity.
  - unfold zlen in *. rewrite tfeats_len_body. lia.
Qed.

Lemma request_build5 dx d xid h f v ts :
  hdr_arg dx true 18 xid h -> u32 xid -> u16 f -> list_arg feat_arg feat_wire v ts -> v <> VNone -> Forall feat_ok ts ->
  zlen (concat (map feat_wire ts)) <= 65519 -> (3 <= d)%nat ->
  call (obj dx d) dx "ofp_multipart_request" [h; VInt 12; VInt f; v] = Ok (msg 5 18 xid (be 2 12 ++ be 2 f ++ zeros 4 ++ concat (map feat_wire ts))).
Proof.
  intros Hh Hx Hf Hv Hn Ht Hl Hd.
  change (ofp_multipart_request (obj dx d) dx h (VInt 12) (VInt f) v = Ok (msg 5 18 xid (be 2 12 ++ be 2 f ++ zeros 4 ++ concat (map feat_wire ts)))).
  unfold ofp_multipart_request. change (py_inz (VInt 12) [0; 3; 7; 8; 11; 13]) with false. change (py_inz (VInt 12) [1; 2; 4; 5; 6; 9; 10]) with false.
  change (py_eqz (VInt 12) 12) with true. cbv iota.
  match goal with |- bind ?r _ = _ => assert (Er : r = Ok (VBytes (concat (map feat_wire ts)))) end.
  { destruct Hv as [|ts|vs ts H2|c vs ts H2]; [destruct (Hn eq_refl) | reflexivity | |];
      rewrite (join_spec feat_arg feat_wire (obj dx d) ts vs H2) by (intros w x Hin Hw; apply feat_build; [exact Hw | exact (Forall_In _ _ _ Ht Hin) | lia]); reflexivity. }
  rewrite Er. cbn [bind as_bytes].
  pose proof (packs_enc "HH4x" [U 2 12; U 2 f; P 4] eq_refl ltac:(repeat constructor; cbn; unfold u16 in Hf; lia)) as K. cbn [vals] in K. rewrite K. cbn [bind].
  replace (enc [U 2 12; U 2 f; P 4] ++ concat (map feat_wire ts)) with (be 2 12 ++ be 2 f ++ zeros 4 ++ concat (map feat_wire ts)) by (rewrite <- tfeats_enc, enc_app, enc_R; reflexivity).
  apply message_ok with true; try assumption.
  - unfold u8; lia.
  - left. split; reflexivity.
  - unfold zlen in *. rewrite tfeats_len_body. lia.
Qed.

(** *** Parsing *)

Lemma f_head p m off : at_ m off (f_wire p) -> f_ok p ->
  unp "HH" m off = Ok ([VInt (f_type p); VInt (4 + zlen (f_body p))], (off + 4)%nat) /\ at_ m (off + 4) (f_body p) /\
  (align8 (Z.to_nat (4 + zlen (f_body p))) - Z.to_nat (4 + zlen (f_body p)) = gap (4 + length (f_body p)))%nat /\
  (align8 (Z.to_nat (4 + zlen (f_body p))) = length (f_wire p))%nat.
Proof.
  intros Hat Hok. pose proof (f_u16 p Hok) as Ht. destruct Hok as (_ & Hl & _).
  assert (LW : length (f_wire p) = (4 + length (f_body p) + gap (4 + length (f_body p)))%nat).
  { unfold f_wire. rewrite !app_length, !be_length, zeros_length. lia. }
  rewrite LW. unfold f_wire in Hat.
  assert (E : be 2 (f_type p) ++ be 2 (4 + zlen (f_body p)) ++ f_body p ++ zeros (gap (4 + length (f_body p))) =
    enc ([U 2 (f_type p); U 2 (4 + zlen (f_body p))] ++ [R (f_body p ++ zeros (gap (4 + length (f_body p))))]))
    by (unfold enc; cbn [Datatypes.app map concat enc1]; rewrite app_nil_r; reflexivity).
  rewrite E in Hat. apply at_enc_app in Hat. destruct Hat as [A1 A2]. rewrite enc_R in A2. apply at_app in A2. destruct A2 as [A2 _].
  split; [|split; [|split]].
  - rewrite (unp_enc "HH" [U 2 (f_type p); U 2 (4 + zlen (f_body p))] m off eq_refl); [reflexivity | | exact A1].
    repeat constructor; cbn; unfold u16, zlen in *; lia.
  - exact A2.
  - replace (Z.to_nat (4 + zlen (f_body p))) with (4 + length (f_body p))%nat by (unfold zlen; lia). rewrite gap_align. lia.
  - replace (Z.to_nat (4 + zlen (f_body p))) with (4 + length (f_body p))%nat by (unfold zlen; lia). rewrite gap_align. lia.
Qed.

Lemma f_length p : length (f_wire p) = (4 + length (f_body p) + gap (4 + length (f_body p)))%nat.
Proof. unfold f_wire. rewrite !app_length, !be_length, zeros_length. lia. Qed.

Lemma oxm_parse5 ty ids m off : at_ m off (f_wire (FOxm ty ids)) -> f_ok (FOxm ty ids) ->
  p_table_feature_prop_oxm m off = Ok (f_view (FOxm ty ids), (off + length (f_wire (FOxm ty ids)))%nat).
Proof.
  intros Hat Hok. destruct (f_head _ m off Hat Hok) as (E & A & G & _). destruct Hok as (_ & _ & Hi). rewrite f_length.
  unfold p_table_feature_prop_oxm, f_view. rewrite E. cbn [bind f_type]. cbv zeta. rewrite G. clear G E Hat. cbn [f_body] in *.
  set (b := concat (map (be 4) ids)) in *. assert (Lb : length b = (4 * length ids)%nat) by apply be_words_len.
  replace (4 + zlen b - 4) with (Z.of_nat (length ids) * 4) by (unfold zlen; lia). rewrite Z.div_mul by lia.
  unfold unp_count. replace (Z.of_nat (length ids) <? 0) with false by (symmetry; apply Z.ltb_ge; lia). rewrite Nat2Z.id.
  unfold b in A. rewrite <- enc_words in A.
  assert (K : unpack_from (repeat (FU 4) (length ids)) m (off + 4) = Ok (map VInt ids)).
  { rewrite <- (shape_words ids), <- (vals_words ids).
    rewrite (unpack_decode _ _ _ _ A) by (rewrite enc_length, shape_size; reflexivity).
    rewrite <- (app_nil_r (enc (map (U 4) ids))), decode_enc by (apply fits_words; exact Hi). reflexivity. }
  rewrite K. cbn [bind]. rewrite <- (shape_words ids), shape_size, flen_words.
  cbn [Datatypes.app]. do 2 f_equal; lia.
Qed.

Lemma fid_parse cls i m off : at_ m off (fid_wire i) -> fid_ok i ->
  feature_id cls m off = Ok (fid_view cls i, (off + 4)%nat).
Proof.
  intros A (Ht & Hl & _). rewrite fid_enc in A.
  change [U 2 (fst i); U 2 (4 + zlen (snd i)); R (snd i)] with ([U 2 (fst i); U 2 (4 + zlen (snd i))] ++ [R (snd i)]) in A.
  apply at_enc_app in A. destruct A as [A1 A2]. rewrite enc_R in A2.
  unfold feature_id. rewrite (unp_enc "HH" [U 2 (fst i); U 2 (4 + zlen (snd i))] m off eq_refl); [|repeat constructor; cbn; unfold u16, zlen in *; lia|exact A1].
  cbn [vals flen fld_len bind Datatypes.app]. change (off + (2 + (2 + 0)))%nat with (off + 4)%nat.
  change (off + flen [U 2 (fst i); U 2 (4 + zlen (snd i))])%nat with (off + 4)%nat in A2.
  replace (off + Z.to_nat (4 + zlen (snd i)))%nat with (off + 4 + length (snd i))%nat by (unfold zlen; lia).
  rewrite (at_slice _ _ _ A2). reflexivity.
Qed.

Lemma instructions_parse5 n ty ids m off : at_ m off (f_wire (FInstructions ty ids)) -> f_ok (FInstructions ty ids) ->
  Forall (fun i => snd i = []) ids -> (length m <= n)%nat ->
  p_table_feature_prop_instructions n m off = Ok (f_view (FInstructions ty ids), (off + length (f_wire (FInstructions ty ids)))%nat).
Proof.
  intros Hat Hok Hn Hm. destruct (f_head _ m off Hat Hok) as (E & A & _ & G). destruct Hok as (_ & _ & Hi).
  unfold p_table_feature_prop_instructions, f_view. rewrite E. cbn [bind f_type]. cbv zeta. rewrite G.
  rewrite (list_fetch_spec fid_wire (fid_view "ofp_instruction_id") (p_instruction_id m) m ids).
  - reflexivity.
  - intros i o Hin Ao. unfold p_instruction_id. rewrite (fid_parse _ i m o Ao (Forall_In _ _ _ Hi Hin)). rewrite fid_len.
    pose proof (Forall_In _ _ _ Hn Hin) as S0. cbv beta in S0.
    assert (L0 : length (snd i) = 0%nat) by exact (f_equal (@length Z) S0). do 2 f_equal. lia.
  - apply Forall_forall. intros i _. rewrite fid_len. lia.
  - exact A.
  - cbn [f_body]. unfold zlen. lia.
  - exact Hm.
Qed.

(** Every id takes four bytes from the parser's view. *)
Lemma four_each cls m : forall n limit off vs o, while_fetch n (feature_id cls m) limit off = Ok (vs, o) -> (o = off + 4 * length vs)%nat.
Proof.
  induction n as [|n IH]; intros limit off vs o E; cbn [while_fetch] in E; destruct (off <? limit)%nat; try discriminate E.
  - injection E as <- <-. cbn. lia.
  - unfold feature_id in E at 1. destruct (unp "HH" m off) as [[ws o1]|] eqn:U; [|discriminate E].
    assert (o1 = (off + 4)%nat).
    { unfold unp in U. destruct (unpacks "HH" m off); [|discriminate U]. cbn [bind] in U. change (sizes "HH") with (@Ok nat 4%nat) in U.
      cbn [bind] in U. injection U as _ <-. reflexivity. }
    subst o1. cbn [bind] in E. destruct ws as [|a [|[|len| | | |] [|]]]; try discriminate E. cbn [bind] in E.
    destruct (while_fetch n (feature_id cls m) limit (off + 4)) as [[vs' o']|] eqn:W; [|discriminate E].
    cbn [bind] in E. injection E as <- <-. apply IH in W. cbn [length]. lia.
  - injection E as <- <-. cbn. lia.
Qed.

Lemma fids_len ids : length (concat (map fid_wire ids)) = (4 * length ids + length (concat (map snd ids)))%nat.
Proof. induction ids as [|i ids IH]; [reflexivity|]. cbn [map concat length]. rewrite !app_length, IH, fid_len. lia. Qed.

Lemma instructions_more n ty ids m off v o : at_ m off (f_wire (FInstructions ty ids)) -> f_ok (FInstructions ty ids) ->
  concat (map snd ids) <> [] -> p_table_feature_prop_instructions n m off = Ok (v, o) ->
  exists len vs, v = VTup "ofp_table_feature_prop_instructions" [VInt ty; len; VList vs] /\ (length ids < length vs)%nat.
Proof.
  intros Hat Hok Hne E. destruct (f_head _ m off Hat Hok) as (U & A & _ & G).
  unfold p_table_feature_prop_instructions in E. rewrite U in E. cbn [bind f_type] in E. cbv zeta in E.
  destruct (list_fetch n (p_instruction_id m) (off + Z.to_nat (4 + zlen (f_body (FInstructions ty ids)))) (off + 4)) as [[vs o']|] eqn:L; [|discriminate E].
  cbn [bind Datatypes.app] in E. injection E as <- _. eexists _, vs. split; [reflexivity|].
  unfold list_fetch in L. destruct (while_fetch n (p_instruction_id m) (off + Z.to_nat (4 + zlen (f_body (FInstructions ty ids)))) (off + 4)) as [[ws o2]|] eqn:W; [|discriminate L].
  cbn [bind] in L. destruct (o2 =? off + Z.to_nat (4 + zlen (f_body (FInstructions ty ids))))%nat eqn:Q; [|discriminate L].
  injection L as <- <-. apply Nat.eqb_eq in Q. apply (four_each "ofp_instruction_id") in W. cbn [f_body] in *.
  assert (0 < length (concat (map snd ids)))%nat by (destruct (concat (map snd ids)); [destruct (Hne eq_refl)|cbn; lia]).
  unfold zlen in *. rewrite (fids_len ids) in *. lia.
Qed.

Lemma tables_parse5 ty ids m off : at_ m off (f_wire (FTables ty ids)) -> f_ok (FTables ty ids) ->
  p_table_feature_prop_tables m off =
  Ok (VTup "ofp_table_feature_prop_tables" [VInt ty; VInt (4 + Z.of_nat (length ids));
        VTup "tuple" (map VInt (firstn (length ids) (f_wire (FTables ty ids))))],
      (off + length (f_wire (FTables ty ids)) - length ids)%nat).
Proof.
  intros Hat Hok. destruct (f_head _ m off Hat Hok) as (E & A & G & _). rewrite f_length.
  unfold p_table_feature_prop_tables. rewrite E. cbn [bind f_type]. cbv zeta. rewrite G. clear G E.
  change (f_body (FTables ty ids)) with (concat (map (be 1) ids)) in *.
  set (b := concat (map (be 1) ids)) in *. assert (Lb : length b = length ids) by (unfold b; rewrite be_words_len; lia).
  replace (4 + zlen b - 4) with (Z.of_nat (length ids)) by (unfold zlen; lia).
  unfold unp_count. replace (Z.of_nat (length ids) <? 0) with false by (symmetry; apply Z.ltb_ge; lia). rewrite Nat2Z.id.
  set (w := f_wire (FTables ty ids)) in *.
  assert (Lw : (length ids <= length w)%nat) by (unfold w; rewrite f_length; change (f_body (FTables ty ids)) with b; lia).
  assert (A' : at_ m off (firstn (length ids) w)) by (rewrite <- (firstn_skipn (length ids) w) in Hat; apply at_app in Hat; exact (proj1 Hat)).
  assert (C : forall k, calcsize (repeat (FU 1) k) = k) by (induction k as [|k IH]; [reflexivity|]; cbn [repeat calcsize item_size]; rewrite IH; reflexivity).
  rewrite (unpack_decode _ _ _ _ A') by (rewrite C, firstn_length; lia).
  assert (D : forall x : bytes, decode (repeat (FU 1) (length x)) x = map VInt x).
  { induction x as [|z x IH]; [reflexivity|]. cbn [length repeat decode map firstn skipn]. rewrite IH. do 2 f_equal. }
  replace (repeat (FU 1) (length ids)) with (repeat (FU 1) (length (firstn (length ids) w))) by (rewrite firstn_length; do 2 f_equal; lia).
  rewrite D. cbn [bind Datatypes.app]. do 2 f_equal; [do 4 f_equal; unfold zlen; lia | lia].
Qed.

(** Building and parsing hello elements, properties and multipart bodies of
    OpenFlow 1.4. *)

From Verif Require Import Py Struct P_Struct S_Hello S_Ports P_Hello P_Ports S_Wire4 S_Msg4 M_Build4 M_Parse4 P_Wire4 P_Act4 P_Stat4 P_Msg4 P_MsgParse4.
From Verif Require Import S_Wire5 S_Msg5 M_Build5 M_Parse5 P_Wire5 P_Act5.
Local Open Scope Z_scope.
Local Open Scope list_scope.

(** *** Generalities *)

(** Decoding the first fields of a layout. *)
Lemma decode_enc_app l fs rest : fits l -> decode (map shape l ++ fs) (enc l ++ rest) = vals l ++ decode fs rest.
Proof.
  induction l as [|f l IH]; intros H; [reflexivity|]. inversion H as [|? ? H1 H2]; subst.
  rewrite enc_cons, <- app_assoc. destruct f as [w z|n|b]; cbn [map shape vals enc1 Datatypes.app].
  - rewrite decode_FU by (apply in_u_range; exact H1). rewrite IH by exact H2. reflexivity.
  - rewrite decode_FX. apply IH; exact H2.
  - rewrite decode_FS by reflexivity. rewrite IH by exact H2. reflexivity.
Qed.

(** Fields between which some bytes are skipped. *)
Lemma unp_skip f l1 s l2 m off :
  fmt f = Ok (map shape l1 ++ FX (length s) :: map shape l2) -> fits l1 -> fits l2 -> at_ m off (enc l1 ++ s ++ enc l2) ->
  unp f m off = Ok (vals l1 ++ vals l2, (off + (flen l1 + length s + flen l2))%nat).
Proof.
  intros Hf F1 F2 Hat. unfold unp, unpacks, sizes. rewrite Hf. cbn [bind].
  assert (Hc : calcsize (map shape l1 ++ FX (length s) :: map shape l2) = (flen l1 + length s + flen l2)%nat).
  { pose proof (shape_size l1) as E1. pose proof (shape_size l2) as E2. revert E1. generalize (flen l1). generalize (map shape l1).
    induction l as [|x l IH]; intros k Hk.
    - cbn in Hk. subst k. cbn [Datatypes.app]. change (calcsize (FX (length s) :: map shape l2)) with (length s + calcsize (map shape l2))%nat.
      rewrite E2. lia.
    - cbn [Datatypes.app]. unfold calcsize in *. cbn [map fold_right list_sum] in *. rewrite (IH _ eq_refl). lia. }
  rewrite (unpack_decode _ _ _ _ Hat) by (rewrite !app_length, !enc_length, Hc; lia).
  cbn [bind]. rewrite decode_enc_app by exact F1. cbn [decode]. rewrite skipn_app_l by reflexivity.
  rewrite <- (app_nil_r (enc l2)), decode_enc by exact F2. rewrite Hc. reflexivity.
Qed.

Lemma seq_empty dx d v : empty_arg v -> seqarg (obj dx d) v = Ok [].
Proof. intros [->|[->|[->|[c ->]]]]; reflexivity. Qed.

(** *** Properties *)

Lemma exp_len e t d : length (enc (exp_fields e t d)) = (12 + length d + gap (12 + length d))%nat.
Proof. unfold exp_fields. rewrite enc_length. cbn [flen fld_len]. lia. Qed.

Lemma exp_build e t d : fits (exp_fields e t d) ->
  exp_prop (VInt 65535) (VInt e) (VInt t) (VBytes d) = Ok (enc (exp_fields e t d)).
Proof.
  intros Hf. unfold exp_prop, exp_fields in *. cbn [len_of bind]. cbv zeta. rewrite padding_gap.
  head_fits [U 2 65535; U 2 (12 + zlen d); U 4 e; U 4 t].
  replace (Z.of_nat (12 + length d)) with (12 + zlen d) by (unfold zlen; lia).
  use_packs "HHII"%string [U 2 65535; U 2 (12 + zlen d); U 4 e; U 4 t]; [|assumption]. cbn [bind as_bytes].
  change [U 2 65535; U 2 (12 + zlen d); U 4 e; U 4 t; R d; P (gap (12 + length d))] with
    ([U 2 65535; U 2 (12 + zlen d); U 4 e; U 4 t] ++ [R d; P (gap (12 + length d))]).
  rewrite enc_app. unfold enc at 3. cbn [map enc1 concat]. rewrite app_nil_r. reflexivity.
Qed.

Lemma exp_parse cls m off e t d : at_ m off (enc (exp_fields e t d)) -> fits (exp_fields e t d) ->
  exp_prop_aligned cls m off = Ok (exp_view cls e t d, (off + length (enc (exp_fields e t d)))%nat).
Proof.
  intros Hat Hf. rewrite exp_len. unfold exp_prop_aligned, exp_fields in *.
  cut_layout [U 2 65535; U 2 (12 + zlen d); U 4 e; U 4 t] Hat Hf.
  rewrite (unp_enc "HHII" [U 2 65535; U 2 (12 + zlen d); U 4 e; U 4 t]) by (try assumption; reflexivity).
  cbn [bind vals flen fld_len] in *. cbv zeta.
  rewrite enc_cons in Hat. cbn [enc1] in Hat. apply at_app in Hat. destruct Hat as [A _].
  replace (Z.to_nat (12 + zlen d)) with (12 + length d)%nat by (unfold zlen; lia).
  rewrite (slice_at _ _ d) by (try assumption; lia).
  unfold exp_view. cbn [Datatypes.app]. do 2 f_equal. pose proof (gap_align (12 + length d)). lia.
Qed.

Lemma exp_type_at m off e t d : at_ m off (enc (exp_fields e t d)) -> prop_type m off = Ok 65535.
Proof. intros H. apply (prop_type_at m off 65535 (tl (exp_fields e t d))); [exact H | cbn [exp_fields tl flen fld_len]; lia | lia]. Qed.

Lemma tprop_len p : (8 <= length (tprop_wire p))%nat.
Proof. destruct p; unfold tprop_wire, tprop_fields, exp_fields; rewrite enc_length; cbn [flen fld_len]; lia. Qed.

Lemma tprop_build dx d v p : tprop_arg v p -> fits (tprop_fields p) -> (1 <= d)%nat -> obj dx d v = Ok (tprop_wire p).
Proof.
  intros Ha Hf Hd. destruct d as [|d]; [lia|]. destruct Ha as [p|t f|t l dn u x|t l e x b]; [reflexivity| | |]; unfold tprop_wire; cbn [tprop_fields] in *.
  - exact (packs_enc "HHI" [U 2 2; U 2 8; U 4 f] eq_refl Hf).
  - exact (packs_enc "HH3Bx" [U 2 3; U 2 8; U 1 dn; U 1 u; U 1 x; P 1] eq_refl Hf).
  - exact (exp_build e x b Hf).
Qed.

Lemma tprop_parse m off p : at_ m off (tprop_wire p) -> fits (tprop_fields p) ->
  p_table_mod_prop m off = Ok (tprop_view p, (off + length (tprop_wire p))%nat).
Proof.
  intros Hat Hf. unfold p_table_mod_prop, tprop_wire in *. destruct p as [f|d u v|e t d]; cbn [tprop_fields tprop_view] in *.
  - rewrite (prop_type_at m off 2 [U 2 8; U 4 f]) by (try assumption; cbn [flen fld_len]; lia). cbn [bind].
    exact (fixed_enc "ofp_table_mod_prop_eviction" "HHI" [U 2 2; U 2 8; U 4 f] m off eq_refl Hf Hat).
  - rewrite (prop_type_at m off 3 [U 2 8; U 1 d; U 1 u; U 1 v; P 1]) by (try assumption; cbn [flen fld_len]; lia). cbn [bind].
    exact (fixed_enc "ofp_table_mod_prop_vacancy" "HH3Bx" [U 2 3; U 2 8; U 1 d; U 1 u; U 1 v; P 1] m off eq_refl Hf Hat).
  - rewrite (exp_type_at m off e t d Hat). cbn [bind]. exact (exp_parse _ m off e t d Hat Hf).
Qed.

Lemma be4_mod z : be 4 (z mod 4294967296) = be 4 z.
Proof.
  cbn [be Datatypes.app].
  assert (H : forall a, (a * 4294967296 + z) mod 256 = z mod 256) by (intros a; apply (f_equal (fun x => x)); rewrite Z.add_comm; replace (a * 4294967296) with (a * 16777216 * 256) by lia; apply Z.mod_add; lia).
  assert (E : z = 4294967296 * (z / 4294967296) + z mod 4294967296) by (apply Z.div_mod; lia).
  set (q := z / 4294967296) in *. set (r := z mod 4294967296) in *. clearbody q r. rewrite E. clear.
  assert (D1 : (4294967296 * q + r) / 256 = 16777216 * q + r / 256).
  { replace (4294967296 * q + r) with (r + 16777216 * q * 256) by lia. rewrite Z.div_add by lia. lia. }
  rewrite D1.
  assert (D2 : (16777216 * q + r / 256) / 256 = 65536 * q + r / 256 / 256).
  { replace (16777216 * q + r / 256) with (r / 256 + 65536 * q * 256) by lia. rewrite Z.div_add by lia. lia. }
  rewrite D2.
  assert (D3 : (65536 * q + r / 256 / 256) / 256 = 256 * q + r / 256 / 256 / 256).
  { replace (65536 * q + r / 256 / 256) with (r / 256 / 256 + 256 * q * 256) by lia. rewrite Z.div_add by lia. lia. }
  rewrite D3.
  assert (M : forall k a b, (256 * k * a + b) mod 256 = b mod 256).
  { intros k a b. replace (256 * k * a + b) with (b + k * a * 256) by lia. apply Z.mod_add. lia. }
  rewrite (M 1 q), (M 256 q), (M 65536 q), (M 16777216 q). reflexivity.
Qed.

Lemma pprop_build dx d v p : pprop_arg v p -> pprop_ok p -> (1 <= d)%nat -> obj dx d v = Ok (pprop_wire p).
Proof.
  intros Ha [Hf Hx] Hd. destruct d as [|d]; [lia|]. destruct Ha as [p|t l a|t l c f o g w|t l e x b]; [reflexivity| | |]; unfold pprop_wire; cbn [pprop_fields] in *.
  - exact (packs_enc "HHI" [U 2 0; U 2 8; U 4 a] eq_refl Hf).
  - change (packs "HHIIiII" [VInt 1; VInt 24; VInt c; VInt f; VInt o; VInt g; VInt w] = Ok (enc [U 2 1; U 2 24; U 4 c; U 4 f; U 4 (o mod 4294967296); U 4 g; U 4 w])).
    unfold packs. change (fmt "HHIIiII") with (Ok [FU 2; FU 2; FU 4; FU 4; FI 4; FU 4; FU 4]). cbn [bind pack pack_item].
    repeat (let H := fresh "F" in apply fits_cons in Hf; destruct Hf as [H Hf]). cbn [in_range] in *.
    rewrite !in_u_range by assumption.
    assert (Ei : in_i 4 o = true) by (unfold in_i; change (256 ^ Z.of_nat 4 / 2) with 2147483648; lia).
    rewrite Ei. cbn [bind]. unfold enc. cbn [map enc1 concat]. rewrite be4_mod. rewrite ?app_nil_r. reflexivity.
  - exact (exp_build e x b Hf).
Qed.

Lemma qprop_len p : (8 <= length (qprop_wire p))%nat.
Proof. destruct p; unfold qprop_wire, qprop_fields, exp_fields; rewrite enc_length; cbn [flen fld_len]; lia. Qed.

Lemma qprop_parse m off p : at_ m off (qprop_wire p) -> fits (qprop_fields p) ->
  p_queue_desc_prop m off = Ok (qprop_view p, (off + length (qprop_wire p))%nat).
Proof.
  intros Hat Hf. unfold p_queue_desc_prop, qprop_wire in *. destruct p as [r|r|e t d]; cbn [qprop_fields qprop_view] in *.
  - rewrite (prop_type_at m off 1 [U 2 8; U 2 r; P 2]) by (try assumption; cbn [flen fld_len]; lia). cbn [bind].
    exact (fixed_enc "ofp_queue_desc_prop_min_rate" "HHH2x" [U 2 1; U 2 8; U 2 r; P 2] m off eq_refl Hf Hat).
  - rewrite (prop_type_at m off 2 [U 2 8; U 2 r; P 2]) by (try assumption; cbn [flen fld_len]; lia). cbn [bind].
    exact (fixed_enc "ofp_queue_desc_prop_max_rate" "HHH2x" [U 2 2; U 2 8; U 2 r; P 2] m off eq_refl Hf Hat).
  - rewrite (exp_type_at m off e t d Hat). cbn [bind]. exact (exp_parse _ m off e t d Hat Hf).
Qed.

Lemma sprop_build dx d v p : sprop_arg v p -> sprop_ok p -> (1 <= d)%nat -> obj dx d v = Ok (sprop_wire p).
Proof.
  intros Ha [Hf Hx] Hd. destruct d as [|d]; [lia|]. destruct Ha as [p|t l a b c e|t l ws hs|t l e x v b Hv Hg]; [reflexivity| | |]; unfold sprop_wire; cbn [sprop_fields] in *.
  - exact (packs_enc "HH4x4Q" [U 2 0; U 2 40; P 4; U 8 a; U 8 b; U 8 c; U 8 e] eq_refl Hf).
  - destruct Hx as [Hw Hh].
    destruct ws as [|w1 [|w2 [|w3 [|w4 [|w5 [|w6 [|w7 [|? ?]]]]]]]]; try discriminate Hw.
    destruct hs as [|h1 [|h2 [|h3 [|h4 [|? ?]]]]]; try discriminate Hh.
    exact (packs_enc "HH4x7I4H" [U 2 1; U 2 44; P 4; U 4 w1; U 4 w2; U 4 w3; U 4 w4; U 4 w5; U 4 w6; U 4 w7; U 2 h1; U 2 h2; U 2 h3; U 2 h4] eq_refl Hf).
  - change (ofp_port_stats_prop_experimenter t l (VInt e) (VInt x) v = Ok (enc (exp_fields e x b))).
    unfold ofp_port_stats_prop_experimenter, exp_fields in *. rewrite (str_default _ _ Hv). cbn [len_of bind]. cbv zeta.
    head_fits [U 2 65535; U 2 (12 + zlen b); U 4 e; U 4 x].
    change (12 + Z.of_nat (length b)) with (12 + zlen b).
    use_packs "HHII"%string [U 2 65535; U 2 (12 + zlen b); U 4 e; U 4 x]; [|assumption]. cbn [bind as_bytes].
    rewrite Hg. change [U 2 65535; U 2 (12 + zlen b); U 4 e; U 4 x; R b; P 0] with ([U 2 65535; U 2 (12 + zlen b); U 4 e; U 4 x] ++ [R b; P 0]).
    rewrite enc_app. unfold enc at 3. cbn [map enc1 concat zeros repeat]. rewrite !app_nil_r. reflexivity.
Qed.

Lemma eprop_build dx d cls v p : cls = "ofp_queue_stats_prop_experimenter"%string ->
  eprop_arg cls v p -> fits (eprop_fields p) -> (1 <= d)%nat -> obj dx d v = Ok (eprop_wire p).
Proof.
  intros -> Ha Hf Hd. destruct d as [|d]; [lia|]. destruct Ha as [p|t l e x b]; [reflexivity|]. exact (exp_build e x b Hf).
Qed.

Lemma aprop_len p : length (aprop_wire p) = 8%nat.
Proof. unfold aprop_wire. rewrite enc_length. reflexivity. Qed.

Lemma aprop_build dx d v p : aprop_arg v p -> fits (aprop_fields p) -> 0 <= fst p < 12 -> (1 <= d)%nat -> obj dx d v = Ok (aprop_wire p).
Proof.
  intros Ha Hf Hr Hd. destruct d as [|d]; [lia|]. destruct Ha as [p|ty l k]; [reflexivity|]. cbn [fst] in Hr.
  change (ofp_async_config_prop_reasons (VInt ty) l (VInt k) = Ok (aprop_wire (ty, k))).
  unfold ofp_async_config_prop_reasons.
  assert (Hi : In ty [0; 1; 2; 3; 4; 5; 6; 7; 8; 9; 10; 11]) by (cbn; lia).
  rewrite (py_inz_In _ _ Hi). cbn [assert_ bind]. exact (packs_enc "HHI" [U 2 ty; U 2 8; U 4 k] eq_refl Hf).
Qed.

Lemma aprop_parse m off p : at_ m off (aprop_wire p) -> fits (aprop_fields p) -> 0 <= fst p < 12 -> fst p <> 8 -> fst p <> 9 ->
  p_async_config_prop m off = Ok (aprop_view p, (off + length (aprop_wire p))%nat).
Proof.
  intros Hat Hf Hr H8 H9. rewrite aprop_len. unfold p_async_config_prop, aprop_wire, aprop_fields in *.
  rewrite (prop_type_at m off (fst p) [U 2 8; U 4 (snd p)]) by (try assumption; try (cbn [flen fld_len]); lia). cbn [bind].
  assert (Hi : In (fst p) [0; 1; 2; 3; 4; 5; 6; 7; 10; 11]) by (cbn; lia).
  rewrite (py_inz_In _ _ Hi). exact (fixed_enc "ofp_async_config_prop_reasons" "HHI" [U 2 (fst p); U 2 8; U 4 (snd p)] m off eq_refl Hf Hat).
Qed.

(** *** Hello elements *)

Lemma hello_build dx d v l : hello_arg v l -> fits (hello_fields l) -> (1 <= d)%nat -> obj dx d v = Ok (hello_wire l).
Proof.
  intros Ha Hf Hd. destruct d as [|d]; [lia|]. destruct Ha as [l|t n b l Ht Hb]; [reflexivity|].
  change (ofp_hello_elem_versionbitmap t n b = Ok (hello_wire l)).
  unfold hello_wire, hello_fields in *. apply fits_app in Hf. destruct Hf as [F1 F2]. apply fits_app in F2. destruct F2 as [F2 _].
  unfold ofp_hello_elem_versionbitmap.
  assert (E : default t 1 = VInt 1) by (ta; reflexivity). rewrite E. cbn [py_eqz]. rewrite Z.eqb_refl. cbn [assert_ bind].
  assert (Eb : match b with VBytes b0 => Ok b0 | VList l0 | VTup _ l0 => bs <- mapM (fun e => packs "I" [e]) l0 ;; Ok (concat bs)
               | VNone => Ok [] | _ => Err ValueError end = Ok (enc (map (U 4) l))).
  { rewrite enc_words. destruct Hb as [->|[[c ->]|[->|[-> ->]]]]; try (rewrite words_mapM by exact F2); try reflexivity.
    rewrite enc_words. reflexivity. }
  rewrite Eb. cbn [bind]. cbv zeta. rewrite padding_gap, enc_length, flen_words.
  replace (Z.of_nat (4 + 4 * length l)) with (4 + 4 * zlen l) by (unfold zlen; lia).
  use_packs "!HH"%string [U 2 1; U 2 (4 + 4 * zlen l)]; [|exact F1]. cbn [bind].
  rewrite !enc_app. do 2 f_equal. f_equal. unfold enc. cbn [map concat enc1]. rewrite app_nil_r. reflexivity.
Qed.

Lemma hello_parse m off l : at_ m off (hello_wire l) -> fits (hello_fields l) ->
  p_hello_elem m off = Ok (hello_parsed l, (off + length (hello_wire l))%nat).
Proof.
  intros Hat Hf. rewrite hello_len. unfold hello_wire, hello_fields in *.
  apply at_enc_app in Hat. destruct Hat as [H1 H2]. apply at_enc_app in H2. destruct H2 as [H2 _].
  apply fits_app in Hf. destruct Hf as [F1 F2]. apply fits_app in F2. destruct F2 as [F2 _].
  unfold p_hello_elem, p_hello_elem_header.
  rewrite (fixed_enc "ofp_hello_elem_header" "HH" [U 2 1; U 2 (4 + 4 * zlen l)] m off eq_refl F1 H1). cbn [bind vals].
  rewrite Z.eqb_refl. unfold p_hello_elem_versionbitmap.
  rewrite (unp_enc "HH" [U 2 1; U 2 (4 + 4 * zlen l)] m off eq_refl F1 H1). cbn [bind vals]. rewrite Z.eqb_refl. cbn [assert_ bind].
  assert (E : (4 + 4 * zlen l - 4) / 4 = zlen l) by (rewrite Z.add_simpl_l, Z.mul_comm, Z.div_mul; lia). rewrite E.
  cbn [flen fld_len] in *.
  assert (Ec : unp_count (FU 4) (zlen l) m (off + (2 + (2 + 0))) = Ok (map VInt l, (off + (2 + (2 + 0)) + 4 * length l)%nat)).
  { unfold unp_count. assert (E0 : (zlen l <? 0) = false) by (apply Z.ltb_ge; unfold zlen; lia). rewrite E0.
    unfold zlen. rewrite Nat2Z.id. cbv zeta. rewrite <- shape_words, shape_size, flen_words.
    rewrite (unpack_decode (map shape (map (U 4) l)) _ _ _ H2) by (rewrite shape_size, enc_length; reflexivity).
    rewrite <- (app_nil_r (enc _)), decode_enc by exact F2. cbn [bind]. rewrite vals_words. reflexivity. }
  rewrite Ec. cbn [bind]. cbv zeta.
  replace (Z.to_nat (4 + 4 * zlen l)) with (4 + 4 * length l)%nat by (unfold zlen; lia). rewrite gap_align.
  unfold hello_parsed. do 2 f_equal. lia.
Qed.

(** *** Statistics *)

Definition fs_pre1 n t ds dn p i h f : list fld := [U 2 n; U 1 t; P 1; U 4 ds; U 4 dn; U 2 p; U 2 i; U 2 h; U 2 f].
Definition fs_pre2 c k o : list fld := [U 8 c; U 8 k; U 8 o].
Definition fs_pre n t ds dn p i h f c k o : list fld :=
  [U 2 n; U 1 t; P 1; U 4 ds; U 4 dn; U 2 p; U 2 i; U 2 h; U 2 f; P 4; U 8 c; U 8 k; U 8 o].

Lemma flow_stat_len s : length (flow_stat_wire s) =
  (let '(FlowStat _ _ _ _ _ _ _ _ _ _ _ m is) := s in 48 + length (match_wire m) + length (insts_wire is))%nat.
Proof.
  destruct s as [t ds dn p i h f w c k o m is]. unfold flow_stat_wire. rewrite enc_length. cbn [flow_stat_fields flen fld_len]. lia.
Qed.

Lemma flow_stat_build dx d v s : flow_stat_arg v s -> flow_stat_ok s -> (3 <= d)%nat -> obj dx d v = Ok (flow_stat_wire s).
Proof.
  intros Ha [Hf Hx] Hd. destruct d as [|d]; [lia|]. destruct Ha as [s|n t ds dn p i h f c k o mv m iv is Hm Hi]; [reflexivity|].
  destruct Hx as [Hfm Hfi]. pose proof (flow_stat_len (FlowStat t ds dn p i h f 0 c k o m is)) as Hl. cbn [flow_stat_fields] in *.
  change (ofp_flow_stats (obj dx d) n (VInt t) (VInt ds) (VInt dn) (VInt p) (VInt i) (VInt h) (VInt f) (VInt c) (VInt k) (VInt o) mv iv =
    Ok (flow_stat_wire (FlowStat t ds dn p i h f 0 c k o m is))).
  assert (Ew : flow_stat_wire (FlowStat t ds dn p i h f 0 c k o m is) =
    enc (fs_pre (48 + zlen (match_wire m) + zlen (insts_wire is)) t ds dn p i h f c k o ++ [R (match_wire m ++ insts_wire is)])).
  { unfold flow_stat_wire. cbn [flow_stat_fields]. unfold fs_pre, enc. cbn [map enc1 concat Datatypes.app be zeros repeat]. rewrite ?app_nil_r. reflexivity. }
  unfold ofp_flow_stats. rewrite (insts_build dx d iv is) by (try assumption; lia). cbn [bind].
  rewrite (match_build dx d mv m) by (try assumption; lia). cbn [bind]. cbv zeta.
  replace (Z.of_nat (48 + length (match_wire m) + length (insts_wire is))) with (48 + zlen (match_wire m) + zlen (insts_wire is)) by (unfold zlen; lia).
  apply sized_ok; [|exact Hl]. rewrite Ew.
  apply (pack_app_enc "HBxII4H4x3Q" (fs_pre (48 + zlen (match_wire m) + zlen (insts_wire is)) t ds dn p i h f c k o)); [reflexivity|].
  repeat (let H := fresh "F" in apply fits_cons in Hf; destruct Hf as [H Hf]).
  unfold fs_pre. repeat (apply Forall_cons; [first [assumption | exact I]|]). apply Forall_nil.
Qed.

Lemma flow_stat_parse m n off s : at_ m off (flow_stat_wire s) -> flow_stat_ok s -> flow_stat_parsable s -> (length m <= n)%nat ->
  p_flow_stats n m off = Ok (flow_stat_parsed s, (off + length (flow_stat_wire s))%nat).
Proof.
  intros Hat [Hf Hx] Hp Hn. rewrite flow_stat_len. destruct s as [t ds dn p i h f w c k o mt is]. unfold flow_stat_wire in *.
  destruct Hx as [Hfm Hfi]. cbn [flow_stat_fields flow_stat_parsable flow_stat_parsed] in *.
  set (N := 48 + zlen (match_wire mt) + zlen (insts_wire is)) in *.
  change (at_ m off (enc ((fs_pre1 N t ds dn p i h f ++ [U 2 w; P 2] ++ fs_pre2 c k o) ++ [R (match_wire mt); R (insts_wire is)]))) in Hat.
  change (fits (fs_pre1 N t ds dn p i h f ++ [U 2 w; P 2] ++ fs_pre2 c k o ++ [R (match_wire mt); R (insts_wire is)])) in Hf.
  apply fits_app in Hf. destruct Hf as [F1 F2]. apply fits_app in F2. destruct F2 as [_ F2]. apply fits_app in F2. destruct F2 as [F2 _].
  apply at_enc_app in Hat. destruct Hat as [A1 A2]. rewrite !enc_app in A1.
  unfold p_flow_stats.
  rewrite (unp_skip "HBxII4H4x3Q" (fs_pre1 N t ds dn p i h f) (enc [U 2 w; P 2]) (fs_pre2 c k o) m off); [|reflexivity|exact F1|exact F2|exact A1].
  rewrite !flen_app in A2. rewrite enc_length. cbn [vals fs_pre1 fs_pre2 bind flen fld_len Datatypes.app] in *.
  rewrite enc_R2 in A2. apply at_app in A2. destruct A2 as [A2 A3].
  rewrite (match_parse m _ mt) by (try assumption; exact A2). cbn [bind].
  rewrite (insts_list m n _ is) by (try assumption; try exact A3; unfold N, zlen; lia). cbn [bind].
  unfold insts_parsed, all_z. cbn [map Datatypes.app]. do 2 f_equal. unfold N, zlen. lia.
Qed.

Lemma table_stat_build dx d v s : fix_arg "ofp_table_stats" (table_stat_fields s) v -> fits (table_stat_fields s) -> (1 <= d)%nat ->
  obj dx d v = Ok (enc (table_stat_fields s)).
Proof.
  intros Ha Hf Hd. destruct d as [|d]; [lia|]. destruct Ha; [reflexivity|]. destruct s as [t a l m].
  change (ofp_table_stats (VInt t) (VInt a) (VInt l) (VInt m) = Ok (enc [U 1 t; P 3; U 4 a; U 8 l; U 8 m])).
  unfold ofp_table_stats. apply (sized_enc 24 "B3xIQQ" [U 1 t; P 3; U 4 a; U 8 l; U 8 m]); try reflexivity. exact Hf.
Qed.

Lemma port_stat_build dx d v s : port_stat_arg v s -> port_stat_ok s -> (2 <= d)%nat -> obj dx d v = Ok (port_stat_wire s).
Proof.
  intros Ha [Hf Hx] Hd. destruct d as [|d]; [lia|]. destruct Ha as [s|n p ds dn c v ps Hv]; [reflexivity|].
  destruct Hx as [Hc Hs]. unfold port_stat_wire. cbn [port_stat_fields] in *.
  destruct c as [|c1 [|c2 [|c3 [|c4 [|c5 [|c6 [|c7 [|c8 [|? ?]]]]]]]]]; try discriminate Hc.
  set (w := concat (map sprop_wire ps)) in *.
  change (ofp_port_stats (obj dx d) n (VInt p) (VInt ds) (VInt dn) (VInt c1) (VInt c2) (VInt c3) (VInt c4) (VInt c5) (VInt c6) (VInt c7) (VInt c8) v =
    Ok (enc ([U 2 (80 + zlen w); P 2; U 4 p; U 4 ds; U 4 dn; U 8 c1; U 8 c2; U 8 c3; U 8 c4; U 8 c5; U 8 c6; U 8 c7; U 8 c8] ++ [R w]))).
  change (fits ([U 2 (80 + zlen w); P 2; U 4 p; U 4 ds; U 4 dn; U 8 c1; U 8 c2; U 8 c3; U 8 c4; U 8 c5; U 8 c6; U 8 c7; U 8 c8] ++ [R w])) in Hf.
  apply fits_app in Hf. destruct Hf as [F1 _]. unfold ofp_port_stats.
  rewrite (seqarg_spec sprop_arg sprop_wire (obj dx d) v ps Hv) by
    (intros u x Hin Hw; apply sprop_build; [exact Hw | exact (Forall_In _ _ _ Hs Hin) | lia]).
  cbn [bind]. fold w.
  apply (pack_app_enc "H2x3I8Q" [U 2 (80 + zlen w); P 2; U 4 p; U 4 ds; U 4 dn; U 8 c1; U 8 c2; U 8 c3; U 8 c4; U 8 c5; U 8 c6; U 8 c7; U 8 c8]); [reflexivity | exact F1].
Qed.

Lemma queue_stat_build dx d v s : queue_stat_arg v s -> queue_stat_ok s -> (2 <= d)%nat -> obj dx d v = Ok (queue_stat_wire s).
Proof.
  intros Ha [Hf Hx] Hd. destruct d as [|d]; [lia|]. destruct Ha as [s|n p q b k e ds dn v ps Hv]; [reflexivity|].
  unfold queue_stat_wire. cbn [queue_stat_fields] in *.
  set (w := concat (map eprop_wire ps)) in *.
  change (ofp_queue_stats (obj dx d) n (VInt p) (VInt q) (VInt b) (VInt k) (VInt e) (VInt ds) (VInt dn) v =
    Ok (enc ([U 2 (48 + zlen w); P 6; U 4 p; U 4 q; U 8 b; U 8 k; U 8 e; U 4 ds; U 4 dn] ++ [R w]))).
  change (fits ([U 2 (48 + zlen w); P 6; U 4 p; U 4 q; U 8 b; U 8 k; U 8 e; U 4 ds; U 4 dn] ++ [R w])) in Hf.
  apply fits_app in Hf. destruct Hf as [F1 _]. unfold ofp_queue_stats.
  rewrite (seqarg_spec _ eprop_wire (obj dx d) v ps Hv) by
    (intros u x Hin Hw; apply (eprop_build dx d "ofp_queue_stats_prop_experimenter" u x eq_refl); [exact Hw | exact (Forall_In _ _ _ Hx Hin) | lia]).
  cbn [bind]. fold w.
  apply (pack_app_enc "H6x2I3Q2I" [U 2 (48 + zlen w); P 6; U 4 p; U 4 q; U 8 b; U 8 k; U 8 e; U 4 ds; U 4 dn]); [reflexivity | exact F1].
Qed.

Lemma queue_desc_len s : (16 <= length (queue_desc_wire s))%nat.
Proof. destruct s. unfold queue_desc_wire. rewrite enc_length. cbn [queue_desc_fields flen fld_len]. lia. Qed.

Lemma queue_desc_parse m n off s : at_ m off (queue_desc_wire s) -> queue_desc_ok s -> (length m <= n)%nat ->
  p_queue_desc n m off = Ok (queue_desc_view s, (off + length (queue_desc_wire s))%nat).
Proof.
  intros Hat [Hf Hx] Hn. destruct s as [p q ps]. unfold queue_desc_wire in *. rewrite enc_length.
  cbn [queue_desc_fields queue_desc_view] in *. set (w := concat (map qprop_wire ps)) in *.
  cut_layout [U 4 p; U 4 q; U 2 (16 + zlen w); P 6] Hat Hf.
  unfold p_queue_desc. rewrite (unp_enc "IIH6x" [U 4 p; U 4 q; U 2 (16 + zlen w); P 6]) by (try assumption; reflexivity).
  cbn [vals bind flen fld_len] in *. rewrite enc_R in Hat.
  rewrite (while_fetch_spec qprop_wire qprop_view (p_queue_desc_prop m) m ps) with (limit := (off + Z.to_nat (16 + zlen w))%nat);
    [cbn [bind Datatypes.app]; do 2 f_equal; unfold zlen; lia| | |exact Hat|fold w; unfold zlen; lia|exact Hn].
  - intros x o Hin Ho. apply qprop_parse; [exact Ho | exact (Forall_In _ _ _ Hx Hin)].
  - apply Forall_forall. intros x _. pose proof (qprop_len x). lia.
Qed.

Lemma counter_build dx d v c cls : cls = "ofp_bucket_counter"%string \/ cls = "ofp_meter_band_stats"%string ->
  fix_arg cls (counter_fields c) v -> fits (counter_fields c) -> (1 <= d)%nat ->
  obj dx d v = Ok (counter_wire c).
Proof.
  intros Hc Ha Hf Hd. destruct d as [|d]; [lia|]. destruct Ha; [reflexivity|]. destruct c as [p b]. unfold counter_wire.
  destruct Hc as [->| ->]; apply (packs_enc "QQ" [U 8 p; U 8 b]); try reflexivity; exact Hf.
Qed.

Lemma counters_build dx d v l cls : cls = "ofp_bucket_counter"%string \/ cls = "ofp_meter_band_stats"%string ->
  list_arg (fun v c => fix_arg cls (counter_fields c) v) counter_wire v l -> Forall (fun c => fits (counter_fields c)) l -> (1 <= d)%nat ->
  seqarg (obj dx d) v = Ok (concat (map counter_wire l)).
Proof.
  intros Hc Ha Hl Hd. apply (seqarg_spec (fun v c => fix_arg cls (counter_fields c) v) counter_wire); [exact Ha|].
  intros w c Hin Hw. apply (counter_build dx d w c cls); [exact Hc | exact Hw | exact (Forall_In _ _ _ Hl Hin) | exact Hd].
Qed.

Lemma group_stat_build dx d v s : group_stat_arg v s -> group_stat_ok s -> (2 <= d)%nat -> obj dx d v = Ok (group_stat_wire s).
Proof.
  intros Ha [Hf Hx] Hd. destruct d as [|d]; [lia|]. destruct Ha as [s|n g r p o ds dn bv bs Hb]; [reflexivity|].
  unfold group_stat_wire. cbn [group_stat_fields] in *.
  change (ofp_group_stats (obj dx d) n (VInt g) (VInt r) (VInt p) (VInt o) (VInt ds) (VInt dn) bv =
    Ok (enc (gs_pre bs g r p o ds dn ++ [R (concat (map counter_wire bs))]))).
  change (fits (gs_pre bs g r p o ds dn ++ [R (concat (map counter_wire bs))])) in Hf. apply fits_app in Hf. destruct Hf as [F1 _].
  unfold ofp_group_stats. rewrite (counters_build dx d bv bs "ofp_bucket_counter") by (try assumption; try lia; auto). cbn [bind].
  replace (40 + zlen (concat (map counter_wire bs))) with (40 + 16 * zlen bs) by (unfold zlen; rewrite counters_len; lia).
  apply (pack_app_enc "H2xII4xQQII" (gs_pre bs g r p o ds dn)); [reflexivity | exact F1].
Qed.

Lemma group_stat_parse m n off s : at_ m off (group_stat_wire s) -> group_stat_ok s -> (length m <= n)%nat ->
  p_group_stats n m off = Ok (group_stat_view s, (off + length (group_stat_wire s))%nat).
Proof.
  intros Hat [Hf Hx] Hn. destruct s as [g r p o ds dn bs]. unfold group_stat_wire in *. rewrite enc_length.
  cbn [group_stat_fields group_stat_view] in *.
  change (fits (gs_pre bs g r p o ds dn ++ [R (concat (map counter_wire bs))])) in Hf. apply fits_app in Hf. destruct Hf as [F1 _].
  change (at_ m off (enc (gs_pre bs g r p o ds dn ++ [R (concat (map counter_wire bs))]))) in Hat. apply at_enc_app in Hat. destruct Hat as [A1 A2].
  unfold p_group_stats. rewrite (unp_enc "H2xII4xQQII" (gs_pre bs g r p o ds dn) m off eq_refl F1 A1).
  cbn [vals gs_pre bind flen fld_len] in *. rewrite enc_R in A2.
  unfold p_bucket_counter. rewrite (counters_list "ofp_bucket_counter" m n _ bs) by (try assumption; rewrite counters_len; unfold zlen; lia).
  cbn [bind]. unfold all_z. cbn [map Datatypes.app]. do 2 f_equal. rewrite counters_len. unfold zlen. lia.
Qed.

Lemma group_desc_build dx d v s : group_desc_arg v s -> group_desc_ok s -> (3 <= d)%nat -> obj dx d v = Ok (group_desc_wire s).
Proof.
  intros Ha [Hf Hx] Hd. destruct d as [|d]; [lia|]. destruct Ha as [s|n t g bv bs Hb]; [reflexivity|].
  unfold group_desc_wire. cbn [group_desc_fields] in *.
  change (ofp_group_desc (obj dx d) n (VInt t) (VInt g) bv =
    Ok (enc ([U 2 (8 + zlen (buckets_wire bs)); U 1 t; P 1; U 4 g] ++ [R (buckets_wire bs)]))).
  change (fits ([U 2 (8 + zlen (buckets_wire bs)); U 1 t; P 1; U 4 g] ++ [R (buckets_wire bs)])) in Hf. apply fits_app in Hf. destruct Hf as [F1 _].
  unfold ofp_group_desc. rewrite (buckets_build dx d bv bs) by (try assumption; lia). cbn [bind].
  apply (pack_app_enc "HBxI" [U 2 (8 + zlen (buckets_wire bs)); U 1 t; P 1; U 4 g]); [reflexivity | exact F1].
Qed.

Lemma group_desc_parse m n off s : at_ m off (group_desc_wire s) -> group_desc_ok s -> group_desc_parsable s -> (length m <= n)%nat ->
  p_group_desc n m off = Ok (group_desc_parsed s, (off + length (group_desc_wire s))%nat).
Proof.
  intros Hat [Hf Hx] Hp Hn. destruct s as [t g bs]. unfold group_desc_wire in *. rewrite enc_length.
  cbn [group_desc_fields group_desc_parsed group_desc_parsable] in *.
  change (fits ([U 2 (8 + zlen (buckets_wire bs)); U 1 t; P 1; U 4 g] ++ [R (buckets_wire bs)])) in Hf. apply fits_app in Hf. destruct Hf as [F1 _].
  change (at_ m off (enc ([U 2 (8 + zlen (buckets_wire bs)); U 1 t; P 1; U 4 g] ++ [R (buckets_wire bs)]))) in Hat. apply at_enc_app in Hat. destruct Hat as [A1 A2].
  unfold p_group_desc. rewrite (unp_enc "HBxI" [U 2 (8 + zlen (buckets_wire bs)); U 1 t; P 1; U 4 g] m off eq_refl F1 A1).
  cbn [vals bind flen fld_len] in *. rewrite enc_R in A2.
  unfold list_fetch. rewrite (buckets_while m n _ bs) by (try assumption; unfold zlen; lia).
  cbn [bind]. rewrite Nat.eqb_refl. cbn [assert_ bind Datatypes.app]. do 2 f_equal. unfold zlen. lia.
Qed.

Lemma meter_stat_build dx d v s : meter_stat_arg v s -> meter_stat_ok s -> (2 <= d)%nat -> obj dx d v = Ok (meter_stat_wire s).
Proof.
  intros Ha [Hf Hx] Hd. destruct d as [|d]; [lia|]. destruct Ha as [s|m f p o ds dn bv bs Hb]; [reflexivity|].
  unfold meter_stat_wire. cbn [meter_stat_fields] in *.
  change (ofp_meter_stats (obj dx d) (VInt m) (VInt (40 + 16 * zlen bs)) (VInt f) (VInt p) (VInt o) (VInt ds) (VInt dn) bv =
    Ok (enc (ms_pre bs m f p o ds dn ++ [R (concat (map counter_wire bs))]))).
  change (fits (ms_pre bs m f p o ds dn ++ [R (concat (map counter_wire bs))])) in Hf. apply fits_app in Hf. destruct Hf as [F1 _].
  unfold ofp_meter_stats. rewrite (counters_build dx d bv bs "ofp_meter_band_stats") by (try assumption; try lia; auto). cbn [bind].
  apply (pack_app_enc "IH6xIQQII" (ms_pre bs m f p o ds dn)); [reflexivity | exact F1].
Qed.

Lemma meter_stat_parse m n off s : at_ m off (meter_stat_wire s) -> meter_stat_ok s -> (length m <= n)%nat ->
  p_meter_stats n m off = Ok (meter_stat_view s, (off + length (meter_stat_wire s))%nat).
Proof.
  intros Hat [Hf Hx] Hn. destruct s as [k f p o ds dn bs]. unfold meter_stat_wire in *. rewrite enc_length.
  cbn [meter_stat_fields meter_stat_view] in *.
  change (fits (ms_pre bs k f p o ds dn ++ [R (concat (map counter_wire bs))])) in Hf. apply fits_app in Hf. destruct Hf as [F1 _].
  change (at_ m off (enc (ms_pre bs k f p o ds dn ++ [R (concat (map counter_wire bs))]))) in Hat. apply at_enc_app in Hat. destruct Hat as [A1 A2].
  unfold p_meter_stats. rewrite (unp_enc "IH6xIQQII" (ms_pre bs k f p o ds dn) m off eq_refl F1 A1).
  cbn [vals ms_pre bind flen fld_len] in *. rewrite enc_R in A2.
  unfold p_meter_band_stats. rewrite (counters_list "ofp_meter_band_stats" m n _ bs) by (try assumption; rewrite counters_len; unfold zlen; lia).
  cbn [bind]. unfold all_z. cbn [map Datatypes.app]. do 2 f_equal. rewrite counters_len. unfold zlen. lia.
Qed.

Lemma meter_conf_build dx d v s : meter_conf_arg v s -> meter_conf_ok s -> (2 <= d)%nat -> obj dx d v = Ok (meter_conf_wire s).
Proof.
  intros Ha [Hf Hx] Hd. destruct d as [|d]; [lia|]. destruct Ha as [s|n f m bv bs Hb]; [reflexivity|].
  unfold meter_conf_wire. cbn [meter_conf_fields] in *.
  change (ofp_meter_config (obj dx d) n (VInt f) (VInt m) bv =
    Ok (enc ([U 2 (8 + zlen (bands_wire bs)); U 2 f; U 4 m] ++ [R (bands_wire bs)]))).
  change (fits ([U 2 (8 + zlen (bands_wire bs)); U 2 f; U 4 m] ++ [R (bands_wire bs)])) in Hf. apply fits_app in Hf. destruct Hf as [F1 _].
  unfold ofp_meter_config. rewrite (bands_build dx d bv bs) by (try assumption; lia). cbn [bind].
  apply (pack_app_enc "HHI" [U 2 (8 + zlen (bands_wire bs)); U 2 f; U 4 m]); [reflexivity | exact F1].
Qed.

Lemma meter_conf_parse m n off s : at_ m off (meter_conf_wire s) -> meter_conf_ok s -> meter_conf_parsable s -> (length m <= n)%nat ->
  p_meter_config n m off = Ok (meter_conf_view s, (off + length (meter_conf_wire s))%nat).
Proof.
  intros Hat [Hf Hx] Hp Hn. destruct s as [f k bs]. unfold meter_conf_wire in *. rewrite enc_length.
  cbn [meter_conf_fields meter_conf_view meter_conf_parsable] in *.
  change (fits ([U 2 (8 + zlen (bands_wire bs)); U 2 f; U 4 k] ++ [R (bands_wire bs)])) in Hf. apply fits_app in Hf. destruct Hf as [F1 _].
  change (at_ m off (enc ([U 2 (8 + zlen (bands_wire bs)); U 2 f; U 4 k] ++ [R (bands_wire bs)]))) in Hat. apply at_enc_app in Hat. destruct Hat as [A1 A2].
  unfold p_meter_config. rewrite (unp_enc "HHI" [U 2 (8 + zlen (bands_wire bs)); U 2 f; U 4 k] m off eq_refl F1 A1).
  cbn [vals bind flen fld_len] in *. rewrite enc_R in A2.
  unfold list_fetch. rewrite (bands_while m n _ bs) by (try assumption; unfold zlen; lia).
  cbn [bind]. rewrite Nat.eqb_refl. cbn [assert_ bind Datatypes.app]. do 2 f_equal. unfold zlen. lia.
Qed.

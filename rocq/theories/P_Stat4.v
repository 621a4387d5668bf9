(** Building and parsing ports, hello elements and multipart bodies. *)

From Verif Require Import Py Struct P_Struct S_Hello S_Ports P_Hello P_Ports S_Wire4 S_Msg4 M_Build4 M_Parse4 P_Wire4 P_Act4.
Local Open Scope Z_scope.
Local Open Scope list_scope.

(** *** Generalities *)

Lemma pack_norm fs : forall vs, length vs = length (filter (fun f => negb (is_pad f)) fs) -> pack fs (norm fs vs) = pack fs vs.
Proof.
  induction fs as [|f fs IH]; intros vs Hl.
  - destruct vs; [reflexivity | discriminate].
  - destruct f as [w|w|n|n]; cbn [filter is_pad negb] in Hl.
    + destruct vs as [|v vs]; [discriminate|]. injection Hl as Hl. cbn [norm pack]. rewrite (IH vs Hl). reflexivity.
    + destruct vs as [|v vs]; [discriminate|]. injection Hl as Hl. cbn [norm pack]. rewrite (IH vs Hl). reflexivity.
    + destruct vs as [|v vs]; [discriminate|]. injection Hl as Hl. cbn [norm pack]. rewrite (IH vs Hl).
      destruct v as [|z|s|t|l|c l]; try reflexivity. cbn [norm_item pack_item].
      rewrite firstn_all2 by (rewrite pad_length; lia). rewrite pad_length, Nat.sub_diag. cbn [zeros repeat].
      rewrite app_nil_r. reflexivity.
    + cbn [norm pack]. rewrite (IH vs Hl). reflexivity.
Qed.

Lemma pad_short n (b : bytes) : (length b <= n)%nat -> firstn n b ++ zeros (n - length b) = b ++ zeros (n - length b).
Proof. intros H. rewrite firstn_all2 by exact H. reflexivity. Qed.

(** Packing values that become those of a layout once padded. *)
Lemma packs_norm f l vs :
  fmt f = Ok (map shape l) -> fits l -> norm (map shape l) vs = vals l ->
  length vs = length (filter (fun x => negb (is_pad x)) (map shape l)) ->
  packs f vs = Ok (enc l).
Proof.
  intros Hf Hl Hn Hlen. unfold packs. rewrite Hf. cbn [bind]. rewrite <- pack_norm by exact Hlen. rewrite Hn.
  apply pack_enc. exact Hl.
Qed.

Lemma items_spec {A} (arg : pyval -> A -> Prop) (wire : A -> bytes) o v l :
  items_arg arg v l -> (forall v x, In x l -> arg v x -> o v = Ok (wire x)) ->
  match v with VList l0 | VTup _ l0 => join o l0 | VNone => Ok [] | _ => Err ValueError end = Ok (concat (map wire l)).
Proof.
  intros [[-> ->]|(vs & Hv & H)] Ho; [reflexivity|].
  destruct Hv as [->|[c ->]]; eapply join_spec; eassumption.
Qed.

Lemma vals_words (l : list Z) : vals (map (U 4) l) = map VInt l.
Proof. induction l as [|x l IH]; [reflexivity|]. cbn [map vals]. rewrite IH. reflexivity. Qed.

Lemma shape_words (l : list Z) : map shape (map (U 4) l) = repeat (FU 4) (length l).
Proof. induction l as [|x l IH]; [reflexivity|]. cbn [map shape repeat length]. rewrite IH. reflexivity. Qed.

Lemma flen_words (l : list Z) : flen (map (U 4) l) = (4 * length l)%nat.
Proof. induction l as [|x l IH]; [reflexivity|]. cbn [map flen fld_len length]. rewrite IH. lia. Qed.

Lemma flen_app a b : flen (a ++ b) = (flen a + flen b)%nat.
Proof. induction a as [|x a IH]; [reflexivity|]. cbn [Datatypes.app flen]. rewrite IH. lia. Qed.

Lemma vals_app a b : vals (a ++ b) = vals a ++ vals b.
Proof. induction a as [|x a IH]; [reflexivity|]. destruct x; cbn [Datatypes.app vals]; rewrite IH; reflexivity. Qed.

Lemma fits_words (l : list Z) : fits (map (U 4) l) <-> Forall (fun w => 0 <= w < 4294967296) l.
Proof. unfold fits. rewrite Forall_map. reflexivity. Qed.

(** *** Ports *)

Ltac eight l H :=
  let w1 := fresh "w" in let w2 := fresh "w" in let w3 := fresh "w" in let w4 := fresh "w" in
  let w5 := fresh "w" in let w6 := fresh "w" in let w7 := fresh "w" in let w8 := fresh "w" in
  destruct l as [|w1 [|w2 [|w3 [|w4 [|w5 [|w6 [|w7 [|w8 [|? ?]]]]]]]]]; try discriminate H.

Lemma name16_length n : (length n <= 16)%nat -> length (name16 n) = 16%nat.
Proof. intros H. unfold name16. rewrite app_length, zeros_length. lia. Qed.

Lemma port_fits p : sport_ok 4 p -> fits (port_fields p).
Proof.
  intros (H1 & _ & _ & _ & _ & H2). unfold port_fields. apply fits_app. split.
  - apply fits_cons. split; [exact H1|]. repeat (apply Forall_cons; [exact I|]). apply Forall_nil.
  - apply fits_words. exact H2.
Qed.

Lemma port_wlen p : sport_ok 4 p -> length (port_wire p) = 64%nat.
Proof.
  intros (_ & H1 & H2 & _ & H3 & _). change (4 =? 1) with false in H3. cbv iota in H3.
  unfold port_wire, port_fields. rewrite enc_length, flen_app, flen_words, H3. cbn [flen fld_len].
  rewrite name16_length, H1 by exact H2. reflexivity.
Qed.

Lemma port_fmt p : sport_ok 4 p ->
  [FU 4; FX 4; FS 6; FX 2; FS 16; FU 4; FU 4; FU 4; FU 4; FU 4; FU 4; FU 4; FU 4] = map shape (port_fields p).
Proof.
  intros (_ & H1 & H2 & _ & H3 & _). change (4 =? 1) with false in H3. cbv iota in H3.
  unfold port_fields. rewrite map_app, shape_words, H3. cbn [map shape]. rewrite name16_length, H1 by exact H2. reflexivity.
Qed.

Lemma port_build dx d v p : port_arg v p -> port_ok p -> (1 <= d)%nat -> obj dx d v = Ok (port_wire p).
Proof.
  intros Ha [Hp Hn] Hd. destruct d as [|d]; [lia|]. destruct Ha as [p|p]; [reflexivity|].
  pose proof (port_fits p Hp) as Hf. pose proof (port_fmt p Hp) as Hs. pose proof (port_wlen p Hp) as Hl.
  destruct Hp as (_ & H1 & H2 & _ & H3 & _). change (4 =? 1) with false in H3. cbv iota in H3.
  destruct p as [no hw name ws]. cbn [sp_no sp_hw sp_name sp_words] in *. unfold port_wire in *.
  eight ws H3.
  change (ofp_port (VInt no) (VBytes hw) (VBytes name) (VInt w) (VInt w0) (VInt w1) (VInt w2) (VInt w3) (VInt w4) (VInt w5) (VInt w6) =
    Ok (enc (port_fields (mkSport no hw name [w; w0; w1; w2; w3; w4; w5; w6])))).
  unfold ofp_port, encode_name.
  assert (E : forallb (fun c => c <? 128) name = true).
  { apply forallb_forall. intros c Hc. rewrite Forall_forall in Hn. apply Z.ltb_lt. apply Hn. exact Hc. }
  rewrite E. cbn [bind]. rewrite H1. cbn [Nat.eqb assert_ bind].
  assert (E2 : (length name <=? 16)%nat = true) by (apply Nat.leb_le; exact H2). rewrite E2. cbn [assert_ bind].
  unfold sized.
  rewrite (packs_norm "I4x6s2x16s8I" (port_fields (mkSport no hw name [w; w0; w1; w2; w3; w4; w5; w6]))).
  - cbn [bind]. rewrite Hl. reflexivity.
  - rewrite <- Hs. reflexivity.
  - exact Hf.
  - rewrite <- Hs. unfold port_fields. cbn [sp_no sp_hw sp_name sp_words norm norm_item map Datatypes.app vals].
    rewrite (pad_short 16 name H2). rewrite H1. rewrite firstn_all2 by lia. cbn [Nat.sub zeros repeat]. rewrite app_nil_r. reflexivity.
  - rewrite <- Hs. reflexivity.
Qed.

Lemma utf8_ascii l : Forall (fun c => 0 <= c < 128) l -> utf8 l = Ok l.
Proof.
  induction 1 as [|c l Hc Hl IH]; [reflexivity|]. cbn [utf8].
  assert (E : (c <? 128) = true) by (apply Z.ltb_lt; lia). rewrite E, IH. reflexivity.
Qed.

Lemma port_parse m off p : at_ m off (port_wire p) -> port_ok p ->
  p_port m off = Ok (port_parsed p, (off + length (port_wire p))%nat).
Proof.
  intros Hat [Hp Hn]. pose proof (port_fits p Hp) as Hf. pose proof (port_fmt p Hp) as Hs. rewrite (port_wlen p Hp).
  unfold p_port, port_wire in *.
  rewrite (unp_enc "I4x6s2x16sII6I" (port_fields p) m off) by (try assumption; rewrite <- Hs; reflexivity).
  pose proof (port_wlen p Hp) as Hl. unfold port_wire in Hl. rewrite enc_length in Hl. rewrite Hl.
  destruct Hp as (_ & _ & H2 & H0 & _ & _). cbn [bind]. unfold port_fields, port_parsed. rewrite vals_app, vals_words.
  cbn [vals Datatypes.app].
  unfold name16. rewrite before_nul_pad by exact H0. rewrite utf8_ascii by exact Hn. reflexivity.
Qed.

(** *** Hello elements *)

Lemma hello_len l : length (hello_wire l) = (4 + 4 * length l + gap (4 + 4 * length l))%nat.
Proof. unfold hello_wire, hello_fields. rewrite enc_length, !flen_app, flen_words. cbn [flen fld_len]. lia. Qed.

Lemma words_mapM l : fits (map (U 4) l) ->
  mapM (fun e => packs "I" [e]) (map VInt l) = Ok (map (be 4) l).
Proof.
  induction l as [|x l IH]; intros H; [reflexivity|]. cbn [map] in *. apply fits_cons in H. destruct H as [H1 H2].
  cbn [mapM]. use_packs "I"%string [U 4 x]; [|constructor; [exact H1 | constructor]].
  cbn [bind]. rewrite (IH H2). unfold enc. cbn [map concat enc1]. rewrite app_nil_r. reflexivity.
Qed.

Lemma enc_words l : enc (map (U 4) l) = concat (map (be 4) l).
Proof. unfold enc. rewrite map_map. reflexivity. Qed.

Lemma hello_build dx d v l : hello_arg v l -> fits (hello_fields l) -> (1 <= d)%nat -> obj dx d v = Ok (hello_wire l).
Proof.
  intros Ha Hf Hd. destruct d as [|d]; [lia|]. destruct Ha as [l|t n b l Ht Hb]; [reflexivity|].
  change (ofp_hello_elem_versionbitmap t n b = Ok (hello_wire l)).
  unfold hello_wire, hello_fields in *. apply fits_app in Hf. destruct Hf as [F1 F2]. apply fits_app in F2. destruct F2 as [F2 _].
  unfold ofp_hello_elem_versionbitmap.
  assert (E : default t 1 = VInt 1) by (ta; reflexivity). rewrite E. cbn [py_eqz]. rewrite Z.eqb_refl. cbn [assert_ bind].
  assert (Eb : match b with VBytes b0 => Ok b0 | VList l0 | VTup _ l0 => bs <- mapM (fun e => packs "I" [e]) l0 ;; Ok (concat bs)
               | VNone => Ok [] | _ => Err ValueError end = Ok (enc (map (U 4) l))).
  { rewrite enc_words. destruct Hb as [->|[[c ->]|[->|[-> ->]]]]; try (rewrite words_mapM by exact F2); try reflexivity.
    rewrite enc_words. reflexivity. }
  rewrite Eb. cbn [bind]. cbv zeta. rewrite padding_gap, enc_length, flen_words.
  replace (Z.of_nat (4 + 4 * length l)) with (4 + 4 * zlen l) by (unfold zlen; lia).
  use_packs "!HH"%string [U 2 1; U 2 (4 + 4 * zlen l)]; [|exact F1]. cbn [bind].
  rewrite !enc_app. do 2 f_equal. f_equal. unfold enc. cbn [map concat enc1]. rewrite app_nil_r. reflexivity.
Qed.

Lemma hello_parse m off l : at_ m off (hello_wire l) -> fits (hello_fields l) ->
  p_hello_elem m off = Ok (hello_parsed l, (off + length (hello_wire l))%nat).
Proof.
  intros Hat Hf. rewrite hello_len. unfold hello_wire, hello_fields in *.
  apply at_enc_app in Hat. destruct Hat as [H1 H2]. apply at_enc_app in H2. destruct H2 as [H2 _].
  apply fits_app in Hf. destruct Hf as [F1 F2]. apply fits_app in F2. destruct F2 as [F2 _].
  unfold p_hello_elem, p_hello_elem_header.
  rewrite (fixed_enc "ofp_hello_elem_header" "HH" [U 2 1; U 2 (4 + 4 * zlen l)] m off eq_refl F1 H1). cbn [bind vals].
  rewrite Z.eqb_refl. unfold p_hello_elem_versionbitmap.
  rewrite (unp_enc "HH" [U 2 1; U 2 (4 + 4 * zlen l)] m off eq_refl F1 H1). cbn [bind vals]. rewrite Z.eqb_refl. cbn [assert_ bind].
  assert (E : (4 + 4 * zlen l - 4) / 4 = zlen l) by (rewrite Z.add_simpl_l, Z.mul_comm, Z.div_mul; lia). rewrite E.
  cbn [flen fld_len] in *.
  assert (Ec : unp_count (FU 4) (zlen l) m (off + (2 + (2 + 0))) = Ok (map VInt l, (off + (2 + (2 + 0)) + 4 * length l)%nat)).
  { unfold unp_count. assert (E0 : (zlen l <? 0) = false) by (apply Z.ltb_ge; unfold zlen; lia). rewrite E0.
    unfold zlen. rewrite Nat2Z.id. cbv zeta. rewrite <- shape_words, shape_size, flen_words.
    rewrite (unpack_decode (map shape (map (U 4) l)) _ _ _ H2) by (rewrite shape_size, enc_length; reflexivity).
    rewrite <- (app_nil_r (enc _)), decode_enc by exact F2. cbn [bind]. rewrite vals_words. reflexivity. }
  rewrite Ec. cbn [bind]. cbv zeta.
  replace (Z.to_nat (4 + 4 * zlen l)) with (4 + 4 * length l)%nat by (unfold zlen; lia). rewrite gap_align.
  unfold hello_parsed. do 2 f_equal. lia.
Qed.

Lemma hello_pos l : Forall (fun x => (0 < length (hello_wire x))%nat) l.
Proof. apply Forall_forall. intros x _. rewrite hello_len. lia. Qed.

(** *** Statistics *)

(** Expose the fixed part of a layout: [pre] with its hypotheses. *)
Ltac split_layout pre rest Hat Hf :=
  let H1 := fresh "A1" in let H2 := fresh "A2" in let F1 := fresh "F1" in let F2 := fresh "F2" in
  change (at_ _ _ (enc (pre ++ rest))) in Hat; apply at_enc_app in Hat; destruct Hat as [H1 H2];
  change (fits (pre ++ rest)) in Hf; apply fits_app in Hf; destruct Hf as [F1 F2].

Definition fs_pre n t ds dn p i h f c k o : list fld :=
  [U 2 n; U 1 t; P 1; U 4 ds; U 4 dn; U 2 p; U 2 i; U 2 h; U 2 f; P 4; U 8 c; U 8 k; U 8 o].

Lemma flow_stat_len s : length (flow_stat_wire s) =
  (let '(FlowStat _ _ _ _ _ _ _ _ _ _ m is) := s in 48 + length (match_wire m) + length (insts_wire is))%nat.
Proof.
  destruct s as [t ds dn p i h f c k o m is]. unfold flow_stat_wire. rewrite enc_length. cbn [flow_stat_fields flow_stat_fixed].
  rewrite flen_app. cbn [flen fld_len]. lia.
Qed.

Lemma flow_stat_build dx d v s : flow_stat_arg v s -> flow_stat_ok s -> (3 <= d)%nat -> obj dx d v = Ok (flow_stat_wire s).
Proof.
  intros Ha [Hf Hx] Hd. destruct d as [|d]; [lia|]. destruct Ha as [s|n t ds dn p i h f c k o mv m iv is Hm Hi]; [reflexivity|].
  destruct Hx as [Hfm Hfi]. unfold flow_stat_wire. cbn [flow_stat_fields flow_stat_fixed] in *.
  change (ofp_flow_stats (obj dx d) n (VInt t) (VInt ds) (VInt dn) (VInt p) (VInt i) (VInt h) (VInt f) (VInt c) (VInt k) (VInt o) mv iv =
    Ok (enc (fs_pre (48 + zlen (match_wire m) + zlen (insts_wire is)) t ds dn p i h f c k o ++ [R (match_wire m); R (insts_wire is)]))).
  unfold ofp_flow_stats. rewrite (insts_build dx d iv is) by (try assumption; lia). cbn [bind].
  rewrite (match_build dx d mv m) by (try assumption; lia). cbn [bind]. cbv zeta.
  change (fits (fs_pre (48 + zlen (match_wire m) + zlen (insts_wire is)) t ds dn p i h f c k o ++ [R (match_wire m); R (insts_wire is)])) in Hf.
  apply fits_app in Hf. destruct Hf as [F1 _].
  replace (Z.of_nat (48 + length (match_wire m) + length (insts_wire is))) with (48 + zlen (match_wire m) + zlen (insts_wire is)) by (unfold zlen; lia).
  unfold sized.
  assert (E := pack_app_enc "HBxII4H4x3Q" (fs_pre (48 + zlen (match_wire m) + zlen (insts_wire is)) t ds dn p i h f c k o)
    (match_wire m ++ insts_wire is) eq_refl F1). cbn [vals fs_pre] in E. rewrite E. cbn [bind].
  assert (Ee : forall pre a b, enc (pre ++ [R (a ++ b)]) = enc (pre ++ [R a; R b])).
  { intros pre a b. rewrite !enc_app, enc_R. unfold enc at 3. cbn [map enc1 concat]. rewrite app_nil_r. reflexivity. }
  rewrite (Ee [U 2 (48 + zlen (match_wire m) + zlen (insts_wire is)); U 1 t; P 1; U 4 ds; U 4 dn; U 2 p; U 2 i; U 2 h; U 2 f; P 4; U 8 c; U 8 k; U 8 o]).
  assert (El : (length (enc ([U 2 (48 + zlen (match_wire m) + zlen (insts_wire is)); U 1 t; P 1; U 4 ds; U 4 dn; U 2 p; U 2 i; U 2 h; U 2 f; P 4; U 8 c; U 8 k; U 8 o] ++ [R (match_wire m); R (insts_wire is)])) =? 48 + length (match_wire m) + length (insts_wire is))%nat = true).
  { apply Nat.eqb_eq. rewrite enc_length. cbn [Datatypes.app flen fld_len]. lia. }
  rewrite El. reflexivity.
Qed.

Lemma flow_stat_parse m n off s : at_ m off (flow_stat_wire s) -> flow_stat_ok s -> flow_stat_parsable s -> (length m <= n)%nat ->
  p_flow_stats n m off = Ok (flow_stat_parsed s, (off + length (flow_stat_wire s))%nat).
Proof.
  intros Hat [Hf Hx] Hp Hn. rewrite flow_stat_len. destruct s as [t ds dn p i h f c k o mt is]. unfold flow_stat_wire in *.
  destruct Hx as [Hfm Hfi]. cbn [flow_stat_fields flow_stat_fixed flow_stat_parsable flow_stat_parsed] in *.
  change (fits (fs_pre (48 + zlen (match_wire mt) + zlen (insts_wire is)) t ds dn p i h f c k o ++ [R (match_wire mt); R (insts_wire is)])) in Hf.
  change (at_ m off (enc (fs_pre (48 + zlen (match_wire mt) + zlen (insts_wire is)) t ds dn p i h f c k o ++ [R (match_wire mt); R (insts_wire is)]))) in Hat.
  apply fits_app in Hf. destruct Hf as [F1 _]. apply at_enc_app in Hat. destruct Hat as [A1 A2].
  unfold p_flow_stats.
  rewrite (unp_enc "HBxII4H4x3Q" (fs_pre (48 + zlen (match_wire mt) + zlen (insts_wire is)) t ds dn p i h f c k o) m off eq_refl F1 A1).
  cbn [vals fs_pre bind flen fld_len] in *.
  rewrite enc_cons in A2. cbn [enc1] in A2. rewrite enc_R in A2. apply at_app in A2. destruct A2 as [A2 A3].
  rewrite (match_parse m _ mt A2 Hfm). cbn [bind].
  rewrite (insts_list m n _ is) by (try assumption; unfold zlen; lia). cbn [bind].
  unfold insts_parsed, all_z. cbn [map Datatypes.app]. do 2 f_equal. unfold zlen. lia.
Qed.

(** Fixed entries. *)
Lemma table_stat_build dx d v s : fix_arg "ofp_table_stats" (table_stat_fields s) v -> fits (table_stat_fields s) -> (1 <= d)%nat ->
  obj dx d v = Ok (enc (table_stat_fields s)).
Proof.
  intros Ha Hf Hd. destruct d as [|d]; [lia|]. destruct Ha; [reflexivity|]. destruct s as [t a l m].
  change (ofp_table_stats (VInt t) (VInt a) (VInt l) (VInt m) = Ok (enc [U 1 t; P 3; U 4 a; U 8 l; U 8 m])).
  unfold ofp_table_stats. apply (sized_enc 24 "B3xIQQ" [U 1 t; P 3; U 4 a; U 8 l; U 8 m]); try reflexivity. exact Hf.
Qed.

Lemma table_stat_parse m off s : at_ m off (enc (table_stat_fields s)) -> fits (table_stat_fields s) ->
  p_table_stats m off = Ok (VTup "ofp_table_stats" (vals (table_stat_fields s)), (off + length (enc (table_stat_fields s)))%nat).
Proof.
  intros Hat Hf. rewrite enc_length. destruct s as [t a l k].
  apply (fixed_enc "ofp_table_stats" "B3xIQQ" [U 1 t; P 3; U 4 a; U 8 l; U 8 k]); try assumption. reflexivity.
Qed.

Lemma queue_stat_build dx d v s : fix_arg "ofp_queue_stats" (queue_stat_fields s) v -> fits (queue_stat_fields s) -> (1 <= d)%nat ->
  obj dx d v = Ok (enc (queue_stat_fields s)).
Proof.
  intros Ha Hf Hd. destruct d as [|d]; [lia|]. destruct Ha; [reflexivity|]. destruct s as [p q b k e ds dn].
  change (ofp_queue_stats (VInt p) (VInt q) (VInt b) (VInt k) (VInt e) (VInt ds) (VInt dn) = Ok (enc [U 4 p; U 4 q; U 8 b; U 8 k; U 8 e; U 4 ds; U 4 dn])).
  unfold ofp_queue_stats. apply (packs_enc "2I3Q2I" [U 4 p; U 4 q; U 8 b; U 8 k; U 8 e; U 4 ds; U 4 dn]); [reflexivity | exact Hf].
Qed.

Lemma queue_stat_parse m off s : at_ m off (enc (queue_stat_fields s)) -> fits (queue_stat_fields s) ->
  p_queue_stats m off = Ok (VTup "ofp_queue_stats" (vals (queue_stat_fields s)), (off + length (enc (queue_stat_fields s)))%nat).
Proof.
  intros Hat Hf. rewrite enc_length. destruct s as [p q b k e ds dn].
  apply (fixed_enc "ofp_queue_stats" "2I3Q2I" [U 4 p; U 4 q; U 8 b; U 8 k; U 8 e; U 4 ds; U 4 dn]); try assumption. reflexivity.
Qed.

Lemma counter_build dx d v c cls : cls = "ofp_bucket_counter"%string \/ cls = "ofp_meter_band_stats"%string ->
  fix_arg cls (counter_fields c) v -> fits (counter_fields c) -> (1 <= d)%nat ->
  obj dx d v = Ok (counter_wire c).
Proof.
  intros Hc Ha Hf Hd. destruct d as [|d]; [lia|]. destruct Ha; [reflexivity|]. destruct c as [p b]. unfold counter_wire.
  destruct Hc as [->| ->]; apply (packs_enc "QQ" [U 8 p; U 8 b]); try reflexivity; exact Hf.
Qed.

Lemma counter_parse cls m off c : at_ m off (counter_wire c) -> fits (counter_fields c) ->
  fixed cls "QQ" m off = Ok (VTup cls (vals (counter_fields c)), (off + length (counter_wire c))%nat).
Proof.
  intros Hat Hf. unfold counter_wire in *. rewrite enc_length. destruct c as [p b].
  apply (fixed_enc cls "QQ" [U 8 p; U 8 b]); try assumption. reflexivity.
Qed.

Lemma counter_len c : length (counter_wire c) = 16%nat.
Proof. unfold counter_wire. rewrite enc_length. reflexivity. Qed.

Lemma counters_len l : length (concat (map counter_wire l)) = (16 * length l)%nat.
Proof. induction l as [|c l IH]; [reflexivity|]. cbn [map concat length]. rewrite app_length, counter_len, IH. lia. Qed.

Lemma counters_build dx d v l cls : cls = "ofp_bucket_counter"%string \/ cls = "ofp_meter_band_stats"%string ->
  list_arg (fun v c => fix_arg cls (counter_fields c) v) counter_wire v l -> Forall (fun c => fits (counter_fields c)) l -> (1 <= d)%nat ->
  seqarg (obj dx d) v = Ok (concat (map counter_wire l)).
Proof.
  intros Hc Ha Hl Hd. apply (seqarg_spec (fun v c => fix_arg cls (counter_fields c) v) counter_wire); [exact Ha|].
  intros w c Hin Hw. apply (counter_build dx d w c cls); [exact Hc | exact Hw | exact (Forall_In _ _ _ Hl Hin) | exact Hd].
Qed.

Lemma counters_list cls m n off l limit :
  at_ m off (concat (map counter_wire l)) -> Forall (fun c => fits (counter_fields c)) l ->
  limit = (off + length (concat (map counter_wire l)))%nat -> (length m <= n)%nat ->
  list_fetch n (fixed cls "QQ" m) limit off = Ok (map (fun c => VTup cls (vals (counter_fields c))) l, limit).
Proof.
  intros Hat Hl Hlim Hn.
  apply (list_fetch_spec counter_wire (fun c => VTup cls (vals (counter_fields c))) (fixed cls "QQ" m) m l); try assumption.
  - intros c o Hin Ho. apply counter_parse; [exact Ho | exact (Forall_In _ _ _ Hl Hin)].
  - apply Forall_forall. intros c _. rewrite counter_len. lia.
Qed.

Definition gs_pre bs g r p o ds dn : list fld := [U 2 (40 + 16 * zlen (A := Z * Z) bs); P 2; U 4 g; U 4 r; P 4; U 8 p; U 8 o; U 4 ds; U 4 dn].

Lemma group_stat_build dx d v s : group_stat_arg v s -> group_stat_ok s -> (2 <= d)%nat -> obj dx d v = Ok (group_stat_wire s).
Proof.
  intros Ha [Hf Hx] Hd. destruct d as [|d]; [lia|]. destruct Ha as [s|n g r p o ds dn bv bs Hb]; [reflexivity|].
  unfold group_stat_wire. cbn [group_stat_fields] in *.
  change (ofp_group_stats (obj dx d) n (VInt g) (VInt r) (VInt p) (VInt o) (VInt ds) (VInt dn) bv =
    Ok (enc (gs_pre bs g r p o ds dn ++ [R (concat (map counter_wire bs))]))).
  change (fits (gs_pre bs g r p o ds dn ++ [R (concat (map counter_wire bs))])) in Hf. apply fits_app in Hf. destruct Hf as [F1 _].
  unfold ofp_group_stats. rewrite (counters_build dx d bv bs "ofp_bucket_counter") by (try assumption; try lia; auto). cbn [bind].
  replace (40 + zlen (concat (map counter_wire bs))) with (40 + 16 * zlen bs) by (unfold zlen; rewrite counters_len; lia).
  apply (pack_app_enc "H2xII4xQQII" (gs_pre bs g r p o ds dn)); [reflexivity | exact F1].
Qed.

Lemma group_stat_len s : (40 <= length (group_stat_wire s))%nat.
Proof. destruct s. unfold group_stat_wire. rewrite enc_length. cbn [group_stat_fields flen fld_len]. lia. Qed.

Lemma group_stat_parse m n off s : at_ m off (group_stat_wire s) -> group_stat_ok s -> (length m <= n)%nat ->
  p_group_stats n m off = Ok (group_stat_view s, (off + length (group_stat_wire s))%nat).
Proof.
  intros Hat [Hf Hx] Hn. destruct s as [g r p o ds dn bs]. unfold group_stat_wire in *. rewrite enc_length.
  cbn [group_stat_fields group_stat_view] in *.
  change (fits (gs_pre bs g r p o ds dn ++ [R (concat (map counter_wire bs))])) in Hf. apply fits_app in Hf. destruct Hf as [F1 _].
  change (at_ m off (enc (gs_pre bs g r p o ds dn ++ [R (concat (map counter_wire bs))]))) in Hat. apply at_enc_app in Hat. destruct Hat as [A1 A2].
  unfold p_group_stats. rewrite (unp_enc "H2xII4xQQII" (gs_pre bs g r p o ds dn) m off eq_refl F1 A1).
  cbn [vals gs_pre bind flen fld_len] in *. rewrite enc_R in A2.
  unfold p_bucket_counter. rewrite (counters_list "ofp_bucket_counter" m n _ bs) by (try assumption; rewrite counters_len; unfold zlen; lia).
  cbn [bind]. unfold all_z. cbn [map Datatypes.app]. do 2 f_equal. rewrite counters_len. unfold zlen. lia.
Qed.

Lemma group_desc_build dx d v s : group_desc_arg v s -> group_desc_ok s -> (3 <= d)%nat -> obj dx d v = Ok (group_desc_wire s).
Proof.
  intros Ha [Hf Hx] Hd. destruct d as [|d]; [lia|]. destruct Ha as [s|n t g bv bs Hb]; [reflexivity|].
  unfold group_desc_wire. cbn [group_desc_fields] in *.
  change (ofp_group_desc (obj dx d) n (VInt t) (VInt g) bv =
    Ok (enc ([U 2 (8 + zlen (buckets_wire bs)); U 1 t; P 1; U 4 g] ++ [R (buckets_wire bs)]))).
  change (fits ([U 2 (8 + zlen (buckets_wire bs)); U 1 t; P 1; U 4 g] ++ [R (buckets_wire bs)])) in Hf. apply fits_app in Hf. destruct Hf as [F1 _].
  unfold ofp_group_desc. rewrite (buckets_build dx d bv bs) by (try assumption; lia). cbn [bind].
  apply (pack_app_enc "HBxI" [U 2 (8 + zlen (buckets_wire bs)); U 1 t; P 1; U 4 g]); [reflexivity | exact F1].
Qed.

Lemma group_desc_len s : (8 <= length (group_desc_wire s))%nat.
Proof. destruct s. unfold group_desc_wire. rewrite enc_length. cbn [group_desc_fields flen fld_len]. lia. Qed.

Lemma group_desc_parse m n off s : at_ m off (group_desc_wire s) -> group_desc_ok s -> group_desc_parsable s -> (length m <= n)%nat ->
  p_group_desc n m off = Ok (group_desc_parsed s, (off + length (group_desc_wire s))%nat).
Proof.
  intros Hat [Hf Hx] Hp Hn. destruct s as [t g bs]. unfold group_desc_wire in *. rewrite enc_length.
  cbn [group_desc_fields group_desc_parsed group_desc_parsable] in *.
  change (fits ([U 2 (8 + zlen (buckets_wire bs)); U 1 t; P 1; U 4 g] ++ [R (buckets_wire bs)])) in Hf. apply fits_app in Hf. destruct Hf as [F1 _].
  change (at_ m off (enc ([U 2 (8 + zlen (buckets_wire bs)); U 1 t; P 1; U 4 g] ++ [R (buckets_wire bs)]))) in Hat. apply at_enc_app in Hat. destruct Hat as [A1 A2].
  unfold p_group_desc. rewrite (unp_enc "HBxI" [U 2 (8 + zlen (buckets_wire bs)); U 1 t; P 1; U 4 g] m off eq_refl F1 A1).
  cbn [vals bind flen fld_len] in *. rewrite enc_R in A2.
  unfold list_fetch. rewrite (buckets_while m n _ bs) by (try assumption; unfold zlen; lia).
  cbn [bind]. rewrite Nat.eqb_refl. cbn [assert_ bind Datatypes.app]. do 2 f_equal. unfold zlen. lia.
Qed.

Definition ms_pre bs m f p o ds dn : list fld := [U 4 m; U 2 (40 + 16 * zlen (A := Z * Z) bs); P 6; U 4 f; U 8 p; U 8 o; U 4 ds; U 4 dn].

Lemma meter_stat_build dx d v s : meter_stat_arg v s -> meter_stat_ok s -> (2 <= d)%nat -> obj dx d v = Ok (meter_stat_wire s).
Proof.
  intros Ha [Hf Hx] Hd. destruct d as [|d]; [lia|]. destruct Ha as [s|m f p o ds dn bv bs Hb]; [reflexivity|].
  unfold meter_stat_wire. cbn [meter_stat_fields] in *.
  change (ofp_meter_stats (obj dx d) (VInt m) (VInt (40 + 16 * zlen bs)) (VInt f) (VInt p) (VInt o) (VInt ds) (VInt dn) bv =
    Ok (enc (ms_pre bs m f p o ds dn ++ [R (concat (map counter_wire bs))]))).
  change (fits (ms_pre bs m f p o ds dn ++ [R (concat (map counter_wire bs))])) in Hf. apply fits_app in Hf. destruct Hf as [F1 _].
  unfold ofp_meter_stats. rewrite (counters_build dx d bv bs "ofp_meter_band_stats") by (try assumption; try lia; auto). cbn [bind].
  apply (pack_app_enc "IH6xIQQII" (ms_pre bs m f p o ds dn)); [reflexivity | exact F1].
Qed.

Lemma meter_stat_len s : (40 <= length (meter_stat_wire s))%nat.
Proof. destruct s. unfold meter_stat_wire. rewrite enc_length. cbn [meter_stat_fields flen fld_len]. lia. Qed.

Lemma meter_stat_parse m n off s : at_ m off (meter_stat_wire s) -> meter_stat_ok s -> (length m <= n)%nat ->
  p_meter_stats n m off = Ok (meter_stat_view s, (off + length (meter_stat_wire s))%nat).
Proof.
  intros Hat [Hf Hx] Hn. destruct s as [k f p o ds dn bs]. unfold meter_stat_wire in *. rewrite enc_length.
  cbn [meter_stat_fields meter_stat_view] in *.
  change (fits (ms_pre bs k f p o ds dn ++ [R (concat (map counter_wire bs))])) in Hf. apply fits_app in Hf. destruct Hf as [F1 _].
  change (at_ m off (enc (ms_pre bs k f p o ds dn ++ [R (concat (map counter_wire bs))]))) in Hat. apply at_enc_app in Hat. destruct Hat as [A1 A2].
  unfold p_meter_stats. rewrite (unp_enc "IH6xIQQII" (ms_pre bs k f p o ds dn) m off eq_refl F1 A1).
  cbn [vals ms_pre bind flen fld_len] in *. rewrite enc_R in A2.
  unfold p_meter_band_stats. rewrite (counters_list "ofp_meter_band_stats" m n _ bs) by (try assumption; rewrite counters_len; unfold zlen; lia).
  cbn [bind]. unfold all_z. cbn [map Datatypes.app]. do 2 f_equal. rewrite counters_len. unfold zlen. lia.
Qed.

Lemma meter_conf_build dx d v s : meter_conf_arg v s -> meter_conf_ok s -> (2 <= d)%nat -> obj dx d v = Ok (meter_conf_wire s).
Proof.
  intros Ha [Hf Hx] Hd. destruct d as [|d]; [lia|]. destruct Ha as [s|n f m bv bs Hb]; [reflexivity|].
  unfold meter_conf_wire. cbn [meter_conf_fields] in *.
  change (ofp_meter_config (obj dx d) n (VInt f) (VInt m) bv =
    Ok (enc ([U 2 (8 + zlen (bands_wire bs)); U 2 f; U 4 m] ++ [R (bands_wire bs)]))).
  change (fits ([U 2 (8 + zlen (bands_wire bs)); U 2 f; U 4 m] ++ [R (bands_wire bs)])) in Hf. apply fits_app in Hf. destruct Hf as [F1 _].
  unfold ofp_meter_config. rewrite (bands_build dx d bv bs) by (try assumption; lia). cbn [bind].
  apply (pack_app_enc "HHI" [U 2 (8 + zlen (bands_wire bs)); U 2 f; U 4 m]); [reflexivity | exact F1].
Qed.

Lemma meter_conf_len s : (8 <= length (meter_conf_wire s))%nat.
Proof. destruct s. unfold meter_conf_wire. rewrite enc_length. cbn [meter_conf_fields flen fld_len]. lia. Qed.

Lemma meter_conf_parse m n off s : at_ m off (meter_conf_wire s) -> meter_conf_ok s -> meter_conf_parsable s -> (length m <= n)%nat ->
  p_meter_config n m off = Ok (meter_conf_view s, (off + length (meter_conf_wire s))%nat).
Proof.
  intros Hat [Hf Hx] Hp Hn. destruct s as [f k bs]. unfold meter_conf_wire in *. rewrite enc_length.
  cbn [meter_conf_fields meter_conf_view meter_conf_parsable] in *.
  change (fits ([U 2 (8 + zlen (bands_wire bs)); U 2 f; U 4 k] ++ [R (bands_wire bs)])) in Hf. apply fits_app in Hf. destruct Hf as [F1 _].
  change (at_ m off (enc ([U 2 (8 + zlen (bands_wire bs)); U 2 f; U 4 k] ++ [R (bands_wire bs)]))) in Hat. apply at_enc_app in Hat. destruct Hat as [A1 A2].
  unfold p_meter_config. rewrite (unp_enc "HHI" [U 2 (8 + zlen (bands_wire bs)); U 2 f; U 4 k] m off eq_refl F1 A1).
  cbn [vals bind flen fld_len] in *. rewrite enc_R in A2.
  unfold list_fetch. rewrite (bands_while m n _ bs) by (try assumption; unfold zlen; lia).
  cbn [bind]. rewrite Nat.eqb_refl. cbn [assert_ bind Datatypes.app]. do 2 f_equal. unfold zlen. lia.
Qed.

(** Proofs about HELLO, negotiation and transaction ids. *)

From Coq Require Import Permutation.
From Verif Require Import P_Struct M_Hello S_Hello.
Local Open Scope Z_scope.

Lemma in_u_256 w z n : n = 256 ^ Z.of_nat w -> 0 <= z < n -> in_u w z = true.
Proof. intros -> H. unfold in_u. lia. Qed.

Lemma in_u1 z : 0 <= z < 256 -> in_u 1 z = true.
Proof. apply in_u_256. reflexivity. Qed.
Lemma in_u2 z : 0 <= z < 65536 -> in_u 2 z = true.
Proof. apply in_u_256. reflexivity. Qed.
Lemma in_u4 z : 0 <= z < 2 ^ 32 -> in_u 4 z = true.
Proof. apply in_u_256. reflexivity. Qed.

Lemma nth_firstn_skipn1 (m : bytes) off : (off < length m)%nat ->
  firstn 1 (skipn off m) = [nth off m 0].
Proof.
  revert off; induction m as [|x m IH]; intros [|off] H; cbn in *; try lia; auto.
  apply IH. lia.
Qed.

Lemma firstn_S_skipn (m : bytes) off n : (off < length m)%nat ->
  firstn (S n) (skipn off m) = nth off m 0 :: firstn n (skipn (S off) m).
Proof.
  revert off; induction m as [|x m IH]; intros [|off] H; cbn in *; try lia; auto.
  rewrite <- IH by lia. destruct m; cbn in *; try lia; auto.
Qed.

Lemma skipn_skipn' {A} (a b : nat) (m : list A) : skipn a (skipn b m) = skipn (b + a) m.
Proof.
  revert m; induction b as [|b IH]; intros [|x m]; cbn [skipn Nat.add]; auto.
  destruct a; reflexivity.
Qed.

(** Reading integers of 1, 2 and 4 bytes. *)
Lemma of_be_1 m off : (off + 1 <= length m)%nat ->
  of_be (firstn 1 (skipn off m)) = byte_at m off.
Proof. intros H. rewrite nth_firstn_skipn1 by lia. reflexivity. Qed.

Lemma of_be_2 m off : (off + 2 <= length m)%nat ->
  of_be (firstn 2 (skipn off m)) = u16_at m off.
Proof.
  intros H. rewrite firstn_S_skipn by lia. rewrite nth_firstn_skipn1 by lia.
  unfold u16_at, byte_at. replace (off + 1)%nat with (S off) by lia. reflexivity.
Qed.

Lemma of_be_4 m off : (off + 4 <= length m)%nat ->
  of_be (firstn 4 (skipn off m)) = u32_at m off.
Proof.
  intros H. rewrite !firstn_S_skipn by lia. rewrite firstn_O.
  unfold u32_at, byte_at.
  replace (off + 1)%nat with (S off) by lia. replace (off + 2)%nat with (S (S off)) by lia.
  replace (off + 3)%nat with (S (S (S off))) by lia. reflexivity.
Qed.

Lemma byte_at_range m i : bytes_ok m -> 0 <= byte_at m i < 256.
Proof.
  intros H. unfold byte_at. destruct (Nat.lt_ge_cases i (length m)) as [Hi|Hi].
  - apply (proj1 (Forall_forall _ _) H). apply nth_In. exact Hi.
  - rewrite nth_overflow by exact Hi. lia.
Qed.

Lemma parse_header_spec m : (8 <= length m)%nat ->
  parse_ofp_header m = Ok (mkHeader (byte_at m 0) (byte_at m 1) (u16_at m 2) (u32_at m 4)).
Proof.
  intros H. unfold parse_ofp_header, unpacks. eval_fmt. cbn [bind].
  unfold unpack_from. cbn [calcsize item_size].
  assert (E : (0 + (1 + (1 + (2 + (4 + 0)))) <=? length m)%nat = true) by lia.
  rewrite E. cbn [bind decode]. rewrite !skipn_skipn'. cbn [Nat.add].
  rewrite !of_be_1, of_be_2, of_be_4 by lia. reflexivity.
Qed.

Lemma parse_header_short m : (length m < 8)%nat -> parse_ofp_header m = Err StructError.
Proof.
  intros H. unfold parse_ofp_header, unpacks. eval_fmt. cbn [bind].
  unfold unpack_from. cbn [calcsize item_size].
  assert (E : (0 + (1 + (1 + (2 + (4 + 0)))) <=? length m)%nat = false) by lia.
  rewrite E. reflexivity.
Qed.

(** Sets. *)
Lemma set_mem_In v s : set_mem v s = true <-> In v s.
Proof.
  unfold set_mem. rewrite existsb_exists. split.
  - intros (x & Hx & E). apply Z.eqb_eq in E. subst. exact Hx.
  - intros H. exists v. rewrite Z.eqb_refl. auto.
Qed.

Lemma set_add_In v w s : In w (set_add v s) <-> w = v \/ In w s.
Proof.
  unfold set_add. destruct (set_mem v s) eqn:E.
  - apply set_mem_In in E. intuition (subst; auto).
  - rewrite in_app_iff. cbn. intuition.
Qed.

Lemma set_inter_In v a b : In v (set_inter a b) <-> In v a /\ In v b.
Proof. unfold set_inter. rewrite filter_In, set_mem_In. tauto. Qed.

Lemma fold_max_spec s : forall a,
  In (fold_left Z.max s a) (a :: s) /\ (forall w, In w (a :: s) -> w <= fold_left Z.max s a).
Proof.
  induction s as [|x s IH]; intros a; cbn [fold_left].
  - split; [left; reflexivity|]. intros w [->|[]]. lia.
  - specialize (IH (Z.max a x)). destruct IH as [I1 I2]. split.
    + destruct I1 as [I1|I1].
      * rewrite <- I1. destruct (Z.max_spec a x) as [[_ E]|[_ E]]; rewrite E; cbn; auto.
      * right. right. exact I1.
    + intros w [->|[->|Hw]].
      * etransitivity; [|apply I2; left; reflexivity]. lia.
      * etransitivity; [|apply I2; left; reflexivity]. lia.
      * apply I2. right. exact Hw.
Qed.

Lemma set_max_spec s v : set_max s = Ok v -> is_max v (fun w => In w s).
Proof.
  destruct s as [|a s]; cbn; [discriminate|]. intros H; inversion H; subst.
  apply fold_max_spec.
Qed.

Lemma set_max_ok s : s <> [] -> exists v, set_max s = Ok v.
Proof. destruct s; [congruence|]. intros _. cbn. eauto. Qed.

(** Normalisation. *)
Lemma norm_version_spells x z : spells x z -> norm_version x = Ok z.
Proof.
  intros [->|[-> H]]; cbn; [reflexivity|].
  assert (E : ((10 <=? z + 9) && (z + 9 <=? 14)) = true) by lia. rewrite E. f_equal. lia.
Qed.

Lemma norm_version_inv x z : norm_version x = Ok z -> spells x z.
Proof.
  destruct x as [y|[t|]|]; cbn; try discriminate.
  - intros H; inversion H. left; reflexivity.
  - destruct ((10 <=? t) && (t <=? 14)) eqn:E; [|discriminate].
    intros H; inversion H. right. split; [do 2 f_equal|]; lia.
Qed.

Lemma norm_versions_ok l : forall s,
  Forall (fun x => exists z, spells x z /\ 0 <= z <= 255) l ->
  exists s', norm_versions l s = Ok s' /\
    forall v, In v s' <-> In v s \/ exists x, In x l /\ spells x v.
Proof.
  induction l as [|x l IH]; intros s H; cbn [norm_versions].
  - exists s. split; [reflexivity|]. intros v. firstorder.
  - inversion H as [|? ? (z & Hz & Hr) Hl]; subst.
    rewrite (norm_version_spells _ _ Hz). cbn [bind].
    destruct (IH (set_add z s) Hl) as (s' & E & Hs'). exists s'. split; [exact E|].
    intros v. rewrite Hs', set_add_In. split.
    + intros [[->|Hv]|(y & Hy & Hsp)]; [right; exists x; cbn; auto | auto | right; exists y; cbn; auto].
    + intros [Hv|(y & [->|Hy] & Hsp)]; [auto | | eauto].
      left; left. apply norm_version_spells in Hsp. rewrite (norm_version_spells _ _ Hz) in Hsp.
      congruence.
Qed.

(** The set of versions, as used by [hello] and by [negotiate]. *)
Lemma accept_set vs : versions_ok vs ->
  exists s, ofp_version_normalize vs = Ok s /\
    (s = [] <-> vs_truthy vs = false) /\
    (s <> [] -> forall v, In v s <-> accepts vs v) /\
    (s = [] -> forall v, accepts vs v <-> v = 1).
Proof.
  destruct vs as [|l|b]; cbn [versions_ok ofp_version_normalize].
  - intros _. exists []. cbn. repeat split; auto; congruence.
  - intros H. destruct l as [|x l].
    + exists []. cbn. repeat split; auto; congruence.
    + destruct (norm_versions_ok (x :: l) [] H) as (s & E & Hs). exists s.
      split; [exact E|].
      assert (Hne : s <> []).
      { inversion H as [|? ? (z & Hz & _) _]; subst. intros ->.
        apply (proj2 (Hs z)). right. exists x. cbn; auto. }
      cbn [vs_truthy]. repeat split; try congruence; try (intros; tauto).
      * intros Hv. apply Hs in Hv. destruct Hv as [[]|Hv]. exact Hv.
      * intros Hv. apply Hs. right. exact Hv.
  - intros [].
Qed.

Lemma accepts_range vs v : versions_ok vs -> accepts vs v -> 0 <= v <= 255.
Proof.
  destruct vs as [|l|b]; cbn [versions_ok accepts].
  - lia.
  - intros H. destruct l as [|x l]; [lia|]. intros (y & Hy & Hsp).
    rewrite Forall_forall in H. destruct (H y Hy) as (z & Hz & Hr).
    apply norm_version_spells in Hsp, Hz. congruence.
  - intros [].
Qed.

(** Bits. *)
Lemma bit_single s k : 0 <= s -> 0 <= k -> Z.testbit (Z.shiftl 1 s) k = (k =? s).
Proof.
  intros Hs Hk. rewrite Z.shiftl_1_l, Z.pow2_bits_eqb by lia. apply Z.eqb_sym.
Qed.

Lemma land_bit u s : 0 <= s ->
  negb (Z.land u (Z.shiftl 1 s) =? 0) = Z.testbit u s.
Proof.
  intros Hs. destruct (Z.testbit u s) eqn:E.
  - apply negb_true_iff, Z.eqb_neq. intros H0.
    assert (Hb : Z.testbit (Z.land u (Z.shiftl 1 s)) s = false) by (rewrite H0; apply Z.bits_0).
    rewrite Z.land_spec, E, bit_single, Z.eqb_refl in Hb by lia. discriminate.
  - apply negb_false_iff, Z.eqb_eq. apply Z.bits_inj'. intros n Hn.
    rewrite Z.land_spec, bit_single, Z.bits_0 by lia.
    destruct (Z.eqb_spec n s) as [->|]; [rewrite E; reflexivity | apply andb_false_r].
Qed.

Lemma update_length {A} (f : A -> A) l : forall i, length (update l i f) = length l.
Proof. induction l as [|x l IH]; intros [|i]; cbn; auto. Qed.

Lemma nth_update {A} (f : A -> A) d l : forall i j, (i < length l)%nat ->
  nth j (update l i f) d = if Nat.eqb j i then f (nth j l d) else nth j l d.
Proof.
  induction l as [|x l IH]; intros [|i] [|j] H; cbn in *; try lia; auto.
  apply IH. lia.
Qed.

Definition u32s (us : list Z) : Prop := Forall (fun u => 0 <= u < 2 ^ 32) us.

Lemma lt_pow2_bits u n : 0 <= n -> (0 <= u < 2 ^ n) <-> (0 <= u /\ forall k, n <= k -> Z.testbit u k = false).
Proof.
  intros Hn. split.
  - intros [H1 H2]. split; [lia|]. intros k Hk.
    destruct (Z.eq_dec u 0) as [->|Hu]; [apply Z.bits_0|].
    apply Z.bits_above_log2; [lia|]. assert (Z.log2 u < n) by (apply Z.log2_lt_pow2; lia). lia.
  - intros [H1 H2]. split; [lia|]. destruct (Z.eq_dec u 0) as [->|Hu]; [apply Z.pow_pos_nonneg; lia|].
    apply Z.log2_lt_pow2; [lia|]. destruct (Z.lt_ge_cases (Z.log2 u) n) as [Hc|Hc]; [exact Hc|].
    assert (Hb : Z.testbit u (Z.log2 u) = true) by (apply Z.bit_log2; lia).
    rewrite H2 in Hb by lia. discriminate.
Qed.

Lemma u32_lor u s : 0 <= u < 2 ^ 32 -> 0 <= s < 32 -> 0 <= Z.lor u (Z.shiftl 1 s) < 2 ^ 32.
Proof.
  intros Hu Hs. apply lt_pow2_bits; [lia|]. apply lt_pow2_bits in Hu; [|lia].
  destruct Hu as [Hu0 Hu]. split.
  - apply Z.lor_nonneg. split; [lia|]. apply Z.shiftl_nonneg. lia.
  - intros k Hk. rewrite Z.lor_spec, Hu, bit_single by lia.
    destruct (Z.eqb_spec k s); [lia|reflexivity].
Qed.

Lemma set_bits_spec vs : forall us,
  u32s us -> Forall (fun v => 0 <= v < 32 * zlen us) vs ->
  exists us', set_bits us vs = Ok us' /\ length us' = length us /\ u32s us' /\
    forall v, 0 <= v < 32 * zlen us ->
      Z.testbit (nth (Z.to_nat (v / 32)) us' 0) (v mod 32) =
      Z.testbit (nth (Z.to_nat (v / 32)) us 0) (v mod 32) || set_mem v vs.
Proof.
  induction vs as [|x vs IH]; intros us Hus Hvs; cbn [set_bits].
  - exists us. repeat split; auto. intros. cbn. rewrite orb_false_r. reflexivity.
  - inversion Hvs as [|? ? Hx Hvs']; subst. unfold zlen in *.
    unfold set_bit at 1. unfold py_index.
    assert (E : ((0 <=? x / 32) && (x / 32 <? Z.of_nat (length us))) = true) by lia.
    rewrite E. cbn [bind].
    set (us1 := update us (Z.to_nat (x / 32)) (fun u => Z.lor u (Z.shiftl 1 (x mod 32)))).
    assert (Hl1 : length us1 = length us) by apply update_length.
    destruct (IH us1) as (us' & E' & Hl' & Hu' & Hb').
    + apply Forall_forall. intros u Hin. apply (In_nth _ _ 0) in Hin. destruct Hin as (i & Hi & <-).
      rewrite Hl1 in Hi. unfold us1. rewrite nth_update by lia.
      assert (Hnth : 0 <= nth i us 0 < 2 ^ 32).
      { apply (proj1 (Forall_forall _ _) Hus). apply nth_In. exact Hi. }
      destruct (Nat.eqb_spec i (Z.to_nat (x / 32))); [apply u32_lor; [exact Hnth|lia] | exact Hnth].
    + rewrite Hl1. exact Hvs'.
    + exists us'. split; [exact E'|]. split; [congruence|]. split; [exact Hu'|].
      intros v Hv. rewrite Hl1 in Hb'. rewrite (Hb' v Hv). unfold us1. rewrite nth_update by lia.
      cbn [set_mem existsb]. fold (set_mem v vs).
      destruct (Nat.eqb_spec (Z.to_nat (v / 32)) (Z.to_nat (x / 32))) as [Hq|Hq].
      * rewrite Z.lor_spec, bit_single by lia.
        replace (v mod 32 =? x mod 32) with (v =? x) by lia.
        rewrite <- orb_assoc. reflexivity.
      * replace (v =? x) with false by lia. cbn. reflexivity.
Qed.

Lemma unit_versions_In idx u v :
  In v (unit_versions idx u) <->
  Z.of_nat idx * 32 <= v < Z.of_nat idx * 32 + 32 /\ Z.testbit u (v mod 32) = true.
Proof.
  unfold unit_versions. rewrite in_map_iff. split.
  - intros (s & <- & Hs). apply filter_In in Hs. destruct Hs as [Hs Hb].
    unfold bits32 in Hs. apply in_seq in Hs.
    rewrite land_bit in Hb by lia. split; [lia|].
    replace ((Z.of_nat idx * 32 + Z.of_nat s) mod 32) with (Z.of_nat s) by lia. exact Hb.
  - intros [Hr Hb]. exists (Z.to_nat (v mod 32)). split; [lia|].
    apply filter_In. split; [unfold bits32; apply in_seq; lia|].
    rewrite land_bit by lia. rewrite Z2Nat.id by lia. exact Hb.
Qed.

Lemma units_versions_In us : forall idx v,
  In v (units_versions idx us) <->
  Z.of_nat idx * 32 <= v < (Z.of_nat idx + zlen us) * 32 /\
  Z.testbit (nth (Z.to_nat (v / 32) - idx) us 0) (v mod 32) = true.
Proof.
  unfold zlen. induction us as [|u us IH]; intros idx v; cbn [units_versions].
  - cbn. split; [tauto | lia].
  - rewrite in_app_iff, unit_versions_In, IH. cbn [length]. split.
    + intros [[H1 H2]|[H1 H2]].
      * split; [lia|]. replace (Z.to_nat (v / 32) - idx)%nat with 0%nat by lia. exact H2.
      * split; [lia|]. replace (Z.to_nat (v / 32) - idx)%nat with (S (Z.to_nat (v / 32) - S idx)) by lia.
        exact H2.
    + intros [H1 H2]. destruct (Z.lt_ge_cases v (Z.of_nat idx * 32 + 32)) as [Hc|Hc].
      * left. split; [lia|]. replace (Z.to_nat (v / 32) - idx)%nat with 0%nat in H2 by lia. exact H2.
      * right. split; [lia|].
        replace (Z.to_nat (v / 32) - idx)%nat with (S (Z.to_nat (v / 32) - S idx)) in H2 by lia. exact H2.
Qed.

(** The HELLO layout. *)
Lemma pack_units us rest r :
  u32s us -> pack rest [] = Ok r ->
  pack (repeat (FU 4) (length us) ++ rest) (map VInt us) = Ok (flat_map (be 4) us ++ r).
Proof.
  intros Hu Hr. induction us as [|u us IH]; cbn [length repeat app map flat_map]; [exact Hr|].
  inversion Hu; subst. rewrite pack_FU by (apply in_u4; assumption).
  rewrite IH by assumption. cbn [bind]. rewrite app_assoc. reflexivity.
Qed.

Lemma calcsize_app a b : calcsize (a ++ b) = (calcsize a + calcsize b)%nat.
Proof. induction a as [|x a IH]; cbn; lia. Qed.

Lemma calcsize_units n : calcsize (repeat (FU 4) n) = (4 * n)%nat.
Proof. induction n as [|n IH]; cbn [repeat calcsize item_size]; lia. Qed.

Lemma hello_size n : calcsize (hello_fmt n) = (12 + 4 * n + 8 * ((n - 1) mod 2))%nat.
Proof.
  unfold hello_fmt. rewrite !calcsize_app, calcsize_units. cbn [calcsize item_size]. lia.
Qed.

Definition hello_layout (version xid : Z) (us : list Z) : bytes :=
  be 1 version ++ be 1 0 ++ be 2 (Z.of_nat (calcsize (hello_fmt (length us)))) ++ be 4 xid ++
  be 2 1 ++ be 2 (4 + zlen us * 4) ++ flat_map (be 4) us ++ zeros (8 * ((length us - 1) mod 2)).

Lemma hello_pack version xid us :
  0 <= version < 256 -> u32 xid -> u32s us -> (length us <= 1000)%nat ->
  pack (hello_fmt (length us))
      ([VInt version; VInt 0; VInt (Z.of_nat (calcsize (hello_fmt (length us)))); VInt xid;
        VInt 1; VInt (4 + Z.of_nat (length us) * 4)] ++ map VInt us)
  = Ok (hello_layout version xid us).
Proof.
  intros Hv Hx Hu Hl. pose proof (hello_size (length us)) as Hs.
  assert (Hm : ((length us - 1) mod 2 < 2)%nat) by (apply Nat.mod_upper_bound; lia).
  unfold hello_layout, zlen. set (N := calcsize (hello_fmt (length us))) in *.
  unfold hello_fmt. cbn [app].
  rewrite !pack_FU by (first [apply in_u1; lia | apply in_u2; lia | apply in_u4; unfold u32 in Hx; lia]).
  erewrite pack_units; [|exact Hu|cbn; rewrite app_nil_r; reflexivity].
  cbn [bind]. reflexivity.
Qed.

Lemma hello_layout_length version xid us :
  length (hello_layout version xid us) = (12 + 4 * length us + 8 * ((length us - 1) mod 2))%nat.
Proof.
  unfold hello_layout. rewrite !app_length, !be_length, zeros_length.
  assert (H : length (flat_map (be 4) us) = (4 * length us)%nat).
  { induction us as [|u us IH]; cbn [flat_map length]; [lia|].
    rewrite app_length, be_length, IH. lia. }
  rewrite H. lia.
Qed.

Lemma hello_u16_2 version xid us :
  (length us <= 1000)%nat ->
  u16_at (hello_layout version xid us) 2 = zlen (hello_layout version xid us).
Proof.
  intros Hl. unfold zlen. rewrite hello_layout_length.
  pose proof (hello_size (length us)) as Hs.
  assert (Hm : ((length us - 1) mod 2 < 2)%nat) by (apply Nat.mod_upper_bound; lia).
  unfold hello_layout. rewrite Hs. set (N := (12 + 4 * length us + 8 * ((length us - 1) mod 2))%nat) in *.
  unfold u16_at, byte_at. cbn [be app nth Nat.add]. lia.
Qed.

Lemma unpack_units us : forall msg off,
  u32s us -> at_ msg off (flat_map (be 4) us) ->
  unpack_from (repeat (FU 4) (length us)) msg off = Ok (map VInt us).
Proof.
  intros msg off Hu Hat.
  assert (Hl : length (flat_map (be 4) us) = calcsize (repeat (FU 4) (length us))).
  { rewrite calcsize_units. clear. induction us as [|u us IH]; cbn [flat_map length]; [lia|].
    rewrite app_length, be_length, IH. lia. }
  rewrite (unpack_decode _ _ _ _ Hat Hl). f_equal. clear - Hu.
  induction us as [|u us IH]; cbn [length repeat flat_map map]; [reflexivity|].
  inversion Hu; subst. rewrite decode_FU by (apply in_u4; assumption). rewrite IH by assumption.
  reflexivity.
Qed.

Lemma ints_map us : ints (map VInt us) = us.
Proof. induction us as [|u us IH]; cbn; [reflexivity|]. f_equal. exact IH. Qed.

Lemma parse_hello_layout version xid us :
  0 <= version < 256 -> u32 xid -> u32s us -> (0 < length us <= 1000)%nat ->
  parse_hello (hello_layout version xid us) = Ok (units_versions 0 us).
Proof.
  intros Hv Hx Hu Hl. unfold parse_hello.
  pose proof (hello_layout_length version xid us) as HL.
  assert (Hm : ((length us - 1) mod 2 < 2)%nat) by (apply Nat.mod_upper_bound; lia).
  rewrite parse_header_spec by lia. cbn [bind h_type h_length h_version].
  replace (byte_at (hello_layout version xid us) 1 =? 0) with true by reflexivity.
  cbn [assert_ bind]. rewrite hello_u16_2 by lia. unfold zlen. rewrite HL.
  replace (Z.of_nat (12 + 4 * length us + 8 * ((length us - 1) mod 2)) =? 8) with false by lia.
  assert (Hat : at_ (hello_layout version xid us) 8 (be 2 1 ++ be 2 (4 + zlen us * 4))).
  { exists (be 1 version ++ be 1 0 ++ be 2 (Z.of_nat (calcsize (hello_fmt (length us)))) ++ be 4 xid),
      (flat_map (be 4) us ++ zeros (8 * ((length us - 1) mod 2))).
    unfold hello_layout. rewrite <- !app_assoc. split; [reflexivity|].
    rewrite !app_length, !be_length. reflexivity. }
  unfold unpacks. eval_fmt. cbn [bind].
  rewrite (unpack_decode _ _ _ _ Hat) by (rewrite app_length, !be_length; reflexivity).
  rewrite decode_FU by (apply in_u2; lia).
  assert (H2 : decode [FU 2] (be 2 (4 + zlen us * 4)) = [VInt (4 + zlen us * 4)]).
  { rewrite <- (app_nil_r (be 2 _)). rewrite decode_FU by (apply in_u2; unfold zlen; lia). reflexivity. }
  rewrite H2. cbn [bind]. cbn [assert_ bind Z.eqb]. change (1 =? 1) with true. cbn [assert_ bind].
  replace ((4 + zlen us * 4) / 4 - 1) with (zlen us) by lia.
  unfold zlen. replace (Z.of_nat (length us) <? 0) with false by lia.
  rewrite Nat2Z.id. rewrite unpack_units; [cbn [bind]; rewrite ints_map; reflexivity | exact Hu |].
  exists (be 1 version ++ be 1 0 ++ be 2 (Z.of_nat (calcsize (hello_fmt (length us)))) ++ be 4 xid ++
      be 2 1 ++ be 2 (4 + Z.of_nat (length us) * 4)), (zeros (8 * ((length us - 1) mod 2))).
  unfold hello_layout, zlen. rewrite <- !app_assoc. split; [reflexivity|].
  rewrite !app_length, !be_length. reflexivity.
Qed.

(** What [hello] builds. *)
Lemma hello_spec vs xid :
  versions_ok vs -> u32 xid ->
  exists mx, is_max mx (accepts vs) /\
  ((mx < 4 /\ hello vs xid = Ok (be 1 mx ++ be 1 0 ++ be 2 8 ++ be 4 xid)) \/
   (4 <= mx /\ exists us, length us = Z.to_nat (1 + mx / 32) /\ u32s us /\
      hello vs xid = Ok (hello_layout mx xid us) /\
      forall v, In v (units_versions 0 us) <-> accepts vs v)).
Proof.
  intros Hok Hx. destruct (accept_set vs Hok) as (s & Es & Ht & Hne & Hem).
  assert (Hset : exists s1, (if vs_truthy vs then ofp_version_normalize vs else Ok [1]) = Ok s1
             /\ s1 <> [] /\ forall v, In v s1 <-> accepts vs v).
  { destruct (vs_truthy vs) eqn:T.
    - exists s. split; [exact Es|]. assert (s <> []) by (intros ->; destruct Ht as [Ht _]; specialize (Ht eq_refl); discriminate).
      split; auto.
    - exists [1]. split; [reflexivity|]. split; [discriminate|].
      intros v. rewrite (Hem (proj2 Ht eq_refl) v). cbn. intuition. }
  destruct Hset as (s1 & E1 & Hs1 & Hin).
  destruct (set_max_ok s1 Hs1) as [mx Emx]. pose proof (set_max_spec _ _ Emx) as [Hmx1 Hmx2].
  exists mx. split.
  { split; [apply Hin; exact Hmx1 | intros w Hw; apply Hmx2, Hin; exact Hw]. }
  assert (Hr : 0 <= mx <= 255) by (eapply accepts_range; [exact Hok | apply Hin; exact Hmx1]).
  unfold hello. rewrite E1. cbn [bind]. rewrite Emx. cbn [bind].
  destruct (Z.ltb_spec mx 4) as [Hlt|Hge].
  - left. split; [lia|]. unfold packs. eval_fmt. cbn [bind].
    rewrite !pack_FU by (first [apply in_u1; lia | apply in_u2; lia | apply in_u4; exact Hx]).
    cbn [pack bind]. rewrite ?app_nil_r. reflexivity.
  - right. split; [lia|].
    destruct (set_bits_spec s1 (repeat 0 (Z.to_nat (1 + mx / 32)))) as (us & Eus & Hl & Hu & Hb).
    + apply Forall_forall. intros x Hx'. apply repeat_spec in Hx'. subst. lia.
    + apply Forall_forall. intros v Hv. unfold zlen. rewrite repeat_length.
      pose proof (Hmx2 v Hv). assert (0 <= v <= 255) by (eapply accepts_range; [exact Hok|apply Hin; exact Hv]). lia.
    + rewrite repeat_length in Hl. exists us. split; [exact Hl|]. split; [exact Hu|].
      rewrite Eus. cbn [bind]. split.
      * apply hello_pack; try assumption; lia.
      * intros v. rewrite units_versions_In, <- Hin. rewrite Nat.sub_0_r.
        unfold zlen in *. rewrite repeat_length in Hb.
        rewrite Hl. cbn [Z.of_nat]. split.
        -- intros [Hrg Ht']. rewrite Hb in Ht' by lia.
           assert (Hz : nth (Z.to_nat (v / 32)) (repeat 0 (Z.to_nat (1 + mx / 32))) 0 = 0).
           { destruct (nth_in_or_default (Z.to_nat (v / 32)) (repeat 0 (Z.to_nat (1 + mx / 32))) 0) as [Hi|Hi];
               [apply repeat_spec in Hi|]; exact Hi. }
           rewrite Hz, Z.bits_0 in Ht'. apply set_mem_In. exact Ht'.
        -- intros Hv. pose proof (Hmx2 v Hv).
           assert (0 <= v <= 255) by (eapply accepts_range; [exact Hok|apply Hin; exact Hv]).
           split; [lia|]. rewrite Hb by lia. apply orb_true_iff. right. apply set_mem_In. exact Hv.
Qed.

Lemma parse_bare mx xid : 0 <= mx < 256 -> u32 xid ->
  parse_hello (be 1 mx ++ be 1 0 ++ be 2 8 ++ be 4 xid) = Ok [mx].
Proof.
  intros Hm Hx. unfold parse_hello.
  rewrite parse_header_spec by (rewrite !app_length, !be_length; lia). cbn [bind h_type h_length h_version].
  set (m := be 1 mx ++ be 1 0 ++ be 2 8 ++ be 4 xid).
  change (byte_at m 1 =? 0) with true. cbn [assert_ bind].
  change (u16_at m 2 =? 8) with true.
  change (byte_at m 0) with (mx mod 256). rewrite Z.mod_small by lia. reflexivity.
Qed.

Theorem hello_roundtrip vs xid :
  versions_ok vs -> u32 xid ->
  exists m s mx, hello vs xid = Ok m /\ parse_hello m = Ok s /\ is_max mx (accepts vs) /\
    (4 <= mx -> forall v, In v s <-> accepts vs v) /\ (mx < 4 -> s = [mx]).
Proof.
  intros Hok Hx. destruct (hello_spec vs xid Hok Hx) as (mx & Hmx & [(Hlt & E)|(Hge & us & Hl & Hu & E & Hin)]).
  - assert (Hr : 0 <= mx <= 255) by (eapply accepts_range; [exact Hok|apply Hmx]).
    eexists _, _, mx. split; [exact E|]. split; [apply parse_bare; [lia|exact Hx]|].
    split; [exact Hmx|]. split; [lia | reflexivity].
  - assert (Hr : 0 <= mx <= 255) by (eapply accepts_range; [exact Hok|apply Hmx]).
    eexists _, _, mx. split; [exact E|].
    split; [apply parse_hello_layout; try assumption; lia|].
    split; [exact Hmx|]. split; [intros _; exact Hin | lia].
Qed.

(** Wire form. *)
Theorem hello_wire vs xid m :
  versions_ok vs -> u32 xid -> hello vs xid = Ok m ->
  exists mx, is_max mx (accepts vs) /\
    u16_at m 2 = zlen m /\ byte_at m 0 = mx /\ byte_at m 1 = 0 /\
    of_be (slice m 4 8) = xid /\
    (mx < 4 -> zlen m = 8) /\
    (4 <= mx -> u16_at m 8 = 1 /\ u16_at m 10 = 4 + 4 * (1 + mx / 32)) /\
    (zlen m mod 8 = 0 <-> mx < 4 \/ mx / 32 mod 2 = 0).
Proof.
  intros Hok Hx Hm. destruct (hello_spec vs xid Hok Hx) as (mx & Hmx & [(Hlt & E)|(Hge & us & Hl & Hu & E & Hin)]);
    rewrite E in Hm; apply (f_equal (fun r => match r with Ok b => b | Err _ => [] end)) in Hm; cbv beta iota in Hm; subst m; exists mx; (split; [exact Hmx|]);
    assert (Hr : 0 <= mx <= 255) by (eapply accepts_range; [exact Hok|apply Hmx]).
  - unfold u16_at, byte_at, zlen, slice. rewrite !app_length, !be_length.
    split; [reflexivity|]. split; [cbn [be app nth]; lia|]. split; [reflexivity|].
    split.
    { change (skipn 4 (be 1 mx ++ be 1 0 ++ be 2 8 ++ be 4 xid)) with (be 4 xid).
      change (8 - 4)%nat with 4%nat. rewrite firstn_all2 by (rewrite be_length; lia).
      apply of_be_be, in_u4. exact Hx. }
    split; [reflexivity|]. split; [lia|]. split; [intros _; left; lia | intros _; reflexivity].
  - pose proof (hello_layout_length mx xid us) as HL.
    rewrite hello_u16_2 by lia. split; [reflexivity|].
    split; [unfold byte_at, hello_layout; cbn [be app nth]; lia|]. split; [reflexivity|].
    split.
    { unfold hello_layout, slice. cbn [be app skipn Nat.sub].
      change (firstn 4 (?a :: ?b :: ?c :: ?d :: ?r)) with [a; b; c; d].
      change [xid / 256 / 256 / 256 mod 256; xid / 256 / 256 mod 256; xid / 256 mod 256; xid mod 256] with (be 4 xid).
      apply of_be_be, in_u4. exact Hx. }
    split; [lia|]. split.
    { intros _. unfold hello_layout, u16_at, byte_at, zlen. cbn [be app nth Nat.add].
      split; [reflexivity|]. rewrite Hl. lia. }
    unfold zlen. rewrite HL, Hl.
    assert (Hm : exists k, Z.to_nat (1 + mx / 32) = S k /\ Z.of_nat k = mx / 32).
    { exists (Z.to_nat (mx / 32)). lia. }
    destruct Hm as (k & -> & Hk). replace (S k - 1)%nat with k by lia. rewrite <- Hk.
    assert (Hm2 : Z.of_nat (k mod 2) = Z.of_nat k mod 2) by (rewrite Nat2Z.inj_mod; reflexivity).
    lia.
Qed.

(** Proofs about the OXM codec. *)

From Verif Require Import Py Struct P_Struct M_Oxm S_Oxm.
Local Open Scope Z_scope.
Local Open Scope list_scope.

Definition item (f : Z) : fitem := match kind_of f with Num n => FU n | Str n => FS n end.

(** A fact about all fields, from its computation. *)
Lemma all_fields (P : Z -> Prop) :
  Forall P (map Z.of_nat (seq 0 128)) -> forall f, 0 <= f < 128 -> P f.
Proof.
  intros H f Hf. rewrite Forall_forall in H. apply H.
  apply in_map_iff. exists (Z.to_nat f). split; [lia|]. apply in_seq. lia.
Qed.

Lemma bits_fmt : forall f, 0 <= f < 128 ->
  fmt (bits_ (VInt f)) = Ok [item f] /\
  fmt (bits_ (VInt f) ++ bits_ (VInt f)) = Ok [item f; item f] /\
  fmt ("HBB" ++ bits_ (VInt f)) = Ok [FU 2; FU 1; FU 1; item f] /\
  fmt ("HBB" ++ bits_ (VInt f) ++ bits_ (VInt f)) = Ok [FU 2; FU 1; FU 1; item f; item f] /\
  item_size (item f) = size_of f /\ (1 <= size_of f <= 16)%nat.
Proof.
  apply all_fields.
  match goal with |- Forall _ ?l => let v := eval vm_compute in l in change l with v end.
  repeat (apply Forall_cons; [cbv beta; repeat split; try (vm_compute; reflexivity); apply Nat.leb_le; vm_compute; reflexivity|]).
  apply Forall_nil.
Qed.

Lemma item_ok f : fitem_ok (item f) = true.
Proof. unfold item. destruct (kind_of f); reflexivity. Qed.

Lemma val_len f v : val_ok f v -> length (val_bytes f v) = size_of f.
Proof.
  unfold val_ok, val_bytes, size_of. destruct (kind_of f), v; try contradiction; intros H.
  - apply be_length.
  - exact H.
Qed.

Lemma pack_val f v : val_ok f v -> pack_item (item f) v = Ok (val_bytes f v).
Proof.
  unfold val_ok, val_bytes, item, size_of. destruct (kind_of f) as [n|n], v; try contradiction; intros H; cbn [pack_item].
  - unfold in_u. replace ((0 <=? z) && (z <? 256 ^ Z.of_nat n)) with true by lia. reflexivity.
  - subst n. rewrite firstn_all, Nat.sub_diag. cbn. rewrite app_nil_r. reflexivity.
Qed.

Lemma pack_item_cons f v fs vs :
  is_pad f = false ->
  pack (f :: fs) (v :: vs) = (b <- pack_item f v ;; r <- pack fs vs ;; Ok (b ++ r)).
Proof. intros H. destruct f; try discriminate; reflexivity. Qed.

Lemma item_nopad f : is_pad (item f) = false.
Proof. unfold item. destruct (kind_of f); reflexivity. Qed.

Lemma decode_val f v fs rest : val_ok f v ->
  decode (item f :: fs) (val_bytes f v ++ rest) = v :: decode fs rest.
Proof.
  unfold val_ok, val_bytes, item, size_of. destruct (kind_of f) as [n|n], v; try contradiction; intros H.
  - apply decode_FU. unfold in_u. lia.
  - apply decode_FS. exact H.
Qed.

Lemma shl1 f : Z.shiftl f 1 = f * 2.
Proof. rewrite Z.shiftl_mul_pow2 by lia. reflexivity. Qed.

Lemma pack_hdr f (h : Z) n items vs :
  0 <= f < 128 -> 0 <= h <= 1 -> 0 <= n < 256 ->
  pack (FU 2 :: FU 1 :: FU 1 :: items) (VInt 32768 :: VInt (Z.shiftl f 1 + h) :: VInt n :: vs)
  = (r <- pack items vs ;; Ok ([128; 0; f * 2 + h; n] ++ r)).
Proof.
  intros Hf Hh Hn. rewrite shl1.
  rewrite !pack_FU by (unfold in_u; cbn; change (256 ^ Z.of_nat 1) with 256; lia).
  destruct (pack items vs); [|reflexivity]. cbn [bind].
  cbn [be app]. do 3 f_equal. rewrite (Z.mod_small (f * 2 + h)), (Z.mod_small n) by lia. reflexivity.
Qed.

Lemma payload_len x : mf_ok x ->
  zlen (mf_payload x) = Z.of_nat (match mf_mask x with None => size_of (mf_field x) | Some _ => size_of (mf_field x) + size_of (mf_field x) end).
Proof.
  intros (Hf & Hv & Hk). unfold zlen, mf_payload. rewrite app_length, (val_len _ _ Hv).
  destruct (mf_mask x); cbn [length]; [rewrite (val_len _ _ Hk)|]; lia.
Qed.

Lemma payload_small x : mf_ok x -> 1 <= zlen (mf_payload x) <= 32.
Proof.
  intros H. rewrite (payload_len _ H). destruct H as (Hf & _).
  destruct (bits_fmt _ Hf) as (_ & _ & _ & _ & _ & E). destruct (mf_mask x); lia.
Qed.

(** *** Building *)

Lemma build_plain f v hm len c :
  mf_ok (MF f v None) -> (c = VNone \/ c = VInt 32768) -> truthy hm = false ->
  oxm_build c (VInt f) hm len v VNone = Ok (tlv (MF f v None)).
Proof.
  intros H Hc Hh. pose proof (payload_len _ H) as Hn. pose proof (payload_small _ H) as Hs.
  destruct H as (Hf & Hv & _). cbn [mf_field mf_value mf_mask] in *.
  destruct (bits_fmt _ Hf) as (E1 & _ & E3 & _ & E5 & _).
  unfold oxm_build. rewrite Hh. cbn [Z.eqb]. change (0 =? 1) with false. cbv iota.
  unfold sizes, packs. rewrite E1, E3. cbn [bind calcsize]. rewrite Nat.add_0_r, E5, <- Hn.
  replace (default c 32768) with (VInt 32768) by (destruct Hc; subst; reflexivity).
  rewrite pack_hdr by lia.
  rewrite (pack_item_cons _ _ _ _ (item_nopad f)), (pack_val _ _ Hv). cbn [bind pack].
  unfold tlv, mf_payload. cbn [mf_field mf_value mf_mask]. rewrite ?app_nil_r. reflexivity.
Qed.

Lemma build_masked f v k hm len c :
  mf_ok (MF f v (Some k)) -> (c = VNone \/ c = VInt 32768) ->
  oxm_build c (VInt f) hm len v k = Ok (tlv (MF f v (Some k))).
Proof.
  intros H Hc. pose proof (payload_len _ H) as Hn. pose proof (payload_small _ H) as Hs.
  destruct H as (Hf & Hv & Hk). cbn [mf_field mf_value mf_mask] in *.
  destruct (bits_fmt _ Hf) as (_ & E2 & _ & E4 & E5 & _).
  unfold oxm_build.
  replace (match k with VNone => (if truthy hm then 1 else 0, if (if truthy hm then 1 else 0) =? 1 then VInt 0 else VNone) | _ => (1, k) end) with (1, k).
  2: { unfold val_ok in Hk. destruct k; try reflexivity. destruct (kind_of f); contradiction. }
  change (1 =? 1) with true. cbv iota.
  unfold sizes, packs. rewrite E2, E4. cbn [bind calcsize]. rewrite Nat.add_0_r, E5, <- Hn.
  replace (default c 32768) with (VInt 32768) by (destruct Hc; subst; reflexivity).
  rewrite pack_hdr by lia.
  rewrite (pack_item_cons _ _ _ _ (item_nopad f)), (pack_val _ _ Hv). cbn [bind].
  rewrite (pack_item_cons _ _ _ _ (item_nopad f)), (pack_val _ _ Hk). cbn [bind pack].
  unfold tlv, mf_payload. cbn [mf_field mf_value mf_mask]. rewrite ?app_nil_r. reflexivity.
Qed.

(** A truthy hasmask without mask: zero for numbers, failure for strings. *)
Lemma build_hasmask_num f v hm len c n :
  mf_ok (MF f v None) -> (c = VNone \/ c = VInt 32768) -> truthy hm = true -> kind_of f = Num n ->
  oxm_build c (VInt f) hm len v VNone = Ok (tlv (MF f v (Some (VInt 0)))).
Proof.
  intros (Hf & Hv & _) Hc Hh Hk.
  rewrite <- (build_masked f v (VInt 0) hm len c).
  - unfold oxm_build. rewrite Hh. reflexivity.
  - split; [exact Hf|]. split; [exact Hv|]. cbn. unfold val_ok. rewrite Hk. pose proof (pow256_pos n). lia.
  - exact Hc.
Qed.

Lemma build_hasmask_str f v hm len c n :
  mf_ok (MF f v None) -> (c = VNone \/ c = VInt 32768) -> truthy hm = true -> kind_of f = Str n ->
  oxm_build c (VInt f) hm len v VNone = Err StructError.
Proof.
  intros (Hf & Hv & _) Hc Hh Hk. cbn [mf_field mf_value mf_mask] in *.
  destruct (bits_fmt _ Hf) as (_ & E2 & _ & E4 & E5 & E6).
  unfold oxm_build. rewrite Hh. change (1 =? 1) with true. cbv iota.
  unfold sizes, packs. rewrite E2, E4. cbn [bind calcsize].
  replace (default c 32768) with (VInt 32768) by (destruct Hc; subst; reflexivity).
  rewrite pack_hdr by lia.
  rewrite (pack_item_cons _ _ _ _ (item_nopad f)), (pack_val _ _ Hv). cbn [bind].
  rewrite (pack_item_cons _ _ _ _ (item_nopad f)). unfold item. rewrite Hk. reflexivity.
Qed.

(** *** Parsing *)

Lemma byte_field f h : 0 <= f < 128 -> 0 <= h <= 1 ->
  Z.shiftr (f * 2 + h) 1 = f /\ Z.land (f * 2 + h) 1 = h.
Proof.
  intros Hf Hh. split.
  - rewrite Z.shiftr_div_pow2 by lia. change (2 ^ 1) with 2. lia.
  - change 1 with (Z.ones 1) at 1. rewrite Z.land_ones by lia. change (2 ^ 1) with 2. lia.
Qed.

Lemma unpack_hdr c p n m off rest :
  0 <= c < 65536 -> 0 <= p < 256 -> 0 <= n < 256 ->
  at_ m off ((be 2 c ++ [p; n]) ++ rest) ->
  unpacks "HBB" m off = Ok [VInt c; VInt p; VInt n] /\ at_ m (off + 4) rest.
Proof.
  intros Hc Hp Hn H. apply at_app in H. destruct H as [H1 H2].
  rewrite app_length, be_length in H2. split; [|exact H2].
  unfold unpacks. change (fmt "HBB") with (Ok [FU 2; FU 1; FU 1]). cbn [bind].
  assert (E : [p; n] = be 1 p ++ be 1 n ++ []).
  { cbn. rewrite !Z.mod_small by lia. reflexivity. }
  rewrite E in H1.
  rewrite (unpack_decode _ _ _ _ H1) by (rewrite !app_length, !be_length; reflexivity).
  rewrite decode_FU by (unfold in_u; change (256 ^ Z.of_nat 2) with 65536; lia).
  rewrite !decode_FU by (unfold in_u; change (256 ^ Z.of_nat 1) with 256; lia). reflexivity.
Qed.

Lemma parse_tlv x m off : mf_ok x -> at_ m off (tlv x) -> oxm_parse m off = Ok (view x).
Proof.
  intros H Hat. pose proof (payload_len _ H) as Hn. pose proof (payload_small _ H) as Hs.
  pose proof H as (Hf & Hv & Hk).
  set (h := if mf_mask x then 1 else 0) in *.
  assert (Hh : 0 <= h <= 1) by (unfold h; destruct (mf_mask x); lia).
  destruct (byte_field _ _ Hf Hh) as [B1 B2].
  change (tlv x) with ((be 2 32768 ++ [mf_field x * 2 + h; zlen (mf_payload x)]) ++ mf_payload x) in Hat.
  apply unpack_hdr in Hat; try lia. destruct Hat as [E Hat].
  unfold oxm_parse. rewrite E. cbn [bind]. rewrite B1, B2. change (32768 =? 32768) with true. cbv iota.
  destruct (bits_fmt _ Hf) as (E1 & E2 & _ & _ & E5 & _).
  unfold value_mask, view, mf_payload in *. fold h.
  destruct (mf_mask x) as [k|] eqn:Ek.
  - subst h. change (negb (1 =? 0)) with true. cbv iota.
    unfold sizes, unpacks. rewrite E2. cbn [bind calcsize]. rewrite Nat.add_0_r, E5, Hn, Z.eqb_refl. cbn [assert_ bind].
    rewrite (unpack_decode _ _ _ _ Hat).
    2: { rewrite app_length, (val_len _ _ Hv), (val_len _ _ Hk). cbn [calcsize]. rewrite E5. lia. }
    rewrite (decode_val _ _ _ _ Hv). rewrite <- (app_nil_r (val_bytes _ k)), (decode_val _ _ _ _ Hk).
    reflexivity.
  - subst h. change (negb (0 =? 0)) with false. cbv iota.
    unfold sizes, unpacks. rewrite E1. cbn [bind calcsize]. rewrite Nat.add_0_r, E5, Hn, Z.eqb_refl. cbn [assert_ bind].
    rewrite (unpack_decode _ _ _ _ Hat).
    2: { rewrite app_length, (val_len _ _ Hv). cbn [calcsize length]. rewrite E5. lia. }
    rewrite (decode_val _ _ _ _ Hv). reflexivity.
Qed.

(** *** Lists *)

Lemma tlv_len x : length (tlv x) = (4 + Z.to_nat (zlen (mf_payload x)))%nat.
Proof. unfold tlv. rewrite app_length. unfold zlen. rewrite Nat2Z.id. reflexivity. Qed.

Lemma parse_list_tlvs l : forall fuel pre,
  Forall mf_ok l -> (length (concat (map tlv l)) < fuel)%nat ->
  parse_list_ fuel (pre ++ concat (map tlv l)) (length pre) = Ok (map view l).
Proof.
  induction l as [|x l IH]; intros fuel pre Hl Hfu; (destruct fuel as [|fuel]; [cbn in Hfu; lia|]).
  - cbn [map concat parse_list_]. rewrite app_nil_r, Nat.ltb_irrefl. reflexivity.
  - inversion Hl as [|? ? Hx Hl']; subst. cbn [map concat] in *. rewrite app_length in Hfu.
    pose proof (tlv_len x) as Tl.
    cbn [parse_list_].
    destruct (Nat.ltb_spec (length pre) (length (pre ++ tlv x ++ concat (map tlv l)))) as [_|C].
    2: { rewrite !app_length in C. lia. }
    rewrite (parse_tlv x) by (try exact Hx; exists pre, (concat (map tlv l)); auto).
    cbn [bind oxm_length view String.eqb Ascii.eqb Bool.eqb].
    change (("oxm" =? "nxm")%string) with false. cbn [bind].
    rewrite <- Nat.add_assoc, <- Tl.
    replace (pre ++ tlv x ++ concat (map tlv l)) with ((pre ++ tlv x) ++ concat (map tlv l)) by apply app_assoc_reverse.
    rewrite <- app_length. rewrite IH; [reflexivity|exact Hl'|lia].
Qed.

Lemma parse_list_fuel m : forall f1 f2 off,
  (length m - off < f1)%nat -> (length m - off < f2)%nat -> parse_list_ f1 m off = parse_list_ f2 m off.
Proof.
  induction f1 as [|f1 IH]; intros f2 off H1 H2; [lia|]. destruct f2 as [|f2]; [lia|].
  cbn [parse_list_]. destruct (Nat.ltb_spec off (length m)); [|reflexivity].
  destruct (oxm_parse m off) as [x|]; [|reflexivity]. cbn [bind].
  destruct (oxm_length x) as [n|]; [|reflexivity]. cbn [bind].
  rewrite (IH f2); [reflexivity| |]; lia.
Qed.

Lemma parse_err_not_fuel m off : oxm_parse m off <> Err OutOfFuel.
Proof.
  assert (U : forall f i, unpacks f m i <> Err OutOfFuel).
  { intros f i. unfold unpacks, unpack_from. destruct (fmt f) eqn:E; cbn.
    - destruct (_ <=? _)%nat; discriminate.
    - intros H. injection H as ->. clear - E.
      assert (A : forall s c, fmt_aux s c <> Err OutOfFuel).
      { induction s as [|a s IH]; intros c; cbn [fmt_aux]; [destruct c; discriminate|].
        destruct (is_digit a); [apply IH|].
        specialize (IH None). cbv zeta.
        destruct a as [[] [] [] [] [] [] [] []]; try discriminate; destruct (fmt_aux s None); cbn; congruence. }
      unfold fmt in E. destruct f as [|a s]; [exact (A _ _ E)|].
      destruct a as [[] [] [] [] [] [] [] []]; exact (A _ _ E). }
  assert (UL : forall f i, unpacks_le f m i <> Err OutOfFuel).
  { intros f i. specialize (U f i). unfold unpacks, unpacks_le in *. destruct (fmt f); cbn in *; [|congruence].
    destruct (_ <=? _)%nat; discriminate. }
  assert (Z : forall f, sizes f <> Err OutOfFuel).
  { intros f. specialize (U f 0%nat). unfold unpacks, sizes in *. destruct (fmt f); cbn in *; congruence. }
  assert (V : forall t b h n i, value_mask t b h n m i <> Err OutOfFuel).
  { intros t b h n i. unfold value_mask.
    destruct (negb (h =? 0)).
    - specialize (Z (b ++ b)%string). destruct (sizes (b ++ b)); cbn; [|congruence].
      destruct (n =? _); cbn; [|discriminate].
      specialize (U (b ++ b)%string i). destruct (unpacks (b ++ b) m i) as [[|v [|k [|]]]|]; cbn; congruence.
    - specialize (Z b). destruct (sizes b); cbn; [|congruence].
      destruct (n =? _); cbn; [|discriminate].
      specialize (U b i). destruct (unpacks b m i) as [[|v l]|]; cbn; congruence. }
  assert (S : forall f h n t i, stratos_value f h n t m i <> Err OutOfFuel).
  { intros f h n t i. unfold stratos_value. cbv zeta.
    assert (R : (if negb (h =? 0) then Err TypeError
                 else if n - 6 <? 0 then Err StructError else unpack_from [FS (Z.to_nat (n - 6))] m i)
                <> Err OutOfFuel).
    { destruct (negb (h =? 0)); [discriminate|]. destruct (n - 6 <? 0); [discriminate|].
      unfold unpack_from. destruct (_ <=? _)%nat; discriminate. }
    destruct (f =? 0).
    - destruct (stratos_basic_bits (VInt t)); [apply U|exact R].
    - destruct (f =? 1); [destruct (stratos_radiotap_bits (VInt t)); [apply UL|exact R]|exact R]. }
  unfold oxm_parse.
  pose proof (U "HBB"%string off) as U0. destruct (unpacks "HBB" m off) as [vs|]; cbn [bind]; [|congruence].
  destruct vs as [|[|c| | | |] vs]; try discriminate.
  destruct vs as [|[|p| | | |] vs]; try discriminate.
  destruct vs as [|[|n| | | |] vs]; try discriminate.
  destruct vs; try discriminate. cbv zeta.
  destruct (c =? 32768); [apply V|].
  destruct (c =? 1); [destruct (nxm_basic_bits _); [apply V|discriminate]|].
  destruct (c =? 65535); [|discriminate].
  pose proof (U "I"%string (off + 4)%nat) as U1. destruct (unpacks "I" m (off + 4)) as [es|]; cbn [bind]; [|congruence].
  destruct es as [|[|e| | | |] [|]]; try discriminate.
  destruct (e =? stratos_id); [|discriminate].
  pose proof (U "H"%string (off + 4 + 4)%nat) as U2. destruct (unpacks "H" m (off + 4 + 4)) as [ts|]; cbn [bind]; [|congruence].
  destruct ts as [|[|t| | | |] [|]]; try discriminate.
  pose proof (S (Z.shiftr p 1) (Z.land p 1) n t (off + 4 + 6)%nat) as S1.
  destruct (stratos_value _ _ _ _ _ _) as [ws|]; cbn [bind]; [|congruence].
  destruct (if negb (Z.land p 1 =? 0) then ws else ws ++ [VNone]) as [|v [|k [|]]]; discriminate.
Qed.

Lemma length_not_fuel x : oxm_length x <> Err OutOfFuel.
Proof.
  unfold oxm_length. destruct x; try discriminate.
  destruct l as [|? [|? [|? [|[|n| | | |] ?]]]]; try discriminate. destruct (_ =? _)%string; discriminate.
Qed.

Lemma parse_list_terminates m : forall fuel off,
  (length m - off < fuel)%nat -> parse_list_ fuel m off <> Err OutOfFuel.
Proof.
  induction fuel as [|fuel IH]; intros off H; [lia|]. cbn [parse_list_].
  destruct (Nat.ltb_spec off (length m)); [|discriminate].
  pose proof (parse_err_not_fuel m off) as P1. destruct (oxm_parse m off) as [x|]; cbn [bind]; [|congruence].
  pose proof (length_not_fuel x) as P2. destruct (oxm_length x) as [n|]; cbn [bind]; [|congruence].
  specialize (IH (off + 4 + Z.to_nat n)%nat ltac:(lia)).
  destruct (parse_list_ fuel m (off + 4 + Z.to_nat n)); cbn; congruence.
Qed.

(** *** What was parsed is built again *)

Lemma unpack_items f m i vs n :
  bytes_ok m -> unpack_from (repeat (item f) n) m i = Ok vs ->
  (i + n * item_size (item f) <= length m)%nat /\ length vs = n /\
  Forall (val_ok f) vs /\ concat (map (val_bytes f) vs) = slice m i (i + n * item_size (item f)).
Proof.
  intros Hb H. unfold unpack_from in H.
  assert (Ec : calcsize (repeat (item f) n) = (n * item_size (item f))%nat).
  { clear. induction n; cbn [repeat calcsize]; lia. }
  rewrite Ec in H. destruct (Nat.leb_spec (i + n * item_size (item f)) (length m)) as [Hl|]; [|discriminate].
  split; [exact Hl|]. injection H as <-. unfold slice.
  replace (i + n * item_size (item f) - i)%nat with (n * item_size (item f))%nat by lia.
  assert (Hbs : bytes_ok (skipn i m)).
  { apply Forall_forall. intros y Hy. unfold bytes_ok in Hb. rewrite Forall_forall in Hb. apply Hb.
    rewrite <- (firstn_skipn i m). apply in_or_app. auto. }
  assert (Hls : (n * item_size (item f) <= length (skipn i m))%nat) by (rewrite skipn_length; lia).
  clear Hl Hb Ec. revert Hbs Hls. generalize (skipn i m). clear m i.
  induction n as [|n IH]; intros s Hb Hl; [repeat split; constructor|].
  cbn [repeat]. cbn in Hl.
  assert (Hb2 : bytes_ok (skipn (item_size (item f)) s)).
  { apply Forall_forall. intros y Hy. unfold bytes_ok in Hb. rewrite Forall_forall in Hb. apply Hb.
    rewrite <- (firstn_skipn (item_size (item f)) s). apply in_or_app. auto. }
  assert (Hb1 : bytes_ok (firstn (item_size (item f)) s)).
  { apply Forall_forall. intros y Hy. unfold bytes_ok in Hb. rewrite Forall_forall in Hb. apply Hb.
    rewrite <- (firstn_skipn (item_size (item f)) s). apply in_or_app. auto. }
  assert (Hl2 : (n * item_size (item f) <= length (skipn (item_size (item f)) s))%nat) by (rewrite skipn_length; lia).
  destruct (IH _ Hb2 Hl2) as (I1 & I2 & I3).
  assert (L1 : length (firstn (item_size (item f)) s) = item_size (item f)) by (rewrite firstn_length; lia).
  assert (D : exists v, decode (item f :: repeat (item f) n) s = v :: decode (repeat (item f) n) (skipn (item_size (item f)) s)
              /\ val_ok f v /\ val_bytes f v = firstn (item_size (item f)) s).
  { clear - Hb1 L1. unfold val_ok, val_bytes, item, size_of in *. destruct (kind_of f) as [w|w]; cbn [decode item_size] in *.
    - eexists. split; [reflexivity|]. split.
      + pose proof (of_be_range _ Hb1) as R. unfold zlen in R. rewrite L1 in R. exact R.
      + rewrite <- L1 at 1. apply be_of_be. exact Hb1.
    - eexists. split; [reflexivity|]. split; [exact L1|reflexivity]. }
  destruct D as (v & D1 & D2 & D3). rewrite D1. split; [cbn; rewrite I1; reflexivity|].
  split; [constructor; assumption|]. cbn [map concat]. rewrite D3, I3.
  cbn [Nat.mul]. rewrite <- (firstn_skipn (item_size (item f)) s) at 3.
  rewrite firstn_app, L1. rewrite (firstn_all2 (firstn _ s)) by lia. f_equal. f_equal. lia.
Qed.

Lemma hdr_inv m off vs : bytes_ok m -> unpacks "HBB" m off = Ok vs ->
  exists c p n, vs = [VInt c; VInt p; VInt n] /\ 0 <= p < 256 /\ 0 <= n < 256 /\
    (off + 4 <= length m)%nat /\ slice m off (off + 4) = be 2 c ++ [p; n].
Proof.
  intros Hb H. unfold unpacks in H. change (fmt "HBB") with (Ok [FU 2; FU 1; FU 1]) in H. cbn [bind] in H.
  unfold unpack_from in H. cbn [calcsize item_size Nat.add] in H.
  destruct (Nat.leb_spec (off + 4) (length m)) as [Hl|]; [|discriminate]. injection H as <-.
  unfold slice. replace (off + 4 - off)%nat with 4%nat by lia.
  assert (Hbs : bytes_ok (skipn off m)).
  { apply Forall_forall. intros y Hy. unfold bytes_ok in Hb. rewrite Forall_forall in Hb. apply Hb.
    rewrite <- (firstn_skipn off m). apply in_or_app. auto. }
  assert (Hls : (4 <= length (skipn off m))%nat) by (rewrite skipn_length; lia).
  destruct (skipn off m) as [|a [|b [|c [|d s]]]]; cbn in Hls; try lia.
  inversion Hbs as [|? ? Ha Hb1]; subst. inversion Hb1 as [|? ? Hbb Hb2]; subst.
  inversion Hb2 as [|? ? Hc Hb3]; subst. inversion Hb3 as [|? ? Hd _]; subst.
  unfold byte_ok in *.
  exists (of_be [a; b]), c, d. split; [cbn; repeat f_equal|].
  - split; [lia|]. split; [lia|]. split; [exact Hl|].
    change (be 2 (of_be [a; b])) with (be (length [a; b]) (of_be [a; b])). rewrite be_of_be; [reflexivity|].
    apply Forall_cons; [exact Ha|]. apply Forall_cons; [exact Hbb|]. apply Forall_nil.
Qed.

Lemma slice_app m a b c : (a <= b <= c)%nat -> (c <= length m)%nat ->
  slice m a b ++ slice m b c = slice m a c.
Proof.
  intros H Hc. unfold slice. replace (c - a)%nat with ((b - a) + (c - b))%nat by lia.
  rewrite <- (firstn_skipn (b - a) (skipn a m)) at 2.
  rewrite firstn_app. rewrite firstn_firstn, firstn_length, skipn_length.
  replace (Nat.min (b - a + (c - b)) (b - a)) with (b - a)%nat by lia.
  f_equal. replace (b - a + (c - b) - Nat.min (b - a) (length m - a))%nat with (c - b)%nat by lia.
  f_equal. clear - H. revert m. induction a as [|a IH] in b, c, H |- *; intros m.
  - cbn. rewrite Nat.sub_0_r. reflexivity.
  - destruct b as [|b]; [lia|]. destruct m as [|x m]; [rewrite !skipn_nil; reflexivity|].
    cbn. apply (IH b c). lia.
Qed.

Lemma parse_oxm_inv m off vs :
  bytes_ok m -> oxm_parse m off = Ok (VTup "oxm" vs) ->
  exists x, mf_ok x /\ VTup "oxm" vs = view x /\ slice m off (off + length (tlv x)) = tlv x /\
    (off + length (tlv x) <= length m)%nat.
Proof.
  intros Hb H. unfold oxm_parse in H. inv_bind H.
  destruct (hdr_inv _ _ _ Hb Ha) as (c & p & n & -> & Hp & Hn & Hl & Hs). cbv zeta in H.
  assert (Hf : 0 <= Z.shiftr p 1 < 128).
  { rewrite Z.shiftr_div_pow2 by lia. change (2 ^ 1) with 2. lia. }
  assert (Hh : Z.land p 1 = p mod 2).
  { change 1 with (Z.ones 1) at 1. rewrite Z.land_ones by lia. reflexivity. }
  assert (Hpf : p = Z.shiftr p 1 * 2 + Z.land p 1).
  { rewrite Hh. rewrite Z.shiftr_div_pow2 by lia. change (2 ^ 1) with 2. lia. }
  destruct (Z.eqb_spec c 32768) as [->|Nc].
  - destruct (bits_fmt _ Hf) as (E1 & E2 & _ & _ & E5 & E6).
    unfold value_mask in H. destruct (Z.eqb_spec (Z.land p 1) 0) as [Eh|Nh]; cbn [negb] in H.
    + unfold sizes, unpacks in H. rewrite E1 in H. cbn [bind calcsize] in H.
      rewrite Nat.add_0_r in H. unfold assert_ in H.
      destruct (Z.eqb_spec n (Z.of_nat (item_size (item (Z.shiftr p 1))))) as [En|]; [|discriminate].
      cbn [bind] in H. inv_bind H.
      destruct (unpack_items _ _ _ _ 1 Hb Ha0) as (L1 & L2 & L3 & L4).
      destruct a as [|v [|]]; try discriminate. cbn [map concat] in L4. rewrite app_nil_r in L4.
      injection H as <-. inversion L3 as [|? ? Hv _]; subst.
      exists (MF (Z.shiftr p 1) v None).
      assert (Ok1 : mf_ok (MF (Z.shiftr p 1) v None)) by (split; [exact Hf|split; [exact Hv|exact I]]).
      pose proof (payload_len _ Ok1) as Pl. cbn in Pl.
      assert (T : tlv (MF (Z.shiftr p 1) v None) = slice m off (off + 4 + size_of (Z.shiftr p 1))).
      { unfold tlv. rewrite Pl. rewrite E5 in Hs. unfold mf_payload. cbn [mf_field mf_value mf_mask]. rewrite app_nil_r, L4.
        rewrite E5 in L1. cbn in L1. rewrite Nat.mul_1_l, E5.
        rewrite <- (slice_app m off (off + 4)) by lia. rewrite Hs.
        replace (Z.shiftr p 1 * 2 + 0) with p by lia. reflexivity. }
      assert (Lt : length (tlv (MF (Z.shiftr p 1) v None)) = (4 + size_of (Z.shiftr p 1))%nat).
      { rewrite tlv_len, Pl. rewrite Nat2Z.id. reflexivity. }
      split; [exact Ok1|]. split; [|split].
      * unfold view. rewrite Pl. cbn [mf_field mf_value mf_mask]. rewrite Eh, E5. reflexivity.
      * rewrite Lt, T. f_equal. lia.
      * rewrite Lt. rewrite E5 in L1. lia.
    + assert (Eh : Z.land p 1 = 1) by lia.
      unfold sizes, unpacks in H. rewrite E2 in H. cbn [bind calcsize] in H.
      rewrite Nat.add_0_r in H. unfold assert_ in H.
      match type of H with context [n =? ?z] => destruct (Z.eqb_spec n z) as [En|]; [|discriminate] end.
      cbn [bind] in H. inv_bind H.
      destruct (unpack_items _ _ _ _ 2 Hb Ha0) as (L1 & L2 & L3 & L4).
      destruct a as [|v [|k [|]]]; try discriminate. cbn [map concat] in L4. rewrite app_nil_r in L4.
      injection H as <-. inversion L3 as [|? ? Hv L3']; subst. inversion L3' as [|? ? Hk _]; subst.
      exists (MF (Z.shiftr p 1) v (Some k)).
      assert (Ok1 : mf_ok (MF (Z.shiftr p 1) v (Some k))) by (split; [exact Hf|split; [exact Hv|exact Hk]]).
      pose proof (payload_len _ Ok1) as Pl. cbn in Pl.
      assert (Lt : length (tlv (MF (Z.shiftr p 1) v (Some k))) = (4 + (size_of (Z.shiftr p 1) + size_of (Z.shiftr p 1)))%nat).
      { rewrite tlv_len, Pl. rewrite Nat2Z.id. reflexivity. }
      assert (T : tlv (MF (Z.shiftr p 1) v (Some k)) = slice m off (off + 4 + (size_of (Z.shiftr p 1) + size_of (Z.shiftr p 1)))).
      { unfold tlv. rewrite Pl. unfold mf_payload. cbn [mf_field mf_value mf_mask]. rewrite L4.
        rewrite E5 in L1, Hs |- *.
        rewrite <- (slice_app m off (off + 4)) by lia. rewrite Hs.
        replace (Z.shiftr p 1 * 2 + 1) with p by lia.
        replace (2 * size_of (Z.shiftr p 1))%nat with (size_of (Z.shiftr p 1) + size_of (Z.shiftr p 1))%nat by lia.
        reflexivity. }
      split; [exact Ok1|]. split; [|split].
      * unfold view. rewrite Pl. cbn [mf_field mf_value mf_mask]. rewrite Eh, E5. reflexivity.
      * rewrite Lt, T. f_equal. lia.
      * rewrite Lt. rewrite E5 in L1. lia.
  - exfalso. destruct (c =? 1).
    + destruct (nxm_basic_bits _) as [b|]; [|discriminate]. unfold value_mask in H.
      destruct (negb _); inv_bind H; inv_bind H; inv_bind H.
      * destruct a1 as [|v [|k [|]]]; discriminate.
      * destruct a1; discriminate.
    + destruct (c =? 65535); [|discriminate]. inv_bind H.
      destruct a as [|[|e| | | |] [|]]; try discriminate.
      destruct (e =? stratos_id); [|discriminate]. inv_bind H.
      destruct a as [|[|t| | | |] [|]]; try discriminate. inv_bind H.
      destruct (if negb (Z.land p 1 =? 0) then a else a ++ [VNone]) as [|v [|k [|]]]; discriminate.
Qed.

Definition is_oxm (v : pyval) : Prop := exists vs, v = VTup "oxm" vs.

Lemma parse_list_inv m : bytes_ok m -> forall fuel off l,
  parse_list_ fuel m off = Ok l -> Forall is_oxm l -> (off <= length m)%nat ->
  exists xs, Forall mf_ok xs /\ l = map view xs /\ skipn off m = concat (map tlv xs).
Proof.
  intros Hb. induction fuel as [|fuel IH]; intros off l H Hl Ho; [discriminate|].
  cbn [parse_list_] in H. destruct (Nat.ltb_spec off (length m)) as [Hlt|Hge].
  - inv_bind H. inv_bind H. inv_bind H. injection H as <-.
    inversion Hl as [|? ? Hx Hl']; subst. destruct Hx as [vs ->].
    destruct (parse_oxm_inv _ _ _ Hb Ha) as (x & X1 & X2 & X3 & X4).
    rewrite X2 in Ha0. cbn [oxm_length view] in Ha0. change (("oxm" =? "nxm")%string) with false in Ha0.
    injection Ha0 as <-.
    rewrite <- Nat.add_assoc, <- tlv_len in Ha1.
    destruct (IH _ _ Ha1 Hl' X4) as (xs & Y1 & -> & Y3).
    exists (x :: xs). split; [constructor; assumption|]. split; [rewrite X2; reflexivity|].
    cbn [map concat]. rewrite <- Y3. unfold slice in X3.
    replace (off + length (tlv x) - off)%nat with (length (tlv x)) in X3 by lia.
    transitivity (firstn (length (tlv x)) (skipn off m) ++ skipn (length (tlv x)) (skipn off m)).
    { symmetry. apply firstn_skipn. }
    rewrite X3. f_equal.
    generalize (length (tlv x)). intros n.
    clear. revert off. induction m as [|y m IHm]; intros off; [rewrite !skipn_nil; reflexivity|].
    destruct off; [reflexivity|]. cbn. apply IHm.
  - injection H as <-. exists []. split; [constructor|]. split; [reflexivity|].
    cbn. apply skipn_all2. exact Hge.
Qed.

(** *** Sizes *)

Lemma sizes_spec f : 0 <= f < 40 -> f <> 28 -> f <> 34 -> size_of f = spec_size f.
Proof.
  intros Hf. assert (H : Forall (fun f => f <> 28 -> f <> 34 -> size_of f = spec_size f) (map Z.of_nat (seq 0 40))).
  { match goal with |- Forall _ ?l => let v := eval vm_compute in l in change l with v end.
    repeat (apply Forall_cons; [cbv beta; intros; first [congruence|vm_compute; reflexivity]|]). apply Forall_nil. }
  rewrite Forall_forall in H. apply H. apply in_map_iff. exists (Z.to_nat f). split; [lia|]. apply in_seq. lia.
Qed.

Lemma spec_bounds f : 0 <= f < 40 -> (1 <= spec_size f <= 16)%nat.
Proof.
  intros Hf. assert (H : Forall (fun f => (1 <= spec_size f <= 16)%nat) (map Z.of_nat (seq 0 40))).
  { match goal with |- Forall _ ?l => let v := eval vm_compute in l in change l with v end.
    repeat (apply Forall_cons; [cbv beta; split; apply Nat.leb_le; vm_compute; reflexivity|]). apply Forall_nil. }
  rewrite Forall_forall in H. apply H. apply in_map_iff. exists (Z.to_nat f). split; [lia|]. apply in_seq. lia.
Qed.

(** Whatever value is built, its size is that of the field. *)
Lemma build_size f c hm len v k b :
  0 <= f < 128 -> oxm_build c (VInt f) hm len v k = Ok b ->
  length b = (4 + size_of f)%nat /\ k = VNone /\ truthy hm = false \/
  length b = (4 + (size_of f + size_of f))%nat /\ (k <> VNone \/ truthy hm = true).
Proof.
  intros Hf H. destruct (bits_fmt _ Hf) as (E1 & E2 & E3 & E4 & E5 & _).
  unfold oxm_build in H.
  cbv zeta in H. match type of H with (let '(_, _) := ?e in _) = _ => destruct e as [h k'] eqn:Ek end.
  destruct (Z.eqb_spec h 1) as [->|Nh].
  - right. unfold sizes, packs in H. rewrite E2, E4 in H. cbn [bind] in H. apply pack_length in H. cbn in H.
    split; [lia|]. destruct k; try (left; discriminate). right. destruct (truthy hm); [reflexivity|]. discriminate Ek.
  - left. unfold sizes, packs in H. rewrite E1, E3 in H. cbn [bind] in H. apply pack_length in H. cbn in H.
    split; [lia|]. destruct k; try (injection Ek as <- _; congruence). split; [reflexivity|].
    destruct (truthy hm); [|reflexivity]. injection Ek as <- _. congruence.
Qed.

(** A TLV of another size than the field's is an assertion failure. *)
Lemma parse_wrong_size f (masked : bool) payload m off :
  0 <= f < 128 -> zlen payload < 256 ->
  length payload <> (if masked then size_of f + size_of f else size_of f)%nat ->
  at_ m off (spec_tlv f masked payload) -> oxm_parse m off = Err AssertionError.
Proof.
  intros Hf Hn Hp Hat.
  set (h := if masked then 1 else 0) in *.
  assert (Hh : 0 <= h <= 1) by (unfold h; destruct masked; lia).
  destruct (byte_field _ _ Hf Hh) as [B1 B2].
  change (spec_tlv f masked payload) with ((be 2 32768 ++ [f * 2 + h; zlen payload]) ++ payload) in Hat.
  apply unpack_hdr in Hat; try (unfold zlen in *; lia). destruct Hat as [E Hat].
  unfold oxm_parse. rewrite E. cbn [bind]. rewrite B1, B2. change (32768 =? 32768) with true. cbv iota.
  destruct (bits_fmt _ Hf) as (E1 & E2 & _ & _ & E5 & _). unfold value_mask, zlen. subst h.
  destruct masked.
  - change (negb (1 =? 0)) with true. cbv iota. unfold sizes. rewrite E2. cbn [bind calcsize].
    rewrite Nat.add_0_r, E5. unfold assert_.
    destruct (Z.eqb_spec (Z.of_nat (length payload)) (Z.of_nat (size_of f + size_of f))); [lia|reflexivity].
  - change (negb (0 =? 0)) with false. cbv iota. unfold sizes. rewrite E1. cbn [bind calcsize].
    rewrite Nat.add_0_r, E5. unfold assert_.
    destruct (Z.eqb_spec (Z.of_nat (length payload)) (Z.of_nat (size_of f))); [lia|reflexivity].
Qed.

(** A TLV with the field's size is parsed, whatever the payload. *)
Lemma parse_right_size f (masked : bool) payload m off :
  0 <= f < 128 -> bytes_ok m ->
  length payload = (if masked then size_of f + size_of f else size_of f)%nat ->
  at_ m off (spec_tlv f masked payload) ->
  exists x, mf_ok x /\ mf_field x = f /\ tlv x = spec_tlv f masked payload /\ oxm_parse m off = Ok (view x).
Proof.
  intros Hf Hb Hp Hat.
  assert (Hbp : bytes_ok payload).
  { destruct Hat as (pre & post & -> & _). apply Forall_app in Hb. destruct Hb as [_ Hb].
    apply Forall_app in Hb. destruct Hb as [Hb _]. apply Forall_app in Hb. tauto. }
  destruct (bits_fmt _ Hf) as (_ & _ & _ & _ & E5 & _).
  destruct (unpack_items f payload 0 (decode (repeat (item f) (if masked then 2 else 1)) payload) (if masked then 2 else 1) Hbp) as (_ & L2 & L3 & L4).
  { unfold unpack_from. destruct masked; cbn [repeat calcsize]; rewrite E5.
    - destruct (Nat.leb_spec (0 + (size_of f + (size_of f + 0))) (length payload)); [reflexivity|lia].
    - destruct (Nat.leb_spec (0 + (size_of f + 0)) (length payload)); [reflexivity|lia]. }
  rewrite E5 in L4.
  assert (Ls : slice payload 0 (0 + (if masked then 2 else 1) * size_of f) = payload).
  { unfold slice. cbn [skipn]. apply firstn_all2. destruct masked; lia. }
  rewrite Ls in L4. clear Ls.
  destruct masked.
  - destruct (decode _ payload) as [|v [|k [|]]]; try discriminate. cbn [map concat] in L4. rewrite app_nil_r in L4.
    inversion L3 as [|? ? Hv L3']; subst. inversion L3' as [|? ? Hk _]; subst.
    exists (MF f v (Some k)).
    assert (O1 : mf_ok (MF f v (Some k))) by (split; [exact Hf|split; assumption]).
    assert (T : tlv (MF f v (Some k)) = spec_tlv f true (val_bytes f v ++ val_bytes f k)) by reflexivity.
    split; [exact O1|]. split; [reflexivity|]. split; [exact T|].
    apply parse_tlv; [exact O1|]. rewrite T. exact Hat.
  - destruct (decode _ payload) as [|v [|]]; try discriminate. cbn [map concat] in L4. rewrite app_nil_r in L4.
    inversion L3 as [|? ? Hv L3']; subst.
    exists (MF f v None).
    assert (O1 : mf_ok (MF f v None)) by (split; [exact Hf|split; [exact Hv|exact I]]).
    assert (T : tlv (MF f v None) = spec_tlv f false (val_bytes f v)).
    { unfold tlv, mf_payload. cbn [mf_field mf_value mf_mask]. rewrite app_nil_r. reflexivity. }
    split; [exact O1|]. split; [reflexivity|]. split; [exact T|].
    apply parse_tlv; [exact O1|]. rewrite T. exact Hat.
Qed.

(** *** Strings of another length *)

Lemma build_string f v n c hm len :
  0 <= f < 128 -> kind_of f = Str n -> (c = VNone \/ c = VInt 32768) -> truthy hm = false ->
  oxm_build c (VInt f) hm len (VBytes v) VNone
  = Ok (tlv (MF f (VBytes (firstn n v ++ zeros (n - length v))) None)).
Proof.
  intros Hf Hk Hc Hh.
  rewrite <- (build_plain f (VBytes (firstn n v ++ zeros (n - length v))) hm len c); [| |exact Hc|exact Hh].
  - destruct (bits_fmt _ Hf) as (E1 & _ & E3 & _ & E5 & E6).
    unfold oxm_build. rewrite Hh. change (0 =? 1) with false. cbv iota. unfold sizes, packs. rewrite E1, E3. cbn [bind calcsize].
    replace (default c 32768) with (VInt 32768) by (destruct Hc; subst; reflexivity).
    rewrite !pack_hdr by lia. unfold item. rewrite Hk. cbn [pack pack_item bind].
    rewrite (firstn_all2 (firstn n v ++ zeros (n - length v))) by (rewrite pad_length; lia).
    rewrite pad_length, Nat.sub_diag. cbn [zeros repeat]. rewrite !app_nil_r. reflexivity.
  - split; [exact Hf|]. split; [|exact I]. unfold val_ok. cbn [mf_field mf_value]. rewrite Hk. apply pad_length.
Qed.

(** *** Stratos *)

Lemma stratos_never c f hm len exp ty v k : is_ok (build_stratos c f hm len exp ty v k) = false.
Proof.
  unfold build_stratos. destruct (py_eqz exp stratos_id); [|reflexivity].
  destruct (py_eqz f 0).
  - destruct (stratos_basic_bits ty) as [b|] eqn:E; [|reflexivity].
    assert (b = "B"%string) as ->.
    { unfold stratos_basic_bits in E. destruct (py_inz ty _); congruence. }
    destruct (truthy hm).
    + unfold packs. change (fmt "B") with (Ok [FU 1]). cbn [bind pack].
      destruct (pack_item (FU 1) v); reflexivity.
    + change ("B" ++ "B")%string with "BB"%string. unfold packs. change (fmt "BB") with (Ok [FU 1; FU 1]). cbn [bind pack].
      destruct (pack_item (FU 1) v); reflexivity.
  - destruct (py_eqz f 1); [|reflexivity].
    destruct (stratos_radiotap_bits ty) as [b|] eqn:E; [|reflexivity].
    assert (exists x, fmt b = Ok [x] /\ fmt (b ++ b) = Ok [x; x]) as (x & F1 & F2).
    { unfold stratos_radiotap_bits in E.
      repeat match type of E with context [if ?b then _ else _] => destruct b; [injection E as <-; eexists; split; reflexivity|] end.
      discriminate. }
    unfold packs_le. rewrite F1, F2. cbn [bind pack_le].
    destruct (truthy hm), (pack_item x v); reflexivity.
Qed.

(** Proofs about version negotiation and transaction ids. *)

From Coq Require Import Permutation.
From Verif Require Import P_Struct M_Hello S_Hello P_Hello.
Local Open Scope Z_scope.

Lemma testbit_low x d s : 0 <= d < 256 -> 0 <= s ->
  Z.testbit (x * 256 + d) s = if s <? 8 then Z.testbit d s else Z.testbit x (s - 8).
Proof.
  intros Hd Hs.
  destruct (Z.ltb_spec s 8) as [Hc|Hc].
  - rewrite !Z.testbit_odd, !Z.shiftr_div_pow2 by lia.
    replace (x * 256 + d) with (d + (x * 2 ^ (7 - s) * 2) * 2 ^ s).
    + rewrite Z.div_add by (apply Z.pow_nonzero; lia).
      rewrite Z.odd_add, (Z.odd_mul _ 2). cbn [Z.odd]. rewrite andb_false_r, xorb_false_r. reflexivity.
    + replace 256 with (2 ^ (7 - s) * 2 * 2 ^ s); [ring|].
      replace 2 with (2 ^ 1) at 2 by reflexivity. rewrite <- !Z.pow_add_r by lia.
      replace (7 - s + 1 + s) with 8 by lia. reflexivity.
  - replace s with ((s - 8) + 8) at 1 by lia.
    rewrite <- Z.div_pow2_bits by lia. change (2 ^ 8) with 256.
    replace ((x * 256 + d) / 256) with x by lia. reflexivity.
Qed.

Lemma u32_bit m i s : bytes_ok m -> 0 <= s < 32 ->
  Z.testbit (u32_at m i) s = Z.testbit (byte_at m (i + Z.to_nat (3 - s / 8))) (s mod 8).
Proof.
  intros Hm Hs. unfold u32_at.
  assert (R : forall k, 0 <= byte_at m k < 256) by (intros; apply byte_at_range; exact Hm).
  rewrite testbit_low by (auto; lia).
  destruct (Z.ltb_spec s 8).
  { replace (Z.to_nat (3 - s / 8)) with 3%nat by lia. replace (s mod 8) with s by lia. reflexivity. }
  rewrite testbit_low by (auto; lia).
  destruct (Z.ltb_spec (s - 8) 8).
  { replace (Z.to_nat (3 - s / 8)) with 2%nat by lia. replace (s mod 8) with (s - 8) by lia. reflexivity. }
  rewrite testbit_low by (auto; lia).
  destruct (Z.ltb_spec (s - 8 - 8) 8).
  { replace (Z.to_nat (3 - s / 8)) with 1%nat by lia. replace (s mod 8) with (s - 8 - 8) by lia. reflexivity. }
  replace (Z.to_nat (3 - s / 8)) with 0%nat by lia. rewrite Nat.add_0_r.
  replace (s mod 8) with (s - 8 - 8 - 8) by lia. reflexivity.
Qed.

Lemma decode_words n : forall m off,
  (off + 4 * n <= length m)%nat ->
  decode (repeat (FU 4) n) (skipn off m) = map VInt (map (fun i => u32_at m (off + 4 * i)) (seq 0 n)).
Proof.
  induction n as [|n IH]; intros m off H; cbn [repeat decode seq map]; [reflexivity|].
  rewrite of_be_4 by lia. rewrite skipn_skipn', IH by lia.
  rewrite <- seq_shift, !map_map. f_equal.
  - do 2 f_equal. lia.
  - apply map_ext. intros k. do 2 f_equal. lia.
Qed.

Lemma parse_hello_wf m : bytes_ok m -> hello_wf m ->
  exists s, parse_hello m = Ok s /\ forall v, In v s <-> advertises m v.
Proof.
  intros Hb (Hl & Ht & Hc). unfold parse_hello. rewrite parse_header_spec by exact Hl.
  cbn [bind h_type h_length h_version]. rewrite Ht. change (0 =? 0) with true. cbn [assert_ bind].
  destruct Hc as [H8|(H8 & Hl2 & Hst & Hsl & Hfit)].
  - rewrite H8. change (8 =? 8) with true. exists [byte_at m 0]. split; [reflexivity|].
    intros v. unfold advertises. cbn. intuition (subst; auto; lia).
  - apply Z.eqb_neq in H8. rewrite H8. apply Z.eqb_neq in H8.
    unfold unpacks. eval_fmt. cbn [bind]. unfold unpack_from at 1. cbn [calcsize item_size].
    assert (E : (8 + (2 + (2 + 0)) <=? length m)%nat = true) by lia. rewrite E.
    cbn [bind decode]. rewrite skipn_skipn', !of_be_2 by lia. cbn [Nat.add].
    rewrite Hst. change (1 =? 1) with true. cbn [assert_ bind].
    set (n := u16_at m 10 / 4 - 1) in *.
    assert (Hn : 0 <= n) by (unfold n; lia).
    replace (n <? 0) with false by lia. unfold zlen in Hfit.
    unfold unpack_from. rewrite calcsize_units.
    assert (E2 : (12 + 4 * Z.to_nat n <=? length m)%nat = true) by lia. rewrite E2. cbn [bind].
    rewrite decode_words by lia. rewrite ints_map.
    set (us := map (fun i => u32_at m (12 + 4 * i)) (seq 0 (Z.to_nat n))).
    eexists. split; [reflexivity|]. intros v. rewrite units_versions_In.
    assert (Hlen : zlen us = n) by (unfold zlen, us; rewrite map_length, seq_length; lia).
    rewrite Hlen, Nat.sub_0_r. cbn [Z.of_nat]. unfold advertises.
    assert (Hw : 0 <= v < 32 * n ->
       Z.testbit (nth (Z.to_nat (v / 32)) us 0) (v mod 32) =
       Z.testbit (byte_at m (Z.to_nat (12 + 4 * (v / 32) + (3 - v mod 32 / 8)))) (v mod 8)).
    { intros Hv. unfold us.
      rewrite (nth_indep _ 0 (u32_at m (12 + 4 * 0))) by (rewrite map_length, seq_length; lia).
      rewrite (map_nth (fun i => u32_at m (12 + 4 * i))).
      rewrite seq_nth by lia. rewrite u32_bit by (auto; lia). f_equal; [f_equal|]; lia. }
    split.
    + intros [H1 H2]. right. split; [exact H8|]. split; [lia|]. rewrite <- Hw by lia. exact H2.
    + intros [[H1 _]|(_ & H1 & H2)]; [contradiction|]. split; [lia|]. rewrite Hw by lia. exact H2.
Qed.

Lemma parse_hello_bad m : (8 <= length m)%nat -> byte_at m 1 = 0 -> ~ hello_wf m ->
  parse_hello m = Err AssertionError \/ parse_hello m = Err StructError.
Proof.
  intros Hl Ht Hnw.
  cut (exists e, parse_hello m = Err e /\ (e = AssertionError \/ e = StructError)).
  { intros (e & -> & [->| ->]); auto. }
  unfold parse_hello. rewrite parse_header_spec by exact Hl.
  cbn [bind h_type h_length h_version]. rewrite Ht. change (0 =? 0) with true. cbn [assert_ bind].
  destruct (Z.eqb_spec (u16_at m 2) 8) as [E8|E8].
  { exfalso. apply Hnw. split; [exact Hl|]. split; [exact Ht|]. left; exact E8. }
  unfold unpacks. eval_fmt. cbn [bind]. unfold unpack_from at 1. cbn [calcsize item_size].
  destruct (Nat.leb_spec (8 + (2 + (2 + 0))) (length m)) as [H12|H12]; [|cbn; eauto].
  cbn [bind decode]. rewrite skipn_skipn', !of_be_2 by lia. cbn [Nat.add].
  destruct (Z.eqb_spec (u16_at m 8) 1) as [E1|E1]; cbn [assert_ bind]; [|eauto].
  set (n := u16_at m 10 / 4 - 1) in *.
  destruct (Z.ltb_spec n 0) as [Hn|Hn]; [eauto|].
  unfold unpack_from. rewrite calcsize_units.
  destruct (Nat.leb_spec (12 + 4 * Z.to_nat n) (length m)) as [Hf|Hf]; [|cbn; eauto].
  exfalso. apply Hnw. split; [exact Hl|]. split; [exact Ht|]. right.
  unfold zlen. repeat split; auto; fold n; lia.
Qed.

(** The versions that have a printable name. *)
Lemma map_names_ok l : Forall (fun v => 0 <= v <= 5) l -> exists names, map_names l = Ok names.
Proof.
  induction l as [|x l IH]; intros H; cbn [map_names]; [eauto|].
  inversion H; subst. unfold py_index.
  assert (E : ((0 <=? x) && (x <? Z.of_nat 6)) = true) by lia. rewrite E. cbn [bind].
  destruct IH as [names ->]; [assumption|]. cbn [bind]. eauto.
Qed.

Lemma name_len i : (String.length (nth i version_names ""%string) <= 3)%nat.
Proof. do 7 (destruct i as [|i]; [cbn; lia|]). destruct i; cbn; lia. Qed.

Lemma string_app_length a b : String.length (a ++ b)%string = (String.length a + String.length b)%nat.
Proof. induction a as [|c a IH]; cbn; auto. Qed.

Lemma bytes_of_string_length s : length (bytes_of_string s) = String.length s.
Proof. induction s as [|c s IH]; cbn; auto. Qed.

Lemma map_names_len l : forall names, map_names l = Ok names ->
  length names = length l /\ Forall (fun s => (String.length s <= 3)%nat) names.
Proof.
  induction l as [|x l IH]; intros names H; cbn [map_names] in H.
  - inversion H; auto.
  - inv_bind H. inv_bind H. inversion H; subst. destruct (IH _ Ha0) as [E F].
    cbn [length]. split; [lia|]. constructor; [apply name_len | exact F].
Qed.

Lemma join_len names : Forall (fun s => (String.length s <= 3)%nat) names ->
  (String.length (join_repr names) <= 7 * length names)%nat.
Proof.
  induction names as [|s names IH]; intros H; [cbn; lia|].
  inversion H as [|? ? Hs Hn]; subst. specialize (IH Hn).
  destruct names as [|s2 names].
  - cbn [join_repr]. rewrite !string_app_length. cbn [String.length length]. lia.
  - change (join_repr (s :: s2 :: names)) with ("'" ++ s ++ "', " ++ join_repr (s2 :: names))%string.
    rewrite !string_app_length. cbn [String.length length] in *. lia.
Qed.

Lemma ascii_len l names : map_names l = Ok names -> (length (ascii_txt names) <= 19 + 7 * length l)%nat.
Proof.
  intros H. destruct (map_names_len _ _ H) as [E F]. apply join_len in F.
  unfold ascii_txt. rewrite bytes_of_string_length, !string_app_length. cbn [String.length]. lia.
Qed.

Lemma norm_versions_nodup l : forall s s', NoDup s -> norm_versions l s = Ok s' -> NoDup s'.
Proof.
  induction l as [|x l IH]; intros s s' Hs H; cbn [norm_versions] in H.
  - inversion H; subst; exact Hs.
  - inv_bind H. apply IH in H; [exact H|]. unfold set_add.
    destruct (set_mem a s) eqn:E; [exact Hs|].
    assert (~ In a s) by (intros Hin; apply set_mem_In in Hin; congruence).
    clear - Hs H0. induction s as [|y s IHs]; cbn; [constructor; [intros []|constructor]|].
    inversion Hs; subst. constructor.
    + rewrite in_app_iff. cbn in *. intuition.
    + apply IHs; [assumption|]. cbn in H0. tauto.
Qed.

Lemma accept_set_nodup vs s : ofp_version_normalize vs = Ok s -> NoDup s.
Proof.
  destruct vs as [|l|b]; cbn; intros H; [inversion H; constructor| |discriminate].
  eapply norm_versions_nodup; [constructor|exact H].
Qed.

Lemma nodup_small (l : list Z) : NoDup l -> Forall (fun v => 0 <= v <= 5) l -> (length l <= 6)%nat.
Proof.
  intros Hn Hf. change 6%nat with (length [0; 1; 2; 3; 4; 5]).
  apply NoDup_incl_length; [exact Hn|]. intros x Hx.
  rewrite Forall_forall in Hf. specialize (Hf x Hx). cbn. lia.
Qed.

(** Negotiation. *)
Theorem negotiate_hello accept order xid c m :
  versions_ok accept -> (forall l, Permutation l (order l)) -> u32 xid ->
  (forall v, accepts accept v -> v <= 5) ->
  bytes_ok m -> hello_wf m ->
  (exists v, is_max v (fun w => advertises m w /\ accepts accept w) /\
     negotiate accept order xid c m = (mkOch (Some v) (o_sent c), Ok m))
  \/
  ((forall w, ~ (advertises m w /\ accepts accept w)) /\
   exists mx txt, is_max mx (accepts accept) /\
     negotiate accept order xid c m =
       (mkOch (o_version c) (o_sent c ++ [hello_failed mx xid txt]), Err ChannelClose)).
Proof.
  intros Hok Hord Hx Hsmall Hb Hwf. pose proof Hwf as (Hl & Ht & _).
  destruct m as [|b0 m']; [cbn in Hl; lia|]. set (m := b0 :: m') in *.
  change (negotiate accept order xid c m) with (negotiate_msg accept order xid c m). unfold negotiate_msg.
  rewrite parse_header_spec by exact Hl. cbn [h_type]. rewrite Ht. change (0 =? 0) with true. cbv iota.
  destruct (accept_set accept Hok) as (s & Es & Htr & Hne & Hem). rewrite Es.
  set (acc := match s with [] => [1] | _ => s end).
  assert (Hacc : forall v, In v acc <-> accepts accept v).
  { intros v. unfold acc. destruct s as [|z s]; [|apply Hne; discriminate].
    rewrite (Hem eq_refl v). cbn. intuition. }
  assert (Haccne : acc <> []) by (unfold acc; destruct s; discriminate).
  destruct (parse_hello_wf m Hb Hwf) as (peer & Ep & Hpeer). rewrite Ep.
  destruct (set_inter peer acc) as [|x xs] eqn:Ei.
  - right. assert (Hno : forall w, ~ (advertises m w /\ accepts accept w)).
    { intros w [H1 H2]. apply Hpeer in H1. apply Hacc in H2.
      assert (Hin : In w (set_inter peer acc)) by (apply set_inter_In; auto). rewrite Ei in Hin. exact Hin. }
    split; [exact Hno|].
    assert (Hsm : Forall (fun v => 0 <= v <= 5) acc).
    { apply Forall_forall. intros v Hv. apply Hacc in Hv.
      pose proof (accepts_range _ _ Hok Hv). specialize (Hsmall v Hv). lia. }
    assert (Hsm' : Forall (fun v => 0 <= v <= 5) (order acc)).
    { apply Forall_forall. intros v Hv. rewrite Forall_forall in Hsm. apply Hsm.
      eapply Permutation_in; [apply Permutation_sym, Hord|exact Hv]. }
    destruct (map_names_ok _ Hsm') as [names En]. rewrite En. cbn [bind].
    destruct (set_max_ok acc Haccne) as [mx Emx]. rewrite Emx. cbn [bind].
    pose proof (set_max_spec _ _ Emx) as [Hmx1 Hmx2].
    assert (Hmr : 0 <= mx <= 5) by (rewrite Forall_forall in Hsm; apply Hsm; exact Hmx1).
    pose proof (ascii_len _ _ En) as Hal.
    assert (Hlen6 : (length (order acc) <= 6)%nat).
    { rewrite <- (Permutation_length (Hord acc)). apply nodup_small; [|exact Hsm].
      apply accept_set_nodup in Es. unfold acc. destruct s; [|exact Es].
      constructor; [intros []|constructor]. }
    unfold packs. eval_fmt. cbn [bind].
    rewrite !pack_FU by (first [apply in_u1; lia | apply in_u2; unfold zlen; lia | apply in_u4; exact Hx]).
    cbn [pack bind]. exists mx, (ascii_txt names). split.
    + split; [apply Hacc; exact Hmx1 | intros w Hw; apply Hmx2, Hacc; exact Hw].
    + unfold hello_failed. reflexivity.
  - left. assert (Hnn : x :: xs <> []) by discriminate.
    destruct (set_max_ok _ Hnn) as [v Ev]. rewrite Ev. exists v. split; [|reflexivity].
    pose proof (set_max_spec _ _ Ev) as [H1 H2]. rewrite <- Ei in H1, H2. split.
    + apply set_inter_In in H1. destruct H1 as [H1 H1']. split; [apply Hpeer|apply Hacc]; assumption.
    + intros w [Hw1 Hw2]. apply H2, set_inter_In. split; [apply Hpeer|apply Hacc]; assumption.
Qed.

(** Common versions are found whatever else is in the accept list. *)
Theorem negotiate_common accept order xid c m :
  versions_ok accept -> bytes_ok m -> hello_wf m ->
  (exists w, advertises m w /\ accepts accept w) ->
  exists v, is_max v (fun w => advertises m w /\ accepts accept w) /\
     negotiate accept order xid c m = (mkOch (Some v) (o_sent c), Ok m).
Proof.
  intros Hok Hb Hwf (w & Hw1 & Hw2). pose proof Hwf as (Hl & Ht & _).
  destruct m as [|b0 m']; [cbn in Hl; lia|]. set (m := b0 :: m') in *.
  change (negotiate accept order xid c m) with (negotiate_msg accept order xid c m). unfold negotiate_msg.
  rewrite parse_header_spec by exact Hl. cbn [h_type]. rewrite Ht. change (0 =? 0) with true. cbv iota.
  destruct (accept_set accept Hok) as (s & Es & Htr & Hne & Hem). rewrite Es.
  set (acc := match s with [] => [1] | _ => s end).
  assert (Hacc : forall v, In v acc <-> accepts accept v).
  { intros v. unfold acc. destruct s as [|z s]; [|apply Hne; discriminate].
    rewrite (Hem eq_refl v). cbn. intuition. }
  destruct (parse_hello_wf m Hb Hwf) as (peer & Ep & Hpeer). rewrite Ep.
  assert (Hin : In w (set_inter peer acc)).
  { apply set_inter_In. split; [apply Hpeer|apply Hacc]; assumption. }
  destruct (set_inter peer acc) as [|x xs] eqn:Ei; [contradiction|].
  assert (Hnn : x :: xs <> []) by discriminate.
  destruct (set_max_ok _ Hnn) as [v Ev]. rewrite Ev. exists v. split; [|reflexivity].
  pose proof (set_max_spec _ _ Ev) as [H1 H2]. rewrite <- Ei in H1, H2. split.
  - apply set_inter_In in H1. destruct H1 as [H1 H1']. split; [apply Hpeer|apply Hacc]; assumption.
  - intros u [Hu1 Hu2]. apply H2, set_inter_In. split; [apply Hpeer|apply Hacc]; assumption.
Qed.

(** Without common version nothing is negotiated, whatever the list. *)
Theorem negotiate_none accept order xid c m :
  versions_ok accept -> bytes_ok m -> hello_wf m ->
  (forall w, ~ (advertises m w /\ accepts accept w)) ->
  o_version (fst (negotiate accept order xid c m)) = o_version c /\
  exists e, snd (negotiate accept order xid c m) = Err e.
Proof.
  intros Hok Hb Hwf Hno. pose proof Hwf as (Hl & Ht & _).
  destruct m as [|b0 m']; [cbn in Hl; lia|]. set (m := b0 :: m') in *.
  change (negotiate accept order xid c m) with (negotiate_msg accept order xid c m). unfold negotiate_msg.
  rewrite parse_header_spec by exact Hl. cbn [h_type]. rewrite Ht. change (0 =? 0) with true. cbv iota.
  destruct (accept_set accept Hok) as (s & Es & Htr & Hne & Hem). rewrite Es.
  set (acc := match s with [] => [1] | _ => s end).
  assert (Hacc : forall v, In v acc <-> accepts accept v).
  { intros v. unfold acc. destruct s as [|z s]; [|apply Hne; discriminate].
    rewrite (Hem eq_refl v). cbn. intuition. }
  destruct (parse_hello_wf m Hb Hwf) as (peer & Ep & Hpeer). rewrite Ep.
  destruct (set_inter peer acc) as [|x xs] eqn:Ei.
  - match goal with |- context [match ?r with Ok msg => _ | Err e => _ end] => destruct r end;
      cbn; eauto.
  - exfalso. assert (Hin : In x (set_inter peer acc)) by (rewrite Ei; left; reflexivity).
    apply set_inter_In in Hin. destruct Hin as [H1 H2].
    apply (Hno x). split; [apply Hpeer|apply Hacc]; assumption.
Qed.

Theorem negotiate_other accept order xid c m :
  (8 <= length m)%nat -> byte_at m 1 <> 0 ->
  negotiate accept order xid c m = (c, Ok m).
Proof.
  intros Hl Ht. destruct m as [|b0 m']; [cbn in Hl; lia|]. set (m := b0 :: m') in *.
  change (negotiate accept order xid c m) with (negotiate_msg accept order xid c m). unfold negotiate_msg.
  rewrite parse_header_spec by exact Hl. cbn [h_type]. apply Z.eqb_neq in Ht. rewrite Ht. reflexivity.
Qed.

Theorem negotiate_malformed accept order xid c m :
  versions_ok accept -> (8 <= length m)%nat -> byte_at m 1 = 0 -> ~ hello_wf m ->
  exists e, negotiate accept order xid c m = (c, Err e) /\ (e = AssertionError \/ e = StructError).
Proof.
  intros Hok Hl Ht Hnw. destruct m as [|b0 m']; [cbn in Hl; lia|]. set (m := b0 :: m') in *.
  change (negotiate accept order xid c m) with (negotiate_msg accept order xid c m). unfold negotiate_msg.
  rewrite parse_header_spec by exact Hl. cbn [h_type]. rewrite Ht. change (0 =? 0) with true. cbv iota.
  destruct (accept_set accept Hok) as (s & Es & _). rewrite Es.
  destruct (parse_hello_bad m Hl Ht Hnw) as [E|E]; rewrite E; eauto.
Qed.

(** hello() produces a well-formed HELLO advertising the accepted versions
    (or the highest one only, below 4). *)
Lemma hello_bytes_ok vs xid m : versions_ok vs -> u32 xid -> hello vs xid = Ok m -> bytes_ok m.
Proof.
  intros Hok Hx Hm. destruct (hello_spec vs xid Hok Hx) as (mx & Hmx & [(Hlt & E)|(Hge & us & Hl & Hu & E & Hin)]);
    rewrite E in Hm; apply (f_equal (fun r => match r with Ok b => b | Err _ => [] end)) in Hm;
    cbv beta iota in Hm; subst m.
  - bok.
  - unfold hello_layout. bok.
    clear. induction us as [|u us IH]; cbn [flat_map]; [constructor|]. bok. exact IH.
Qed.

Lemma hello_is_wf vs xid m : versions_ok vs -> u32 xid -> hello vs xid = Ok m -> hello_wf m.
Proof.
  intros Hok Hx Hm.
  destruct (hello_roundtrip vs xid Hok Hx) as (m1 & s & mx & E1 & Ep & _).
  rewrite Hm in E1. inversion E1; subst m1; clear E1.
  assert (Hl : (8 <= length m)%nat).
  { destruct (Nat.lt_ge_cases (length m) 8) as [H|H]; [|lia].
    unfold parse_hello in Ep. rewrite parse_header_short in Ep by exact H. discriminate. }
  assert (Ht : byte_at m 1 = 0).
  { unfold parse_hello in Ep. rewrite parse_header_spec in Ep by exact Hl. cbn [bind h_type] in Ep.
    destruct (Z.eqb_spec (byte_at m 1) 0); [assumption|discriminate]. }
  assert (Hdec : hello_wf m \/ ~ hello_wf m).
  { unfold hello_wf, zlen. lia. }
  destruct Hdec as [H|H]; [exact H|]. destruct (parse_hello_bad m Hl Ht H); congruence.
Qed.

Lemma hello_advertises vs xid m : versions_ok vs -> u32 xid -> hello vs xid = Ok m ->
  exists mx, is_max mx (accepts vs) /\
    (4 <= mx -> forall v, advertises m v <-> accepts vs v) /\
    (mx < 4 -> forall v, advertises m v <-> v = mx).
Proof.
  intros Hok Hx Hm.
  destruct (hello_roundtrip vs xid Hok Hx) as (m1 & s & mx & E1 & Ep & Hmx & H4 & H3).
  rewrite Hm in E1. inversion E1; subst m1; clear E1.
  destruct (parse_hello_wf m (hello_bytes_ok _ _ _ Hok Hx Hm) (hello_is_wf _ _ _ Hok Hx Hm)) as (s' & Ep' & Hs').
  rewrite Ep in Ep'. inversion Ep'; subst s'; clear Ep'.
  exists mx. split; [exact Hmx|]. split.
  - intros Hge v. rewrite <- Hs'. apply H4. exact Hge.
  - intros Hlt v. rewrite <- Hs', (H3 Hlt). cbn. intuition.
Qed.

(** Two ends. *)
Lemma accepts_dec vs : versions_ok vs -> exists l, forall v, In v l <-> accepts vs v.
Proof.
  intros Hok. destruct (accept_set vs Hok) as (s & _ & _ & Hn & He).
  destruct s as [|z s]; [exists [1]; intros v; rewrite (He eq_refl v); cbn; intuition|
                         exists (z :: s); apply Hn; discriminate].
Qed.

Theorem both_agree va vb oa ob xa xb xa' xb' ma mb ca cb :
  versions_ok va -> versions_ok vb -> u32 xa -> u32 xb ->
  (exists v, accepts va v /\ 4 <= v) -> (exists v, accepts vb v /\ 4 <= v) ->
  hello va xa = Ok ma -> hello vb xb = Ok mb ->
  let '(ca', ra) := negotiate va oa xa' ca mb in
  let '(cb', rb) := negotiate vb ob xb' cb ma in
  (exists v, o_version ca' = Some v /\ o_version cb' = Some v /\ ra = Ok mb /\ rb = Ok ma /\
     is_max v (fun w => accepts va w /\ accepts vb w)) \/
  ((exists e, ra = Err e) /\ (exists e, rb = Err e) /\
   forall w, ~ (accepts va w /\ accepts vb w)).
Proof.
  intros Hva Hvb Hxa Hxb (a4 & Ha4 & Ha4') (b4 & Hb4 & Hb4') Ema Emb.
  destruct (hello_advertises _ _ _ Hva Hxa Ema) as (mxa & Hmxa & Ada & _).
  destruct (hello_advertises _ _ _ Hvb Hxb Emb) as (mxb & Hmxb & Adb & _).
  assert (4 <= mxa) by (destruct Hmxa as [_ Hm]; specialize (Hm _ Ha4); lia).
  assert (4 <= mxb) by (destruct Hmxb as [_ Hm]; specialize (Hm _ Hb4); lia).
  specialize (Ada ltac:(assumption)). specialize (Adb ltac:(assumption)).
  pose proof (hello_bytes_ok _ _ _ Hva Hxa Ema) as Boa. pose proof (hello_bytes_ok _ _ _ Hvb Hxb Emb) as Bob.
  pose proof (hello_is_wf _ _ _ Hva Hxa Ema) as Wfa. pose proof (hello_is_wf _ _ _ Hvb Hxb Emb) as Wfb.
  assert (Hdec : (exists w, accepts va w /\ accepts vb w) \/ (forall w, ~ (accepts va w /\ accepts vb w))).
  { destruct (accept_set va Hva) as (sa & _ & _ & Hna & Hea).
    destruct (accept_set vb Hvb) as (sb & _ & _ & Hnb & Heb).
    assert (Hsa : exists l, forall v, In v l <-> accepts va v).
    { destruct sa as [|z sa]; [exists [1]; intros v; rewrite (Hea eq_refl v); cbn; intuition|
                               exists (z :: sa); apply Hna; discriminate]. }
    assert (Hsb : exists l, forall v, In v l <-> accepts vb v).
    { destruct sb as [|z sb]; [exists [1]; intros v; rewrite (Heb eq_refl v); cbn; intuition|
                               exists (z :: sb); apply Hnb; discriminate]. }
    destruct Hsa as [la Hla], Hsb as [lb Hlb].
    destruct (set_inter la lb) as [|x l] eqn:E.
    - right. intros w [H1 H2]. apply Hla in H1. apply Hlb in H2.
      assert (Hin : In w (set_inter la lb)) by (apply set_inter_In; auto). rewrite E in Hin. exact Hin.
    - left. exists x. assert (Hin : In x (set_inter la lb)) by (rewrite E; left; reflexivity).
      apply set_inter_In in Hin. rewrite <- Hla, <- Hlb. exact Hin. }
  destruct Hdec as [(w & Hw1 & Hw2)|Hno].
  - destruct (negotiate_common va oa xa' ca mb Hva Bob Wfb) as (v1 & [M11 M12] & E1); [exists w; split; [apply Adb|]; assumption|].
    destruct (negotiate_common vb ob xb' cb ma Hvb Boa Wfa) as (v2 & [M21 M22] & E2); [exists w; split; [apply Ada|]; assumption|].
    rewrite E1, E2. left. exists v1.
    assert (v1 = v2) as <-.
    { destruct M11 as [H1 H2], M21 as [H3 H4]. apply Adb in H1. apply Ada in H3.
      assert (v2 <= v1) by (apply M12; split; [apply Adb|]; assumption).
      assert (v1 <= v2) by (apply M22; split; [apply Ada|]; assumption). lia. }
    cbn. repeat split; auto.
    + destruct M11; assumption.
    + destruct M11 as [H1 _]. apply Adb in H1. exact H1.
    + intros u [H1 H2]. apply M12. split; [apply Adb|]; assumption.
  - destruct (negotiate_none va oa xa' ca mb Hva Bob Wfb) as [V1 (e1 & E1)].
    { intros u [H1 H2]. apply (Hno u). split; [|apply Adb]; assumption. }
    destruct (negotiate_none vb ob xb' cb ma Hvb Boa Wfa) as [V2 (e2 & E2)].
    { intros u [H1 H2]. apply (Hno u). split; [apply Ada|]; assumption. }
    destruct (negotiate va oa xa' ca mb) as [ca' ra], (negotiate vb ob xb' cb ma) as [cb' rb].
    cbn in *. right. eauto.
Qed.

Lemma advertised_dec vs x m : versions_ok vs -> u32 x -> hello vs x = Ok m ->
  exists l, forall v, In v l <-> advertises m v.
Proof.
  intros Hok Hx Em. destruct (hello_advertises _ _ _ Hok Hx Em) as (mx & _ & H4 & H3).
  destruct (Z.le_gt_cases 4 mx) as [H|H].
  - destruct (accepts_dec vs Hok) as (l & Hl). exists l. intros v. rewrite (H4 H v). apply Hl.
  - exists [mx]. intros v. rewrite (H3 H v). cbn. intuition.
Qed.

Lemma selected_cases vs other order xid x c m : versions_ok vs -> versions_ok other -> u32 x -> hello other x = Ok m ->
  (exists v, selected (negotiate vs order xid c m) = Some v /\ is_max v (fun w => advertises m w /\ accepts vs w)) \/
  (selected (negotiate vs order xid c m) = None /\ forall w, ~ (advertises m w /\ accepts vs w)).
Proof.
  intros Hv Ho Hx Em.
  pose proof (hello_bytes_ok _ _ _ Ho Hx Em) as Bo. pose proof (hello_is_wf _ _ _ Ho Hx Em) as Wf.
  destruct (accepts_dec vs Hv) as (la & Hla). destruct (advertised_dec _ _ _ Ho Hx Em) as (lb & Hlb).
  destruct (set_inter la lb) as [|w l] eqn:E.
  - right. assert (N : forall w, ~ (advertises m w /\ accepts vs w)).
    { intros w [H1 H2]. apply Hla in H2. apply Hlb in H1.
      assert (Hin : In w (set_inter la lb)) by (apply set_inter_In; auto). rewrite E in Hin. exact Hin. }
    split; [|exact N]. destruct (negotiate_none vs order xid c m Hv Bo Wf N) as [_ (e & Ee)].
    unfold selected. rewrite Ee. reflexivity.
  - left. assert (Hin : In w (set_inter la lb)) by (rewrite E; left; reflexivity).
    apply set_inter_In in Hin. rewrite Hla, Hlb in Hin.
    destruct (negotiate_common vs order xid c m Hv Bo Wf) as (v & Hm & En); [exists w; tauto|].
    exists v. rewrite En. split; [reflexivity|exact Hm].
Qed.

Theorem agree_exactly va vb oa ob xa xb xa' xb' ma mb ca cb mxa mxb :
  versions_ok va -> versions_ok vb -> u32 xa -> u32 xb ->
  is_max mxa (accepts va) -> is_max mxb (accepts vb) ->
  hello va xa = Ok ma -> hello vb xb = Ok mb ->
  (selected (negotiate va oa xa' ca mb) = selected (negotiate vb ob xb' cb ma) <->
   (forall w, ~ (accepts va w /\ accepts vb w)) \/
   (exists m, is_max m (fun w => accepts va w /\ accepts vb w) /\ (4 <= mxa \/ m = mxa) /\ (4 <= mxb \/ m = mxb)) \/
   (mxa < 4 /\ mxb < 4 /\ ~ accepts vb mxa /\ ~ accepts va mxb)).
Proof.
  intros Hva Hvb Hxa Hxb Hma Hmb Ea Eb.
  destruct (hello_advertises _ _ _ Hva Hxa Ea) as (ka & Hka & A4 & A3).
  destruct (hello_advertises _ _ _ Hvb Hxb Eb) as (kb & Hkb & B4 & B3).
  assert (ka = mxa) as ->. { destruct Hka as [H1 H2], Hma as [H3 H4]. specialize (H2 _ H3). specialize (H4 _ H1). lia. }
  assert (kb = mxb) as ->. { destruct Hkb as [H1 H2], Hmb as [H3 H4]. specialize (H2 _ H3). specialize (H4 _ H1). lia. }
  destruct Hma as [Ia Ma], Hmb as [Ib Mb].
  assert (Aa : forall v, advertises ma v -> accepts va v).
  { intros v H. destruct (Z.le_gt_cases 4 mxa) as [L|L]; [apply (A4 L); exact H|apply (A3 L) in H; subst; exact Ia]. }
  assert (Ab : forall v, advertises mb v -> accepts vb v).
  { intros v H. destruct (Z.le_gt_cases 4 mxb) as [L|L]; [apply (B4 L); exact H|apply (B3 L) in H; subst; exact Ib]. }
  assert (Sa : forall m, accepts va m -> 4 <= mxa \/ m = mxa -> advertises ma m).
  { intros m H D. destruct (Z.le_gt_cases 4 mxa) as [L|L]; [apply (A4 L); exact H|apply (A3 L); lia]. }
  assert (Sb : forall m, accepts vb m -> 4 <= mxb \/ m = mxb -> advertises mb m).
  { intros m H D. destruct (Z.le_gt_cases 4 mxb) as [L|L]; [apply (B4 L); exact H|apply (B3 L); lia]. }
  assert (Pa : forall m, advertises ma m -> 4 <= mxa \/ m = mxa).
  { intros m H. destruct (Z.le_gt_cases 4 mxa) as [L|L]; [left; exact L|right; apply (A3 L); exact H]. }
  assert (Pb : forall m, advertises mb m -> 4 <= mxb \/ m = mxb).
  { intros m H. destruct (Z.le_gt_cases 4 mxb) as [L|L]; [left; exact L|right; apply (B3 L); exact H]. }
  destruct (selected_cases va vb oa xa' xb ca mb Hva Hvb Hxb Eb) as [(v & -> & [[V1 V2] V3])|(-> & NA)];
  destruct (selected_cases vb va ob xb' xa cb ma Hvb Hva Hxa Ea) as [(u & -> & [[U1 U2] U3])|(-> & NB)].
  - split.
    + intros E. assert (u = v) as -> by congruence. right. left. exists v.
      split; [|split; [apply Pa|apply Pb]; assumption].
      split; [split; [exact V2|apply Ab; exact V1]|]. intros w [W1 W2].
      destruct (Pa v U1) as [L| ->]; [|apply Ma; exact W1].
      apply U3. split; [apply Sa; auto|exact W2].
    + intros [N|[(m & [[M1 M2] M3] & Da & Db)|(L1 & L2 & N1 & N2)]].
      * exfalso. apply (N v). auto.
      * assert (m = v). { assert (m <= v) by (apply V3; split; [apply Sb|]; auto). assert (v <= m) by (apply M3; auto). lia. }
        assert (m = u). { assert (m <= u) by (apply U3; split; [apply Sa|]; auto). assert (u <= m) by (apply M3; auto). lia. }
        congruence.
      * exfalso. apply N2. apply (B3 L2) in V1. subst. exact V2.
  - split; [discriminate|]. intros H. exfalso.
    destruct H as [N|[(m & [[M1 M2] M3] & Da & Db)|(L1 & L2 & N1 & N2)]].
    + apply (N v). auto.
    + apply (NB m). split; [apply Sa|]; auto.
    + apply N2. apply (B3 L2) in V1. subst. exact V2.
  - split; [discriminate|]. intros H. exfalso.
    destruct H as [N|[(m & [[M1 M2] M3] & Da & Db)|(L1 & L2 & N1 & N2)]].
    + apply (N u). auto.
    + apply (NA m). split; [apply Sb|]; auto.
    + apply N1. apply (A3 L1) in U1. subst. exact U2.
  - split; [intros _|reflexivity].
    destruct (Z.le_gt_cases 4 mxa) as [La|La].
    { left. intros w [W1 W2]. apply (NB w). split; [apply (A4 La)|]; assumption. }
    destruct (Z.le_gt_cases 4 mxb) as [Lb|Lb].
    { left. intros w [W1 W2]. apply (NA w). split; [apply (B4 Lb)|]; assumption. }
    right. right. repeat split; try assumption.
    + intros W. apply (NB mxa). split; [apply (A3 La); reflexivity|exact W].
    + intros W. apply (NA mxb). split; [apply (B3 Lb); reflexivity|exact W].
Qed.

(** Transaction ids. *)
Lemma candidate_value t : clock_ok t ->
  candidate t = c_hour t * 100000000 + c_min t * 1000000 + c_sec t * 10000 + c_us t / 100.
Proof.
  intros (H1 & H2 & H3 & H4). unfold candidate, int_of_digits, digits2, digits4.
  cbn [app fold_left]. generalize (c_us t / 100) as u. intros u. lia.
Qed.

Lemma candidate_range t : clock_ok t -> 0 <= candidate t <= 2359599999.
Proof.
  intros H. rewrite (candidate_value t H). destruct H as (H1 & H2 & H3 & H4). lia.
Qed.

Fixpoint increasing_from (d : option Z) (l : list Z) : Prop :=
  match l with
  | [] => True
  | x :: l' => match d with Some y => y < x | None => True end /\ increasing_from (Some x) l'
  end.

Lemma hms_xids_increasing ts : forall d, increasing_from d (hms_xids d ts).
Proof.
  induction ts as [|t ts IH]; intros d; cbn [hms_xids hms_xid]; [exact I|].
  cbn [increasing_from]. split; [|apply IH].
  destruct d as [d|]; [|exact I].
  destruct (d >=? candidate t) eqn:E; lia.
Qed.

Lemma increasing_from_lt l : forall y x, increasing_from (Some y) l -> In x l -> y < x.
Proof.
  induction l as [|a l IH]; intros y x H Hin; [contradiction|].
  destruct H as [H1 H2]. destruct Hin as [->|Hin]; [exact H1|].
  specialize (IH _ _ H2 Hin). lia.
Qed.

Lemma increasing_nth l : forall d i j, increasing_from d l -> (i < j < length l)%nat ->
  nth i l 0 < nth j l 0.
Proof.
  induction l as [|a l IH]; intros d i j H Hij; cbn in Hij; [lia|].
  destruct H as [_ H]. destruct i as [|i], j as [|j]; try lia.
  - cbn. apply increasing_from_lt with (l := l); [exact H|]. apply nth_In. lia.
  - cbn. apply IH with (d := Some a); [exact H|lia].
Qed.

Theorem xids_strictly_increasing d ts i j :
  (i < j < length ts)%nat -> nth i (hms_xids d ts) 0 < nth j (hms_xids d ts) 0.
Proof.
  intros H. apply increasing_nth with (d := d); [apply hms_xids_increasing|].
  replace (length (hms_xids d ts)) with (length ts); [exact H|].
  clear H. revert d; induction ts as [|t ts IH]; intros d; cbn; auto.
Qed.

Lemma hms_xids_bound ts : forall d i B,
  Forall clock_ok ts -> (i < length ts)%nat -> 2359599999 <= B ->
  match d with Some y => 0 <= y <= B | None => True end ->
  0 <= nth i (hms_xids d ts) 0 <= B + Z.of_nat i + match d with Some _ => 1 | None => 0 end.
Proof.
  induction ts as [|t ts IH]; intros d i B Ht Hi HB Hd; cbn in Hi; [lia|].
  inversion Ht as [|? ? Ht1 Ht2]; subst. pose proof (candidate_range t Ht1) as Hc.
  cbn [hms_xids hms_xid]. destruct i as [|i].
  - cbn [nth]. destruct d as [d|]; [|lia]. destruct (d >=? candidate t); lia.
  - cbn [nth]. destruct d as [d|].
    + cbv iota in Hd |- *. destruct (d >=? candidate t) eqn:E.
      * specialize (IH (Some (d + 1)) i (B + 1) Ht2 ltac:(lia) ltac:(lia) ltac:(cbv iota; lia)). cbv iota in IH |- *. lia.
      * specialize (IH (Some (candidate t)) i B Ht2 ltac:(lia) ltac:(lia) ltac:(cbv iota; lia)). cbv iota in IH |- *. lia.
    + specialize (IH (Some (candidate t)) i B Ht2 ltac:(lia) ltac:(lia) ltac:(cbv iota; lia)). cbv iota in IH |- *. lia.
Qed.

Theorem xids_fit ts i : Forall clock_ok ts -> (i < length ts)%nat ->
  Z.of_nat i <= 1900000000 -> u32 (nth i (hms_xids None ts) 0).
Proof.
  intros Ht Hi Hs. pose proof (hms_xids_bound ts None i 2359599999 Ht Hi ltac:(lia) I) as H.
  unfold u32. cbn in H. lia.
Qed.

(** Threads: an uninterrupted call is a sequential one. *)
Lemma xfinish_idle n s t now : x_pc s t = XIdle -> xfinish n s t now = s.
Proof. intros H. destruct n; cbn [xfinish]; [|rewrite H]; reflexivity. Qed.

Lemma xset_same pc t p : xset pc t p t = p.
Proof. unfold xset. rewrite Nat.eqb_refl. reflexivity. Qed.

Lemma xfinish_store n d pc out t now c : pc t = XStore c ->
  xfinish (S n) (mkXst d pc out) t now = mkXst (Some c) (xset pc t XIdle) ((t, c) :: out).
Proof.
  intros H. cbn [xfinish x_pc]. rewrite H. unfold xstep. cbn [x_pc x_out]. rewrite H.
  apply xfinish_idle. apply xset_same.
Qed.

Lemma xfinish_step n s t now : x_pc s t <> XIdle ->
  xfinish (S n) s t now = xfinish n (xstep s t now) t now.
Proof. intros H. cbn [xfinish]. destruct (x_pc s t); [contradiction|reflexivity..]. Qed.

Lemma xset_xset pc t p q u : xset (xset pc t p) t q u = xset pc t q u.
Proof. unfold xset. destruct (u =? t)%nat; reflexivity. Qed.

Lemma xcall_sequential s t now : x_pc s t = XIdle ->
  (forall u, x_pc (xcall s t now) u = x_pc s u) /\
  x_dedup (xcall s t now) = fst (hms_xid (x_dedup s) now) /\
  x_out (xcall s t now) = (t, snd (hms_xid (x_dedup s) now)) :: x_out s.
Proof.
  intros Hi. unfold xcall, hms_xid. cbn [fst snd].
  destruct s as [d pc out]. cbn [x_pc x_dedup x_out] in *.
  assert (H0 : xstep (mkXst d pc out) t now = mkXst d (xset pc t (XTest (candidate now))) out).
  { unfold xstep. cbn [x_pc x_dedup x_out]. rewrite Hi. reflexivity. }
  rewrite H0. set (c := candidate now). set (pc1 := xset pc t (XTest c)).
  assert (P1 : pc1 t = XTest c) by apply xset_same.
  rewrite xfinish_step by (cbn [x_pc]; rewrite P1; discriminate).
  assert (H1 : xstep (mkXst d pc1 out) t now =
     mkXst d (xset pc1 t (match d with Some _ => XCmp c | None => XStore c end)) out).
  { unfold xstep. cbn [x_pc x_dedup x_out]. rewrite P1. reflexivity. }
  rewrite H1. clear H0 H1.
  assert (Hend : forall pc2, (forall u, u <> t -> pc2 u = pc u) -> forall u, xset pc2 t XIdle u = pc u).
  { intros pc2 H u. unfold xset. destruct (Nat.eqb_spec u t) as [->|Hn]; [auto|apply H; exact Hn]. }
  assert (Hoth : forall (pc2 : nat -> xpc) p u, u <> t -> xset pc2 t p u = pc2 u).
  { intros pc2 p u H. unfold xset. apply Nat.eqb_neq in H. rewrite H. reflexivity. }
  destruct d as [d|].
  - set (pc2 := xset pc1 t (XCmp c)). assert (P2 : pc2 t = XCmp c) by apply xset_same.
    rewrite xfinish_step by (cbn [x_pc]; rewrite P2; discriminate).
    assert (H2 : xstep (mkXst (Some d) pc2 out) t now =
       mkXst (Some d) (xset pc2 t (if d >=? c then XInc c else XStore c)) out).
    { unfold xstep. cbn [x_pc x_dedup x_out]. rewrite P2. reflexivity. }
    rewrite H2. clear H2.
    destruct (d >=? c).
    + set (pc3 := xset pc2 t (XInc c)). assert (P3 : pc3 t = XInc c) by apply xset_same.
      rewrite xfinish_step by (cbn [x_pc]; rewrite P3; discriminate).
      assert (H3 : xstep (mkXst (Some d) pc3 out) t now =
         mkXst (Some d) (xset pc3 t (XStore (d + 1))) out).
      { unfold xstep. cbn [x_pc x_dedup x_out]. rewrite P3. reflexivity. }
      rewrite H3, (xfinish_store _ _ _ _ _ _ (d + 1)) by apply xset_same.
      cbn [x_pc x_dedup x_out]. split; [|split; reflexivity].
      apply Hend. intros u Hu. unfold pc3, pc2, pc1. rewrite !Hoth by exact Hu. reflexivity.
    + rewrite (xfinish_store _ _ _ _ _ _ c) by apply xset_same.
      cbn [x_pc x_dedup x_out]. split; [|split; reflexivity].
      apply Hend. intros u Hu. unfold pc2, pc1. rewrite !Hoth by exact Hu. reflexivity.
  - rewrite (xfinish_store _ _ _ _ _ _ c) by apply xset_same.
    cbn [x_pc x_dedup x_out]. split; [|split; reflexivity].
    apply Hend. intros u Hu. unfold pc1. rewrite !Hoth by exact Hu. reflexivity.
Qed.

Lemma xcalls_sequential calls : forall s, (forall t, x_pc s t = XIdle) ->
  map snd (rev (x_out (xcalls s calls))) = map snd (rev (x_out s)) ++ hms_xids (x_dedup s) (map snd calls).
Proof.
  induction calls as [|[t now] calls IH]; intros s Hs; cbn [xcalls map hms_xids].
  - rewrite app_nil_r. reflexivity.
  - destruct (xcall_sequential s t now (Hs t)) as (H1 & H2 & H3).
    rewrite IH by (intros u; rewrite H1; apply Hs). rewrite H3, H2. cbn [rev map].
    destruct (hms_xid (x_dedup s) now) as [d x] eqn:E. cbn [fst snd].
    rewrite map_app. cbn [map]. rewrite <- app_assoc.
    cbn [map snd hms_xids]. rewrite E. reflexivity.
Qed.

Theorem atomic_calls_distinct calls : NoDup (map snd (x_out (xcalls xinit calls))).
Proof.
  apply (Permutation_NoDup (l := map snd (rev (x_out (xcalls xinit calls))))).
  { apply Permutation_map, Permutation_sym, Permutation_rev. }
  rewrite xcalls_sequential by reflexivity. cbn [xinit x_out rev map app x_dedup].
  generalize (map snd calls) as ts. intros ts.
  assert (H : forall d, NoDup (hms_xids d ts)).
  { intros d. pose proof (hms_xids_increasing ts d) as Hi.
    revert Hi. generalize (hms_xids d ts) as l. intros l. revert d.
    induction l as [|x l IHl]; intros d Hi; [constructor|].
    destruct Hi as [_ Hi]. constructor; [|eapply IHl; exact Hi].
    intros Hin. pose proof (increasing_from_lt _ _ _ Hi Hin). lia. }
  apply H.
Qed.

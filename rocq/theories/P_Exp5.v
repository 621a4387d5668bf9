(** Experimenter properties of OpenFlow 1.4 (C112). *)

From Coq Require Import String Lia.
From Verif Require Import Py Struct P_Struct S_Wire4 S_Fixed M_Build4 M_Parse4 P_Wire4 P_Fixed M_Build5 M_Parse5 S_Exp5.
Local Open Scope Z_scope.
Local Open Scope list_scope.

Lemma head_exactly n e x p : in_u 2 (Z.of_nat n) = true ->
  packs "HHII" [VInt 65535; VInt (Z.of_nat n); e; x] = Ok p <->
  exists ez xz, e = VInt ez /\ x = VInt xz /\ u32 ez /\ u32 xz /\ p = be 2 65535 ++ be 2 (Z.of_nat n) ++ be 4 ez ++ be 4 xz.
Proof.
  intros Hn. rewrite (plain "HHII" [FU 2; FU 2; FU 4; FU 4] _ _ eq_refl).
  pose proof (packs_says [Const 2 65535; Const 2 (Z.of_nat n); Num 4; Num 4]) as K.
  cbn [good forallb good1] in K. rewrite Hn in K. specialize (K eq_refl [VNone; VNone; e; x] p eq_refl).
  cbn [kinds_ok fill items map item] in K. rewrite <- (unasserted (pack [FU 2; FU 2; FU 4; FU 4] [VInt 65535; VInt (Z.of_nat n); e; x]) p _ (iff_refl _)) in K.
  rewrite K. split.
  - intros (zs & S & ->).
    inversion S as [| |c1 cs1 a1 args1 z1 zs1 M1 H1 S1]. subst.
    inversion S1 as [| |c2 cs2 a2 args2 z2 zs2 M2 H2 S2]. subst.
    inversion S2 as [| |c3 cs3 a3 args3 z3 zs3 M3 H3 S3]. subst.
    inversion S3 as [| |c4 cs4 a4 args4 z4 zs4 M4 H4 S4]. subst.
    inversion S4. subst. cbn [means] in *. subst. exists z3, z4. cbn [laid_out width]. rewrite !be_mod, app_nil_r.
    cbn [holds width] in H3, H4. unfold u32. change (2 ^ (8 * Z.of_nat 4)) with 4294967296 in *. auto.
  - intros (ez & xz & -> & -> & He & Hx & ->). exists [65535; Z.of_nat n; ez; xz]. split.
    + apply say_num; [reflexivity|apply (in_u_iff 2); reflexivity|]. apply say_num; [reflexivity|apply (in_u_iff 2); exact Hn|].
      apply say_num; [reflexivity|exact He|]. apply say_num; [reflexivity|exact Hx|]. apply say_nil.
    + cbn [laid_out width]. rewrite !be_mod, app_nil_r. reflexivity.
Qed.

Lemma head_long n v e x p : in_u 2 n = false -> packs "HHII" [v; VInt n; e; x] <> Ok p.
Proof.
  intros Hn E. unfold packs in E. change (fmt "HHII") with (@Ok (list fitem) [FU 2; FU 2; FU 4; FU 4]) in E. cbn [bind] in E.
  cbn [pack] in E. apply bind_iff in E. destruct E as (b1 & _ & E). apply bind_iff in E. destruct E as (r & E & _).
  apply bind_iff in E. destruct E as (b2 & E & _). cbn [pack_item] in E. rewrite Hn in E. discriminate E.
Qed.

Lemma exp_exactly e x v b : exp_prop (VInt 65535) e x v = Ok b <->
  exists ez xz d, e = VInt ez /\ x = VInt xz /\ v = VBytes d /\ exp_ok ez xz d /\ b = exp_wire ez xz d.
Proof.
  unfold exp_prop. split.
  - intros E. apply bind_iff in E. destruct E as (k & Ek & E). cbv zeta in E.
    apply bind_iff in E. destruct E as (p & Ep & E). apply bind_iff in E. destruct E as (d & Ed & E).
    destruct v; try discriminate Ed. injection Ed as <-. injection Ek as <-. injection E as <-.
    destruct (in_u 2 (Z.of_nat (12 + length b0))) eqn:Hn; [|destruct (head_long _ _ _ _ _ Hn Ep)].
    apply head_exactly in Ep; [|exact Hn]. destruct Ep as (ez & xz & -> & -> & He & Hx & ->).
    exists ez, xz, b0. repeat (split; [reflexivity|]). apply in_u_iff in Hn. change (2 ^ (8 * Z.of_nat 2)) with 65536 in Hn.
    split; [unfold exp_ok, zlen; repeat split; try apply He; try apply Hx; lia|].
    unfold exp_wire, exp_head. rewrite padding_gap. replace (12 + zlen b0) with (Z.of_nat (12 + length b0)) by (unfold zlen; lia).
    rewrite <- !app_assoc. reflexivity.
  - intros (ez & xz & d & -> & -> & -> & (He & Hx & Hl) & ->). cbn [len_of bind]. cbv zeta.
    assert (Hn : in_u 2 (Z.of_nat (12 + length d)) = true) by (apply in_u_iff; change (2 ^ (8 * Z.of_nat 2)) with 65536; unfold zlen in Hl; lia).
    rewrite (proj2 (head_exactly (12 + length d) (VInt ez) (VInt xz) _ Hn) (ex_intro _ ez (ex_intro _ xz (conj eq_refl (conj eq_refl (conj He (conj Hx eq_refl))))))).
    cbn [bind as_bytes]. rewrite padding_gap. unfold exp_wire, exp_head.
    replace (12 + zlen d) with (Z.of_nat (12 + length d)) by (unfold zlen; lia). rewrite <- !app_assoc. reflexivity.
Qed.

Lemma unpadded_exactly t l e x v b : ofp_port_stats_prop_experimenter t l e x v = Ok b <->
  exists ez xz d, e = VInt ez /\ x = VInt xz /\ dflt_bytes v [] = VBytes d /\ exp_ok ez xz d /\ b = exp_head ez xz d.
Proof.
  unfold ofp_port_stats_prop_experimenter. cbv zeta. split.
  - intros E. apply bind_iff in E. destruct E as (k & Ek & E).
    apply bind_iff in E. destruct E as (p & Ep & E). apply bind_iff in E. destruct E as (d & Ed & E).
    destruct (dflt_bytes v []) as [| |b0| | |]; try discriminate Ed. injection Ed as <-. injection Ek as <-. injection E as <-.
    replace (12 + Z.of_nat (length b0)) with (Z.of_nat (12 + length b0)) in Ep by lia.
    destruct (in_u 2 (Z.of_nat (12 + length b0))) eqn:Hn; [|destruct (head_long _ _ _ _ _ Hn Ep)].
    apply head_exactly in Ep; [|exact Hn]. destruct Ep as (ez & xz & -> & -> & He & Hx & ->).
    exists ez, xz, b0. repeat (split; [reflexivity|]). apply in_u_iff in Hn. change (2 ^ (8 * Z.of_nat 2)) with 65536 in Hn.
    split; [unfold exp_ok, zlen; repeat split; try apply He; try apply Hx; lia|].
    unfold exp_head. replace (12 + zlen b0) with (Z.of_nat (12 + length b0)) by (unfold zlen; lia).
    rewrite <- !app_assoc. reflexivity.
  - intros (ez & xz & d & -> & -> & -> & (He & Hx & Hl) & ->). cbn [len_of bind].
    assert (Hn : in_u 2 (Z.of_nat (12 + length d)) = true) by (apply in_u_iff; change (2 ^ (8 * Z.of_nat 2)) with 65536; unfold zlen in Hl; lia).
    replace (12 + Z.of_nat (length d)) with (Z.of_nat (12 + length d)) by lia.
    rewrite (proj2 (head_exactly (12 + length d) (VInt ez) (VInt xz) _ Hn) (ex_intro _ ez (ex_intro _ xz (conj eq_refl (conj eq_refl (conj He (conj Hx eq_refl))))))).
    cbn [bind as_bytes]. unfold exp_head.
    replace (12 + zlen d) with (Z.of_nat (12 + length d)) by (unfold zlen; lia). rewrite <- !app_assoc. reflexivity.
Qed.

(** *** Parsing *)

Definition exp_start (e x : Z) (d : bytes) : bytes := be 2 65535 ++ be 2 (12 + zlen d) ++ be 4 e ++ be 4 x.

Lemma exp_start_len e x d : length (exp_start e x d) = 12%nat.
Proof. unfold exp_start. rewrite !app_length, !be_length. reflexivity. Qed.

Lemma exp_parts e x d m off : at_ m off (exp_wire e x d) ->
  at_ m off (exp_start e x d) /\ at_ m (off + 12) d /\ at_ m off (exp_head e x d).
Proof.
  intros (pre & post & -> & ->). unfold exp_wire, exp_head. split; [|split].
  - exists pre, (d ++ zeros (gap (12 + length d)) ++ post). split; [|reflexivity]. unfold exp_start. rewrite <- !app_assoc. reflexivity.
  - exists (pre ++ exp_start e x d), (zeros (gap (12 + length d)) ++ post).
    split; [|rewrite app_length, exp_start_len; lia]. unfold exp_start. rewrite <- !app_assoc. reflexivity.
  - exists pre, (zeros (gap (12 + length d)) ++ post). split; [|reflexivity]. rewrite <- !app_assoc. reflexivity.
Qed.

Lemma exp_unp e x d m off : at_ m off (exp_wire e x d) -> exp_ok e x d ->
  unp "HHII" m off = Ok ([VInt 65535; VInt (12 + zlen d); VInt e; VInt x], (off + 12)%nat).
Proof.
  intros A (He & Hx & Hl). destruct (exp_parts _ _ _ _ _ A) as (A1 & _).
  assert (B : bears [Num 2; Num 2; Num 4; Num 4] [65535; 12 + zlen d; e; x] (exp_start e x d)).
  { unfold exp_start. rewrite <- (app_nil_r (be 4 x)), <- (be_mod 2 65535), <- (be_mod 2 (12 + zlen d)), <- (be_mod 4 e), <- (be_mod 4 x).
    repeat (apply bear_num; [exact I|cbn [holds width]|]); try constructor.
    all: change (2 ^ (8 * Z.of_nat 2)) with 65536; change (2 ^ (8 * Z.of_nat 4)) with 4294967296.
    all: unfold u32, zlen in *; lia. }
  pose proof (proj1 (reads_of "x" "HHII" [Num 2; Num 2; Num 4; Num 4] eq_refl eq_refl) m off _ _ B A1) as K.
  unfold fixed in K. destruct (unp "HHII" m off) as [[vs o]|err]; [|discriminate K]. cbn [bind] in K.
  injection K as -> ->. reflexivity.
Qed.

Lemma exp_data e x d m off : at_ m off (exp_wire e x d) -> slice m (off + 12) (off + Z.to_nat (12 + zlen d)) = d.
Proof.
  intros A. destruct (exp_parts _ _ _ _ _ A) as (_ & A2 & _).
  replace (off + Z.to_nat (12 + zlen d))%nat with ((off + 12) + length d)%nat by (unfold zlen; lia). apply at_slice. exact A2.
Qed.

Lemma exp_whole e x d m off : at_ m off (exp_wire e x d) -> slice m off (off + Z.to_nat (12 + zlen d)) = exp_head e x d.
Proof.
  intros A. destruct (exp_parts _ _ _ _ _ A) as (_ & _ & A3).
  replace (Z.to_nat (12 + zlen d)) with (length (exp_head e x d)).
  - apply at_slice. exact A3.
  - unfold exp_head, zlen. rewrite !app_length, !be_length. lia.
Qed.

Lemma exp_len e x d : length (exp_wire e x d) = align8 (Z.to_nat (12 + zlen d)) /\ length (exp_head e x d) = Z.to_nat (12 + zlen d).
Proof.
  assert (H : length (exp_head e x d) = Z.to_nat (12 + zlen d)) by (unfold exp_head, zlen; rewrite !app_length, !be_length; lia).
  split; [|exact H]. unfold exp_wire. rewrite gap_align, app_length, H, zeros_length.
  replace (Z.to_nat (12 + zlen d)) with (12 + length d)%nat by (unfold zlen; lia). reflexivity.
Qed.

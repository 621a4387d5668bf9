(** Proofs about the example programs, continued: the hub's switch. *)

From Coq Require Import Lia.
From Verif Require Import Py M_Example S_Hello S_Oxm S_Wire4 S_Msg4 S_Bess S_Hub P_Hub P_Hub2.
Local Open Scope Z_scope.
Local Open Scope list_scope.

(** *** Tables *)

Lemma best_some l t x f : best l t x = Some f ->
  In f l /\ f_table f = t /\ matches f x = true /\
  (forall g, In g l -> f_table g = t -> matches g x = true -> f_prio g <= f_prio f).
Proof.
  revert f. induction l as [|h l IH]; intros f; [discriminate|]. cbn [best].
  destruct (Z.eqb_spec (f_table h) t) as [T|T]; destruct (matches h x) eqn:M; cbn [andb].
  - destruct (best l t x) as [g|] eqn:B.
    + destruct (IH g eq_refl) as (I1 & I2 & I3 & I4). destruct (Z.leb_spec (f_prio g) (f_prio h)) as [L|L]; intros [= <-].
      * repeat split; auto; [left; reflexivity|]. intros k [<-|K] T' M'; [lia|]. specialize (I4 k K T' M'). lia.
      * repeat split; auto; [right; exact I1|]. intros k [<-|K] T' M'; [lia|]. exact (I4 k K T' M').
    + intros [= <-]. repeat split; auto; [left; reflexivity|]. intros k [<-|K] T' M'; [lia|]. exfalso.
      clear - B K T' M'. induction l as [|j l IHl]; [destruct K|]. cbn [best] in B.
      destruct K as [->|K].
      * rewrite <- T', Z.eqb_refl, M' in B. cbn [andb] in B. destruct (best l (f_table k) x) as [q|]; [destruct (f_prio q <=? f_prio k)|]; discriminate.
      * destruct ((f_table j =? t) && matches j x); [destruct (best l t x) as [q|]; [destruct (f_prio q <=? f_prio j)|]; discriminate|]. exact (IHl B K).
  - intros E. destruct (IH f E) as (I1 & I2 & I3 & I4). repeat split; auto; [right; exact I1|]. intros k [<-|K] T' M'; [congruence|exact (I4 k K T' M')].
  - intros E. destruct (IH f E) as (I1 & I2 & I3 & I4). repeat split; auto; [right; exact I1|]. intros k [<-|K] T' M'; [congruence|exact (I4 k K T' M')].
  - intros E. destruct (IH f E) as (I1 & I2 & I3 & I4). repeat split; auto; [right; exact I1|]. intros k [<-|K] T' M'; [congruence|exact (I4 k K T' M')].
Qed.
Lemma best_none l t x : best l t x = None -> forall g, In g l -> f_table g = t -> matches g x = true -> False.
Proof.
  induction l as [|j l IHl]; intros B k K T' M'; [destruct K|]. cbn [best] in B.
  destruct K as [->|K].
  - rewrite <- T', Z.eqb_refl, M' in B. cbn [andb] in B. destruct (best l (f_table k) x) as [q|]; [destruct (f_prio q <=? f_prio k)|]; discriminate.
  - destruct ((f_table j =? t) && matches j x); [destruct (best l t x) as [q|]; [destruct (f_prio q <=? f_prio j)|]; discriminate|]. exact (IHl B k K T' M').
Qed.

Definition fam (g : flow) : Prop := g = B0 \/ g = B1 \/ g = B2 \/ exists a p, mac a /\ (g = L0 a p \/ g = L1 a p).

Lemma masked_eq a x : mac a -> mac x -> masked a (repeat 255 6) x = true -> a = x.
Proof.
  intros [La Ha] [Lx Hx].
  destruct a as [|a1 [|a2 [|a3 [|a4 [|a5 [|a6 [|]]]]]]]; try discriminate La.
  destruct x as [|x1 [|x2 [|x3 [|x4 [|x5 [|x6 [|]]]]]]]; try discriminate Lx.
  repeat match goal with H : Forall _ (_ :: _) |- _ => inversion H; clear H; subst end.
  assert (K : forall z, 0 <= z < 256 -> Z.land z 255 = z).
  { intros z Hz. change 255 with (Z.ones 8). rewrite Z.land_ones by lia. apply Z.mod_small. exact Hz. }
  cbn [repeat masked]. rewrite !K by assumption. intros E.
  repeat (apply andb_prop in E; let X := fresh "X" in destruct E as [X E]; apply Z.eqb_eq in X). congruence.
Qed.
Lemma masked_self a : mac a -> masked a (repeat 255 6) a = true.
Proof.
  intros [La _]. destruct a as [|a1 [|a2 [|a3 [|a4 [|a5 [|a6 [|]]]]]]]; try discriminate La. cbn [repeat masked]. rewrite !Z.eqb_refl. reflexivity.
Qed.
Lemma masked_mc x : mac x -> masked mc mc x = true <-> group_address x.
Proof.
  intros [Lx _]. destruct x as [|x1 [|x2 [|x3 [|x4 [|x5 [|x6 [|]]]]]]]; try discriminate Lx. unfold group_address, mc. cbn [masked nth].
  assert (E : Z.land x1 1 = if Z.odd x1 then 1 else 0) by (change 1 with (Z.ones 1) at 1; rewrite Z.land_ones by lia; apply Zmod_odd).
  rewrite !Z.land_0_r, E. destruct (Z.odd x1); vm_compute; split; congruence.
Qed.

Definition table_ok (w : switch) (ports : list Z) : Prop :=
  w_groups w = [(1, ports)] /\ In B0 (w_flows w) /\ In B1 (w_flows w) /\ In B2 (w_flows w) /\ Forall fam (w_flows w) /\
  (forall a p q, In (L1 a p) (w_flows w) -> In (L1 a q) (w_flows w) -> p = q).

Lemma best0 w ports x : table_ok w ports -> frame_ok x ->
  (best (w_flows w) 0 x = Some B0 /\ ~ In (L0 (fr_src x) (fr_port x)) (w_flows w)) \/
  (best (w_flows w) 0 x = Some (L0 (fr_src x) (fr_port x)) /\ In (L0 (fr_src x) (fr_port x)) (w_flows w)).
Proof.
  intros (_ & HB & _ & _ & HF & _) Hx. destruct (best (w_flows w) 0 x) as [f|] eqn:B.
  2: { exfalso. exact (best_none _ _ _ B B0 HB eq_refl eq_refl). }
  destruct (best_some _ _ _ _ B) as (I1 & I2 & I3 & I4). rewrite Forall_forall in HF.
  destruct (HF f I1) as [->|[->|[->|(a & p & Ha & [->| ->])]]]; try discriminate I2.
  - left. split; [reflexivity|]. intros K. specialize (I4 _ K eq_refl). cbn [matches L0 f_in f_src f_dst] in I4.
    unfold matches in I4. cbn [L0 f_in f_src f_dst f_prio B0] in I4. rewrite Z.eqb_refl, beq_refl in I4. specialize (I4 eq_refl). lia.
  - right. unfold matches in I3. cbn [L0 f_in f_src f_dst] in I3. rewrite Bool.andb_true_r in I3. apply andb_prop in I3. destruct I3 as [E1 E2].
    apply Z.eqb_eq in E1. apply beq_eq in E2. subst. auto.
Qed.
Lemma best1 w ports x : table_ok w ports -> frame_ok x ->
  (group_address (fr_dst x) /\ best (w_flows w) 1 x = Some B1) \/
  (~ group_address (fr_dst x) /\ exists p, In (L1 (fr_dst x) p) (w_flows w) /\ best (w_flows w) 1 x = Some (L1 (fr_dst x) p)) \/
  (~ group_address (fr_dst x) /\ (forall p, ~ In (L1 (fr_dst x) p) (w_flows w)) /\ best (w_flows w) 1 x = Some B2).
Proof.
  intros (_ & _ & H1 & H2 & HF & _) (Hs & Hd & _). destruct (best (w_flows w) 1 x) as [f|] eqn:B.
  2: { exfalso. exact (best_none _ _ _ B B2 H2 eq_refl eq_refl). }
  destruct (best_some _ _ _ _ B) as (I1 & I2 & I3 & I4). rewrite Forall_forall in HF.
  assert (G : group_address (fr_dst x) -> 3 <= f_prio f).
  { intros K. apply (I4 B1 H1 eq_refl). unfold matches. cbn [B1 f_in f_src f_dst andb]. apply masked_mc; assumption. }
  destruct (HF f I1) as [->|[->|[->|(a & p & Ha & [->| ->])]]]; try discriminate I2.
  - left. split; [|reflexivity]. unfold matches in I3. cbn [B1 f_in f_src f_dst andb] in I3. apply masked_mc; assumption.
  - right. right. split; [intros K; specialize (G K); cbn in G; lia|]. split; [|reflexivity]. intros p K.
    specialize (I4 _ K eq_refl). unfold matches in I4. cbn [L1 B2 f_in f_src f_dst f_prio andb] in I4. specialize (I4 (masked_self _ Hd)). lia.
  - right. left. split; [intros K; specialize (G K); cbn in G; lia|]. unfold matches in I3. cbn [L1 f_in f_src f_dst andb] in I3.
    rewrite (masked_eq _ _ Ha Hd I3) in *. eauto.
Qed.

Lemma flood x ports : flat_map (out x) ports = all_but ports (fr_port x).
Proof.
  unfold all_but. induction ports as [|p ports IH]; [reflexivity|]. cbn [flat_map filter]. unfold out at 1. rewrite IH.
  destruct (p =? fr_port x); reflexivity.
Qed.
Definition goes (w : switch) (ports : list Z) (x : frame) (outs : list Z) : Prop :=
  (group_address (fr_dst x) /\ outs = all_but ports (fr_port x)) \/
  (~ group_address (fr_dst x) /\ exists p, In (L1 (fr_dst x) p) (w_flows w) /\ outs = out x p) \/
  (~ group_address (fr_dst x) /\ (forall p, ~ In (L1 (fr_dst x) p) (w_flows w)) /\ outs = all_but ports (fr_port x)).
Lemma passes1 n w ports x : table_ok w ports -> frame_ok x -> exists outs, passes (S n) w 1 x = (outs, false) /\ goes w ports x outs.
Proof.
  intros Hw Hx. assert (Hg : w_groups w = [(1, ports)]) by apply Hw.
  destruct (best1 w ports x Hw Hx) as [[G B]|[(G & p & I1 & B)|(G & N & B)]]; cbn [passes]; rewrite B.
  - exists (all_but ports (fr_port x)). split; [|left; auto]. cbn [B1 f_acts]. unfold group_ports. rewrite Hg. cbn [find fst Z.eqb Pos.eqb].
    rewrite flood, app_nil_r. reflexivity.
  - exists (out x p). split; [|right; left; eauto]. cbn [L1 f_acts]. rewrite app_nil_r. reflexivity.
  - exists (all_but ports (fr_port x)). split; [|right; right; auto]. cbn [B2 f_acts]. unfold group_ports. rewrite Hg. cbn [find fst Z.eqb Pos.eqb].
    rewrite flood, app_nil_r. reflexivity.
Qed.
Lemma passes0 n w ports x : table_ok w ports -> frame_ok x ->
  exists outs told, passes (S (S n)) w 0 x = (outs, told) /\ goes w ports x outs /\
    (told = true <-> ~ In (L0 (fr_src x) (fr_port x)) (w_flows w)).
Proof.
  intros Hw Hx. destruct (passes1 n w ports x Hw Hx) as (outs & P & G). exists outs.
  destruct (best0 w ports x Hw Hx) as [[B N]|[B N]]; [exists true|exists false].
  - split; [|split; [exact G|tauto]]. remember (S n) as m. cbn [passes]. rewrite B. cbn [B0 f_acts]. change (0 <? 1) with true. cbv iota beta.
    rewrite P. reflexivity.
  - split; [|split; [exact G|split; [discriminate|intros K; contradiction]]]. remember (S n) as m. cbn [passes]. rewrite B. cbn [L0 f_acts]. change (0 <? 1) with true. cbv iota beta.
    rewrite P. reflexivity.
Qed.
Lemma switched_spec w ports x outs told : table_ok w ports -> frame_ok x -> switched w x = (outs, told) ->
  goes w ports x outs /\ (told = true <-> ~ In (L0 (fr_src x) (fr_port x)) (w_flows w)).
Proof.
  intros Hw Hx E. destruct (passes0 253 w ports x Hw Hx) as (o & c & P & G). unfold switched in E. change 255%nat with (S (S 253)) in E. rewrite P in E. injection E as <- <-. exact G.
Qed.

(** *** Learning *)

Lemma in_add w f g : In g (w_flows (add_flow w f)) <-> g = f \/ (In g (w_flows w) /\ same_flow f g = false).
Proof.
  unfold add_flow. cbn [w_flows]. rewrite in_app_iff, filter_In. cbn [In]. rewrite Bool.negb_true_iff. split; [intros [H|[H|[]]]; auto|intros [->|H]; auto].
Qed.
Lemma same_L0 a p g : fam g -> same_flow (L0 a p) g = true <-> g = L0 a p.
Proof.
  intros F. split.
  - destruct F as [->|[->|[->|(b & q & _ & [->| ->])]]]; unfold same_flow; cbn; try discriminate.
    rewrite Bool.andb_true_r. intros E. apply andb_prop in E. destruct E as [E1 E2]. apply Z.eqb_eq in E1. apply beq_eq in E2. subst. reflexivity.
  - intros ->. unfold same_flow. cbn. rewrite !Z.eqb_refl, beq_refl. reflexivity.
Qed.
Lemma same_L1 a p g : fam g -> same_flow (L1 a p) g = true <-> exists q, g = L1 a q.
Proof.
  intros F. split.
  - destruct F as [->|[->|[->|(b & q & _ & [->| ->])]]]; unfold same_flow; cbn; try discriminate.
    intros E. apply andb_prop in E. destruct E as [_ E]. apply andb_prop in E. destruct E as [E1 _]. apply beq_eq in E1. subst. eauto.
  - intros [q ->]. unfold same_flow. cbn. rewrite beq_refl. reflexivity.
Qed.
Definition learned_sw (w : switch) (a : bytes) (p : Z) : switch := add_flow (add_flow w (L0 a p)) (L1 a p).
Lemma in_learned w a p g : Forall fam (w_flows w) -> mac a ->
  In g (w_flows (learned_sw w a p)) <-> g = L0 a p \/ g = L1 a p \/ (In g (w_flows w) /\ forall q, g <> L1 a q).
Proof.
  intros HF Ha. rewrite Forall_forall in HF. unfold learned_sw. rewrite in_add, in_add.
  assert (FL : fam (L0 a p)) by (right; right; right; exists a, p; auto).
  split.
  - intros [->|[[->|[H S0]] S1]]; auto. right. right. split; [exact H|]. intros q ->.
    assert (same_flow (L1 a p) (L1 a q) = true) by (apply same_L1; [apply HF; exact H|eauto]). congruence.
  - intros [->|[->|[H N]]]; [right; split; [left|]; reflexivity|left; reflexivity|].
    destruct (same_flow (L0 a p) g) eqn:E0.
      * apply (same_L0 a p g (HF g H)) in E0. subst g. right. split; [left; reflexivity|].
        destruct (same_flow (L1 a p) (L0 a p)) eqn:E; [|reflexivity]. apply (same_L1 a p _ FL) in E. destruct E as [q E]. discriminate E.
      * right. split; [right; auto|]. destruct (same_flow (L1 a p) g) eqn:E1; [|reflexivity].
        apply (same_L1 a p g (HF g H)) in E1. destruct E1 as [q ->]. exfalso. exact (N q eq_refl).
Qed.
Lemma L1_inj a p b q : L1 a p = L1 b q -> a = b /\ p = q.
Proof. intros [= -> ->]. auto. Qed.
Lemma learned_ok w ports a p : table_ok w ports -> mac a -> table_ok (learned_sw w a p) ports.
Proof.
  intros (Hg & H0 & H1 & H2 & HF & HU) Ha. split; [exact Hg|].
  split; [apply in_learned; auto; right; right; split; [exact H0|discriminate]|].
  split; [apply in_learned; auto; right; right; split; [exact H1|discriminate]|].
  split; [apply in_learned; auto; right; right; split; [exact H2|discriminate]|].
  split.
  - apply Forall_forall. intros g Hg'. apply in_learned in Hg'; auto. destruct Hg' as [->|[->|[Hg' _]]].
    + right; right; right; exists a, p; auto.
    + right; right; right; exists a, p; auto.
    + rewrite Forall_forall in HF. auto.
  - intros b q r I1 I2. apply in_learned in I1; auto. apply in_learned in I2; auto.
    destruct I1 as [E1|[E1|[I1 N1]]]; [discriminate E1| |]; (destruct I2 as [E2|[E2|[I2 N2]]]; [discriminate E2| |]).
    + apply L1_inj in E1. apply L1_inj in E2. destruct E1, E2. congruence.
    + apply L1_inj in E1. destruct E1 as [-> ->]. exfalso. exact (N2 r eq_refl).
    + apply L1_inj in E2. destruct E2 as [-> ->]. exfalso. exact (N1 q eq_refl).
    + exact (HU b q r I1 I2).
Qed.
Lemma expired_ok g w a f b ports : w_flows w = a ++ f :: b -> 0 < f_idle f -> g = mkSw (a ++ b) (w_groups w) -> table_ok w ports ->
  table_ok g ports /\ (forall h, In h (w_flows g) -> In h (w_flows w)).
Proof.
  intros E Hi -> (Hg & H0 & H1 & H2 & HF & HU). assert (K : forall h, In h (a ++ b) -> In h (w_flows w)).
  { intros h H. rewrite E. apply in_app_iff in H. apply in_app_iff. cbn. tauto. }
  assert (K' : forall h, In h (w_flows w) -> f_idle h = 0 -> In h (a ++ b)).
  { intros h H Z0. rewrite E in H. apply in_app_iff in H. apply in_app_iff. destruct H as [H|[->|H]]; auto. lia. }
  split; [|exact K]. split; [exact Hg|]. cbn [w_flows]. split; [apply K'; auto|]. split; [apply K'; auto|]. split; [apply K'; auto|].
  split; [apply Forall_forall; intros h H; rewrite Forall_forall in HF; auto|]. intros c p q P Q. apply (HU c); auto.
Qed.

(** *** Runs *)

Lemma seen_app a l1 l2 : seen a (l1 ++ l2) = seen a l1 ++ seen a l2.
Proof. unfold seen. apply flat_map_app. Qed.
Definition known (ls : list label) (g : flow) : Prop := forall a p, g = L0 a p \/ g = L1 a p -> In p (seen a ls).
Definition inv (ports : list Z) (ls : list label) (s : world) : Prop :=
  table_ok (o_sw s) ports /\ Forall (known ls) (w_flows (o_sw s)) /\
  Forall (fun x => frame_ok x /\ In (fr_port x) (seen (fr_src x) ls)) (o_wait s).

Lemma starts_sw ports s : Forall (fun p => 0 <= p) ports -> starts ports s -> s = mkWorld (mkSw [B0; B1; B2] [(1, ports)]) [].
Proof.
  intros Hp (xid & es & w & Hg & D & ->). rewrite hub_hello in D by exact Hg. cbn [fst] in D. rewrite (base_done ports w Hp D). reflexivity.
Qed.
Lemma start_table ports : table_ok (mkSw [B0; B1; B2] [(1, ports)]) ports.
Proof.
  split; [reflexivity|]. cbn [w_flows In]. split; [tauto|]. split; [tauto|]. split; [tauto|]. split.
  - repeat constructor; unfold fam; tauto.
  - intros a p q [H|[H|[H|[]]]]; discriminate H.
Qed.
Lemma known_more ls l g : known ls g -> known (ls ++ l) g.
Proof. intros K a p H. rewrite seen_app. apply in_or_app. left. exact (K a p H). Qed.
Lemma runs_inv ports ls s : Forall (fun p => 0 <= p) ports -> runs ports ls s -> inv ports ls s.
Proof.
  intros Hp. induction 1 as [s H|ls s l s' H IH St].
  - rewrite (starts_sw ports s Hp H). split; [apply start_table|]. split; [|constructor].
    repeat constructor; intros a p [E|E]; discriminate E.
  - destruct IH as (It & Ik & Iw). destruct St as [s x outs told Hx E|s x a b m dx cs w Ew Hc Hd Ea D|s f a b Ef Hi].
    + split; [exact It|]. split; [eapply Forall_impl; [|exact Ik]; intros g; apply known_more|]. cbn [o_wait]. apply Forall_app. split.
      * eapply Forall_impl; [|exact Iw]. intros y [Hy Y]. split; [exact Hy|]. rewrite seen_app. apply in_or_app. auto.
      * destruct told; constructor; [|constructor]. split; [exact Hx|]. rewrite seen_app. apply in_or_app. right. cbn [seen flat_map].
        rewrite beq_refl. left. reflexivity.
    + assert (Hx : frame_ok x /\ In (fr_port x) (seen (fr_src x) ls)).
      { rewrite Ew in Iw. apply Forall_app in Iw. destruct Iw as [_ Iw]. inversion Iw; assumption. }
      destruct Hx as [Hx Hn]. rewrite (learned _ _ _ _ _ _ Hc Hx Hd Ea D). change (add_flow _ _) with (learned_sw (o_sw s) (fr_src x) (fr_port x)).
      assert (Ha : mac (fr_src x)) by apply Hx. split; [apply learned_ok; assumption|]. split.
      * apply Forall_forall. intros g Hg. cbn [o_sw] in Hg. apply in_learned in Hg; [|apply It|exact Ha]. apply known_more.
        destruct Hg as [->|[->|[Hg _]]]; [| |rewrite Forall_forall in Ik; apply Ik; exact Hg]; intros a' p' [E|E]; try discriminate E;
          injection E as <- <-; exact Hn.
      * cbn [o_wait]. rewrite Ew in Iw. apply Forall_app in Iw. destruct Iw as [W1 W2]. inversion W2; subst.
        assert (K : forall l, Forall (fun x => frame_ok x /\ In (fr_port x) (seen (fr_src x) ls)) l ->
                     Forall (fun y => frame_ok y /\ In (fr_port y) (seen (fr_src y) (ls ++ [LHandle x]))) l).
        { intros l Hl. eapply Forall_impl; [|exact Hl]. intros y [Y1 Y2]. split; [exact Y1|]. rewrite seen_app. apply in_or_app. auto. }
        apply Forall_app. split; apply K; assumption.
    + destruct (expired_ok _ _ _ _ _ ports Ef Hi eq_refl It) as [T K]. split; [exact T|]. split.
      * apply Forall_forall. intros g Hg. apply known_more. rewrite Forall_forall in Ik. apply Ik. apply K. exact Hg.
      * eapply Forall_impl; [|exact Iw]. intros y [Hy Y]. split; [exact Hy|]. rewrite seen_app. apply in_or_app. auto.
Qed.

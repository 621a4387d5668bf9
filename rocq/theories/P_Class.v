(** Proofs about the class hierarchy. *)

From Coq Require Import String Bool List Lia Arith.
From Verif Require Import M_Class S_Class.
Import ListNotations.
Local Open Scope string_scope.
Local Open Scope list_scope.

Lemma memb_in : forall x l, memb x l = true <-> In x l.
Proof.
  intros x l. unfold memb. rewrite existsb_exists. split.
  - intros [y [H E]]. apply String.eqb_eq in E. subst. exact H.
  - intros H. exists x. split; [exact H|apply String.eqb_refl].
Qed.
Lemma memb_out : forall x l, memb x l = false <-> ~ In x l.
Proof.
  intros x l. rewrite <- memb_in. destruct (memb x l); split; intros H; congruence.
Qed.

(** *** Subsequences *)

Lemma Sub_refl : forall l, Sub l l.
Proof. induction l; constructor; assumption. Qed.
Lemma Sub_in : forall l r, Sub l r -> forall x, In x l -> In x r.
Proof.
  intros l r H. induction H; intros y Hy; [destruct Hy|right; auto|].
  destruct Hy as [->|Hy]; [left; reflexivity|right; auto].
Qed.
Lemma Sub_trans : forall b c, Sub b c -> forall a, Sub a b -> Sub a c.
Proof.
  intros b c H. induction H; intros a Ha.
  - inversion Ha. constructor.
  - constructor. auto.
  - inversion Ha; subst; [constructor|apply Sub_skip; auto|apply Sub_take; auto].
Qed.
Lemma Sub_filter : forall f l, Sub (filter f l) l.
Proof. induction l; cbn; [constructor|]. destruct (f a); constructor; assumption. Qed.
Lemma Sub_upto : forall x l, Sub (upto x l) l.
Proof.
  induction l; cbn; [constructor|]. destruct (String.eqb a x); constructor; [constructor|assumption].
Qed.
Lemma Sub_nodup : forall l r, Sub l r -> NoDup r -> NoDup l.
Proof.
  intros l r H. induction H; intros N; [constructor|inversion N; auto|].
  inversion N; subst. constructor; [|auto]. intro Hx. apply (Sub_in _ _ H) in Hx. contradiction.
Qed.
Lemma Sub_split : forall l r a b l1 l2 l3, Sub l r -> l = l1 ++ a :: l2 ++ b :: l3 -> before r a b.
Proof.
  intros l r a b l1 l2 l3 H. revert l1. induction H; intros l1 E.
  - destruct l1; discriminate.
  - destruct (IHSub _ E) as [p1 [p2 [p3 ->]]]. exists (x :: p1), p2, p3. reflexivity.
  - destruct l1 as [|y l1]; cbn in E; injection E as -> E.
    + assert (Hb : In b r) by (apply (Sub_in _ _ H); rewrite E; apply in_or_app; right; left; reflexivity).
      apply in_split in Hb as [q1 [q2 ->]]. exists [], q1, q2. reflexivity.
    + destruct (IHSub _ E) as [p1 [p2 [p3 ->]]]. exists (y :: p1), p2, p3. reflexivity.
Qed.
Lemma Sub_before : forall l r a b, Sub l r -> before l a b -> before r a b.
Proof. intros l r a b H [l1 [l2 [l3 E]]]. exact (Sub_split _ _ _ _ _ _ _ H E). Qed.

Lemma after_app : forall k p q, ~ In k p -> after k (p ++ k :: q) = q.
Proof.
  induction p; intros q H; cbn.
  - rewrite String.eqb_refl. reflexivity.
  - destruct (String.eqb a k) eqn:E; [apply String.eqb_eq in E; subst; exfalso; apply H; left; reflexivity|].
    apply IHp. intro; apply H; right; assumption.
Qed.
Lemma nodup_app_l : forall (p q : list string) x, NoDup (p ++ x :: q) -> ~ In x p /\ ~ In x q.
Proof.
  intros p q x H. split.
  - intro Hx. apply NoDup_remove_2 in H. apply H. apply in_or_app. left. exact Hx.
  - intro Hx. apply NoDup_remove_2 in H. apply H. apply in_or_app. right. exact Hx.
Qed.
Lemma before_after : forall l a b, NoDup l -> before l a b -> In b (after a l).
Proof.
  intros l a b N [l1 [l2 [l3 ->]]]. destruct (nodup_app_l _ _ _ N) as [H _]. rewrite after_app by assumption.
  apply in_or_app. right. left. reflexivity.
Qed.
Lemma after_before : forall l a b, In b (after a l) -> before l a b.
Proof.
  induction l; intros x b H; [destruct H|]. cbn in H. destruct (String.eqb a x) eqn:E.
  - apply String.eqb_eq in E. subst. apply in_split in H as [q1 [q2 ->]]. exists [], q1, q2. reflexivity.
  - destruct (IHl _ _ H) as [l1 [l2 [l3 ->]]]. exists (a :: l1), l2, l3. reflexivity.
Qed.

(** *** pmerge *)

Lemma pick_spec : forall all ls c, pick ls all = Some c ->
  (exists r, In (c :: r) ls) /\ forall l, In l all -> ~ In c (tl l).
Proof.
  intros all. induction ls as [|l ls IH]; intros c H; [discriminate|].
  destruct l as [|x r]; cbn in H.
  - destruct (IH _ H) as [[r Hr] Hn]. split; [exists r; right; exact Hr|exact Hn].
  - destruct (existsb (fun l => memb x (tl l)) all) eqn:E.
    + destruct (IH _ H) as [[r' Hr] Hn]. split; [exists r'; right; exact Hr|exact Hn].
    + injection H as ->. split; [exists r; left; reflexivity|].
      intros l Hl Hin. apply memb_in in Hin.
      assert (existsb (fun l => memb c (tl l)) all = true) by (apply existsb_exists; exists l; auto). congruence.
Qed.

Lemma behead_in : forall c l x, In x (behead c l) -> In x l.
Proof.
  intros c [|y r] x H; [destruct H|]. cbn in H. destruct (String.eqb y c); [right; exact H|exact H].
Qed.
Lemma behead_out : forall c l, ~ In c (tl l) -> ~ In c (behead c l).
Proof.
  intros c [|y r] H; cbn; [auto|]. cbn in H. destruct (String.eqb y c) eqn:E; [exact H|].
  intros [->|Hx]; [rewrite String.eqb_refl in E; discriminate|exact (H Hx)].
Qed.

Lemma all_nil : forall ls, forallb is_nil ls = true -> forall l, In l ls -> l = [].
Proof. intros ls H l Hl. rewrite forallb_forall in H. specialize (H _ Hl). destruct l; [reflexivity|discriminate]. Qed.

Lemma merge_spec : forall f ls r, merge f ls = Some r ->
  (forall l, In l ls -> Sub l r) /\ (forall x, In x r -> exists l, In l ls /\ In x l) /\ NoDup r.
Proof.
  induction f; intros ls r H; cbn in H.
  - destruct (forallb is_nil ls) eqn:E; [|discriminate]. injection H as <-.
    split; [intros l Hl; rewrite (all_nil _ E _ Hl); constructor|]. split; [intros x []|constructor].
  - destruct (forallb is_nil ls) eqn:E.
    + injection H as <-.
      split; [intros l Hl; rewrite (all_nil _ E _ Hl); constructor|]. split; [intros x []|constructor].
    + destruct (pick ls ls) as [c|] eqn:P; [|discriminate].
      destruct (merge f (map (behead c) ls)) as [r'|] eqn:M; [|discriminate]. cbn in H. injection H as <-.
      destruct (IHf _ _ M) as [S1 [S2 S3]]. destruct (pick_spec _ _ _ P) as [[q Hq] Hn].
      split; [|split].
      * intros l Hl. specialize (S1 (behead c l) (in_map _ _ _ Hl)).
        destruct l as [|x l]; [constructor|]. cbn in S1. destruct (String.eqb x c) eqn:Ex.
        -- apply String.eqb_eq in Ex. subst. apply Sub_take. exact S1.
        -- apply Sub_skip. exact S1.
      * intros x [<-|Hx]; [exists (c :: q); split; [exact Hq|left; reflexivity]|].
        destruct (S2 _ Hx) as [l [Hl Hxl]]. apply in_map_iff in Hl as [l0 [<- Hl0]].
        exists l0. split; [exact Hl0|]. exact (behead_in _ _ _ Hxl).
      * constructor; [|exact S3]. intro Hc. destruct (S2 _ Hc) as [l [Hl Hcl]]. apply in_map_iff in Hl as [l0 [<- Hl0]].
        revert Hcl. apply behead_out. exact (Hn _ Hl0).
Qed.

(** *** Tables *)

Definition names (t : ctab) : list string := map (fun e => c_name (fst e)) t.

Lemma get_in : forall t n e, get t n = Some e -> In e t /\ c_name (fst e) = n.
Proof.
  intros t n e H. apply find_some in H as [H1 H2]. apply String.eqb_eq in H2. auto.
Qed.
Lemma in_get : forall t e, NoDup (names t) -> In e t -> get t (c_name (fst e)) = Some e.
Proof.
  induction t as [|x t IH]; intros e N H; [destruct H|]. cbn in N. inversion N; subst. unfold get. cbn.
  destruct H as [->|H]; [rewrite String.eqb_refl; reflexivity|].
  destruct (String.eqb (c_name (fst x)) (c_name (fst e))) eqn:E.
  - exfalso. apply String.eqb_eq in E. apply H2. rewrite E. unfold names.
    apply (in_map (fun e => c_name (fst e))). exact H.
  - exact (IH _ H3 H).
Qed.
Lemma get_name : forall t n, (exists e, get t n = Some e) <-> In n (names t).
Proof.
  intros t n. split.
  - intros [e H]. apply get_in in H as [H <-]. unfold names. apply (in_map (fun e => c_name (fst e))). exact H.
  - induction t as [|x t IH]; intros H; [destruct H|]. unfold get. cbn.
    destruct (String.eqb (c_name (fst x)) n) eqn:E; [eexists; reflexivity|].
    destruct H as [H|H]; [rewrite H, String.eqb_refl in E; discriminate|]. exact (IH H).
Qed.

(** What holds of every table: names are unique, and every class's order *)
Record wft (t : ctab) : Prop := {
  w_nodup : NoDup (names t);
  w_class : forall c m, In (c, m) t ->
    (exists r, m = c_name c :: r) /\ NoDup m /\ (forall x, In x m -> In x (names t)) /\
    (forall x, In x m -> Sub (mro t x) m) /\ Sub (c_bases c) m /\ (forall b, In b (c_bases c) -> In b (names t)) /\
    (forall x, In x m -> x = c_name c \/ exists b, In b (c_bases c) /\ In x (mro t b))
}.

Lemma all_mros_spec : forall t bs ms, all_mros t bs = Some ms ->
  (forall b, In b bs -> In b (names t)) /\
  (forall l, In l ms <-> exists b, In b bs /\ l = mro t b).
Proof.
  intros t. induction bs as [|b bs IH]; intros ms H; cbn in H.
  - injection H as <-. split; [intros b []|]. intros l. split; [intros []|intros [b [[] _]]].
  - destruct (get t b) as [[c m]|] eqn:G; [|discriminate]. destruct (all_mros t bs) as [ms'|] eqn:A; [|discriminate].
    injection H as <-. destruct (IH _ eq_refl) as [I1 I2]. split.
    + intros x [<-|Hx]; [apply get_name; eexists; exact G|auto].
    + intros l. split.
      * intros [<-|Hl]; [exists b; split; [left; reflexivity|unfold mro; rewrite G; reflexivity]|].
        apply I2 in Hl as [x [Hx ->]]. exists x. split; [right; exact Hx|reflexivity].
      * intros [x [[<-|Hx] ->]]; [left; unfold mro; rewrite G; reflexivity|].
        right. apply I2. exists x. auto.
Qed.

Lemma define_spec : forall t c t', define t c = Some t' ->
  exists m, t' = (c, c_name c :: m) :: t /\ ~ In (c_name c) (names t) /\
    (forall b, In b (c_bases c) -> In b (names t) /\ Sub (mro t b) m) /\ Sub (c_bases c) m /\ NoDup m /\
    (forall x, In x m -> In x (c_bases c) \/ exists b, In b (c_bases c) /\ In x (mro t b)).
Proof.
  intros t c t' H. unfold define in H.
  destruct (memb (c_name c) (map (fun e => c_name (fst e)) t) || is_nil (c_bases c) || negb (nodupb (c_bases c))) eqn:E;
    [discriminate|].
  apply orb_false_elim in E as [E _]. apply orb_false_elim in E as [E _]. apply memb_out in E.
  destruct (all_mros t (c_bases c)) as [ms|] eqn:A; [|discriminate]. cbv zeta in H.
  destruct (merge (length (List.concat (ms ++ [c_bases c]))) (ms ++ [c_bases c])) as [m|] eqn:M; [|discriminate].
  injection H as <-. destruct (all_mros_spec _ _ _ A) as [A1 A2]. destruct (merge_spec _ _ _ M) as [M1 [M2 M3]].
  exists m. split; [reflexivity|]. split; [exact E|]. split; [|split; [|split; [exact M3|]]].
  - intros b Hb. split; [exact (A1 _ Hb)|]. apply M1. apply in_or_app. left. apply A2. exists b. auto.
  - apply M1. apply in_or_app. right. left. reflexivity.
  - intros x Hx. destruct (M2 _ Hx) as [l [Hl Hxl]]. apply in_app_or in Hl as [Hl|[<-|[]]]; [|left; exact Hxl].
    right. apply A2 in Hl as [b [Hb ->]]. exists b. auto.
Qed.

Lemma get_cons_other : forall t c m n, c_name c <> n -> get ((c, m) :: t) n = get t n.
Proof.
  intros t c m n H. unfold get. cbn. destruct (String.eqb (c_name c) n) eqn:E; [apply String.eqb_eq in E; contradiction|reflexivity].
Qed.
Lemma mro_cons_other : forall t c m n, c_name c <> n -> mro ((c, m) :: t) n = mro t n.
Proof. intros. unfold mro. rewrite get_cons_other by assumption. reflexivity. Qed.
Lemma mro_cons_same : forall t c m, mro ((c, m) :: t) (c_name c) = m.
Proof. intros. unfold mro, get. cbn. rewrite String.eqb_refl. reflexivity. Qed.

Lemma wft_mro : forall t, wft t -> forall n, In n (names t) -> exists c, In (c, mro t n) t /\ c_name c = n.
Proof.
  intros t W n H. apply get_name in H as [[c m] G]. exists c. unfold mro. rewrite G.
  apply get_in in G as [G1 G2]. auto.
Qed.

Lemma wft_define : forall t c t', wft t -> define t c = Some t' -> wft t'.
Proof.
  intros t c t' W H. destruct (define_spec _ _ _ H) as [m [-> [Hn [Hb [Hs [Nm Hx]]]]]].
  assert (Hin : forall x, In x m -> In x (names t)).
  { intros x Hx'. destruct (Hx _ Hx') as [Hx2|[b [Hb2 Hx2]]]; [apply (Hb _ Hx2)|].
    destruct (wft_mro _ W b (proj1 (Hb _ Hb2))) as [cb [Hcb _]]. exact (proj1 (proj2 (proj2 (w_class _ W _ _ Hcb))) _ Hx2). }
  assert (Hne : forall x, In x (names t) -> c_name c <> x) by (intros x Hx' <-; contradiction).
  constructor.
  - cbn. constructor; [exact Hn|exact (w_nodup _ W)].
  - intros c1 m1 [E|H1].
    + injection E as <- <-. split; [eexists; reflexivity|]. split; [|split; [|split; [|split; [|split]]]].
      * constructor; [|exact Nm]. intro Hc. apply Hin in Hc. contradiction.
      * intros x [<-|Hx']; [left; reflexivity|right; exact (Hin _ Hx')].
      * intros x [<-|Hx']; [rewrite mro_cons_same; apply Sub_refl|].
        rewrite mro_cons_other by (apply Hne; auto). apply Sub_skip.
        destruct (Hx _ Hx') as [Hx2|[b [Hb2 Hx2]]]; [apply (Hb _ Hx2)|].
        destruct (Hb _ Hb2) as [Hb3 Hb4]. apply (Sub_trans _ _ Hb4).
        destruct (wft_mro _ W b Hb3) as [cb [Hcb _]].
        exact (proj1 (proj2 (proj2 (proj2 (w_class _ W _ _ Hcb)))) _ Hx2).
      * apply Sub_skip. exact Hs.
      * intros b Hb'. right. apply (Hb _ Hb').
      * intros x [<-|Hx']; [left; reflexivity|right].
        destruct (Hx _ Hx') as [Hx2|[b [Hb2 Hx2]]].
        -- exists x. split; [exact Hx2|]. rewrite mro_cons_other by (apply Hne; apply (Hb _ Hx2)).
           destruct (wft_mro _ W x (proj1 (Hb _ Hx2))) as [cb [Hcb Ecb]].
           destruct (w_class _ W _ _ Hcb) as [[r Er] _]. rewrite Er, Ecb. left. reflexivity.
        -- exists b. split; [exact Hb2|]. rewrite mro_cons_other by (apply Hne; apply (Hb _ Hb2)). exact Hx2.
    + destruct (w_class _ W _ _ H1) as [P1 [P2 [P3 [P4 [P5 [P6 P7]]]]]].
      split; [exact P1|]. split; [exact P2|]. split; [intros x Hx'; right; auto|].
      split; [|split; [exact P5|split; [intros b Hb'; right; auto|]]].
      * intros x Hx'. rewrite mro_cons_other by (apply Hne; auto). auto.
      * intros x Hx'. destruct (P7 _ Hx') as [E|[b [Hb1 Hb2]]]; [left; exact E|right].
        exists b. split; [exact Hb1|]. rewrite mro_cons_other by (apply Hne; auto). exact Hb2.
Qed.

Lemma wft_define_all : forall l t t', wft t -> define_all t l = Some t' -> wft t'.
Proof.
  induction l; intros t t' W H; cbn in H; [injection H as <-; exact W|].
  destruct (define t a) as [t1|] eqn:D; [|discriminate]. exact (IHl _ _ (wft_define _ _ _ W D) H).
Qed.

Lemma wft_object : wft object_tab.
Proof.
  constructor.
  - cbn. constructor; [intros []|constructor].
  - intros c m [E|[]]. injection E as <- <-. cbn.
    split; [eexists; reflexivity|]. split; [constructor; [intros []|constructor]|].
    split; [auto|]. split; [intros x [<-|[]]; apply Sub_refl|]. split; [constructor|].
    split; [intros b []|]. intros x [<-|[]]. left. reflexivity.
Qed.
Lemma repo_defined : define_all object_tab repo_classes = Some repo_tab.
Proof. vm_compute. reflexivity. Qed.
Lemma wft_repo : wft repo_tab.
Proof. exact (wft_define_all _ _ _ wft_object repo_defined). Qed.
Lemma wft_accepted : forall l t, accepted l t -> wft t.
Proof. intros l t H. exact (wft_define_all _ _ _ wft_repo H). Qed.

(** The classes of the repository stay what they are. *)
Lemma define_all_keeps : forall l t t', wft t -> define_all t l = Some t' ->
  forall n, In n (names t) -> get t' n = get t n.
Proof.
  induction l; intros t t' W H n Hn; cbn in H; [injection H as <-; reflexivity|].
  destruct (define t a) as [t1|] eqn:D; [|discriminate].
  assert (W1 := wft_define _ _ _ W D). destruct (define_spec _ _ _ D) as [m [-> [Hf _]]].
  rewrite (IHl _ _ W1 H) by (right; exact Hn). apply get_cons_other. intros <-. contradiction.
Qed.
Lemma keeps : forall l t n, accepted l t -> In n (names repo_tab) -> get t n = get repo_tab n.
Proof. intros l t n H Hn. exact (define_all_keeps _ _ _ wft_repo H _ Hn). Qed.

(** Classes are those of the repository and the new ones. *)
Lemma define_all_in : forall l t t' c m, define_all t l = Some t' -> In (c, m) t' -> In (c, m) t \/ In c l.
Proof.
  induction l; intros t t' c m H Hi; cbn in H; [injection H as <-; left; exact Hi|].
  destruct (define t a) as [t1|] eqn:D; [|discriminate]. destruct (define_spec _ _ _ D) as [m1 [-> _]].
  destruct (IHl _ _ _ _ H Hi) as [[E|Hx]|Hx]; [injection E as <- <-; right; left; reflexivity|left; exact Hx|right; right; exact Hx].
Qed.

(** *** Ancestors *)

Lemma anc_in_mro : forall t, wft t -> forall a b, anc t a b -> In b (mro t a).
Proof.
  intros t W a b H. induction H.
  - assert (G := in_get _ _ (w_nodup _ W) H). cbn in G. unfold mro. rewrite G.
    destruct (w_class _ W _ _ H) as [[r ->] _]. left. reflexivity.
  - assert (G := in_get _ _ (w_nodup _ W) H). cbn in G. unfold mro at 1. rewrite G.
    destruct (w_class _ W _ _ H) as [_ [_ [_ [P4 [P5 _]]]]].
    exact (Sub_in _ _ (P4 _ (Sub_in _ _ P5 _ H0)) _ IHanc).
Qed.

Lemma anc_more : forall t t' a b, (forall e, In e t -> In e t') -> anc t a b -> anc t' a b.
Proof.
  intros t t' a b I H. induction H.
  - exact (anc_refl _ _ _ (I _ H)).
  - exact (anc_base _ _ _ _ _ (I _ H) H0 IHanc).
Qed.

Lemma mro_is_anc_define : forall l t t', wft t -> (forall c m x, In (c, m) t -> In x m -> anc t (c_name c) x) ->
  define_all t l = Some t' -> forall c m x, In (c, m) t' -> In x m -> anc t' (c_name c) x.
Proof.
  induction l; intros t t' W Q H c m x; cbn in H; [injection H as <-; apply Q|].
  destruct (define t a) as [t1|] eqn:D; [|discriminate].
  assert (W1 := wft_define _ _ _ W D). apply (IHl t1); [exact W1| |exact H].
  clear c m x. destruct (define_spec _ _ _ D) as [m1 [-> [Hn [Hb _]]]].
  intros c m x [E|Hi] Hx.
  - injection E as <- <-. assert (Hi : In (a, c_name a :: m1) ((a, c_name a :: m1) :: t)) by (left; reflexivity).
    destruct (w_class _ W1 _ _ Hi) as [_ [_ [_ [_ [_ [_ P7]]]]]].
    destruct (P7 _ Hx) as [->|[b [Hb1 Hb2]]]; [exact (anc_refl _ _ _ Hi)|].
    apply (anc_base _ _ _ b _ Hi Hb1). destruct (Hb _ Hb1) as [Hb3 _].
    rewrite mro_cons_other in Hb2 by (intros <-; contradiction).
    destruct (wft_mro _ W _ Hb3) as [cb [Hcb <-]].
    apply (anc_more t); [intros e He; right; exact He|]. exact (Q _ _ _ Hcb Hb2).
  - apply (anc_more t); [intros e He; right; exact He|]. exact (Q _ _ _ Hi Hx).
Qed.

Lemma mro_is_anc : forall l t c m x, accepted l t -> In (c, m) t -> In x m -> anc t (c_name c) x.
Proof.
  intros l t c m x H. apply (mro_is_anc_define l repo_tab); [exact wft_repo| |exact H].
  apply (mro_is_anc_define repo_classes object_tab); [exact wft_object| |exact repo_defined].
  intros c1 m1 x1 [E|[]] Hx. injection E as <- <-. destruct Hx as [<-|[]].
  exact (anc_refl object_tab c_object _ (or_introl eq_refl)).
Qed.

(** *** super() *)

Lemma wft_nodup_mro : forall t n, wft t -> NoDup (mro t n).
Proof.
  intros t n W. unfold mro. destruct (get t n) as [[c m]|] eqn:G; [|constructor].
  apply get_in in G as [G _]. exact (proj1 (proj2 (w_class _ W _ _ G))).
Qed.
Lemma wft_sub : forall t n x, wft t -> In x (mro t n) -> Sub (mro t x) (mro t n).
Proof.
  intros t n x W H. unfold mro at 2. unfold mro in H. destruct (get t n) as [[c m]|] eqn:G; [|destruct H].
  apply get_in in G as [G _]. exact (proj1 (proj2 (proj2 (proj2 (w_class _ W _ _ G)))) _ H).
Qed.
Lemma wft_in_names : forall t n x, wft t -> In x (mro t n) -> In x (names t).
Proof.
  intros t n x W H. unfold mro in H. destruct (get t n) as [[c m]|] eqn:G; [|destruct H].
  apply get_in in G as [G _]. exact (proj1 (proj2 (proj2 (w_class _ W _ _ G))) _ H).
Qed.
Lemma keeps_mro : forall l t n, accepted l t -> In n (names repo_tab) -> mro t n = mro repo_tab n.
Proof. intros l t n H Hn. unfold mro. rewrite (keeps _ _ _ H Hn). reflexivity. Qed.
Lemma keeps_defines : forall l t n a, accepted l t -> In n (names repo_tab) -> defines t n a = defines repo_tab n a.
Proof. intros l t n a H Hn. unfold defines. rewrite (keeps _ _ _ H Hn). reflexivity. Qed.
Lemma keeps_supers : forall l t n a, accepted l t -> In n (names repo_tab) -> supers_of t n a = supers_of repo_tab n a.
Proof. intros l t n a H Hn. unfold supers_of. rewrite (keeps _ _ _ H Hn). reflexivity. Qed.

Lemma repo_in_names : forall c, In c repo_classes -> In (c_name c) (names repo_tab).
Proof.
  intros c H. assert (E : forallb (fun c => memb (c_name c) (names repo_tab)) repo_classes = true) by (vm_compute; reflexivity).
  rewrite forallb_forall in E. apply memb_in. exact (E _ H).
Qed.

(** The check on the repository's own classes. *)
Definition found_in_own (c : cls) : bool :=
  forallb (fun x => let k := fst (snd x) in let a := snd (snd x) in
    memb k (mro repo_tab (c_name c)) &&
    existsb (fun n => defines repo_tab n a) (after k (mro repo_tab (c_name c)))) (c_supers c).
Lemma repo_found : forallb found_in_own repo_classes = true.
Proof. vm_compute. reflexivity. Qed.

Lemma lookup_first : forall t m a, (exists n, In n m /\ defines t n a = true) ->
  exists x p q, lookup t m a = Some x /\ m = p ++ x :: q /\ defines t x a = true /\ forall y, In y p -> defines t y a = false.
Proof.
  intros t. induction m as [|y m IH]; intros a [n [Hn Hd]]; [destruct Hn|]. cbn.
  destruct (defines t y a) eqn:E.
  - exists y, [], m. repeat split; [exact E|intros z []].
  - destruct Hn as [->|Hn]; [congruence|].
    destruct (IH a (ex_intro _ n (conj Hn Hd))) as [x [p [q [H1 [H2 [H3 H4]]]]]].
    exists x, (y :: p), q. split; [exact H1|]. split; [rewrite H2; reflexivity|]. split; [exact H3|].
    intros z [<-|Hz]; [exact E|exact (H4 _ Hz)].
Qed.

Lemma super_found : forall l t d c meth k a,
  accepted l t -> In c repo_classes -> In (c_name c) (mro t d) -> In (meth, (k, a)) (c_supers c) ->
  exists x p q r, super_get t d k a = Some x /\ mro t d = r ++ k :: p ++ x :: q /\ defines t x a = true /\
    forall y, In y p -> defines t y a = false.
Proof.
  intros l t d c meth k a H Hc Hd Hs. assert (W := wft_accepted _ _ H).
  assert (Hr := repo_found). rewrite forallb_forall in Hr. specialize (Hr _ Hc). unfold found_in_own in Hr.
  rewrite forallb_forall in Hr. specialize (Hr _ Hs). cbn [fst snd] in Hr. apply andb_prop in Hr as [Hk He].
  apply memb_in in Hk. apply existsb_exists in He as [n [Hn Hdef]].
  assert (Hnames := repo_in_names _ Hc). assert (S := wft_sub _ _ _ W Hd). rewrite (keeps_mro _ _ _ H Hnames) in S.
  assert (B := Sub_before _ _ _ _ S (after_before _ _ _ Hn)).
  assert (Hkd : In k (mro t d)) by exact (Sub_in _ _ S _ Hk).
  assert (Ha := before_after _ _ _ (wft_nodup_mro _ d W) B).
  assert (Hn2 : In n (names repo_tab)).
  { apply (wft_in_names _ (c_name c) _ wft_repo). destruct (after_before _ _ _ Hn) as [l1 [l2 [l3 ->]]].
    apply in_or_app. right. right. apply in_or_app. right. left. reflexivity. }
  destruct (lookup_first t (after k (mro t d)) a) as [x [p [q [H1 [H2 [H3 H4]]]]]].
  { exists n. split; [exact Ha|]. rewrite (keeps_defines _ _ _ _ H Hn2). exact Hdef. }
  apply in_split in Hkd as [r [r2 E]]. assert (N := wft_nodup_mro t d W). rewrite E in N.
  destruct (nodup_app_l _ _ _ N) as [N1 _]. assert (E2 : after k (mro t d) = r2) by (rewrite E; apply after_app; exact N1).
  exists x, p, q, r. split; [unfold super_get|split; [rewrite E; do 2 f_equal; congruence|split; [exact H3|exact H4]]].
  replace (memb k (mro t d)) with true; [exact H1|]. symmetry. apply memb_in. rewrite E. apply in_or_app. right. left. reflexivity.
Qed.

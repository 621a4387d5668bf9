(** Proofs about the class hierarchy: what a call runs. *)

From Coq Require Import String Bool List Lia Arith.
From Verif Require Import M_Class S_Class P_Class.
Import ListNotations.
Local Open Scope string_scope.
Local Open Scope list_scope.

Lemma upto_notin : forall r l n, In n (upto r l) -> n <> r -> exists p q, upto r l = p ++ n :: q /\ In n l.
Proof.
  intros r l n H _. assert (Hl := Sub_in _ _ (Sub_upto r l) _ H). apply in_split in H as [p [q ->]]. exists p, q. auto.
Qed.

(** Within the part up to the root, everybody but the root calls on. *)
Lemma chain_suffix : forall t d a r, NoDup (mro t d) ->
  defines t r a = true -> supers_of t r a = None ->
  (forall n, In n (upto r (mro t d)) -> n <> r -> defines t n a = true -> supers_of t n a = Some n) ->
  forall q p f, mro t d = p ++ q -> In r q -> ~ In r p -> (length q <= f)%nat ->
  match lookup t q a with None => [] | Some n => chain_from f t d a n end = filter (fun n => defines t n a) (upto r q).
Proof.
  intros t d a r N Dr Sr Hc. induction q as [|y q IH]; intros p f E Hr Hp Hf; [destruct Hr|].
  assert (Hstep : y <> r -> In r q).
  { intros Hy. destruct Hr as [Hr|Hr]; [contradiction|exact Hr]. }
  assert (Hmy : In y (upto r (mro t d))).
  { rewrite E. clear -Hp. induction p as [|x p IHp]; cbn.
    - destruct (String.eqb y r); left; reflexivity.
    - destruct (String.eqb x r) eqn:Ex; [apply String.eqb_eq in Ex; subst; exfalso; apply Hp; left; reflexivity|].
      right. apply IHp. intro; apply Hp; right; assumption. }
  cbn [lookup find upto]. unfold lookup. cbn [find]. destruct (defines t y a) eqn:Dy.
  - destruct f as [|f]; [cbn in Hf; lia|]. destruct (String.eqb y r) eqn:Ey.
    + apply String.eqb_eq in Ey. subst y. cbn. rewrite Sr, Dr. reflexivity.
    + assert (Hy : y <> r) by (intros ->; rewrite String.eqb_refl in Ey; discriminate).
      cbn [filter]. rewrite Dy. cbn [chain_from]. rewrite (Hc _ Hmy Hy Dy).
      unfold super_get. replace (memb y (mro t d)) with true
        by (symmetry; apply memb_in; rewrite E; apply in_or_app; right; left; reflexivity).
      assert (Ha : after y (mro t d) = q).
      { rewrite E in *. apply after_app. exact (proj1 (nodup_app_l _ _ _ N)). }
      rewrite Ha. f_equal. apply (IH (p ++ [y])).
      * rewrite E, <- app_assoc. reflexivity.
      * exact (Hstep Hy).
      * intro Hx. apply in_app_or in Hx as [Hx|[Hx|[]]]; [exact (Hp Hx)|exact (Hy Hx)].
      * cbn in Hf. lia.
  - assert (Hy : y <> r) by (intros ->; congruence).
    destruct (String.eqb y r) eqn:Ey; [apply String.eqb_eq in Ey; contradiction|].
    cbn [filter]. rewrite Dy. apply (IH (p ++ [y])).
    + rewrite E, <- app_assoc. reflexivity.
    + exact (Hstep Hy).
    + intro Hx. apply in_app_or in Hx as [Hx|[Hx|[]]]; [exact (Hp Hx)|exact (Hy Hx)].
    + cbn in Hf. lia.
Qed.

Lemma chain_upto : forall t d a r, NoDup (mro t d) -> In r (mro t d) ->
  defines t r a = true -> supers_of t r a = None ->
  (forall n, In n (upto r (mro t d)) -> n <> r -> defines t n a = true -> supers_of t n a = Some n) ->
  chain t d a = filter (fun n => defines t n a) (upto r (mro t d)).
Proof.
  intros t d a r N Hr Dr Sr Hc. unfold chain.
  apply (chain_suffix t d a r N Dr Sr Hc (mro t d) []); [reflexivity|exact Hr|intros []|lia].
Qed.

Lemma in_upto_before : forall r l n, In r l -> In n (upto r l) -> n <> r -> before l n r.
Proof.
  induction l as [|y l IH]; intros n Hr Hn Hne; [destruct Hr|]. cbn in Hn. destruct (String.eqb y r) eqn:E.
  - destruct Hn as [<-|[]]. apply String.eqb_eq in E. contradiction.
  - destruct Hr as [->|Hr]; [rewrite String.eqb_refl in E; discriminate|].
    destruct Hn as [->|Hn].
    + apply in_split in Hr as [p [q ->]]. exists [], p, q. reflexivity.
    + destruct (IH _ Hr Hn Hne) as [p1 [p2 [p3 ->]]]. exists (y :: p1), p2, p3. reflexivity.
Qed.
Lemma before_in_upto : forall l n r, NoDup l -> before l n r -> In n (upto r l).
Proof.
  intros l n r N [p1 [p2 [p3 ->]]]. induction p1 as [|y p1 IH]; cbn.
  - destruct (String.eqb n r); left; reflexivity.
  - inversion N as [|y0 l0 Hy N2]; subst. destruct (String.eqb y r) eqn:E; [|right; exact (IH N2)].
    apply String.eqb_eq in E. subst. exfalso. apply Hy. apply in_or_app. right. right. apply in_or_app. right. left. reflexivity.
Qed.
Lemma before_asym : forall l a b, NoDup l -> before l a b -> before l b a -> False.
Proof.
  induction l as [|y l IH]; intros a b N [p1 [p2 [p3 E1]]] [q1 [q2 [q3 E2]]]; [destruct p1; discriminate|].
  inversion N as [|y0 l0 Hy N2]; subst y0 l0.
  destruct p1 as [|z p1]; cbn in E1; injection E1 as E1a E1.
  - subst y. destruct q1 as [|w q1]; cbn in E2; injection E2 as E2a E2.
    + subst. apply Hy. apply in_or_app. right. left. reflexivity.
    + apply Hy. rewrite E2. apply in_or_app. right. right. apply in_or_app. right. left. reflexivity.
  - subst z. destruct q1 as [|w q1]; cbn in E2; injection E2 as E2a E2.
    + subst y. apply Hy. rewrite E1. apply in_or_app. right. right. apply in_or_app. right. left. reflexivity.
    + apply (IH a b N2); [exists p1, p2, p3; exact E1|exists q1, q2, q3; exact E2].
Qed.

(** The check on the repository's own classes. *)
Definition root_ok (a r : string) : bool :=
  memb r (names repo_tab) && defines repo_tab r a && match supers_of repo_tab r a with None => true | Some _ => false end &&
  forallb (fun e => let n := c_name (fst e) in
    String.eqb n r || String.eqb n "Barrier" || String.eqb n "Chunk" || memb n (tl (mro repo_tab r)) ||
    negb (defines repo_tab n a) ||
    match supers_of repo_tab n a with Some k => String.eqb k n | None => false end) repo_tab.
Lemma ro_init : root_ok "__init__" "Channel" = true.
Proof. vm_compute. reflexivity. Qed.
Lemma ro_send : root_ok "send" "Channel" = true.
Proof. vm_compute. reflexivity. Qed.
Lemma ro_close : root_ok "close" "Channel" = true.
Proof. vm_compute. reflexivity. Qed.
Lemma ro_recv : root_ok "recv" "OpenflowBaseChannel" = true.
Proof. vm_compute. reflexivity. Qed.
Lemma ro_proxy : root_ok "handle_proxy" "OpenflowServerChannel" = true.
Proof. vm_compute. reflexivity. Qed.
Lemma root_of_ok : forall a r, root_of a = Some r -> root_ok a r = true.
Proof.
  intros a r H. unfold root_of in H.
  destruct (String.eqb a "__init__") eqn:E1; [apply String.eqb_eq in E1; injection H as <-; subst a; exact ro_init|].
  destruct (String.eqb a "send") eqn:E2; [apply String.eqb_eq in E2; injection H as <-; subst a; exact ro_send|].
  destruct (String.eqb a "close") eqn:E3; [apply String.eqb_eq in E3; injection H as <-; subst a; exact ro_close|].
  destruct (String.eqb a "recv") eqn:E4; [apply String.eqb_eq in E4; injection H as <-; subst a; exact ro_recv|].
  destruct (String.eqb a "handle_proxy") eqn:E5; [apply String.eqb_eq in E5; injection H as <-; subst a; exact ro_proxy|].
  discriminate.
Qed.

Lemma supers_coop : forall t n a c m, get t n = Some (c, m) -> In a (c_attrs c) -> cooperative a c -> supers_of t n a = Some n.
Proof.
  intros t n a c m G Ha Hc. assert (Hn := proj2 (get_in _ _ _ G)). cbn in Hn. unfold supers_of. rewrite G.
  destruct (find _ (c_supers c)) as [[a1 [k a2]]|] eqn:F; cbn.
  - apply find_some in F as [F1 F2]. cbn in F2. apply andb_prop in F2 as [E1 E2].
    apply String.eqb_eq in E1. apply String.eqb_eq in E2. subst a1 a2. apply (Hc Ha) in F1. congruence.
  - exfalso. assert (Hin := proj2 (Hc Ha (c_name c)) eq_refl).
    apply (find_none _ _ F) in Hin. cbn in Hin. rewrite !String.eqb_refl in Hin. discriminate.
Qed.

Theorem chain_is : forall l t d a r, accepted l t -> root_of a = Some r -> In r (mro t d) -> no_element t d ->
  Forall (cooperative a) l -> chain t d a = filter (fun n => defines t n a) (upto r (mro t d)).
Proof.
  intros l t d a r H Hr Hin [NB NC] Hl. assert (W := wft_accepted _ _ H). assert (N := wft_nodup_mro t d W).
  assert (R := root_of_ok _ _ Hr). unfold root_ok in R. apply andb_prop in R as [R R4]. apply andb_prop in R as [R R3].
  apply andb_prop in R as [R1 R2]. apply memb_in in R1.
  apply chain_upto; [exact N|exact Hin| | |].
  - rewrite (keeps_defines _ _ _ _ H R1). exact R2.
  - rewrite (keeps_supers _ _ _ _ H R1). destruct (supers_of repo_tab r a); [discriminate|reflexivity].
  - intros n Hn Hne Hd. assert (Hb := in_upto_before _ _ _ Hin Hn Hne).
    assert (Hnm := Sub_in _ _ (Sub_upto r (mro t d)) _ Hn).
    assert (Hnames := wft_in_names _ _ _ W Hnm). apply get_name in Hnames as [[c m] G].
    destruct (get_in _ _ _ G) as [G1 G2]. cbn in G2.
    destruct (define_all_in _ _ _ _ _ H G1) as [Hrep|Huser].
    + rewrite forallb_forall in R4. specialize (R4 _ Hrep). cbn [fst snd] in R4. rewrite G2 in R4. cbv zeta in R4.
      assert (Hrn : In n (names repo_tab)).
      { rewrite <- G2. apply (in_map (fun e => c_name (fst e)) _ _ Hrep). }
      rewrite (keeps_defines _ _ _ _ H Hrn) in Hd. rewrite (keeps_supers _ _ _ _ H Hrn). rewrite Hd in R4. cbn [negb] in R4.
      destruct (supers_of repo_tab n a) as [k|] eqn:S.
      * destruct (String.eqb k n) eqn:E; [apply String.eqb_eq in E; congruence|]. exfalso.
        rewrite !orb_false_r in R4. rewrite !orb_true_iff in R4.
        destruct R4 as [[[R4|R4]|R4]|R4]; try (apply String.eqb_eq in R4; subst; contradiction).
        apply memb_in in R4. apply (before_asym _ _ _ N Hb). apply (Sub_before (mro t r)); [exact (wft_sub _ _ _ W Hin)|].
        rewrite (keeps_mro _ _ _ H R1). destruct (wft_mro _ wft_repo _ R1) as [cr [Hcr Ecr]].
        destruct (w_class _ wft_repo _ _ Hcr) as [[rr Err] _]. rewrite Err in *. cbn in R4. rewrite Ecr.
        apply in_split in R4 as [q1 [q2 ->]]. exists [], q1, q2. reflexivity.
      * exfalso.
        rewrite !orb_false_r in R4. rewrite !orb_true_iff in R4.
        destruct R4 as [[[R4|R4]|R4]|R4]; try (apply String.eqb_eq in R4; subst; contradiction).
        apply memb_in in R4. apply (before_asym _ _ _ N Hb). apply (Sub_before (mro t r)); [exact (wft_sub _ _ _ W Hin)|].
        rewrite (keeps_mro _ _ _ H R1). destruct (wft_mro _ wft_repo _ R1) as [cr [Hcr Ecr]].
        destruct (w_class _ wft_repo _ _ Hcr) as [[rr Err] _]. rewrite Err in *. cbn in R4. rewrite Ecr.
        apply in_split in R4 as [q1 [q2 ->]]. exists [], q1, q2. reflexivity.
    + rewrite Forall_forall in Hl. specialize (Hl _ Huser). unfold defines in Hd. rewrite G in Hd. apply memb_in in Hd.
      exact (supers_coop _ _ _ _ _ G Hd Hl).
Qed.

(** A class of the repository that extends the method takes part, once. *)
Definition below_root (a r : string) : bool :=
  forallb (fun c => let n := c_name c in
    negb (defines repo_tab n a) || String.eqb n "Barrier" || String.eqb n "Chunk" || String.eqb n r ||
    memb r (tl (mro repo_tab n))) repo_classes.
Lemma br_init : below_root "__init__" "Channel" = true.
Proof. vm_compute. reflexivity. Qed.
Lemma br_send : below_root "send" "Channel" = true.
Proof. vm_compute. reflexivity. Qed.
Lemma br_close : below_root "close" "Channel" = true.
Proof. vm_compute. reflexivity. Qed.
Lemma br_recv : below_root "recv" "OpenflowBaseChannel" = true.
Proof. vm_compute. reflexivity. Qed.
Lemma br_proxy : below_root "handle_proxy" "OpenflowServerChannel" = true.
Proof. vm_compute. reflexivity. Qed.
Lemma root_below : forall a r, root_of a = Some r -> below_root a r = true.
Proof.
  intros a r H. unfold root_of in H.
  destruct (String.eqb a "__init__") eqn:E1; [apply String.eqb_eq in E1; injection H as <-; subst a; exact br_init|].
  destruct (String.eqb a "send") eqn:E2; [apply String.eqb_eq in E2; injection H as <-; subst a; exact br_send|].
  destruct (String.eqb a "close") eqn:E3; [apply String.eqb_eq in E3; injection H as <-; subst a; exact br_close|].
  destruct (String.eqb a "recv") eqn:E4; [apply String.eqb_eq in E4; injection H as <-; subst a; exact br_recv|].
  destruct (String.eqb a "handle_proxy") eqn:E5; [apply String.eqb_eq in E5; injection H as <-; subst a; exact br_proxy|].
  discriminate.
Qed.

Lemma in_upto_root : forall l r, In r l -> In r (upto r l).
Proof.
  induction l as [|y l IH]; intros r H; [destruct H|]. cbn. destruct (String.eqb y r) eqn:E.
  - apply String.eqb_eq in E. left. exact E.
  - destruct H as [->|H]; [rewrite String.eqb_refl in E; discriminate|]. right. exact (IH _ H).
Qed.

Theorem takes_part : forall l t d a r c, accepted l t -> root_of a = Some r -> no_element t d ->
  Forall (cooperative a) l -> In c repo_classes -> In a (c_attrs c) -> In (c_name c) (mro t d) ->
  count_occ string_dec (chain t d a) (c_name c) = 1.
Proof.
  intros l t d a r c H Hr [NB NC] Hl Hc Ha Hd. assert (W := wft_accepted _ _ H). assert (N := wft_nodup_mro t d W).
  assert (B := root_below _ _ Hr). unfold below_root in B. rewrite forallb_forall in B. specialize (B _ Hc). cbv zeta in B.
  assert (Hn := repo_in_names _ Hc).
  assert (Hdef : defines repo_tab (c_name c) a = true).
  { apply get_name in Hn as [[c1 m1] G]. unfold defines. rewrite G. apply memb_in. apply get_in in G as [G1 G2]. cbn in G2.
    assert (U : forallb (fun c => match get repo_tab (c_name c) with
        Some (c1, _) => if list_eq_dec string_dec (c_attrs c1) (c_attrs c) then true else false | None => false end) repo_classes = true)
      by (vm_compute; reflexivity).
    rewrite forallb_forall in U. specialize (U _ Hc). rewrite <- G2 in U. rewrite (in_get _ _ (w_nodup _ wft_repo) G1 : get repo_tab (c_name c1) = _) in U.
    destruct (list_eq_dec string_dec (c_attrs c1) (c_attrs c)) as [->|]; [exact Ha|discriminate]. }
  rewrite Hdef in B. cbn [negb orb] in B.
  destruct (String.eqb (c_name c) "Barrier") eqn:EB; [apply String.eqb_eq in EB; rewrite EB in Hd; contradiction|].
  destruct (String.eqb (c_name c) "Chunk") eqn:EC; [apply String.eqb_eq in EC; rewrite EC in Hd; contradiction|].
  cbn [orb] in B.
  assert (S := wft_sub _ _ _ W Hd). rewrite (keeps_mro _ _ _ H Hn) in S.
  assert (Hup : In r (mro t d) /\ In (c_name c) (upto r (mro t d))).
  { destruct (String.eqb (c_name c) r) eqn:Er.
    - apply String.eqb_eq in Er. rewrite Er in *. split; [exact Hd|]. apply in_upto_root. exact Hd.
    - cbn [orb] in B. apply memb_in in B. destruct (wft_mro _ wft_repo _ Hn) as [cr [Hcr Ecr]].
      destruct (w_class _ wft_repo _ _ Hcr) as [[rr Err] _]. rewrite Err in *. rewrite Ecr in *. cbn [tl] in B.
      assert (Hb : before (c_name c :: rr) (c_name c) r).
      { apply in_split in B as [q1 [q2 ->]]. exists [], q1, q2. reflexivity. }
      assert (Hb2 := Sub_before _ _ _ _ S Hb). split; [|exact (before_in_upto _ _ _ N Hb2)].
      destruct Hb2 as [q1 [q2 [q3 ->]]]. apply in_or_app. right. right. apply in_or_app. right. left. reflexivity. }
  destruct Hup as [Hrd Hup].
  rewrite (chain_is _ _ _ _ _ H Hr Hrd (conj NB NC) Hl).
  assert (Hin : In (c_name c) (filter (fun n => defines t n a) (upto r (mro t d)))).
  { apply filter_In. split; [exact Hup|]. rewrite (keeps_defines _ _ _ _ H Hn). exact Hdef. }
  assert (N2 : NoDup (filter (fun n => defines t n a) (upto r (mro t d)))).
  { apply NoDup_filter. exact (Sub_nodup _ _ (Sub_upto r _) N). }
  apply NoDup_count_occ'; assumption.
Qed.

(** *** Attributes *)

Definition own_attr (c : cls) (a : string) : bool :=
  let m := mro repo_tab (c_name c) in
  existsb (fun n => defines repo_tab n a) m ||
  existsb (fun c1 => memb (c_name c1) m && memb a (c_inits c1) && memb "__init__" (c_attrs c1)) repo_classes.
Definition own_attrs (c : cls) : bool :=
  forallb (fun a => existsb (fun x => String.eqb (fst x) (c_name c) && String.eqb (snd x) a) loose_ends || own_attr c a) (c_uses c).
Lemma repo_attrs : forallb own_attrs repo_classes = true.
Proof. vm_compute. reflexivity. Qed.

Theorem attr_there : forall l t d c a, accepted l t -> no_element t d -> Forall (cooperative "__init__") l ->
  In c repo_classes -> In (c_name c) (mro t d) -> In a (c_uses c) -> ~ In (c_name c, a) loose_ends ->
  has_attr t d a = true.
Proof.
  intros l t d c a H Hne Hl Hc Hd Ha Hx. assert (W := wft_accepted _ _ H).
  assert (R := repo_attrs). rewrite forallb_forall in R. specialize (R _ Hc). unfold own_attrs in R.
  rewrite forallb_forall in R. specialize (R _ Ha). apply orb_prop in R as [R|R].
  { exfalso. apply existsb_exists in R as [[x1 x2] [Hi He]]. cbn [fst snd] in He. apply andb_prop in He as [E1 E2].
    apply String.eqb_eq in E1. apply String.eqb_eq in E2. subst. exact (Hx Hi). }
  assert (Hn := repo_in_names _ Hc). assert (S := wft_sub _ _ _ W Hd). rewrite (keeps_mro _ _ _ H Hn) in S.
  unfold own_attr in R. cbv zeta in R. unfold has_attr. apply orb_true_iff. apply orb_prop in R as [R|R].
  - left. apply existsb_exists in R as [n [Hn1 Hn2]]. apply existsb_exists. exists n. split; [exact (Sub_in _ _ S _ Hn1)|].
    rewrite (keeps_defines _ _ _ _ H); [exact Hn2|]. exact (wft_in_names _ _ _ wft_repo Hn1).
  - right. apply existsb_exists in R as [c1 [Hc1 Hb]]. apply andb_prop in Hb as [Hb Hb3]. apply andb_prop in Hb as [Hb1 Hb2].
    apply memb_in in Hb1. apply memb_in in Hb3. apply existsb_exists. exists (c_name c1).
    assert (Hr : root_of "__init__" = Some "Channel") by reflexivity.
    assert (K := takes_part _ _ _ _ _ _ H Hr Hne Hl Hc1 Hb3 (Sub_in _ _ S _ Hb1)). split.
    + apply (count_occ_In string_dec). rewrite K. lia.
    + assert (Hn1 := repo_in_names _ Hc1). rewrite (keeps _ _ _ H Hn1).
      assert (U : forallb (fun c => match get repo_tab (c_name c) with
        Some (c1, _) => if list_eq_dec string_dec (c_inits c1) (c_inits c) then true else false | None => false end) repo_classes = true)
        by (vm_compute; reflexivity).
      rewrite forallb_forall in U. specialize (U _ Hc1). destruct (get repo_tab (c_name c1)) as [[c2 m2]|]; [|discriminate].
      destruct (list_eq_dec string_dec (c_inits c2) (c_inits c1)) as [->|]; [exact Hb2|discriminate].
Qed.

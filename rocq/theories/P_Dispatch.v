(** Proofs about dispatching and sending in classes that combine several of the channel classes. *)

From Coq Require Import String Bool List Lia ZArith.
From Verif Require Import Py M_Hello M_Controller M_Class M_Dispatch S_Class P_Class P_Class2.
Import ListNotations.
Local Open Scope string_scope.
Local Open Scope list_scope.

(** *** The classes with a handle_proxy *)

Definition mixin (c : string) : Prop := c = "AutoEchoChannel" \/ c = "ControllerChannel" \/ c = "ParallelChannel".

Lemma mixin_def : forall n, In n (names repo_tab) -> defines repo_tab n "handle_proxy" = true ->
  mixin n \/ n = "OpenflowServerChannel".
Proof.
  intros n Hn Hd.
  assert (E : forallb (fun n => negb (defines repo_tab n "handle_proxy") || String.eqb n "AutoEchoChannel" ||
    String.eqb n "ControllerChannel" || String.eqb n "ParallelChannel" || String.eqb n "OpenflowServerChannel") (names repo_tab) = true)
    by (vm_compute; reflexivity).
  rewrite forallb_forall in E. specialize (E _ Hn). rewrite Hd in E. cbn [negb orb] in E. rewrite !orb_true_iff in E.
  unfold mixin. destruct E as [[[E|E]|E]|E]; apply String.eqb_eq in E; auto.
Qed.

Lemma no_override_coop : forall a l, no_override a l -> Forall (cooperative a) l.
Proof. intros a l H. unfold no_override in H. rewrite Forall_forall in *. intros c Hc Ha. exfalso. exact (H _ Hc Ha). Qed.

Lemma upto_root_split : forall r l, In r l -> exists p, upto r l = p ++ [r] /\ ~ In r p.
Proof.
  induction l as [|y l IH]; intros H; [destruct H|]. cbn. destruct (String.eqb y r) eqn:E.
  - apply String.eqb_eq in E. subst. exists []. split; [reflexivity|intros []].
  - destruct H as [->|H]; [rewrite String.eqb_refl in E; discriminate|].
    destruct (IH H) as [p [-> Hp]]. exists (y :: p). split; [reflexivity|].
    intros [->|Hx]; [rewrite String.eqb_refl in E; discriminate|exact (Hp Hx)].
Qed.

Lemma repo_defines : forall l t n a, accepted l t -> no_override a l -> In n (names t) -> defines t n a = true ->
  In n (names repo_tab) /\ defines repo_tab n a = true.
Proof.
  intros l t n a H Hno Hn Hd. assert (G := proj2 (get_name t n) Hn). destruct G as [[c m] G].
  destruct (get_in _ _ _ G) as [G1 G2]. cbn in G2. unfold defines in Hd. rewrite G in Hd. apply memb_in in Hd.
  destruct (define_all_in _ _ _ _ _ H G1) as [Hr|Hu].
  - assert (Hrn : In n (names repo_tab)) by (rewrite <- G2; exact (in_map (fun e => c_name (fst e)) _ _ Hr)).
    split; [exact Hrn|]. unfold defines. rewrite <- (keeps _ _ _ H Hrn), G. apply memb_in. exact Hd.
  - exfalso. unfold no_override in Hno. rewrite Forall_forall in Hno. exact (Hno _ Hu Hd).
Qed.

(** Order is kept by [filter] and [upto]. *)
Lemma filter_before : forall f l a b, before l a b -> f a = true -> f b = true -> before (filter f l) a b.
Proof.
  intros f l a b [p1 [p2 [p3 ->]]] Fa Fb. exists (filter f p1), (filter f p2), (filter f p3).
  rewrite filter_app. cbn. rewrite Fa, filter_app. cbn. rewrite Fb. reflexivity.
Qed.
Lemma upto_before : forall r l a b, NoDup l -> before l a b -> before l b r -> before (upto r l) a b.
Proof.
  intros r l a b N [p1 [p2 [p3 E]]] Hb. assert (Hi := before_in_upto _ _ _ N Hb). subst l.
  assert (Hr : ~ In r (p1 ++ a :: p2)).
  { intro Hr. apply (before_asym _ _ _ N Hb). apply in_split in Hr as [q1 [q2 Eq]].
    exists q1, q2, p3. change (p1 ++ a :: p2 ++ b :: p3) with (p1 ++ (a :: p2) ++ b :: p3). rewrite app_assoc, Eq, <- app_assoc. reflexivity. }
  assert (U : forall p q, ~ In r p -> upto r (p ++ q) = p ++ upto r q).
  { induction p as [|x p IHp]; intros q Hp; [reflexivity|]. cbn.
    destruct (String.eqb x r) eqn:Ex; [apply String.eqb_eq in Ex; subst; exfalso; apply Hp; left; reflexivity|].
    f_equal. apply IHp. intro; apply Hp; right; assumption. }
  change (p1 ++ a :: p2 ++ b :: p3) with (p1 ++ (a :: p2) ++ b :: p3). rewrite app_assoc, (U _ _ Hr).
  cbn [upto]. destruct (String.eqb b r); [exists p1, p2, []|exists p1, p2, (upto r p3)]; rewrite <- app_assoc; reflexivity.
Qed.

(** The shape of the chain. *)
Lemma proxy_chain : forall l t d, accepted l t -> no_override "handle_proxy" l ->
  In "OpenflowServerChannel" (mro t d) -> no_element t d ->
  exists cs, chain t d "handle_proxy" = cs ++ ["OpenflowServerChannel"] /\ Forall mixin cs /\ NoDup cs /\
    (forall c, mixin c -> (In c cs <-> In c (mro t d))) /\
    (forall a b, mixin a -> mixin b -> before (mro t d) a b -> before cs a b).
Proof.
  intros l t d H Hno Hin Hne. assert (W := wft_accepted _ _ H). assert (N := wft_nodup_mro t d W).
  assert (Hr : root_of "handle_proxy" = Some "OpenflowServerChannel") by reflexivity.
  rewrite (chain_is _ _ _ _ _ H Hr Hin Hne (no_override_coop _ _ Hno)).
  destruct (upto_root_split _ _ Hin) as [p [Ep Hp]]. rewrite Ep, filter_app.
  assert (Hrn : In "OpenflowServerChannel" (names repo_tab)) by (apply memb_in; vm_compute; reflexivity).
  assert (Hd : filter (fun n => defines t n "handle_proxy") ["OpenflowServerChannel"] = ["OpenflowServerChannel"]).
  { cbn [filter]. rewrite (keeps_defines _ _ _ _ H Hrn). reflexivity. }
  rewrite Hd. exists (filter (fun n => defines t n "handle_proxy") p). split; [reflexivity|].
  assert (Hsub : Sub (upto "OpenflowServerChannel" (mro t d)) (mro t d)) by apply Sub_upto.
  assert (Np : NoDup p).
  { apply (Sub_nodup _ _ Hsub) in N. rewrite Ep in N. apply NoDup_remove_1 in N. rewrite app_nil_r in N. exact N. }
  assert (Hmix : forall c, mixin c -> In c (names repo_tab) /\ defines repo_tab c "handle_proxy" = true /\
                 In "OpenflowServerChannel" (tl (mro repo_tab c)) /\ c <> "OpenflowServerChannel").
  { intros c [->|[->| ->]]; (split; [apply memb_in; vm_compute; reflexivity|]); (split; [vm_compute; reflexivity|]);
      (split; [apply memb_in; vm_compute; reflexivity|discriminate]). }
  assert (Hbef : forall c, mixin c -> In c (mro t d) -> before (mro t d) c "OpenflowServerChannel").
  { intros c Hc Hcd. destruct (Hmix _ Hc) as [M1 [M2 [M3 M4]]].
    assert (S := wft_sub _ _ _ W Hcd). rewrite (keeps_mro _ _ _ H M1) in S. apply (Sub_before _ _ _ _ S).
    destruct (wft_mro _ wft_repo _ M1) as [cr [Hcr Ecr]]. destruct (w_class _ wft_repo _ _ Hcr) as [[rr Err] _].
    rewrite Err in *. rewrite Ecr. cbn [tl] in M3. apply in_split in M3 as [q1 [q2 ->]]. exists [], q1, q2. reflexivity. }
  split; [|split; [|split]].
  - rewrite Forall_forall. intros n Hn. apply filter_In in Hn as [Hn1 Hn2].
    assert (Hnd : In n (mro t d)).
    { apply (Sub_in _ _ Hsub). rewrite Ep. apply in_or_app. left. exact Hn1. }
    destruct (repo_defines _ _ _ _ H Hno (wft_in_names _ _ _ W Hnd) Hn2) as [R1 R2].
    destruct (mixin_def _ R1 R2) as [M| ->]; [exact M|]. contradiction.
  - apply NoDup_filter. exact Np.
  - intros c Hc. destruct (Hmix _ Hc) as [M1 [M2 [M3 M4]]]. split; intros Hx.
    + apply filter_In in Hx as [Hx _]. apply (Sub_in _ _ Hsub). rewrite Ep. apply in_or_app. left. exact Hx.
    + apply filter_In. split; [|rewrite (keeps_defines _ _ _ _ H M1); exact M2].
      assert (Hu := before_in_upto _ _ _ N (Hbef _ Hc Hx)). rewrite Ep in Hu. apply in_app_or in Hu as [Hu|[Hu|[]]]; [exact Hu|congruence].
  - intros a b Ha Hb Hab. destruct (Hmix _ Ha) as [A1 [A2 [A3 A4]]]. destruct (Hmix _ Hb) as [B1 [B2 [B3 B4]]].
    assert (Hbd : In b (mro t d)).
    { destruct Hab as [q1 [q2 [q3 ->]]]. apply in_or_app. right. right. apply in_or_app. right. left. reflexivity. }
    assert (U := upto_before _ _ _ _ N Hab (Hbef _ Hb Hbd)). rewrite Ep in U.
    apply filter_before; [|rewrite (keeps_defines _ _ _ _ H A1); exact A2|rewrite (keeps_defines _ _ _ _ H B1); exact B2].
    destruct U as [q1 [q2 [q3 E]]]. destruct (exists_last (l := b :: q3)) as [q4 [z Ez]]; [discriminate|].
    assert (E2 : p ++ ["OpenflowServerChannel"] = (q1 ++ a :: q2 ++ q4) ++ [z]).
    { rewrite E, Ez. rewrite <- app_assoc. cbn. rewrite <- app_assoc. reflexivity. }
    apply app_inj_tail in E2 as [E2 E3]. destruct q4 as [|w q4]; cbn in Ez.
    + injection Ez as Eb _. congruence.
    + injection Ez as -> _. exists q1, q2, q4. exact E2.
Qed.

(** *** Where handlers are called *)

Section Places.
Variable has_async : bool.
Variables rate bxid : Z.
Notation prox := (proxied has_async rate bxid).

Lemma prox_osc : forall h, prox ["OpenflowServerChannel"] h = h.
Proof. reflexivity. Qed.

(** Induction over the chain. *)
Lemma prox_ind : forall (P : list string -> hfun -> Prop),
  (forall h, P [] h) ->
  (forall r h, (forall h', P r h') -> P ("AutoEchoChannel" :: r) h) ->
  (forall r h, (forall h', P r h') -> P ("ControllerChannel" :: r) h) ->
  (forall r h, (forall h', P r h') -> P ("ParallelChannel" :: r) h) ->
  forall cs, Forall mixin cs -> forall h, P cs h.
Proof.
  intros P H0 HA HC HP. induction cs as [|c cs IH]; intros F h; [apply H0|].
  inversion F as [|c0 cs0 Hc Fcs]; subst. specialize (IH Fcs). destruct Hc as [->|[->| ->]]; auto.
Qed.

(** Outcomes of [o] come only at the places [Q]. *)
Definition at_place (o : outcome -> Prop) (Q : place -> Prop) (h : hfun) : Prop :=
  forall s m s' p r, h s m = (s', (p, r)) -> o r -> Q p.
Definition never (o : outcome -> Prop) (h : hfun) : Prop := at_place o (fun _ => False) h.

Lemma never_at : forall o Q h, never o h -> at_place o Q h.
Proof. intros o Q h H s m s' p r E Ho. destruct (H _ _ _ _ _ E Ho). Qed.

Lemma echo_at : forall o (Q : place -> Prop) next, ~ o Swallowed -> (forall e, ~ o (FailExn e)) ->
  at_place o Q next -> at_place o Q (echo_proxy bxid next).
Proof.
  intros o Q next H1 H2 H s m s' p r E Ho. unfold echo_proxy in E. destruct m as [|b m]; [injection E as <- <- <-; contradiction|].
  destruct (parse_ofp_header (b :: m)) as [h|e]; [|injection E as <- <- <-; destruct (H2 _ Ho)].
  destruct (h_type h =? 2)%Z; [|exact (H _ _ _ _ _ E Ho)].
  destruct (packs _ _) as [q|e]; [|injection E as <- <- <-; destruct (H2 _ Ho)].
  destruct (locked_send _ _ _ _ _ _) as [s1 [u|e]]; injection E as <- <- <-; [contradiction|destruct (H2 _ Ho)].
Qed.

Lemma thread_at : forall o (Q : place -> Prop) h, (forall e, ~ o (FailExn e)) -> Q OwnThread -> Q InPool ->
  at_place o Q (in_thread rate h).
Proof.
  intros o Q h H Q1 Q2 s m s' p r E Ho. unfold in_thread in E. destruct (rate =? 0)%Z; [injection E as <- <- <-; exact Q1|].
  destruct (parse_ofp_header m) as [x|e]; [|injection E as <- <- <-; destruct (H _ Ho)].
  destruct ((h_type x =? 10) || (h_type x =? 11) || (h_type x =? 12))%Z; injection E as <- <- <-; assumption.
Qed.
Lemma thread_never : forall o h, (forall e, ~ o (FailExn e)) -> never o h -> never o (in_thread rate h).
Proof.
  intros o h H Hn s m s' p r E Ho. unfold in_thread in E. destruct (h s m) as [s1 [p1 r1]] eqn:Eh. cbn in E.
  destruct (rate =? 0)%Z; [injection E as <- <- <-; exact (Hn _ _ _ _ _ Eh Ho)|].
  destruct (parse_ofp_header m) as [x|e]; [|injection E as <- <- <-; destruct (H _ Ho)].
  destruct ((h_type x =? 10) || (h_type x =? 11) || (h_type x =? 12))%Z; injection E as <- <- <-; exact (Hn _ _ _ _ _ Eh Ho).
Qed.

Definition is_def (r : outcome) : Prop := r = ToDefault.
Definition is_asy (r : outcome) : Prop := r = ToAsync.
Definition is_cb (r : outcome) : Prop := exists f, r = ToCallback f.

Lemma handle_never_async : never is_asy h_handle.
Proof. intros s m s' p r E Ho. injection E as <- <- <-. discriminate Ho. Qed.
Lemma handle_never_cb : never is_cb h_handle.
Proof. intros s m s' p r E [f Ho]. injection E as <- <- <-. discriminate Ho. Qed.
Lemma async_never_cb : never is_cb h_async.
Proof. intros s m s' p r E [f Ho]. injection E as <- <- <-. discriminate Ho. Qed.
Lemma async_never_def : never is_def h_async.
Proof. intros s m s' p r E Ho. injection E as <- <- <-. discriminate Ho. Qed.

Lemma ctl_at : forall (o : outcome -> Prop) (Q : place -> Prop) r h,
  (forall q, o q -> Q Reader \/ is_def q \/ is_asy q) ->
  at_place o Q (prox r h) -> at_place o Q (prox r h_async) -> at_place o Q (prox ("ControllerChannel" :: r) h).
Proof.
  intros o Q r h Hq Hd Ha s m s' p q E Ho. cbn [proxied] in E. change (String.eqb "ControllerChannel" "AutoEchoChannel") with false in E.
  change (String.eqb "ControllerChannel" "ControllerChannel") with true in E. cbv beta iota in E.
  destruct (intercept has_async s m) as [s1 o1]. destruct o1; try (exact (Hd _ _ _ _ _ E Ho)); try (exact (Ha _ _ _ _ _ E Ho));
    injection E as <- <- <-; destruct (Hq _ Ho) as [K|[K|K]]; try exact K; discriminate K.
Qed.

Lemma prox_echo : forall r h, prox ("AutoEchoChannel" :: r) h = echo_proxy bxid (prox r h).
Proof. reflexivity. Qed.
Lemma prox_par : forall r h, prox ("ParallelChannel" :: r) h = prox r (in_thread rate h).
Proof. reflexivity. Qed.

Lemma def_notreader : forall q, is_def q -> q <> Swallowed /\ (forall e, q <> FailExn e).
Proof. intros q ->. split; [discriminate|intros; discriminate]. Qed.

(** Callbacks are called by the reader. *)
Lemma callbacks_reader : forall cs, Forall mixin cs -> forall h, never is_cb h -> at_place is_cb (eq Reader) (prox cs h).
Proof.
  intros cs F h. revert cs F h. apply (prox_ind (fun cs h => never is_cb h -> at_place is_cb (eq Reader) (prox cs h))).
  - intros h Hn. apply never_at. exact Hn.
  - intros r h IH Hn. rewrite prox_echo. apply echo_at; [intros [f K]; discriminate K|intros e [f K]; discriminate K|auto].
  - intros r h IH Hn. apply ctl_at; [left; reflexivity|auto|apply IH; exact async_never_cb].
  - intros r h IH Hn. rewrite prox_par. apply IH. apply thread_never; [intros e [f K]; discriminate K|exact Hn].
Qed.

(** With ParallelChannel, handle has a thread of its own. *)
Lemma default_thread_keep : forall cs, Forall mixin cs -> forall h,
  at_place is_def (fun p => p <> Reader) h -> at_place is_def (fun p => p <> Reader) (prox cs h).
Proof.
  intros cs F h. revert cs F h. apply (prox_ind (fun cs h => at_place is_def (fun p => p <> Reader) h -> at_place is_def (fun p => p <> Reader) (prox cs h))).
  - intros h Hn. exact Hn.
  - intros r h IH Hn. rewrite prox_echo. apply echo_at; [discriminate|intros e K; discriminate K|auto].
  - intros r h IH Hn. apply ctl_at; [intros q Hq; right; left; exact Hq|auto|]. apply IH. apply never_at. exact async_never_def.
  - intros r h IH Hn. rewrite prox_par. apply IH. apply thread_at; [intros e K; discriminate K|discriminate|discriminate].
Qed.
Lemma default_thread : forall cs, Forall mixin cs -> forall h, In "ParallelChannel" cs -> at_place is_def (fun p => p <> Reader) (prox cs h).
Proof.
  induction cs as [|c cs IH]; intros F h Hin; [destruct Hin|]. inversion F as [|c0 cs0 Hc Fcs]; subst.
  destruct Hc as [->|[->| ->]].
  - destruct Hin as [K|Hin]; [discriminate K|]. rewrite prox_echo. apply echo_at; [discriminate|intros e K; discriminate K|auto].
  - destruct Hin as [K|Hin]; [discriminate K|]. apply ctl_at; [intros q Hq; right; left; exact Hq|auto|auto].
  - rewrite prox_par. apply default_thread_keep; [exact Fcs|]. apply thread_at; [intros e K; discriminate K|discriminate|discriminate].
Qed.

(** handle_async: it depends. *)
Lemma async_keep : forall cs, Forall mixin cs -> forall (Q : place -> Prop) h, ~ In "ControllerChannel" cs ->
  (In "ParallelChannel" cs -> Q OwnThread /\ Q InPool) -> at_place is_asy Q h -> at_place is_asy Q (prox cs h).
Proof.
  induction cs as [|c cs IH]; intros F Q h Hn Hp Hh; [exact Hh|]. inversion F as [|c0 cs0 Hc Fcs]; subst.
  assert (Hn' : ~ In "ControllerChannel" cs) by (intro; apply Hn; right; assumption).
  destruct Hc as [->|[->| ->]].
  - rewrite prox_echo. apply echo_at; [discriminate|intros e K; discriminate K|]. apply IH; auto. intros Hi. apply Hp. right. exact Hi.
  - exfalso. apply Hn. left. reflexivity.
  - rewrite prox_par. destruct (Hp (or_introl eq_refl)) as [Q1 Q2]. apply IH; auto.
    apply thread_at; [intros e K; discriminate K|exact Q1|exact Q2].
Qed.
Lemma async_own : forall cs, Forall mixin cs -> forall h, ~ In "ControllerChannel" cs -> In "ParallelChannel" cs ->
  at_place is_asy (fun p => p <> Reader) (prox cs h).
Proof.
  induction cs as [|c cs IH]; intros F h Hn Hin; [destruct Hin|]. inversion F as [|c0 cs0 Hc Fcs]; subst.
  assert (Hn' : ~ In "ControllerChannel" cs) by (intro; apply Hn; right; assumption).
  destruct Hc as [->|[->| ->]].
  - destruct Hin as [K|Hin]; [discriminate K|]. rewrite prox_echo. apply echo_at; [discriminate|intros e K; discriminate K|auto].
  - exfalso. apply Hn. left. reflexivity.
  - rewrite prox_par. apply async_keep; auto; [intros _; split; discriminate|].
    apply thread_at; [intros e K; discriminate K|discriminate|discriminate].
Qed.
Lemma async_thread : forall cs, Forall mixin cs -> NoDup cs -> forall h, never is_asy h ->
  before cs "ControllerChannel" "ParallelChannel" -> at_place is_asy (fun p => p <> Reader) (prox cs h).
Proof.
  induction cs as [|c cs IH]; intros F N h Hh B; [destruct B as [[|? ?] [? [? K]]]; discriminate K|].
  inversion F as [|c0 cs0 Hc Fcs]; subst. inversion N as [|c0 cs0 Nc Ncs]; subst.
  destruct B as [p1 [p2 [p3 E]]]. destruct p1 as [|x p1]; cbn in E; injection E as Ec E.
  - subst c. assert (Hp : In "ParallelChannel" cs) by (rewrite E; apply in_or_app; right; left; reflexivity).
    apply ctl_at; [intros q Hq; right; right; exact Hq|apply async_own; assumption|apply async_own; assumption].
  - subst x. assert (B : before cs "ControllerChannel" "ParallelChannel") by (exists p1, p2, p3; exact E).
    destruct Hc as [->|[->| ->]].
    + rewrite prox_echo. apply echo_at; [discriminate|intros e K; discriminate K|auto].
    + exfalso. apply Nc. rewrite E. apply in_or_app. right. left. reflexivity.
    + exfalso. apply Nc. rewrite E. apply in_or_app. right. right. apply in_or_app. right. left. reflexivity.
Qed.
Lemma async_reader_keep : forall cs, Forall mixin cs -> forall h, ~ In "ParallelChannel" cs ->
  at_place is_asy (eq Reader) h -> at_place is_asy (eq Reader) (prox cs h).
Proof.
  induction cs as [|c cs IH]; intros F h Hn Hh; [exact Hh|]. inversion F as [|c0 cs0 Hc Fcs]; subst.
  assert (Hn' : ~ In "ParallelChannel" cs) by (intro; apply Hn; right; assumption).
  destruct Hc as [->|[->| ->]].
  - rewrite prox_echo. apply echo_at; [discriminate|intros e K; discriminate K|auto].
  - apply ctl_at; [left; reflexivity|auto|]. apply IH; auto. intros s m s' p r E _. injection E as <- <- <-. reflexivity.
  - exfalso. apply Hn. left. reflexivity.
Qed.
Lemma async_reader : forall cs, Forall mixin cs -> NoDup cs -> forall h, never is_asy h ->
  ~ before cs "ControllerChannel" "ParallelChannel" -> at_place is_asy (eq Reader) (prox cs h).
Proof.
  induction cs as [|c cs IH]; intros F N h Hh B; [apply never_at; exact Hh|].
  inversion F as [|c0 cs0 Hc Fcs]; subst. inversion N as [|c0 cs0 Nc Ncs]; subst.
  assert (B' : ~ before cs "ControllerChannel" "ParallelChannel").
  { intros [p1 [p2 [p3 ->]]]. apply B. exists (c :: p1), p2, p3. reflexivity. }
  destruct Hc as [->|[->| ->]].
  - rewrite prox_echo. apply echo_at; [discriminate|intros e K; discriminate K|auto].
  - assert (Hp : ~ In "ParallelChannel" cs).
    { intros Hp. apply B. apply in_split in Hp as [p2 [p3 ->]]. exists [], p2, p3. reflexivity. }
    apply ctl_at; [left; reflexivity|apply async_reader_keep; auto; apply never_at; exact Hh|].
    apply async_reader_keep; auto. intros s m s' p r E _. injection E as <- <- <-. reflexivity.
  - rewrite prox_par. apply async_reader_keep; auto. apply never_at. apply thread_never; [intros e K; discriminate K|exact Hh].
Qed.

(** Without ParallelChannel everything is done by the reader. *)
Lemma all_reader : forall cs, Forall mixin cs -> forall h, ~ In "ParallelChannel" cs ->
  at_place (fun _ => True) (eq Reader) h -> at_place (fun _ => True) (eq Reader) (prox cs h).
Proof.
  induction cs as [|c cs IH]; intros F h Hn Hh; [exact Hh|]. inversion F as [|c0 cs0 Hc Fcs]; subst.
  assert (Hn' : ~ In "ParallelChannel" cs) by (intro; apply Hn; right; assumption).
  destruct Hc as [->|[->| ->]].
  - intros s m s' p r E Ho. rewrite prox_echo in E. unfold echo_proxy in E. destruct m as [|b m]; [injection E as <- <- <-; reflexivity|].
    destruct (parse_ofp_header (b :: m)) as [x|e]; [|injection E as <- <- <-; reflexivity].
    destruct (h_type x =? 2)%Z; [|exact (IH Fcs _ Hn' Hh _ _ _ _ _ E Ho)].
    destruct (packs _ _) as [q|e]; [|injection E as <- <- <-; reflexivity].
    destruct (locked_send _ _ _ _ _ _) as [s1 [u|e]]; injection E as <- <- <-; reflexivity.
  - apply ctl_at; [left; reflexivity|auto|]. apply IH; auto. intros s m s' p r E _. injection E as <- <- <-. reflexivity.
  - exfalso. apply Hn. left. reflexivity.
Qed.

(** The last class of the chain changes nothing. *)
Lemma prox_last : forall cs, Forall mixin cs -> forall h, prox (cs ++ ["OpenflowServerChannel"]) h = prox cs h.
Proof.
  induction cs as [|c cs IH]; intros F h; [reflexivity|]. inversion F as [|c0 cs0 Hc Fcs]; subst.
  destruct Hc as [->|[->| ->]]; cbn [Datatypes.app].
  - rewrite !prox_echo, (IH Fcs). reflexivity.
  - cbn [proxied]. change (String.eqb "ControllerChannel" "AutoEchoChannel") with false.
    change (String.eqb "ControllerChannel" "ControllerChannel") with true. cbv iota. rewrite !(IH Fcs). reflexivity.
  - rewrite !prox_par. apply (IH Fcs).
Qed.

(** Echo requests. *)
Lemma echo_before : forall cs, Forall mixin cs -> NoDup cs -> In "AutoEchoChannel" cs ->
  ~ before cs "ControllerChannel" "AutoEchoChannel" -> forall h, exists next, prox cs h = echo_proxy bxid next.
Proof.
  induction cs as [|c cs IH]; intros F N Hin B h; [destruct Hin|].
  inversion F as [|c0 cs0 Hc Fcs]; subst. inversion N as [|c0 cs0 Nc Ncs]; subst.
  assert (B' : ~ before cs "ControllerChannel" "AutoEchoChannel").
  { intros [p1 [p2 [p3 ->]]]. apply B. exists (c :: p1), p2, p3. reflexivity. }
  destruct Hc as [->|[->| ->]].
  - eexists. apply prox_echo.
  - exfalso. destruct Hin as [K|Hin]; [discriminate K|]. apply B. apply in_split in Hin as [p2 [p3 ->]]. exists [], p2, p3. reflexivity.
  - destruct Hin as [K|Hin]; [discriminate K|]. rewrite prox_par. apply IH; assumption.
Qed.
Lemma ctl_before : forall cs, Forall mixin cs -> NoDup cs ->
  before cs "ControllerChannel" "AutoEchoChannel" -> forall h, exists r h', prox cs h = prox ("ControllerChannel" :: r) h'.
Proof.
  induction cs as [|c cs IH]; intros F N B h; [destruct B as [[|? ?] [? [? K]]]; discriminate K|].
  inversion F as [|c0 cs0 Hc Fcs]; subst. inversion N as [|c0 cs0 Nc Ncs]; subst.
  destruct B as [p1 [p2 [p3 E]]]. destruct p1 as [|x p1]; cbn in E; injection E as Ec E.
  - subst c. exists cs, h. reflexivity.
  - subst x. assert (B : before cs "ControllerChannel" "AutoEchoChannel") by (exists p1, p2, p3; exact E).
    destruct Hc as [->|[->| ->]].
    + exfalso. apply Nc. rewrite E. apply in_or_app. right. right. apply in_or_app. right. left. reflexivity.
    + exists cs, h. reflexivity.
    + rewrite prox_par. apply IH; assumption.
Qed.
End Places.

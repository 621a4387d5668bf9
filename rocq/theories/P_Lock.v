(** Proofs about M_Lock.v. *)

From Coq Require Import Lia.
From Verif Require Import Py Struct P_Struct M_Hello M_Loop M_Controller M_Lock S_Lock.
Local Open Scope Z_scope.

(** *** The shape of a thread's stack *)
Section Shape.
Variable body : who -> bytes -> list snd_.
Variable reentrant has_async : bool.

Inductive act (q : snd_) : micro -> Prop :=
| act_in : act q (UIn q)
| act_sep : act q (USep q)
| act_put P : act q (UPut q P).

Definition base (w : who) : list micro := match w with WCb _ => [URel] | _ => [] end.
Definition part (all : list snd_) (l : list ent) (qs : list snd_) : Prop :=
  exists pre, all = pre ++ qs /\ l = map (fun q => ESent q (Ok tt)) pre.

Inductive shape : job -> list ent -> list micro -> Prop :=
| sh_s0 q : shape (JSend q) [] [USend q]
| sh_s1 q u : act q u -> shape (JSend q) [] [u; URel]
| sh_m0 m : shape (JMsg m) [] [UMsg m]
| sh_m1 m h : parse_ofp_header m = Ok h ->
    has_async && ((h_type h =? 10) || (h_type h =? 11) || (h_type h =? 12)) = false ->
    shape (JMsg m) [] [URoute m; URel]
| sh_m2 m f : shape (JMsg m) [ERouted m (ToCallback f)] [UCall f m; URel]
| sh_m3 m : shape (JMsg m) [ERouted m ToDefault] [URel; UHandle WDefault m]
| sh_m4 m w o : goes_to o = Some w -> base w = [] -> shape (JMsg m) [ERouted m o] [UHandle w m]
| sh_b0 m w o l qs : goes_to o = Some w -> part (body w m) l qs ->
    shape (JMsg m) (ERouted m o :: ECalled w m :: l) (map USend qs ++ base w)
| sh_b1 m w o l q qs u : goes_to o = Some w -> part (body w m) l (q :: qs) -> act q u ->
    shape (JMsg m) (ERouted m o :: ECalled w m :: l) (u :: URel :: map USend qs ++ base w)
| sh_b2 m w o l qs : goes_to o = Some w -> part (body w m) l qs ->
    shape (JMsg m) (ERouted m o :: ECalled w m :: l) (URel :: map USend qs ++ base w)
| sh_done j l n : job_told body true j l -> shape j l (repeat URel n).

Lemma part_told d all l qs : part all l qs -> (d = true -> qs = []) -> sends_told d all l.
Proof.
  intros (pre & -> & ->). revert qs. induction pre as [|q pre IH]; intros qs H; cbn; auto.
Qed.
Lemma part_err all l q qs e d : part all l (q :: qs) -> sends_told d all (l ++ [ESent q (Err e)]).
Proof. intros (pre & -> & ->). induction pre as [|p pre IH]; cbn; auto. Qed.
Lemma part_next all l q qs : part all l (q :: qs) -> part all (l ++ [ESent q (Ok tt)]) qs.
Proof.
  intros (pre & -> & ->). exists (pre ++ [q]). rewrite <- app_assoc, map_app. auto.
Qed.
Lemma weaken d j l : job_told body true j l -> job_told body d j l.
Proof.
  destruct d; auto. destruct j as [q|m]; destruct l as [|e l]; cbn; auto; try discriminate.
  destruct e as [| m' o | |]; auto. intros [-> H]. split; auto.
  destruct (goes_to o) as [w|]; auto. destruct l as [|e l]; [destruct w; discriminate|].
  assert (K : forall qs l, sends_told true qs l -> sends_told false qs l).
  { clear. intros qs l. revert qs. induction l as [|e l IH]; intros qs; cbn; [intros _ X; discriminate X|].
    destruct e as [q' [r|r]| | |]; auto; destruct qs; auto. intros [-> ?]. auto. }
  destruct w; destruct e; auto; destruct l; try contradiction; firstorder.
Qed.
Lemma shape_told j l now : shape j l now -> job_told body false j l.
Proof.
  destruct 1; cbn; auto; try (split; auto; fail).
  - split; auto. rewrite H. destruct w; reflexivity.
  - split; auto. rewrite H. destruct w; (split; [reflexivity|split; [reflexivity|]]); eapply part_told; eauto; discriminate.
  - split; auto. rewrite H. destruct w; (split; [reflexivity|split; [reflexivity|]]); eapply part_told; eauto; discriminate.
  - split; auto. rewrite H. destruct w; (split; [reflexivity|split; [reflexivity|]]); eapply part_told; eauto; discriminate.
  - apply weaken; auto.
Qed.
Lemma shape_end j l : shape j l [] -> job_told body true j l.
Proof.
  inversion 1; subst; auto.
  match goal with H : _ ++ _ = [] |- _ => apply app_eq_nil in H; destruct H as [E B] end.
  destruct qs; [|discriminate]. destruct w; try discriminate; cbn; match goal with G : goes_to _ = _ |- _ => rewrite G end; repeat split; auto; eapply part_told; eauto.
Qed.

Lemma rel_repeat n : filter is_rel (repeat URel n) = repeat URel n.
Proof. induction n; cbn; congruence. Qed.
Lemma rel_sends qs w : filter is_rel (map USend qs ++ base w) = repeat URel (length (base w)).
Proof. induction qs; cbn; auto. destruct w; reflexivity. Qed.
Lemma err_told m w o l q qs e : goes_to o = Some w -> part (body w m) l (q :: qs) ->
  job_told body true (JMsg m) ((ERouted m o :: ECalled w m :: l) ++ [ESent q (Err e)]).
Proof.
  intros H P. cbn. split; auto. rewrite H. destruct w; (split; [reflexivity|split; [reflexivity|]]); eapply part_err; eauto.
Qed.

Notation tstep := (tstep reentrant has_async body).

(** A step of a thread within a job. *)
Lemma shape_step i g g' u k j l : t_now (g_th g i) = u :: k -> shape j l (u :: k) -> tstep i g = Some g' ->
  exists new, g_log g' = g_log g ++ map (pair i) new /\
    t_next (g_th g' i) = t_next (g_th g i) /\ shape j (l ++ new) (t_now (g_th g' i)) /\
    (forall x, x <> i -> g_th g' x = g_th g x).
Proof.
  intros N SH E. unfold M_Lock.tstep in E. rewrite N in E.
  assert (GO : forall c' l' now lg, shape j (l ++ lg) now ->
    Some (mkCfg c' l' (upd (g_th g) i (mkTh now (t_next (g_th g i)))) (g_log g ++ map (pair i) lg)) = Some g' ->
    exists new, g_log g' = g_log g ++ map (pair i) new /\ t_next (g_th g' i) = t_next (g_th g i) /\
      shape j (l ++ new) (t_now (g_th g' i)) /\ (forall x, x <> i -> g_th g' x = g_th g x)).
  { intros c' l' now lg S_ Q. inversion Q; subst; clear Q. exists lg. cbn. unfold upd. rewrite Nat.eqb_refl.
    repeat split; auto. intros x X. rewrite (proj2 (Nat.eqb_neq _ _) X). reflexivity. }
  (* what a step of an active micro does *)
  assert (ACT : forall q (a : micro) (tl : list micro), u = a -> k = tl -> act q a ->
     (forall e, shape j (l ++ [ESent q (Err e)]) (filter is_rel tl)) ->
     shape j (l ++ [ESent q (Ok tt)]) tl ->
     (forall a', act q a' -> shape j l (a' :: tl)) ->
     exists new, g_log g' = g_log g ++ map (pair i) new /\ t_next (g_th g' i) = t_next (g_th g i) /\
      shape j (l ++ new) (t_now (g_th g' i)) /\ (forall x, x <> i -> g_th g' x = g_th g x)).
  { intros q a tl -> -> A FE FO FA.
    assert (FA' : forall a', act q a' -> shape j (l ++ []) (a' :: tl)) by (intros; rewrite app_nil_r; auto).
    destruct A as [| |P].
    - cbn [is_rel] in E. destruct (parse_ofp_header (q_m q)) as [h|e]; [|eapply GO; [|exact E]; auto].
      destruct (is_barrier_req h); [eapply GO; [|exact E]; auto using act|].
      destruct (last_of _) as [[cb|x cb]|].
      + destruct (negb _); (eapply GO; [|exact E]; auto using act).
      + eapply GO; [|exact E]; auto using act.
      + destruct (negb _); (eapply GO; [|exact E]; auto using act).
    - destruct (barrier_msg _ _) as [msg|e]; (eapply GO; [|exact E]; auto using act).
    - destruct P as [|[m o] P].
      + eapply GO; [|exact E]; auto.
      + destruct (k_put (g_c g) m o) as [c' [r|e]]; (eapply GO; [|exact E]; auto using act). }
  inversion SH; subst.
  - (* USend *) destruct (acquire _ _ _) as [lk|]; [|discriminate]. eapply GO; [|exact E]. cbn. apply sh_s1. constructor.
  - eapply (ACT q); eauto; cbn.
    + intros e. apply (sh_done (JSend q) [ESent q (Err e)] 1). reflexivity.
    + apply (sh_done (JSend q) [ESent q (Ok tt)] 1). reflexivity.
    + intros a' A. constructor; auto.
  - destruct (parse_ofp_header m) as [h|e] eqn:PH.
    + destruct (has_async && _) eqn:HA.
      * eapply GO; [|exact E]. cbn. apply sh_m4; reflexivity.
      * destruct (acquire _ _ _) as [lk|]; [|discriminate]. eapply GO; [|exact E]. econstructor; eauto.
    + eapply GO; [|exact E]. cbn. apply (sh_done _ _ 0). cbn. auto.
  - destruct (intercept has_async (g_c g) m) as [c' o]. destruct o; try discriminate; (eapply GO; [|exact E]); cbn.
    + constructor.
    + constructor.
    + apply (sh_done _ _ 1). cbn. auto.
    + apply (sh_done _ _ 1). cbn. auto.
    + apply (sh_done _ _ 1). cbn. auto.
  - destruct (live _ _); (eapply GO; [|exact E]); cbn.
    + apply (sh_b0 m (WCb f) (ToCallback f) [] (body (WCb f) m)); [reflexivity|]. exists []. auto.
    + apply (sh_done _ _ 1). cbn. auto.
  - eapply GO; [|exact E]. cbn. apply sh_m4; reflexivity.
  - eapply GO; [|exact E]. cbn. replace (map USend (body w m) ++ []) with (map USend (body w m) ++ base w) by congruence.
    apply sh_b0; auto. exists []. auto.
  - (* body, about to send *)
    destruct qs as [|q qs].
    + destruct w as [f| |]; try discriminate. cbn in *. match goal with H : [URel] = _ |- _ => inversion H; subst end.
      eapply GO with (lg := []); [|exact E]. rewrite app_nil_r. apply (sh_done _ _ 0). cbn. split; auto. match goal with G : goes_to _ = _ |- _ => rewrite G end. repeat split; auto. eapply part_told; eauto.
    + cbn in *. match goal with H : USend q :: _ = _ |- _ => inversion H; subst end.
      destruct (acquire _ _ _) as [lk|]; [|discriminate]. eapply GO with (lg := []); [|exact E]. rewrite app_nil_r. apply sh_b1 with q; auto. constructor.
  - eapply (ACT q); eauto.
    + intros e. cbn [filter is_rel]. rewrite rel_sends. change (URel :: repeat URel (length (base w))) with (repeat URel (S (length (base w)))).
      apply sh_done. eapply err_told; eauto.
    + cbn [Datatypes.app]. apply sh_b2; auto. apply part_next; auto.
    + intros a' A. eapply sh_b1; eauto.
  - eapply GO; [|exact E]. rewrite app_nil_r. apply sh_b0; auto.
  - destruct n as [|n]; [discriminate|]. cbn in *. match goal with H : URel :: _ = _ |- _ => inversion H; subst end.
    eapply GO with (lg := []); [|exact E]. rewrite app_nil_r. apply sh_done; auto.
Qed.

(** What every thread tells. *)
Definition teller (prog : list job) (t : thread) (l : list ent) : Prop :=
  exists pre cur l1 l2, prog = pre ++ cur ++ t_next t /\ l = l1 ++ l2 /\ told body pre l1 /\
    ((cur = [] /\ l2 = [] /\ t_now t = []) \/ (exists j, cur = [j] /\ shape j l2 (t_now t))).

Lemma log_of_app i a b : log_of i (a ++ b) = log_of i a ++ log_of i b.
Proof. unfold log_of. rewrite filter_app, map_app. reflexivity. Qed.
Lemma log_of_own i l : log_of i (map (pair i) l) = l.
Proof. unfold log_of. induction l; cbn; auto. rewrite Nat.eqb_refl. cbn. congruence. Qed.
Lemma log_of_other i j l : j <> i -> log_of j (map (pair i) l) = [].
Proof. intros H. unfold log_of. induction l; cbn; auto. rewrite (proj2 (Nat.eqb_neq i j)) by congruence. auto. Qed.

Lemma tell_step progs i g g' : (forall x, teller (progs x) (g_th g x) (log_of x (g_log g))) ->
  tstep i g = Some g' -> forall x, teller (progs x) (g_th g' x) (log_of x (g_log g')).
Proof.
  intros T E x. destruct (T i) as (pre & cur & l1 & l2 & P & L & TO & C).
  destruct (t_now (g_th g i)) as [|u k] eqn:N.
  - unfold M_Lock.tstep in E. rewrite N in E. destruct (t_next (g_th g i)) as [|j js] eqn:NX; [discriminate|].
    inversion E; subst; clear E. cbn. unfold upd. destruct (Nat.eqb_spec x i) as [->|X]; [|apply T].
    assert (TD : exists l1', told body (pre ++ cur) l1' /\ l1' = log_of i (g_log g)).
    { destruct C as [(-> & -> & _)|(j0 & -> & SH)].
      - exists l1. rewrite !app_nil_r in *. auto.
      - exists (l1 ++ l2). split; auto. constructor; auto. apply shape_end; auto. }
    destruct TD as (l1' & TD & EQ). exists (pre ++ cur), [j], l1', []. cbn. rewrite app_nil_r, <- app_assoc.
    repeat split; auto. right. exists j. split; auto. destruct j; constructor.
  - destruct C as [(_ & _ & K)|(j & -> & SH)]; [discriminate|].
    destruct (shape_step i g g' u k j l2 N SH E) as (new & LG & NX & SH' & OT). rewrite LG, log_of_app.
    destruct (Nat.eq_dec x i) as [->|X].
    + rewrite log_of_own. exists pre, [j], l1, (l2 ++ new). split; [rewrite NX; auto|]. split; [rewrite L, app_assoc; reflexivity|]. split; [auto|]. right. exists j. auto.
    + rewrite (log_of_other i x) by auto. rewrite app_nil_r, OT by auto. apply T.
Qed.
End Shape.

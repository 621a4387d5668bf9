(** Proofs about M_Lock.v: every run is a sequence of atomic steps. *)

From Coq Require Import Lia.
From Verif Require Import Py Struct P_Struct M_Hello M_Loop M_Controller M_Lock S_Lock P_Lock.
Local Open Scope Z_scope.

Definition rels (now : list micro) : nat := length (filter is_rel now).
Definition calm (u : micro) : Prop := match u with USep _ | UPut _ _ => False | _ => True end.
Definition owns (l : option (nat * nat)) (x : nat) : nat :=
  match l with Some (i, d) => if (x =? i)%nat then S d else O | None => O end.

(** *** Deaths and versions that come in between *)
Definition env1 (c : cch) (e : nat + Z) : cch := match e with inl f => k_die c f | inr v => k_ver c v end.
Definition env (c : cch) (E : list (nat + Z)) : cch := fold_left env1 E c.
Definition eop (e : nat + Z) : aop := match e with inl f => ADie f | inr v => AVersion v end.
Definition dd (E : list (nat + Z)) : list nat := flat_map (fun e => match e with inl f => [f] | inr _ => [] end) E.
Definition vv (E : list (nat + Z)) : list Z := flat_map (fun e => match e with inl _ => [] | inr v => [v] end) E.
Fixpoint puts (c : cch) (P : list (bytes * option exn)) : cch * res unit :=
  match P with
  | [] => (c, Ok tt)
  | (m, o) :: P' => match k_put c m o with (c', Ok _) => puts c' P' | (c', Err e) => (c', Err e) end
  end.

Lemma env_snoc c E e : env c (E ++ [e]) = env1 (env c E) e.
Proof. unfold env. rewrite fold_left_app. reflexivity. Qed.
Lemma env_cons c e E : env c (e :: E) = env (env1 c e) E.
Proof. reflexivity. Qed.
Lemma env_seq c E : k_seq (env c E) = k_seq c.
Proof. revert c. induction E as [|e E IH]; intros c; auto. rewrite env_cons, IH. destruct e; reflexivity. Qed.
Lemma env_put E : forall c m o, k_put (env c E) m o = (env (fst (k_put c m o)) E, snd (k_put c m o)).
Proof.
  induction E as [|e E IH]; intros c m o; [cbn; destruct (k_put c m o); reflexivity|].
  rewrite !env_cons, IH. destruct e, o; reflexivity.
Qed.
Lemma env_with E : forall c q, with_seq (env c E) q = env (with_seq c q) E.
Proof. induction E as [|e E IH]; intros c q; auto. rewrite !env_cons, IH. destruct e; reflexivity. Qed.
Lemma env_ver_deaths D : forall c v, k_ver (env c (map inl D)) v = env (k_ver c v) (map inl D).
Proof. induction D as [|f D IH]; intros c v; auto. cbn [map]. rewrite !env_cons. apply (IH (k_die c f) v). Qed.
Lemma env_version_deaths D : forall c, k_version (env c (map inl D)) = k_version c.
Proof. induction D as [|f D IH]; intros c; auto. cbn [map]. rewrite env_cons, IH. reflexivity. Qed.
Lemma dd_snoc E e : dd (E ++ [e]) = dd E ++ dd [e].
Proof. unfold dd. apply flat_map_app. Qed.
Lemma vv_snoc E e : vv (E ++ [e]) = vv E ++ vv [e].
Proof. unfold vv. apply flat_map_app. Qed.
Lemma dd_deaths D : dd (map inl D) = D.
Proof. unfold dd. induction D; cbn; congruence. Qed.
Lemma vv_deaths D : vv (map inl D) = [].
Proof. unfold vv. induction D; cbn; congruence. Qed.
Lemma eop_deaths E : op_deaths (map eop E) = dd E.
Proof. unfold op_deaths, dd. induction E as [|[f|v] E IH]; cbn; congruence. Qed.
Lemma eop_versions E : op_versions (map eop E) = vv E.
Proof. unfold op_versions, vv. induction E as [|[f|v] E IH]; cbn; congruence. Qed.
Lemma opd_app a b : op_deaths (a ++ b) = op_deaths a ++ op_deaths b.
Proof. apply flat_map_app. Qed.
Lemma opv_app a b : op_versions (a ++ b) = op_versions a ++ op_versions b.
Proof. apply flat_map_app. Qed.
Lemma evd_app a b : ev_deaths (a ++ b) = ev_deaths a ++ ev_deaths b.
Proof. apply flat_map_app. Qed.
Lemma evv_app a b : ev_versions (a ++ b) = ev_versions a ++ ev_versions b.
Proof. apply flat_map_app. Qed.

Lemma arun_app ha : forall a c b,
  arun ha c (a ++ b) = let '(c1, r1) := arun ha c a in let '(c2, r2) := arun ha c1 b in (c2, r1 ++ r2).
Proof.
  induction a as [|o a IH]; intros c b; cbn [Datatypes.app arun].
  - destruct (arun ha c b); reflexivity.
  - destruct (astep ha c o) as [c1 r]. rewrite IH. destruct (arun ha c1 a) as [c2 r2]. destruct (arun ha c2 b) as [c3 r3].
    rewrite app_assoc. reflexivity.
Qed.
Lemma arun_env ha E : forall c, arun ha c (map eop E) = (env c E, []).
Proof.
  induction E as [|e E IH]; intros c; cbn [map arun env fold_left]; auto.
  destruct e; cbn [eop astep env1]; rewrite IH; reflexivity.
Qed.

(** *** The lock *)
Section Lin.
Variable reentrant has_async : bool.
Variable body : who -> bytes -> list snd_.
Notation tstep := (tstep reentrant has_async body).
Notation shape := (shape body has_async).

Lemma tail_calm j l u k v : shape j l (u :: k) -> In v k -> calm v.
Proof.
  assert (B : forall qs w, In v (map USend qs ++ base w) -> calm v).
  { intros qs w H. apply in_app_or in H. destruct H as [H|H].
    - apply in_map_iff in H. destruct H as (q & <- & _). exact Logic.I.
    - destruct w; cbn in H; [destruct H as [<-|[]]; exact Logic.I|contradiction|contradiction]. }
  inversion 1; subst; intros I_; cbn in I_; try contradiction;
    try (destruct I_ as [<-|I_]; [exact Logic.I|try contradiction; eauto]; fail).
  - destruct qs as [|q qs]; cbn in *.
    + destruct w; cbn in *; try discriminate. match goal with H : [URel] = _ |- _ => inversion H; subst end. contradiction.
    + match goal with H : USend q :: _ = _ |- _ => inversion H; subst end. eauto.
  - eauto.
  - destruct n as [|n]; [discriminate|]. cbn in *. match goal with H : URel :: _ = _ |- _ => inversion H; subst end.
    apply repeat_spec in I_. subst. exact Logic.I.
Qed.
Lemma free_head j l u k : shape j l (u :: k) -> rels (u :: k) = O ->
  match u with USend _ | UMsg _ | UHandle _ _ => True | _ => False end.
Proof.
  unfold rels. inversion 1; subst; cbn; auto; try discriminate.
  - match goal with H : act _ _ |- _ => inversion H; subst end; cbn; discriminate.
  - destruct qs as [|q qs]; cbn in *.
    + destruct w; cbn in *; try discriminate; (match goal with H : [URel] = _ |- _ => inversion H; subst end); discriminate.
    + match goal with H : USend q :: _ = _ |- _ => inversion H; subst end. auto.
  - match goal with H : act _ _ |- _ => inversion H; subst end; cbn; discriminate.
  - destruct n as [|n]; [discriminate|]. match goal with H : repeat _ _ = _ |- _ => inversion H; subst end. discriminate.
Qed.
Lemma route_tail j l m k : shape j l (URoute m :: k) -> k = [URel].
Proof.
  inversion 1; subst; auto; try (match goal with H : act _ _ |- _ => inversion H end; fail).
  - destruct qs as [|q qs]; [destruct w|]; discriminate.
  - destruct n; discriminate.
Qed.

(** The holder is at a place where something is half done. *)
Inductive stage : Type := Calm | Sep (q : snd_) | Putting (q : snd_) (P : list (bytes * option exn)).
Definition stage_of (now : list micro) : stage :=
  match now with USep q :: _ => Sep q | UPut q P :: _ => Putting q P | _ => Calm end.
Definition at_ (g : cfg) : stage := match g_lock g with None => Calm | Some (i, _) => stage_of (t_now (g_th g i)) end.
Definition sep_cond (a : cch) (q : snd_) : Prop :=
  exists h cb, parse_ofp_header (q_m q) = Ok h /\ is_barrier_req h = false /\ last_of (k_seq a) = Some (SChunk cb) /\
    cb_eqb (live (k_dead a) cb) (q_h q) = false.
Definition rel_ (a : cch) (c : cch) (s : stage) (E : list (nat + Z)) : Prop :=
  match s with
  | Calm => c = a /\ E = []
  | Sep q => (exists D, E = map inl D) /\ c = env a E /\ sep_cond a q
  | Putting q P => exists s1, c = env s1 E /\ puts s1 P = locked_send a (q_h q) (q_m q) (q_bxid q) (q_o1 q) (q_o2 q)
  end.
Definition shaped (g : cfg) : Prop :=
  forall x, t_now (g_th g x) = [] \/ exists j l, shape j l (t_now (g_th g x)).
Definition locked (g : cfg) : Prop := forall x, rels (t_now (g_th g x)) = owns (g_lock g) x.
Definition linear (g : cfg) (es : list ev) : Prop :=
  exists ops a E, arun has_async k_new ops = (a, filter result (g_log g)) /\
    op_deaths ops ++ dd E = ev_deaths es /\ op_versions ops ++ vv E = ev_versions es /\
    rel_ a (g_c g) (at_ g) E.

Lemma calm_stage k : match k with [] => True | u :: _ => calm u end -> stage_of k = Calm.
Proof. destruct k as [|u k]; cbn; auto. destruct u; cbn; tauto. Qed.
Lemma stage_rel_filter k : stage_of (filter is_rel k) = Calm.
Proof.
  apply calm_stage. induction k as [|u k IH]; cbn; auto. destruct u; cbn; auto.
Qed.
Lemma rels_filter k : rels (filter is_rel k) = rels k.
Proof.
  unfold rels. f_equal. induction k as [|u k IH]; cbn; auto. destruct (is_rel u) eqn:E; cbn; rewrite ?E; congruence.
Qed.
Lemma rels_app a b : rels (a ++ b) = (rels a + rels b)%nat.
Proof. unfold rels. rewrite filter_app, app_length. reflexivity. Qed.
Lemma rels_sends qs : rels (map USend qs) = O.
Proof. unfold rels. induction qs; cbn; auto. Qed.

(** The number of [with] statements entered is that of the lock. *)
Lemma lock_step i g g' : shaped g -> locked g -> tstep i g = Some g' -> locked g'.
Proof.
  intros SH L E. unfold M_Lock.tstep in E.
  assert (GO : forall c' l' now nx lg,
    (forall x, x <> i -> owns l' x = owns (g_lock g) x) -> rels now = owns l' i ->
    Some (mkCfg c' l' (upd (g_th g) i (mkTh now nx)) lg) = Some g' -> locked g').
  { intros c' l' now nx lg O1 O2 Q. inversion Q; subst; clear Q. intros x. cbn. unfold upd.
    destruct (Nat.eqb_spec x i) as [->|X]; cbn; auto. rewrite L, O1; auto. }
  pose proof (L i) as Li. destruct (t_now (g_th g i)) as [|u k] eqn:N.
  { destruct (t_next (g_th g i)) as [|j js]; [discriminate|]. eapply GO; [| |exact E]; auto.
    rewrite <- Li. destruct j; reflexivity. }
  assert (SAME : forall c' now lg, rels now = rels (u :: k) ->
     Some (mkCfg c' (g_lock g) (upd (g_th g) i (mkTh now (t_next (g_th g i)))) lg) = Some g' -> locked g')
    by (intros; eapply GO; [| |eassumption]; auto; congruence).
  assert (ACQ : forall l now lg, acquire reentrant i (g_lock g) = Some l -> rels now = S (rels (u :: k)) ->
     Some (mkCfg (g_c g) l (upd (g_th g) i (mkTh now (t_next (g_th g i)))) lg) = Some g' -> locked g').
  { intros l now lg A R Q. eapply GO; [| |exact Q].
    - intros x X. unfold acquire in A. destruct (g_lock g) as [[h d]|].
      + destruct (Nat.eqb_spec h i) as [->|]; [|discriminate]. destruct reentrant; [|discriminate]. inversion A; subst. cbn.
        rewrite (proj2 (Nat.eqb_neq _ _) X). reflexivity.
      + inversion A; subst. cbn. rewrite (proj2 (Nat.eqb_neq _ _) X). reflexivity.
    - rewrite R, Li. unfold acquire in A. destruct (g_lock g) as [[h d]|].
      + destruct (Nat.eqb_spec h i) as [->|]; [|discriminate]. destruct reentrant; [|discriminate]. inversion A; subst. cbn.
        rewrite Nat.eqb_refl. reflexivity.
      + inversion A; subst. cbn. rewrite Nat.eqb_refl. reflexivity. }
  destruct u as [q|q|q|q P| |m|m|f m|w m].
  - destruct (acquire reentrant i (g_lock g)) as [l|] eqn:A; [|discriminate]. eapply ACQ; [reflexivity| |exact E]. reflexivity.
  - destruct (parse_ofp_header (q_m q)) as [h|e]; [|eapply SAME; [|exact E]; rewrite rels_filter; reflexivity].
    destruct (is_barrier_req h); [eapply SAME; [|exact E]; reflexivity|].
    destruct (last_of _) as [[cb|x cb]|]; [destruct (negb _)| |destruct (negb _)]; (eapply SAME; [|exact E]; reflexivity).
  - destruct (barrier_msg _ _) as [msg|e]; (eapply SAME; [|exact E]); rewrite ?rels_filter; reflexivity.
  - destruct P as [|[m o] P]; [eapply SAME; [|exact E]; reflexivity|].
    destruct (k_put _ _ _) as [c' [r|e]]; (eapply SAME; [|exact E]); rewrite ?rels_filter; reflexivity.
  - change (rels (URel :: k)) with (S (rels k)) in Li.
    unfold owns in Li. destruct (g_lock g) as [[h d]|] eqn:LK; [|discriminate].
    destruct (Nat.eqb_spec i h) as [<-|]; [|discriminate]. injection Li as Li.
    eapply GO; [| |exact E]; rewrite ?LK.
    + intros x X. destruct d; cbn; rewrite (proj2 (Nat.eqb_neq _ _) X); reflexivity.
    + rewrite Li. destruct d; cbn; rewrite ?Nat.eqb_refl; reflexivity.
  - destruct (parse_ofp_header m) as [h|e]; [|eapply SAME; [|exact E]; rewrite rels_filter; reflexivity].
    destruct (has_async && _); [eapply SAME; [|exact E]; reflexivity|].
    destruct (acquire reentrant i (g_lock g)) as [l|] eqn:A; [|discriminate]. eapply ACQ; [reflexivity| |exact E]. reflexivity.
  - destruct (SH i) as [Z|(j & l & S_)]; [congruence|]. rewrite N in S_. rewrite (route_tail _ _ _ _ S_) in *.
    destruct (intercept _ _ _) as [c' o]. destruct o; try discriminate; (eapply SAME; [|exact E]; reflexivity).
  - destruct (live _ _); (eapply SAME; [|exact E]).
    + rewrite rels_app, rels_sends. reflexivity.
    + rewrite rels_filter. reflexivity.
  - eapply SAME; [|exact E]. rewrite rels_app, rels_sends. reflexivity.
Qed.

(** *** The steps in order *)
Lemma filter_own i l : filter result (map (pair i) l) = map (pair i) (filter (fun e => result (O, e)) l).
Proof. induction l as [|e l IH]; cbn; auto. rewrite IH. destruct e; reflexivity. Qed.

(** A step that shows nothing and changes neither channel nor half-done work. *)
Lemma lin_quiet g g' es new : linear g es -> g_c g' = g_c g -> at_ g' = at_ g ->
  g_log g' = g_log g ++ new -> filter result new = [] -> linear g' (es ++ [Run 0]).
Proof.
  intros (ops & a & E & A & D & V & R) C S_ L F. exists ops, a, E.
  rewrite C, S_, L, filter_app, F, app_nil_r, evd_app, evv_app. cbn. rewrite !app_nil_r. auto.
Qed.

Lemma lin_step i g g' es : shaped g -> locked g -> linear g es -> tstep i g = Some g' -> linear g' (es ++ [Run 0]).
Proof.
  intros SH L LN E. pose proof (lock_step i g g' SH L E) as L'. unfold M_Lock.tstep in E.
  pose proof (L i) as Li.
  destruct (t_now (g_th g i)) as [|u k] eqn:N.
  { destruct (t_next (g_th g i)) as [|j js]; [discriminate|]. inversion E; subst; clear E.
    eapply (lin_quiet g _ es []); eauto; cbn; rewrite ?app_nil_r; auto.
    unfold at_. cbn. destruct (g_lock g) as [[h d]|] eqn:LK; auto. unfold upd. destruct (Nat.eqb_spec h i) as [->|]; auto.
    cbn in Li. rewrite Nat.eqb_refl in Li. discriminate. }
  destruct (SH i) as [Z|(j & l & S_)]; [congruence|]. rewrite N in S_.
  assert (CK : stage_of k = Calm).
  { apply calm_stage. destruct k; auto. eapply tail_calm; eauto. left. reflexivity. }
  (* the thread holds the lock, or nothing is half done that it could change *)
  destruct (Nat.eq_dec (owns (g_lock g) i) 0) as [FREE|HELD].
  - (* not the holder *)
    rewrite FREE in Li. pose proof (free_head _ _ _ _ S_ Li) as HD.
    assert (OTHER : forall now nx lg, at_ (mkCfg (g_c g) (g_lock g) (upd (g_th g) i (mkTh now nx)) lg) = at_ g).
    { intros. unfold at_. cbn. destruct (g_lock g) as [[h d]|] eqn:LK; auto. unfold upd.
      destruct (Nat.eqb_spec h i) as [->|]; auto. cbn in FREE. rewrite Nat.eqb_refl in FREE. discriminate. }
    assert (ACQ : forall lk now nx, acquire reentrant i (g_lock g) = Some lk -> stage_of now = Calm ->
       linear (mkCfg (g_c g) lk (upd (g_th g) i (mkTh now nx)) (g_log g ++ [])) (es ++ [Run 0])).
    { intros lk now nx A ST. unfold acquire in A. destruct (g_lock g) as [[h d]|] eqn:LK.
      - destruct (Nat.eqb_spec h i) as [->|]; [|discriminate]. cbn in FREE. rewrite Nat.eqb_refl in FREE. discriminate.
      - inversion A; subst. eapply (lin_quiet g _ es []); eauto. unfold at_. cbn. rewrite LK. unfold upd. rewrite Nat.eqb_refl. exact ST. }
    destruct u; try contradiction.
    + destruct (acquire reentrant i (g_lock g)) as [lk|] eqn:A; [|discriminate]. inversion E; subst. apply ACQ; auto.
    + destruct LN as (ops & a & EE & AR & D & V & R).
      assert (RT : forall o now nx lg, intercept has_async a m = (a, o) ->
         lg = g_log g ++ [(i, ERouted m o)] ->
         linear (mkCfg (g_c g) (g_lock g) (upd (g_th g) i (mkTh now nx)) lg) (es ++ [Run 0])).
      { intros o now nx lg IT ->. exists (ops ++ [ARoute i m]), a, EE. rewrite OTHER. cbn [g_c g_log].
        rewrite arun_app, AR. cbn [arun astep]. rewrite IT, filter_app, opd_app, opv_app, evd_app, evv_app. cbn.
        rewrite !app_nil_r. auto. }
      destruct (parse_ofp_header m) as [h|e] eqn:PH.
      * destruct (has_async && ((h_type h =? 10) || (h_type h =? 11) || (h_type h =? 12))) eqn:HA.
        -- inversion E; subst. eapply RT; [|reflexivity]. unfold intercept. rewrite PH, HA. reflexivity.
        -- destruct (acquire reentrant i (g_lock g)) as [lk|] eqn:A; [|discriminate]. inversion E; subst. apply ACQ; auto.
      * inversion E; subst. eapply RT; [|reflexivity]. unfold intercept. rewrite PH. reflexivity.
    + inversion E; subst. eapply (lin_quiet g _ es [(i, ECalled w m)]); eauto; exists ops, a, EE; auto.
  - (* the holder *)
    assert (exists d, g_lock g = Some (i, d)) as (d & LK).
    { unfold owns in HELD. destruct (g_lock g) as [[h d]|]; [|congruence]. destruct (Nat.eqb_spec i h) as [<-|]; [eauto|congruence]. }
    assert (AT : at_ g = stage_of (u :: k)) by (unfold at_; rewrite LK, N; reflexivity).
    assert (AT' : forall c' lk now nx lg, lk = Some (i, d) \/ (exists d', lk = Some (i, d')) \/ (lk = None /\ stage_of now = Calm) ->
       at_ (mkCfg c' lk (upd (g_th g) i (mkTh now nx)) lg) = stage_of now).
    { intros c' lk now nx lg [->|[(d' & ->)|(-> & ST)]]; unfold at_; cbn; unfold upd; rewrite ?Nat.eqb_refl; auto. }
    destruct LN as (ops & a & EE & AR & D & V & R). rewrite AT in R.
    (* a step that shows the result of one atomic step *)
    assert (SHOW : forall c' now nx lg op e E2, stage_of now = Calm ->
       astep has_async a op = (e, [(i, lg)]) -> result (i, lg) = true ->
       op_deaths [op] = [] -> op_versions [op] = [] -> c' = env e E2 ->
       dd E2 = dd EE -> vv E2 = vv EE ->
       linear (mkCfg c' (g_lock g) (upd (g_th g) i (mkTh now nx)) (g_log g ++ [(i, lg)])) (es ++ [Run 0])).
    { intros c' now nx lg op e E2 ST AS RS OD OV -> DE VE.
      exists (ops ++ [op] ++ map eop E2), (env e E2), []. rewrite AT' by auto. rewrite ST. cbn [g_c g_log].
      rewrite arun_app, AR. rewrite arun_app. cbn [arun]. rewrite AS, arun_env.
      rewrite !opd_app, !opv_app, eop_deaths, eop_versions, evd_app, evv_app, OD, OV, DE, VE, filter_app. cbn. rewrite RS, !app_nil_r.
      repeat split; auto. }
    assert (NEXT : forall c' lk now nx s, lk = Some (i, d) \/ (exists d', lk = Some (i, d')) \/ (lk = None /\ stage_of now = Calm) ->
       stage_of now = s -> rel_ a c' s EE ->
       linear (mkCfg c' lk (upd (g_th g) i (mkTh now nx)) (g_log g ++ [])) (es ++ [Run 0])).
    { intros c' lk now nx s LKS ST R'. exists ops, a, EE. rewrite AT' by auto. rewrite ST. cbn [g_c g_log].
      rewrite app_nil_r, evd_app, evv_app. cbn. rewrite !app_nil_r. auto. }
    assert (PUTS : forall q c' P nx, EE = [] -> g_c g = a ->
       puts c' P = locked_send a (q_h q) (q_m q) (q_bxid q) (q_o1 q) (q_o2 q) ->
       linear (mkCfg c' (g_lock g) (upd (g_th g) i (mkTh (UPut q P :: k) nx)) (g_log g ++ [])) (es ++ [Run 0])).
    { intros q c' P nx E0 C PT. eapply NEXT; [left; exact LK|reflexivity|]. exists c'. rewrite E0. auto. }
    assert (ONE : forall q c', puts c' [(q_m q, q_o2 q)] = k_put c' (q_m q) (q_o2 q)).
    { intros q c'. cbn. destruct (k_put c' (q_m q) (q_o2 q)) as [c2 [[]|e]]; reflexivity. }
    destruct u as [q|q|q|q P| |m|m|f m|w m]; cbn [stage_of] in R.
    + destruct R as [C E0]. destruct (acquire reentrant i (g_lock g)) as [lk|] eqn:A; [|discriminate]. inversion E; subst.
      eapply NEXT; [|reflexivity|cbn; auto]. right; left. unfold acquire in A. rewrite LK in A.
      destruct (_ && _) in A; inversion A; subst; eauto.
    + destruct R as [C E0]. rewrite C in E.
      destruct (parse_ofp_header (q_m q)) as [h|e] eqn:PH.
      * destruct (is_barrier_req h) eqn:B.
        { inversion E; subst g'. apply PUTS; auto. rewrite ONE. unfold locked_send. rewrite PH, B. reflexivity. }
        destruct (last_of (k_seq a)) as [[cb|x cb]|] eqn:LA.
        -- destruct (negb (cb_eqb (live (k_dead a) cb) (q_h q))) eqn:CB.
           ++ inversion E; subst g'. eapply NEXT; [left; exact LK|reflexivity|]. subst EE. split; [exists []; reflexivity|].
              split; [reflexivity|]. exists h, cb. rewrite Bool.negb_true_iff in CB. auto.
           ++ inversion E; subst g'. apply PUTS; auto. rewrite ONE. unfold locked_send. rewrite PH, B, LA, CB. reflexivity.
        -- inversion E; subst g'. apply PUTS; auto. rewrite ONE. unfold locked_send. rewrite PH, B, LA. reflexivity.
        -- destruct (negb (cb_eqb self_callback (q_h q))) eqn:CB; inversion E; subst g'; apply PUTS; auto;
             rewrite ONE; unfold locked_send; rewrite PH, B, LA, CB; reflexivity.
      * inversion E; subst g'. eapply (SHOW a _ _ _ (ASend i q) a []); auto; [apply stage_rel_filter| |subst EE; auto|subst EE; auto].
        cbn [astep]. unfold locked_send. rewrite PH. reflexivity.
    + destruct R as ((D0 & ->) & C & (h & cb & PH & B & LA & CB)). rewrite C in E.
      rewrite env_version_deaths, env_seq, env_with in E.
      destruct (barrier_msg (k_version a) (q_bxid q)) as [msg|e] eqn:BM.
      * inversion E; subst g'. eapply NEXT; [left; exact LK|reflexivity|]. eexists. split; [reflexivity|].
        unfold locked_send. rewrite PH, B, LA, CB, BM. cbn [negb puts].
        destruct (k_put _ msg (q_o1 q)) as [c2 [r|e]]; auto. destruct (k_put c2 (q_m q) (q_o2 q)) as [c3 [[]|e]]; reflexivity.
      * inversion E; subst g'. eapply (SHOW _ _ _ _ (ASend i q) a (map inl D0)); auto; [apply stage_rel_filter|].
        cbn [astep]. unfold locked_send. rewrite PH, B, LA, CB, BM. reflexivity.
    + destruct R as (s1 & C & PT). rewrite C in E. destruct P as [|[m o] P].
      * inversion E; subst g'. eapply (SHOW _ _ _ _ (ASend i q) s1 EE); auto. cbn [astep]. rewrite <- PT. reflexivity.
      * rewrite env_put in E. cbn [puts] in PT. destruct (k_put s1 m o) as [s2 [r|e]]; cbn [fst snd] in E.
        -- inversion E; subst g'. eapply NEXT; [left; exact LK|reflexivity|]. exists s2. auto.
        -- inversion E; subst g'. eapply (SHOW _ _ _ _ (ASend i q) s2 EE); auto; [apply stage_rel_filter|]. cbn [astep]. rewrite <- PT. reflexivity.
    + destruct R as [C E0]. inversion E; subst g'. eapply NEXT; [|exact CK|cbn; auto]. rewrite LK. destruct d; cbn; eauto.
    + destruct R as [C E0]. destruct (parse_ofp_header m) as [h|e] eqn:PH.
      * destruct (has_async && ((h_type h =? 10) || (h_type h =? 11) || (h_type h =? 12))) eqn:HA.
        -- inversion E; subst g'. eapply (SHOW _ _ _ _ (ARoute i m) a []); auto; [|subst EE; auto|subst EE; auto].
           cbn [astep]. unfold intercept. rewrite PH, HA. reflexivity.
        -- destruct (acquire reentrant i (g_lock g)) as [lk|] eqn:A; [|discriminate]. inversion E; subst.
           eapply NEXT; [|reflexivity|cbn; auto]. right; left. unfold acquire in A. rewrite LK in A.
           destruct (_ && _) in A; inversion A; subst; eauto.
      * inversion E; subst g'. eapply (SHOW _ _ _ _ (ARoute i m) a []); auto; [apply stage_rel_filter| |subst EE; auto|subst EE; auto].
        cbn [astep]. unfold intercept. rewrite PH. reflexivity.
    + destruct R as [C E0]. rewrite C in E. rewrite (route_tail _ _ _ _ S_) in *.
      destruct (intercept has_async a m) as [c' o] eqn:IT. destruct o; try discriminate; inversion E; subst g';
        (eapply (SHOW _ _ _ _ (ARoute i m) c' []); auto; [|subst EE; auto|subst EE; auto]; cbn [astep]; rewrite IT; reflexivity).
    + destruct R as [C E0].
      assert (Q : forall lg now nx, filter result lg = [] -> stage_of now = Calm ->
         linear (mkCfg (g_c g) (g_lock g) (upd (g_th g) i (mkTh now nx)) (g_log g ++ lg)) (es ++ [Run 0])).
      { intros lg now nx F ST. exists ops, a, EE. rewrite AT' by auto. rewrite ST. cbn [g_c g_log].
        rewrite filter_app, F, !app_nil_r, evd_app, evv_app. cbn. rewrite !app_nil_r. auto. }
      destruct (live _ _); inversion E; subst g'; apply Q; auto; [|apply stage_rel_filter].
      apply calm_stage. destruct (body (WCb f) m); cbn; auto. destruct k; auto. eapply tail_calm; eauto. left. reflexivity.
    + destruct R as [C E0]. inversion E; subst g'. exists ops, a, EE.
      rewrite AT' by auto. rewrite (calm_stage (map USend (body w m) ++ k)).
      * cbn [g_c g_log]. rewrite filter_app, evd_app, evv_app. cbn. rewrite !app_nil_r. auto.
      * destruct (body w m); cbn; auto. destruct k; auto. eapply tail_calm; eauto. left. reflexivity.
Qed.

(** Everything together. *)
Definition inv (progs : nat -> list job) (g : cfg) (es : list ev) : Prop :=
  (forall x, teller body has_async (progs x) (g_th g x) (log_of x (g_log g))) /\ locked g /\ linear g es.
Lemma teller_shaped progs g : (forall x, teller body has_async (progs x) (g_th g x) (log_of x (g_log g))) -> shaped g.
Proof.
  intros T x. destruct (T x) as (pre & cur & l1 & l2 & _ & _ & _ & [(_ & _ & N)|(j & _ & S_)]); eauto.
Qed.
Lemma linear_ext g es es' : ev_deaths es = ev_deaths es' -> ev_versions es = ev_versions es' -> linear g es -> linear g es'.
Proof. intros D V (ops & a & E & A & B & C & R). exists ops, a, E. rewrite <- D, <- V. auto. Qed.
Lemma inv_step progs g es e : inv progs g es -> inv progs (gstep reentrant has_async body g e) (es ++ [e]).
Proof.
  intros (T & L & LN). destruct e as [i|f|v]; cbn [gstep].
  - destruct (tstep i g) as [g'|] eqn:E.
    + split; [eapply tell_step; eauto|]. pose proof (teller_shaped _ _ T). split; [eapply lock_step; eauto|].
      eapply linear_ext; [| |eapply lin_step; eauto]; rewrite !evd_app || rewrite !evv_app; reflexivity.
    + split; auto. split; auto. eapply linear_ext; [| |exact LN]; [rewrite evd_app|rewrite evv_app]; cbn; rewrite app_nil_r; reflexivity.
  - split; auto. split; auto. destruct LN as (ops & a & E & A & B & C & R). unfold at_ in R. cbn [g_lock g_th].
    unfold linear, at_. cbn [g_c g_lock g_th g_log]. rewrite evd_app, evv_app. cbn.
    destruct (match g_lock g with None => Calm | Some (i, _) => stage_of (t_now (g_th g i)) end) as [|q|q P]; cbn [rel_] in *.
    + destruct R as [-> ->]. exists (ops ++ [ADie f]), (k_die a f), []. rewrite arun_app, A. cbn. rewrite opd_app, opv_app. cbn in *.
      rewrite !app_nil_r in *. subst. repeat split; congruence.
    + destruct R as ((D & ->) & -> & SC). exists ops, a, (map inl D ++ [inl f]). split; auto.
      rewrite dd_snoc, vv_snoc. cbn. rewrite app_assoc, B, !app_nil_r. repeat split; auto.
      * exists (D ++ [f]). rewrite map_app. reflexivity.
      * rewrite env_snoc. reflexivity.
    + destruct R as (s1 & -> & PT). exists ops, a, (E ++ [inl f]). split; auto.
      rewrite dd_snoc, vv_snoc. cbn. rewrite app_assoc, B, !app_nil_r. repeat split; auto.
      exists s1. rewrite env_snoc. auto.
  - split; auto. split; auto. destruct LN as (ops & a & E & A & B & C & R). unfold at_ in R. cbn [g_lock g_th].
    unfold linear, at_. cbn [g_c g_lock g_th g_log]. rewrite evd_app, evv_app. cbn.
    destruct (match g_lock g with None => Calm | Some (i, _) => stage_of (t_now (g_th g i)) end) as [|q|q P]; cbn [rel_] in *.
    + destruct R as [-> ->]. exists (ops ++ [AVersion v]), (k_ver a v), []. rewrite arun_app, A. cbn. rewrite opd_app, opv_app. cbn in *.
      rewrite !app_nil_r in *. subst. repeat split; congruence.
    + destruct R as ((D & ->) & -> & SC). exists (ops ++ [AVersion v]), (k_ver a v), (map inl D).
      rewrite arun_app, A. cbn [arun astep]. rewrite vv_deaths, app_nil_r in C. rewrite opd_app, opv_app, vv_deaths, !app_nil_r. cbn. rewrite ?app_nil_r, C. repeat split; auto.
      * exists D. reflexivity.
      * rewrite env_ver_deaths. reflexivity.
    + destruct R as (s1 & -> & PT). exists ops, a, (E ++ [inr v]). split; auto.
      rewrite dd_snoc, vv_snoc. cbn. rewrite !app_nil_r, app_assoc, C. repeat split; auto.
      exists s1. rewrite env_snoc. auto.
Qed.
Lemma inv_init progs : inv progs (g_init progs) [].
Proof.
  split; [|split].
  - intros x. exists [], [], [], []. cbn. repeat split; auto. constructor.
  - intros x. reflexivity.
  - exists [], k_new, []. cbn. auto.
Qed.
Lemma inv_run progs es : inv progs (grun reentrant has_async body (g_init progs) es) es.
Proof.
  unfold grun. induction es as [|e es IH] using rev_ind; [apply inv_init|].
  rewrite fold_left_app. cbn. apply inv_step; auto.
Qed.
End Lin.

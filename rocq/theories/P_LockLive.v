(** Proofs about M_Lock.v: the lock is released; what happens with one that is not reentrant; callbacks
    that are collected. *)

From Coq Require Import Lia.
From Verif Require Import Py Struct P_Struct M_Hello M_Loop M_Controller M_Lock S_Lock P_Lock P_LockLin.
Local Open Scope Z_scope.

Section Live.
Variable has_async : bool.
Variable body : who -> bytes -> list snd_.

(** Steps left, but for what a routing decision may add. *)
Definition weight (u : micro) : nat :=
  match u with
  | USend _ => 7 | UIn _ => 5 | USep _ => 4 | UPut _ P => 1 + length P | URel => 1
  | UMsg _ => 1 | URoute _ => 1
  | UCall f m => 1 + 7 * length (body (WCb f) m)
  | UHandle w m => 1 + 7 * length (body w m)
  end.
Definition weigh (l : list micro) : nat := fold_right (fun u n => weight u + n)%nat O l.
Lemma weigh_app a b : weigh (a ++ b) = (weigh a + weigh b)%nat.
Proof. induction a as [|u a IH]; cbn [Datatypes.app weigh fold_right]; auto. fold (weigh (a ++ b)) (weigh a). lia. Qed.
Lemma weigh_sends qs : weigh (map USend qs) = (7 * length qs)%nat.
Proof. induction qs as [|q qs IH]; auto. cbn [map weigh fold_right length]. fold (weigh (map USend qs)). rewrite IH. cbn [weight]. lia. Qed.
Lemma weigh_filter k : (weigh (filter is_rel k) <= weigh k)%nat.
Proof.
  induction k as [|u k IH]; auto. cbn [filter weigh fold_right]. fold (weigh k).
  destruct (is_rel u); cbn [weigh fold_right]; fold (weigh (filter is_rel k)); lia.
Qed.
Lemma intercept_not_async c m h : parse_ofp_header m = Ok h ->
  has_async && ((h_type h =? 10) || (h_type h =? 11) || (h_type h =? 12)) = false -> snd (intercept has_async c m) <> ToAsync.
Proof.
  intros P A. unfold intercept. rewrite P, A. unfold self_callback. destruct (k_seq c) as [|e q]; [discriminate|].
  destruct (is_barrier_rep h).
  - assert (W : forall q d, snd (walk (k_dead c) (h_xid h) d q) <> ToAsync).
    { clear. induction q as [|e q IH]; intros d; cbn; [discriminate|]. destruct e as [cb|x cb].
      - destruct d; [discriminate|apply IH].
      - destruct (x =? h_xid h); [|discriminate]. cbn. destruct (live _ _); discriminate. }
    specialize (W (e :: q) false). destruct (walk _ _ _ _) as [[q'|] r]; exact W.
  - destruct e as [cb|x cb]; [|discriminate]. destruct (live _ _); discriminate.
Qed.

(** A holder of a reentrant lock goes on; with less to do, unless it was about to route a message. *)
Lemma holder_steps progs es g i d : inv has_async body progs g es -> g_lock g = Some (i, d) ->
  exists u k g', t_now (g_th g i) = u :: k /\ tstep true has_async body i g = Some g' /\
    ((weigh (t_now (g_th g' i)) < weigh (u :: k))%nat \/ (exists m, u = URoute m)) /\
    (forall m, t_now (g_th g' i) <> URoute m :: [URel] \/ exists m', u = UMsg m').
Proof.
  intros (T & L & LN) LK. pose proof (teller_shaped _ _ _ _ T) as SH. pose proof (L i) as Li. rewrite LK in Li. cbn in Li.
  rewrite Nat.eqb_refl in Li. destruct (t_now (g_th g i)) as [|u k] eqn:N; [discriminate|].
  destruct (SH i) as [Z|(j & l & S_)]; [congruence|]. rewrite N in S_.
  assert (RT : forall m k', k = k' -> In (URoute m) k' -> False).
  { intros m k' -> I_. 
    assert (B : forall qs w, ~ In (URoute m) (map USend qs ++ base w)).
    { intros qs w H. apply in_app_or in H. destruct H as [H|H].
      - apply in_map_iff in H. destruct H as (q & X & _). discriminate.
      - destruct w; cbn in H; [destruct H as [H|[]]; discriminate|contradiction|contradiction]. }
    inversion S_; subst; cbn in I_; try contradiction; try (destruct I_ as [I_|I_]; [discriminate|try contradiction; eapply B; eauto]; fail).
    - destruct qs as [|q qs]; cbn in *.
      + destruct w; cbn in *; try discriminate. match goal with H : [URel] = _ |- _ => inversion H; subst end. contradiction.
      + match goal with H : USend q :: _ = _ |- _ => inversion H; subst end. eapply B; eauto.
    - eapply B; eauto.
    - destruct n as [|n]; [discriminate|]. cbn in *. match goal with H : URel :: _ = _ |- _ => inversion H; subst end.
      apply repeat_spec in I_. discriminate. }
  unfold tstep. rewrite N.
  assert (GO : forall c' l' now lg, (weigh now < weigh (u :: k))%nat \/ (exists m, u = URoute m) ->
      (forall m, ~ In (URoute m) now) \/ (exists m, u = UMsg m) ->
     exists u0 k0 g', u :: k = u0 :: k0 /\
       Some (mkCfg c' l' (upd (g_th g) i (mkTh now (t_next (g_th g i)))) lg) = Some g' /\
       ((weigh (t_now (g_th g' i)) < weigh (u0 :: k0))%nat \/ (exists m, u0 = URoute m)) /\
       (forall m, t_now (g_th g' i) <> URoute m :: [URel] \/ exists m', u0 = UMsg m')).
  { intros c' l' now lg W R. do 3 eexists. split; [reflexivity|]. split; [reflexivity|]. cbn [g_th]. unfold upd. rewrite Nat.eqb_refl.
    split; auto. intros m. destruct R as [R|R]; auto. left. intros X. cbn in X. apply (R m). rewrite X. left. reflexivity. }
  pose proof (weigh_filter k) as WF. pose proof (RT) as RT'.
  assert (FR : forall m, ~ In (URoute m) (filter is_rel k)).
  { intros m I_. apply filter_In in I_. destruct I_ as [_ I_]. discriminate. }
  assert (KR : forall m, ~ In (URoute m) k) by (intros m I_; eapply RT; eauto).
  assert (WC : forall u k, weigh (u :: k) = (weight u + weigh k)%nat) by reflexivity.
  assert (ACQ : acquire true i (g_lock g) = Some (Some (i, S d))) by (unfold acquire; rewrite LK, Nat.eqb_refl; reflexivity).
  destruct u as [q|q|q|q P| |m|m|f m|w m].
  - rewrite ACQ. apply GO; [left; rewrite !WC; cbn; lia|left]. intros m [X|[X|X]]; try discriminate. eapply KR; eauto.
  - assert (G1 : forall c' lk P lg, length P = 1%nat ->
      exists u0 k0 g', UIn q :: k = u0 :: k0 /\ Some (mkCfg c' lk (upd (g_th g) i (mkTh (UPut q P :: k) (t_next (g_th g i)))) lg) = Some g' /\
       ((weigh (t_now (g_th g' i)) < weigh (u0 :: k0))%nat \/ (exists m, u0 = URoute m)) /\
       (forall m, t_now (g_th g' i) <> URoute m :: [URel] \/ exists m', u0 = UMsg m')).
    { intros c' lk P lg LP. apply GO; [left; rewrite !WC; cbn; lia|left]. intros m [X|X]; try discriminate. eapply KR; eauto. }
    destruct (parse_ofp_header (q_m q)) as [h|e]; [|apply GO; [left; rewrite WC; cbn; lia|left; auto]].
    destruct (is_barrier_req h); [apply G1; reflexivity|].
    destruct (last_of _) as [[cb|x cb]|]; [destruct (negb _)| |destruct (negb _)]; try (apply G1; reflexivity).
    apply GO; [left; rewrite !WC; cbn; lia|left]. intros m [X|X]; try discriminate. eapply KR; eauto.
  - destruct (barrier_msg _ _) as [msg|e]; apply GO; try (left; rewrite ?WC; cbn; lia); left; auto.
    intros m [X|X]; try discriminate. eapply KR; eauto.
  - destruct P as [|[m o] P].
    + apply GO; [left; rewrite WC; cbn; lia|left; auto].
    + destruct (k_put _ _ _) as [c' [r|e]]; apply GO; try (left; rewrite ?WC; cbn; lia); left; auto.
      intros m' [X|X]; try discriminate. eapply KR; eauto.
  - apply GO; [left; rewrite WC; cbn; lia|left; auto].
  - exfalso. inversion S_; subst.
    + match goal with H : act _ _ |- _ => inversion H end.
    + discriminate Li.
    + destruct qs as [|q qs]; [destruct w|]; discriminate.
    + match goal with H : act _ _ |- _ => inversion H end.
    + destruct n; discriminate.
  - assert (exists h, parse_ofp_header m = Ok h /\ has_async && ((h_type h =? 10) || (h_type h =? 11) || (h_type h =? 12)) = false /\ k = [URel]) as (h & PH & HA & ->).
    { inversion S_; subst; eauto; try (match goal with H : act _ _ |- _ => inversion H end; fail).
      - destruct qs as [|q qs]; [destruct w|]; discriminate.
      - destruct n; discriminate. }
    pose proof (intercept_not_async (g_c g) m h PH HA) as NA.
    destruct (intercept has_async (g_c g) m) as [c' o]. cbn [snd] in NA.
    destruct o; try congruence; apply GO; try (right; eauto; fail); left; intros m' X; cbn in X; repeat (destruct X as [X|X]; [discriminate X|]); contradiction.
  - destruct (live _ _); apply GO; try (left; rewrite ?WC; rewrite ?weigh_app, ?weigh_sends; cbn [weight]; lia); left; auto.
    intros m' X. apply in_app_or in X. destruct X as [X|X]; [apply in_map_iff in X; destruct X as (? & ? & _); discriminate|eapply KR; eauto].
  - apply GO; [left; rewrite WC, weigh_app, weigh_sends; cbn [weight]; lia|left].
    intros m' X. apply in_app_or in X. destruct X as [X|X]; [apply in_map_iff in X; destruct X as (? & ? & _); discriminate|eapply KR; eauto].
Qed.
Lemma owner_kept progs es g i d g' : inv has_async body progs g es -> g_lock g = Some (i, d) ->
  tstep true has_async body i g = Some g' -> g_lock g' = None \/ exists d', g_lock g' = Some (i, d').
Proof.
  intros (T & L & LN) LK E. unfold tstep in E. rewrite LK in E.
  destruct (t_now (g_th g i)) as [|u k]; [destruct (t_next _); inversion E; subst; cbn; eauto|].
  destruct u as [q|q|q|q P| |m|m|f m|w m].
  - unfold acquire in E. rewrite Nat.eqb_refl in E. inversion E; subst. cbn. eauto.
  - destruct (parse_ofp_header (q_m q)) as [h|e]; [|inversion E; subst; cbn; eauto].
    destruct (is_barrier_req h); [inversion E; subst; cbn; eauto|].
    destruct (last_of _) as [[cb|x cb]|]; [destruct (negb _)| |destruct (negb _)]; inversion E; subst; cbn; eauto.
  - destruct (barrier_msg _ _); inversion E; subst; cbn; eauto.
  - destruct P as [|[m o] P]; [inversion E; subst; cbn; eauto|]. destruct (k_put _ _ _) as [c' [r|e]]; inversion E; subst; cbn; eauto.
  - inversion E; subst. destruct d; cbn; eauto.
  - destruct (parse_ofp_header m) as [h|e]; [|inversion E; subst; cbn; eauto].
    destruct (has_async && _); [inversion E; subst; cbn; eauto|]. unfold acquire in E. rewrite Nat.eqb_refl in E. inversion E; subst. cbn. eauto.
  - destruct (intercept has_async (g_c g) m) as [c' o]. destruct o; try discriminate; try (inversion E; subst; cbn; eauto; fail).
    destruct k as [|[] k']; try discriminate. inversion E; subst; cbn; eauto.
  - destruct (live _ _); inversion E; subst; cbn; eauto.
  - inversion E; subst; cbn; eauto.
Qed.
Lemma others re i j n : j <> i -> forall g, g_th (grun re has_async body g (repeat (Run j) n)) i = g_th g i.
Proof.
  intros X. induction n as [|n IH]; intros g; auto. unfold grun. cbn [repeat fold_left].
  fold (grun re has_async body (gstep re has_async body g (Run j)) (repeat (Run j) n)). rewrite IH. cbn [gstep].
  destruct (tstep re has_async body j g) as [g2|] eqn:E; auto.
  assert (U : forall t, upd (g_th g) j t i = g_th g i) by (intros; unfold upd; destruct (Nat.eqb_spec i j); congruence).
  unfold tstep in E.
  repeat match type of E with
  | (match ?x with _ => _ end) = _ => destruct x; try discriminate
  end; inversion E; subst; cbn; apply U.
Qed.
Lemma released progs es g i d : inv has_async body progs g es -> g_lock g = Some (i, d) ->
  exists n, g_lock (grun true has_async body g (repeat (Run i) n)) = None.
Proof.
  assert (K : forall n g es d, (weigh (t_now (g_th g i)) < n)%nat -> (forall m, t_now (g_th g i) <> URoute m :: [URel]) ->
    inv has_async body progs g es -> g_lock g = Some (i, d) ->
    exists n, g_lock (grun true has_async body g (repeat (Run i) n)) = None).
  { clear. induction n as [|n IH]; intros g es d W R IV LK; [lia|].
    destruct (holder_steps progs es g i d IV LK) as (u & k & g' & N & E & W' & R').
    pose proof (inv_step true _ _ _ _ _ (Run i) IV) as IV'. cbn [gstep] in IV'. rewrite E in IV'.
    destruct (owner_kept _ _ _ _ _ _ IV LK E) as [F|(d' & LK')].
    { exists 1%nat. cbn. rewrite E. exact F. }
    assert (H : exists n, g_lock (grun true has_async body g' (repeat (Run i) n)) = None).
    { eapply IH; eauto.
      - destruct W' as [W'|(m & ->)]; [rewrite N in W; lia|]. exfalso.
        destruct IV as (T & L & _). destruct (teller_shaped _ _ _ _ T i) as [Z|(j & l & S_)]; [congruence|].
        rewrite N in S_. apply (R m). rewrite N, (route_tail _ _ _ _ _ _ S_). reflexivity.
      - intros m. destruct (R' m) as [X|(m' & ->)]; auto. exfalso.
        destruct IV as (T & L & _). pose proof (L i) as Li. rewrite LK in Li. cbn in Li. rewrite Nat.eqb_refl, N in Li.
        destruct (teller_shaped _ _ _ _ T i) as [Z|(j & l & S_)]; [congruence|]. rewrite N in S_. inversion S_; subst.
        + match goal with H : act _ _ |- _ => inversion H end.
        + discriminate Li.
        + destruct qs as [|q qs]; [destruct w|]; discriminate.
        + match goal with H : act _ _ |- _ => inversion H end.
        + destruct n0; discriminate. }
    destruct H as (n' & H). exists (S n'). cbn. rewrite E. exact H. }
  intros IV LK. 
  destruct (holder_steps progs es g i d IV LK) as (u & k & g' & N & E & W' & R').
  pose proof (inv_step true _ _ _ _ _ (Run i) IV) as IV'. cbn [gstep] in IV'. rewrite E in IV'.
  destruct (owner_kept _ _ _ _ _ _ IV LK E) as [F|(d' & LK')].
  { exists 1%nat. cbn. rewrite E. exact F. }
  assert (H : exists n, g_lock (grun true has_async body g' (repeat (Run i) n)) = None).
  { eapply K; eauto. intros m. destruct (R' m) as [X|(m' & ->)]; auto. exfalso.
    destruct IV as (T & L & _). pose proof (L i) as Li. rewrite LK in Li. cbn in Li. rewrite Nat.eqb_refl, N in Li.
    destruct (teller_shaped _ _ _ _ T i) as [Z|(j & l & S_)]; [congruence|]. rewrite N in S_. inversion S_; subst.
    + match goal with H : act _ _ |- _ => inversion H end.
    + discriminate Li.
    + destruct qs as [|q qs]; [destruct w|]; discriminate.
    + match goal with H : act _ _ |- _ => inversion H end.
    + destruct n; discriminate. }
  destruct H as (n' & H). exists (S n'). cbn. rewrite E. exact H.
Qed.

(** *** A lock that is not reentrant *)
Definition silent (e : nat * ent) : Prop :=
  match snd e with ESent _ _ => False | ERouted _ ToAsync | ERouted _ (FailExn _) => True | ERouted _ _ => False | _ => True end.
Lemma stuck progs es g i d q k : inv has_async body progs g es -> g_lock g = Some (i, d) ->
  t_now (g_th g i) = USend q :: k -> forall es',
  let g' := grun false has_async body g es' in
  g_lock g' = Some (i, d) /\ g_th g' i = g_th g i /\ exists new, g_log g' = g_log g ++ new /\ Forall silent new.
Proof.
  intros IV LK N es'.
  assert (K : inv has_async body progs (grun false has_async body g es') (es ++ es') /\
    g_lock (grun false has_async body g es') = Some (i, d) /\ g_th (grun false has_async body g es') i = g_th g i /\
    exists new, g_log (grun false has_async body g es') = g_log g ++ new /\ Forall silent new).
  { induction es' as [|e es' IH] using rev_ind; unfold grun.
    { cbn. rewrite app_nil_r. split; [exact IV|]. repeat split; auto. exists []. rewrite app_nil_r. auto. }
    rewrite fold_left_app. fold (grun false has_async body g es'). cbn [fold_left].
    set (g1 := grun false has_async body g es') in *. destruct IH as (IV1 & LK1 & TH1 & new & LG1 & SN).
    split; [rewrite app_assoc; apply inv_step; auto|].
    destruct e as [x|f|v]; cbn [gstep]; [|cbn; eauto|cbn; eauto].
    destruct (tstep false has_async body x g1) as [g2|] eqn:E; [|eauto].
    destruct IV1 as (T & L & _). pose proof (teller_shaped _ _ _ _ T x) as SH. pose proof (L x) as Lx.
    rewrite LK1 in Lx. cbn in Lx. unfold tstep in E. rewrite LK1 in E.
    destruct (Nat.eqb_spec x i) as [->|X].
    { rewrite TH1, N in E. cbn in E. rewrite Bool.andb_false_r in E. discriminate. }
    assert (XI : (i =? x)%nat = false) by (apply Nat.eqb_neq; congruence).
    assert (GO : forall c' now nx lg, Forall silent lg ->
       Some (mkCfg c' (Some (i, d)) (upd (g_th g1) x (mkTh now nx)) (g_log g1 ++ lg)) = Some g2 ->
       g_lock g2 = Some (i, d) /\ g_th g2 i = g_th g i /\ exists new, g_log g2 = g_log g ++ new /\ Forall silent new).
    { intros c' now nx lg F Q. inversion Q; subst. cbn. unfold upd. rewrite XI. repeat split; auto.
      exists (new ++ lg). rewrite LG1, app_assoc. split; auto. apply Forall_app. auto. }
    destruct (t_now (g_th g1 x)) as [|u k0] eqn:N1.
    { destruct (t_next (g_th g1 x)) as [|j js]; [discriminate|]. eapply GO with (lg := []); [constructor|]. rewrite app_nil_r. exact E. }
    destruct SH as [Z|(j & l & S_)]; [congruence|].
    pose proof (free_head _ _ _ _ _ _ S_ Lx) as HD. destruct u; try contradiction.
    - cbn in E. rewrite XI in E. discriminate.
    - destruct (parse_ofp_header m) as [h|e]; [|eapply GO; [|exact E]; repeat constructor].
      destruct (has_async && _); [eapply GO; [|exact E]; repeat constructor|]. cbn in E. rewrite XI in E. discriminate.
    - eapply GO; [|exact E]. repeat constructor. }
  exact (proj2 K).
Qed.

(** *** Callbacks that are collected *)
(** Nothing is collected while the lock is held. *)
Fixpoint tidy (re : bool) (g : cfg) (es : list ev) : Prop :=
  match es with
  | [] => True
  | e :: es' => match e with Die _ => g_lock g = None | _ => True end /\ tidy re (gstep re has_async body g e) es'
  end.
Definition callable (g : cfg) : Prop :=
  forall i f m k, t_now (g_th g i) = UCall f m :: k -> existsb (Nat.eqb f) (k_dead (g_c g)) = false.
Lemma live_in dead cb f : live dead cb = Some f -> existsb (Nat.eqb f) dead = false.
Proof. destruct cb as [x|]; cbn; [|discriminate]. destruct (existsb _ _) eqn:E; [discriminate|]. intros [= <-]. exact E. Qed.
Lemma intercept_live c m f c' : intercept has_async c m = (c', ToCallback f) -> existsb (Nat.eqb f) (k_dead c') = false.
Proof.
  unfold intercept. destruct (parse_ofp_header m) as [h|e]; [|discriminate].
  destruct (has_async && _); [discriminate|]. unfold self_callback. destruct (k_seq c) as [|e q]; [discriminate|].
  destruct (is_barrier_rep h).
  - assert (W : forall q d o, walk (k_dead c) (h_xid h) d q = (o, ToCallback f) -> existsb (Nat.eqb f) (k_dead c) = false).
    { clear. induction q as [|e q IH]; intros d o; cbn; [discriminate|]. destruct e as [cb|x cb].
      - destruct d; [discriminate|apply IH].
      - destruct (x =? h_xid h); [|discriminate]. destruct (live _ _) eqn:L; [|discriminate]. intros [= _ <-]. eapply live_in; eauto. }
    destruct (walk (k_dead c) (h_xid h) false (e :: q)) as [[q'|] r] eqn:E; intros [= <- ->]; apply W in E; exact E.
  - destruct e as [cb|x cb]; [|discriminate]. destruct (live _ _) eqn:L; [|discriminate]. intros [= <- <-]. eapply live_in; eauto.
Qed.
Lemma callable_step re progs es g e : inv has_async body progs g es -> callable g ->
  match e with Die _ => g_lock g = None | _ => True end ->
  callable (gstep re has_async body g e) /\
  exists new, g_log (gstep re has_async body g e) = g_log g ++ new /\ Forall (fun x => match snd x with ENotCallable _ _ => False | _ => True end) new.
Proof.
  intros IV CA TD. destruct e as [i|f|v]; cbn [gstep].
  - destruct (tstep re has_async body i g) as [g'|] eqn:E; [|split; auto; exists []; rewrite app_nil_r; auto].
    destruct IV as (T & L & _). pose proof (teller_shaped _ _ _ _ T) as SH.
    assert (GO : forall c' l' now nx lg, k_dead c' = k_dead (g_c g) ->
       (forall f m k, now = UCall f m :: k -> existsb (Nat.eqb f) (k_dead c') = false) ->
       Forall (fun x => match snd x with ENotCallable _ _ => False | _ => True end) lg ->
       Some (mkCfg c' l' (upd (g_th g) i (mkTh now nx)) (g_log g ++ lg)) = Some g' ->
       callable g' /\ exists new, g_log g' = g_log g ++ new /\ Forall (fun x => match snd x with ENotCallable _ _ => False | _ => True end) new).
    { intros c' l' now nx lg D U F Q. inversion Q; subst. cbn. split; [|eauto].
      intros x f m k. cbn. unfold upd. destruct (Nat.eqb_spec x i) as [->|X]; cbn; [apply U|]. rewrite D. apply CA. }
    unfold tstep in E. destruct (t_now (g_th g i)) as [|u k] eqn:N.
    { destruct (t_next (g_th g i)) as [|j js]; [discriminate|]. eapply GO with (lg := []); [| | |rewrite app_nil_r; exact E]; auto.
      intros f m k X. destruct j; discriminate. }
    destruct (SH i) as [Z|(j & l & S_)]; [congruence|]. rewrite N in S_.
    assert (NC : forall f m, ~ In (UCall f m) k).
    { intros f m I_. 
      assert (B : forall qs w, ~ In (UCall f m) (map USend qs ++ base w)).
      { intros qs w H. apply in_app_or in H. destruct H as [H|H].
        - apply in_map_iff in H. destruct H as (q & X & _). discriminate.
        - destruct w; cbn in H; [destruct H as [H|[]]; discriminate|contradiction|contradiction]. }
      inversion S_; subst; cbn in I_; try contradiction; try (destruct I_ as [I_|I_]; [discriminate|try contradiction; eapply B; eauto]; fail).
      - destruct qs as [|q qs]; cbn in *.
        + destruct w; cbn in *; try discriminate. match goal with H : [URel] = _ |- _ => inversion H; subst end. contradiction.
        + match goal with H : USend q :: _ = _ |- _ => inversion H; subst end. eapply B; eauto.
      - eapply B; eauto.
      - destruct n as [|n]; [discriminate|]. cbn in *. match goal with H : URel :: _ = _ |- _ => inversion H; subst end.
        apply repeat_spec in I_. discriminate. }
    assert (K1 : forall f m k' (c' : cch), k = UCall f m :: k' -> existsb (Nat.eqb f) (k_dead c') = false).
    { intros f m k' c' X. exfalso. apply (NC f m). rewrite X. left. reflexivity. }
    assert (K2 : forall f m k' (c' : cch), filter is_rel k = UCall f m :: k' -> existsb (Nat.eqb f) (k_dead c') = false).
    { intros f m k' c' X. exfalso. assert (In (UCall f m) (filter is_rel k)) as I_ by (rewrite X; left; reflexivity).
      apply filter_In in I_. destruct I_. discriminate. }
    assert (K3 : forall qs f m k' (c' : cch), map USend qs ++ k = UCall f m :: k' -> existsb (Nat.eqb f) (k_dead c') = false).
    { intros [|q qs] f m k' c' X; [eapply K1; eauto|discriminate]. }
    destruct u as [q|q|q|q P| |m|m|f m|w m].
    + destruct (acquire _ _ _); [|discriminate]. eapply GO; [| | |exact E]; auto; try (intros; discriminate). constructor.
    + destruct (parse_ofp_header (q_m q)) as [h|e]; [|eapply GO; [| | |exact E]; eauto; repeat constructor].
      destruct (is_barrier_req h); [eapply GO; [| | |exact E]; auto; try (intros; discriminate); constructor|].
      destruct (last_of _) as [[cb|x cb]|]; [destruct (negb _)| |destruct (negb _)]; (eapply GO; [| | |exact E]; auto; try (intros; discriminate); constructor).
    + destruct (barrier_msg _ _); (eapply GO; [| | |exact E]; eauto; try (intros; discriminate); repeat constructor).
    + destruct P as [|[m o] P]; [eapply GO; [| | |exact E]; eauto; repeat constructor|].
      destruct (k_put (g_c g) m o) as [c' [r|e]] eqn:KP; (eapply GO; [| | |exact E]; eauto; try (intros; discriminate); repeat constructor);
        unfold k_put in KP; destruct o; inversion KP; reflexivity.
    + eapply GO; [| | |exact E]; eauto. constructor.
    + destruct (parse_ofp_header m) as [h|e]; [|eapply GO; [| | |exact E]; eauto; repeat constructor].
      destruct (has_async && _); [eapply GO; [| | |exact E]; auto; try (intros; discriminate); repeat constructor|].
      destruct (acquire _ _ _); [|discriminate]. eapply GO; [| | |exact E]; auto; try (intros; discriminate). constructor.
    + destruct (intercept has_async (g_c g) m) as [c' o] eqn:IT.
      assert (D : k_dead c' = k_dead (g_c g)).
      { unfold intercept in IT. destruct (parse_ofp_header m) as [h|e]; [|inversion IT; reflexivity].
        destruct (has_async && _); [inversion IT; reflexivity|]. destruct (k_seq (g_c g)) as [|e q]; [inversion IT; reflexivity|].
        destruct (is_barrier_rep h).
        - destruct (walk _ _ _ _) as [[q'|] r]; inversion IT; reflexivity.
        - destruct e as [cb|x cb]; [destruct (live _ _)|]; inversion IT; reflexivity. }
      destruct o; try discriminate; try (eapply GO; [| | |exact E]; eauto; try (intros; discriminate); repeat constructor; fail).
      * eapply GO; [| | |exact E]; auto; [|repeat constructor]. intros f' m' k' [= <- _ _]. eapply intercept_live; eauto.
      * destruct k as [|[] k']; try discriminate. eapply GO; [| | |exact E]; auto; try (intros; discriminate); repeat constructor.
    + pose proof (CA i f m k N) as CF. cbn [live] in E. rewrite CF in E. eapply GO; [| | |exact E]; eauto. repeat constructor.
    + eapply GO; [| | |exact E]; eauto. repeat constructor.
  - cbn. split; [|exists []; rewrite app_nil_r; auto]. intros i x m k N. cbn in N. exfalso.
    destruct IV as (T & L & _). pose proof (L i) as Li. rewrite TD in Li. cbn in Li. rewrite N in Li.
    destruct (teller_shaped _ _ _ _ T i) as [Z|(j & l & S_)]; [congruence|]. rewrite N in S_. apply (free_head _ _ _ _ _ _ S_ Li).
  - cbn. split; [|exists []; rewrite app_nil_r; auto]. exact CA.
Qed.
Lemma tidy_run re progs es' : forall g es, inv has_async body progs g es -> callable g -> tidy re g es' ->
  exists new, g_log (grun re has_async body g es') = g_log g ++ new /\ Forall (fun x => match snd x with ENotCallable _ _ => False | _ => True end) new.
Proof.
  induction es' as [|e es' IH]; intros g es IV CA TD; [exists []; cbn; rewrite app_nil_r; auto|].
  destruct TD as [T1 T2]. destruct (callable_step re progs es g e IV CA T1) as (CA' & n1 & L1 & F1).
  pose proof (inv_step re _ _ _ _ _ e IV) as IV'. destruct (IH _ _ IV' CA' T2) as (n2 & L2 & F2).
  unfold grun in *. cbn [fold_left]. rewrite L2, L1, <- app_assoc. exists (n1 ++ n2). split; auto. apply Forall_app. auto.
Qed.
End Live.

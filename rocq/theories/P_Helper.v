(** Proofs about helper sockets. *)

From Verif Require Import Py Struct M_Hello M_Loop M_Controller M_Parent M_Helper S_Hello S_Loop S_Controller S_Parent S_Helper
  P_Hello P_Controller P_Switch P_Parent.
Local Open Scope Z_scope.

Lemma path_eqb_iff p q : path_eqb p q = true <-> p = q.
Proof.
  destruct p as [x a], q as [y b]. unfold path_eqb. cbn. rewrite andb_true_iff. split.
  - intros [E1 E2]. f_equal.
    + destruct x, y; cbn in E1; congruence.
    + destruct a, b; try discriminate; [apply Z.eqb_eq in E2; congruence|reflexivity].
  - intros H. injection H as -> ->. split; [destruct y; reflexivity|]. destruct b; [apply Z.eqb_refl|reflexivity].
Qed.
Lemma in_del p q fs : In q (del_path fs p) <-> In q fs /\ q <> p.
Proof.
  unfold del_path. rewrite filter_In, negb_true_iff. split; intros [H1 H2]; (split; [exact H1|]).
  - intros ->. rewrite (proj2 (path_eqb_iff p p) eq_refl) in H2. discriminate.
  - destruct (path_eqb p q) eqn:E; [|reflexivity]. apply path_eqb_iff in E. congruence.
Qed.
Lemma exists_iff fs p : exists_path fs p = true <-> In p fs.
Proof.
  unfold exists_path. rewrite existsb_exists. split.
  - intros (q & H & E). apply path_eqb_iff in E. congruence.
  - intros H. exists p. split; [exact H|]. apply path_eqb_iff. reflexivity.
Qed.

Lemma name_nz d : d <> 0 -> name_of (Some d) = Some d.
Proof. destruct d; [congruence|reflexivity..]. Qed.

(** helper_path: what it returns and what it leaves. *)
Lemma helper_name fs dp x : snd (helper_path fs dp x) = (x, name_of dp).
Proof.
  unfold helper_path. destruct dp as [d|]; [|reflexivity]. destruct (d =? 0) eqn:E.
  - apply Z.eqb_eq in E. subst. reflexivity.
  - apply Z.eqb_neq in E. rewrite name_nz by exact E. destruct (exists_path fs (x, None)); reflexivity.
Qed.
Lemma helper_in fs dp x y k : In (y, k) (fst (helper_path fs dp x)) ->
  (In (y, k) fs /\ (y = x -> name_of dp <> None -> k <> None)) \/ (y = x /\ k = name_of dp /\ In (x, None) fs).
Proof.
  unfold helper_path. destruct dp as [d|]; [|cbn; intros H; left; split; [exact H | cbn; congruence]].
  destruct (d =? 0) eqn:E.
  - apply Z.eqb_eq in E. subst. cbn. intros H. left. split; [exact H | congruence].
  - apply Z.eqb_neq in E. rewrite name_nz by exact E. destruct (exists_path fs (x, None)) eqn:F; cbn [fst].
    + intros [H|H].
      * injection H as <- <-. right. apply exists_iff in F. auto.
      * rewrite !in_del in H. destruct H as [[H H1] H2]. left. split; [exact H|]. intros -> _ ->. congruence.
    + intros H. left. split; [exact H|]. intros -> _ ->. apply exists_iff in H. congruence.
Qed.
(** It keeps a socket of the suffix, and all of the others. *)
Lemma helper_keeps fs dp x y : (exists k, In (y, k) fs) -> exists k, In (y, k) (fst (helper_path fs dp x)).
Proof.
  intros [k H]. unfold helper_path. destruct dp as [d|]; [|exists k; exact H]. destruct (d =? 0); [exists k; exact H|].
  destruct (exists_path fs (x, None)) eqn:F; [|exists k; exact H]. cbn [fst].
  destruct (path_eqb (y, k) (x, None)) eqn:E1; [apply path_eqb_iff in E1; injection E1 as -> ->; exists (Some d); left; reflexivity|].
  destruct (path_eqb (y, k) (x, Some d)) eqn:E2; [apply path_eqb_iff in E2; injection E2 as -> ->; exists (Some d); left; reflexivity|].
  exists k. right. rewrite !in_del. split; [split; [exact H|]|]; intros E; [rewrite (proj2 (path_eqb_iff _ _) E) in E1 | rewrite (proj2 (path_eqb_iff _ _) E) in E2]; discriminate.
Qed.

Section Same.
  Context (d : Z) (order : list nat -> list nat).

  Definition hinv (s : parent) : Prop :=
    (k_datapath (n_ctl s) = None \/ k_datapath (n_ctl s) = Some d) /\
    forall x k, In (x, k) (n_fs s) -> k = name_of (k_datapath (n_ctl s)) /\
      (x = Jackin -> n_jackin s = true) /\ (x = Monitor -> n_monitor s = true /\ n_cur s <> None).

  Lemma to_monitors_files fail m cs : forall s,
    let s' := fst (to_monitors fail m s cs) in
    n_fs s' = n_fs s /\ n_ctl s' = n_ctl s /\ n_cur s' = n_cur s /\ n_jackin s' = n_jackin s /\ n_monitor s' = n_monitor s.
  Proof.
    induction cs as [|c cs IH]; intros s; cbn [to_monitors]; [repeat split|].
    destruct (fail c); [repeat split|]. apply (IH (mkParent _ _ _ _ _ _ _ _ _)).
  Qed.

  Lemma bind_hinv s x fs p r : hinv s -> (x = Jackin -> n_jackin s = true) ->
    helper_path (n_fs s) (k_datapath (n_ctl s)) x = (fs, p) -> bind_path fs p = (r, Ok tt) ->
    (forall y k, In (y, k) r -> (k = name_of (k_datapath (n_ctl s)) /\ (y = x \/ In (y, k) (n_fs s)))).
  Proof.
    intros [H1 H2] Hx Eh Eb y k Hin. unfold bind_path in Eb. destruct (exists_path fs p); [discriminate|]. injection Eb as <-.
    pose proof (helper_name (n_fs s) (k_datapath (n_ctl s)) x) as Hn. rewrite Eh in Hn. cbn in Hn. subst p.
    destruct Hin as [Hin|Hin].
    - injection Hin as <- <-. auto.
    - pose proof (helper_in (n_fs s) (k_datapath (n_ctl s)) x y k) as Hi. rewrite Eh in Hi. destruct (Hi Hin) as [[H _]|(-> & -> & _)].
      + split; [apply (H2 _ _ H) | right; exact H].
      + auto.
  Qed.

  Lemma bind_err fs p e r : bind_path fs p = (r, Err e) -> r = fs.
  Proof. unfold bind_path. destruct (exists_path fs p); intros H; congruence. Qed.

  Lemma helper_same s x y k : hinv s -> In (y, k) (fst (helper_path (n_fs s) (k_datapath (n_ctl s)) x)) ->
    (x = y /\ k = name_of (k_datapath (n_ctl s))) \/ In (y, k) (n_fs s).
  Proof. intros _ H. apply helper_in in H. destruct H as [[H _]|(-> & -> & _)]; auto. Qed.

  (** Without a change of the datapath, helper_path renames nothing. *)
  Lemma helper_id s x : hinv s -> fst (helper_path (n_fs s) (k_datapath (n_ctl s)) x) = n_fs s.
  Proof.
    intros [_ H2]. unfold helper_path. destruct (k_datapath (n_ctl s)) as [d'|]; [|reflexivity].
    destruct (d' =? 0) eqn:E; [reflexivity|]. apply Z.eqb_neq in E. destruct (exists_path (n_fs s) (x, None)) eqn:F; [|reflexivity].
    apply exists_iff in F. destruct (H2 _ _ F) as [N _]. rewrite name_nz in N by exact E. discriminate.
  Qed.

  Lemma open_jackin_hinv s s' r : hinv s -> open_jackin s = (s', r) ->
    hinv s' /\ n_ctl s' = n_ctl s /\ n_jackin s' = n_jackin s /\ n_monitor s' = n_monitor s /\
    (r = Ok tt -> n_jackin s = true -> exists k, In (Jackin, k) (n_fs s')) /\
    (forall y, (exists k, In (y, k) (n_fs s)) -> exists k, In (y, k) (n_fs s')).
  Proof.
    intros Hi E. unfold open_jackin in E. destruct (n_jackin s) eqn:Ej; [|injection E as <- <-; split; [exact Hi|]; repeat split; auto; intros; discriminate].
    pose proof (helper_id s Jackin Hi) as Hid. pose proof (helper_name (n_fs s) (k_datapath (n_ctl s)) Jackin) as Hn.
    destruct (helper_path (n_fs s) (k_datapath (n_ctl s)) Jackin) as [fs p]. cbn in Hid, Hn. subst fs p. unfold bind_path in E.
    destruct (exists_path (n_fs s) (Jackin, name_of (k_datapath (n_ctl s)))); injection E as <- <-.
    - destruct s; split; [exact Hi|]. repeat split; auto. discriminate.
    - destruct Hi as [H1 H2]. split; [split; [exact H1|]|].
      + intros x k [Hin|Hin]; [injection Hin as <- <-; repeat split; auto; discriminate|]. exact (H2 x k Hin).
      + repeat split; auto.
        * intros _ _. eexists. left. reflexivity.
        * intros y [k Hk]. exists k. right. exact Hk.
  Qed.

  Lemma open_monitor_hinv s s' r : hinv s -> open_monitor s = (s', r) ->
    hinv s' /\ n_ctl s' = n_ctl s /\ n_jackin s' = n_jackin s /\ n_monitor s' = n_monitor s /\
    (r = Ok tt -> n_monitor s = true -> exists k, In (Monitor, k) (n_fs s')) /\
    (forall y, (exists k, In (y, k) (n_fs s)) -> exists k, In (y, k) (n_fs s')).
  Proof.
    intros Hi E. unfold open_monitor in E. destruct (n_monitor s) eqn:Ej; [|injection E as <- <-; split; [exact Hi|]; repeat split; auto; intros; discriminate].
    pose proof (helper_id s Monitor Hi) as Hid. pose proof (helper_name (n_fs s) (k_datapath (n_ctl s)) Monitor) as Hn.
    destruct (helper_path (n_fs s) (k_datapath (n_ctl s)) Monitor) as [fs p]. cbn in Hid, Hn. subst fs p. unfold bind_path in E.
    destruct (exists_path (n_fs s) (Monitor, name_of (k_datapath (n_ctl s)))); injection E as <- <-.
    - destruct s; split; [exact Hi|]. repeat split; auto. discriminate.
    - destruct Hi as [H1 H2]. split; [split; [exact H1|]|].
      + intros x k [Hin|Hin]; [injection Hin as <- <-; cbn; repeat split; auto; discriminate|].
        destruct (H2 x k Hin) as (A & B & C). cbn. repeat split; auto. discriminate.
      + repeat split; auto.
        * intros _ _. eexists. left. reflexivity.
        * intros y [k Hk]. exists k. right. exact Hk.
  Qed.

  Lemma has_false x fs : (forall k, ~ In (x, k) fs) -> has_suffix x fs = false.
  Proof.
    intros H. destruct (has_suffix x fs) eqn:E; [|reflexivity]. unfold has_suffix in E. apply existsb_exists in E.
    destruct E as ([y k] & Hin & E). cbn in E. assert (y = x) by (destruct y, x; cbn in E; congruence). subst. destruct (H k Hin).
  Qed.

  (** FEATURES_REPLY. *)
  Lemma rename_hinv s c : hinv s -> k_datapath c = Some d -> hinv (rename_helpers (with_ctl s c)) /\
    n_ctl (rename_helpers (with_ctl s c)) = c /\ n_jackin (rename_helpers (with_ctl s c)) = n_jackin s /\ n_monitor (rename_helpers (with_ctl s c)) = n_monitor s /\
    (forall y, (exists k, In (y, k) (n_fs s)) -> exists k, In (y, k) (n_fs (rename_helpers (with_ctl s c)))).
  Proof.
    intros [H1 H2] Hc.
    assert (F : n_ctl (rename_helpers (with_ctl s c)) = c /\ n_jackin (rename_helpers (with_ctl s c)) = n_jackin s /\ n_monitor (rename_helpers (with_ctl s c)) = n_monitor s /\
                n_cur (rename_helpers (with_ctl s c)) = n_cur s).
    { unfold rename_helpers. cbn [with_ctl n_jackin]. destruct (n_jackin s) eqn:E1; cbn [with_fs with_ctl n_monitor]; destruct (n_monitor s) eqn:E2; cbn; rewrite ?E1, ?E2; auto. }
    destruct F as (F1 & F2 & F3 & F4).
    set (f1 := if n_jackin s then fst (helper_path (n_fs s) (Some d) Jackin) else n_fs s).
    set (f2 := if n_monitor s then fst (helper_path f1 (Some d) Monitor) else f1).
    assert (F5 : n_fs (rename_helpers (with_ctl s c)) = f2).
    { unfold rename_helpers, f2, f1. cbn [with_ctl n_jackin]. destruct (n_jackin s); cbn [with_fs with_ctl n_monitor]; destruct (n_monitor s); cbn; rewrite ?Hc; reflexivity. }
    split; [|repeat split; auto].
    - split; [rewrite F1; auto|]. rewrite F1, F2, F3, F4, F5, Hc. intros x k Hin.
      assert (A1 : forall x k, In (x, k) f1 -> (x = Jackin -> n_jackin s = true /\ k = name_of (Some d)) /\ (x = Monitor -> In (x, k) (n_fs s))).
      { intros x0 k0 Hin0. unfold f1 in Hin0. destruct (n_jackin s) eqn:Ej.
        - apply helper_in in Hin0. destruct Hin0 as [[Hin0 Hk]|(-> & -> & _)]; [|split; [auto|discriminate]]. split; [|auto].
          intros ->. split; [reflexivity|]. destruct (H2 _ _ Hin0) as (N & _). destruct H1 as [H1|H1]; rewrite H1 in N; [|exact N].
          cbn in N. subst k0. destruct (name_of (Some d)) eqn:En; [|reflexivity]. exfalso. apply (Hk eq_refl); [congruence | reflexivity].
        - split; [|auto]. intros ->. destruct (H2 _ _ Hin0) as (_ & N & _). discriminate (N eq_refl). }
      unfold f2 in Hin. destruct (n_monitor s) eqn:Em.
      + apply helper_in in Hin. destruct Hin as [[Hin Hk]|(-> & -> & Hex)].
        * destruct (A1 _ _ Hin) as [B1 B2]. destruct x.
          -- destruct (B1 eq_refl) as [C1 C2]. repeat split; auto; discriminate.
          -- destruct (H2 _ _ (B2 eq_refl)) as (N & _ & Hm). split; [|split; [discriminate | intros _; split; [reflexivity | apply Hm; reflexivity]]].
             destruct H1 as [H1|H1]; rewrite H1 in N; [|exact N]. cbn in N. subst k. destruct (name_of (Some d)) eqn:En; [|reflexivity].
             exfalso. apply (Hk eq_refl); [congruence | reflexivity].
        * split; [reflexivity|]. split; [discriminate|]. intros _. split; [reflexivity|].
          destruct (A1 _ _ Hex) as [_ B]. destruct (H2 _ _ (B eq_refl)) as (_ & _ & Hm). apply (Hm eq_refl).
      + destruct (A1 _ _ Hin) as [B1 B2]. destruct x.
        * destruct (B1 eq_refl) as [C1 C2]. repeat split; auto; discriminate.
        * destruct (H2 _ _ (B2 eq_refl)) as (_ & _ & Hm). destruct (Hm eq_refl) as [Hm' _]. discriminate.
    - rewrite F5. intros y Hy. unfold f2. assert (A : exists k, In (y, k) f1) by (unfold f1; destruct (n_jackin s); [apply helper_keeps|]; exact Hy).
      destruct (n_monitor s); [apply helper_keeps|]; exact A.
  Qed.

  Lemma recv_hinv fail s m s' r : hinv s -> (byte_at m 1 = 6 -> u64_at m 8 = d) -> parent_recv order fail s m = (s', r) ->
    hinv s' /\ n_jackin s' = n_jackin s /\ n_monitor s' = n_monitor s /\
    (forall y, (exists k, In (y, k) (n_fs s)) -> exists k, In (y, k) (n_fs s')) /\
    (r = Ok tt -> is_hello m = true -> m <> [] -> (n_jackin s = true -> exists k, In (Jackin, k) (n_fs s')) /\ (n_monitor s = true -> exists k, In (Monitor, k) (n_fs s'))) /\
    (r = Ok tt -> byte_at m 1 = 6 -> k_datapath (n_ctl s') = Some d) /\
    (k_datapath (n_ctl s) = Some d -> k_datapath (n_ctl s') = Some d) /\
    (byte_at m 1 <> 6 -> k_datapath (n_ctl s') = k_datapath (n_ctl s)).
  Proof.
    intros Hi Hd E. unfold parent_recv in E.
    destruct (Nat.ltb_spec (length m) 8) as [L|L].
    { destruct m as [|b m].
      - cbn in E. injection E as <- <-. destruct s. split; [exact Hi|]. repeat split; auto; intros; try (congruence); discriminate.
      - unfold ctl_recv in E. rewrite parse_header_short in E by exact L. injection E as <- <-. destruct s. split; [exact Hi|]. repeat split; auto; discriminate. }
    rewrite features in E by exact L.
    destruct (byte_at m 1 =? 6) eqn:E6.
    - apply Z.eqb_eq in E6. specialize (Hd E6).
      assert (K : (exists c, k_datapath c = Some d /\
           (let s1 := with_ctl s c in match to_monitors fail m (rename_helpers s1) (order (monitors (rename_helpers s1))) with (s3, Err e) => (s3, Err e) | (s3, Ok _) => (returned s3 m, Ok tt) end) = (s', r)) \/
          (s' = s /\ exists e, r = Err e)).
      { assert (Hm : exists b t, m = b :: t) by (destruct m as [|b t]; [cbn in L; lia | eauto]). destruct Hm as (b & t & Hm).
        destruct (match k_version (n_ctl s) with Some v => 4 <=? v | None => false end).
        - destruct (22 <=? length m)%nat.
          + left. eexists. split; [|rewrite Hm in E at 1; rewrite parse_header_spec in E by exact L; cbn [h_type] in E; rewrite E6 in E; cbn [Z.eqb] in E; exact E]. cbn. f_equal. exact Hd.
          + right. injection E as <- <-. destruct s. split; [reflexivity | eauto].
        - destruct (16 <=? length m)%nat.
          + left. eexists. split; [|rewrite Hm in E at 1; rewrite parse_header_spec in E by exact L; cbn [h_type] in E; rewrite E6 in E; cbn [Z.eqb] in E; exact E]. cbn. f_equal. exact Hd.
          + right. injection E as <- <-. destruct s. split; [reflexivity | eauto]. }
      destruct K as [(c & Hc & K)|[-> [e ->]]]; [|split; [exact Hi|]; repeat split; auto; discriminate].
      cbv zeta in K. destruct (rename_hinv s c Hi Hc) as (I & I1 & I2 & I3 & I4).
      pose proof (to_monitors_files fail m (order (monitors (rename_helpers (with_ctl s c)))) (rename_helpers (with_ctl s c))) as T. cbv zeta in T.
      destruct (to_monitors fail m (rename_helpers (with_ctl s c)) (order (monitors (rename_helpers (with_ctl s c))))) as [s3 r3]. cbn [fst] in T.
      destruct T as (T1 & T2 & T3 & T4 & T5).
      assert (I' : hinv s3) by (unfold hinv in *; rewrite T1, T2, T3, T4, T5; exact I).
      assert (G : s' = s3 \/ s' = returned s3 m) by (destruct r3; injection K as <- <-; auto).
      assert (G' : n_fs s' = n_fs s3 /\ n_ctl s' = n_ctl s3 /\ n_cur s' = n_cur s3 /\ n_jackin s' = n_jackin s3 /\ n_monitor s' = n_monitor s3) by (destruct G as [-> | ->]; repeat split).
      destruct G' as (G1 & G2 & G3 & G4 & G5).
      split; [unfold hinv in *; rewrite G1, G2, G3, G4, G5; exact I'|]. rewrite G1, G2, G4, G5, T1, T2, T4, T5, I1, I2, I3.
      repeat split; auto; intros; try (unfold is_hello in *; lia); try congruence.
    - assert (Hm : exists b t, m = b :: t) by (destruct m as [|b t]; [cbn in L; lia | eauto]). destruct Hm as (b & t & Hm).
      rewrite Hm in E at 1. rewrite parse_header_spec in E by exact L. cbn [h_type] in E. rewrite E6 in E. apply Z.eqb_neq in E6.
      assert (W : with_ctl s (n_ctl s) = s) by (destruct s; reflexivity). rewrite W in E. fold (is_hello m) in E. destruct (is_hello m) eqn:Eh.
      + destruct (open_jackin s) as [s1 r1] eqn:E1. destruct (open_jackin_hinv s s1 r1 Hi E1) as (I & A1 & A2 & A3 & A4 & A5).
        destruct r1 as [[]|e].
        * destruct (open_monitor s1) as [s2 r2] eqn:E2. destruct (open_monitor_hinv s1 s2 r2 I E2) as (I' & B1 & B2 & B3 & B4 & B5).
          assert (G : s' = s2 \/ s' = returned s2 m) by (destruct r2; injection E as <- <-; auto).
          assert (R : r = r2) by (destruct r2 as [[]|]; injection E as <- <-; reflexivity). subst r2.
          assert (G' : n_fs s' = n_fs s2 /\ n_ctl s' = n_ctl s2 /\ n_cur s' = n_cur s2 /\ n_jackin s' = n_jackin s2 /\ n_monitor s' = n_monitor s2) by (destruct G as [-> | ->]; repeat split).
          destruct G' as (G1 & G2 & G3 & G4 & G5).
          split; [unfold hinv in *; rewrite G1, G2, G3, G4, G5; exact I'|]. rewrite G1, G2, G4, G5, B1, B2, B3, A1, A2, A3.
          split; [reflexivity|]. split; [reflexivity|]. split; [intros y Hy; auto|]. split.
          { intros -> _ _. split; [intros Hj; apply B5, A4; auto | intros Hmo; apply B4; [reflexivity | congruence]]. }
          split; [intros _ H; congruence|]. split; auto.
        * injection E as <- <-. split; [exact I|]. rewrite A1, A2, A3. split; [reflexivity|]. split; [reflexivity|]. split; [exact A5|].
          split; [discriminate|]. split; [discriminate|]. split; auto.
      + pose proof (to_monitors_files fail m (order (monitors s)) s) as T. cbv zeta in T.
        destruct (to_monitors fail m s (order (monitors s))) as [s3 r3]. cbn [fst] in T. destruct T as (T1 & T2 & T3 & T4 & T5).
        assert (G : s' = s3 \/ s' = returned s3 m) by (destruct r3; injection E as <- <-; auto).
        assert (G' : n_fs s' = n_fs s3 /\ n_ctl s' = n_ctl s3 /\ n_cur s' = n_cur s3 /\ n_jackin s' = n_jackin s3 /\ n_monitor s' = n_monitor s3) by (destruct G as [-> | ->]; repeat split).
        destruct G' as (G1 & G2 & G3 & G4 & G5). unfold hinv. rewrite G1, G2, G3, G4, G5, T1, T2, T3, T4, T5.
        split; [exact Hi|]. repeat split; auto; intros; congruence.
  Qed.

  (** A whole history. *)
  Theorem files_run os : forall s s' r, hinv s -> same_switch d os -> nrun order s os = (s', r) ->
    hinv s' /\ n_jackin s' = n_jackin s /\ n_monitor s' = n_monitor s /\
    (forall y, (exists k, In (y, k) (n_fs s)) -> exists k, In (y, k) (n_fs s')) /\
    (r = Ok tt -> said_hello os = true -> (n_jackin s = true -> exists k, In (Jackin, k) (n_fs s')) /\ (n_monitor s = true -> exists k, In (Monitor, k) (n_fs s'))) /\
    (r = Ok tt -> known os = true -> k_datapath (n_ctl s') = Some d) /\
    (k_datapath (n_ctl s) = Some d -> k_datapath (n_ctl s') = Some d) /\
    (known os = false -> k_datapath (n_ctl s') = k_datapath (n_ctl s)).
  Proof.
    induction os as [|o os IH]; intros s s' r Hi Hs E; cbn [nrun] in E.
    - injection E as <- <-. split; [exact Hi|]. repeat split; auto; discriminate.
    - inversion Hs as [|? ? Ho Hos]; subst.
      destruct o as [m fail|c|c].
      + cbn [nstep] in E. destruct (parent_recv order fail s m) as [s1 r1] eqn:E1.
        destruct (recv_hinv fail s m s1 r1 Hi Ho E1) as (A & A1 & A2 & A3 & A4 & A5 & A6 & A7).
        destruct r1 as [[]|e].
        * destruct (IH s1 s' r A Hos E) as (B & B1 & B2 & B3 & B4 & B5 & B6 & B7). rewrite A1 in *. rewrite A2 in *.
          split; [exact B|]. split; [exact B1|]. split; [exact B2|]. split; [intros y Hy; auto|]. unfold said_hello, known in *. cbn [existsb].
          split; [|split; [|split]].
          -- intros Hr Hh. destruct (existsb (fun o => match o with NRecv [] _ => false | NRecv m _ => is_hello m | _ => false end) os) eqn:Eh; [apply B4; auto|].
             rewrite orb_false_r in Hh. destruct m as [|b t].
             { discriminate. }
             destruct (A4 eq_refl Hh ltac:(discriminate)) as [C1 C2]. split; intros H; apply B3; auto.
          -- intros Hr Hk. destruct (existsb (fun o => match o with NRecv m _ => byte_at m 1 =? 6 | _ => false end) os) eqn:Ek; [apply B5; auto|].
             rewrite orb_false_r in Hk. apply Z.eqb_eq in Hk. apply B6, A5; auto.
          -- auto.
          -- intros Hk. apply orb_false_iff in Hk. destruct Hk as [K1 K2]. apply Z.eqb_neq in K1. rewrite B7 by exact K2. apply A7. exact K1.
        * injection E as <- <-. split; [exact A|]. split; [exact A1|]. split; [exact A2|]. split; [exact A3|]. split; [discriminate|]. split; [discriminate|].
          split; [exact A6|]. unfold known. cbn [existsb]. intros Hk. apply orb_false_iff in Hk. destruct Hk as [K1 K2]. apply Z.eqb_neq in K1. exact (A7 K1).
      + cbn [nstep] in E. unfold said_hello, known. cbn [existsb orb].
        destruct (n_cur s) eqn:Ec; [destruct (existsb _ (n_members s))|]; [apply (IH s s' r Hi Hos E)| |apply (IH s s' r Hi Hos E)].
        rewrite <- Ec in E. apply (IH _ s' r) in E; [|exact Hi|exact Hos]. exact E.
      + cbn [nstep] in E. unfold said_hello, known. cbn [existsb orb]. apply (IH _ s' r) in E; [|exact Hi|exact Hos]. exact E.
  Qed.
End Same.

(** Closing removes everything. *)
Lemma remove_gone fs dp x : (forall k, In (x, k) fs -> k = name_of dp) ->
  forall y k, In (y, k) (remove_helper fs dp x) -> y <> x /\ In (y, k) fs.
Proof.
  intros H y k Hin. unfold remove_helper in Hin. pose proof (helper_name fs dp x) as Hn. pose proof (helper_in fs dp x y k) as Hi.
  destruct (helper_path fs dp x) as [fs' p]. cbn in Hn, Hi. subst p. apply in_del in Hin. destruct Hin as [Hin Hne].
  destruct (Hi Hin) as [[H1 _]|(-> & -> & _)]; [|congruence]. split; [|exact H1]. intros ->. rewrite (H _ H1) in Hne. congruence.
Qed.

Theorem close_removes d s : hinv d s -> close_files s = [].
Proof.
  intros [_ H2]. unfold close_files. set (dp := k_datapath (n_ctl s)) in *.
  set (fs := if has_suffix Jackin (n_fs s) then remove_helper (n_fs s) dp Jackin else n_fs s).
  assert (A : forall y k, In (y, k) fs -> y = Monitor /\ In (y, k) (n_fs s)).
  { intros y k Hin. unfold fs in Hin. destruct (has_suffix Jackin (n_fs s)) eqn:E.
    - apply remove_gone in Hin; [|intros k0 Hk0; apply (H2 _ _ Hk0)]. destruct Hin as [Hy Hin]. split; [destruct y; congruence | exact Hin].
    - split; [|exact Hin]. destruct y; [|reflexivity]. exfalso. unfold has_suffix in E.
      assert (T : existsb (fun p => suffix_eqb (fst p) Jackin) (n_fs s) = true) by (apply existsb_exists; exists (Jackin, k); split; [exact Hin | reflexivity]). congruence. }
  assert (N : forall l : list path, (forall y k, ~ In (y, k) l) -> l = []).
  { intros [|[y k] l] H; [reflexivity|]. destruct (H y k). left. reflexivity. }
  apply N. intros y k Hin. destruct (n_cur s) eqn:Ec.
  - apply remove_gone in Hin; [|intros k0 Hk0; destruct (A _ _ Hk0) as [_ B]; apply (H2 _ _ B)]. destruct Hin as [Hy Hin]. destruct (A _ _ Hin) as [-> _]. congruence.
  - destruct (A _ _ Hin) as [-> B]. destruct (H2 _ _ B) as (_ & _ & Hm). destruct (Hm eq_refl) as [_ Hm']. congruence.
Qed.

Lemma hinv_new d jackin monitor : hinv d (parent_new jackin monitor).
Proof. split; [left; reflexivity|]. intros x k []. Qed.

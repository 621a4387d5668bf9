(** Proofs about RateLimit. *)

From Verif Require Import Py M_RateLimit.

Lemma rsteps_app size a : forall s b, rsteps size s (a ++ b) =
  match rsteps size s a with Some s' => rsteps size s' b | None => None end.
Proof. induction a as [|e a IH]; intros s b; cbn; [reflexivity|]. destruct (rstep size s e); auto. Qed.

(** *** The limit does not limit *)

Definition ready (size : nat) (s : rate) (cold : list task) (js : list (nat * jst)) : Prop :=
  r_cur s = Some PInner /\ r_cold s = cold /\ r_jobs s = js /\
  r_children s = f_hot (r_frames s (r_frame s)).

Lemma existsb_last t l : existsb (Nat.eqb t) (l ++ [t]) = true.
Proof. rewrite existsb_app. cbn. rewrite Nat.eqb_refl. apply orb_true_r. Qed.

Lemma fset_same f n x : fset f n x n = x.
Proof. unfold fset. rewrite Nat.eqb_refl. reflexivity. Qed.

Lemma set_nth_last {A} (l : list A) a b : set_nth (length l) b (l ++ [a]) = l ++ [b].
Proof. induction l as [|x l IH]; cbn; [reflexivity|]. rewrite IH. reflexivity. Qed.

Lemma nth_error_last {A} (l : list A) a : nth_error (l ++ [a]) (length l) = Some a.
Proof. rewrite nth_error_app2 by lia. rewrite Nat.sub_diag. reflexivity. Qed.

Lemma start_one size s t cold js : (1 <= size)%nat -> ready size s (t :: cold) js ->
  (length (f_hot (r_frames s (r_frame s))) < size)%nat ->
  exists es s', rsteps size s es = Some s' /\ submitted es = [] /\
    ready size s' cold (js ++ [(r_frame s, JRun t)]) /\ r_frame s' = r_frame s.
Proof.
  intros Hsz (Hc & Hcold & Hj & Hch) Hlt.
  exists [RLoop 0; RLoop 0; RLoop 0; RLoop 0; RLoop 0; RLoop 0; RJob (length js); RLoop t; RLoop 0].
  destruct s as [cold0 idle cur ch fr frs jobs log]. cbn in Hc, Hcold, Hj, Hch, Hlt. subst.
  apply Nat.ltb_lt in Hlt.
  cbn [rsteps rstep r_cur loop_step r_cold r_frames r_frame]. rewrite Hlt.
  do 9 (cbn [set_pc set_frame rsteps rstep r_cur loop_step r_cold r_frames r_frame r_idle r_children r_jobs r_log];
        rewrite ?fset_same; cbn [f_task f_call f_hot]).
  unfold job_step. cbn [r_jobs]. rewrite nth_error_last. cbn [r_frames r_frame]. rewrite ?fset_same. cbn [f_call].
  cbn [r_cold r_idle r_cur r_children r_frame r_frames r_jobs r_log]. rewrite set_nth_last.
  do 3 (cbn [set_pc set_frame rsteps rstep r_cur loop_step r_cold r_frames r_frame r_idle r_children r_jobs r_log];
        rewrite ?fset_same; cbn [f_task f_call f_hot]; rewrite ?existsb_last).
  eexists. split; [reflexivity|]. split; [reflexivity|]. split; [|reflexivity].
  unfold ready. cbn [set_pc set_frame r_cur r_cold r_jobs r_children r_frames r_frame]. rewrite ?fset_same. cbn [f_hot]. auto.
Qed.

Lemma start_next size s t cold js : (1 <= size)%nat -> ready size s (t :: cold) js ->
  exists es s', rsteps size s es = Some s' /\ submitted es = [] /\
    ready size s' cold (js ++ [(r_frame s, JRun t)]) /\ r_frame s' = r_frame s.
Proof.
  intros Hsz Hr. destruct (Nat.lt_ge_cases (length (f_hot (r_frames s (r_frame s)))) size) as [Hlt|Hge].
  - apply start_one; assumption.
  - destruct Hr as (Hc & Hcold & Hj & Hch).
    assert (H2 : exists s1, rsteps size s [RLoop 0; RLoop 0] = Some s1 /\ ready size s1 (t :: cold) js /\
                  f_hot (r_frames s1 (r_frame s1)) = [] /\ r_frame s1 = r_frame s).
    { destruct s as [cold0 idle cur ch fr frs jobs log]. cbn in Hc, Hcold, Hj, Hch, Hge. subst.
      cbn [rsteps rstep r_cur loop_step r_cold r_frames r_frame].
      replace (length (f_hot (frs fr)) <? size)%nat with false by (symmetry; apply Nat.ltb_ge; exact Hge).
      unfold set_pc. cbn [rsteps rstep r_cur loop_step r_cold r_frames r_frame].
      eexists. split; [reflexivity|]. unfold ready. cbn [r_cur r_cold r_jobs r_children r_frames r_frame].
      rewrite fset_same. cbn. auto. }
    destruct H2 as (s1 & E1 & Hr1 & Hh & Hf).
    destruct (start_one size s1 t cold js Hsz Hr1) as (es & s' & E2 & Hsub & Hr2 & Hf2); [rewrite Hh; cbn; lia|].
    exists ([RLoop 0; RLoop 0] ++ es), s'. rewrite rsteps_app, E1. rewrite Hf in Hr2, Hf2. repeat split; auto.
    all: try apply Hr2.
Qed.

Lemma start_all size cold : (1 <= size)%nat -> forall s js, ready size s cold js ->
  exists es s', rsteps size s es = Some s' /\ submitted es = [] /\
    r_jobs s' = js ++ map (fun t => (r_frame s, JRun t)) cold.
Proof.
  intros Hsz. induction cold as [|t cold IH]; intros s js Hr.
  - exists [], s. split; [reflexivity|]. split; [reflexivity|]. cbn. rewrite app_nil_r. apply Hr.
  - destruct (start_next size s t cold js Hsz Hr) as (es & s1 & E1 & Hs1 & Hr1 & Hf).
    destruct (IH s1 _ Hr1) as (es2 & s2 & E2 & Hs2 & Hj2).
    exists (es ++ es2), s2. rewrite rsteps_app, E1. split; [exact E2|].
    split; [unfold submitted in *; rewrite map_app, concat_app, Hs1, Hs2; reflexivity|].
    rewrite Hj2, Hf, <- app_assoc. reflexivity.
Qed.

Lemma submit_all size ts : forall s, exists s',
  rsteps size s (map RSubmit ts) = Some s' /\ r_cold s' = r_cold s ++ ts /\
  r_idle s' = (length ts + r_idle s)%nat /\ r_cur s' = r_cur s /\ r_jobs s' = r_jobs s /\
  r_frames s' = r_frames s.
Proof.
  induction ts as [|t ts IH]; intros s; cbn [map rsteps rstep].
  - exists s. rewrite app_nil_r. auto 10.
  - destruct (IH (mkRate (r_cold s ++ [t]) (S (r_idle s)) (r_cur s) (r_children s) (r_frame s)
        (r_frames s) (r_jobs s) (r_log s))) as (s' & E & H1 & H2 & H3 & H4 & H5).
    exists s'. cbn in *. rewrite <- app_assoc in H1. repeat split; auto. lia.
Qed.

Theorem no_limit size ts : (1 <= size)%nat ->
  exists es s, rsteps size rate_new es = Some s /\ submitted es = ts /\ running s = ts.
Proof.
  intros Hsz. destruct ts as [|t0 ts0] eqn:Ets; [exists [], rate_new; auto|]. rewrite <- Ets.
  destruct (submit_all size ts rate_new) as (s1 & E1 & Hc & Hi & Hcur & Hj & Hfr).
  assert (H2 : exists s2, rsteps size s1 [REnter; RLoop 0] = Some s2 /\ ready size s2 ts []).
  { destruct s1 as [cold0 idle cur ch fr frs jobs log]. cbn in Hc, Hi, Hcur, Hj, Hfr. subst.
    cbn [rsteps rstep r_cur r_idle length Nat.add]. cbn [loop_step r_cold r_frames r_frame].
    eexists. split; [reflexivity|]. unfold ready. cbn [r_cur r_cold r_jobs r_children r_frames r_frame].
    rewrite fset_same. auto. }
  destruct H2 as (s2 & E2 & Hr2).
  destruct (start_all size ts Hsz s2 [] Hr2) as (es & s3 & E3 & Hs3 & Hj3).
  exists (map RSubmit ts ++ [REnter; RLoop 0] ++ es), s3.
  split; [rewrite rsteps_app, E1, rsteps_app, E2; exact E3|]. split.
  - unfold submitted in *. rewrite map_app, concat_app, map_app, concat_app, Hs3. cbn. rewrite app_nil_r.
    rewrite map_map. cbn. clear. induction ts as [|a l IH]; cbn; congruence.
  - unfold running. rewrite Hj3. cbn [Datatypes.app]. rewrite map_map. cbn. clear.
    induction ts as [|a l IH]; cbn; congruence.
Qed.

(** *** What holds *)

Definition late (p : option pc) : bool :=
  match p with Some PBind | Some PAdd | Some PSpawn => true | _ => false end.
Definition fresh_pc (p : option pc) : bool :=
  match p with Some POuter | Some PInner | Some PNone | Some PPop => true | _ => false end.

Definition begun (j : nat * jst) : bool := match snd j with JWait => false | _ => true end.

Definition of (popped : list task) (f : frame) : Prop :=
  (forall t, f_task f = Some t -> In t popped) /\ (forall t, f_call f = Some t -> In t popped).

Definition rinv (es : list rev_) (s : rate) : Prop :=
  exists popped,
    submitted es = popped ++ r_cold s /\
    (length (r_jobs s) + (if late (r_cur s) then 1 else 0) = length popped)%nat /\
    length (r_log s) = length (filter begun (r_jobs s)) /\
    (forall t, In t (r_log s) -> In t popped) /\
    (forall n, of popped (r_frames s n)) /\
    (forall n t, In t (f_hot (r_frames s n)) -> In t popped) /\
    (length (r_cold s) <= r_idle s + (if fresh_pc (r_cur s) then 1 else 0))%nat.

Lemma submitted_snoc es e : submitted (es ++ [e]) = submitted es ++ (match e with RSubmit t => [t] | _ => [] end).
Proof. unfold submitted. rewrite map_app, concat_app. cbn. rewrite app_nil_r. reflexivity. Qed.

Lemma of_mono p q f : of p f -> (forall t, In t p -> In t q) -> of q f.
Proof. intros [H1 H2] H. split; intros t Ht; apply H; auto. Qed.

Lemma fset_all (P : frame -> Prop) f n x : (forall k, P (f k)) -> P x -> forall k, P (fset f n x k).
Proof. intros H Hx k. unfold fset. destruct (k =? n)%nat; auto. Qed.

Lemma fset_hot (P : task -> Prop) f n x : (forall k t, In t (f_hot (f k)) -> P t) ->
  (forall t, In t (f_hot x) -> P t) -> forall k t, In t (f_hot (fset f n x k)) -> P t.
Proof. intros H Hx k t. unfold fset. destruct (k =? n)%nat; eauto. Qed.

Lemma last_opt_in l d t : last_opt l d = Some t -> In t l \/ d = Some t.
Proof.
  unfold last_opt. destruct (rev l) as [|x r] eqn:E; [auto|]. intros H. injection H as ->.
  left. apply in_rev. rewrite E. left. reflexivity.
Qed.

Lemma remove1_in t l x : In x (remove1 t l) -> In x l.
Proof.
  induction l as [|y l IH]; cbn; [auto|]. destruct (y =? t)%nat; [auto|]. cbn. intros [H|H]; auto.
Qed.

Lemma set_nth_length {A} (l : list A) : forall i a, length (set_nth i a l) = length l.
Proof. induction l as [|x l IH]; intros [|i] a; cbn; auto. Qed.

Lemma filter_set_nth (f : nat * jst -> bool) l : forall i a b, nth_error l i = Some a ->
  (length (filter f (set_nth i b l)) + (if f a then 1 else 0) = length (filter f l) + (if f b then 1 else 0))%nat.
Proof.
  induction l as [|x l IH]; intros [|i] a b H; try discriminate; cbn in H.
  - injection H as ->. cbn. destruct (f a), (f b); cbn; lia.
  - cbn. specialize (IH i a b H). destruct (f x); cbn; lia.
Qed.

Lemma rinv_step size es s e s' : rinv es s -> rstep size s e = Some s' -> rinv (es ++ [e]) s'.
Proof.
  intros (popped & Hs & Hj & Hl & Hlog & Hof & Hhot & Hc) He.
  destruct e as [t| |c|i]; cbn [rstep] in He.
  - injection He as <-. exists popped. rewrite submitted_snoc, Hs. cbn [r_cold r_jobs r_cur r_log r_frames r_idle].
    rewrite <- app_assoc. rewrite app_length. cbn. repeat split; auto; try apply Hof; try lia.
  - destruct (r_cur s) eqn:Ec; [discriminate|]. destruct (r_idle s) as [|n] eqn:Ei; [discriminate|].
    injection He as <-. exists popped. rewrite submitted_snoc, app_nil_r. cbn [r_cold r_jobs r_cur r_log r_frames r_idle late fresh_pc] in *.
    repeat split; auto; try apply Hof; try lia.
  - destruct (r_cur s) as [p|] eqn:Ec; [|discriminate].
    assert (Hsub : submitted (es ++ [RLoop c]) = submitted es) by (rewrite submitted_snoc, app_nil_r; reflexivity).
    pose proof (Hof (r_frame s)) as [Hft Hfc].
    destruct p; cbn [loop_step] in He; cbn [late fresh_pc] in *.
    + destruct (r_cold s) as [|t0 cold0] eqn:Eco; injection He as <-; exists popped; rewrite Hsub;
        cbn [set_pc r_cold r_jobs r_cur r_log r_frames r_idle late fresh_pc] in *; rewrite ?Eco.
      * repeat split; auto; try apply Hof; cbn; try lia.
      * repeat split; auto; try lia; try (apply (fset_all (of popped)); [exact Hof|split; auto]).
        apply (fset_hot (fun t => In t popped)); [exact Hhot|intros t []].
    + destruct (r_cold s) as [|t0 cold0] eqn:Eco.
      * injection He as <-. exists popped. rewrite Hsub. cbn [set_pc r_cold r_jobs r_cur r_log r_frames r_idle late fresh_pc] in *.
        rewrite ?Eco. repeat split; auto; try apply Hof; cbn; try lia.
      * destruct (length (f_hot (r_frames s (r_frame s))) <? size)%nat; injection He as <-; exists popped; rewrite Hsub;
          cbn [set_pc r_cold r_jobs r_cur r_log r_frames r_idle late fresh_pc] in *;
          rewrite ?Eco; repeat split; auto; try apply Hof; cbn in *; try lia.
    + injection He as <-. exists popped. rewrite Hsub. cbn [set_frame r_cold r_jobs r_cur r_log r_frames r_idle late fresh_pc] in *.
      split; [exact Hs|]. split; [exact Hj|]. split; [exact Hl|]. split; [exact Hlog|].
      split; [apply (fset_all (of popped)); [exact Hof|split; [discriminate|exact Hfc]]|].
      split; [|exact Hc]. apply (fset_hot (fun t => In t popped)); [exact Hhot|]. cbn. apply Hhot.
    + destruct (r_cold s) as [|t0 cold0] eqn:Eco; [discriminate|]. injection He as <-.
      exists (popped ++ [t0]). rewrite Hsub. cbn [r_cold r_jobs r_cur r_log r_frames r_idle late fresh_pc] in *.
      rewrite app_length. cbn [length] in *. rewrite <- app_assoc.
      assert (Hm : forall t, In t popped -> In t (popped ++ [t0])) by (intros; apply in_or_app; auto).
      split; [exact Hs|]. split; [lia|]. split; [exact Hl|]. split; [auto|].
      split.
      { apply (fset_all (of (popped ++ [t0]))).
        - intros n. apply (of_mono popped); auto.
        - split; cbn; intros t Ht; [injection Ht as <-; apply in_or_app; right; left; reflexivity|auto]. }
      split; [|lia]. apply (fset_hot (fun t => In t (popped ++ [t0]))); [eauto|]. cbn. eauto.
    + injection He as <-. exists popped. rewrite Hsub. cbn [set_frame r_cold r_jobs r_cur r_log r_frames r_idle late fresh_pc] in *.
      split; [exact Hs|]. split; [exact Hj|]. split; [exact Hl|]. split; [exact Hlog|].
      split; [apply (fset_all (of popped)); [exact Hof|split; exact Hft]|].
      split; [|exact Hc]. apply (fset_hot (fun t => In t popped)); [exact Hhot|]. cbn. apply Hhot.
    + destruct (f_task (r_frames s (r_frame s))) as [t0|] eqn:Et; [|discriminate]. injection He as <-.
      exists popped. rewrite Hsub. cbn [set_frame r_cold r_jobs r_cur r_log r_frames r_idle late fresh_pc] in *.
      split; [exact Hs|]. split; [exact Hj|]. split; [exact Hl|]. split; [exact Hlog|].
      split; [apply (fset_all (of popped)); [exact Hof|split; [cbn; intros t Ht; apply Hft; exact Ht|exact Hfc]]|].
      split; [|exact Hc]. apply (fset_hot (fun t => In t popped)); [exact Hhot|]. cbn. intros t Ht.
      apply in_app_or in Ht. destruct Ht as [Ht|[<-|[]]]; [eapply Hhot; exact Ht|auto].
    + destruct (f_task (r_frames s (r_frame s))) as [t0|] eqn:Et; [|discriminate]. injection He as <-.
      exists popped. rewrite Hsub. cbn [r_cold r_jobs r_cur r_log r_frames r_idle late fresh_pc] in *.
      rewrite app_length, filter_app, app_length. cbn.
      repeat split; auto; try apply Hof; lia.
    + destruct (existsb (Nat.eqb c) (r_children s)); [|discriminate].
      assert (Hof' : of popped (mkFrame (last_opt (f_hot (r_frames s (r_frame s))) (f_task (r_frames s (r_frame s))))
                      (f_call (r_frames s (r_frame s))) (f_hot (r_frames s (r_frame s))))).
      { split; cbn; [|exact Hfc]. intros t Ht. apply last_opt_in in Ht. destruct Ht as [Ht|Ht]; [eapply Hhot; exact Ht|auto]. }
      destruct (existsb (Nat.eqb c) (f_hot (r_frames s (r_frame s)))); injection He as <-;
        exists popped; rewrite Hsub; cbn [set_frame r_cold r_jobs r_cur r_log r_frames r_idle late fresh_pc] in *;
        (split; [exact Hs|]; split; [exact Hj|]; split; [exact Hl|]; split; [exact Hlog|];
         split; [apply (fset_all (of popped)); [exact Hof|exact Hof']|];
         split; [apply (fset_hot (fun t => In t popped)); [exact Hhot|cbn; apply Hhot]|exact Hc]).
    + injection He as <-. exists popped. rewrite Hsub. cbn [set_pc r_cold r_jobs r_cur r_log r_frames r_idle late fresh_pc] in *.
      repeat split; auto; try apply Hof; lia.
  - unfold job_step in He. destruct (nth_error (r_jobs s) i) as [[n j]|] eqn:En; [|discriminate].
    assert (Hsub : submitted (es ++ [RJob i]) = submitted es) by (rewrite submitted_snoc, app_nil_r; reflexivity).
    destruct j as [|t| |].
    + destruct (f_call (r_frames s n)) as [t|] eqn:Et; [|discriminate]. injection He as <-.
      exists popped. rewrite Hsub. cbn [r_cold r_jobs r_cur r_log r_frames r_idle]. rewrite set_nth_length.
      pose proof (filter_set_nth begun (r_jobs s) i _ (n, JRun t) En) as Hf. cbn in Hf.
      assert (Hin : In t popped) by (destruct (Hof n) as [_ H]; auto).
      split; [exact Hs|]. split; [exact Hj|]. split; [cbn [length]; lia|].
      split; [intros t' [<-|Ht']; auto|]. auto.
    + injection He as <-. exists popped. rewrite Hsub. cbn [r_cold r_jobs r_cur r_log r_frames r_idle]. rewrite set_nth_length.
      pose proof (filter_set_nth begun (r_jobs s) i _ (n, JRet) En) as Hf. cbn in Hf.
      split; [exact Hs|]. split; [exact Hj|]. split; [lia|]. auto.
    + injection He as <-. exists popped. rewrite Hsub. cbn [r_cold r_jobs r_cur r_log r_frames r_idle]. rewrite set_nth_length.
      pose proof (filter_set_nth begun (r_jobs s) i _ (n, JDone) En) as Hf. cbn in Hf.
      split; [exact Hs|]. split; [exact Hj|]. split; [lia|]. split; [exact Hlog|].
      destruct (Hof n) as [Hft Hfc].
      split; [apply (fset_all (of popped)); [exact Hof|split; auto]|].
      split; [|exact Hc]. apply (fset_hot (fun t => In t popped)); [exact Hhot|]. cbn.
      intros t Ht. destruct (f_task (r_frames s n)); [apply remove1_in in Ht|]; eauto.
    + discriminate.
Qed.

Lemma rinv_steps size es2 : forall es s s', rinv es s -> rsteps size s es2 = Some s' -> rinv (es ++ es2) s'.
Proof.
  induction es2 as [|e es2 IH]; intros es s s' Hi H; cbn [rsteps] in H.
  - injection H as <-. rewrite app_nil_r. exact Hi.
  - destruct (rstep size s e) as [s1|] eqn:E; [|discriminate].
    replace (es ++ e :: es2) with ((es ++ [e]) ++ es2) by (rewrite <- app_assoc; reflexivity).
    eapply IH; [|exact H]. eapply rinv_step; eauto.
Qed.

Lemma rinv_new : rinv [] rate_new.
Proof. exists []. cbn. repeat split; auto; try discriminate; try lia; contradiction. Qed.

Theorem nothing_stuck size es s : rsteps size rate_new es = Some s ->
  r_cur s = None -> r_idle s = 0%nat ->
  r_cold s = [] /\ length (r_jobs s) = length (submitted es).
Proof.
  intros H Hc Hi. destruct (rinv_steps size es [] _ _ rinv_new H) as (popped & Hs & Hj & _ & _ & _ & _ & Hb).
  cbn [Datatypes.app] in Hs. rewrite Hc, Hi in *. cbn in *. destruct (r_cold s); [|cbn in Hb; lia].
  rewrite Hs, app_nil_r. split; [reflexivity|lia].
Qed.

Theorem only_submitted size es s : rsteps size rate_new es = Some s ->
  (forall t, In t (r_log s) -> In t (submitted es)) /\ (length (r_log s) <= length (submitted es))%nat.
Proof.
  intros H. destruct (rinv_steps size es [] _ _ rinv_new H) as (popped & Hs & Hj & Hl & Hlog & _).
  cbn [Datatypes.app] in Hs. rewrite Hs. split; [intros t Ht; apply in_or_app; auto|].
  rewrite app_length. assert (length (filter begun (r_jobs s)) <= length (r_jobs s))%nat.
  { generalize (r_jobs s). clear. induction l as [|a l IH]; cbn; [lia|]. destruct (begun a); cbn; lia. }
  destruct (late (r_cur s)); lia.
Qed.

Theorem all_called size es s : rsteps size rate_new es = Some s ->
  r_cur s = None -> r_idle s = 0%nat -> Forall (fun j => snd j = JDone) (r_jobs s) ->
  length (r_log s) = length (submitted es).
Proof.
  intros H Hc Hi Hd. destruct (nothing_stuck _ _ _ H Hc Hi) as [_ <-].
  destruct (rinv_steps size es [] _ _ rinv_new H) as (popped & _ & _ & Hl & _). rewrite Hl.
  clear -Hd. induction Hd as [|[n j] l Hj _ IH]; [reflexivity|]. cbn in Hj. subst. cbn. congruence.
Qed.

(** *** The thread inside loop() dies *)

Theorem loop_dies size t ts : (1 <= size)%nat ->
  exists es s, rsteps size rate_new es = Some s /\ submitted es = t :: ts /\ r_log s = [t] /\ r_cold s = ts /\
    r_cur s = Some PFor /\ exists s', rstep size s (RLoop t) = Some s' /\ r_cur s' = None /\ r_cold s' = ts /\ Forall (fun j => snd j = JDone) (r_jobs s').
Proof.
  intros Hs. destruct size as [|size]; [lia|].
  pose (es1 := [RSubmit t; REnter; RLoop 0; RLoop 0; RLoop 0; RLoop 0; RLoop 0; RLoop 0; RLoop 0; RJob 0; RJob 0; RJob 0]).
  assert (E1 : exists s, rsteps (S size) rate_new es1 = Some s /\ r_cold s = [] /\ r_cur s = Some PFor /\ r_log s = [t] /\ r_children s = [t] /\
            f_hot (r_frames s (r_frame s)) = [] /\ Forall (fun j => snd j = JDone) (r_jobs s)).
  { eexists. split; [vm_compute; reflexivity|]. repeat (split; [vm_compute; reflexivity|]). split.
    - cbv beta iota delta [r_frames r_frame f_hot]. vm_compute. change ((if (t =? t)%nat then @nil nat else [t]) = []). rewrite Nat.eqb_refl. reflexivity.
    - cbv beta iota delta [r_jobs]. repeat constructor. }
  destruct E1 as (s1 & E1 & C1 & P1 & L1 & K1 & H1 & J1).
  assert (E2 : forall l s, exists s', rsteps (S size) s (map RSubmit l) = Some s' /\ r_cold s' = r_cold s ++ l /\ r_cur s' = r_cur s /\ r_log s' = r_log s /\
            r_children s' = r_children s /\ r_frame s' = r_frame s /\ r_frames s' = r_frames s /\ r_jobs s' = r_jobs s).
  { induction l as [|x l IH]; intros s; cbn [map rsteps rstep].
    - exists s. rewrite app_nil_r. repeat split.
    - edestruct IH as (s' & E & A). exists s'. split; [exact E|]. destruct A as (A1 & A). rewrite A1. cbn. rewrite <- app_assoc. split; [reflexivity|]. exact A. }
  destruct (E2 ts s1) as (s2 & E & A1 & A2 & A3 & A4 & A5 & A6 & A7).
  exists (es1 ++ map RSubmit ts), s2. split; [rewrite rsteps_app, E1; exact E|]. split.
  { unfold submitted. rewrite map_app, concat_app. cbn. f_equal. clear. induction ts as [|x l IH]; [reflexivity|]. cbn. rewrite IH. reflexivity. }
  rewrite A1, A2, A3, C1, P1, L1. split; [reflexivity|]. split; [reflexivity|]. split; [reflexivity|].
  cbn [rstep]. rewrite A2, P1. cbn [loop_step]. rewrite A4, A5, A6, K1, H1. cbn [existsb]. rewrite Nat.eqb_refl. cbn [orb].
  eexists. split; [reflexivity|]. cbn. rewrite A7, A1, C1. repeat split. exact J1.
Qed.

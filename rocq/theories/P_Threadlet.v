(** Proofs about Threadlet. *)

From Verif Require Import Py M_Threadlet.

Definition over (g : getter) : bool := match g with GRet _ | GRaise _ => true | _ => false end.

(** get() calls do not overlap: each one starts when the earlier ones are
    over. *)
Fixpoint calm (s : thrl) (es : list tev) : Prop :=
  match es with
  | [] => True
  | e :: es' =>
      (e = TGet -> forallb over (t_gets s) = true) /\
      match tstep s e with Some s' => calm s' es' | None => True end
  end.

(** What the finished function did, from the events. *)
Fixpoint did (es : list tev) : option outcome_ :=
  match es with [] => None | TFinish o :: _ => Some o | _ :: es' => did es' end.

(** The answers a sequence of non-overlapping get() calls gives. *)
Definition answers (o : outcome_) (n : nat) : list getter :=
  match o, n with
  | _, O => []
  | inl v, S k => repeat (GRet v) (S k)
  | inr x, S k => GRaise x :: repeat (GRet VNone) k
  end.

Lemma answers_snoc o n : answers o (S n) = answers o n ++
  [match o, n with inl v, _ => GRet v | inr x, O => GRaise x | inr _, _ => GRet VNone end].
Proof.
  destruct o as [v|x], n as [|n]; cbn [answers]; try reflexivity.
  - exact (repeat_cons (S n) (GRet v)).
  - exact (f_equal (cons (GRaise x)) (repeat_cons n (GRet VNone))).
Qed.

(** Invariant, [o]: the outcome once known. *)
Inductive seq_inv (o : option outcome_) : thrl -> Prop :=
| SI_none th : (th = NotStarted \/ th = Running) -> o = None -> seq_inv o (mkThrl th None true VNone [])
| SI_wait g : (g = GNew \/ g = GTested \/ g = GBlocked) -> o = None -> seq_inv o (mkThrl Running None true VNone [g])
| SI_fin0 o' : o = Some o' -> seq_inv o (mkThrl Finished (Some o') true VNone [])
| SI_fin1 o' g : o = Some o' -> (g = GNew \/ g = GTested \/ g = GBlocked) -> seq_inv o (mkThrl Finished (Some o') true VNone [g])
| SI_took o' : o = Some o' -> seq_inv o (mkThrl Finished None true VNone [GTook o'])
| SI_clr o' : o = Some o' -> seq_inv o (mkThrl Finished None false VNone [GCleared o'])
| SI_done o' n tl : o = Some o' -> (tl = [] \/ tl = [GNew]) ->
    seq_inv o (mkThrl Finished None false (match o' with inl v => v | inr _ => VNone end) (answers o' (S n) ++ tl)).

Definition did_snoc (d : option outcome_) (e : tev) : option outcome_ :=
  match d with Some o => Some o | None => match e with TFinish o => Some o | _ => None end end.

Lemma answers_over o n : forallb over (answers o n) = true.
Proof.
  assert (H : forall g k, over g = true -> forallb over (repeat g k) = true).
  { intros g k Hg. induction k; cbn; [reflexivity|]. rewrite Hg, IHk. reflexivity. }
  destruct o as [v|x], n as [|n]; cbn [answers]; try reflexivity.
  - apply H. reflexivity.
  - cbn. apply H. reflexivity.
Qed.

Lemma nth_error_over l i g : forallb over l = true -> nth_error l i = Some g -> over g = true.
Proof. intros H Hn. apply nth_error_In in Hn. rewrite forallb_forall in H. auto. Qed.

Lemma answers_length o n : length (answers o n) = n.
Proof. destruct o, n; cbn; rewrite ?repeat_length; reflexivity. Qed.

Lemma seq_inv_step d s e s' : seq_inv d s -> tstep s e = Some s' ->
  (e = TGet -> forallb over (t_gets s) = true) -> seq_inv (did_snoc d e) s'.
Proof.
  intros Hi He Hg. destruct Hi as [th Hth Hd|g Hgg Hd|o' Hd|o' g Hd Hgg|o' Hd|o' Hd|o' n tl Hd Htl]; subst d; cbn [did_snoc].
  - destruct e as [|o| |i]; cbn [tstep t_thread t_queue t_result t_value t_gets] in He.
    + destruct Hth as [->| ->]; [|discriminate]. injection He as <-. apply SI_none; auto.
    + destruct Hth as [->| ->]; [discriminate|]. injection He as <-. apply SI_fin0; auto.
    + injection He as <-. destruct Hth as [->| ->]; apply SI_wait; auto.
    + destruct i; discriminate.
  - destruct e as [|o| |i]; cbn [tstep t_thread t_queue t_result t_value t_gets] in He.
    + discriminate.
    + injection He as <-. apply SI_fin1; auto.
    + specialize (Hg eq_refl). cbn in Hg. destruct Hgg as [->|[->| ->]]; discriminate.
    + destruct i as [|[|i]]; cbn in He; destruct Hgg as [->|[->| ->]]; try discriminate;
      injection He as <-; apply SI_wait; auto.
  - destruct e as [|o| |i]; cbn [tstep t_thread t_queue t_result t_value t_gets] in He; try discriminate.
    + injection He as <-. apply SI_fin1; auto.
    + destruct i; discriminate.
  - destruct e as [|o| |i]; cbn [tstep t_thread t_queue t_result t_value t_gets] in He; try discriminate.
    + specialize (Hg eq_refl). cbn in Hg. destruct Hgg as [->|[->| ->]]; discriminate.
    + destruct i as [|[|i]]; cbn in He; destruct Hgg as [->|[->| ->]]; try discriminate; injection He as <-.
      * apply SI_fin1; auto.
      * apply SI_fin1; auto.
      * apply SI_took; auto.
  - destruct e as [|o| |i]; cbn [tstep t_thread t_queue t_result t_value t_gets] in He; try discriminate.
    + specialize (Hg eq_refl). discriminate.
    + destruct i as [|[|i]]; cbn in He; try discriminate. injection He as <-. apply SI_clr; auto.
  - destruct e as [|o| |i]; cbn [tstep t_thread t_queue t_result t_value t_gets] in He; try discriminate.
    + specialize (Hg eq_refl). discriminate.
    + destruct i as [|[|i]]; cbn in He; try (destruct o'; discriminate).
      destruct o' as [v|x]; injection He as <-.
      * change [GRet v] with (answers (inl v) 1 ++ []).
        apply (SI_done (Some (inl v)) (inl v) 0 []); auto.
      * change [GRaise x] with (answers (inr x) 1 ++ []). apply (SI_done (Some (inr x)) (inr x) 0 []); auto.
  - destruct e as [|o| |i]; cbn [tstep t_thread t_queue t_result t_value t_gets] in He; try discriminate.
    + destruct Htl as [->| ->].
      * injection He as <-. rewrite app_nil_r. apply (SI_done _ o' n [GNew]); auto.
      * specialize (Hg eq_refl). cbn [t_gets] in Hg. rewrite forallb_app in Hg. cbn in Hg. rewrite andb_false_r in Hg. discriminate.
    + destruct Htl as [->| ->].
      * rewrite app_nil_r in He. destruct (nth_error (answers o' (S n)) i) as [g|] eqn:En; [|discriminate].
        apply nth_error_over in En; [|apply answers_over]. destruct g; discriminate.
      * destruct (Nat.lt_ge_cases i (S n)) as [Hlt|Hge].
        { rewrite nth_error_app1 in He by (rewrite answers_length; lia).
          destruct (nth_error (answers o' (S n)) i) as [g|] eqn:En; [|discriminate].
          apply nth_error_over in En; [|apply answers_over]. destruct g; discriminate. }
        rewrite nth_error_app2 in He by (rewrite answers_length; lia). rewrite answers_length in He.
        destruct (i - S n)%nat as [|k] eqn:Ei; [|destruct k; discriminate]. cbn [nth_error] in He.
        assert (i = S n) by lia. subst i.
        assert (E0 : forall a b : thrl, Some a = Some b -> a = b) by congruence. apply E0 in He. subst s'.
        unfold set_get. cbn [t_gets].
        rewrite firstn_app, answers_length, Nat.sub_diag. change (firstn 0 [GNew]) with (@nil getter). rewrite app_nil_r.
        rewrite firstn_all2 by (rewrite answers_length; lia).
        rewrite skipn_all2 by (rewrite app_length, answers_length; cbn; lia).
        replace (answers o' (S n) ++ [GRet match o' with inl v => v | inr _ => VNone end])
          with (answers o' (S (S n)) ++ []).
        { apply SI_done; auto. }
        rewrite app_nil_r, (answers_snoc o' (S n)). destruct o'; reflexivity.
Qed.

Lemma did_fold es : forall d, fold_left did_snoc es d = match d with Some o => Some o | None => did es end.
Proof.
  induction es as [|e es IH]; intros d; cbn [fold_left did]; [destruct d; reflexivity|].
  rewrite IH. destruct d as [o|]; cbn; [reflexivity|]. destruct e; reflexivity.
Qed.

Lemma seq_inv_steps es : forall d s s', seq_inv d s -> tsteps s es = Some s' -> calm s es ->
  seq_inv (fold_left did_snoc es d) s'.
Proof.
  induction es as [|e es IH]; intros d s s' Hi H Hc; cbn [tsteps fold_left] in *; [congruence|].
  cbn [calm] in Hc. destruct Hc as [Hg Hc]. destruct (tstep s e) as [s1|] eqn:E; [|discriminate].
  eapply IH; [|exact H|exact Hc]. eapply seq_inv_step; eauto.
Qed.

(** All answers of non-overlapping calls. *)
Theorem sequential_gets es s : tsteps thr_new es = Some s -> calm thr_new es ->
  forallb over (t_gets s) = true ->
  match did es with
  | Some o => t_gets s = answers o (length (t_gets s))
  | None => t_gets s = []
  end.
Proof.
  intros H Hc Ho. pose proof (seq_inv_steps es None _ _ (SI_none None NotStarted (or_introl eq_refl) eq_refl) H Hc) as Hi.
  rewrite did_fold in Hi. clear H Hc.
  destruct Hi as [th Hth Hd|g Hgg Hd|o' Hd|o' g Hd Hgg|o' Hd|o' Hd|o' n tl Hd Htl]; rewrite Hd; cbn [t_gets] in *;
    try reflexivity; try discriminate; try (destruct o'; reflexivity); try (destruct Hgg as [->|[->| ->]]; discriminate).
  destruct Htl as [->| ->].
  - rewrite app_nil_r, answers_length. reflexivity.
  - rewrite forallb_app in Ho. cbn in Ho. rewrite andb_false_r in Ho. discriminate.
Qed.

(** A caller that waits on an empty queue of a finished function waits for
    ever. *)
Definition stuck (s : thrl) (i : nat) : Prop :=
  t_thread s = Finished /\ t_queue s = None /\ nth_error (t_gets s) i = Some GBlocked.

Lemma set_get_other s i j g : i <> j -> (i < length (t_gets s))%nat -> nth_error (set_get s i g) j = nth_error (t_gets s) j.
Proof.
  unfold set_get. generalize (t_gets s). intros l. revert i j. induction l as [|x l IH]; intros [|i] [|j] Hn Hl; cbn in *; try lia; try reflexivity.
  apply IH; lia.
Qed.

Lemma stuck_step s e s' i : stuck s i -> tstep s e = Some s' -> stuck s' i.
Proof.
  intros (H1 & H2 & H3) He. assert (Hi : (i < length (t_gets s))%nat) by (apply nth_error_Some; congruence).
  destruct e as [|o| |j]; cbn [tstep] in He.
  - rewrite H1 in He. discriminate.
  - rewrite H1 in He. discriminate.
  - injection He as <-. unfold stuck. cbn. rewrite H1. repeat split; auto. rewrite nth_error_app1; auto.
  - destruct (Nat.eq_dec j i) as [->|Hn]; [rewrite H3, H2 in He; discriminate|].
    destruct (nth_error (t_gets s) j) as [g|] eqn:En; [|discriminate].
    assert (Hj : (j < length (t_gets s))%nat) by (apply nth_error_Some; congruence).
    assert (Hset : forall g', nth_error (set_get s j g') i = Some GBlocked) by (intros; rewrite set_get_other; auto).
    rewrite H2 in He. destruct g as [| | |o|[v|x]|v|x]; try discriminate; injection He as <-; unfold stuck; cbn [t_thread t_queue t_gets]; auto.
Qed.

Theorem stuck_steps es : forall s s' i, stuck s i -> tsteps s es = Some s' -> stuck s' i.
Proof.
  induction es as [|e es IH]; intros s s' i Hs H; cbn [tsteps] in H; [congruence|].
  destruct (tstep s e) as [s1|] eqn:E; [|discriminate]. eapply IH; [|exact H]. eapply stuck_step; eauto.
Qed.

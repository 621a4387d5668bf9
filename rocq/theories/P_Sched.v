From Verif Require Import Py M_Sched S_Sched.
Local Open Scope Z_scope.

Lemma started_app a b : started (a ++ b) = started a ++ started b.
Proof. induction a as [|[] a IH]; cbn; now rewrite ?IH. Qed.
Lemma stopped_app a b : stopped (a ++ b) = stopped a ++ stopped b.
Proof. induction a as [|[] a IH]; cbn; now rewrite ?IH. Qed.

Lemma start_all_ok : forall l i, Forall (fun s => sv_start s = None) l ->
  exists t, start_all i l = (t, None) /\ started t = seq i (length l) /\ stopped t = [].
Proof.
  induction l as [|s l IH]; intros i F; cbn.
  - exists []. auto.
  - inversion F as [|? ? F1 F2]; subst. rewrite F1.
    destruct (IH (S i) F2) as (t & E & S1 & S2). rewrite E.
    exists (EvStart i :: t). cbn. now rewrite S1, S2.
Qed.

Lemma start_all_err : forall l i t e, start_all i l = (t, Some e) ->
  exists k s, nth_error l k = Some s /\ sv_start s = Some e /\
    started t = seq i (S k) /\ stopped t = [] /\
    (forall j s', (j < k)%nat -> nth_error l j = Some s' -> sv_start s' = None).
Proof.
  induction l as [|s l IH]; intros i t e E; cbn in E; [discriminate|].
  destruct (sv_start s) eqn:Q.
  - injection E as <- <-. exists 0%nat, s. cbn. repeat split; auto. intros; lia.
  - destruct (start_all (S i) l) as [t' r] eqn:R. injection E as <- ->.
    destruct (IH _ _ _ R) as (k & s1 & H1 & H2 & H3 & H4 & H5).
    exists (S k), s1. cbn [nth_error started stopped]. rewrite H3, H4.
    repeat split; auto. intros [|j] s' L N; cbn in N.
    + congruence.
    + apply (H5 j s'); [lia|exact N].
Qed.

Lemma stop_all_ok : forall l i, Forall (fun s => sv_stop s = None) l ->
  exists t, stop_all i l = (t, None) /\ stopped t = seq i (length l) /\ started t = [].
Proof.
  induction l as [|s l IH]; intros i F; cbn.
  - exists []. auto.
  - inversion F as [|? ? F1 F2]; subst. rewrite F1.
    destruct (IH (S i) F2) as (t & E & S1 & S2). rewrite E.
    exists (EvStop i :: t). cbn. now rewrite S1, S2.
Qed.

Lemma wait_none : forall ws t r, wait_basic ws = (t, r) -> started t = [] /\ stopped t = [].
Proof.
  induction ws as [|[|e] ws IH]; intros t r E; cbn in E.
  - injection E as <- <-. auto.
  - destruct (wait_basic ws) as [t' r'] eqn:R. injection E as <- <-. cbn. eapply IH; reflexivity.
  - injection E as <- <-. auto.
Qed.

Lemma wait_result : forall ws, snd (wait_basic ws) = None <-> Forall (fun w => w = WStill) ws.
Proof.
  induction ws as [|[|e] ws IH]; cbn.
  - split; auto.
  - destruct (wait_basic ws) as [t r]. cbn in *. rewrite IH. split.
    + intros H. constructor; auto.
    + intros H. now inversion H.
  - split; [discriminate|]. intros H. inversion H; discriminate.
Qed.

Lemma spawned l : forall i, stopped (stop_spawned i l) = seq i (length l) /\ started (stop_spawned i l) = [].
Proof.
  induction l as [|s l IH]; intros i; cbn; [auto|].
  destruct (IH (S i)) as [A B]. now rewrite A, B.
Qed.

Lemma srun_basic : forall os g, use_gevent_var g = false ->
  use_gevent_var (fst (srun g os)) = false /\
  Forall (fun r => forall m n, r = Ok (m, n) -> m = SchedBasic) (snd (srun g os)).
Proof.
  induction os as [|[|n] os IH]; intros g G; cbn.
  - auto.
  - unfold use_gevent. apply IH. exact G.
  - destruct (IH g G) as [A B]. destruct (srun g os) as [g' rs]. cbn in *.
    split; [exact A|]. constructor; [|exact B].
    intros m n' E. unfold sched_getattr in E. rewrite G in E.
    destruct (existsb (String.eqb n) sched_names); congruence.
Qed.

Lemma stop_all_err : forall l i k s e, nth_error l k = Some s -> sv_stop s = Some e ->
  (forall j s', (j < k)%nat -> nth_error l j = Some s' -> sv_stop s' = None) ->
  exists t, stop_all i l = (t, Some e) /\ stopped t = seq i (S k) /\ started t = [].
Proof.
  induction l as [|a l IH]; intros i [|k] s e N St B; cbn in N; try discriminate.
  - injection N as ->. cbn. rewrite St. eexists. split; [reflexivity|]. auto.
  - cbn [stop_all]. rewrite (B 0%nat a (Nat.lt_0_succ k) eq_refl).
    destruct (IH (S i) k s e N St) as (t & E & S1 & S2).
    { intros j s' L M. apply (B (S j) s'); [lia|exact M]. }
    rewrite E. eexists. split; [reflexivity|]. cbn [stopped started seq]. rewrite S1, S2. auto.
Qed.

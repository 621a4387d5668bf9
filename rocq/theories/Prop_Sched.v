(** Properties C86 and C87: the scheduler proxy (twink/base.py:13-28) and
    serve_forever (twink/sched_basic.py, twink/sched_gevent.py). *)

From Verif Require Import Py M_Sched S_Sched P_Sched.
Local Open Scope Z_scope.

(** C86. Exactly the seven names of a scheduler are found through the proxy;
    every other name is an AttributeError, whatever was called before. *)
Theorem C86_names : forall g n,
  (exists m, sched_getattr g n = Ok (m, n)) <->
  In n ["subprocess"; "socket"; "Queue"; "Lock"; "Event"; "spawn"; "serve_forever"]%string.
Proof.
  intros g n. unfold sched_getattr.
  destruct (existsb (String.eqb n) sched_names) eqn:E.
  - apply existsb_exists in E. destruct E as (x & I & E). apply String.eqb_eq in E. subst x.
    split; [intros _; exact I|]. intros _. eauto.
  - split.
    + intros (m & H). discriminate H.
    + intros I. exfalso.
      assert (T : existsb (String.eqb n) sched_names = true).
      { apply existsb_exists. exists n. split; [exact I|apply String.eqb_refl]. }
      congruence.
Qed.
Print Assumptions C86_names.

(** C86 (full statement, refuted below): after use_gevent() every name comes
    from the gevent scheduler. *)
Definition C86_statement : Prop := forall os n g,
  In SUse os -> g = fst (srun base_init os) ->
  forall m, sched_getattr g n = Ok (m, n) -> m = SchedGevent.

(** C86 (refuted, and for every program): use_gevent() has no effect at all;
    every name looked up in any program comes from the thread scheduler. *)
Theorem C86_use_gevent_refuted :
  (forall os, Forall (fun r => forall m n, r = Ok (m, n) -> m = SchedBasic)
                (snd (srun base_init os))) /\ ~ C86_statement.
Proof.
  split.
  - intros os. now apply srun_basic.
  - intros H. specialize (H [SUse] "spawn"%string base_init (or_introl eq_refl) eq_refl
      SchedBasic eq_refl). discriminate H.
Qed.
Print Assumptions C86_use_gevent_refuted.

Example C86_example :
  snd (srun base_init [SGet "spawn"; SUse; SGet "spawn"; SGet "Thread"]%string) =
    [Ok (SchedBasic, "spawn"%string); Ok (SchedBasic, "spawn"%string); Err AttributeError].
Proof. reflexivity. Qed.

(** C87 (full statement, refuted below): whatever start(), stop() and the wait
    do, every server that was started is stopped when serve_forever is left. *)
Definition C87_statement (serve : list server -> list sev * option exn) : Prop :=
  forall l t r, serve l = (t, r) ->
  forall i s, nth_error l i = Some s -> sv_start s = None -> In i (started t) -> In i (stopped t).

(** C87. If every start() and stop() returns: all servers are started, in
    order, then all are stopped, once each and in order, also if the wait is
    interrupted; nothing is stopped before the event is set, and the exception
    of the wait is passed on. *)
Theorem C87_all_stopped_partial : forall main l ws t r,
  Forall (fun s => sv_start s = None) l -> Forall (fun s => sv_stop s = None) l ->
  serve_basic main None l ws = (t, r) ->
  started t = seq 0 (length l) /\ stopped t = seq 0 (length l) /\ starts_before_stops t /\
  (r = None <-> Forall (fun w => w = WStill) ws).
Proof.
  intros main l ws t r F1 F2 E. unfold serve_basic in E.
  destruct (start_all_ok l 0 F1) as (t1 & E1 & A1 & B1).
  destruct (stop_all_ok l 0 F2) as (t3 & E3 & A3 & B3).
  destruct (wait_basic ws) as [t2 r2] eqn:W.
  destruct (wait_none _ _ _ W) as [A2 B2].
  pose proof (wait_result ws) as WR. rewrite W in WR. cbn [snd] in WR.
  rewrite E1, E3 in E. unfold finally in E.
  assert (X : exists t0, (started t0 = [] /\ stopped t0 = []) /\ (t, r) = (t0 ++ t1 ++ t2 ++ t3, r2)).
  { destruct main; [exists []|exists [EvSignal]]; (split; [split; reflexivity|]); symmetry; exact E. }
  destruct X as (t0 & [A0 B0] & X). injection X as -> ->.
  rewrite !started_app, !stopped_app, A0, A1, A2, B0, B1, B2, A3, B3. cbn [app].
  rewrite app_nil_r. repeat split; auto; try apply WR.
  exists (t0 ++ t1 ++ t2), t3. rewrite <- !app_assoc.
  rewrite !stopped_app, B0, B1, B2. auto.
Qed.
Print Assumptions C87_all_stopped_partial.

(** C87. With the gevent scheduler the stops are independent of each other:
    all are made even if some raise. *)
Theorem C87_gevent_all_stopped_partial : forall l w t r,
  Forall (fun s => sv_start s = None) l -> serve_gevent l w = (t, r) ->
  started t = seq 0 (length l) /\ stopped t = seq 0 (length l) /\ starts_before_stops t /\ r = w.
Proof.
  intros l w t r F E. unfold serve_gevent in E.
  destruct (start_all_ok l 0 F) as (t1 & E1 & A1 & B1). rewrite E1 in E.
  injection E as <- <-. destruct (spawned l 0) as [S1 S2].
  rewrite !started_app, !stopped_app, A1, B1. cbn [started stopped app].
  rewrite S1, S2, app_nil_r. repeat split.
  exists (t1 ++ [EvWait]), (stop_spawned 0 l). rewrite <- app_assoc, stopped_app, B1. auto.
Qed.
Print Assumptions C87_gevent_all_stopped_partial.

(** C87 (refuted, in general): if the k-th start() raises, the k servers
    started before it are left running: no stop() is called at all, with
    either scheduler. *)
Theorem C87_failed_start_refuted : forall main l ws k s e,
  nth_error l k = Some s -> sv_start s = Some e ->
  (forall j s', (j < k)%nat -> nth_error l j = Some s' -> sv_start s' = None) ->
  (exists t, serve_basic main None l ws = (t, Some e) /\
     started t = seq 0 (S k) /\ stopped t = []) /\
  (exists t, serve_gevent l None = (t, Some e) /\
     started t = seq 0 (S k) /\ stopped t = []).
Proof.
  intros main l ws k s e N S B.
  destruct (start_all 0 l) as [t1 [e1|]] eqn:E.
  - destruct (start_all_err _ _ _ _ E) as (k' & s' & N' & S' & A & C & B').
    assert (k' = k).
    { destruct (Nat.lt_trichotomy k k') as [H|[H|H]]; [|auto|].
      - rewrite (B' k s H N) in S. discriminate S.
      - rewrite (B k' s' H N') in S'. discriminate S'. }
    subst k'. assert (s' = s) by congruence. subst s'. assert (e1 = e) by congruence. subst e1.
    split.
    + unfold serve_basic. rewrite E. destruct main; eexists; (split; [reflexivity|]).
      * cbn [app]. auto.
      * cbn [app started stopped]. auto.
    + unfold serve_gevent. rewrite E. eexists. split; [reflexivity|]. auto.
  - exfalso. clear B. assert (X : forall l i t k, start_all i l = (t, None) ->
      forall s, nth_error l k = Some s -> sv_start s = None).
    { clear. induction l as [|s l IH]; intros i t [|k] E s' N; cbn in *; try discriminate.
      - destruct (sv_start s) eqn:Q; [discriminate|]. congruence.
      - destruct (sv_start s); [discriminate|].
        destruct (start_all (S i) l) as [t' r] eqn:R. injection E as <- ->.
        eapply IH; eauto. }
    rewrite (X _ _ _ _ E _ N) in S. discriminate S.
Qed.
Print Assumptions C87_failed_start_refuted.

(** C87 (refuted, in general): with the thread scheduler, if the k-th stop()
    raises, the later servers are left running, and its exception hides the
    one of the wait. *)
Theorem C87_failed_stop_refuted :
  (forall main l ws k s e,
     Forall (fun s => sv_start s = None) l ->
     nth_error l k = Some s -> sv_stop s = Some e ->
     (forall j s', (j < k)%nat -> nth_error l j = Some s' -> sv_stop s' = None) ->
     exists t, serve_basic main None l ws = (t, Some e) /\
       started t = seq 0 (length l) /\ stopped t = seq 0 (S k)) /\
  ~ (forall ws, C87_statement (fun l => serve_basic true None l ws)).
Proof.
  split.
  - intros main l ws k s e F N St B. unfold serve_basic.
    destruct (start_all_ok l 0 F) as (t1 & E1 & A1 & B1). destruct (wait_basic ws) as [t2 r] eqn:E2.
    destruct (wait_none _ _ _ E2) as [A2 B2]. destruct (stop_all_err l 0 k s e N St B) as (t3 & E3 & B3 & A3).
    rewrite E1, E3. destruct main; (eexists; split; [reflexivity|]); cbn [app started stopped];
      rewrite ?started_app, ?stopped_app, A1, A2, A3, B1, B2, B3, !app_nil_r; cbn [app]; auto.
  - intros H.
    specialize (H [] [mkServer None (Some (SocketError 9)); mkServer None None] _ _ eq_refl 1%nat
      (mkServer None None) eq_refl eq_refl).
    cbn in H. destruct H as [H|[]]; [|discriminate H]. auto.
Qed.
Print Assumptions C87_failed_stop_refuted.

Example C87_failed_stop_example :
  let l := [mkServer None (Some (SocketError 9)); mkServer None None] in
  Forall (fun s => sv_start s = None) l /\
  serve_basic true None l [WStill; WExn (OtherError 1)] =
    ([EvStart 0; EvStart 1; EvWait; EvWait; EvStop 0], Some (SocketError 9)).
Proof. cbv zeta. split; [repeat constructor|reflexivity]. Qed.

Example C87_example :
  let l := [mkServer None None; mkServer None None] in
  serve_basic false None l [WStill; WExn (OtherError 1)] =
    ([EvSignal; EvStart 0; EvStart 1; EvWait; EvWait; EvStop 0; EvStop 1], Some (OtherError 1)) /\
  serve_gevent [mkServer None None; mkServer None (Some (SocketError 9)); mkServer None None] None =
    ([EvStart 0; EvStart 1; EvStart 2; EvWait; EvStop 0; EvStop 1; EvStop 2], None) /\
  serve_basic true None [mkServer None None; mkServer (Some (SocketError 98)) None; mkServer None None] [] =
    ([EvStart 0; EvStart 1], Some (SocketError 98)) /\
  serve_basic false (Some ValueError) l [] = ([EvSignal], Some ValueError).
Proof. cbv zeta. repeat split. Qed.

(** Property C85: the datagram server (twink/base.py:660-701). *)

From Verif Require Import Py M_Dgram S_Dgram P_Dgram.
Local Open Scope Z_scope.

(** C85 (full statement, refuted below): as long as the server is not stopped,
    every datagram is given to the one channel of its sender and its message
    handled. *)
Definition C85_statement (rcv : dev -> dev) : Prop := forall vs, Forall serving vs ->
  let s := dg_run rcv vs in
  g_end s = Running /\
  Forall2 (job_for (g_chans s)) (g_jobs s) (grams vs) /\
  Forall (fun j => exists m, In m (snd (locked_loop j))) (g_jobs s).

(** C85, the bookkeeping, assuming a receive call that returns the datagram
    with its sender (which the code's does not): one channel is made for each
    sender, in the order of their first datagrams, and started once; every
    datagram is spawned as one job with its sender's channel; jobs of two
    senders hold different locks, jobs of one sender the same. *)
Theorem C85_one_channel_per_remote_partial : forall vs, Forall serving vs ->
  let s := dg_run rcv_meant vs in
  g_end s = Running /\ g_sock_open s = true /\
  NoDup (g_chans s) /\ g_chans s = firsts [] (map snd (grams vs)) /\
  g_hello s = g_chans s /\
  Forall2 (job_for (g_chans s)) (g_jobs s) (grams vs) /\
  forall j k, In j (g_jobs s) -> In k (g_jobs s) -> (j_lock j = j_lock k <-> j_ch j = j_ch k).
Proof.
  intros vs F. cbv zeta.
  destruct (inv_run vs F) as (A & E & O & R & L & He & N & C & J & K).
  repeat split; auto.
  - intros Q. rewrite Forall_forall in K. now rewrite <- (K j), <- (K k).
  - intros Q. rewrite Forall_forall in K. now rewrite (K j), (K k).
Qed.
Print Assumptions C85_one_channel_per_remote_partial.

(** C85 (refuted): the code's [sock.recv()] lacks its argument.  Whatever
    arrives first ends the thread with a TypeError: no channel, no job, and
    the socket is never closed, not even by stop(). *)
Theorem C85_receives_nothing_refuted : forall v vs, v <> DvStop ->
  let s := dg_run rcv_code (v :: vs) in
  g_end s = Died TypeError /\ g_sock_open s = true /\ g_chans s = [] /\ g_jobs s = [].
Proof.
  intros v vs H. cbv zeta.
  destruct (code_dead (v :: vs)) as (_ & C & J & _).
  assert (E : g_end (dg_step rcv_code dg_start v) = Died TypeError) by (destruct v; [congruence|..]; reflexivity).
  assert (O : g_sock_open (dg_step rcv_code dg_start v) = true) by (destruct v; reflexivity).
  destruct (dead_stays rcv_code TypeError vs _ E) as (E2 & O2 & _).
  unfold dg_run in *. cbn [fold_left] in *. rewrite E2, O2. auto.
Qed.
Print Assumptions C85_receives_nothing_refuted.

(** C85 (refuted): even with a working receive call no message would be
    handled, since [StringIO] is not defined. *)
Theorem C85_handles_nothing_refuted : ~ C85_statement rcv_meant /\ ~ C85_statement rcv_code.
Proof.
  split; intros H.
  - specialize (H [DvGram [4; 0; 0; 8; 0; 0; 0; 1] 7 None]). cbv zeta in H.
    destruct H as (_ & _ & F); [repeat constructor|].
    cbn in F. inversion F as [|? ? (m & []) _].
  - specialize (H [DvTimeout]). destruct H as (E & _); [repeat constructor|].
    discriminate E.
Qed.
Print Assumptions C85_handles_nothing_refuted.

(** C85 (refuted): one sender whose channel cannot be started (its HELLO
    cannot be sent) ends the service for all. *)
Theorem C85_one_sender_stops_all_refuted : forall vs d a e ws, Forall serving vs ->
  ~ In a (map snd (grams vs)) ->
  let s := dg_run rcv_meant (vs ++ DvGram d a (Some e) :: ws) in
  g_end s = Died e /\ g_sock_open s = true /\ length (g_jobs s) = length (grams vs).
Proof.
  intros vs d a e ws F N. cbv zeta. unfold dg_run. rewrite fold_left_app. cbn [fold_left].
  destruct (inv_run vs F) as (A & E & O & R & L & He & ND & C & J & K).
  unfold dg_run in *.
  set (s0 := fold_left (dg_step rcv_meant) vs dg_start) in *.
  assert (X : dg_step rcv_meant s0 (DvGram d a (Some e)) =
    mkDgs (g_accepting s0) (g_remotes s0) (g_locks s0) (g_chans s0 ++ [a])
      (g_hello s0) (g_jobs s0) (g_sock_open s0) (Died e)).
  { unfold dg_step, rcv_meant. rewrite E, A. cbn [dg_pass].
    pose proof (assoc_numbered (g_chans s0) a) as Q. rewrite R.
    destruct (assoc a (numbered (g_chans s0))); [|now rewrite A].
    destruct Q as [_ Q]. exfalso. apply N.
    rewrite C in Q. apply firsts_in in Q. now destruct Q. }
  rewrite X.
  destruct (dead_stays rcv_meant e ws _ (eq_refl : g_end (mkDgs (g_accepting s0) (g_remotes s0)
    (g_locks s0) (g_chans s0 ++ [a]) (g_hello s0) (g_jobs s0) (g_sock_open s0) (Died e)) = Died e))
    as (B1 & B2 & B3).
  rewrite B1, B2, B3. cbn. repeat split; auto. exact (f2_length J).
Qed.
Print Assumptions C85_one_sender_stops_all_refuted.

(** stop(): the thread returns at its next look at the flag and the socket is
    closed; nothing is received after it, and what was received stays. *)
Theorem C85_stop_partial : forall vs v ws, Forall serving vs -> v <> DvStop ->
  let s := dg_run rcv_meant (vs ++ DvStop :: v :: ws) in
  g_end s = Returned /\ g_sock_open s = false /\ g_accepting s = false /\
  g_chans s = g_chans (dg_run rcv_meant vs) /\ g_jobs s = g_jobs (dg_run rcv_meant vs) /\
  g_remotes s = g_remotes (dg_run rcv_meant vs).
Proof.
  intros vs v ws F Hv. cbv zeta. unfold dg_run. rewrite fold_left_app. cbn [fold_left].
  destruct (inv_run vs F) as (A & E & _). unfold dg_run in *.
  set (s0 := fold_left (dg_step rcv_meant) vs dg_start) in *.
  assert (X : dg_step rcv_meant (dg_step rcv_meant s0 DvStop) v =
    mkDgs false (g_remotes s0) (g_locks s0) (g_chans s0) (g_hello s0) (g_jobs s0) false Returned).
  { unfold dg_step at 2. rewrite E. unfold dg_step. cbn [g_end g_accepting]. destruct v; [congruence|..]; reflexivity. }
  rewrite X. clear X.
  assert (S : forall ws s, g_end s = Returned -> g_accepting s = false ->
    fold_left (dg_step rcv_meant) ws s = s).
  { clear. induction ws as [|w ws IH]; intros s H1 H2; [reflexivity|]. cbn [fold_left].
    assert (Y : dg_step rcv_meant s w = s).
    { unfold dg_step. rewrite H1. destruct w; try reflexivity. destruct s. cbn in *. subst. reflexivity. }
    rewrite Y. apply IH; assumption. }
  rewrite S by reflexivity. cbn. auto 10.
Qed.
Print Assumptions C85_stop_partial.

Example C85_example :
  let vs := [DvGram [1] 7 None; DvTimeout; DvGram [2] 9 None; DvGram [3] 7 None] in
  Forall serving vs /\
  dg_run rcv_meant vs =
    mkDgs true [(7, 0%nat); (9, 1%nat)] [(7, 0%nat); (9, 1%nat)] [7; 9] [7; 9]
      [mkJob 0 0 [1]; mkJob 1 1 [2]; mkJob 0 0 [3]] true Running /\
  dg_run rcv_meant (vs ++ [DvStop; DvTimeout]) =
    mkDgs false [(7, 0%nat); (9, 1%nat)] [(7, 0%nat); (9, 1%nat)] [7; 9] [7; 9]
      [mkJob 0 0 [1]; mkJob 1 1 [2]; mkJob 0 0 [3]] false Returned /\
  dg_run rcv_code (vs ++ [DvStop]) = mkDgs false [] [] [] [] [] true (Died TypeError) /\
  ~ In 8 (map snd (grams vs)).
Proof.
  cbv zeta. split; [repeat constructor|].
  split; [vm_compute; reflexivity|]. split; [vm_compute; reflexivity|].
  split; [vm_compute; reflexivity|]. cbn. intuition lia.
Qed.

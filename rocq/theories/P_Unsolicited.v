From Verif Require Import Py Struct P_Struct M_Hello M_Loop M_Controller S_Hello S_Controller P_Hello P_Controller P_Switch.
Local Open Scope Z_scope.

(** ctl_recv leaves the queue alone. *)
Lemma ctl_recv_seq s m s1 r : ctl_recv s m = (s1, r) -> k_seq s1 = k_seq s /\ k_dead s1 = k_dead s.
Proof.
  unfold ctl_recv. intros E. destruct m as [|x m]; [injection E as <- <-; auto|].
  destruct (parse_ofp_header (x :: m)) as [h|e]; [|injection E as <- <-; auto].
  destruct (h_type h =? 6); [|injection E as <- <-; auto].
  destruct (match k_version s with None => true | Some v => v <? 4 end).
  - destruct (unpacks "!Q" (x :: m) 8) as [[|[|d| | | |] [|]]|]; injection E as <- <-; auto.
  - destruct (unpacks "!QIBB" (x :: m) 8) as [[|[|d| | | |] [|? [|? [|[|a| | | |] [|]]]]]|];
      injection E as <- <-; auto.
Qed.

Lemma ctl_recv_other s m : (8 <= length m)%nat -> byte_at m 1 <> 6 -> ctl_recv s m = (s, Ok tt).
Proof.
  intros L N. unfold ctl_recv. destruct m as [|x m]; [reflexivity|].
  rewrite parse_header_spec by exact L. cbn [h_type].
  destruct (Z.eqb_spec (byte_at (x :: m) 1) 6); [contradiction|reflexivity].
Qed.

Lemma async_step s m : (8 <= length m)%nat -> In (byte_at m 1) [10; 11; 12] ->
  cstep true s (CRecv m) = (s, CGot ToAsync).
Proof.
  intros L I. cbn [cstep]. rewrite ctl_recv_other; [|exact L|].
  2: { intros E. rewrite E in I. cbn in I. lia. }
  unfold intercept. rewrite parse_header_spec by exact L. cbn [h_type andb].
  replace ((byte_at m 1 =? 10) || (byte_at m 1 =? 11) || (byte_at m 1 =? 12)) with true; [reflexivity|].
  cbn in I. destruct I as [<-|[<-|[<-|[]]]]; reflexivity.
Qed.

Lemma crun_nth a os : forall s k o, nth_error os k = Some o ->
  exists s1, nth_error (snd (crun a s os)) k = Some (snd (cstep a s1 o)).
Proof.
  induction os as [|o os IH]; intros s [|k] o' H; cbn in H; try discriminate.
  - injection H as ->. cbn [crun]. destruct (cstep a s o') as [s1 r] eqn:E.
    destruct (crun a s1 os). exists s. cbn. now rewrite E.
  - cbn [crun]. destruct (cstep a s o) as [s1 r] eqn:E.
    destruct (IH s1 k o' H) as (s2 & R).
    destruct (crun a s1 os) as [s3 rs]. exists s2. exact R.
Qed.

Lemma recv_fine s m : frame_ok m = true -> exists s1, ctl_recv s m = (s1, Ok tt) /\
  k_seq s1 = k_seq s /\ k_dead s1 = k_dead s.
Proof.
  intros F. unfold frame_ok in F. apply andb_true_iff in F. destruct F as [F1 F2].
  apply Nat.leb_le in F1. rewrite features by exact F1.
  destruct (byte_at m 1 =? 6); [|eauto].
  cbn [negb orb] in F2. apply Nat.leb_le in F2.
  replace (22 <=? length m)%nat with true by (symmetry; apply Nat.leb_le; lia).
  replace (16 <=? length m)%nat with true by (symmetry; apply Nat.leb_le; lia).
  destruct (match k_version s with Some v => 4 <=? v | None => false end); eauto.
Qed.

Lemma frame_len m : frame_ok m = true -> (8 <= length m)%nat.
Proof. intros F. unfold frame_ok in F. apply andb_true_iff in F. now apply Nat.leb_le. Qed.

(** A request with callback f is in front: everything but barrier replies goes
    to f. *)
Lemma front_takes a s f q m : k_seq s = SChunk (Some f) :: q -> ~ In f (k_dead s) ->
  frame_ok m = true -> barrier_reply m = false -> a && async_type m = false ->
  exists s', cstep a s (CRecv m) = (s', CGot (ToCallback f)) /\ k_seq s' = k_seq s /\ k_dead s' = k_dead s.
Proof.
  intros Q D F B A. cbn [cstep].
  destruct (recv_fine s m F) as (s1 & E & Q1 & D1). rewrite E.
  rewrite intercept_plain; [|exact (frame_len m F)|exact B].
  rewrite A, Q1, Q. unfold owner. rewrite D1.
  destruct (in_dec Nat.eq_dec f (k_dead s)); [contradiction|].
  eexists. split; [reflexivity|]. split; congruence.
Qed.

Lemma front_takes_all a ms : forall s f q, k_seq s = SChunk (Some f) :: q -> ~ In f (k_dead s) ->
  Forall (fun m => frame_ok m = true /\ barrier_reply m = false /\ a && async_type m = false) ms ->
  snd (crun a s (map CRecv ms)) = map (fun _ => CGot (ToCallback f)) ms.
Proof.
  induction ms as [|m ms IH]; intros s f q Q D F; [reflexivity|].
  inversion F as [|? ? (F1 & F2 & F3) F']; subst.
  destruct (front_takes a s f q m Q D F1 F2 F3) as (s' & E & Q' & D').
  cbn [map crun]. rewrite E. specialize (IH s' f q). rewrite Q', D' in IH.
  specialize (IH Q D F'). destruct (crun a s' (map CRecv ms)) as [s2 rs]. cbn [snd] in *.
  now rewrite IH.
Qed.

(** Histories in which no callback is ever given. *)
Definition no_cb (q : list sel) : Prop :=
  Forall (fun e => match e with SChunk c => c = None | SBarrier _ c => c = None end) q.

Lemma no_cb_last q e : no_cb q -> last_of q = Some e ->
  match e with SChunk c => c = None | SBarrier _ c => c = None end.
Proof.
  induction q as [|x q IH]; intros N L; [discriminate|].
  inversion N; subst. destruct q as [|y q]; cbn in L.
  - injection L as <-. assumption.
  - apply IH; assumption.
Qed.

Lemma k_put_seq s m o s' r : k_put s m o = (s', r) -> k_seq s' = k_seq s.
Proof. unfold k_put. destruct o; intros E; injection E as <- <-; reflexivity. Qed.

Lemma send_no_cb s m x o1 o2 s' r : no_cb (k_seq s) ->
  locked_send s None m x o1 o2 = (s', r) -> no_cb (k_seq s').
Proof.
  intros N E. unfold locked_send in E.
  destruct (parse_ofp_header m) as [h|e]; [|injection E as <- <-; exact N].
  destruct (is_barrier_req h).
  - apply k_put_seq in E. rewrite E. cbn. apply Forall_app. split; [exact N|]. repeat constructor.
  - destruct (last_of (k_seq s)) as [[cb|y cb]|] eqn:L.
    + pose proof (no_cb_last _ _ N L) as C. cbn in C. subst cb. cbn [live cb_eqb negb] in E.
      apply k_put_seq in E. now rewrite E.
    + apply k_put_seq in E. rewrite E. cbn. apply Forall_app. split; [exact N|]. repeat constructor.
    + cbn [self_callback cb_eqb negb] in E. apply k_put_seq in E. now rewrite E.
Qed.

Lemma walk_no_cb dead x q : forall d, no_cb q ->
  match walk dead x d q with
  | (Some q', r) => no_cb q' /\ r = Swallowed
  | (None, r) => exists w, r = FailAssert w
  end.
Proof.
  induction q as [|e q IH]; intros d N; cbn [walk]; [eauto|].
  inversion N; subst. destruct e as [cb|y cb].
  - destruct d; [eauto|]. apply IH. assumption.
  - destruct (y =? x); [|eauto]. subst cb. cbn [live]. auto.
Qed.

Lemma step_no_cb a s o s' r : no_cb (k_seq s) ->
  match o with CSend h _ _ _ _ => h = None | _ => True end ->
  cstep a s o = (s', r) -> no_cb (k_seq s').
Proof.
  intros N H E. destruct o as [h m x o1 o2|m|f|v]; cbn [cstep] in E.
  - subst h. destruct (locked_send s None m x o1 o2) as [s1 r1] eqn:L.
    injection E as <- <-. eapply send_no_cb; eauto.
  - destruct (ctl_recv s m) as [s1 [u|e]] eqn:C; destruct (ctl_recv_seq _ _ _ _ C) as [Q D].
    + destruct (intercept a s1 m) as [s2 r2] eqn:I. injection E as <- <-.
      unfold intercept in I. destruct (parse_ofp_header m) as [h|e]; [|injection I as <- <-; congruence].
      destruct (a && _); [injection I as <- <-; congruence|].
      destruct (k_seq s1) as [|e q] eqn:K; [injection I as <- <-; congruence|].
      destruct (is_barrier_rep h).
      * pose proof (walk_no_cb (k_dead s1) (h_xid h) (e :: q) false) as W.
        rewrite Q in W. specialize (W N). rewrite <- Q in W.
        destruct (walk (k_dead s1) (h_xid h) false (e :: q)) as [[q'|] r3].
        -- injection I as <- <-. cbn. apply W.
        -- injection I as <- <-. congruence.
      * destruct e as [cb|]; [destruct (live (k_dead s1) cb)|]; injection I as <- <-; congruence.
    + injection E as <- <-. congruence.
  - injection E as <- <-. exact N.
  - injection E as <- <-. exact N.
Qed.

Lemma recv_no_cb a s m : no_cb (k_seq s) -> frame_ok m = true -> barrier_reply m = false ->
  a && async_type m = false -> snd (cstep a s (CRecv m)) = CGot ToDefault.
Proof.
  intros N F B A. cbn [cstep].
  destruct (recv_fine s m F) as (s1 & E & Q1 & D1). rewrite E.
  rewrite intercept_plain; [|exact (frame_len m F)|exact B].
  rewrite A, Q1.
  destruct (k_seq s) as [|[cb|x cb] q]; try reflexivity.
  inversion N as [|? ? C N2]; subst. reflexivity.
Qed.

Lemma run_no_cb a os : forall s, no_cb (k_seq s) ->
  Forall (fun o => match o with CSend h _ _ _ _ => h = None | _ => True end) os ->
  forall k m, nth_error os k = Some (CRecv m) -> frame_ok m = true -> barrier_reply m = false ->
  a && async_type m = false -> nth_error (snd (crun a s os)) k = Some (CGot ToDefault).
Proof.
  induction os as [|o os IH]; intros s N F [|k] m H F1 B A; cbn in H; try discriminate.
  - injection H as ->. cbn [crun].
    pose proof (recv_no_cb a s m N F1 B A) as R.
    destruct (cstep a s (CRecv m)) as [s1 r]. destruct (crun a s1 os). cbn in *. congruence.
  - cbn [crun]. inversion F as [|? ? G F']; subst.
    destruct (cstep a s o) as [s1 r] eqn:E.
    pose proof (step_no_cb a s o s1 r N G E) as N1.
    specialize (IH s1 N1 F' k m H F1 B A).
    destruct (crun a s1 os) as [s3 rs]. exact IH.
Qed.

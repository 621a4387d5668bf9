(** ** C96 to C98: ControllerChannel and its lock, with any number of threads *)

From Coq Require Import Lia.
From Verif Require Import Py Struct P_Struct M_Hello M_Loop M_Controller M_Lock S_Lock P_Lock P_LockLin P_LockLive.
Local Open Scope Z_scope.

(** *** C96: sends and messages of several threads happen one after the other *)

(** Whatever the threads do and however they are interleaved, with callbacks collected and the
    version changed at any time, there is an order in which the same sends and routings, each in
    one step, have the same results; and whenever the lock is free, the same state of the channel:
    the same messages handed to the transport in the same order. *)
Theorem C96_atomic : forall reentrant ha body progs es,
  let g := grun reentrant ha body (g_init progs) es in
  exists ops, snd (arun ha k_new ops) = filter result (g_log g) /\
    (g_lock g = None -> fst (arun ha k_new ops) = g_c g /\
       op_deaths ops = ev_deaths es /\ op_versions ops = ev_versions es).
Proof.
  intros re ha body progs es g. destruct (inv_run re ha body progs es) as (_ & _ & ops & a & E & A & B & C & R).
  fold g in A, R. exists ops. rewrite A. split; [reflexivity|]. intros L. unfold at_ in R. rewrite L in R. cbn in R.
  destruct R as [-> ->]. cbn in B, C. rewrite app_nil_r in B, C. auto.
Qed.
Print Assumptions C96_atomic.

(** And each thread does its jobs in order: a send is reported once, a message is routed once, then
    the one it went to is called with it and sends what it sends, in order, until one fails. *)
Theorem C96_program_order : forall reentrant ha body progs es i,
  let g := grun reentrant ha body (g_init progs) es in
  exists pre cur l1 l2, progs i = pre ++ cur ++ t_next (g_th g i) /\ log_of i (g_log g) = l1 ++ l2 /\
    told body pre l1 /\
    ((cur = [] /\ l2 = []) \/ (exists j, cur = [j] /\ job_told body false j l2)).
Proof.
  intros re ha body progs es i g. destruct (inv_run re ha body progs es) as (T & _ & _). fold g in T.
  destruct (T i) as (pre & cur & l1 & l2 & A & B & C & [(D & E & F)|(j & D & S_)]).
  - exists pre, cur, l1, l2. repeat split; auto.
  - exists pre, cur, l1, l2. repeat split; auto. right. exists j. split; auto. eapply shape_told; eauto.
Qed.
Print Assumptions C96_program_order.

Definition echo (x : Z) : bytes := [4; 2; 0; 8; 0; 0; 0; x].
Definition brep (x : Z) : bytes := [4; 21; 0; 8; 0; 0; 0; x].
Definition rep (x : Z) : bytes := [4; 3; 0; 8; 0; 0; 0; x].
Definition two_progs (i : nat) : list job :=
  match i with
  | O => [JSend (mkSnd (Some 7%nat) (echo 1) 100 None None)]
  | 1%nat => [JSend (mkSnd (Some 8%nat) (echo 2) 101 None None)]
  | 2%nat => [JMsg (rep 1)]
  | _ => []
  end.
Definition calls_send (w : who) (_ : bytes) : list snd_ :=
  match w with WCb 7%nat => [mkSnd (Some 7%nat) (echo 3) 102 None None] | _ => [] end.
Definition mixed : list ev :=
  [Version 4; Run 0; Run 1; Run 0; Run 2; Run 1; Run 0; Run 0; Run 1; Run 0; Run 0; Run 0; Run 1; Run 2; Run 1; Run 1; Run 1;
   Run 1; Run 1; Run 2; Run 1; Run 1; Run 2; Run 2; Run 2; Run 2; Run 2; Run 2; Run 2; Run 2; Run 2; Run 2; Run 2; Run 2].
(** Two threads send with two callbacks while a third receives a reply to the first; a barrier
    separates the requests, and the callback's own request is separated as well. *)
Example C96_example :
  let g := grun true false calls_send (g_init two_progs) mixed in
  g_lock g = None /\ map snd (g_log g) =
    [ESent (mkSnd (Some 7%nat) (echo 1) 100 None None) (Ok tt); ESent (mkSnd (Some 8%nat) (echo 2) 101 None None) (Ok tt);
     ERouted (rep 1) (ToCallback 7); ECalled (WCb 7) (rep 1); ESent (mkSnd (Some 7%nat) (echo 3) 102 None None) (Ok tt)] /\
  k_wire (g_c g) = [echo 1; [4; 20; 0; 8; 0; 0; 0; 101]; echo 2; [4; 20; 0; 8; 0; 0; 0; 102]; echo 3].
Proof. vm_compute. auto. Qed.

(** *** C97: a callback may send on its channel *)

(** With the thread scheduler's lock (threading.RLock): whatever has happened, the thread that
    holds the lock lets go of it by its own steps alone, whatever callbacks it calls and whatever
    these send. *)
Theorem C97_released_partial : forall ha body progs es i d,
  let g := grun true ha body (g_init progs) es in
  g_lock g = Some (i, d) -> exists n, g_lock (grun true ha body g (repeat (Run i) n)) = None.
Proof. intros ha body progs es i d g L. eapply released; [apply inv_run|exact L]. Qed.
Print Assumptions C97_released_partial.

(** So no thread is kept waiting: one that has something to do can always take a step, once the
    holder of the lock has been run for a while. *)
Theorem C97_no_deadlock_partial : forall ha body progs es i,
  let g := grun true ha body (g_init progs) es in
  g_th g i <> mkTh [] [] ->
  exists es', let g' := grun true ha body g es' in
    (forall e, In e es' -> exists j, e = Run j) /\ tstep true ha body i g' <> None.
Proof.
  intros ha body progs es i g NE.
  assert (FREE : forall g es0, inv ha body progs g es0 -> g_lock g = None -> g_th g i <> mkTh [] [] -> tstep true ha body i g <> None).
  { clear. intros g es0 (T & L & _) LK NE. unfold tstep. destruct (g_th g i) as [now nx] eqn:TH. cbn [t_now t_next].
    destruct now as [|u k].
    - destruct nx; [congruence|discriminate].
    - pose proof (teller_shaped _ _ _ _ T i) as SH. pose proof (L i) as Li. rewrite LK, TH in Li. rewrite TH in SH. cbn [t_now] in *.
      destruct SH as [Z|(j & l & S_)]; [discriminate|]. pose proof (free_head _ _ _ _ _ _ S_ Li) as H.
      destruct u; try contradiction; rewrite ?LK; cbn [acquire].
      + discriminate.
      + destruct (parse_ofp_header m); [|discriminate]. destruct (ha && _); discriminate.
      + discriminate. }
  destruct (g_lock g) as [[j d]|] eqn:LK.
  - destruct (released ha body progs es g j d (inv_run true ha body progs es) LK) as (n & F).
    destruct (Nat.eq_dec j i) as [->|X].
    + (* the thread itself holds the lock *)
      exists []. cbn. split; [intros e []|].
      destruct (holder_steps ha body progs es g i d (inv_run true ha body progs es) LK) as (u & k & g' & _ & E & _). rewrite E. discriminate.
    + exists (repeat (Run j) n). cbn. split.
      * intros e I_. apply repeat_spec in I_. eauto.
      * assert (IV : inv ha body progs (grun true ha body g (repeat (Run j) n)) (es ++ repeat (Run j) n)).
        { unfold g, grun. rewrite <- fold_left_app. apply (inv_run true ha body progs (es ++ repeat (Run j) n)). }
        eapply FREE; eauto. rewrite others; auto.
  - exists []. cbn. split; [intros e []|]. eapply FREE; eauto. apply (inv_run true ha body progs es).
Qed.
Print Assumptions C97_no_deadlock_partial.

(** With the lock of the gevent scheduler (gevent's Semaphore, which its holder cannot take again):
    when a callback comes to send, its thread never goes on, whatever the others do; the lock is
    never released, and from then on no send() returns or raises and no message but those for
    handle_async is routed, on this channel. *)
Theorem C97_semaphore_refuted : forall ha body progs es i d q k,
  let g := grun false ha body (g_init progs) es in
  g_lock g = Some (i, d) -> t_now (g_th g i) = USend q :: k ->
  forall es', let g' := grun false ha body g es' in
    g_lock g' = Some (i, d) /\ g_th g' i = g_th g i /\
    exists new, g_log g' = g_log g ++ new /\
      Forall (fun x => match snd x with
                       | ESent _ _ => False
                       | ERouted _ o => o = ToAsync \/ exists e, o = FailExn e
                       | _ => True
                       end) new.
Proof.
  intros ha body progs es i d q k g LK N es' g'.
  destruct (stuck ha body progs es g i d q k (inv_run false ha body progs es) LK N es') as (A & B & new & C & D).
  split; [exact A|]. split; [exact B|]. exists new. split; [exact C|].
  eapply Forall_impl; [|exact D]. intros [x [| m o | |]]; cbn; auto. destruct o; try contradiction; eauto.
Qed.
Print Assumptions C97_semaphore_refuted.
(** Such a state is reached: by one request and one reply whose callback asks again. *)
Definition ask_again (i : nat) : list job :=
  match i with O => [JSend (mkSnd (Some 7%nat) (echo 1) 100 None None); JMsg (rep 1)] | _ => [] end.
Theorem C97_semaphore_witness_refuted :
  exists body progs es i d q k, let g := grun false false body (g_init progs) es in
    g_lock g = Some (i, d) /\ t_now (g_th g i) = USend q :: k /\ g_lock (grun true false body (g_init progs) (es ++ repeat (Run i) 6)) = None.
Proof.
  exists calls_send, ask_again, (Version 4 :: repeat (Run 0) 10), 0%nat, 0%nat, (mkSnd (Some 7%nat) (echo 3) 102 None None), [URel].
  vm_compute. auto.
Qed.
Print Assumptions C97_semaphore_witness_refuted.
(** The same calls with the reentrant lock: the request of the callback is sent. *)
Example C97_example :
  let g := grun true false calls_send (g_init ask_again) (Version 4 :: repeat (Run 0) 10) in
  g_lock g = Some (0%nat, 0%nat) /\ t_now (g_th g 0%nat) = [USend (mkSnd (Some 7%nat) (echo 3) 102 None None); URel] /\
  let g' := grun true false calls_send g (repeat (Run 0) 10) in
  g_lock g' = None /\ k_wire (g_c g') = [echo 1; echo 3].
Proof. vm_compute. auto. Qed.

(** *** C98: a callback that is gone is not called *)

(** If no callback is collected while the lock is held, no call is made on what is not there. *)
Theorem C98_callable_partial : forall reentrant ha body progs es,
  tidy ha body reentrant (g_init progs) es ->
  Forall (fun x => match snd x with ENotCallable _ _ => False | _ => True end) (g_log (grun reentrant ha body (g_init progs) es)).
Proof.
  intros re ha body progs es T.
  destruct (tidy_run ha body re progs es (g_init progs) [] (inv_init ha body progs)) as (new & L & F); auto.
  - intros i f m k N. discriminate.
  - rewrite L. exact F.
Qed.
Print Assumptions C98_callable_partial.
(** The callback is read twice, once for the test and once for the call. *)
Theorem C98_collected_between_refuted :
  exists body progs es, In (0%nat, ENotCallable 7 (rep 1)) (g_log (grun true false body (g_init progs) es)) /\
    ~ (exists w, In (0%nat, ECalled w (rep 1)) (g_log (grun true false body (g_init progs) es))).
Proof.
  exists (fun _ _ => []), ask_again, (Version 4 :: repeat (Run 0) 9 ++ Die 7 :: repeat (Run 0) 9).
  vm_compute. split; [tauto|]. intros (w & H). repeat (destruct H as [H|H]; [discriminate|]). contradiction.
Qed.
Print Assumptions C98_collected_between_refuted.
Example C98_example : tidy false calls_send true (g_init ask_again) (Version 4 :: repeat (Run 0) 6 ++ Die 7 :: repeat (Run 0) 9) /\
  map snd (g_log (grun true false calls_send (g_init ask_again) (Version 4 :: repeat (Run 0) 6 ++ Die 7 :: repeat (Run 0) 9))) =
    [ESent (mkSnd (Some 7%nat) (echo 1) 100 None None) (Ok tt); ERouted (rep 1) ToDefault; ECalled WDefault (rep 1)].
Proof. vm_compute. tauto. Qed.

(** Property C117: synchronous calls during which nobody receives, and what
    synchronous calls leave behind. *)

From Verif Require Import Py Struct M_Hello M_Loop M_Controller M_Sync S_Hello S_Controller S_Sync S_Inside P_Controller P_Sync P_Multi P_Inside.
Local Open Scope Z_scope.

(** C117. A call made by the thread that reads the channel, or while loop()
    does not run: nothing is received until it ends, whatever other threads
    do.  It never returns an answer, and it is not woken unless the channel is
    closed, so it waits for its whole time-out. *)
Theorem C117_call_refuted : forall s m t e1 e2 e3,
  (8 <= length m)%nat -> fresh s (xid_of m) t -> meanwhile (xid_of m) t (e1 ++ e2 ++ e3) ->
  exists s' r, send_sync s m t e1 None e2 e3 = Some (s', Ok r) /\ (r = None \/ r = Some []) /\
    (~ In OClose (e1 ++ e2 ++ e3) -> r = None) /\
    exists s2, esteps (register s (xid_of m) t) (e1 ++ e2) = Some s2 /\ (~ In OClose (e1 ++ e2) -> sy_ev s2 t = false).
Proof.
  intros s m t e1 e2 e3 Hl (_ & _ & Hd & He & _) M.
  destruct (inside_call s m t e1 e2 e3 Hl (or_introl Hd) M) as (s' & r & E & N & C & s2 & E2 & V).
  exists s', r. rewrite Hd in C. rewrite He in V. split; [exact E|]. split; [exact N|]. split; [exact C|]. exists s2. auto.
Qed.
Print Assumptions C117_call_refuted.

(** echo(), feature(), get_config() and barrier() fail there as if the channel
    were closed, on every version. *)
Theorem C117_simple_refuted : forall k v x s t e1 e2 e3,
  0 <= v < 256 -> 0 <= x < 2 ^ 32 -> fresh s x t -> meanwhile x t (e1 ++ e2 ++ e3) ->
  exists s', simple_call k (Some v) x s t e1 None e2 e3 = Some (s', Err ChannelClose).
Proof. intros k v x s t e1 e2 e3 Hv Hx (_ & _ & Hd & _) M. apply inside_simple; auto. left. exact Hd. Qed.
Print Assumptions C117_simple_refuted.

(** multi() fails in the same way, after all its messages have been sent;
    every one of them keeps its entry. *)
Theorem C117_multi_refuted : forall v s ms bxid bt b1 b2 b3 ess,
  0 <= v < 256 -> 0 <= bxid < 2 ^ 32 -> fresh s bxid bt ->
  Forall (fun q => (8 <= length (req_msg q))%nat /\ req_err q = None /\ meanwhile bxid bt (req_evs q)) ms ->
  meanwhile bxid bt (b1 ++ b2 ++ b3) ->
  exists s', multi (Some v) s ms bxid bt b1 b2 b3 ess = Some (s', Err ChannelClose) /\
    forall q, In q ms -> xid_of (req_msg q) <> bxid ->
      Forall (fun q' => leaves (xid_of (req_msg q)) (req_evs q')) ms -> leaves (xid_of (req_msg q)) (b1 ++ b2 ++ b3) ->
      entry s' (xid_of (req_msg q)).
Proof.
  intros v s ms bxid bt b1 b2 b3 ess Hv Hx (_ & _ & Hd & _) F M.
  destruct (inside_multi v s ms bxid bt b1 b2 b3 ess Hv Hx (or_introl Hd) F M) as (s1 & xs & s' & E1 & E2).
  exists s'. split; [exact E2|]. apply (multi_failed v s ms bxid bt b1 b2 b3 ess s1 xs s' ChannelClose Hv Hx); auto.
  apply (Forall_impl _ (fun q H => proj1 H) F).
Qed.
Print Assumptions C117_multi_refuted.

(** A call that returns leaves no entry, in any schedule, with or without an
    answer. *)
Theorem C117_released : forall s m t e1 e2 e3 s' r,
  (8 <= length m)%nat -> leaves (xid_of m) e3 ->
  send_sync s m t e1 None e2 e3 = Some (s', Ok r) -> ~ entry s' (xid_of m).
Proof. intros s m t e1 e2 e3 s' r Hl L E H. apply H. exact (call_released _ _ _ _ _ _ _ _ Hl L E). Qed.
Print Assumptions C117_released.

(** multi() that returns leaves none either. *)
Theorem C117_multi_released : forall v s ms bxid bt b1 b2 b3 ess s' rs,
  Forall (fun q => (8 <= length (req_msg q))%nat) ms ->
  multi (Some v) s ms bxid bt b1 b2 b3 ess = Some (s', Ok rs) ->
  forall q, In q ms -> Forall (leaves (xid_of (req_msg q))) ess -> ~ entry s' (xid_of (req_msg q)).
Proof. exact multi_released. Qed.
Print Assumptions C117_multi_released.

(** Not so when sending fails: the entry and its tracker stay, whatever
    happens later, until somebody uses the same transaction id. *)
Theorem C117_failed_send_refuted : forall s m t e1 e e2 e3 s' r,
  (8 <= length m)%nat -> leaves (xid_of m) e1 ->
  send_sync s m t e1 (Some e) e2 e3 = Some (s', r) ->
  r = Err e /\ forall es s'', leaves (xid_of m) es -> esteps s' es = Some s'' -> dget (sy_map s'') (xid_of m) = Some t.
Proof. exact call_failed. Qed.
Print Assumptions C117_failed_send_refuted.

(** Nor when the barrier of multi() fails, for whatever reason: all its
    entries stay. *)
Theorem C117_failed_barrier_refuted : forall v s ms bxid bt b1 b2 b3 ess s1 xs s' e,
  0 <= v < 256 -> 0 <= bxid < 2 ^ 32 -> Forall (fun q => (8 <= length (req_msg q))%nat) ms ->
  multi_send s ms = Some (s1, Ok xs) ->
  multi (Some v) s ms bxid bt b1 b2 b3 ess = Some (s', Err e) ->
  forall q, In q ms -> xid_of (req_msg q) <> bxid ->
    Forall (fun q' => leaves (xid_of (req_msg q)) (req_evs q')) ms -> leaves (xid_of (req_msg q)) (b1 ++ b2 ++ b3) ->
    entry s' (xid_of (req_msg q)).
Proof. exact multi_failed. Qed.
Print Assumptions C117_failed_barrier_refuted.

(** Two requests and a barrier without a reader, another thread calling
    meanwhile. *)
Example C117_example :
  let q1 := ([4; 14; 0; 8; 0; 0; 0; 7], 1%nat, [OPut 50 9%nat], @None exn) in
  let q2 := ([4; 14; 0; 8; 0; 0; 0; 8], 2%nat, @nil ev, @None exn) in
  fresh sync_new 9 3%nat /\ meanwhile 9 3%nat ([] ++ [OPop 50] ++ []) /\
  option_map (fun p => (map fst (sy_map (fst p)), snd p)) (multi (Some 4) sync_new [q1; q2] 9 3 [] [OPop 50] [] [[]; []])
    = Some ([7; 8], Err ChannelClose) /\
  option_map snd (send_sync sync_new [4; 5; 0; 8; 0; 0; 0; 7] 0 [] None [OPut 50 9%nat; OClose] []) = Some (Ok (Some [])) /\
  option_map snd (send_sync sync_new [4; 5; 0; 8; 0; 0; 0; 7] 0 [] None [OPut 50 9%nat] [OClose]) = Some (Ok None).
Proof.
  split; [|split].
  - unfold fresh. cbn. repeat split; discriminate || reflexivity.
  - cbn [Datatypes.app]. unfold meanwhile. constructor; [cbn; lia|constructor].
  - vm_compute. repeat split.
Qed.

(** A failed send, followed by the late answer to nobody. *)
Example C117_failed_example :
  option_map (fun p => (sy_map (fst p), snd p)) (send_sync sync_new [4; 5; 0; 8; 0; 0; 0; 7] 0 [OPut 8 1%nat] (Some ChannelClose) [] [])
    = Some ([(7, 0%nat); (8, 1%nat)], Err ChannelClose).
Proof. vm_compute. reflexivity. Qed.

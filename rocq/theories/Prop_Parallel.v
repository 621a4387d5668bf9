(** C32: handlers in threads of their own. *)

From Verif Require Import Py Struct M_Channel M_Hello M_Loop M_Parallel S_Framing P_Parallel.
From Coq Require Import Permutation.
Local Open Scope Z_scope.

(** Every schedule of the receive loop and the spawned calls, every handler:
    once a handler call has raised, the channel is closed. *)
Theorem C32_failure_closes : forall accept order xid rate hd c a os s m e,
  qrun accept order xid rate hd (par_new c a) os = Some s ->
  In (m, TDone (Err e)) (q_tasks s) -> closed (s_chan (q_srv s)) = true.
Proof.
  intros accept order xid rate hd c a os s m e H Hin.
  apply (failed_closed accept order xid rate hd os _ _ H); [intros (m' & e' & [])|exists m, e; exact Hin].
Qed.
Print Assumptions C32_failure_closes.

(** Conversely a channel that was open is closed only because a handler call
    has raised, or because the receive path itself refused the peer's
    version (ChannelClose out of recv()). *)
Theorem C32_success_keeps_open : forall accept order xid rate hd c a os s,
  closed c = false -> ~ In EClose (envs c) ->
  qrun accept order xid rate hd (par_new c a) os = Some s -> closed (s_chan (q_srv s)) = true ->
  (exists m e, In (m, TDone (Err e)) (q_tasks s)) \/
  (exists v, snd (of_recv accept order xid v) = Raised ChannelClose).
Proof.
  intros accept order xid rate hd c a os s Hc Hn H Hcl.
  destruct (qrun_cause accept order xid rate hd os _ _ H Hn) as [H1 _]; [cbn; congruence|discriminate|].
  exact (H1 Hcl).
Qed.
Print Assumptions C32_success_keeps_open.

(** No handler exception reaches the receive loop: what leaves loop() was
    raised by recv(). *)
Theorem C32_loop_unharmed : forall accept order xid rate hd c a os s e,
  closed c = false -> ~ In EClose (envs c) ->
  qrun accept order xid rate hd (par_new c a) os = Some s -> q_end s = Some (LRaised e) ->
  exists v, snd (of_recv accept order xid v) = Raised e.
Proof.
  intros accept order xid rate hd c a os s e Hc Hn H He.
  destruct (qrun_cause accept order xid rate hd os _ _ H Hn) as [_ H1]; [cbn; congruence|discriminate|].
  exact (H1 e He).
Qed.
Print Assumptions C32_loop_unharmed.

(** The handler is called exactly once for each finished call, with that
    call's message. *)
Theorem C32_called_once : forall accept order xid rate h c och os s,
  qrun accept order xid rate (user_handle h) (par_new c (mkApp och [])) os = Some s ->
  Permutation (a_seen (s_app (q_srv s)))
    (concat (map (fun x => match snd x with TDone _ => [fst x] | TWait => [] end) (q_tasks s))).
Proof.
  intros accept order xid rate h c och os s H.
  apply (called_once accept order xid rate h os _ _ H). constructor.
Qed.
Print Assumptions C32_called_once.

(** While the loop runs (no rate limit) the spawned calls carry, in order,
    exactly the bytes taken from the transport except those still buffered. *)
Theorem C32_nothing_dropped : forall accept order xid h och os s,
  qrun accept order xid 0 (user_handle h) (par_new (new_chan []) (mkApp och [])) os = Some s ->
  q_end s = None ->
  exists used, concat (map (fun o => match o with QEnv r => [ERead r] | _ => [] end) os) =
      used ++ envs (s_chan (q_srv s)) /\
    delivered used = concat (map fst (q_tasks s)) ++ buf (s_chan (q_srv s)).
Proof.
  intros accept order xid h och os s H He.
  destruct (nothing_dropped accept order xid 0 h os eq_refl _ _ H He) as (u & E & B). exists u. auto.
Qed.
Print Assumptions C32_nothing_dropped.

(** With the rate limit: the messages [ms] received, in order, go all to the
    rate limiter if they are packet-in, flow-removed or port-status, and all to
    threads of their own otherwise.  (What the rate limiter makes of them: C31.) *)
Theorem C32_all_routed : forall accept order xid rate h och os s,
  let limited m := negb (rate =? 0) && existsb (Z.eqb (nth 1 m 0)) [10; 11; 12] in
  qrun accept order xid rate (user_handle h) (par_new (new_chan []) (mkApp och [])) os = Some s ->
  q_end s = None ->
  exists used ms, concat (map (fun o => match o with QEnv r => [ERead r] | _ => [] end) os) =
      used ++ envs (s_chan (q_srv s)) /\
    delivered used = concat ms ++ buf (s_chan (q_srv s)) /\
    map fst (q_tasks s) = filter (fun m => negb (limited m)) ms /\ q_rated s = filter limited ms.
Proof.
  intros accept order xid rate h och os s limited H He.
  destruct (all_routed accept order xid rate h os _ _ [] H He eq_refl eq_refl) as (u & ms & E & B & T). exists u, ms. auto.
Qed.
Print Assumptions C32_all_routed.

Example C32_all_routed_example :
  let m1 := [4; 10; 0; 8; 0; 0; 0; 1] in let m2 := [4; 2; 0; 8; 0; 0; 0; 2] in
  option_map (fun s => (map fst (q_tasks s), q_rated s, q_end s))
    (qrun (VsSeq [VI 4]) (fun l => l) 1 5 (user_handle (fun _ _ => ([], Ok tt))) (par_new (new_chan []) (mkApp (mkOch (Some 4) []) []))
      [QEnv (RData (m1 ++ m2)); QTurn; QTurn; QEnv (RData (m1 ++ [4])); QTask 0; QTurn]) =
  Some ([m2], [m1; m1], None).
Proof. vm_compute. reflexivity. Qed.

(** A handler that raises on its first message: the channel is closed, the
    message that was already buffered is still handled, then loop() returns. *)
Example C32_example :
  let m1 := [4; 10; 0; 8; 0; 0; 0; 1] in let m2 := [4; 10; 0; 8; 0; 0; 0; 2] in
  let h := fun (seen : list bytes) (m : bytes) => (@nil bytes, match seen with [] => Err (OtherError 1) | _ => Ok tt end) in
  option_map (fun s => (q_tasks s, closed (s_chan (q_srv s)), q_end s))
    (qrun (VsSeq [VI 4]) (fun l => l) 1 0 (user_handle h) (par_new (new_chan []) (mkApp (mkOch (Some 4) []) []))
      [QEnv (RData (m1 ++ m2)); QTurn; QTask 0; QTurn; QTask 1; QEnv (RData m1); QTurn]) =
  Some ([(m1, TDone (Err (OtherError 1))); (m2, TDone (Ok tt))], true, Some LReturned).
Proof. vm_compute. reflexivity. Qed.

(** C33, C34, C54: StreamServer. *)

From Verif Require Import Py M_Channel M_Server P_Server.
Local Open Scope nat_scope.

(** C33. Full claim: after stop() no new connection is served beyond the one
    being accepted, every loop ends at its next read, and in the end every
    channel is closed and deregistered.  The first two parts hold; the last
    one fails for channels whose thread failed (C34) or whose HELLO could not
    be sent (below).

    After the flag is down ([down]): at most one connection, the one inside
    accept(), is added ... *)
Theorem C33_no_new_connection_partial : forall es s s',
  v_accepting s = false -> v_run s <> RIdle -> vsteps s es = Some s' ->
  length (v_conns s') <= length (v_conns s) + match v_run s with RAccept => 1 | _ => 0 end.
Proof. intros es s s' Ha Hr H. exact (down_conns es s s' (conj Ha Hr) H). Qed.
Print Assumptions C33_no_new_connection_partial.

(** ... no connection, old or new, begins another read of the transport ... *)
Theorem C33_no_new_read_partial : forall es s s' i,
  v_accepting s = false -> v_run s <> RIdle -> vsteps s es = Some s' ->
  match nth_error (v_conns s') i with Some c => n_reads c | None => 0 end =
  match nth_error (v_conns s) i with Some c => n_reads c | None => 0 end.
Proof. intros es s s' i Ha Hr H. exact (down_reads es s s' i (conj Ha Hr) H). Qed.
Print Assumptions C33_no_new_read_partial.

(** ... and every thread that is not inside a read takes at most as many
    further steps as twice its buffered bytes and six, while any thread that
    is not over can take a step: its loop ends. *)
Theorem C33_loops_end_partial : forall es0 s es s' i,
  vsteps server_new es0 = Some s -> v_accepting s = false -> v_run s <> RIdle ->
  (forall c, nth_error (v_conns s) i = Some c -> n_phase c <> NBlocked) ->
  vsteps s es = Some s' ->
  length (filter (fun e => match e with VConn j _ _ => j =? i | _ => false end) es) <=
    6 + 2 * match nth_error (v_conns s) i with Some c => length (n_buf c) | None => 0 end /\
  forall c, nth_error (v_conns s') i = Some c ->
    match n_phase c with NNew | NGone | NFailed _ => False | _ => True end ->
    forall r h, exists s'', vstep s' (VConn i r h) = Some s''.
Proof.
  intros es0 s es s' i H0 Ha Hr Hb H. split.
  - assert (Hsp : spawn_inv s) by (eapply spawn_inv_steps; [apply spawn_inv_new|exact H0]).
    assert (Hnb : ~ blocked s i) by (intros (c & E & P); exact (Hb c E P)).
    pose proof (down_ends es s s' i Hsp (conj Ha Hr) Hnb H) as Hm. unfold mu in Hm.
    change (fun e => match e with VConn j _ _ => j =? i | _ => false end) with (is_step i).
    destruct (nth_error (v_conns s) i) as [c|]; [|lia]. destruct (n_phase c); cbn [weight] in Hm; lia.
  - intros c E P. exact (down_progress s' i c E P).
Qed.
Print Assumptions C33_loops_end_partial.

(** In every reachable state: if all connection threads are over without
    exception, all channels are closed and none is registered. *)
Theorem C33_all_closed_partial : forall es s,
  vsteps server_new es = Some s -> Forall (fun c => n_phase c = NGone) (v_conns s) ->
  v_channels s = [] /\ Forall (fun c => n_closed c = true) (v_conns s).
Proof. exact all_gone. Qed.
Print Assumptions C33_all_closed_partial.

(** Refuted: after stop() the accepting thread is over, no thread runs for the
    connection, and it is still open: its HELLO failed. *)
Theorem C33_closed_refuted : exists es s c,
  vsteps server_new es = Some s /\ v_accepting s = false /\ v_conns s = [c] /\
  n_phase c = NNew /\ n_closed c = false /\ v_stop s = Some [] /\
  v_run s = REnd (Some (SocketError 32)).
Proof.
  exists [VStart; VRun AConn (Ok tt); VRun AConn (Ok tt); VRun AConn (Err (SocketError 32)); VStopFlag; VStopList].
  do 2 eexists. split; [vm_compute; reflexivity|]. repeat split.
Qed.
Print Assumptions C33_closed_refuted.

(** Two clients; stop() while the second is between accept() and its thread;
    the first has one more message buffered. *)
Example C33_example :
  let go i := VConn i RTimeout (Ok tt) in let run := VRun AConn (Ok tt) in
  let m := [4%Z; 10%Z; 0%Z; 8%Z; 0%Z; 0%Z; 0%Z; 1%Z] in
  option_map (fun s => (v_channels s, map n_phase (v_conns s), map n_closed (v_conns s), v_run s))
    (vsteps server_new
      [VStart; run; run; run; run; run; go 0; go 0; VConn 0 (RData (m ++ m)) (Ok tt); go 0; run; VStopFlag; VStopList; VStopClose;
       go 0; run; run; run; go 0; go 0; go 0; go 1; go 0; go 1; go 0; go 1; go 1]) =
  Some ([], [NGone; NGone], [true; true], REnd None).
Proof. vm_compute. reflexivity. Qed.

(** C34. Full claim: whatever the handler does, when the loop has ended the
    channel is closed and deregistered.

    What holds: a thread that is over without exception has closed and
    deregistered its channel, in every reachable state. *)
Theorem C34_ended_closed_partial : forall es s i c,
  vsteps server_new es = Some s -> nth_error (v_conns s) i = Some c -> n_phase c = NGone ->
  n_closed c = true /\ ~ In i (v_channels s).
Proof. exact gone_closed. Qed.
Print Assumptions C34_ended_closed_partial.

(** Refuted: for every exception but ChannelClose that a handler raises there
    is a history after which the thread is gone, the channel is open and
    registered; and registered it stays, whatever happens later. *)
Theorem C34_handler_exception_refuted : forall e, e <> ChannelClose -> exists es s c,
  vsteps server_new es = Some s /\ nth_error (v_conns s) 0 = Some c /\ n_phase c = NFailed e /\
  n_closed c = false /\
  forall es' s', vsteps s es' = Some s' -> In 0 (v_channels s').
Proof.
  intros e He.
  set (m := [4%Z; 10%Z; 0%Z; 8%Z; 0%Z; 0%Z; 0%Z; 1%Z]). set (run := VRun AConn (Ok tt)).
  set (go := VConn 0 RTimeout (Ok tt)).
  set (es := [VStart; run; run; run; run; go; go; VConn 0 (RData m) (Ok tt); go; VConn 0 RTimeout (Err e)]).
  assert (H : exists s c, vsteps server_new es = Some s /\ nth_error (v_conns s) 0 = Some c /\ n_phase c = NFailed e /\
     n_closed c = false).
  { destruct e; try congruence; do 2 eexists; (split; [vm_compute; reflexivity|]); repeat split. }
  destruct H as (s & c & H & E & P & C). exists es, s, c. repeat split; auto.
  apply (failed_forever es s 0 H). exists c, e. auto.
Qed.
Print Assumptions C34_handler_exception_refuted.

(** ChannelClose, on the other hand, ends the connection properly. *)
Example C34_example :
  let go i := VConn i RTimeout (Ok tt) in let run := VRun AConn (Ok tt) in
  let m := [4%Z; 10%Z; 0%Z; 8%Z; 0%Z; 0%Z; 0%Z; 1%Z] in
  option_map (fun s => (v_channels s, map n_phase (v_conns s), map n_closed (v_conns s)))
    (vsteps server_new
      [VStart; run; run; run; run; go 0; go 0; VConn 0 (RData m) (Ok tt); go 0; VConn 0 RTimeout (Err ChannelClose); go 0; go 0]) =
  Some ([], [NGone], [true]).
Proof. vm_compute. reflexivity. Qed.

(** What a connection's loop does with its buffer: a whole message of at least
    eight bytes at the front, of the length its header says, is handed to the
    handler and nothing else is touched; without one the loop reads on, unless
    the channel is closed or the server is down. *)
Definition framed (m : bytes) : Prop :=
  8 <= length m /\ (nth 2 m 0 * 256 + nth 3 m 0)%Z = Z.of_nat (length m).

Lemma want_framed m rest : framed m -> want (m ++ rest) = length m.
Proof.
  intros [L E]. unfold want. rewrite !app_nth1 by lia. rewrite E. apply Nat2Z.id.
Qed.

Theorem C34_next_message : forall accepting c r h m rest,
  n_phase c = NTop -> framed m -> n_buf c = m ++ rest ->
  conn_step accepting c r h = Some (mkConn NHandle rest (n_closed c) (n_reads c)).
Proof.
  intros accepting c r h m rest Hp Hm Hb. unfold conn_step. rewrite Hp, Hb.
  unfold whole. rewrite (want_framed m rest Hm). destruct Hm as [L E].
  rewrite app_length.
  replace (8 <=? length m + length rest) with true by (symmetry; apply Nat.leb_le; lia).
  replace (length m <=? length m + length rest) with true by (symmetry; apply Nat.leb_le; lia).
  replace (length m =? 0) with false by (symmetry; apply Nat.eqb_neq; lia). cbn [andb].
  rewrite skipn_app, skipn_all, Nat.sub_diag. reflexivity.
Qed.
Print Assumptions C34_next_message.

Theorem C34_no_message : forall accepting c r h m b rest,
  (* the buffer is a proper prefix of a message *)
  n_phase c = NTop -> framed m -> m = n_buf c ++ b :: rest ->
  conn_step accepting c r h =
  Some (if n_closed c || negb accepting then mkConn NEnded (n_buf c) (n_closed c) (n_reads c)
        else mkConn NBlocked (n_buf c) (n_closed c) (S (n_reads c))).
Proof.
  intros accepting c r h m b rest Hp [L E] Hb. unfold conn_step. rewrite Hp.
  assert (Hw : whole (n_buf c) = false).
  { unfold whole. destruct (8 <=? length (n_buf c)) eqn:E8; [|reflexivity]. apply Nat.leb_le in E8. cbn [andb].
    apply Nat.leb_gt. unfold want. subst m. rewrite !app_nth1 in E by lia. rewrite E, Nat2Z.id, app_length.
    cbn [length]. lia. }
  rewrite Hw. destruct (n_closed c || negb accepting); reflexivity.
Qed.
Print Assumptions C34_no_message.

(** A handler that raises ChannelClose: closed at once, the loop over. *)
Theorem C34_channel_close : forall accepting c r,
  n_phase c = NHandle ->
  conn_step accepting c r (Err ChannelClose) = Some (mkConn NEnded (n_buf c) true (n_reads c)).
Proof. intros accepting c r H. unfold conn_step. rewrite H. reflexivity. Qed.
Print Assumptions C34_channel_close.

(** Before start(): nothing is accepted, whatever else happens. *)
Theorem C34_before_start : forall es s,
  vsteps server_new es = Some s -> v_run s = RIdle ->
  v_accepting s = false /\ v_conns s = [] /\ v_channels s = [].
Proof.
  assert (H0 : forall es s0 s, (v_run s0 <> RIdle \/ (v_accepting s0 = false /\ v_conns s0 = [] /\ v_channels s0 = [])) ->
    vsteps s0 es = Some s -> v_run s = RIdle -> v_accepting s = false /\ v_conns s = [] /\ v_channels s = []).
  { induction es as [|e es IH]; intros s0 s Hi H Hr; cbn [vsteps] in H.
    - inversion H; subst. destruct Hi as [Hi|Hi]; [contradiction|exact Hi].
    - destruct (vstep s0 e) as [s1|] eqn:E; [|discriminate]. apply (IH s1 s); [|exact H|exact Hr]. clear IH H Hr.
      destruct e as [|a hl|i r h|i| | |]; cbn [vstep] in E.
      + unfold v_start in E. destruct (v_run s0) eqn:R; try discriminate. inversion E. left. discriminate.
      + unfold v_run_step in E. destruct (v_run s0) eqn:R; try discriminate; left.
        * destruct (v_accepting s0); inversion E; discriminate.
        * destruct a; inversion E; discriminate.
        * destruct hl; inversion E; discriminate.
        * destruct (nth_error (v_conns s0) _); inversion E; discriminate.
      + destruct (nth_error (v_conns s0) i) as [c|] eqn:En; [|discriminate].
        destruct Hi as [Hi|[_ [Hc _]]]; [|rewrite Hc in En; destruct i; discriminate].
        destruct (conn_step (v_accepting s0) c r h); inversion E; left; exact Hi.
      + destruct (nth_error (v_conns s0) i) eqn:En; [|discriminate].
        destruct Hi as [Hi|[_ [Hc _]]]; [|rewrite Hc in En; destruct i; discriminate]. inversion E; left; exact Hi.
      + inversion E. destruct Hi as [Hi|[_ Hi]]; [left; exact Hi|right; cbn; tauto].
      + destruct (v_stop s0); inversion E. exact Hi.
      + destruct (v_stop s0) as [[|i l]|]; try discriminate. destruct (nth_error (v_conns s0) i) eqn:En; [|discriminate].
        destruct Hi as [Hi|[_ [Hc _]]]; [|rewrite Hc in En; destruct i; discriminate]. inversion E; left; exact Hi. }
  intros es s H Hr. apply (H0 es server_new s); [right; repeat split|exact H|exact Hr].
Qed.
Print Assumptions C34_before_start.

Example C34_loop_example :
  let m := [4%Z; 2%Z; 0%Z; 9%Z; 0%Z; 0%Z; 0%Z; 1%Z; 7%Z] in
  framed m /\
  conn_step true (mkConn NTop (m ++ [4%Z]) false 3) RTimeout (Ok tt) = Some (mkConn NHandle [4%Z] false 3) /\
  conn_step true (mkConn NTop [4%Z; 2%Z; 0%Z; 9%Z; 0%Z; 0%Z; 0%Z; 1%Z] false 3) RTimeout (Ok tt) =
    Some (mkConn NBlocked [4%Z; 2%Z; 0%Z; 9%Z; 0%Z; 0%Z; 0%Z; 1%Z] false 4) /\
  option_map v_accepting (vsteps server_new [VStopFlag; VStopList]) = Some false.
Proof. split; [split; cbn; [repeat constructor|reflexivity]|]. repeat split. Qed.

(** C54. Full claim: no client can keep the server from accepting others.
    Refuted: when the HELLO to a new client cannot be sent (the client has
    reset the connection), the exception leaves run(): the flag still says
    accepting, but no connection is ever accepted again. *)
Theorem C54_reset_client_refuted : forall x, exists es s,
  vsteps server_new es = Some s /\ v_accepting s = true /\ v_run s = REnd (Some (SocketError x)) /\
  forall es' s', vsteps s es' = Some s' -> length (v_conns s') = length (v_conns s).
Proof.
  intros x. exists [VStart; VRun AConn (Ok tt); VRun AConn (Ok tt); VRun AConn (Err (SocketError x))].
  eexists. split; [vm_compute; reflexivity|]. split; [reflexivity|]. split; [reflexivity|].
  intros es' s' H. eapply run_end_forever; [|exact H]. reflexivity.
Qed.
Print Assumptions C54_reset_client_refuted.

(** Likewise for an error of accept() itself other than a timeout (too many
    open files, a connection aborted): wherever it happens, the accepting
    thread is over for good. *)
Theorem C54_accept_error_refuted : forall s e hello, v_run s = RAccept ->
  exists s1, vstep s (VRun (AErr e) hello) = Some s1 /\ v_accepting s1 = v_accepting s /\ v_run s1 = REnd (Some e) /\
  forall es' s', vsteps s1 es' = Some s' -> length (v_conns s') = length (v_conns s).
Proof.
  intros s e hello Hr. eexists. cbn [vstep]. unfold v_run_step. rewrite Hr. split; [reflexivity|]. split; [reflexivity|]. split; [reflexivity|].
  intros es' s' H. eapply run_end_forever in H; [|reflexivity]. exact H.
Qed.
Print Assumptions C54_accept_error_refuted.

Example C54_accept_error_example :
  option_map (fun s => (v_run s, v_accepting s, map n_phase (v_conns s)))
    (vsteps server_new [VStart; VRun AConn (Ok tt); VRun ATimeout (Ok tt); VRun AConn (Ok tt); VRun AConn (Ok tt); VRun AConn (Ok tt); VRun AConn (Ok tt);
      VRun AConn (Ok tt)]) = Some (RAccept, true, [NRun]).
Proof. vm_compute. reflexivity. Qed.

(** What holds: unless accept() or a HELLO fails or stop() is called, the
    accepting thread goes on, whatever the connections and handlers do. *)
Theorem C54_keeps_accepting_partial : forall es s,
  Forall (fun e => match e with VRun (AErr _) _ | VRun _ (Err _) | VStopFlag => False | _ => True end) es ->
  vsteps server_new (VStart :: es) = Some s ->
  v_accepting s = true /\ forall x, v_run s <> REnd x.
Proof.
  intros es s Hb H. cbn [vsteps vstep v_start server_new v_run] in H.
  assert (Hb' : Forall benign es) by (revert Hb; apply Forall_impl; intros [| [] []| | | | |]; auto).
  destruct (keeps_accepting es Hb' _ s H) as [Hx|Hx]; [right; split; [reflexivity|discriminate]| |exact Hx].
  exfalso. assert (Hn : forall es0 s0 s1, v_run s0 <> RIdle -> vsteps s0 es0 = Some s1 -> v_run s1 <> RIdle).
  { clear. induction es0 as [|e es0 IH]; intros s0 s1 Hr H; cbn [vsteps] in H; [congruence|].
    destruct (vstep s0 e) as [s2|] eqn:E; [|discriminate]. apply (IH s2 s1); [|exact H]. clear IH H.
    destruct e as [|a hl|i r h|i| | |]; cbn [vstep] in E.
    - unfold v_start in E. destruct (v_run s0); congruence.
    - unfold v_run_step in E. destruct (v_run s0) eqn:R; try discriminate.
      + destruct (v_accepting s0); inversion E; discriminate.
      + destruct a; inversion E; discriminate.
      + destruct hl; inversion E; discriminate.
      + destruct (nth_error (v_conns s0) _); inversion E; discriminate.
    - destruct (nth_error (v_conns s0) i) as [c|]; [|discriminate].
      destruct (conn_step (v_accepting s0) c r h); inversion E; exact Hr.
    - destruct (nth_error (v_conns s0) i); inversion E; exact Hr.
    - inversion E; exact Hr.
    - destruct (v_stop s0); inversion E; exact Hr.
    - destruct (v_stop s0) as [[|i l]|]; try discriminate. destruct (nth_error (v_conns s0) i); inversion E; exact Hr. }
  apply (Hn es _ s) in H; [congruence|discriminate].
Qed.
Print Assumptions C54_keeps_accepting_partial.

(** A failing handler of one connection does not matter. *)
Example C54_example :
  let go i := VConn i RTimeout (Ok tt) in let run := VRun AConn (Ok tt) in
  let m := [4%Z; 10%Z; 0%Z; 8%Z; 0%Z; 0%Z; 0%Z; 1%Z] in
  option_map (fun s => (v_run s, map n_phase (v_conns s)))
    (vsteps server_new
      [VStart; run; run; run; run; go 0; go 0; VConn 0 (RData m) (Ok tt); go 0; VConn 0 RTimeout (Err (OtherError 1)); run; run; run; run]) =
  Some (RTop, [NFailed (OtherError 1); NRun]).
Proof. vm_compute. reflexivity. Qed.

(** Properties C88-C90: logging, sending and read wrappers
    (twink/base.py:48-126, 179-204). *)

From Verif Require Import Py Struct P_Struct M_Channel S_Framing P_Channel M_Send S_Send P_Send.
Local Open Scope Z_scope.

(** C88. Logging changes nothing for the application or the peer: whatever is
    sent, received and closed in whatever order, every call returns or raises
    the same, and the same bytes are on the wire. *)
Theorem C88_transparent : forall d rp remote os,
  (closed (d_in d) = true -> t_closed (d_out d) = true) ->
  exists l d' rs,
    log_run (log_init d rp remote) os = (l, rs) /\ plain_run d os = (d', rs) /\
    same_but_closes (l_d l) d'.
Proof.
  intros d rp remote os H. apply log_transparent; [|exact H].
  unfold same_but_closes, log_init. cbn. auto.
Qed.
Print Assumptions C88_transparent.

(** C88. The log is complete and exact: decoding its hexadecimal lines gives
    the messages given to send() and those returned by recv(), in the order in
    which the application saw them. *)
Theorem C88_log_faithful : forall d rp remote os l rs,
  bytes_ok (buf (d_in d)) -> bytes_ok (delivered (envs (d_in d))) ->
  (forall o m, In (DSend o m) os -> bytes_ok m) ->
  log_run (log_init d rp remote) os = (l, rs) ->
  read_log rp (l_log l) = seen os rs.
Proof.
  intros d rp remote os l rs H1 H2 H3 E.
  change rp with (l_repr (log_init d rp remote)).
  rewrite (log_run_reads os _ _ _ (conj H1 H2 : in_ok (d_in (l_d (log_init d rp remote)))) ) with (2 := E).
  - reflexivity.
  - apply Forall_forall. intros [o m| |] I; cbn; auto. now apply (H3 o).
Qed.
Print Assumptions C88_log_faithful.

(** The lines of the channel logger: "<channel> connect<remote>" first, and
    "<channel> close<remote>" once, for the first close() of an open channel,
    whatever else is sent and received. *)
Definition lines (ls : list logline) : list bytes :=
  flat_map (fun l => match fst l with LgChannel => [snd l] | _ => [] end) ls.

Lemma lines_app a b : lines (a ++ b) = lines a ++ lines b.
Proof. apply flat_map_app. Qed.

Lemma fill_open need : forall es b n k, ~ In EClose es ->
  closed (fst (fill need b false es n k)) = false /\ ~ In EClose (envs (fst (fill need b false es n k))).
Proof.
  induction es as [|e es IH]; intros b n k H; cbn [fill].
  - destruct (_ <=? _)%nat; auto.
  - destruct (_ <=? _)%nat; [auto|]. assert (He : ~ In EClose es) by (intros Hi; apply H; right; exact Hi).
    destruct e as [r|]; [|exfalso; apply H; left; reflexivity].
    destruct (default_wrapper r) as [[[|x d]|]|x]; auto.
Qed.

Lemma recv_open c c' r : closed c = false -> ~ In EClose (envs c) -> recv c = (c', r) ->
  closed c' = false /\ ~ In EClose (envs c').
Proof.
  intros H1 H2. unfold recv, fill_chan. rewrite H1.
  pose proof (fill_open 8 (envs c) (buf c) (nreads c) (nclose c) H2) as [A1 A2].
  destruct (fill 8 (buf c) false (envs c) (nreads c) (nclose c)) as [c1 [r1|]]; cbn [fst] in *.
  - intros E. inversion E; subst. auto.
  - destruct (unpacks "!BBHI" (buf c1) 0) as [l|e]; [|intros E; inversion E; subst; auto].
    destruct l as [|v1 [|v2 [|v3 [|v4 [|v5 l]]]]]; try destruct v3; try (intros E; inversion E; subst; auto; fail).
    rewrite A1.
    pose proof (fill_open (Z.to_nat z) (envs c1) (buf c1) (nreads c1) (nclose c1) A2) as [B1 B2].
    destruct (fill (Z.to_nat z) (buf c1) false (envs c1) (nreads c1) (nclose c1)) as [c2 [r2|]]; cbn [fst] in *;
      intros E; inversion E; subst; auto.
Qed.

Lemma lines_closed os : forall l, closed (d_in (l_d l)) = true -> exists l' rs,
  log_run l os = (l', rs) /\ lines (l_log l') = lines (l_log l).
Proof.
  induction os as [|o os IH]; intros l H; [cbn; eauto|]. cbn [log_run].
  assert (S : exists l1 r, log_step l o = (l1, r) /\ closed (d_in (l_d l1)) = true /\ lines (l_log l1) = lines (l_log l)).
  { destruct o as [w m| |]; cbn [log_step plain_step].
    - destruct (send (d_out (l_d l)) w m) as [t r]. eexists _, _. split; [reflexivity|]. cbn [l_d d_in l_log].
      split; [exact H|]. rewrite lines_app. cbn. apply app_nil_r.
    - destruct (recv (d_in (l_d l))) as [c r] eqn:E. eexists _, _. split; [reflexivity|]. cbn [l_d d_in l_log].
      split.
      + revert E. unfold recv, fill_chan. rewrite H.
        assert (F : forall need es b n k, closed (fst (fill need b true es n k)) = true)
          by (intros need es b n k; destruct es; cbn [fill]; destruct (_ <=? _)%nat; reflexivity).
        pose proof (F 8%nat (envs (d_in (l_d l))) (buf (d_in (l_d l))) (nreads (d_in (l_d l))) (nclose (d_in (l_d l)))) as A1.
        destruct (fill 8 _ true _ _ _) as [c1 [r1|]]; cbn [fst] in *; [intros E; inversion E; subst; exact A1|].
        destruct (unpacks "!BBHI" (buf c1) 0) as [q|e]; [|intros E; inversion E; subst; exact A1].
        destruct q as [|v1 [|v2 [|v3 [|v4 [|v5 q]]]]]; try destruct v3; try (intros E; inversion E; subst; exact A1).
        rewrite A1. pose proof (F (Z.to_nat z) (envs c1) (buf c1) (nreads c1) (nclose c1)) as B1.
        destruct (fill (Z.to_nat z) (buf c1) true (envs c1) (nreads c1) (nclose c1)) as [c2 [r2|]]; cbn [fst] in *;
          intros E; inversion E; subst; exact B1.
      + destruct r as [[|x m]| |]; try reflexivity. rewrite lines_app. cbn. apply app_nil_r.
    - rewrite H. eauto. }
  destruct S as (l1 & r & -> & H1 & L1). destruct (IH l1 H1) as (l2 & rs & -> & L2). eexists _, _. split; [reflexivity|].
  congruence.
Qed.

Theorem C88_channel_lines : forall d rp remote os l rs,
  closed (d_in d) = false -> ~ In EClose (envs (d_in d)) ->
  log_run (log_init d rp remote) os = (l, rs) ->
  (In DClose os -> lines (l_log l) =
     [rp ++ bytes_of_string " connect" ++ remote; rp ++ bytes_of_string " close" ++ remote]) /\
  (~ In DClose os -> lines (l_log l) = [rp ++ bytes_of_string " connect" ++ remote]).
Proof.
  intros d rp remote os l rs Hc He E.
  assert (G : forall os l0 l rs, closed (d_in (l_d l0)) = false -> ~ In EClose (envs (d_in (l_d l0))) ->
    log_run l0 os = (l, rs) ->
    (In DClose os -> lines (l_log l) = lines (l_log l0) ++ [l_repr l0 ++ bytes_of_string " close" ++ l_remote l0]) /\
    (~ In DClose os -> lines (l_log l) = lines (l_log l0))).
  { clear. induction os as [|o os IH]; intros l0 l rs Hc He E; cbn [log_run] in E.
    - inversion E; subst. split; [intros []|reflexivity].
    - destruct (log_step l0 o) as [l1 r] eqn:S. destruct (log_run l1 os) as [l2 rs2] eqn:R. inversion E; subst l2 rs. clear E.
      destruct o as [w m| |]; cbn [log_step plain_step] in S.
      + destruct (send (d_out (l_d l0)) w m) as [t r2]. inversion S; subst l1 r. clear S.
        apply IH in R; [|exact Hc|exact He]. cbn [l_log l_repr l_remote] in R. rewrite lines_app in R.
        change (lines [(LgSend, hex_line (l_repr l0) m)]) with (@nil bytes) in R. rewrite app_nil_r in R.
        destruct R as [R1 R2]. split.
        * intros [H|H]; [discriminate|auto].
        * intros H. apply R2. intros Hi. apply H. right. exact Hi.
      + destruct (recv (d_in (l_d l0))) as [c r2] eqn:Er. inversion S; subst l1 r. clear S.
        destruct (recv_open _ _ _ Hc He Er) as [Hc2 He2].
        apply IH in R; [|exact Hc2|exact He2]. cbn [l_log l_repr l_remote] in R.
        replace (lines match r2 with Got (x :: m) => l_log l0 ++ [(LgRecv, hex_line (l_repr l0) (x :: m))] | _ => l_log l0 end)
          with (lines (l_log l0)) in R
          by (destruct r2 as [[|x m]| |]; try reflexivity; rewrite lines_app; cbn; rewrite app_nil_r; reflexivity).
        destruct R as [R1 R2]. split.
        * intros [H|H]; [discriminate|auto].
        * intros H. apply R2. intros Hi. apply H. right. exact Hi.
      + rewrite Hc in S. assert (El : l1 = mkLch (dch_close (l_d l0)) (l_repr l0) (l_remote l0)
          (l_log l0 ++ [(LgChannel, l_repr l0 ++ s_close ++ l_remote l0)])) by (inversion S; reflexivity).
        rewrite El in R. clear S El.
        destruct (lines_closed os _ (eq_refl : closed (d_in (l_d (mkLch (dch_close (l_d l0)) (l_repr l0) (l_remote l0)
          (l_log l0 ++ [(LgChannel, l_repr l0 ++ s_close ++ l_remote l0)])))) = true)) as (l2 & rs3 & R3 & L3).
        rewrite R3 in R. inversion R; subst l2 rs3. split.
        * intros _. rewrite L3. cbn [l_log]. rewrite lines_app. reflexivity.
        * intros H. exfalso. apply H. left. reflexivity. }
  exact (G os (log_init d rp remote) l rs Hc He E).
Qed.
Print Assumptions C88_channel_lines.

(** C88 (refuted part: a line of the send log means that the message went
    out): the line is written before the attempt. *)
Theorem C88_logged_means_sent_refuted :
  exists d rp remote o m l r,
    log_run (log_init d rp remote) [DSend o m] = (l, [RSent (Err r)]) /\
    In (TSent m) (read_log rp (l_log l)) /\ t_wire (d_out (l_d l)) = [] /\
    t_grams (d_out (l_d l)) = [].
Proof.
  exists (mkDch (new_chan []) (mkTr false true false [] [])), [67], [],
    (WRaise (SocketError 32)), [4; 0; 0; 8; 0; 0; 0; 1].
  eexists _, _. split; [vm_compute; reflexivity|].
  split; [left; vm_compute; reflexivity|]. split; reflexivity.
Qed.
Print Assumptions C88_logged_means_sent_refuted.

Example C88_example :
  let d := mkDch (new_chan [ERead (RData [4; 3; 0; 9; 0; 0; 0; 1; 255]); ERead RTimeout;
                            ERead (RData [])]) (mkTr false true false [] []) in
  let os := [DSend (WAccept 8) [4; 2; 0; 8; 0; 0; 0; 1]; DRecv; DRecv; DClose; DClose;
             DSend (WAccept 8) [4; 2; 0; 8; 0; 0; 0; 2]] in
  snd (log_run (log_init d [67; 104] [32; 120]) os) =
    [RSent (Ok tt); RRecv (Got [4; 3; 0; 9; 0; 0; 0; 1; 255]); RRecv (Got []); RClosed; RClosed;
     RSent (Err (SocketError 9))] /\
  l_log (fst (log_run (log_init d [67; 104] [32; 120]) os)) =
    [(LgChannel, [67; 104; 32; 99; 111; 110; 110; 101; 99; 116; 32; 120]);
     (LgSend, [67; 104; 32; 48; 52; 48; 50; 48; 48; 48; 56; 48; 48; 48; 48; 48; 48; 48; 49]);
     (LgRecv, [67; 104; 32; 48; 52; 48; 51; 48; 48; 48; 57; 48; 48; 48; 48; 48; 48; 48; 49; 102; 102]);
     (LgChannel, [67; 104; 32; 99; 108; 111; 115; 101; 32; 120]);
     (LgSend, [67; 104; 32; 48; 52; 48; 50; 48; 48; 48; 56; 48; 48; 48; 48; 48; 48; 48; 50])] /\
  read_log [67; 104] (l_log (fst (log_run (log_init d [67; 104] [32; 120]) os))) =
    [TSent [4; 2; 0; 8; 0; 0; 0; 1]; TGot [4; 3; 0; 9; 0; 0; 0; 1; 255];
     TSent [4; 2; 0; 8; 0; 0; 0; 2]].
Proof. cbv zeta. repeat split; vm_compute; reflexivity. Qed.

(** C89 (full statement, refuted below): if every send() returns without an
    exception, the peer receives exactly the messages sent, in order. *)
Definition C89_statement : Prop := forall ws t' rs es,
  sends (mkTr false true false [] []) ws = (t', rs) ->
  Forall (fun r => r = Ok tt) rs -> Forall msg_wf (map snd ws) ->
  quiet es -> delivered es = t_wire t' ->
  fst (recvs (length ws) (new_chan es)) = map Got (map snd ws).

(** C89, the case in which the transport takes each message whole: the sends
    succeed, and whatever the chunking on the way, the peer's recv() returns
    the messages. *)
Theorem C89_peer_receives_partial : forall ws es,
  Forall full ws -> Forall msg_wf (map snd ws) ->
  exists t', sends (mkTr false true false [] []) ws = (t', map (fun _ => Ok tt) ws) /\
    t_wire t' = concat (map snd ws) /\
    (quiet es -> delivered es = t_wire t' ->
     fst (recvs (length ws) (new_chan es)) = map Got (map snd ws)).
Proof.
  intros ws es F W.
  destruct (sends_full ws (mkTr false true false [] [])) as (t' & E & _ & T);
    [repeat split|exact F|].
  exists t'. split; [exact E|]. split; [exact T|].
  intros Q D. rewrite <- (map_length snd ws). apply framing_recvs; auto.
  now rewrite D, T.
Qed.
Print Assumptions C89_peer_receives_partial.

(** C89. Datagrams are not affected: each message is one datagram. *)
Theorem C89_datagrams : forall ws t,
  t_sendto t = true -> t_closed t = false ->
  Forall (fun w => exists n, fst w = WAccept n) ws ->
  exists t', sends t ws = (t', map (fun _ => Ok tt) ws) /\
    t_grams t' = t_grams t ++ map snd ws.
Proof. exact sends_grams. Qed.
Print Assumptions C89_datagrams.

(** C89. On a closed channel every send raises and nothing goes out. *)
Theorem C89_closed_raises : forall ws t, t_closed t = true ->
  exists rs, sends t ws = (t, rs) /\ length rs = length ws /\
    Forall (fun r => exists e, r = Err e) rs.
Proof. exact closed_sends. Qed.
Print Assumptions C89_closed_raises.

(** C89 (refuted): a short write goes unnoticed; send() uses socket.send, not
    sendall, and drops its result.  Every call returns normally and the peer
    receives a message nobody sent, made of the beginning of one and the
    beginning of the next. *)
Theorem C89_short_write_refuted :
  exists ws t' rs es m,
    sends (mkTr false true false [] []) ws = (t', rs) /\
    Forall (fun r => r = Ok tt) rs /\ Forall msg_wf (map snd ws) /\
    quiet es /\ delivered es = t_wire t' /\
    In (Got m) (fst (recvs (length ws) (new_chan es))) /\ (8 <= length m)%nat /\
    ~ In m (map snd ws).
Proof.
  exists [(WAccept 8, [4; 10; 0; 12; 0; 0; 0; 1; 1; 2; 3; 4]);
          (WAccept 8, [4; 2; 0; 8; 0; 0; 0; 2])].
  eexists _, _, [ERead (RData [4; 10; 0; 12; 0; 0; 0; 1; 4; 2; 0; 8; 0; 0; 0; 2]); ERead RTimeout],
    [4; 10; 0; 12; 0; 0; 0; 1; 4; 2; 0; 8].
  split; [vm_compute; reflexivity|].
  split; [repeat constructor|].
  split; [repeat constructor; unfold announced; cbn; lia|].
  split; [unfold quiet, is_delay, is_data; constructor; [eauto|constructor; eauto]|].
  split; [reflexivity|].
  split; [left; vm_compute; reflexivity|].
  split; [cbn; lia|].
  cbn. intros [H|[H|[]]]; discriminate H.
Qed.
Print Assumptions C89_short_write_refuted.

(** C89, exactly: if every send() returned, the peer receives the messages sent
    if and only if the transport took each of them whole.  So one short write
    anywhere is enough, whatever the messages and the chunking. *)
Theorem C89_received_exactly : forall ws t' rs es,
  sends (mkTr false true false [] []) ws = (t', rs) -> Forall (fun r => r = Ok tt) rs ->
  Forall msg_wf (map snd ws) -> quiet es -> delivered es = t_wire t' ->
  (fst (recvs (length ws) (new_chan es)) = map Got (map snd ws) <-> Forall full ws).
Proof. exact received_exactly. Qed.
Print Assumptions C89_received_exactly.

Theorem C89_statement_refuted : ~ C89_statement.
Proof.
  intros H.
  destruct C89_short_write_refuted as (ws & t' & rs & es & m & E & O & W & Q & D & I & L & N).
  rewrite (H ws t' rs es E O W Q D) in I.
  apply in_map_iff in I. destruct I as (x & E2 & I). injection E2 as ->. exact (N I).
Qed.
Print Assumptions C89_statement_refuted.

Example C89_example :
  let ws := [(WAccept 9, [4; 2; 0; 9; 0; 0; 0; 1; 7]); (WAccept 8, [4; 20; 0; 8; 0; 0; 0; 2])] in
  Forall full ws /\ Forall msg_wf (map snd ws) /\
  sends (mkTr false true false [] []) ws =
    (mkTr false true false [4; 2; 0; 9; 0; 0; 0; 1; 7; 4; 20; 0; 8; 0; 0; 0; 2] [], [Ok tt; Ok tt]) /\
  sends (mkTr true false false [] []) ws =
    (mkTr true false false [] [[4; 2; 0; 9; 0; 0; 0; 1; 7]; [4; 20; 0; 8; 0; 0; 0; 2]], [Ok tt; Ok tt]) /\
  sends (mkTr true false true [] []) ws = (mkTr true false true [] [], [Err TypeError; Err TypeError]).
Proof.
  cbv zeta. split; [|split; [|split; [|split]]]; try (vm_compute; reflexivity).
  - repeat constructor; eexists; (split; [reflexivity|cbn; lia]).
  - repeat constructor; unfold announced; cbn; lia.
Qed.

(** C90 (full statement, refuted below): after any program using [with
    ReadWrapper] blocks, finished or left by an exception, the channel has the
    wrapper it had before, and each read inside went through the innermost
    block's wrapper. *)
Definition C90_statement : Prop := forall p s,
  exists s' e l, wrun p s = (s', e, l) /\ rw_cur s' = rw_cur s /\
    l = fst (scopes p (rw_cur s)).

(** C90, proved when no object is entered again inside its own block. *)
Theorem C90_restored_partial : forall p s, not_reentered p ->
  exists s' e l, wrun p s = (s', e, l) /\ rw_cur s' = rw_cur s /\
    l = fst (scopes p (rw_cur s)) /\
    (e = None <-> snd (scopes p (rw_cur s)) = true).
Proof. exact wrun_restores. Qed.
Print Assumptions C90_restored_partial.

(** C90 (refuted): a ReadWrapper used again inside its own block stays
    installed for good. *)
Theorem C90_reentered_refuted : ~ C90_statement.
Proof.
  intros H.
  destruct (H (PWith 0 (PWith 0 PRead)) (mkRws WGiven (fun _ => None))) as (s' & e & l & E & C & _).
  vm_compute in E. injection E as <- <- <-. cbn in C. discriminate C.
Qed.
Print Assumptions C90_reentered_refuted.

Example C90_example :
  let p := PWith 0 (PSeq PRead (PSeq (PWith 1 (PSeq PRead (PRaise (OtherError 7)))) PRead)) in
  not_reentered p /\
  exists s, wrun p (mkRws WGiven (fun _ => None)) = (s, Some (OtherError 7), [WObj 0; WObj 1]) /\
    rw_cur s = WGiven.
Proof.
  cbv zeta. split.
  - cbn. intuition.
  - eexists. split; [vm_compute; reflexivity|]. reflexivity.
Qed.

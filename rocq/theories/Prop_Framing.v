(** Properties C01-C05: message framing (twink/base.py:30-176). *)

From Verif Require Import Py M_Channel S_Framing P_Channel.
Local Open Scope Z_scope.

(** C01. Whatever the chunking and the delays, n recv() calls return exactly
    the n messages written. *)
Theorem C01_framing_recv : forall (ms : list bytes) (es : list env),
  Forall msg_wf ms -> quiet es -> delivered es = concat ms ->
  fst (recvs (length ms) (new_chan es)) = map Got ms.
Proof. exact framing_recvs. Qed.
Print Assumptions C01_framing_recv.

(** C01, iterating the channel up to the end of the stream: the messages, then
    the end; an incomplete rest [junk] is held back. *)
Theorem C01_framing_iter : forall ms es e tl junk fuel,
  Forall msg_wf ms -> quiet es -> delivered es = concat ms ++ junk ->
  incomplete junk -> is_end e -> (length ms < fuel)%nat ->
  exists c', iterate fuel (new_chan (es ++ e :: tl)) = (ms, Got [], c')
    /\ envs c' = tl /\ buf c' = junk.
Proof. exact framing_iterate. Qed.
Print Assumptions C01_framing_iter.

Example C01_example :
  let m1 := [4; 0; 0; 8; 0; 0; 0; 1] in
  let m2 := [4; 10; 0; 11; 0; 0; 0; 2; 7; 8; 9] in
  let es := [ERead (RData [4; 0; 0]); ERead RTimeout; ERead (RData [8; 0; 0; 0; 1; 4]);
             ERead (RErr 4); ERead (RData [10; 0; 11; 0; 0; 0; 2; 7; 8; 9])] in
  Forall msg_wf [m1; m2] /\ quiet es /\ delivered es = concat [m1; m2] /\
  fst (recvs 2 (new_chan es)) = [Got m1; Got m2].
Proof.
  cbv zeta. split; [|split; [|split]].
  - repeat constructor; unfold announced; cbn; lia.
  - unfold quiet, is_delay, is_data.
    constructor; [eauto|]. constructor; [eauto|]. constructor; [eauto|].
    constructor; [eauto|]. constructor; [eauto|]. constructor.
  - reflexivity.
  - vm_compute. reflexivity.
Qed.

(** C02. Conservation for any stream, split and number of calls: returned
    bytes followed by the held-back bytes are the bytes read. *)
Theorem C02_conservation : forall n c rs c',
  recvs n c = (rs, c') ->
  exists used, envs c = used ++ envs c' /\
    buf c ++ delivered used = concat (map out_bytes rs) ++ buf c'.
Proof. exact recvs_conserve. Qed.
Print Assumptions C02_conservation.

(** C02. What is returned with at least a header's size is a complete message:
    it is as long as it announces (nothing truncated is delivered). *)
Theorem C02_no_truncated_message : forall c c' m,
  recv c = (c', Got m) -> (8 <= length m)%nat -> announced m = zlen m.
Proof. exact recv_got_announced. Qed.
Print Assumptions C02_no_truncated_message.

(** C02. A peer that goes away within a message, wherever: the messages before
    it are delivered, of the last one nothing, its bytes are held back. *)
Theorem C02_cut_message : forall ms m k es e tl fuel,
  Forall msg_wf ms -> msg_wf m -> (k < length m)%nat ->
  quiet es -> delivered es = concat ms ++ firstn k m -> is_end e -> (length ms < fuel)%nat ->
  exists c', iterate fuel (new_chan (es ++ e :: tl)) = (ms, Got [], c') /\ buf c' = firstn k m.
Proof.
  intros ms m k es e tl fuel Hw [H8 Ha] Hk Hq Hd He Hf.
  destruct (framing_iterate ms es e tl (firstn k m) fuel Hw Hq Hd) as (c' & R & _ & B); auto.
  - destruct (Nat.ltb_spec k 8) as [Hk8|Hk8]; [left; rewrite firstn_length; lia|right].
    assert (E : announced (firstn k m) = announced m).
    { rewrite <- (firstn_skipn k m) at 2. symmetry. apply announced_prefix. rewrite firstn_length. lia. }
    rewrite E, Ha. unfold zlen. rewrite firstn_length. lia.
  - exists c'. auto.
Qed.
Print Assumptions C02_cut_message.

Example C02_cut_example :
  let m := [4; 10; 0; 11; 0; 0; 0; 2; 7; 8; 9] in
  let es := [ERead (RData [4; 0; 0; 8; 0; 0]); ERead RTimeout; ERead (RData [0; 1; 4; 10; 0; 11; 0; 0; 0; 2; 7; 8])] in
  delivered es = concat [[4; 0; 0; 8; 0; 0; 0; 1]] ++ firstn 10 m /\
  fst (fst (iterate 5 (new_chan (es ++ [ERead (RErr 104)])))) = [[4; 0; 0; 8; 0; 0; 0; 1]].
Proof. vm_compute. split; reflexivity. Qed.

Example C02_example :
  let c := new_chan [ERead (RData [4; 2; 0; 9; 0; 0; 0; 1; 5; 4; 2]); ERead (RData [])] in
  recvs 2 c = ([Got [4; 2; 0; 9; 0; 0; 0; 1; 5]; Got []],
               mkChan [4; 2] false [] 2 0).
Proof. vm_compute. reflexivity. Qed.

(** C03 (full statement, refuted): a recv() returning b"" does so because the
    stream ended, and any other result has at least 8 bytes. *)
Definition C03_statement : Prop := forall c c' m,
  bytes_ok (buf c ++ delivered (envs c)) ->
  recv c = (c', Got m) ->
  (m = [] /\ (closed c = true \/ exists used e, envs c = used ++ e :: envs c' /\ is_end e))
  \/ (8 <= length m)%nat.

Theorem C03_end_of_stream_refuted :
  exists c c' m,
    bytes_ok (buf c ++ delivered (envs c)) /\ recv c = (c', Got m) /\
    (0 < length m)%nat /\ (length m < 8)%nat /\ closed c = false /\
    unpacks "!BBHI" m 0 = Err StructError.
Proof.
  exists (new_chan short_len_stream), (mkChan [0; 0; 0; 1; 4; 2; 0; 8; 0; 0; 0; 2] false [] 1 0), [4; 2; 0; 4].
  split; [repeat constructor; unfold byte_ok; lia|]. vm_compute. repeat split; lia || reflexivity.
Qed.
Print Assumptions C03_end_of_stream_refuted.

(** C03 refuted further: a header announcing length 0 makes every further
    recv() return b"" although nothing ended, and hides all later messages. *)
Theorem C03_zero_length_stuck_refuted : forall n c,
  (8 <= length (buf c))%nat -> announced (buf c) = 0 ->
  recvs n c = (repeat (Got []) n, c).
Proof. intros n c Hl Ha. exact (recv_zero_length_stuck n c (buf c) eq_refl Hl Ha). Qed.
Print Assumptions C03_zero_length_stuck_refuted.

Example C03_zero_length_reachable :
  let c := snd (recvs 1 (new_chan zero_len_stream)) in
  (8 <= length (buf c))%nat /\ announced (buf c) = 0 /\ closed c = false /\ envs c = [].
Proof. vm_compute. repeat split; lia || reflexivity. Qed.

(** C03, the part that holds: under a header announcing at least 8. *)
Theorem C03_end_of_stream_partial : forall c c' m,
  recv c = (c', Got m) ->
  ((8 <= length (buf c ++ delivered (envs c)))%nat ->
     8 <= announced (buf c ++ delivered (envs c))) ->
  (m = [] /\ (closed c = true \/ exists used e, envs c = used ++ e :: envs c' /\ is_end e))
  \/ ((8 <= length m)%nat /\ announced m = zlen m).
Proof. exact recv_end_or_message. Qed.
Print Assumptions C03_end_of_stream_partial.

Example C03_partial_example :
  let c := new_chan [ERead (RData [4; 2; 0; 9; 0; 0; 0; 1]); EClose] in
  ((8 <= length (buf c ++ delivered (envs c)))%nat ->
     8 <= announced (buf c ++ delivered (envs c))) /\ snd (recv c) = Got [].
Proof. split; [intros _; vm_compute; discriminate | vm_compute; reflexivity]. Qed.

(** C04. After close no operation reads the transport. *)
Theorem C04_closed_never_reads : forall os c c' rs,
  closed c = true -> chan_run c os = (c', rs) ->
  nreads c' = nreads c /\ envs c' = envs c /\ closed c' = true.
Proof. exact closed_no_reads. Qed.
Print Assumptions C04_closed_never_reads.

(** C04. On a closed channel recv() returns b"" or a message that was already
    buffered. *)
Theorem C04_closed_recv : forall c c' r,
  closed c = true -> recv c = (c', r) ->
  nreads c' = nreads c /\ envs c' = envs c /\ closed c' = true /\ nclose c' = nclose c /\
  (r = Got [] \/ exists m, r = Got m /\ buf c = m ++ buf c').
Proof. exact recv_closed. Qed.
Print Assumptions C04_closed_recv.

(** C04. A LoggingChannel closes its socket at most once. *)
Theorem C04_logging_close_once : forall os c c' rs,
  ~ In OpClose os -> Forall (fun e => e <> EClose) (envs c) ->
  chan_run c os = (c', rs) ->
  (nclose c' <= nclose c + (if closed c then 0 else 1))%nat.
Proof. exact logging_close_once. Qed.
Print Assumptions C04_logging_close_once.

(** C04. Closing again changes nothing: the same channel but for the count of
    socket.close() calls, and with LoggingChannel not even that. *)
Theorem C04_close_again : forall c,
  (let c1 := fst (chan_step c OpClose) in let c2 := fst (chan_step c1 OpClose) in
   buf c2 = buf c1 /\ closed c2 = closed c1 /\ envs c2 = envs c1 /\ nreads c2 = nreads c1) /\
  (let c1 := fst (chan_step c OpLogClose) in fst (chan_step c1 OpLogClose) = c1 /\ closed c1 = true).
Proof.
  intros c. split; [cbn; auto|].
  cbn. unfold logging_close. destruct (closed c) eqn:E; cbn; rewrite ?E; auto.
Qed.
Print Assumptions C04_close_again.

Example C04_example :
  let c := mkChan [4; 2; 0; 8; 0; 0; 0; 1; 9] false [ERead (RData [1])] 3 0 in
  chan_run c [OpLogClose; OpRecv; OpRecv; OpLogClose] =
  (mkChan [9] true [ERead (RData [1])] 3 1,
   [None; Some (Got [4; 2; 0; 8; 0; 0; 0; 1]); Some (Got []); None]).
Proof. vm_compute. reflexivity. Qed.

(** C05. Timeouts and EINTR have no visible effect: removing them from the
    environment changes neither result nor buffer. *)
Theorem C05_delays_invisible : forall c c1 r1 c2 r2,
  recv c = (c1, r1) ->
  recv (mkChan (buf c) (closed c) (strip (envs c)) (nreads c) (nclose c)) = (c2, r2) ->
  r1 = r2 /\ buf c1 = buf c2 /\ closed c1 = closed c2 /\ strip (envs c1) = envs c2.
Proof. exact recv_delay. Qed.
Print Assumptions C05_delays_invisible.

(** C05. recv() raises only for a socket error outside {EINTR, EBADF, EAGAIN,
    ECONNRESET}, that very error, and keeps every byte received so far. *)
Theorem C05_errors_surface : forall c c' e,
  recv c = (c', Raised e) ->
  exists used x, e = SocketError x /\ envs c = used ++ ERead (RErr x) :: envs c' /\
    ~ In x [4; 9; 11; 104] /\ buf c' = buf c ++ delivered used.
Proof. exact recv_error_keeps. Qed.
Print Assumptions C05_errors_surface.

(** C05. The end-of-stream outcomes, and only they, end an open stream,
    wherever in a message: see also [C03_end_of_stream_partial]. *)
Theorem C05_end_outcomes : forall es e tl b n k,
  quiet es -> is_end e -> incomplete (b ++ delivered es) ->
  exists c', recv (mkChan b false (es ++ e :: tl) n k) = (c', Got []) /\
    buf c' = b ++ delivered es /\ envs c' = tl.
Proof. exact recv_end_outcome. Qed.
Print Assumptions C05_end_outcomes.

Example C05_example :
  let c := new_chan [ERead RTimeout; ERead (RData [4; 2]); ERead (RErr 4); ERead (RErr 32)] in
  recv c = (mkChan [4; 2] false [] 4 0, Raised (SocketError 32)).
Proof. vm_compute. reflexivity. Qed.

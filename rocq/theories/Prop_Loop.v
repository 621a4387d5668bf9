(** Properties C12, C13, C15: start-up, echo, server loop. *)

From Verif Require Import Py Struct M_Channel M_Hello M_Loop S_Framing S_Hello S_Loop P_Loop.
Local Open Scope Z_scope.

(** C12. Whatever the sequence of start(), attach() and send() calls, failing
    ones included: start() has written exactly one HELLO for the accepted
    versions if it ever succeeded, and none otherwise. *)
Theorem C12_hello_once : forall accept sock os,
  let s := lrun accept (lnew sock) os in
  if l_started s then exists xid m, hello accept xid = Ok m /\ starts (l_wire s) = [m]
  else starts (l_wire s) = [].
Proof. exact start_once. Qed.
Print Assumptions C12_hello_once.

(** C12. If start() comes first, its HELLO is the first message written and
    no other follows. *)
Theorem C12_hello_first : forall accept k xid os m,
  hello accept xid = Ok m ->
  exists rest, l_wire (lrun accept (lnew (Some k)) (LStart xid None :: os)) = (k, (WStart, m)) :: rest
    /\ starts rest = [].
Proof. exact start_first. Qed.
Print Assumptions C12_hello_first.

Example C12_example :
  let a := VsSeq [VI 4] in
  let s := lrun a (lnew None) [LStart 1 None; LAttach 5 true 2 (Some 32); LStart 3 None;
                               LSend [9] None; LAttach 6 true 4 None; LStart 5 None] in
  l_started s = true /\ map fst (l_wire s) = [5%nat; 5%nat] /\
  starts (l_wire s) = [[4; 0; 0; 16; 0; 0; 0; 3; 0; 1; 0; 8; 0; 0; 0; 16]].
Proof. vm_compute. auto. Qed.

(** C13. Once a version is negotiated: echo replies and handler calls for any
    stream of messages. *)
Theorem C13_echo_stream_partial : forall h v a ms,
  silent h -> 0 <= v < 256 -> o_version (a_och a) = Some v ->
  Forall (fun m => (8 <= length m)%nat /\ bytes_ok m) ms ->
  handle_all (auto_echo_proxy (server_proxy (user_handle h))) a ms =
  (mkApp (mkOch (Some v) (o_sent (a_och a) ++ map (echo_reply v) (filter is_echo ms)))
         (a_seen a ++ filter (fun m => negb (is_echo m)) ms), Ok tt).
Proof. exact echo_stream. Qed.
Print Assumptions C13_echo_stream_partial.

(** C13, any handler (it may send and raise): each single message. *)
Theorem C13_echo_step_partial : forall h v a m,
  0 <= v < 256 -> o_version (a_och a) = Some v -> (8 <= length m)%nat -> bytes_ok m ->
  let '(a', r) := auto_echo_proxy (server_proxy (user_handle h)) a m in
  if is_echo m then r = Ok tt /\ a_seen a' = a_seen a /\ o_sent (a_och a') = o_sent (a_och a) ++ [echo_reply v m]
  else r = snd (h (a_seen a) m) /\ a_seen a' = a_seen a ++ [m] /\
       o_sent (a_och a') = o_sent (a_och a) ++ fst (h (a_seen a) m).
Proof. exact echo_step. Qed.
Print Assumptions C13_echo_step_partial.

(** C13 refuted before negotiation: any ECHO_REQUEST arriving before the HELLO
    is not answered, struct.error leaves the handler. *)
Theorem C13_before_hello_refuted : forall next seen sent m,
  (8 <= length m)%nat -> is_echo m = true ->
  auto_echo_proxy next (mkApp (mkOch None sent) seen) m = (mkApp (mkOch None sent) seen, Err StructError).
Proof. intros next seen sent m. apply echo_early. Qed.
Print Assumptions C13_before_hello_refuted.

Example C13_example :
  let a := mkApp (mkOch (Some 4) []) [] in
  let ms := [[4; 2; 0; 10; 0; 0; 0; 7; 65; 66]; [4; 10; 0; 8; 0; 0; 0; 8]] in
  Forall (fun m => (8 <= length m)%nat /\ bytes_ok m) ms /\
  handle_all (auto_echo_proxy (server_proxy (user_handle (fun _ _ => ([], Ok tt))))) a ms =
  (mkApp (mkOch (Some 4) [[4; 3; 0; 10; 0; 0; 0; 7; 65; 66]]) [[4; 10; 0; 8; 0; 0; 0; 8]], Ok tt).
Proof.
  split; [|vm_compute; reflexivity].
  repeat constructor; cbn; try lia.
Qed.

(** C15. The loop over any byte stream that carries the messages [ms] and
    then ends, in whatever way and be it within a message (any chunking, any
    delays), does what [serve] does with the list of messages. *)
Theorem C15_loop_serves : forall accept order xid h ms c a e0 tl junk fuel,
  closed c = false -> quiet (envs c) -> Forall msg_wf ms ->
  buf c ++ delivered (envs c) = concat ms ++ junk -> incomplete junk -> is_end e0 -> closes e0 = false ->
  (length ms < fuel)%nat ->
  let '(s', e) := loop accept order xid (server_proxy (user_handle h)) fuel
      (mkSrv (mkChan (buf c) (closed c) (envs c ++ e0 :: tl) (nreads c) (nclose c)) a) in
  let '(seen, e', cl) := serve (verdict accept order xid) h (a_seen a) ms in
  a_seen (s_app s') = seen /\ e = e' /\ closed (s_chan s') = cl.
Proof. exact loop_serve. Qed.
Print Assumptions C15_loop_serves.

(** C15. What is delivered is always a prefix of the stream, in order ... *)
Theorem C15_delivers_prefix : forall nego h ms seen,
  exists k, fst (fst (serve nego h seen ms)) = seen ++ firstn k ms.
Proof. exact serve_prefix. Qed.
Print Assumptions C15_delivers_prefix.

(** ... and all of it when neither negotiation nor the handler raises. *)
Theorem C15_delivers_all : forall nego h ms seen,
  Forall (fun m => is_ok (nego m) = true) ms -> (forall s m, is_ok (snd (h s m)) = true) ->
  serve nego h seen ms = (seen ++ ms, LReturned, false).
Proof. exact serve_all. Qed.
Print Assumptions C15_delivers_all.

Example C15_example :
  let m1 := [4; 5; 0; 8; 0; 0; 0; 1] in let m2 := [4; 10; 0; 9; 0; 0; 0; 2; 7] in
  let m3 := [4; 2; 0; 8; 0; 0; 0; 3] in
  let h := fun (seen : list bytes) (m : bytes) =>
     (@nil bytes, if (length seen =? 1)%nat then Err ChannelClose else Ok tt) in
  let c := new_chan [ERead (RData (m1 ++ [4])); ERead RTimeout; ERead (RData (skipn 1 m2 ++ m3))] in
  quiet (envs c) /\ Forall msg_wf [m1; m2; m3] /\
  delivered (envs c) = concat [m1; m2; m3] /\
  serve (verdict (VsSeq [VI 4]) (fun l => l) 1) h [] [m1; m2; m3] = ([m1; m2], LReturned, true).
Proof.
  cbv zeta. split; [|split; [|split]].
  - unfold quiet, is_delay, is_data. cbn [envs new_chan].
    repeat apply Forall_cons; [right|left; auto|right|apply Forall_nil]; cbn; do 2 eexists; reflexivity.
  - repeat constructor; unfold announced; cbn; lia.
  - reflexivity.
  - vm_compute. reflexivity.
Qed.

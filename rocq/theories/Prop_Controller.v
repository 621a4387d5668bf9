(** Properties C14, C16 - C22: the controller channel. *)

From Verif Require Import Py Struct M_Hello M_Loop M_Controller S_Hello S_Loop S_Controller P_Controller P_Switch.
Local Open Scope Z_scope.

(** C14. With AutoEchoChannel in front of ControllerChannel every echo request
    is answered, whatever requests are outstanding; the reply is the last
    message written, preceded at most by a separating barrier. *)
Theorem C14_echo_first_partial : forall a bxid s m v,
  (8 <= length m)%nat -> bytes_ok m -> is_echo m = true ->
  k_version s = Some v -> 0 <= v < 256 -> 0 <= bxid < 2 ^ 32 ->
  let '(s', r) := echo_then_controller a bxid s m in
  r = Swallowed /\ exists sepa, k_wire s' = k_wire s ++ sepa ++ [echo_reply v m] /\
    (sepa = [] \/ exists b, sepa = [b] /\ separator (Some v) bxid = Some b).
Proof. exact echo_first. Qed.
Print Assumptions C14_echo_first_partial.

(** C14 refuted for the other order (the one of twink/__main__.py:16): after
    one send with a callback, an echo request goes to that callback and
    nothing is written. *)
Theorem C14_controller_first_refuted :
  let s := fst (crun false k_new [CVersion 4; CSend (Some 7%nat) [4; 5; 0; 8; 0; 0; 0; 1] 9 None None]) in
  let m := [4; 2; 0; 8; 0; 0; 0; 2] in
  is_echo m = true /\ k_version s = Some 4 /\
  controller_then_echo false 10 s m = (s, ToCallback 7).
Proof. vm_compute. auto. Qed.
Print Assumptions C14_controller_first_refuted.

(** ... and so for every state in which the oldest batch has a live callback. *)
Theorem C14_controller_first_general_refuted : forall a bxid s f q m,
  (8 <= length m)%nat -> is_echo m = true -> k_seq s = SChunk (Some f) :: q -> ~ In f (k_dead s) ->
  controller_then_echo a bxid s m = (s, ToCallback f).
Proof. exact echo_swallowed_by_callback. Qed.
Print Assumptions C14_controller_first_general_refuted.

(** In all other states - no batch open, its callback collected, or none given
    - the request is answered with that order too. *)
Theorem C14_controller_first_partial : forall a bxid s m v,
  (8 <= length m)%nat -> bytes_ok m -> is_echo m = true ->
  k_version s = Some v -> 0 <= v < 256 -> 0 <= bxid < 2 ^ 32 ->
  (forall f q, k_seq s = SChunk (Some f) :: q -> In f (k_dead s)) ->
  let '(s', r) := controller_then_echo a bxid s m in
  r = Swallowed /\ exists sepa, k_wire s' = k_wire s ++ sepa ++ [echo_reply v m] /\
    (sepa = [] \/ exists b, sepa = [b] /\ separator (Some v) bxid = Some b).
Proof.
  intros a bxid s m v Hl Hb He Hv Hr Hx Hq. rewrite echo_passed_on by assumption.
  apply C14_echo_first_partial; assumption.
Qed.
Print Assumptions C14_controller_first_partial.

Example C14_controller_first_example :
  let s := fst (crun false k_new [CVersion 4; CSend None [4; 5; 0; 8; 0; 0; 0; 1] 9 None None]) in
  (forall f q, k_seq s = SChunk (Some f) :: q -> In f (k_dead s)) /\
  k_wire (fst (controller_then_echo false 10 s [4; 2; 0; 9; 0; 0; 0; 2; 65])) =
  [[4; 5; 0; 8; 0; 0; 0; 1]; [4; 3; 0; 9; 0; 0; 0; 2; 65]].
Proof. split; [intros f q H; vm_compute in H; discriminate|vm_compute; reflexivity]. Qed.

Example C14_example :
  let s := fst (crun false k_new [CVersion 4; CSend (Some 7%nat) [4; 5; 0; 8; 0; 0; 0; 1] 9 None None]) in
  k_wire (fst (echo_then_controller false 10 s [4; 2; 0; 9; 0; 0; 0; 2; 65])) =
  [[4; 5; 0; 8; 0; 0; 0; 1]; [4; 20; 0; 8; 0; 0; 0; 10]; [4; 3; 0; 9; 0; 0; 0; 2; 65]].
Proof. vm_compute. reflexivity. Qed.

(** C16. In every history - failing sends, arbitrary received messages
    (conforming or not), callbacks collected at any time - the "dropping
    multiple chunks" assertion never fires.  (Elements of seq are Chunk or
    Barrier by the typing of the model: only these are ever appended.) *)
Theorem C16_no_multiple_chunks : forall a os,
  ~ In (CGot (FailAssert AMultiple)) (snd (crun a k_new os)).
Proof. exact never_multiple. Qed.
Print Assumptions C16_no_multiple_chunks.

(** The walk does fail that way on a queue with adjacent chunks, so the claim
    is not vacuous. *)
Example C16_example :
  snd (walk [] 5 false [SChunk None; SChunk (Some 1%nat); SBarrier 5 None]) = FailAssert AMultiple /\
  snd (crun false k_new
    [CVersion 1; CSend (Some 1%nat) [1; 5; 0; 8; 0; 0; 0; 1] 9 None None;
     CSend (Some 2%nat) [1; 5; 0; 8; 0; 0; 0; 2] 10 None (Some (SocketError 32));
     CSend (Some 3%nat) [1; 5; 0; 8; 0; 0; 0; 3] 11 (Some (SocketError 32)) None;
     CRecv [1; 19; 0; 8; 0; 0; 0; 10]; CRecv [1; 19; 0; 8; 0; 0; 0; 11]; CRecv [1; 6; 0; 8; 0; 0; 0; 3]]) =
  [CNone; CSent (Ok tt); CSent (Err (SocketError 32)); CSent (Err (SocketError 32));
   CGot Swallowed; CGot Swallowed; CGot (FailExn StructError)].
Proof. vm_compute. auto. Qed.

(** C17. A switch that obeys barriers, any number of callers, any reply order
    the barriers permit, callbacks dying at any time: each reply to a request
    sent with callback f is passed to f, or, once f has been collected, to
    the default handler. *)
Theorem C17_reply_to_its_callback : forall a os s i r out f m,
  srun a y_new os = Some s ->
  In (FReply i r, out) (y_log s) -> nth_error (y_wire s) i = Some (WReq (Some f) m) ->
  out = ToCallback f \/ (out = ToDefault /\ In f (k_dead (y_ctl s))).
Proof.
  intros a os s i r out f m H Hin Hn. destruct (routed a os s H) as [Hl _].
  pose proof (proj1 (Forall_forall _ _) Hl _ Hin) as (cb & m' & Hn' & Hc).
  rewrite Hn in Hn'. inversion Hn'; subst. exact Hc.
Qed.
Print Assumptions C17_reply_to_its_callback.

(** C17, exactly once: what arrived plus what is in transit is exactly what
    the switch sent, in order, and nothing in transit is stuck. *)
Theorem C17_exactly_once : forall a os s,
  srun a y_new os = Some s ->
  map fst (y_log s) ++ y_fifo s = y_emit s /\
  (y_fifo s <> [] -> exists s', sstep a s YDeliver = Some s').
Proof.
  intros a os s H. split; [apply (routed a os s H)|]. intros Hne.
  destruct (y_fifo s) as [|f fs] eqn:E; [congruence|]. eapply deliverable; eauto.
Qed.
Print Assumptions C17_exactly_once.

(** Two callers; the switch answers in an order the barrier permits. *)
Definition C17_run : list sop :=
  [YVersion 4; YSend (Some 1%nat) [4; 7; 0; 8; 0; 0; 0; 1] 100;
   YSend (Some 1%nat) [4; 24; 0; 8; 0; 0; 0; 2] 101;
   YSend (Some 2%nat) [4; 5; 0; 8; 0; 0; 0; 3] 102;
   YReply 1 [4; 25; 0; 8; 0; 0; 0; 2]; YReply 0 [4; 8; 0; 8; 0; 0; 0; 1]; YDeliver;
   YBarrier [4; 21; 0; 8; 0; 0; 0; 102]; YReply 3 [4; 1; 0; 12; 0; 0; 0; 3; 0; 1; 0; 1];
   YDie 2; YDeliver; YDeliver; YDeliver].

Example C17_example :
  option_map (fun s => (map snd (y_log s), y_fifo s)) (srun true y_new C17_run) =
  Some ([ToCallback 1; ToCallback 1; Swallowed; ToDefault], []).
Proof. vm_compute. reflexivity. Qed.

(** C18 refuted: with nothing pending, a request without callback followed by
    one with callback 1 share a batch; the reply to the former goes to 1. *)
Theorem C18_plain_requests_refuted :
  exists os s i r out m,
    srun false y_new os = Some s /\ In (FReply i r, out) (y_log s) /\
    nth_error (y_wire s) i = Some (WReq None m) /\ out = ToCallback 1.
Proof.
  exists [YVersion 4; YSend None [4; 7; 0; 8; 0; 0; 0; 1] 100; YSend (Some 1%nat) [4; 5; 0; 8; 0; 0; 0; 2] 101;
          YReply 0 [4; 8; 0; 8; 0; 0; 0; 1]; YDeliver].
  eexists. exists 0%nat, [4; 8; 0; 8; 0; 0; 0; 1], (ToCallback 1), [4; 7; 0; 8; 0; 0; 0; 1].
  split; [vm_compute; reflexivity|]. cbn. auto.
Qed.
Print Assumptions C18_plain_requests_refuted.

(** C18, what holds: such a reply reaches the default handler unless a request
    with a callback was sent later in the same batch (with no barrier in
    between), and then only that callback. *)
Theorem C18_plain_requests_partial : forall a os s i r out m,
  srun a y_new os = Some s ->
  In (FReply i r, out) (y_log s) -> nth_error (y_wire s) i = Some (WReq None m) ->
  out = ToDefault \/
  exists f j m', out = ToCallback f /\ (i < j)%nat /\ nth_error (y_wire s) j = Some (WReq (Some f) m') /\
                 bars_before (y_wire s) j = bars_before (y_wire s) i.
Proof.
  intros a os s i r out m H Hin Hn. destruct (routed a os s H) as [Hl _].
  pose proof (proj1 (Forall_forall _ _) Hl _ Hin) as (cb & m' & Hn' & Hc).
  rewrite Hn in Hn'. inversion Hn'; subst. exact Hc.
Qed.
Print Assumptions C18_plain_requests_partial.

Example C18_example :
  option_map (fun s => map snd (y_log s)) (srun false y_new
    [YVersion 4; YSend (Some 1%nat) [4; 5; 0; 8; 0; 0; 0; 2] 101; YSend None [4; 7; 0; 8; 0; 0; 0; 1] 100;
     YReply 0 [4; 1; 0; 8; 0; 0; 0; 2]; YBarrier [4; 21; 0; 8; 0; 0; 0; 100];
     YReply 2 [4; 8; 0; 8; 0; 0; 0; 1]; YDeliver; YDeliver; YDeliver]) =
  Some [ToCallback 1; Swallowed; ToDefault].
Proof. vm_compute. reflexivity. Qed.

(** C19. The bytes written are those the separation rule prescribes ... *)
Theorem C19_separation : forall a os,
  Forall transport_ok os ->
  k_wire (fst (crun a k_new os)) = map snd (p_wire (sep_run os)).
Proof. exact separated. Qed.
Print Assumptions C19_separation.

(** ... and, separators removed, exactly the accepted messages in order. *)
Theorem C19_transparent : forall a os,
  Forall transport_ok os ->
  map snd (filter fst (p_wire (sep_run os))) = accepted os (snd (crun a k_new os)).
Proof. exact transparent. Qed.
Print Assumptions C19_transparent.

Definition C19_run : list cop :=
  [CVersion 1; CSend None [1; 5; 0; 8; 0; 0; 0; 1] 100 None None;
   CSend (Some 1%nat) [1; 7; 0; 8; 0; 0; 0; 2] 101 None None;
   CSend (Some 2%nat) [1; 7; 0; 8; 0; 0; 0; 3] 102 None None;
   CSend (Some 2%nat) [1; 7; 0; 8; 0; 0; 0; 4] 103 None None; CDie 2;
   CSend None [1; 7; 0; 8; 0; 0; 0; 5] 104 None None].

Example C19_example :
  Forall transport_ok C19_run /\
  k_wire (fst (crun false k_new C19_run)) =
  [[1; 5; 0; 8; 0; 0; 0; 1]; [1; 7; 0; 8; 0; 0; 0; 2]; [1; 18; 0; 8; 0; 0; 0; 102];
   [1; 7; 0; 8; 0; 0; 0; 3]; [1; 7; 0; 8; 0; 0; 0; 4]; [1; 7; 0; 8; 0; 0; 0; 5]].
Proof. split; [repeat constructor|vm_compute; reflexivity]. Qed.

(** C20. Replies to the n-th barrier: passed to that barrier's callback, or
    swallowed when it has none (in particular for separators) or it has been
    collected; never an assertion failure, nor any other exception. *)
Theorem C20_barrier_replies : forall a os s n r out,
  srun a y_new os = Some s -> In (FBar n r, out) (y_log s) ->
  exists cb m, nth_error (bars (y_wire s)) n = Some (WBar cb m) /\
    match cb with
    | Some f => out = ToCallback f \/ (out = Swallowed /\ In f (k_dead (y_ctl s)))
    | None => out = Swallowed
    end.
Proof.
  intros a os s n r out H Hin. destruct (routed a os s H) as [Hl _].
  exact (proj1 (Forall_forall _ _) Hl _ Hin).
Qed.
Print Assumptions C20_barrier_replies.

Theorem C20_never_fails : forall a os s f out,
  srun a y_new os = Some s -> In (f, out) (y_log s) ->
  match out with FailAssert _ | FailExn _ => False | _ => True end.
Proof.
  intros a os s f out H Hin. destruct (routed a os s H) as [Hl _].
  pose proof (proj1 (Forall_forall _ _) Hl _ Hin) as Hc. destruct f as [i r|n r|r]; cbn in Hc.
  - destruct Hc as ([g|] & m & _ & Hc); [destruct Hc as [->|[-> _]]|destruct Hc as [->|(f & j & m' & -> & _)]]; exact I.
  - destruct Hc as ([g|] & m & _ & Hc); [destruct Hc as [->|[-> _]]|subst]; exact I.
  - destruct Hc as [->|[->|(g & ->)]]; exact I.
Qed.
Print Assumptions C20_never_fails.

Example C20_example :
  option_map (fun s => map snd (y_log s)) (srun false y_new
    [YVersion 1; YSend (Some 1%nat) [1; 18; 0; 8; 0; 0; 0; 5] 0; YSend (Some 2%nat) [1; 5; 0; 8; 0; 0; 0; 6] 0;
     YSend None [1; 18; 0; 8; 0; 0; 0; 7] 0; YBarrier [1; 19; 0; 8; 0; 0; 0; 5]; YBarrier [1; 19; 0; 8; 0; 0; 0; 7];
     YDeliver; YDeliver]) = Some [ToCallback 1; Swallowed].
Proof. vm_compute. reflexivity. Qed.

(** C21 refuted: if the transport fails while a barrier request is being sent
    and no other barrier is outstanding, the entry stays queued, and from then
    on - whatever is sent and received - every barrier reply trips the
    assertion, unless it answers the request that was never sent. *)
Theorem C21_failed_send_refuted : forall a s h m bxid o1 e,
  (k_seq s = [] \/ exists c, k_seq s = [SChunk c]) -> (8 <= length m)%nat -> barrier_request m = true ->
  snd (locked_send s h m bxid o1 (Some e)) = Err e /\
  forall ops, (forall r, In (CRecv r) ops -> barrier_reply r = true -> xid_of r <> xid_of m) ->
  forall i r, nth_error ops i = Some (CRecv r) -> (8 <= length r)%nat -> barrier_reply r = true ->
    nth_error (snd (crun a (fst (locked_send s h m bxid o1 (Some e))) ops)) i = Some (CGot (FailAssert AMissing)).
Proof.
  intros a s h m bxid o1 e Hq Hl Hb. destruct (failed_barrier_blocks s h m bxid o1 e Hq Hl Hb) as [B E].
  split; [exact E|]. intros ops Ho. exact (blocked_forever a _ ops _ B Ho).
Qed.
Print Assumptions C21_failed_send_refuted.

(** ... likewise when the failing message is the separator of an ordinary
    request. *)
Theorem C21_failed_separator_refuted : forall a s h m bxid e o2 cb msg,
  k_seq s = [SChunk cb] -> owner (k_dead s) cb <> h -> (8 <= length m)%nat -> barrier_request m = false ->
  separator (k_version s) bxid = Some msg ->
  snd (locked_send s h m bxid (Some e) o2) = Err e /\
  forall ops, (forall r, In (CRecv r) ops -> barrier_reply r = true -> xid_of r <> bxid) ->
  forall i r, nth_error ops i = Some (CRecv r) -> (8 <= length r)%nat -> barrier_reply r = true ->
    nth_error (snd (crun a (fst (locked_send s h m bxid (Some e) o2)) ops)) i = Some (CGot (FailAssert AMissing)).
Proof.
  intros a s h m bxid e o2 cb msg Hq Ho Hl Hb Hm. destruct (failed_separator_blocks s h m bxid e o2 cb msg Hq Ho Hl Hb Hm) as [B E].
  split; [exact E|]. intros ops Hops. exact (blocked_forever a _ ops _ B Hops).
Qed.
Print Assumptions C21_failed_separator_refuted.

(** An instance: the transport fails while the barrier request 10 is being
    sent; the entry stays queued and the reply to the next, successful,
    barrier request trips the assertion, while without the failed send it is
    accepted. *)
Example C21_failed_send_example :
  let failed := CSend None [4; 20; 0; 8; 0; 0; 0; 10] 0 None (Some (SocketError 32)) in
  let rest := [CSend None [4; 20; 0; 8; 0; 0; 0; 11] 0 None None; CRecv [4; 21; 0; 8; 0; 0; 0; 11]] in
  snd (crun false k_new (CVersion 4 :: failed :: rest)) =
    [CNone; CSent (Err (SocketError 32)); CSent (Ok tt); CGot (FailAssert AMissing)] /\
  snd (crun false k_new (CVersion 4 :: rest)) = [CNone; CSent (Ok tt); CGot Swallowed].
Proof. vm_compute. auto. Qed.

(** ... likewise when the failing message is the separator of an ordinary
    request. *)
Example C21_failed_separator_example :
  let first := CSend (Some 1%nat) [4; 5; 0; 8; 0; 0; 0; 1] 0 None None in
  let failed := CSend (Some 2%nat) [4; 5; 0; 8; 0; 0; 0; 2] 10 (Some (SocketError 32)) None in
  let rest := [CSend None [4; 20; 0; 8; 0; 0; 0; 11] 0 None None; CRecv [4; 21; 0; 8; 0; 0; 0; 11]] in
  snd (crun false k_new (CVersion 4 :: first :: failed :: rest)) =
    [CNone; CSent (Ok tt); CSent (Err (SocketError 32)); CSent (Ok tt); CGot (FailAssert AMissing)] /\
  snd (crun false k_new (CVersion 4 :: first :: rest)) = [CNone; CSent (Ok tt); CSent (Ok tt); CGot Swallowed].
Proof. vm_compute. auto. Qed.

(** C21, what holds: a send that fails before it reaches the transport (short
    message, version not negotiated when a separator is needed) changes
    nothing. *)
Theorem C21_early_failure_partial : forall s h m bxid,
  is_ok (snd (locked_send s h m bxid None None)) = false ->
  fst (locked_send s h m bxid None None) = s.
Proof. exact early_failure. Qed.
Print Assumptions C21_early_failure_partial.

(** ... and so does a transport failure of an ordinary message whose callback
    is that of the open batch. *)
Theorem C21_same_batch_partial : forall s h m bxid e q cb,
  (8 <= length m)%nat -> barrier_request m = false ->
  k_seq s = q ++ [SChunk cb] -> owner (k_dead s) cb = h ->
  locked_send s h m bxid None (Some e) = (s, Err e).
Proof. exact same_batch_failure. Qed.
Print Assumptions C21_same_batch_partial.

Example C21_example :
  let s := fst (crun false k_new [CSend (Some 1%nat) [4; 5; 0; 8; 0; 0; 0; 1] 0 None None]) in
  locked_send s (Some 2%nat) [4; 5; 0; 8; 0; 0; 0; 2] 10 None None = (s, Err StructError) /\
  k_seq s = [] ++ [SChunk (Some 1%nat)].
Proof. vm_compute. auto. Qed.

(** C22. What a FEATURES_REPLY does, for every message and version ... *)
Theorem C22_features : forall s m,
  (8 <= length m)%nat ->
  ctl_recv s m =
  if byte_at m 1 =? 6 then
    if match k_version s with Some v => 4 <=? v | None => false end then
      if (22 <=? length m)%nat then
        (mkCch (k_seq s) (k_dead s) (k_version s) (k_wire s) (Some (u64_at m 8)) (Some (byte_at m 21)), Ok tt)
      else (s, Err StructError)
    else
      if (16 <=? length m)%nat then
        (mkCch (k_seq s) (k_dead s) (k_version s) (k_wire s) (Some (u64_at m 8)) (k_aux s), Ok tt)
      else (s, Err StructError)
  else (s, Ok tt).
Proof. exact features. Qed.
Print Assumptions C22_features.

(** ... and no other operation changes the identity. *)
Theorem C22_identity_frame : forall a s o,
  (forall m, o = CRecv m -> (8 <= length m)%nat -> byte_at m 1 <> 6) ->
  k_datapath (fst (cstep a s o)) = k_datapath s /\ k_aux (fst (cstep a s o)) = k_aux s.
Proof. exact identity_frame. Qed.
Print Assumptions C22_identity_frame.

Example C22_example :
  let m := [4; 6; 0; 32; 0; 0; 0; 1; 0; 0; 1; 2; 3; 4; 5; 6; 0; 0; 1; 0; 254; 7; 0; 0; 0; 0; 0; 79; 0; 0; 0; 0] in
  let s := fst (crun false k_new [CVersion 4; CRecv m]) in
  k_datapath s = Some 1108152157446 /\ k_aux s = Some 7.
Proof. vm_compute. auto. Qed.

(** Property C91: messages a switch sends of its own accord
    (twink/base.py:387-471). *)

From Verif Require Import Py Struct P_Struct M_Hello M_Loop M_Controller S_Hello S_Controller P_Hello P_Controller P_Switch P_Unsolicited.
Local Open Scope Z_scope.

(** C91 (full statement, refuted below): in every history, PACKET_IN,
    FLOW_REMOVED and PORT_STATUS go to the application (its handle_async if it
    has one, or else its handler), never to the callback of a request. *)
Definition C91_statement (has_async : bool) : Prop := forall os k m,
  nth_error os k = Some (CRecv m) -> frame_ok m = true -> async_type m = true ->
  nth_error (snd (crun has_async k_new os)) k = Some (CGot ToAsync) \/
  nth_error (snd (crun has_async k_new os)) k = Some (CGot ToDefault).

(** C91. With handle_async it holds in every history: any requests pending,
    any messages received before, conforming or not. *)
Theorem C91_async_handler : forall os k m,
  nth_error os k = Some (CRecv m) -> (8 <= length m)%nat -> In (byte_at m 1) [10; 11; 12] ->
  nth_error (snd (crun true k_new os)) k = Some (CGot ToAsync).
Proof.
  intros os k m H L I. destruct (crun_nth true os k_new k (CRecv m) H) as (s1 & E).
  rewrite E, async_step by assumption. reflexivity.
Qed.
Print Assumptions C91_async_handler.

(** C91. Without handle_async it holds for applications that never give a
    callback: every message that is not a barrier reply goes to the handler. *)
Theorem C91_no_callbacks_partial : forall a os k m,
  Forall (fun o => match o with CSend h _ _ _ _ => h = None | _ => True end) os ->
  nth_error os k = Some (CRecv m) -> frame_ok m = true -> barrier_reply m = false ->
  a && async_type m = false ->
  nth_error (snd (crun a k_new os)) k = Some (CGot ToDefault).
Proof. intros a os k m F. apply run_no_cb; [constructor|exact F]. Qed.
Print Assumptions C91_no_callbacks_partial.

(** C91 (refuted, in general): one request with callback [f] on an idle
    channel, and from then on, without end, every message that is not a
    barrier reply is given to [f] - PACKET_IN, replies to requests of others,
    echo requests - also after the reply to the request has come. *)
Theorem C91_callback_takes_all_refuted : forall v f m x ms,
  (8 <= length m)%nat -> barrier_request m = false ->
  Forall (fun r => frame_ok r = true /\ barrier_reply r = false) ms ->
  snd (crun false k_new (CVersion v :: CSend (Some f) m x None None :: map CRecv ms)) =
    CNone :: CSent (Ok tt) :: map (fun _ => CGot (ToCallback f)) ms.
Proof.
  intros v f m x ms L B F.
  assert (E : cstep false (mkCch [] [] (Some v) [] None None) (CSend (Some f) m x None None) =
    (mkCch [SChunk (Some f)] [] (Some v) [m] None None, CSent (Ok tt))).
  { cbn [cstep]. unfold locked_send. rewrite parse_header_spec by exact L.
    rewrite is_barrier_req_spec, B. reflexivity. }
  cbn [map crun]. change (cstep false k_new (CVersion v)) with (mkCch [] [] (Some v) [] None None, CNone).
  cbn match. rewrite E.
  pose proof (front_takes_all false ms (mkCch [SChunk (Some f)] [] (Some v) [m] None None) f []
    eq_refl (fun h => h)) as R.
  destruct (crun false _ (map CRecv ms)) as [s2 rs]. cbn [snd] in *. rewrite R; [reflexivity|].
  eapply Forall_impl; [|exact F]. intros r [R1 R2]. auto.
Qed.
Print Assumptions C91_callback_takes_all_refuted.

Theorem C91_statement_refuted : ~ C91_statement false.
Proof.
  intros H.
  specialize (H [CVersion 4; CSend (Some 1%nat) [4; 2; 0; 8; 0; 0; 0; 1] 9 None None;
                 CRecv [4; 10; 0; 8; 0; 0; 0; 0]] 2%nat _ eq_refl eq_refl eq_refl).
  vm_compute in H. destruct H as [H|H]; discriminate H.
Qed.
Print Assumptions C91_statement_refuted.

(** C91 (refuted: the reply to a request without callback reaches the
    handler): the reply to the application's own barrier request is swallowed
    in every history, unless the request had a callback. *)
Theorem C91_own_barrier_refuted : forall a os s n r out m,
  srun a y_new os = Some s -> In (FBar n r, out) (y_log s) ->
  nth_error (bars (y_wire s)) n = Some (WBar None m) -> out = Swallowed.
Proof.
  intros a os s n r out m H Hin Hn. destruct (routed a os s H) as [Hl _].
  destruct (proj1 (Forall_forall _ _) Hl _ Hin) as (cb & m' & N & C).
  rewrite Hn in N. injection N as <- <-. exact C.
Qed.
Print Assumptions C91_own_barrier_refuted.

Example C91_example :
  let pin := [4; 10; 0; 8; 0; 0; 0; 0] in
  let os := [CVersion 4; CSend (Some 1%nat) [4; 2; 0; 8; 0; 0; 0; 1] 9 None None; CRecv pin;
             CRecv [4; 3; 0; 8; 0; 0; 0; 1]; CRecv pin] in
  snd (crun true k_new os) = [CNone; CSent (Ok tt); CGot ToAsync; CGot (ToCallback 1); CGot ToAsync] /\
  snd (crun false k_new os) =
    [CNone; CSent (Ok tt); CGot (ToCallback 1); CGot (ToCallback 1); CGot (ToCallback 1)] /\
  snd (crun false k_new [CVersion 4; CSend None [4; 20; 0; 8; 0; 0; 0; 1] 9 None None;
     CSend None [4; 2; 0; 8; 0; 0; 0; 2] 9 None None; CRecv pin; CRecv [4; 21; 0; 8; 0; 0; 0; 1];
     CRecv [4; 3; 0; 8; 0; 0; 0; 2]]) =
    [CNone; CSent (Ok tt); CSent (Ok tt); CGot ToDefault; CGot Swallowed; CGot ToDefault] /\
  frame_ok pin = true /\ async_type pin = true /\ barrier_reply pin = false /\
  option_map (fun s => y_log s) (srun false y_new
    [YVersion 4; YSend None [4; 20; 0; 8; 0; 0; 0; 7] 0; YBarrier [4; 21; 0; 8; 0; 0; 0; 7]; YDeliver]) =
    Some [(FBar 0 [4; 21; 0; 8; 0; 0; 0; 7], Swallowed)].
Proof. cbv zeta. repeat split; vm_compute; reflexivity. Qed.

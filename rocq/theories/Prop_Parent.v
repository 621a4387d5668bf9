(** C35, C36: monitors and jack-in clients of ParentChannel. *)

From Verif Require Import Py M_Hello M_Loop M_Controller M_Parent S_Hello S_Controller S_Parent P_Switch P_Parent.
From Coq Require Import Permutation.
Local Open Scope Z_scope.

(** C35. Full claim: whatever happens, each registered monitor receives, in
    order and unmodified, every non-HELLO message, HELLOs are not forwarded,
    and the channel's own handler gets all messages.

    Proved when no send to a monitor fails and the switch says HELLO once:
    for every history of messages, registrations and deregistrations, and
    every order in which the set of monitors is listed. *)
Theorem C35_monitors_partial : forall order jackin hi fail os c,
  (forall l, Permutation (order l) l) ->
  (8 <= length hi)%nat -> is_hello hi = true ->
  Forall (fun o => match o with
    | NRecv m fail => frame_ok m = true /\ is_hello m = false /\ forall d, fail d = None
    | _ => True end) os ->
  exists s, nrun order (parent_new jackin true) (NRecv hi fail :: os) = (s, Ok tt) /\
    inbox (n_out s) c = seen_by c false os /\ n_got s = hi :: received os.
Proof. exact monitors_see. Qed.
Print Assumptions C35_monitors_partial.

(** Refuted: in every state, a monitor whose connection fails, when it is
    listed first, keeps the message from the other monitors and from the
    channel's own handler; the exception ends the switch's connection. *)
Theorem C35_failing_monitor_refuted : forall order fail s m c cs e,
  frame_ok m = true -> is_hello m = false -> order (monitors s) = c :: cs -> fail c = Some e ->
  let '(s', r) := parent_recv order fail s m in
  r = Err e /\ n_out s' = n_out s /\ n_got s' = n_got s.
Proof. exact monitor_failure. Qed.
Print Assumptions C35_failing_monitor_refuted.

(** ... such a state is reachable. *)
Example C35_failing_example :
  let hi := [4; 0; 0; 8; 0; 0; 0; 1] in let m := [4; 10; 0; 8; 0; 0; 0; 2] in
  let '(s, r) := nrun (fun l => l) (parent_new false true)
    [NRecv hi (fun _ => None); NJoin 1; NJoin 2; NRecv m (fun c => if (c =? 1)%nat then Some (SocketError 32) else None)] in
  r = Err (SocketError 32) /\ monitors s = [1; 2]%nat /\ n_out s = [] /\ n_got s = [hi].
Proof. vm_compute. auto. Qed.

(** Refuted: a second HELLO ends the connection: the helper socket's name is
    taken (EADDRINUSE).  The own handler never sees that HELLO. *)
Theorem C35_second_hello_refuted : exists s,
  nrun (fun l => l) (parent_new false true)
    [NRecv [4; 0; 0; 8; 0; 0; 0; 1] (fun _ => None); NJoin 1; NRecv [4; 0; 0; 8; 0; 0; 0; 2] (fun _ => None)] =
    (s, Err (SocketError 98)) /\
  n_got s = [[4; 0; 0; 8; 0; 0; 0; 1]].
Proof. eexists. split; [vm_compute; reflexivity|]. reflexivity. Qed.
Print Assumptions C35_second_hello_refuted.

(** Refuted: when the datapath id changes in between, the second HELLO creates
    a new monitor server, and monitors already connected get nothing more. *)
Theorem C35_replaced_monitors_refuted : exists s,
  let fr d := [1; 6; 0; 24; 0; 0; 0; 3; 0; 0; 0; 0; 0; 0; 0; d; 0; 0; 0; 0; 0; 0; 0; 0] in
  nrun (fun l => l) (parent_new false true)
    [NRecv [1; 0; 0; 8; 0; 0; 0; 1] (fun _ => None); NJoin 1; NRecv (fr 7) (fun _ => None);
     NRecv (fr 9) (fun _ => None); NRecv [1; 0; 0; 8; 0; 0; 0; 2] (fun _ => None);
     NRecv [1; 10; 0; 8; 0; 0; 0; 5] (fun _ => None)] = (s, Ok tt) /\
  inbox (n_out s) 1%nat = [fr 7; fr 9] /\ In (0%nat, 1%nat) (n_members s).
Proof. eexists. split; [vm_compute; reflexivity|]. vm_compute. auto. Qed.
Print Assumptions C35_replaced_monitors_refuted.

Example C35_example :
  let hi := [4; 0; 0; 8; 0; 0; 0; 1] in let m x := [4; 10; 0; 8; 0; 0; 0; x] in
  let '(s, r) := nrun (@rev nat) (parent_new true true)
    [NRecv hi (fun _ => None); NJoin 1; NRecv (m 1) (fun _ => None); NJoin 2; NRecv (m 2) (fun _ => None);
     NLeave 1; NRecv (m 3) (fun _ => None)] in
  r = Ok tt /\ inbox (n_out s) 1%nat = [m 1; m 2] /\ inbox (n_out s) 2%nat = [m 2; m 3] /\
  n_got s = [hi; m 1; m 2; m 3].
Proof. vm_compute. auto. Qed.

(** C36, requests. Full claim: every non-HELLO message of a client is
    forwarded to the switch exactly once, unmodified, in order.  Proved for
    all but ECHO_REQUESTs: the messages on the wire tagged with client f are
    exactly f's messages, HELLO (0) and ECHO_REQUEST (2) removed. *)
Theorem C36_forwarded_partial : forall clients a f v os s,
  clients f = true -> 0 <= v < 256 -> Forall jop_ok os ->
  jrun clients a j_new (JSys (YVersion v) :: os) = Some s ->
  wired (y_wire (j_sys s)) f =
  filter (fun m => negb (byte_at m 1 =? 0) && negb (byte_at m 1 =? 2))
    (flat_map (fun o => match o with JClient g m _ => if (g =? f)%nat then [m] else [] | _ => [] end) os).
Proof.
  intros clients a f v os s Hf Hv Hok H. rewrite (forwarded_once clients a f v os s Hf Hv Hok H).
  rewrite (in_is _ _ _ _ _ H). cbn [j_new j_in Datatypes.app flat_map]. f_equal.
  clear. induction os as [|[g m b|o|x] os IH]; try reflexivity; try exact IH.
  cbn [flat_map Datatypes.app]. unfold inbox in *. cbn [filter fst]. destruct (g =? f)%nat; cbn; rewrite IH; reflexivity.
Qed.
Print Assumptions C36_forwarded_partial.

(** Refuted for ECHO_REQUEST: answered by the server itself. *)
Theorem C36_echo_not_forwarded_refuted : exists s,
  jrun (fun f => (f =? 1)%nat) false j_new [JSys (YVersion 4); JClient 1 [4; 2; 0; 8; 0; 0; 0; 9] 5] = Some s /\
  y_wire (j_sys s) = [] /\ j_echo s = [(1%nat, [4; 3; 0; 8; 0; 0; 0; 9])].
Proof. eexists. split; [vm_compute; reflexivity|]. split; reflexivity. Qed.
Print Assumptions C36_echo_not_forwarded_refuted.

(** C36, replies. With a barrier-respecting switch, each reply to a client's
    request is sent to that client alone, unmodified (or to nobody when the
    client has gone or the parent's loop has ended on a failing client); a
    reply to a request of anybody else's callback is sent to no client. *)
Theorem C36_reply_to_its_client : forall clients a os s i r w f m,
  jrun clients a j_new os = Some s -> In (FReply i r, w) (j_back s) ->
  nth_error (y_wire (j_sys s)) i = Some (WReq (Some f) m) ->
  if clients f
  then w = [(f, r)] \/ (w = [] /\ (In f (k_dead (y_ctl (j_sys s))) \/ j_end s <> None))
  else w = [].
Proof.
  intros clients a os s i r w f m H Hin Hn. pose proof (back_reply clients a os s i r w f m H Hin Hn) as Hb.
  destruct (clients f); [|exact Hb]. destruct Hb as [Hb|[Hb [Hc|Hc]]]; auto. right. split; [exact Hb|]. right.
  unfold ended in Hc. destruct (j_end s); [discriminate|discriminate].
Qed.
Print Assumptions C36_reply_to_its_client.

(** The same for replies to barriers; those to separating barriers reach no
    client. *)
Theorem C36_barrier_reply_to_its_client : forall clients a os s n r w cb m,
  jrun clients a j_new os = Some s -> In (FBar n r, w) (j_back s) ->
  nth_error (bars (y_wire (j_sys s))) n = Some (WBar cb m) ->
  match cb with
  | Some f =>
      if clients f
      then w = [(f, r)] \/ (w = [] /\ (In f (k_dead (y_ctl (j_sys s))) \/ j_end s <> None))
      else w = []
  | None => w = []
  end.
Proof.
  intros clients a os s n r w cb m H Hin Hn. pose proof (back_barrier clients a os s n r w cb m H Hin Hn) as Hb.
  destruct cb as [f|]; [|exact Hb].
  destruct (clients f); [|exact Hb]. destruct Hb as [Hb|[Hb [Hc|Hc]]]; auto. right. split; [exact Hb|]. right.
  unfold ended in Hc. destruct (j_end s); [discriminate|discriminate].
Qed.
Print Assumptions C36_barrier_reply_to_its_client.

(** Each message of the switch is dealt with once, in order. *)
Theorem C36_exactly_once : forall clients a os s,
  jrun clients a j_new os = Some s -> map fst (j_back s) ++ y_fifo (j_sys s) = y_emit (j_sys s).
Proof. exact back_all. Qed.
Print Assumptions C36_exactly_once.

(** Refuted, strictly: a reply to a request that the parent itself sent
    without callback may be sent to a client (see C18). *)
Theorem C36_foreign_reply_refuted : exists os s r m,
  jrun (fun f => (f =? 1)%nat) false j_new os = Some s /\
  In (FReply 0 r, [(1%nat, r)]) (j_back s) /\ nth_error (y_wire (j_sys s)) 0 = Some (WReq None m).
Proof.
  exists [JSys (YVersion 4); JSys (YSend None [4; 7; 0; 8; 0; 0; 0; 1] 5); JClient 1 [4; 5; 0; 8; 0; 0; 0; 2] 6;
    JSys (YReply 0 [4; 8; 0; 8; 0; 0; 0; 1]); JDeliver None].
  eexists. exists [4; 8; 0; 8; 0; 0; 0; 1], [4; 7; 0; 8; 0; 0; 0; 1].
  split; [vm_compute; reflexivity|]. split; [left; reflexivity|reflexivity].
Qed.
Print Assumptions C36_foreign_reply_refuted.

(** Refuted: a client whose connection fails ends the loop of the switch's
    connection; nothing more is delivered to anybody. *)
Theorem C36_failing_client_refuted : forall e, exists os s,
  jrun (fun f => (f =? 1)%nat) false j_new os = Some s /\ j_end s = Some e /\ y_fifo (j_sys s) <> [] /\
  forall fail, jstep (fun f => (f =? 1)%nat) false s (JDeliver fail) = None.
Proof.
  intros e. exists [JSys (YVersion 4); JClient 1 [4; 5; 0; 8; 0; 0; 0; 2] 6; JSys (YReply 0 [4; 1; 0; 8; 0; 0; 0; 2]);
    JSys (YAsync [4; 10; 0; 8; 0; 0; 0; 2]); JDeliver (Some e)].
  eexists. split; [vm_compute; reflexivity|]. split; [reflexivity|]. split; [discriminate|reflexivity].
Qed.
Print Assumptions C36_failing_client_refuted.

(** Two clients and another caller; replies out of order within a batch. *)
Example C36_example :
  let cl f := ((f =? 1) || (f =? 2))%nat%bool in
  option_map (fun s => (map snd (j_back s), wired (y_wire (j_sys s)) 1, wired (y_wire (j_sys s)) 2))
    (jrun cl true j_new
      [JSys (YVersion 4); JClient 1 [4; 0; 0; 8; 0; 0; 0; 1] 0; JClient 1 [4; 5; 0; 8; 0; 0; 0; 2] 6;
       JClient 1 [4; 7; 0; 8; 0; 0; 0; 3] 6; JClient 2 [4; 5; 0; 8; 0; 0; 0; 2] 7; JSys (YSend (Some 9%nat) [4; 5; 0; 8; 0; 0; 0; 4] 8);
       JSys (YReply 1 [4; 8; 0; 8; 0; 0; 0; 3]); JSys (YReply 0 [4; 1; 0; 8; 0; 0; 0; 2]); JDeliver None; JDeliver None;
       JSys (YBarrier [4; 21; 0; 8; 0; 0; 0; 7]); JSys (YReply 3 [4; 1; 0; 8; 0; 0; 0; 2]); JDeliver None; JDeliver None;
       JSys (YBarrier [4; 21; 0; 8; 0; 0; 0; 8]); JSys (YReply 5 [4; 1; 0; 8; 0; 0; 0; 4]); JDeliver None; JDeliver None]) =
  Some ([[(1%nat, [4; 8; 0; 8; 0; 0; 0; 3])]; [(1%nat, [4; 1; 0; 8; 0; 0; 0; 2])]; []; [(2%nat, [4; 1; 0; 8; 0; 0; 0; 2])]; []; []],
        [[4; 5; 0; 8; 0; 0; 0; 2]; [4; 7; 0; 8; 0; 0; 0; 3]], [[4; 5; 0; 8; 0; 0; 0; 2]]).
Proof. vm_compute. reflexivity. Qed.

(** ** C107: the standalone controller, from bytes to bytes *)

From Coq Require Import String Permutation.
From Verif Require Import Py Struct P_Struct M_Channel M_Hello M_Controller M_Class M_Dispatch M_Main
  S_Framing S_Hello S_Loop S_Class S_Main P_Channel P_Hello P_Loop P_Class P_Main.
Local Open Scope Z_scope.
Local Open Scope list_scope.

(** C107. `python -m twink`, one connection: however the bytes of the messages
    [ms] are cut into reads and delayed, and whatever the messages are, what
    it writes is its HELLO and then what [talk] says, the application sees what
    [talk] says, and it ends as [talk] says; after the end of the stream, or a
    refusal, the connection is closed. *)
Theorem C107_serves : forall order sxid xid bxid fin tl ms es junk fuel,
  (forall l : list Z, Permutation l (order l)) -> u32 sxid -> u32 xid -> ending fin tl ->
  quiet es -> Forall msg_wf ms -> Forall bytes_ok ms -> delivered es = concat ms ++ junk -> (length junk < 8)%nat ->
  (length ms < fuel)%nat ->
  exists c w h e, serve_main order sxid xid bxid fuel (es ++ tl) = (c, e) /\ talk xid fin false ms w h e /\
    k_wire (w_k c) = hello4 sxid :: w /\ w_seen c = h /\ (e = LReturned -> closed (w_chan c) = true).
Proof.
  intros order sxid xid bxid fin tl ms es junk fuel Ho Hs Hx En Hq Hw Hb Hd Hj Hf.
  unfold serve_main, conn_start. rewrite main_hello by exact Hs. cbn [w_k k_sends].
  rewrite send_idle; [|unfold hello4; rewrite !app_length, be_length; cbn; lia|reflexivity|vm_compute; discriminate|vm_compute; discriminate].
  cbn [w_chan w_seen].
  destruct (main_talk order xid bxid Ho Hx fin tl En ms (mkChan [] false es 0 0) false (k_add k_new (hello4 sxid)) [] junk fuel)
    as (c & w & h & e & L & T & W & X); try assumption; [reflexivity|split; reflexivity|].
  cbn [buf closed envs nreads nclose] in L. unfold new_chan. rewrite L.
  exists (match e with LReturned => conn_close c | _ => c end), w, h, e.
  split; [destruct e; reflexivity|]. split; [exact T|].
  split; [destruct e; exact W|]. split; [destruct e; exact X|].
  intros ->. unfold conn_close, logging_close. cbn [w_chan]. destruct (closed (w_chan c)) eqn:E; [exact E|reflexivity].
Qed.
Print Assumptions C107_serves.

Lemma talk_session : forall xid fin m ms w h e,
  hello_wf m -> advertises m 4 ->
  Forall (fun x => byte_at x 1 <> 0 /\ (byte_at x 1 = 6 -> 22 <= zlen x)) ms ->
  talk xid fin false (m :: ms) w h e ->
  w = map (echo_reply 4) (filter is_echo ms) /\ h = m :: filter (fun x => negb (is_echo x)) ms /\ e = fin.
Proof.
  intros xid fin m ms w h e Hw Ha F T.
  assert (Hz : byte_at m 1 = 0) by (destruct Hw as [_ [Z _]]; exact Z).
  assert (G : forall ms w h e, Forall (fun x => byte_at x 1 <> 0 /\ (byte_at x 1 = 6 -> 22 <= zlen x)) ms -> talk xid fin true ms w h e ->
    w = map (echo_reply 4) (filter is_echo ms) /\ h = filter (fun x => negb (is_echo x)) ms /\ e = fin).
  { clear. induction ms as [|x ms IH]; intros w h e F T.
    - inversion T; subst. auto.
    - inversion F as [|? ? [F1 F2] F3]; subst.
      inversion T as [v|v m1 ms1 w1 h1 e1 A1 A2 A3|v m1 ms1 A1 A2|v m1 ms1 e1 A1 A2 A3|m1 ms1 w1 h1 e1 A1 A2|m1 ms1 A1
        |v m1 ms1 A1 A2|v m1 ms1 w1 h1 e1 A1 A2 A3|v m1 ms1 w1 h1 e1 A1 A2 A3 A4]; subst.
      + exfalso. apply F1. destruct A1 as [_ [Z _]]. exact Z.
      + exfalso. apply F1. destruct A1 as [_ [Z _]]. exact Z.
      + contradiction.
      + destruct (IH _ _ _ F3 A2) as [-> [-> ->]]. assert (Ee : is_echo x = true) by (unfold is_echo; rewrite A1; reflexivity). cbn [filter]. rewrite Ee. auto.
      + specialize (F2 A1). lia.
      + destruct (IH _ _ _ F3 A3) as [-> [-> ->]]. assert (Ee : is_echo x = false) by (unfold is_echo; rewrite A1; reflexivity). cbn [filter]. rewrite Ee. auto.
      + destruct (IH _ _ _ F3 A4) as [-> [-> ->]]. assert (Ee : is_echo x = false) by (unfold is_echo; destruct (Z.eqb_spec (byte_at x 1) 2); [contradiction|reflexivity]). cbn [filter]. rewrite Ee. auto. }
  inversion T as [v|v m1 ms1 w1 h1 e1 A1 A2 A3|v m1 ms1 A1 A2|v m1 ms1 e1 A1 A2 A3|m1 ms1 w1 h1 e1 A1 A2|m1 ms1 A1
        |v m1 ms1 A1 A2|v m1 ms1 w1 h1 e1 A1 A2 A3|v m1 ms1 w1 h1 e1 A1 A2 A3 A4]; subst; try contradiction; try congruence; try lia.
  destruct (G _ _ _ _ F A3) as [-> [-> ->]]. auto.
Qed.

(** C107. A switch that says HELLO for 1.3 first, once, gets the controller's
    HELLO and one reply for each echo request, in order, nothing else; the
    application gets the other messages. *)
Theorem C107_session : forall order sxid xid bxid fin tl m ms es junk fuel,
  (forall l : list Z, Permutation l (order l)) -> u32 sxid -> u32 xid -> ending fin tl ->
  quiet es -> Forall msg_wf (m :: ms) -> Forall bytes_ok (m :: ms) -> delivered es = concat (m :: ms) ++ junk -> (length junk < 8)%nat ->
  (length (m :: ms) < fuel)%nat ->
  hello_wf m -> advertises m 4 ->
  Forall (fun x => byte_at x 1 <> 0 /\ (byte_at x 1 = 6 -> 22 <= zlen x)) ms ->
  exists c, serve_main order sxid xid bxid fuel (es ++ tl) = (c, fin) /\
    k_wire (w_k c) = hello4 sxid :: map (echo_reply 4) (filter is_echo ms) /\
    w_seen c = m :: filter (fun x => negb (is_echo x)) ms.
Proof.
  intros order sxid xid bxid fin tl m ms es junk fuel Ho Hs Hx En Hq Hw Hb Hd Hj Hf Hh Ha F.
  destruct (C107_serves order sxid xid bxid fin tl (m :: ms) es junk fuel) as (c & w & h & e & S1 & T & W & X & _); try assumption.
  destruct (talk_session _ _ _ _ _ _ _ Hh Ha F T) as [-> [-> ->]]. exists c. auto.
Qed.
Print Assumptions C107_session.

(** C107. Whatever is received, it writes nothing but replies to echo requests
    received, in order, and at the end perhaps a refusal. *)
Theorem C107_writes_only : forall xid fin v ms w h e, talk xid fin v ms w h e ->
  exists n last, w = map (echo_reply 4) (filter is_echo (firstn n ms)) ++ last /\
    (last = [] \/ exists m, In m ms /\ hello_wf m /\ ~ advertises m 4 /\ byte_at (concat last) 1 = 1 /\ length last = 1%nat).
Proof.
  intros xid fin v ms w h e T.
  assert (K : forall m ms w1, is_echo m = false ->
    (exists n last, w1 = map (echo_reply 4) (filter is_echo (firstn n ms)) ++ last /\
      (last = [] \/ exists x, In x ms /\ hello_wf x /\ ~ advertises x 4 /\ byte_at (concat last) 1 = 1 /\ length last = 1%nat)) ->
    exists n last, w1 = map (echo_reply 4) (filter is_echo (firstn n (m :: ms))) ++ last /\
      (last = [] \/ exists x, In x (m :: ms) /\ hello_wf x /\ ~ advertises x 4 /\ byte_at (concat last) 1 = 1 /\ length last = 1%nat)).
  { intros m ms0 w1 E [n [last [-> H]]]. exists (S n), last. cbn [firstn filter]. rewrite E. split; [reflexivity|].
    destruct H as [H|[x [H1 H2]]]; [left; exact H|right; exists x; split; [right; exact H1|exact H2]]. }
  induction T as [v|v m1 ms1 w1 h1 e1 A1 A2 A3 IH|v m1 ms1 A1 A2|v m1 ms1 e1 A1 A2 A3|m1 ms1 w1 h1 e1 A1 A2 IH|m1 ms1 A1
        |v m1 ms1 A1 A2|v m1 ms1 w1 h1 e1 A1 A2 A3 IH|v m1 ms1 w1 h1 e1 A1 A2 A3 A4 IH];
    try (exists 0%nat, []; split; [reflexivity|left; reflexivity]).
  - apply K; [unfold is_echo; destruct A1 as [_ [-> _]]; reflexivity|exact IH].
  - exists 0%nat. eexists. split; [reflexivity|]. right. exists m1. split; [left; reflexivity|]. split; [exact A1|]. split; [exact A2|].
    split; reflexivity.
  - destruct IH as [n [last [-> H]]]. exists (S n), last. assert (Ee : is_echo m1 = true) by (unfold is_echo; rewrite A1; reflexivity). cbn [firstn filter]. rewrite Ee. split; [reflexivity|].
    destruct H as [H|[x [H1 H2]]]; [left; exact H|right; exists x; split; [right; exact H1|exact H2]].
  - apply K; [unfold is_echo; rewrite A1; reflexivity|exact IH].
  - apply K; [unfold is_echo; destruct (Z.eqb_spec (byte_at m1 1) 2); [contradiction|reflexivity]|exact IH].
Qed.
Print Assumptions C107_writes_only.

Lemma talk_early : forall xid fin m ms w h e, byte_at m 1 = 2 ->
  talk xid fin false (m :: ms) w h e -> w = [] /\ h = [] /\ e = LRaised StructError.
Proof.
  intros xid fin m ms w h e A T.
  inversion T as [v|v m1 ms1 w1 h1 e1 A1 A2 A3|v m1 ms1 A1 A2|v m1 ms1 e1 A1 A2 A3|m1 ms1 w1 h1 e1 A1 A2|m1 ms1 A1
        |v m1 ms1 A1 A2|v m1 ms1 w1 h1 e1 A1 A2 A3|v m1 ms1 w1 h1 e1 A1 A2 A3 A4]; subst; auto; try contradiction; try lia.
  - destruct A1 as [_ [Z _]]. lia.
  - destruct A1 as [_ [Z _]]. lia.
Qed.

(** C107 (refuted: it goes on serving a switch whose messages are well formed
    and which agrees on the version): an echo request before HELLO ends the
    thread with struct.error; neither it nor anything after it is answered. *)
Theorem C107_early_echo_refuted : forall order sxid xid bxid fin tl m ms es junk fuel,
  (forall l : list Z, Permutation l (order l)) -> u32 sxid -> u32 xid -> ending fin tl ->
  quiet es -> Forall msg_wf (m :: ms) -> Forall bytes_ok (m :: ms) -> delivered es = concat (m :: ms) ++ junk -> (length junk < 8)%nat ->
  (length (m :: ms) < fuel)%nat ->
  byte_at m 1 = 2 ->
  exists c, serve_main order sxid xid bxid fuel (es ++ tl) = (c, LRaised StructError) /\
    k_wire (w_k c) = [hello4 sxid] /\ w_seen c = [].
Proof.
  intros order sxid xid bxid fin tl m ms es junk fuel Ho Hs Hx En Hq Hw Hb Hd Hj Hf Hh.
  destruct (C107_serves order sxid xid bxid fin tl (m :: ms) es junk fuel) as (c & w & h & e & S1 & T & W & X & _); try assumption.
  destruct (talk_early _ _ _ _ _ _ _ Hh T) as [-> [-> ->]]. exists c. auto.
Qed.
Print Assumptions C107_early_echo_refuted.

(** HELLO for 1.0 and 1.3, an echo request in two reads, PACKET_IN; then quiet. *)
Example C107_example :
  let hello13 := [4; 0; 0; 16; 0; 0; 0; 9; 0; 1; 0; 8; 0; 0; 0; 18] in
  let echo := [4; 2; 0; 10; 0; 0; 0; 7; 65; 66] in let pin := [4; 10; 0; 8; 0; 0; 0; 1] in
  let es := [ERead (RData hello13); ERead RTimeout; ERead (RData [4; 2; 0]); ERead (RData (skipn 3 echo ++ pin))] in
  quiet es /\ Forall msg_wf [hello13; echo; pin] /\ Forall bytes_ok [hello13; echo; pin] /\ delivered es = concat [hello13; echo; pin] ++ [] /\
  hello_wf hello13 /\ advertises hello13 4 /\
  (let '(c, e) := serve_main (fun l => l) 5 6 7 9 es in (k_wire (w_k c), w_seen c, e)) =
    ([[4; 0; 0; 16; 0; 0; 0; 5; 0; 1; 0; 8; 0; 0; 0; 16]; [4; 3; 0; 10; 0; 0; 0; 7; 65; 66]], [hello13; pin], LWaiting) /\
  (let '(c, e) := serve_main (fun l => l) 5 6 7 9 [ERead (RData echo)] in (k_wire (w_k c), e, closed (w_chan c))) =
    ([[4; 0; 0; 16; 0; 0; 0; 5; 0; 1; 0; 8; 0; 0; 0; 16]], LRaised StructError, false).
Proof.
  cbv zeta. split; [|split; [|split; [|split; [|split; [|split; [|split]]]]]].
  - repeat apply Forall_cons; try apply Forall_nil.
    + right. do 2 eexists. reflexivity.
    + left. left. reflexivity.
    + right. do 2 eexists. reflexivity.
    + right. do 2 eexists. reflexivity.
  - repeat constructor; unfold announced; cbn; lia.
  - repeat constructor; unfold byte_ok; lia.
  - reflexivity.
  - split; [cbn; lia|]. split; [reflexivity|]. right. vm_compute. repeat split; congruence || lia.
  - right. split; [vm_compute; congruence|]. split; [vm_compute; split; congruence|]. vm_compute. reflexivity.
  - vm_compute. reflexivity.
  - vm_compute. reflexivity.
Qed.

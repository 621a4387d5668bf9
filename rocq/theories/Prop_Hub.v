(** ** C99 to C101: the example programs *)

From Coq Require Import Lia.
From Verif Require Import Py M_Example S_Hello S_Oxm S_Wire4 S_Msg4 S_Bess S_Hub P_Hub P_Hub2 P_Hub3 P_Hub4.
Local Open Scope Z_scope.
Local Open Scope list_scope.

(** *** C99: what the example switch answers *)

(** To every well-formed message: features, configuration and flows are told with the transaction
    id of the request, if the transport takes them; to everything else nothing is said, and
    nothing fails. *)
Theorem C99_answers : forall xid m o, good (xid, m) ->
  ex_proc (mwire xid m) o =
  match ex_answer m with
  | Some r => match o with None => ([mwire xid r], Ok tt) | Some e => ([], Err e) end
  | None => ([], Ok tt)
  end.
Proof. exact ex_proc_answer. Qed.
Print Assumptions C99_answers.

Lemma barrier_good : good (5, MPlain 20 []).
Proof.
  split; [unfold u32; cbn; lia|]. split; [|exact I]. split; [constructor; [exact I|constructor]|]. split; [vm_compute; discriminate|].
  split; [unfold u8; lia|]. cbn. lia.
Qed.
Lemma features_good : good (9, MPlain 5 []).
Proof.
  split; [unfold u32; cbn; lia|]. split; [|exact I]. split; [constructor; [exact I|constructor]|]. split; [vm_compute; discriminate|].
  split; [unfold u8; lia|]. cbn. lia.
Qed.
Example C99_answers_example :
  good (9, MPlain 5 []) /\
  ex_proc [4; 5; 0; 8; 0; 0; 0; 9] None =
    ([[4; 6; 0; 32; 0; 0; 0; 9; 0; 0; 0; 0; 0; 0; 0; 1; 0; 0; 0; 2; 3; 0; 0; 0; 0; 0; 0; 15; 0; 0; 0; 0]], Ok tt).
Proof. split; [exact features_good|]. change [4; 5; 0; 8; 0; 0; 0; 9] with (mwire 9 (MPlain 5 [])). rewrite (C99_answers 9 _ None features_good). vm_compute. reflexivity. Qed.

(** The address of its one flow: four bytes were given for six; two zeros follow. *)
Theorem C99_flow_padded :
  exists flow, ex_flow = Ok flow /\
    flow = flow_stat_wire (FlowStat 0 10 20 30 40 50 0 1 2 3
      (Match 1 (tlv (MF 0 (VInt 222) None) ++ tlv (MF 4 (VBytes [0; 17; 34; 51; 0; 0]) None))) [InActions 4 [AcOutput 1111 65509]]).
Proof. eexists. split; [exact ex_flow_eq|reflexivity]. Qed.
Print Assumptions C99_flow_padded.

(** Claim: every request is answered.  BARRIER_REQUEST is not. *)
Theorem C99_requests_refuted : ~ (forall xid m, good (xid, m) -> In (mtype m) [5; 7; 18; 20] -> fst (ex_proc (mwire xid m) None) <> []).
Proof.
  intros H. apply (H 5 (MPlain 20 []) barrier_good); [cbn; auto|]. rewrite (C99_answers 5 _ None barrier_good). reflexivity.
Qed.
Print Assumptions C99_requests_refuted.

(** Claim: the script serves.  twink has no serve_forever (twink.sched has). *)
Theorem C99_script_refuted : ex_main twink_names = NotStarted AttributeError.
Proof. vm_compute. reflexivity. Qed.
Print Assumptions C99_script_refuted.

(** *** C100: the hub's rules *)

(** A HELLO makes a bridge that has learned nothing, of every port of the switch. *)
Theorem C100_hello : forall init xid es ports, good (xid, MHello es) -> Forall (fun p => 0 <= p) ports ->
  exists cs, hub_handle init (mwire xid (MHello es)) ports = (cs, true, Ok tt) /\
    do_cmds (mkSw [] []) cs = Some (mkSw [B0; B1; B2] [(1, ports)]).
Proof.
  intros init xid es ports Hg Hp. exists (base_cmds ports). split; [apply hub_hello; exact Hg|].
  destruct (can_start ports Hp) as (x' & es' & w & Hg' & D & E). rewrite hub_hello in D by exact Hg'. cbn [fst] in D. rewrite D. injection E as ->. reflexivity.
Qed.
Print Assumptions C100_hello.

Example C100_hello_example : fst (fst (hub_handle false [4; 0; 0; 8; 0; 0; 0; 1] [1; 12])) =
  [ HOfctl "add-group" [ascii_bytes "group_id=1,type=all,bucket=output:1,bucket=output:12"];
    HOfctl "add-flow" [ascii_bytes "table=0,priority=1,  actions=controller,goto_table:1"];
    HOfctl "add-flow" [ascii_bytes "table=1,priority=3,  dl_dst=01:00:00:00:00:00/01:00:00:00:00:00,  actions=group:1"];
    HOfctl "add-flow" [ascii_bytes "table=1,priority=1,  actions=group:1"] ].
Proof. vm_compute. reflexivity. Qed.

(** A PACKET_IN of any frame, whatever else its match tells, adds the two flows of the station,
    as ovs-ofctl reads them, then releases the buffer. *)
Theorem C100_learns : forall w xid b t r i c ty pre post payload x dx,
  let m := MPacketIn b t r i c (Match ty (concat (map tlv (pre ++ MF 0 (VInt (fr_port x)) None :: post)))) (fr_dst x ++ fr_src x ++ payload) in
  good (xid, m) -> Forall mf_ok pre -> Forall mf_ok post -> Forall (fun f => mf_field f <> 0) pre -> frame_ok x ->
  0 <= dx < 4294967296 ->
  exists rule0 rule1, hub_async true dx (mwire xid m) =
      ([HOfctl "add-flow" [rule0]; HOfctl "add-flow" [rule1]; HSend (mwire dx (MPacketOut b (fr_port x) [] [])); HOfctl "dump-flows" []], Ok tt) /\
    read_rule rule0 = Some (L0 (fr_src x) (fr_port x)) /\ read_rule rule1 = Some (L1 (fr_src x) (fr_port x)) /\
    do_cmds w [HOfctl "add-flow" [rule0]; HOfctl "add-flow" [rule1]] =
      Some (add_flow (add_flow w (L0 (fr_src x) (fr_port x))) (L1 (fr_src x) (fr_port x))).
Proof.
  intros w xid b t r i c ty pre post payload x dx m Hg H1 H2 H3 Hx Hd. exists (rule0 (fr_src x) (fr_port x)), (rule1 (fr_src x) (fr_port x)).
  assert (R0 : read_rule (rule0 (fr_src x) (fr_port x)) = Some (L0 (fr_src x) (fr_port x))) by (destruct Hx as (A & _ & B); apply read_rule0; [exact A|lia]).
  assert (R1 : read_rule (rule1 (fr_src x) (fr_port x)) = Some (L1 (fr_src x) (fr_port x))) by (destruct Hx as (A & _ & B); apply read_rule1; [exact A|lia]).
  split; [exact (hub_learns xid b t r i c ty pre post payload x dx Hg H1 H2 H3 Hx Hd)|]. split; [exact R0|]. split; [exact R1|].
  cbn [do_cmds do_cmd]. change (("add-flow" =? "add-flow")%string) with true. cbv iota. rewrite R0, R1. reflexivity.
Qed.
Print Assumptions C100_learns.

Definition a1 : bytes := [2; 0; 0; 0; 0; 171].
Definition a2 : bytes := [2; 0; 0; 0; 0; 2].
Definition at1 (p : Z) : frame := mkFrame a1 a2 p.
Definition at2 (p : Z) : frame := mkFrame a2 a1 p.
Lemma at1_ok p : 0 <= p < 4294967296 -> frame_ok (at1 p).
Proof. intros H. split; [|split]; [| |exact H]; (split; [reflexivity|]); repeat (apply Forall_cons; [lia|]); apply Forall_nil. Qed.
Lemma at2_ok p : 0 <= p < 4294967296 -> frame_ok (at2 p).
Proof. intros H. split; [|split]; [| |exact H]; (split; [reflexivity|]); repeat (apply Forall_cons; [lia|]); apply Forall_nil. Qed.
Example C100_learns_example : good (7, pin (at1 22)) /\
  firstn 2 (fst (hub_async true 1 (mwire 7 (pin (at1 22))))) =
  [ HOfctl "add-flow" [ascii_bytes "table=0,priority=2,idle_timeout=300,  dl_src=02:00:00:00:00:ab,in_port=22,  actions=goto_table:1"];
    HOfctl "add-flow" [ascii_bytes "table=1,priority=2,idle_timeout=300,  dl_dst=02:00:00:00:00:ab,  actions=output:22"] ].
Proof. split; [apply pin_good, at1_ok; lia|]. vm_compute. reflexivity. Qed.

(** Everything else asks nothing of the switch; neither does anything before the HELLO is handled. *)
Theorem C100_nothing_else : forall init dx xid m ports, good (xid, m) ->
  (mtype m <> 0 -> hub_handle init (mwire xid m) ports = ([], init, Ok tt)) /\
  (mtype m <> 10 \/ init = false -> hub_async init dx (mwire xid m) = ([], Ok tt)).
Proof. intros init dx xid m ports Hg. split; [apply hub_other; exact Hg|apply hub_async_other; exact Hg]. Qed.
Print Assumptions C100_nothing_else.
Example C100_nothing_else_example : good (5, MPlain 20 []) /\ mtype (MPlain 20 []) <> 0 /\ mtype (MPlain 20 []) <> 10.
Proof. split; [exact barrier_good|]. split; discriminate. Qed.

(** *** C101: where the hub's frames go *)

(** Whatever frames come in and in whatever order the hub gets to the PACKET_INs and flows expire:
    no frame goes back; one for a group address goes to every other port; any other goes to every other
    port or to one where its destination has been seen. *)
Theorem C101_delivery : forall ports ls s x outs s', Forall (fun p => 0 <= p) ports ->
  runs ports ls s -> step s (LFrame x outs) s' ->
  ~ In (fr_port x) outs /\
  (group_address (fr_dst x) -> outs = all_but ports (fr_port x)) /\
  (outs = all_but ports (fr_port x) \/ exists p, In p (seen (fr_dst x) ls) /\ outs = out x p).
Proof. intros ports ls s x outs s' Hp. apply delivery. exact Hp. Qed.
Print Assumptions C101_delivery.

(** So a station that is at one port is reached, if it is not at the port the frame came from. *)
Theorem C101_reached : forall ports ls s x outs s' p, Forall (fun p => 0 <= p) ports ->
  runs ports ls s -> step s (LFrame x outs) s' ->
  (forall q, In q (seen (fr_dst x) ls) -> q = p) -> In p ports -> p <> fr_port x -> In p outs.
Proof. intros ports ls s x outs s' p Hp. apply stays. exact Hp. Qed.
Print Assumptions C101_reached.

(** When every PACKET_IN is handled before the next frame and nothing expires: frames go to the
    last port the destination came to without having been there before. *)
Theorem C101_prompt_exact : forall ports ls s x outs s', Forall (fun p => 0 <= p) ports ->
  prompt ports ls s -> step s (LFrame x outs) s' ->
  outs = if Z.odd (nth 0 (fr_dst x) 0) then all_but ports (fr_port x)
         else match last_new [] None (seen (fr_dst x) ls) with Some p => out x p | None => all_but ports (fr_port x) end.
Proof. intros ports ls s x outs s' Hp. apply prompt_exact. exact Hp. Qed.
Print Assumptions C101_prompt_exact.

(** Nothing is in the way: a frame can always come, a PACKET_IN that waits can be handled. *)
Theorem C101_progress : forall ports ls s x, Forall (fun p => 0 <= p) ports -> runs ports ls s ->
  (frame_ok x -> exists outs s', step s (LFrame x outs) s') /\ (In x (o_wait s) -> exists s', step s (LHandle x) s').
Proof.
  intros ports ls s x Hp R. split.
  - intros Hx. do 2 eexists. apply can_frame. exact Hx.
  - intros W. destruct (runs_inv ports ls s Hp R) as (_ & _ & Iw). destruct (in_split _ _ W) as (a & b & E).
    rewrite Forall_forall in Iw. eexists. exact (can_handle s x a b E (proj1 (Iw x W))).
Qed.
Print Assumptions C101_progress.

Definition P3 : list Z := [1; 2; 3].
Lemma P3_ok : Forall (fun p => 0 <= p) P3.
Proof. repeat (apply Forall_cons; [lia|]). apply Forall_nil. Qed.
Definition w0 : switch := mkSw [B0; B1; B2] [(1, P3)].
Definition w1 : switch := learned_sw w0 a1 1.
Definition w2 : switch := learned_sw w1 a1 2.
Lemma frame_to s x outs s' : frame_ok x -> outs = fst (switched (o_sw s) x) ->
  s' = mkWorld (o_sw s) (o_wait s ++ if snd (switched (o_sw s) x) then [x] else []) -> step s (LFrame x outs) s'.
Proof. intros Hx -> ->. apply can_frame. exact Hx. Qed.
Lemma prompt1 : prompt P3 [LFrame (at1 1) [2; 3]; LHandle (at1 1)] (mkWorld w1 []).
Proof.
  apply (prompt_told P3 [] (mkWorld w0 []) (at1 1) [2; 3] (mkWorld w0 [at1 1]) (at1 1) (mkWorld w1 [])).
  - apply prompt_start. exact (can_start P3 P3_ok).
  - apply frame_to; [apply at1_ok; lia|vm_compute; reflexivity|vm_compute; reflexivity].
  - exact (can_handle (mkWorld w0 [at1 1]) (at1 1) [] [] eq_refl (at1_ok 1 ltac:(lia))).
Qed.
Lemma prompt2 : prompt P3 [LFrame (at1 1) [2; 3]; LHandle (at1 1); LFrame (at1 2) [1; 3]; LHandle (at1 2)] (mkWorld w2 []).
Proof.
  apply (prompt_told P3 [LFrame (at1 1) [2; 3]; LHandle (at1 1)] (mkWorld w1 []) (at1 2) [1; 3] (mkWorld w1 [at1 2]) (at1 2) (mkWorld w2 [])).
  - exact prompt1.
  - apply frame_to; [apply at1_ok; lia|vm_compute; reflexivity|vm_compute; reflexivity].
  - exact (can_handle (mkWorld w1 [at1 2]) (at1 2) [] [] eq_refl (at1_ok 2 ltac:(lia))).
Qed.
Lemma prompt3 : prompt P3 [LFrame (at1 1) [2; 3]; LHandle (at1 1); LFrame (at1 2) [1; 3]; LHandle (at1 2); LFrame (at1 1) [2; 3]] (mkWorld w2 []).
Proof.
  apply (prompt_quiet P3 [LFrame (at1 1) [2; 3]; LHandle (at1 1); LFrame (at1 2) [1; 3]; LHandle (at1 2)] (mkWorld w2 []) (at1 1) [2; 3] (mkWorld w2 [])).
  - exact prompt2.
  - apply frame_to; [apply at1_ok; lia|vm_compute; reflexivity|vm_compute; reflexivity].
  - reflexivity.
Qed.
Lemma run1 : runs P3 [LFrame (at1 1) [2; 3]; LHandle (at1 1)] (mkWorld w1 []).
Proof.
  apply (runs_step P3 [LFrame (at1 1) [2; 3]] (mkWorld w0 [at1 1]) (LHandle (at1 1)) (mkWorld w1 [])).
  - apply (runs_step P3 [] (mkWorld w0 []) (LFrame (at1 1) [2; 3]) (mkWorld w0 [at1 1])).
    + apply runs_start. exact (can_start P3 P3_ok).
    + apply frame_to; [apply at1_ok; lia|vm_compute; reflexivity|vm_compute; reflexivity].
  - exact (can_handle (mkWorld w0 [at1 1]) (at1 1) [] [] eq_refl (at1_ok 1 ltac:(lia))).
Qed.
Example C101_delivery_example : runs P3 [LFrame (at1 1) [2; 3]; LHandle (at1 1)] (mkWorld w1 []) /\
  step (mkWorld w1 []) (LFrame (at2 3) [1]) (mkWorld w1 [at2 3]) /\
  seen (fr_dst (at2 3)) [LFrame (at1 1) [2; 3]; LHandle (at1 1)] = [1].
Proof.
  split; [exact run1|]. split; [|vm_compute; reflexivity].
  apply frame_to; [apply at2_ok; lia|vm_compute; reflexivity|vm_compute; reflexivity].
Qed.
Example C101_prompt_example : exists ls s, prompt P3 ls s /\ seen a1 ls = [1; 2] /\ last_new [] None (seen a1 ls) = Some 2.
Proof. do 2 eexists. split; [exact prompt2|]. split; vm_compute; reflexivity. Qed.

(** Claim: frames go to the port where the station was seen last.  One that came back to a port
    does not get them: nothing tells the hub. *)
Theorem C101_last_port_refuted : exists ls s x outs s',
  prompt P3 ls s /\ step s (LFrame x outs) s' /\ seen (fr_dst x) ls = [1; 2; 1] /\ outs = [2].
Proof.
  do 3 eexists. exists [2], (mkWorld w2 [at2 3]). split; [exact prompt3|]. split; [|split; [|reflexivity]].
  - apply (frame_to _ (at2 3)); [apply at2_ok; lia|vm_compute; reflexivity|vm_compute; reflexivity].
  - vm_compute. reflexivity.
Qed.
Print Assumptions C101_last_port_refuted.

(** Claim: a station that sends is learned.  When its table 1 flow has expired (it got no frames
    for 300 seconds) it is not learned again however many frames it sends, for these keep its
    table 0 flow; frames to it go to every other port. *)
Theorem C101_relearned_refuted : forall n, exists ls s outs s',
  runs P3 ls s /\ seen a1 ls = repeat 1 (S n) /\ o_wait s = [] /\ step s (LFrame (at2 2) outs) s' /\ outs = [1; 3].
Proof.
  set (w := mkSw [B0; B1; B2; L0 a1 1] [(1, P3)]).
  assert (K : forall n, exists ls, runs P3 ls (mkWorld w []) /\ seen a1 ls = repeat 1 (S n)).
  { induction n as [|n (ls & R & E)].
    - eexists. split; [eapply runs_step; [exact run1|]|].
      + apply (st_expire (mkWorld w1 []) (L1 a1 1) [B0; B1; B2; L0 a1 1] []); [vm_compute; reflexivity|reflexivity].
      + vm_compute. reflexivity.
    - exists (ls ++ [LFrame (at1 1) [2; 3]]). split.
      + eapply runs_step; [exact R|]. apply frame_to; [apply at1_ok; lia|vm_compute; reflexivity|vm_compute; reflexivity].
      + rewrite seen_app, E. change (seen a1 [LFrame (at1 1) [2; 3]]) with (repeat 1 1). rewrite <- repeat_app. f_equal. lia. }
  intros n. destruct (K n) as (ls & R & E). exists ls, (mkWorld w []), [1; 3], (mkWorld w [at2 2]). split; [exact R|]. split; [exact E|]. split; [reflexivity|].
  split; [|reflexivity]. apply frame_to; [apply at2_ok; lia|vm_compute; reflexivity|vm_compute; reflexivity].
Qed.
Print Assumptions C101_relearned_refuted.

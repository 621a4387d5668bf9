(** Properties C51-C53, C62-C65: the BESS agent. *)

From Coq Require Import Permutation Sorted.
From Verif Require Import Py Struct P_Struct M_Ports M_Bess S_Hello S_Ports S_Wire4 S_Msg4 S_Bess
  P_Hello P_Wire4 P_Ports P_Stat4 P_Bess P_Bess2 P_Bess3.
Local Open Scope Z_scope.
Local Open Scope list_scope.

(** *** C51: numbers of ports *)

(** Over any history of additions, deletions and messages, whatever fails: the
    numbers given to callers increase, so that none is given twice; and none of
    them is a number of the initial ports or OFPP_LOCAL or above. *)
Theorem C51_numbers : forall s1 s2 os,
  let ns := added (snd (brun (agent0 s1 s2) os)) in
  StronglySorted Z.lt ns /\ Forall (fun n => 2 < n < 4294967294) ns.
Proof. intros s1 s2 os. exact (numbers os (agent0 s1 s2) (inv0 s1 s2)). Qed.
Print Assumptions C51_numbers.

(** Refuted for the other reserved numbers (OFPP_MAX = 0xffffff00 and above):
    every number up to OFPP_LOCAL is given out by some history. *)
Theorem C51_any_number_refuted : forall s1 s2 n, 2 < n < 4294967294 ->
  exists os, In n (added (snd (brun (agent0 s1 s2) os))).
Proof.
  intros s1 s2 n Hn. exists (repeat easy_add (Z.to_nat (n - 2))).
  apply easy_run; [apply inv0| |]; cbn [agent0 a_num]; lia.
Qed.
Print Assumptions C51_any_number_refuted.

(** The table holds exactly the ports that callers were told were added and not
    deleted, and the answers fit the table: a new number for an addition, the
    number of a port of that name for a deletion, "unable to locate" only if there
    is none.  Deletions may fail in any way; additions are of names and MAC
    addresses that can be described, over a transport that works: the next
    theorem is about the others. *)
Theorem C51_table_partial : forall s1 s2 os,
  throughout walked (agent0 s1 s2) os -> Forall sane os ->
  let '(s, rs) := brun (agent0 s1 s2) os in
  table s = tab_run initial_ports os rs /\ all_legit initial_ports os rs.
Proof.
  intros s1 s2 os Hw Hs. pose proof (table_all os (agent0 s1 s2) (inv0 s1 s2) Hw Hs) as H.
  destruct (brun (agent0 s1 s2) os) as [s rs]. exact H.
Qed.
Print Assumptions C51_table_partial.

Lemma dset_Forall {V} (Q : Z * V -> Prop) k v d : Q (k, v) -> Forall Q d -> Forall Q (dset k v d).
Proof.
  intros P H. induction H as [|[k' v'] d Hv Hd IH]; cbn [dset]; [constructor; [exact P|constructor]|].
  destruct (k' =? k); constructor; auto.
Qed.
(** Whatever happens, no port by the name of the bridge has a socket, so nothing is sent there. *)
Theorem C51_bridge_socket : forall s1 s2 os,
  Forall (fun kp => o_name (snd kp) = ascii_bytes "br-int" -> o_sock (snd kp) = None) (a_ports (fst (brun (agent0 s1 s2) os))).
Proof.
  assert (K : forall s op, let ok s := Forall (fun kp => o_name (snd kp) = ascii_bytes "br-int" -> o_sock (snd kp) = None) (a_ports s) in
    ok s -> ok (fst (bstep s op))).
  { cbv beta zeta. intros s op H. destruct op as [dev mac c i o|dev ks o di de|m ks o po]; cbn [bstep].
    - unfold add_port. destruct (a_num s + 1 =? 4294967294); [exact H|]. cbv zeta.
      destruct c as [[]|e]; [|exact H]. cbn [bind]. destruct (init_sock dev i) as [sk|e] eqn:Es; [|exact H]. cbn [bind].
      destruct (unhex (firstn 12 mac)) as [hw|e]; [|exact H]. cbn [bind].
      match goal with |- context [announce ?s1 ?r ?p ?o] => destruct (announce_facts s1 r p o) as (F & _); destruct (announce s1 r p o) as [s2 [u|e]] end;
        cbn [fst a_ports] in F |- *; rewrite F; clear F.
      all: assert (P : o_name (mkOport (a_num s + 1) hw dev 2050 sk) = ascii_bytes "br-int" -> o_sock (mkOport (a_num s + 1) hw dev 2050 sk) = None)
             by (cbn [o_name o_sock]; intros ->; unfold init_sock in Es; rewrite (proj2 (same_eq _ _) eq_refl) in Es; congruence).
      all: apply dset_Forall; [exact P|exact H].
    - unfold del_port. destruct (find_dev (a_ports s) ks dev) as [[k p]|]; [|exact H].
      destruct (announce_facts s 1 p o) as (F & _). destruct (announce s 1 p o) as [s2 [u|e]]; cbn [fst] in F; [|rewrite <- F in H; exact H].
      match goal with |- context [match ?c with Ok _ => _ | Err _ => _ end] => destruct c end; cbn [fst a_ports]; rewrite F; [|exact H].
      unfold ddel. apply Forall_forall. intros kp Hk. apply filter_In in Hk. rewrite Forall_forall in H. apply H. apply Hk.
    - destruct (switch_ports s m ks o po) as [F _]. destruct (switch_proc s m ks o po) as [s2 [u|e]]; cbn [fst] in *; rewrite F; exact H. }
  intros s1 s2 os. assert (H0 : Forall (fun kp => o_name (snd kp) = ascii_bytes "br-int" -> o_sock (snd kp) = None) (a_ports (agent0 s1 s2))).
  { cbn [agent0 a_ports]. constructor; [reflexivity|]. constructor; [intros E; vm_compute in E; discriminate E|]. constructor; [intros E; vm_compute in E; discriminate E|]. constructor. }
  revert H0. generalize (agent0 s1 s2). clear s1 s2. induction os as [|op os IH]; intros s H; [exact H|].
  specialize (K s op H). cbn [brun]. destruct (bstep s op) as [s' r]. cbn [fst] in K. specialize (IH s' K).
  destruct (brun s' os) as [s2 rs]. exact IH.
Qed.
Print Assumptions C51_bridge_socket.
Example C51_bridge_socket_example :
  exists kp, In kp (a_ports (fst (brun (agent0 None None) [BAdd (ascii_bytes "br-int") (ascii_bytes "000000000007") (Ok tt) (Ok (Some 9%nat)) None]))) /\
    fst kp = 3 /\ o_name (snd kp) = ascii_bytes "br-int".
Proof. eexists. split; [vm_compute; right; right; right; left; reflexivity|]. split; reflexivity. Qed.

(** Refuted when the announcement fails: the caller is told of the failure but
    the port is in the table. *)
Theorem C51_failed_add_refuted : forall s1 s2 os dev mac i sk e,
  let s := fst (brun (agent0 s1 s2) os) in
  a_num s + 1 <> 4294967294 -> name_ok dev -> mac_ok mac -> init_sock dev i = Ok sk ->
  exists s', bstep s (BAdd dev mac (Ok tt) i (Some e)) = (s', RExn e) /\
    table s' = table s ++ [mkSport (a_num s + 1) (mac_bytes mac) dev [0; 0; 2050; 0; 0; 0; 0; 0]] /\ a_wire s' = a_wire s.
Proof.
  intros s1 s2 os dev mac i sk e s Hn Hd Hm Hk.
  assert (Hi : inv s) by (apply run_inv; apply inv0). clearbody s.
  cbn [bstep]. unfold add_port. destruct (Z.eqb_spec (a_num s + 1) 4294967294) as [X|_]; [contradiction|].
  cbv zeta. cbn [bind]. rewrite Hk. cbn [bind]. rewrite unhex_ok by exact Hm. cbn [bind a_ports a_num a_flows a_wire a_out].
  rewrite dset_new by (apply fresh; assumption).
  rewrite announce_ok; [|left; reflexivity|].
  - cbn [asend]. eexists. split; [reflexivity|]. unfold table. cbn [a_ports a_wire]. rewrite map_app. split; reflexivity.
  - destruct (name_ok_facts dev Hd) as (N1 & N2 & N3). destruct Hi as (Hr & _).
    unfold port_ok, sport_ok, port_of. cbn [sp_no sp_hw sp_name sp_words o_no o_hw o_name o_curr Z.eqb Pos.eqb].
    split; [|exact N3]. split; [change (0 <= a_num s + 1 < 4294967296); lia|]. split; [apply mac_bytes_length|]. split; [exact N1|]. split; [exact N2|].
    split; [reflexivity|]. repeat (apply Forall_cons; [lia|]); apply Forall_nil.
Qed.
Print Assumptions C51_failed_add_refuted.

Definition ex_add (dev : string) : bop := BAdd (ascii_bytes dev) (ascii_bytes "0011223344ff") (Ok tt) (Ok (Some 9%nat)) None.
Definition ex_del (dev : string) (ks : list Z) : bop := BDel (ascii_bytes dev) ks None (Ok tt) (Ok tt).
Definition ex_history : list bop :=
  [ex_add "vm1"; ex_add "vm2"; ex_del "vm1" [2; 3; 4; 1; 4294967294]; ex_del "vm9" [2; 4; 1; 4294967294]; ex_add "vm1"].

Ltac ex_forall := match goal with |- Forall _ ?l => let v := eval vm_compute in l in change l with v end;
  repeat (apply Forall_cons; [cbn; lia|]); apply Forall_nil.
Lemma ex_name (dev : string) : forallb (fun c => (0 <? c) && (c <? 128)) (ascii_bytes dev) = true -> (length (ascii_bytes dev) <= 16)%nat ->
  name_ok (ascii_bytes dev).
Proof. intros H L. split; [exact L|]. apply Forall_forall. intros c Hc. rewrite forallb_forall in H. specialize (H c Hc). lia. Qed.
Lemma ex_mac : mac_ok (ascii_bytes "0011223344ff").
Proof. split; [cbn; lia|]. match goal with |- Forall _ ?l => let v := eval vm_compute in l in change l with v end. repeat (apply Forall_cons; [cbn; tauto|]); apply Forall_nil. Qed.

Example C51_example :
  let '(s, rs) := brun (agent0 None None) ex_history in
  rs = [RAdded 3; RAdded 4; RDeleted 3; RNone; RAdded 5] /\ map sp_no (table s) = [4294967294; 1; 2; 4; 5].
Proof. vm_compute. auto. Qed.
Example C51_example_hyp : throughout walked (agent0 None None) ex_history /\ Forall sane ex_history.
Proof.
  split.
  - cbn [throughout ex_history walked ex_add ex_del]. repeat match goal with |- _ /\ _ => split end; try exact I.
    + match goal with |- Permutation _ ?l => let v := eval vm_compute in l in change l with v end.
      apply NoDup_Permutation; [repeat constructor; cbn; lia|repeat constructor; cbn; lia|intros x; cbn; tauto].
    + match goal with |- Permutation _ ?l => let v := eval vm_compute in l in change l with v end.
      apply NoDup_Permutation; [repeat constructor; cbn; lia|repeat constructor; cbn; lia|intros x; cbn; tauto].
  - repeat (apply Forall_cons; [cbn [sane ex_add ex_del]; try exact I; (split; [apply ex_name; [reflexivity|cbn; lia]|split; [exact ex_mac|reflexivity]])|]); apply Forall_nil.
Qed.

(** *** C52: flows *)

(** After any history whose messages are well-formed (ports may come and go, any
    send may fail), a FLOW request is answered with the first FLOW_MOD received of
    each cookie, each with its own fields, unless the answer does not fit one
    message. *)
Theorem C52_listed_partial : forall s1 s2 os xms xid f t p g c k mt ks po,
  received os = map (fun xm => mwire (fst xm) (snd xm)) xms -> Forall good xms ->
  good (xid, MRequest f (RqFlow t p g c k mt)) ->
  let s := fst (brun (agent0 s1 s2) os) in
  Permutation ks (map fst (a_flows s)) ->
  exists l, Permutation l (firsts [] xms) /\
    let sts := flat_map (fun xm => stat_of (snd xm)) l in
    let r := bstep s (BMsg (mwire xid (MRequest f (RqFlow t p g c k mt))) ks None po) in
    if zlen (concat (map flow_stat_wire sts)) <=? 65519
    then snd r = RDone /\ a_wire (fst r) = a_wire s ++ [mwire xid (MReply 0 (RpFlow sts))]
    else snd r = RExn StructError /\ a_wire (fst r) = a_wire s.
Proof.
  intros s1 s2 os xms xid f t p g c k mt ks po Hr Hg Hq s Hp.
  pose proof (flows_all os (agent0 s1 s2) [] xms Hr Hg ltac:(intros c'; cbn; split; [discriminate|tauto])) as F.
  fold s in F. cbn [agent0 a_flows Datatypes.app] in F.
  destruct (flow_request_reply s xid f t p g c k mt ks None po (firsts [] xms) Hq F) as (l & Hl & E).
  - rewrite F. apply firsts_nodup.
  - apply firsts_good. exact Hg.
  - exact Hp.
  - exists l. split; [exact Hl|]. cbv zeta in E |- *. cbn [bstep]. rewrite E.
    destruct (zlen _ <=? 65519); split; reflexivity.
Qed.
Print Assumptions C52_listed_partial.

(** Refuted: a FLOW_MOD whose cookie is known raises a TypeError and changes
    nothing. *)
Theorem C52_same_cookie_refuted : forall s1 s2 os xid m c ks o po,
  let s := fst (brun (agent0 s1 s2) os) in
  good (xid, m) -> cookie_of m = Some c -> In c (map fst (a_flows s)) ->
  bstep s (BMsg (mwire xid m) ks o po) = (s, RExn TypeError).
Proof.
  intros s1 s2 os xid m c ks o po s Hg Hc Hi. cbn [bstep]. rewrite (switch_flow s xid m c ks o po Hg Hc).
  destruct (dget c (a_flows s)) eqn:E; [reflexivity|]. apply dget_none in E. contradiction.
Qed.
Print Assumptions C52_same_cookie_refuted.

(** A FLOW_MOD with nothing but a cookie and a command. *)
Definition simple_flow (command cookie : Z) : omsg :=
  MFlowMod cookie 0 0 command 0 0 0 4294967295 4294967295 4294967295 0 (Match 1 []) [].
Lemma simple_good xid command cookie : u32 xid -> u8 command -> 0 <= cookie < 18446744073709551616 -> good (xid, simple_flow command cookie).
Proof.
  intros Hx Hk Hc. unfold u8 in Hk. split; [exact Hx|]. split; [|constructor]. split; [|split].
  - unfold simple_flow, fits. cbn [body_fields snd]. repeat (apply Forall_cons; [cbn [in_range]; try exact I; cbn; lia|]). apply Forall_nil.
  - vm_compute. discriminate.
  - split; [|constructor]. unfold fits. repeat (apply Forall_cons; [cbn [in_range]; unfold zlen; try exact I; cbn; lia|]). apply Forall_nil.
Qed.

(** Refuted: a FLOW_MOD that deletes (command 3 or 4) is recorded like any other
    and deletes nothing. *)
Theorem C52_delete_refuted : forall s1 s2 os xid command cookie ks o po,
  let s := fst (brun (agent0 s1 s2) os) in
  u32 xid -> In command [3; 4] -> 0 <= cookie < 18446744073709551616 -> ~ In cookie (map fst (a_flows s)) ->
  let r := bstep s (BMsg (mwire xid (simple_flow command cookie)) ks o po) in
  snd r = RDone /\ map fst (a_flows (fst r)) = map fst (a_flows s) ++ [cookie].
Proof.
  intros s1 s2 os xid command cookie ks o po s Hx Hk Hc Hn. cbv zeta. cbn [bstep].
  rewrite (switch_flow s xid _ cookie ks o po); [|apply simple_good; [exact Hx|unfold u8; cbn in Hk; lia|exact Hc]|reflexivity].
  pose proof Hn as Hn'. apply dget_none in Hn'. rewrite Hn'. cbn [fst snd a_flows]. rewrite dset_new, map_app by exact Hn. auto.
Qed.
Print Assumptions C52_delete_refuted.

(** Refuted: after 1170 FLOW_MODs of the smallest kind no FLOW request is
    answered any more. *)
Theorem C52_too_many_refuted : forall s1 s2 cs xid f t p g c k mt ks po,
  NoDup cs -> Forall (fun c => 0 <= c < 18446744073709551616) cs -> 1170 <= zlen cs ->
  good (xid, MRequest f (RqFlow t p g c k mt)) ->
  let s := fst (brun (agent0 s1 s2) (map (fun c => BMsg (mwire 0 (simple_flow 0 c)) [] None None) cs)) in
  Permutation ks (map fst (a_flows s)) ->
  bstep s (BMsg (mwire xid (MRequest f (RqFlow t p g c k mt))) ks None po) = (s, RExn StructError).
Proof.
  intros s1 s2 cs xid f t p g c k mt ks po Hn Hr Hl Hq s Hp.
  set (xms := map (fun c => (0, simple_flow 0 c)) cs).
  assert (Hg : Forall good xms).
  { unfold xms. apply Forall_forall. intros xm H. apply in_map_iff in H. destruct H as (c' & <- & H).
    rewrite Forall_forall in Hr. apply simple_good; [unfold u32; lia|unfold u8; lia|exact (Hr _ H)]. }
  assert (Er : received (map (fun c => BMsg (mwire 0 (simple_flow 0 c)) [] None None) cs) = map (fun xm => mwire (fst xm) (snd xm)) xms).
  { unfold received, xms. clear. induction cs as [|c cs IH]; [reflexivity|]. cbn [map flat_map Datatypes.app]. rewrite IH. reflexivity. }
  assert (Ef : firsts [] xms = xms).
  { unfold xms. clear - Hn. assert (G : forall seen, (forall x, In x cs -> ~ In x seen) ->
      firsts seen (map (fun c => (0, simple_flow 0 c)) cs) = map (fun c => (0, simple_flow 0 c)) cs).
    { induction Hn as [|x cs Hx _ IH]; intros seen Hs; [reflexivity|]. cbn [map firsts simple_flow cookie_of snd].
      destruct (existsb (Z.eqb x) seen) eqn:E.
      - exfalso. apply existsb_exists in E. destruct E as (y & Hy & E). apply Z.eqb_eq in E. subst y. exact (Hs x (or_introl eq_refl) Hy).
      - f_equal. apply IH. intros y Hy [<-|X]; [contradiction|]. exact (Hs y (or_intror Hy) X). }
    apply G. intros x _ []. }
  destruct (C52_listed_partial s1 s2 _ xms xid f t p g c k mt ks po Er Hg Hq Hp) as (l & Hl2 & H).
  cbv zeta in H. rewrite Ef in Hl2.
  assert (Ez : zlen (concat (map flow_stat_wire (flat_map (fun xm => stat_of (snd xm)) l))) = 56 * zlen cs).
  { assert (G : Forall (fun xm => exists c, xm = (0, simple_flow 0 c)) l).
    { apply Forall_forall. intros xm Hx. apply (Permutation_in _ Hl2) in Hx. unfold xms in Hx. apply in_map_iff in Hx. destruct Hx as (c' & <- & _). eauto. }
    assert (Ll : zlen l = zlen cs) by (unfold zlen; rewrite (Permutation_length Hl2); unfold xms; rewrite map_length; reflexivity).
    rewrite <- Ll. clear - G. induction G as [|xm l (c' & ->) _ IH]; [reflexivity|]. cbn [flat_map stat_of snd simple_flow Datatypes.app map concat].
    unfold zlen in *. rewrite app_length. cbn [length]. rewrite Nat2Z.inj_add, IH.
    match goal with |- Z.of_nat (length (flow_stat_wire ?x)) + _ = _ => assert (length (flow_stat_wire x) = 56%nat) as -> by reflexivity end. lia. }
  rewrite Ez in H. destruct (Z.leb_spec (56 * zlen cs) 65519) as [L|_]; [lia|].
  destruct H as [H1 H2]. fold s in H1, H2.
  pose proof (flows_all _ (agent0 s1 s2) [] xms Er Hg ltac:(intros c'; cbn; split; [discriminate|tauto])) as F.
  fold s in F. cbn [agent0 a_flows Datatypes.app] in F.
  destruct (flow_request_reply s xid f t p g c k mt ks None po (firsts [] xms) Hq F) as (l2 & Hl3 & E).
  - rewrite F. apply firsts_nodup.
  - apply firsts_good. exact Hg.
  - exact Hp.
  - cbv zeta in E. cbn [bstep] in H1 |- *. rewrite E in H1 |- *. destruct (zlen _ <=? 65519); [discriminate H1|reflexivity].
Qed.
Print Assumptions C52_too_many_refuted.

(** Three FLOW_MODs, two of them with the same cookie, one that deletes: the FLOW
    reply lists two. *)
Example C52_example :
  let req := MRequest 0 (RqFlow 255 4294967295 4294967295 0 0 (Match 1 [])) in
  let os := [BMsg (mwire 1 (simple_flow 0 7)) [] None None; BMsg (mwire 2 (simple_flow 1 7)) [] None None;
             BMsg (mwire 3 (simple_flow 3 8)) [] None None; BMsg (mwire 4 req) [8; 7] None None] in
  let '(s, rs) := brun (agent0 None None) os in
  rs = [RDone; RExn TypeError; RDone; RDone] /\
  a_wire s = [mwire 4 (MReply 0 (RpFlow [FlowStat 0 1 2 0 0 0 0 8 0 0 (Match 1 []) []; FlowStat 0 1 2 0 0 0 0 7 0 0 (Match 1 []) []]))].
Proof. vm_compute. auto. Qed.
Example C52_example_hyp : good (4, MRequest 0 (RqFlow 255 4294967295 4294967295 0 0 (Match 1 []))) /\
  Forall good [(1, simple_flow 0 7); (2, simple_flow 1 7); (3, simple_flow 3 8)].
Proof.
  split.
  - split; [unfold u32; cbn; lia|]. split; [|exact I]. split; [|split; [vm_compute; discriminate|split]].
    + unfold fits. cbn [body_fields snd rq_type rq_fields]. repeat (apply Forall_cons; [cbn [in_range]; try exact I; cbn; lia|]). apply Forall_nil.
    + unfold fits. cbn [rq_fields]. repeat (apply Forall_cons; [cbn [in_range]; try exact I; cbn; lia|]). apply Forall_nil.
    + unfold fits. repeat (apply Forall_cons; [cbn [in_range]; unfold zlen; try exact I; cbn; lia|]). apply Forall_nil.
  - repeat (apply Forall_cons; [apply simple_good; unfold u32, u8; lia|]). apply Forall_nil.
Qed.

(** *** C53: requests *)

(** Requests for the features, the configuration, a role and the description:
    over any history, with ports added and deleted in between however badly, what
    the agent sends other than port events is exactly the answers, one for each
    request, in order and with the request's transaction id. *)
Theorem C53_answered_partial : forall s1 s2 qs os, requests qs os ->
  others (a_wire (fst (brun (agent0 s1 s2) os))) = map (fun q => mwire (fst (fst q)) (snd q)) qs.
Proof. intros s1 s2 qs os H. exact (answered qs os H (agent0 s1 s2)). Qed.
Print Assumptions C53_answered_partial.

(** A PORT_DESC request after a history of additions that can be described is
    answered with the ports of the table, each once, if they fit one message (at
    most 1023 do); the FLOW request is C52. *)
Theorem C53_ports_partial : forall s1 s2 os xid f ks po,
  Forall sane os -> good (xid, MRequest f (RqPlain 13)) ->
  let s := fst (brun (agent0 s1 s2) os) in
  Permutation ks (map fst (a_ports s)) ->
  let r := bstep s (BMsg (mwire xid (MRequest f (RqPlain 13))) ks None po) in
  if zlen (table s) <=? 1023
  then snd r = RDone /\ exists l, Permutation l (table s) /\ a_wire (fst r) = a_wire s ++ [mwire xid (MReply 0 (RpPortDesc l))]
  else snd r = RExn StructError /\ a_wire (fst r) = a_wire s.
Proof.
  intros s1 s2 os xid f ks po Hs Hg s Hp.
  assert (Hi : inv s) by (apply run_inv; apply inv0).
  assert (Ho : all_ok s) by (apply sane_ok; [apply inv0|apply ok0|exact Hs]).
  destruct (port_request_reply s xid f ks None po Hg Hi Ho Hp) as (l & Hl & E). cbv zeta. cbn [bstep]. rewrite E.
  assert (Ez : zlen (concat (map port_wire l)) = 64 * zlen (table s)).
  { assert (Ll : zlen (table s) = zlen l) by (unfold zlen; rewrite (Permutation_length Hl); reflexivity). rewrite Ll.
    assert (Hl2 : Forall port_ok l).
    { unfold all_ok in Ho. rewrite Forall_forall in *. intros x Hx. apply Ho. exact (Permutation_in _ Hl Hx). }
    clear - Hl2. induction Hl2 as [|x l [Hx _] _ IH]; [reflexivity|]. cbn [map concat]. unfold zlen in *. rewrite app_length.
    rewrite (P_Stat4.port_wlen _ Hx). cbn [length]. lia. }
  rewrite Ez.
  destruct (Z.leb_spec (64 * zlen (table s)) 65519), (Z.leb_spec (zlen (table s)) 1023); try lia; cbn [asend fst snd a_wire].
  - split; [reflexivity|]. exists l. auto.
  - auto.
Qed.
Print Assumptions C53_ports_partial.

(** Refuted: barrier requests, and multipart requests other than DESC, FLOW and
    PORT_DESC, are never answered. *)
Theorem C53_unanswered_refuted : forall s1 s2 os xid m ks o po,
  let s := fst (brun (agent0 s1 s2) os) in
  good (xid, m) -> m = MPlain 20 [] \/ (exists f r, m = MRequest f r /\ ~ In (rq_type r) [0; 1; 13]) ->
  bstep s (BMsg (mwire xid m) ks o po) = (s, RDone).
Proof.
  intros s1 s2 os xid m ks o po s Hg Hc. cbn [bstep]. rewrite (unanswered s xid m ks o po Hg); [reflexivity|].
  destruct Hc as [->|H]; [left; eauto|right; right; right; exact H].
Qed.
Print Assumptions C53_unanswered_refuted.

(** Refuted: messages of other types (GROUP_MOD, METER_MOD, TABLE_MOD, queue and
    asynchronous configuration requests, experimenter messages, echo and error
    messages if they get there) fail an assertion and are not answered. *)
Theorem C53_not_understood_refuted : forall s1 s2 os xid m ks o po,
  let s := fst (brun (agent0 s1 s2) os) in
  good (xid, m) -> ~ In (mtype m) [0; 5; 7; 9; 13; 14; 18; 20; 24] ->
  bstep s (BMsg (mwire xid m) ks o po) = (s, RExn AssertionError).
Proof. intros s1 s2 os xid m ks o po s Hg Hn. cbn [bstep]. rewrite (not_understood s xid m ks o po Hg Hn). reflexivity. Qed.
Print Assumptions C53_not_understood_refuted.

Example C53_example :
  let qs := [(11, MPlain 5 [], MFeatures 1 2 3 0 15); (12, MRole 24 2 77, MRole 25 2 77)] in
  let os := [BMsg (mwire 11 (MPlain 5 [])) [] None None; ex_add "vm1"; BMsg (mwire 12 (MRole 24 2 77)) [] None None] in
  requests qs os /\
  a_wire (fst (brun (agent0 None None) os)) =
    [mwire 11 (MFeatures 1 2 3 0 15); port_status 4 0 0 (mkSport 3 [0; 17; 34; 51; 68; 255] [118; 109; 49] [0; 0; 2050; 0; 0; 0; 0; 0]); mwire 12 (MRole 25 2 77)] /\
  bstep (agent0 None None) (BMsg (mwire 5 (MPlain 20 [])) [] None None) = (agent0 None None, RDone) /\
  bstep (agent0 None None) (BMsg (mwire 5 (MTableMod 1 0)) [] None None) = (agent0 None None, RExn AssertionError).
Proof.
  split; [|vm_compute; auto].
  repeat first [apply requests_nil | apply requests_add | apply requests_msg].
  - split; [unfold u32; cbn; lia|]. split; [|exact I]. split; [unfold fits; repeat constructor|]. split; [vm_compute; discriminate|].
    split; [unfold u8; lia|]. cbn [In]. intuition discriminate.
  - constructor.
  - split; [unfold u32; cbn; lia|]. split; [|reflexivity]. split; [unfold fits; repeat constructor; cbn; lia|]. split; [vm_compute; discriminate|]. cbn. tauto.
  - constructor.
Qed.

(** *** C62: what a controller knows of the ports *)

(** A port monitor that knows the agent's initial ports and follows the PORT_STATUS
    messages the agent sends has the agent's table at the end of any history in
    which additions can be described and deletions do not fail. *)
Theorem C62_monitor_agrees_partial : forall s1 s2 os pm,
  throughout walked (agent0 s1 s2) os -> Forall sane os -> Forall clean os ->
  pm_version pm = Some 4 -> pm_init pm = true -> no_waiters pm -> pm_ports pm = map view (table (agent0 s1 s2)) ->
  let s := fst (brun (agent0 s1 s2) os) in
  pm_ports (pm_run pm (statuses (a_wire s))) = map view (table s).
Proof.
  intros s1 s2 os pm Hw Hs Hc Hv Hi Hn Hp s.
  destruct (told os (agent0 s1 s2) (inv0 s1 s2) (ok0 s1 s2) Hw Hs Hc) as (es & E1 & E2 & E3).
  fold s in E1, E2. cbn [agent0 a_wire statuses filter Datatypes.app] in E1. rewrite E1, <- E2.
  apply (status_history 4 es pm (table (agent0 s1 s2)) Hv); try assumption; [lia|].
  vm_compute. repeat constructor; cbn; intuition discriminate.
Qed.
Print Assumptions C62_monitor_agrees_partial.

(** Refuted when destroying the port fails: the controller is told that the port
    is gone, and it is still in the table. *)
Theorem C62_failed_delete_refuted : forall s1 s2 os dev ks e,
  let s := fst (brun (agent0 s1 s2) os) in
  Forall sane os -> Permutation ks (map fst (a_ports s)) -> In dev (map sp_name (table s)) ->
  exists s' p, bstep s (BDel dev ks None (Ok tt) (Err e)) = (s', RExn e) /\
    In p (table s) /\ sp_name p = dev /\ table s' = table s /\ a_wire s' = a_wire s ++ [port_status 4 0 1 p].
Proof.
  intros s1 s2 os dev ks e s Hs Hp Hd.
  assert (Hi : inv s) by (apply run_inv; apply inv0).
  assert (Ho : all_ok s) by (apply sane_ok; [apply inv0|apply ok0|exact Hs]). clearbody s.
  pose proof Hi as (_ & Hk & _). cbn [bstep]. unfold del_port.
  destruct (find_dev (a_ports s) ks dev) as [[k p]|] eqn:Ef.
  - destruct (find_dev_some _ _ _ _ _ Ef) as [Hin Hnm].
    assert (Pin : In (port_of p) (table s)) by (unfold table; apply (in_map (fun kp => port_of (snd kp))) in Hin; exact Hin).
    rewrite announce_ok; [|right; reflexivity|unfold all_ok in Ho; rewrite Forall_forall in Ho; exact (Ho _ Pin)].
    assert (Ed : (deinit_sock (o_name p) (Ok tt) ;;; Err e) = (Err e : res unit)) by (unfold deinit_sock; destruct (same _ _); reflexivity).
    cbn [asend]. rewrite Ed. eexists. exists (port_of p). split; [reflexivity|]. split; [exact Pin|]. split; [exact Hnm|]. split; reflexivity.
  - exfalso. apply (find_dev_none _ _ _ Ef Hk) in Hp. apply in_map_iff in Hd. destruct Hd as (q & E & Hq).
    unfold table in Hq. apply in_map_iff in Hq. destruct Hq as (kp & <- & Hin). rewrite Forall_forall in Hp. exact (Hp kp Hin E).
Qed.
Print Assumptions C62_failed_delete_refuted.

Example C62_example :
  let s := fst (brun (agent0 None None) ex_history) in
  let pm := mkPmon (Some 4) (map view (table (agent0 None None))) true [] [] [] in
  pm_ports (pm_run pm (statuses (a_wire s))) = map view (table s) /\ length (statuses (a_wire s)) = 4%nat /\
  Forall clean ex_history.
Proof. vm_compute. split; [reflexivity|]. split; [reflexivity|]. repeat constructor. Qed.

(** *** C63: deletion by name *)

(** If no two ports have the same name, a deletion in which nothing fails removes
    the port of that name and no other, and the answer says which. *)
Theorem C63_deleted_partial : forall s1 s2 os dev ks,
  let s := fst (brun (agent0 s1 s2) os) in
  Forall sane os -> Permutation ks (map fst (a_ports s)) -> NoDup (map sp_name (table s)) ->
  let r := bstep s (BDel dev ks None (Ok tt) (Ok tt)) in
  (forall p, In p (table (fst r)) <-> In p (table s) /\ sp_name p <> dev) /\
  match snd r with
  | RDeleted n => exists p, In p (table s) /\ sp_no p = n /\ sp_name p = dev
  | RNone => ~ In dev (map sp_name (table s))
  | _ => False
  end.
Proof.
  intros s1 s2 os dev ks s Hs Hp Hn.
  assert (Hi : inv s) by (apply run_inv; apply inv0).
  assert (Ho : all_ok s) by (apply sane_ok; [apply inv0|apply ok0|exact Hs]).
  destruct (clean_del s dev ks Hi Ho Hp Hn) as [H1 H2]. cbv zeta. split; [|exact H2].
  intros p. rewrite H1, filter_In. destruct (list_eq_dec Z.eq_dec (sp_name p) dev); intuition congruence.
Qed.
Print Assumptions C63_deleted_partial.

(** Refuted in general: names may be given twice, and then a port of the name
    remains. *)
Theorem C63_same_name_refuted :
  let os := [ex_add "vm"; ex_add "vm"] in
  forall s1 s2 ks, let s := fst (brun (agent0 s1 s2) os) in
  Permutation ks (map fst (a_ports s)) ->
  let r := bstep s (BDel (ascii_bytes "vm") ks None (Ok tt) (Ok tt)) in
  (exists n, snd r = RDeleted n) /\ In (ascii_bytes "vm") (map sp_name (table (fst r))).
Proof.
  intros os s1 s2 ks s Hp.
  assert (Hi : inv s) by (apply run_inv; apply inv0).
  assert (Ho : all_ok s).
  { apply sane_ok; [apply inv0|apply ok0|]. repeat (apply Forall_cons; [cbn [sane ex_add]; (split; [apply ex_name; [reflexivity|cbn; lia]|split; [exact ex_mac|reflexivity]])|]); apply Forall_nil. }
  pose proof Hi as (_ & Hk & _). cbv zeta. cbn [bstep]. unfold del_port.
  destruct (find_dev (a_ports s) ks (ascii_bytes "vm")) as [[k p]|] eqn:Ef.
  - destruct (find_dev_some _ _ _ _ _ Ef) as [Hin Hnm].
    assert (Pin : In (port_of p) (table s)) by (unfold table; apply (in_map (fun kp => port_of (snd kp))) in Hin; exact Hin).
    rewrite announce_ok; [|right; reflexivity|unfold all_ok in Ho; rewrite Forall_forall in Ho; exact (Ho _ Pin)].
    assert (Ed : (deinit_sock (o_name p) (Ok tt) ;;; Ok tt) = Ok tt) by (unfold deinit_sock; destruct (same _ _); reflexivity).
    cbn [asend]. rewrite Ed. cbn [fst snd]. split; [eexists; reflexivity|].
    unfold table. cbn [a_ports]. rewrite map_map. apply in_map_iff.
    assert (K : a_ports s = a_ports (agent0 s1 s2) ++
      [(3, mkOport 3 [0; 17; 34; 51; 68; 255] (ascii_bytes "vm") 2050 (Some 9%nat)); (4, mkOport 4 [0; 17; 34; 51; 68; 255] (ascii_bytes "vm") 2050 (Some 9%nat))]) by reflexivity.
    destruct (Z.eq_dec k 3) as [->|N].
    + exists (4, mkOport 4 [0; 17; 34; 51; 68; 255] (ascii_bytes "vm") 2050 (Some 9%nat)). split; [reflexivity|].
      unfold ddel. apply filter_In. split; [rewrite K; apply in_or_app; right; cbn; tauto|reflexivity].
    + exists (3, mkOport 3 [0; 17; 34; 51; 68; 255] (ascii_bytes "vm") 2050 (Some 9%nat)). split; [reflexivity|].
      unfold ddel. apply filter_In. split; [rewrite K; apply in_or_app; right; cbn; tauto|]. cbn [fst]. destruct (Z.eqb_spec 3 k); [congruence|reflexivity].
  - exfalso. apply (find_dev_none _ _ _ Ef Hk) in Hp. rewrite Forall_forall in Hp.
    apply (Hp (3, mkOport 3 [0; 17; 34; 51; 68; 255] (ascii_bytes "vm") 2050 (Some 9%nat))); [|reflexivity].
    change (a_ports s) with (a_ports (agent0 s1 s2) ++
      [(3, mkOport 3 [0; 17; 34; 51; 68; 255] (ascii_bytes "vm") 2050 (Some 9%nat)); (4, mkOport 4 [0; 17; 34; 51; 68; 255] (ascii_bytes "vm") 2050 (Some 9%nat))]).
    apply in_or_app. right. cbn. tauto.
Qed.
Print Assumptions C63_same_name_refuted.

Example C63_example :
  let s := fst (brun (agent0 None None) ex_history) in
  let r := bstep s (BDel (ascii_bytes "vm2") [5; 4; 2; 1; 4294967294] None (Ok tt) (Ok tt)) in
  snd r = RDeleted 4 /\ map sp_no (table (fst r)) = [4294967294; 1; 2; 5] /\
  NoDup (map sp_name (table s)) /\ Permutation [5; 4; 2; 1; 4294967294] (map fst (a_ports s)).
Proof.
  split; [vm_compute; reflexivity|]. split; [vm_compute; reflexivity|]. split.
  - match goal with |- NoDup ?l => let v := eval vm_compute in l in change l with v end.
    repeat constructor; cbn [In]; intuition discriminate.
  - match goal with |- Permutation _ ?l => let v := eval vm_compute in l in change l with v end.
    apply NoDup_Permutation; [repeat constructor; cbn; lia|repeat constructor; cbn; lia|intros x; cbn; tauto].
Qed.

(** *** C64: packets out *)

(** The payload of a PACKET_OUT whose first action is an output to a port of the
    table goes to the socket of that port, whole and once, and nothing else
    happens; without a socket it is dropped. *)
Theorem C64_sent_partial : forall s1 s2 os xid b i port max_len acts d ks o k x,
  let s := fst (brun (agent0 s1 s2) os) in
  good (xid, MPacketOut b i (AcOutput port max_len :: acts) d) -> In (k, x) (a_ports s) -> k = port ->
  let r := bstep s (BMsg (mwire xid (MPacketOut b i (AcOutput port max_len :: acts) d)) ks o None) in
  snd r = RDone /\
  a_out (fst r) = a_out s ++ match o_sock x with Some sk => [(sk, d)] | None => [] end /\
  a_wire (fst r) = a_wire s /\ table (fst r) = table s /\ a_flows (fst r) = a_flows s.
Proof.
  intros s1 s2 os xid b i port max_len acts d ks o k x s Hg Hin ->.
  assert (Hi : inv s) by (apply run_inv; apply inv0). destruct Hi as (_ & Hn & _).
  cbv zeta. cbn [bstep]. rewrite packet_out by exact Hg. cbn [out_result]. rewrite (in_dget _ _ _ Hn Hin).
  destruct (o_sock x); cbn [fst snd a_out a_wire a_flows]; repeat split; try reflexivity. rewrite app_nil_r. reflexivity.
Qed.
Print Assumptions C64_sent_partial.

(** Refuted: an output to any other port (FLOOD, ALL, CONTROLLER, IN_PORT, TABLE,
    a port that was deleted) raises a KeyError; a first action that is not an
    output raises an AttributeError even if an output follows; no action at all
    (the way to drop a buffered packet) an IndexError.  Outputs after the first
    are ignored (above: [acts] is arbitrary). *)
Theorem C64_failures_refuted : forall s1 s2 os xid b i acts d ks o po,
  let s := fst (brun (agent0 s1 s2) os) in
  good (xid, MPacketOut b i acts d) ->
  let r := bstep s (BMsg (mwire xid (MPacketOut b i acts d)) ks o po) in
  (acts = [] -> r = (s, RExn IndexError)) /\
  (forall port n l, acts = AcOutput port n :: l -> ~ In port (map fst (a_ports s)) -> r = (s, RExn KeyError)) /\
  (forall a l, acts = a :: l -> (forall port n, a <> AcOutput port n) -> r = (s, RExn AttributeError)).
Proof.
  intros s1 s2 os xid b i acts d ks o po s Hg. cbv zeta. cbn [bstep]. rewrite packet_out by exact Hg.
  split; [intros ->; reflexivity|]. split.
  - intros port n l -> Hn. apply dget_none in Hn. cbn [out_result]. rewrite Hn. reflexivity.
  - intros a l -> Hn. destruct a; try reflexivity. exfalso. eapply Hn. reflexivity.
Qed.
Print Assumptions C64_failures_refuted.

Example C64_example :
  let s := fst (brun (agent0 None None) [ex_add "vm1"]) in
  let m := MPacketOut 4294967295 4294967293 [AcOutput 3 0; AcOutput 4294967291 0] [1; 2; 3] in
  a_out (fst (bstep s (BMsg (mwire 9 m) [] None None))) = [(9%nat, [1; 2; 3])] /\
  snd (bstep s (BMsg (mwire 9 (MPacketOut 4294967295 4294967293 [AcOutput 4294967291 0] [1; 2; 3])) [] None None)) = RExn KeyError /\
  good (9, m).
Proof.
  split; [vm_compute; reflexivity|]. split; [vm_compute; reflexivity|].
  split; [unfold u32; cbn; lia|]. split; [|repeat constructor]. split; [|split; [vm_compute; discriminate|]].
  - unfold fits. cbn [body_fields snd]. repeat (apply Forall_cons; [cbn [in_range]; try exact I; vm_compute; repeat split; try discriminate; reflexivity|]). apply Forall_nil.
  - repeat (apply Forall_cons; [split; [unfold fits; cbn [act_fields]; repeat (apply Forall_cons; [cbn [in_range]; try exact I; cbn; lia|]); apply Forall_nil|exact I]|]). apply Forall_nil.
Qed.

(** *** C65: one bad request does not spoil the others *)

(** An addition that fails because BESS or the socket fails, or because the MAC
    address is not hexadecimal, leaves everything but the counter as it was. *)
Theorem C65_failed_add_partial : forall s dev mac c i o,
  (exists e, c = Err e) \/ (exists e, init_sock dev i = Err e) \/
  (exists n ch, (n < 12)%nat /\ nth_error mac n = Some ch /\ ~ In ch (map fst hex_digits)) ->
  let r := bstep s (BAdd dev mac c i o) in
  table (fst r) = table s /\ a_wire (fst r) = a_wire s /\ a_flows (fst r) = a_flows s /\ a_out (fst r) = a_out s /\
  (snd r = RFull \/ exists e, snd r = RExn e).
Proof.
  intros s dev mac c i o H. cbv zeta. cbn [bstep]. unfold add_port.
  destruct (a_num s + 1 =? 4294967294); [cbn [fst snd]; auto 6|].
  assert (E : exists e, (c ;;; sock <- init_sock dev i ;; hw <- unhex (firstn 12 mac) ;; Ok (mkOport (a_num s + 1) hw dev 2050 sock)) = Err e).
  { destruct H as [[e ->]|[[e E]|(n & ch & Hn & Hc & Hh)]].
    - eexists. reflexivity.
    - rewrite E. destruct c; eexists; reflexivity.
    - destruct c; [|eexists; reflexivity]. cbn [bind]. destruct (init_sock dev i); [|eexists; reflexivity]. cbn [bind].
      destruct (unhex_bad (firstn 12 mac)) as [e ->]; [|eexists; reflexivity].
      apply Exists_exists. exists ch. split; [|exact Hh].
      rewrite <- (firstn_skipn 12 mac) in Hc. destruct (Nat.lt_ge_cases n (length (firstn 12 mac))) as [L|L].
      + rewrite nth_error_app1 in Hc by exact L. eapply nth_error_In. exact Hc.
      + exfalso. rewrite nth_error_app2 in Hc by exact L. rewrite firstn_length in *.
        destruct (Nat.le_ge_cases 12 (length mac)); [lia|]. rewrite skipn_all2 in Hc by lia. destruct (n - Nat.min 12 (length mac))%nat; discriminate Hc. }
  destruct E as [e ->]. cbn [fst snd]. repeat split; try reflexivity. right. eexists. reflexivity.
Qed.
Print Assumptions C65_failed_add_partial.

(** Refuted: after an attempt to add a device with a name of more than 16
    characters or with a character beyond ASCII, no PORT_DESC request is ever
    answered again, whatever happens in between: deleting the device does not
    help, for it fails the same way. *)
Theorem C65_bad_name_refuted : forall s1 s2 os dev mac i sk o os' xid f ks o' po,
  let s := fst (brun (agent0 s1 s2) os) in
  a_num s + 1 <> 4294967294 -> name_bad dev -> mac_ok mac -> init_sock dev i = Ok sk ->
  let s' := fst (brun s (BAdd dev mac (Ok tt) i o :: os')) in
  good (xid, MRequest f (RqPlain 13)) -> Permutation ks (map fst (a_ports s')) ->
  (exists e, snd (bstep s (BAdd dev mac (Ok tt) i o)) = RExn e) /\
  (exists e, bstep s' (BMsg (mwire xid (MRequest f (RqPlain 13))) ks o' po) = (s', RExn e)).
Proof.
  intros s1 s2 os dev mac i sk o os' xid f ks o' po s Hn Hb Hm Hk s' Hg Hp.
  assert (Hi : inv s) by (apply run_inv; apply inv0).
  destruct (bad_add s dev mac i sk o Hi Hn Hm Hb Hk) as (A1 & A2 & _). split; [exact A2|].
  set (p := mkOport (a_num s + 1) (mac_bytes mac) dev 2050 sk) in *.
  destruct (name_bad_err p Hb) as [e He].
  assert (Hin : In (a_num s + 1, p) (a_ports s')).
  { unfold s'. rewrite brun_cons. cbn [fst]. eapply bad_remains; [apply step_inv; exact Hi| |exact He].
    rewrite A1. apply in_or_app. right. left. reflexivity. }
  assert (Hi' : inv s') by (apply run_inv; exact Hi).
  destruct (port_desc_fails s' xid f ks o' po _ p e Hi' Hin He Hg Hp) as [e' E]. exists e'. cbn [bstep]. rewrite E. reflexivity.
Qed.
Print Assumptions C65_bad_name_refuted.

(** A name of 17 characters, deleted again. *)
Example C65_example :
  let os := [ex_add "seventeen-letters"; ex_del "seventeen-letters" [3; 2; 1; 4294967294];
             BMsg (mwire 7 (MRequest 0 (RqPlain 13))) [1; 2; 3; 4294967294] None None] in
  snd (brun (agent0 None None) os) = [RExn AssertionError; RExn AssertionError; RExn AssertionError] /\
  a_wire (fst (brun (agent0 None None) os)) = [] /\ name_bad (ascii_bytes "seventeen-letters").
Proof. split; [vm_compute; reflexivity|]. split; [vm_compute; reflexivity|]. left. vm_compute. lia. Qed.

(** Without such names every PORT_DESC request is answered: C53_ports_partial. *)

(** Proofs about the BESS agent: what it tells the controller. *)

From Coq Require Import Permutation.
From Verif Require Import Py Struct P_Struct M_Ports M_Bess S_Hello S_Ports S_Wire4 S_Msg4 S_Bess
  P_Hello P_Wire4 P_Act4 P_Rebuild4 P_Stat4 P_Msg4 P_MsgParse4 P_MsgRebuild4 P_Bess.
Local Open Scope Z_scope.
Local Open Scope list_scope.

(** *** The type of what is sent *)

Lemma packs_hdr ty n xid b : packs "BBHI" [VInt 4; VInt ty; VInt n; VInt xid] = Ok b ->
  u8 ty /\ 0 <= n < 65536 /\ u32 xid /\ b = enc [U 1 4; U 1 ty; U 2 n; U 4 xid].
Proof.
  change (packs "BBHI" [VInt 4; VInt ty; VInt n; VInt xid])
    with (pack (map shape [U 1 4; U 1 ty; U 2 n; U 4 xid]) (vals [U 1 4; U 1 ty; U 2 n; U 4 xid])).
  intros H.
  assert (F : fits [U 1 4; U 1 ty; U 2 n; U 4 xid]).
  { unfold fits. 
    destruct (Z_le_dec 0 ty), (Z_lt_dec ty 256), (Z_le_dec 0 n), (Z_lt_dec n 65536), (Z_le_dec 0 xid), (Z_lt_dec xid 4294967296);
      try (repeat constructor; cbn; lia);
      exfalso; rewrite pack_unfit in H; try discriminate H; intros F;
      inversion F as [|? ? _ F1]; subst; inversion F1 as [|? ? G1 F2]; subst; inversion F2 as [|? ? G2 F3]; subst;
      inversion F3 as [|? ? G3 _]; subst; cbn in G1, G2, G3; lia. }
  rewrite pack_enc in H by exact F. injection H as <-.
  inversion F as [|? ? _ F1]; subst. inversion F1 as [|? ? G1 F2]; subst. inversion F2 as [|? ? G2 F3]; subst.
  inversion F3 as [|? ? G3 _]; subst. cbn in G1, G2, G3. unfold u8, u32. split; [lia|]. split; [lia|]. split; [lia|reflexivity].
Qed.

Lemma hdr_inv ty x h : hdr ty x = Ok h -> exists xid, u8 ty /\ u32 xid /\ h = enc [U 1 4; U 1 ty; U 2 0; U 4 xid].
Proof.
  unfold hdr, ofp_header. cbn [default py_eqz]. change (4 =? 4) with true. cbn [assert_ bind].
  destruct x as [|z|b|l|l|c l]; cbn [default]; intros H.
  1,2: destruct (packs_hdr _ _ _ _ H) as (H1 & _ & H3 & H4); eexists; split; [exact H1|split; [exact H3|exact H4]].
  all: exfalso; revert H; change (fmt "BBHI") with (Ok [FU 1; FU 1; FU 2; FU 4] : res (list fitem)); unfold packs;
    change (fmt "BBHI") with (Ok [FU 1; FU 1; FU 2; FU 4] : res (list fitem)); cbn [bind pack pack_item];
    destruct (in_u 1 ty); discriminate.
Qed.

Lemma enc_type ty n xid rest : u8 ty -> byte_at (enc [U 1 4; U 1 ty; U 2 n; U 4 xid] ++ rest) 1 = ty.
Proof. intros H. unfold byte_at. cbn. apply Z.mod_small. exact H. Qed.

Lemma ofp_type o ty xid data t m : u8 ty -> u32 xid ->
  ofp_ o 0 (VBytes (enc [U 1 4; U 1 ty; U 2 0; U 4 xid])) data t = Ok m -> byte_at m 1 = ty.
Proof.
  intros Ht Hx H. unfold ofp_ in H. apply bind_ok in H. destruct H as ([[v oft] x] & E & H).
  cbn [header_fields] in E.
  assert (Eu : unpacks "BBHI" (enc [U 1 4; U 1 ty; U 2 0; U 4 xid]) 0 = Ok [VInt 4; VInt ty; VInt 0; VInt xid]).
  { apply (unpacks_enc "BBHI" [U 1 4; U 1 ty; U 2 0; U 4 xid]); [reflexivity| |apply at_whole].
    unfold u8, u32 in *. repeat constructor; cbn; lia. }
  rewrite Eu in E. cbn [bind] in E. apply bind_ok in E. destruct E as (u & _ & E). injection E as <- <- <-.
  apply bind_ok in H. destruct H as (d & _ & H). apply bind_ok in H. destruct H as (b & E2 & H). injection H as <-.
  unfold ofp_header in E2. cbn [default py_eqz] in E2. change (4 =? 4) with true in E2. cbn [assert_ bind default] in E2.
  destruct (packs_hdr _ _ _ _ E2) as (_ & _ & _ & ->). apply enc_type. exact Ht.
Qed.

Definition answers : list string := ["ofp_switch_features"; "ofp_switch_config"; "ofp_role_request"; "ofp_multipart_reply"; "ofp_port_status"]%string.

Lemma bld_type cls ty xid args m : In cls answers -> u8 ty -> u32 xid ->
  bld cls (VBytes (enc [U 1 4; U 1 ty; U 2 0; U 4 xid]) :: args) = Ok m -> byte_at m 1 = ty.
Proof.
  intros Hc Ht Hx H. unfold bld in H. set (h := VBytes (enc [U 1 4; U 1 ty; U 2 0; U 4 xid])) in *.
  destruct Hc as [<-|[<-|[<-|[<-|[<-|[]]]]]].
  - change (arg6 (ofp_switch_features (obj 0 8) 0) (h :: args) = Ok m) in H.
    do 5 (destruct args as [|? args]; [discriminate H|]). destruct args; [|discriminate H].
    cbn [arg6] in H. unfold ofp_switch_features, sized, message in H. inv_bind H. inv_bind H. injection H as <-. inv_bind Ha. eapply ofp_type; eassumption.
  - change (arg3 (ofp_switch_config (obj 0 8) 0) (h :: args) = Ok m) in H.
    do 2 (destruct args as [|? args]; [discriminate H|]). destruct args; [|discriminate H].
    cbn [arg3] in H. unfold ofp_switch_config, sized, message in H. inv_bind H. inv_bind H. injection H as <-. inv_bind Ha. eapply ofp_type; eassumption.
  - change (arg3 (ofp_role_request (obj 0 8) 0) (h :: args) = Ok m) in H.
    do 2 (destruct args as [|? args]; [discriminate H|]). destruct args; [|discriminate H].
    cbn [arg3] in H. unfold ofp_role_request, message in H. inv_bind H. eapply ofp_type; eassumption.
  - change (arg4 (ofp_multipart_reply (obj 0 8) 0) (h :: args) = Ok m) in H.
    do 3 (destruct args as [|? args]; [discriminate H|]). destruct args; [|discriminate H].
    cbn [arg4] in H. unfold ofp_multipart_reply, message in H. inv_bind H. inv_bind H. eapply ofp_type; eassumption.
  - change (arg3 (ofp_port_status (obj 0 8) 0) (h :: args) = Ok m) in H.
    do 2 (destruct args as [|? args]; [discriminate H|]). destruct args; [|discriminate H].
    cbn [arg3] in H. unfold ofp_port_status, message in H. inv_bind H. eapply ofp_type; eassumption.
Qed.

Lemma respond_quiet s cls ty x args o : In cls answers -> ty <> 12 ->
  statuses (a_wire (fst (respond s cls ty x args o))) = statuses (a_wire s).
Proof.
  intros Hc Hn. unfold respond. match goal with |- context [match ?c with Ok _ => _ | Err _ => _ end] => destruct c as [m|e] eqn:E end; [|reflexivity].
  destruct o as [e|]; [reflexivity|]. cbn [asend fst a_wire]. unfold statuses. rewrite filter_app.
  apply bind_ok in E. destruct E as (h & Eh & E). apply bind_ok in E. destruct E as (a & _ & E).
  destruct (hdr_inv _ _ _ Eh) as (xid & Ht & Hx & ->).
  cbn [filter]. rewrite (bld_type cls ty xid a m Hc Ht Hx E). destruct (Z.eqb_spec ty 12); [contradiction|]. apply app_nil_r.
Qed.

Lemma switch_quiet s m ks o po : statuses (a_wire (fst (switch_proc s m ks o po))) = statuses (a_wire s).
Proof.
  unfold switch_proc.
  repeat match goal with
  | |- context [match ?c with _ => _ end] =>
      match c with
      | respond _ _ _ _ _ _ => fail 1
      | _ => destruct c
      end
  end; cbn [fst a_wire]; try reflexivity; apply respond_quiet; try lia; unfold answers; cbn [In]; tauto.
Qed.

(** *** What a controller following PORT_STATUS knows *)

Definition all_ok (s : agent) : Prop := Forall (fun p => port_ok p) (table s).
Definition ev_msg (e : Z * Z * sport) : bytes := port_status 4 (fst (fst e)) (snd (fst e)) (snd e).
Definition ev_ok (e : Z * Z * sport) : Prop :=
  0 <= fst (fst e) < 4294967296 /\ 0 <= snd (fst e) < 256 /\ sport_ok 4 (snd e).

Lemma existsb_no (l : list sport) p : existsb (same_no p) l = true <-> In (sp_no p) (map sp_no l).
Proof.
  rewrite existsb_exists, in_map_iff. unfold same_no. split.
  - intros (q & H1 & H2). exists q. split; [lia|exact H1].
  - intros (q & H1 & H2). exists q. split; [exact H2|lia].
Qed.

Lemma statuses_one l r p : u8 r -> statuses (l ++ [port_status 4 0 r p]) = statuses l ++ [port_status 4 0 r p].
Proof. intros _. unfold statuses. rewrite filter_app. reflexivity. Qed.

Lemma told_step s op : inv s -> all_ok s -> walked s op -> sane op -> clean op ->
  exists es, statuses (a_wire (fst (bstep s op))) = statuses (a_wire s) ++ map ev_msg es /\
    table_run (table s) es = table (fst (bstep s op)) /\ Forall ev_ok es /\ all_ok (fst (bstep s op)).
Proof.
  intros Hi Ho Hw Hs Hcl. pose proof Hi as (_ & Hnd & Heq & _).
  destruct op as [dev mac c i o|dev ks o di de|m ks o po].
  - pose proof (bstep_change s (BAdd dev mac c i o) Hi) as Hc.
    destruct Hs as (Hn & Hm & ->). destruct (bstep s (BAdd dev mac c i None)) as [s' r] eqn:Eb. cbn [fst].
    assert (Q : a_ports s' = a_ports s -> exists es, statuses (a_wire s') = statuses (a_wire s) ++ map ev_msg es /\
      table_run (table s) es = table s' /\ Forall ev_ok es /\ all_ok s').
    { intros Ep. exists []. rewrite app_nil_r. assert (Et : table s' = table s) by (unfold table; congruence).
      split; [|split; [symmetry; exact Et|split; [constructor|unfold all_ok; rewrite Et; exact Ho]]].
      f_equal. cbn [bstep] in Eb. unfold add_port in Eb. destruct (Z.eqb_spec (a_num s + 1) 4294967294) as [E|N]; [congruence|].
      cbv zeta in Eb. cbn [a_ports a_num a_flows a_wire a_out] in Eb.
      destruct c as [[]|e]; cbn [bind] in Eb; [|injection Eb as <- <-; reflexivity].
      destruct (init_sock dev i) as [sk|e]; cbn [bind] in Eb; [|injection Eb as <- <-; reflexivity].
      rewrite unhex_ok in Eb by exact Hm. cbn [bind] in Eb. rewrite dset_new in Eb by (apply fresh; assumption).
      exfalso. match type of Eb with context [announce ?s1 ?r ?p ?o] => destruct (announce_facts s1 r p o) as (F1 & _); destruct (announce s1 r p o) as [s2 [u|e]] end;
        cbn [fst a_ports] in F1; injection Eb as <- _; rewrite F1 in Ep; apply (f_equal (@length _)) in Ep; rewrite app_length in Ep; cbn in Ep; lia. }
    inversion Hc as [x1 x2 C1 C2 C3 C4|x1 e C1 C2 C3|dev' mac' c' i' o' x1 p x2 C0 C1 C2 C3 C4 C5 C6 C7 C8|dev' ks o' di de x1 k p C0 C1 C2 C3 C4]; subst.
    + apply Q. exact C1.
    + apply Q. exact C1.
    + injection C0 as -> -> -> -> <-. clear Q. rewrite unhex_ok in C7 by exact Hm. injection C7 as C7. symmetry in C7.
      destruct (sane_added s (o_name p) mac' c' i' s' p r Hi Eb Hn Hm C1 C4 eq_refl C6 C7) as (Pok & _ & Ew).
      exists [(0, 0, port_of p)]. rewrite Ew. cbn [map ev_msg fst snd].
      assert (Et : table s' = table s ++ [port_of p]) by (unfold table; rewrite C1, map_app; reflexivity).
      split; [apply statuses_one; unfold u8; lia|]. split; [|split].
      * cbn [table_run apply_event].
        assert (X : existsb (same_no (port_of p)) (table s) = false).
        { destruct (existsb (same_no (port_of p)) (table s)) eqn:X; [|reflexivity]. exfalso. apply existsb_no in X.
          rewrite table_nos in X by exact Heq. cbn [port_of sp_no] in X. rewrite C4 in X. exact (fresh s Hi C3 X). }
        rewrite X. symmetry. exact Et.
      * constructor; [|constructor]. unfold ev_ok. cbn [fst snd]. split; [lia|]. split; [lia|]. apply Pok.
      * unfold all_ok. rewrite Et. apply Forall_app. split; [exact Ho|]. constructor; [exact Pok|constructor].
    + discriminate C0.
  - destruct Hcl as (-> & -> & ->). cbn [bstep]. unfold del_port. cbn [walked] in Hw.
    destruct (find_dev (a_ports s) ks dev) as [[k p]|] eqn:Ef.
    + destruct (find_dev_some _ _ _ _ _ Ef) as [Hin Hnm].
      assert (Pin : In (port_of p) (table s)) by (unfold table; apply (in_map (fun kp => port_of (snd kp))) in Hin; exact Hin).
      assert (Pok : port_ok (port_of p)) by (unfold all_ok in Ho; rewrite Forall_forall in Ho; exact (Ho _ Pin)).
      assert (Ek : k = o_no p) by (rewrite Forall_forall in Heq; exact (Heq _ Hin)).
      rewrite announce_ok by (try (right; reflexivity); exact Pok). cbn [asend].
      assert (Ed : (deinit_sock (o_name p) (Ok tt) ;;; Ok tt) = Ok tt) by (unfold deinit_sock; destruct (same _ _); reflexivity).
      rewrite Ed. cbn [fst a_wire a_ports a_num a_flows a_out].
      exists [(0, 1, port_of p)]. cbn [map ev_msg fst snd].
      assert (Et : forall n fl w ou, table (mkAgent (ddel k (a_ports s)) n fl w ou) = filter (fun q => negb (sp_no q =? k)) (table s)).
      { intros. unfold table at 1. cbn [a_ports]. apply table_del. exact Heq. }
      split; [apply statuses_one; unfold u8; lia|]. split; [|split].
      * rewrite Et. cbn [table_run apply_event].
        assert (X : existsb (same_no (port_of p)) (table s) = true) by (apply existsb_no; apply in_map; exact Pin).
        rewrite X. apply filter_ext. intros q. unfold same_no. cbn [port_of sp_no]. rewrite <- Ek, (Z.eqb_sym (sp_no q)). reflexivity.
      * constructor; [|constructor]. unfold ev_ok. cbn [fst snd]. split; [lia|]. split; [lia|]. apply Pok.
      * unfold all_ok. rewrite Et. apply Forall_filter'. exact Ho.
    + exists []. cbn [fst map]. rewrite app_nil_r. auto.
  - cbn [bstep]. pose proof (switch_quiet s m ks o po) as Hq. destruct (switch_ports s m ks o po) as [F1 F2].
    destruct (switch_proc s m ks o po) as [s' [u|e]]; cbn [fst] in *; exists []; cbn [map]; rewrite app_nil_r;
      (assert (Et : table s' = table s) by (unfold table; congruence));
      (split; [exact Hq|split; [symmetry; exact Et|split; [constructor|unfold all_ok; rewrite Et; exact Ho]]]).
Qed.

Lemma table_run_app es fs : forall t, table_run t (es ++ fs) = table_run (table_run t es) fs.
Proof. induction es as [|[[x r] p] es IH]; intros t; [reflexivity|]. cbn [Datatypes.app table_run]. apply IH. Qed.

Lemma told os : forall s, inv s -> all_ok s -> throughout walked s os -> Forall sane os -> Forall clean os ->
  exists es, statuses (a_wire (fst (brun s os))) = statuses (a_wire s) ++ map ev_msg es /\
    table_run (table s) es = table (fst (brun s os)) /\ Forall ev_ok es.
Proof.
  induction os as [|op os IH]; intros s Hi Ho Hw Hs Hcl.
  - exists []. cbn [brun fst map]. rewrite app_nil_r. auto.
  - destruct Hw as [Hw Hws]. inversion Hs; subst. inversion Hcl; subst. rewrite brun_cons. cbn [fst].
    destruct (told_step s op Hi Ho Hw H1 H3) as (es & E1 & E2 & E3 & E4).
    destruct (IH (fst (bstep s op)) (step_inv s op Hi) E4 Hws H2 H4) as (fs & F1 & F2 & F3).
    exists (es ++ fs). rewrite map_app, table_run_app, E2. split; [rewrite F1, E1, <- app_assoc; reflexivity|].
    split; [exact F2|]. apply Forall_app. auto.
Qed.

Lemma ok0 s1 s2 : all_ok (agent0 s1 s2).
Proof.
  assert (K : forall n hw nm c sk, 0 <= n < 4294967296 -> length hw = 6%nat -> name_ok nm -> c = 0 -> port_ok (port_of (mkOport n hw nm c sk))).
  { intros n hw nm c sk H1 H2 H3 ->. destruct (name_ok_facts nm H3) as (N1 & N2 & N3).
    unfold port_ok, sport_ok, port_of. cbn [sp_no sp_hw sp_name sp_words o_no o_hw o_name o_curr Z.eqb Pos.eqb].
    split; [|exact N3]. split; [change (0 <= n < 4294967296); exact H1|]. split; [exact H2|]. split; [exact N1|]. split; [exact N2|].
    split; [reflexivity|]. repeat (apply Forall_cons; [lia|]); apply Forall_nil. }
  unfold all_ok, table, agent0. cbn [a_ports map snd].
  repeat (apply Forall_cons; [apply K; [lia|reflexivity| |reflexivity]|]); try apply Forall_nil;
    (split; [cbn; lia|]); match goal with |- Forall _ ?l => let v := eval vm_compute in l in change l with v end;
    repeat (apply Forall_cons; [lia|]); apply Forall_nil.
Qed.

(** *** Flows *)

Lemma parse_good xid m : good (xid, m) -> exists off, parse (length (mwire xid m)) (mwire xid m) 0 = Ok (msg_parsed xid m, off).
Proof.
  intros (Hx & Hok & Hp). cbn [fst snd] in *. eexists. apply msg_parse; try assumption; [apply at_whole|lia].
Qed.

Lemma bstep_flows s op : (forall m ks o po, op <> BMsg m ks o po) -> a_flows (fst (bstep s op)) = a_flows s.
Proof.
  intros Hn. destruct op as [dev mac c i o|dev ks o di de|m ks o po]; cbn [bstep].
  - unfold add_port. destruct (a_num s + 1 =? 4294967294); [reflexivity|]. cbv zeta.
    match goal with |- context [match ?c with Ok _ => _ | Err _ => _ end] => destruct c end; [|reflexivity].
    match goal with |- context [announce ?s1 ?r ?p ?o] => destruct (announce_facts s1 r p o) as (_ & _ & F & _); destruct (announce s1 r p o) as [s2 [u|e]] end; exact F.
  - unfold del_port. destruct (find_dev (a_ports s) ks dev) as [[k p]|]; [|reflexivity].
    destruct (announce_facts s 1 p o) as (_ & _ & F & _). destruct (announce s 1 p o) as [s2 [u|e]]; [|exact F].
    match goal with |- context [match ?c with Ok _ => _ | Err _ => _ end] => destruct c end; exact F.
  - exfalso. eapply Hn. reflexivity.
Qed.

Lemma msg_parsed_head xid m : exists cls fs, msg_parsed xid m = VTup cls (VTup "ofp_header" [VInt 4; VInt (mtype m); VInt (8 + zlen (body m)); VInt xid] :: fs).
Proof. unfold msg_parsed, hdr_view. destruct m; do 2 eexists; reflexivity. Qed.

Lemma switch_other s xid m ks o po : good (xid, m) -> mtype m <> 14 -> a_flows (fst (switch_proc s (mwire xid m) ks o po)) = a_flows s.
Proof.
  intros Hg Hn. destruct (parse_good xid m Hg) as (off & E). unfold switch_proc. rewrite E.
  destruct (msg_parsed_head xid m) as (cls & fs & ->).
  destruct (Z.eqb_spec (mtype m) 14) as [X|_]; [contradiction|].
  repeat match goal with
  | |- context [match ?c with _ => _ end] =>
      match c with
      | respond _ _ _ _ _ _ => fail 1
      | _ => destruct c
      end
  end; cbn [fst a_flows]; try reflexivity; apply respond_facts.
Qed.

Lemma good_flow xid m : good (xid, m) -> mtype m = 14 -> exists c, cookie_of m = Some c.
Proof.
  intros (_ & (_ & _ & H) & _) E. cbn [snd] in *. destruct m; try discriminate E; cbn [mtype] in E.
  - subst. destruct H as [_ H]. exfalso. apply H. cbn. tauto.
  - subst. exfalso. cbn in H. lia.
  - eexists. reflexivity.
  - subst. exfalso. cbn in H. lia.
  - subst. exfalso. cbn in H. lia.
Qed.

Lemma switch_flow s xid m c ks o po : good (xid, m) -> cookie_of m = Some c ->
  switch_proc s (mwire xid m) ks o po =
  match dget c (a_flows s) with
  | None => (mkAgent (a_ports s) (a_num s) (dset c (msg_parsed xid m) (a_flows s)) (a_wire s) (a_out s), Ok tt)
  | Some _ => (s, Err TypeError)
  end.
Proof.
  intros Hg Hc. destruct (parse_good xid m Hg) as (off & E). unfold switch_proc. rewrite E.
  destruct m; try discriminate Hc. injection Hc as ->. reflexivity.
Qed.

Definition entry (xm : Z * omsg) : list (Z * pyval) :=
  match cookie_of (snd xm) with Some c => [(c, msg_parsed (fst xm) (snd xm))] | None => [] end.

Lemma flows_all os : forall s seen xms,
  received os = map (fun xm => mwire (fst xm) (snd xm)) xms -> Forall good xms ->
  (forall c, existsb (Z.eqb c) seen = true <-> In c (map fst (a_flows s))) ->
  a_flows (fst (brun s os)) = a_flows s ++ flat_map entry (firsts seen xms).
Proof.
  induction os as [|op os IH]; intros s seen xms Hr Hg Hs.
  - destruct xms; [|discriminate Hr]. cbn. rewrite app_nil_r. reflexivity.
  - rewrite brun_cons. cbn [fst].
    destruct op as [dev mac c i o|dev ks o di de|m ks o po].
    1,2: rewrite (IH _ seen xms); [rewrite bstep_flows by discriminate; reflexivity|exact Hr|exact Hg|rewrite bstep_flows by discriminate; exact Hs].
    cbn [received flat_map Datatypes.app] in Hr. destruct xms as [|[xid om] xms]; [discriminate Hr|]. cbn [map fst snd] in Hr.
    injection Hr as -> Hr. inversion Hg as [|? ? G1 G2]; subst. cbn [firsts snd].
    assert (Eb : fst (bstep s (BMsg (mwire xid om) ks o po)) = fst (switch_proc s (mwire xid om) ks o po)).
    { cbn [bstep]. destruct (switch_proc s (mwire xid om) ks o po) as [s' [u|e]]; reflexivity. }
    rewrite Eb. destruct (cookie_of om) as [c|] eqn:Ec.
    + rewrite (switch_flow s xid om c ks o po G1 Ec). destruct (existsb (Z.eqb c) seen) eqn:Ex.
      * assert (Hi : dget c (a_flows s) <> None) by (rewrite dget_none; apply Hs in Ex; tauto).
        destruct (dget c (a_flows s)); [|congruence]. cbn [fst]. apply IH; assumption.
      * assert (Hn : ~ In c (map fst (a_flows s))) by (intros X; apply Hs in X; congruence).
        pose proof Hn as Hn'. apply dget_none in Hn'. rewrite Hn'. cbn [fst].
        rewrite dset_new by exact Hn. rewrite (IH _ (c :: seen) xms Hr G2).
        -- cbn [a_flows flat_map]. unfold entry at 2. cbn [fst snd]. rewrite Ec, <- app_assoc. reflexivity.
        -- intros c'. cbn [a_flows existsb]. rewrite map_app, in_app_iff, orb_true_iff, Hs. cbn [map fst In]. rewrite Z.eqb_eq. intuition.
    + rewrite (IH _ seen xms Hr G2); [|]; rewrite switch_other; try reflexivity; try exact G1; try exact Hs;
        intros X; destruct (good_flow xid om G1 X) as [c E]; congruence.
Qed.

Lemma firsts_nodup xms : forall seen, NoDup (map fst (flat_map entry (firsts seen xms))) /\
  (forall c, In c seen -> ~ In c (map fst (flat_map entry (firsts seen xms)))).
Proof.
  induction xms as [|[xid m] xms IH]; intros seen; cbn [firsts snd]; [split; [constructor|auto]|].
  destruct (cookie_of m) as [c|] eqn:Ec; [|apply IH]. destruct (existsb (Z.eqb c) seen) eqn:Ex; [apply IH|].
  cbn [flat_map]. unfold entry at 1 3. cbn [fst snd]. rewrite Ec. cbn [Datatypes.app map fst].
  destruct (IH (c :: seen)) as [I1 I2]. split; [constructor; [apply I2; left; reflexivity|exact I1]|].
  intros c' Hc' [<-|X].
  - assert (existsb (Z.eqb c) seen = true) by (apply existsb_exists; exists c; split; [exact Hc'|apply Z.eqb_refl]). congruence.
  - exact (I2 c' (or_intror Hc') X).
Qed.

Lemma firsts_good xms : forall seen, Forall good xms -> Forall (fun xm => good xm /\ exists c, cookie_of (snd xm) = Some c) (firsts seen xms).
Proof.
  induction xms as [|xm xms IH]; intros seen H; cbn [firsts]; [constructor|]. inversion H; subst.
  destruct (cookie_of (snd xm)) as [c|] eqn:Ec; [|apply IH; assumption].
  destruct (existsb (Z.eqb c) seen); [apply IH; assumption|]. constructor; [split; [assumption|eauto]|apply IH; assumption].
Qed.

Lemma stat_ok xm st : good xm -> stat_of (snd xm) = [st] -> flow_stat_ok st /\ bflow (msg_parsed (fst xm) (snd xm)) = Ok (flow_stat_wire st).
Proof.
  destruct xm as [xid m]. intros (_ & (Hf & Hl & Hx) & _) E. cbn [fst snd] in *. destruct m; try discriminate E. cbn [stat_of] in E. injection E as <-.
  destruct Hx as [Hm Hi]. unfold body in Hl. rewrite enc_zlen in Hl. cbn [body_fields flen fld_len] in Hl.
  cbn [body_fields] in Hf. unfold fits in Hf.
  assert (Ok : flow_stat_ok (FlowStat table 1 2 prio idle hard flags cookie 0 0 m is)).
  { split; [|split; assumption]. cbn [flow_stat_fields flow_stat_fixed Datatypes.app]. unfold fits.
    repeat match goal with H : Forall in_range (_ :: _) |- _ => inversion H; subst; clear H end.
    repeat match goal with H : in_range _ |- _ => cbn [in_range] in H end.
    repeat (apply Forall_cons; [cbn [in_range]; try exact I; try assumption; try (cbn; lia)|]); [|apply Forall_nil].
    unfold zlen. change (256 ^ Z.of_nat 2) with 65536. lia. }
  split; [exact Ok|].
  pose proof (flow_stat_build 0 9 _ _ (flow_stat_parsed_arg (FlowStat table 1 2 prio idle hard flags cookie 0 0 m is)) (flow_stat_padded_ok _ Ok) ltac:(lia)) as B.
  unfold flow_stat_wire in B |- *. rewrite flow_stat_padded_fields in B. exact B.
Qed.

Lemma mapM_ok {A B} (f : A -> res B) (g : A -> B) l : Forall (fun x => f x = Ok (g x)) l -> mapM f l = Ok (map g l).
Proof. induction 1 as [|x l E _ IH]; [reflexivity|]. cbn [mapM map]. rewrite E. cbn [bind]. rewrite IH. reflexivity. Qed.

Lemma reply_joined s xid mty bs o r : In mty [1; 13] -> rp_type r = mty -> rp_arg (VList (map VBytes bs)) r ->
  rp_ok r -> u32 xid -> zlen (enc (rp_fields r)) <= 65519 ->
  respond s "ofp_multipart_reply" 19 (VInt xid) (Ok [VInt mty; VInt 0; VList [VBytes (concat bs)]]) o = asend s (mwire xid (MReply 0 r)) o.
Proof.
  intros Hm Ht Ha Hok Hx Hl. 
  assert (Ok' : msg_ok (MReply 0 r)).
  { split; [|split; [|exact Hok]].
    - cbn [body_fields]. rewrite Ht. unfold fits. destruct Hm as [<-|[<-|[]]]; repeat constructor; cbn; lia.
    - unfold body. cbn [body_fields]. rewrite enc_zlen. cbn [flen fld_len]. unfold zlen in Hl. lia. }
  rewrite <- (respond_msg s "ofp_multipart_reply" xid [VInt mty; VInt 0; VList (map VBytes bs)] o (MReply 0 r)); [|rewrite <- Ht; constructor; exact Ha|exact Ok'|exact Hx].
  unfold respond. cbn [mtype]. rewrite hdr_eq by (unfold u8; try exact Hx; lia). cbn [bind]. rewrite multipart_joined by exact Hm. reflexivity.
Qed.

Lemma reply_too_big s xid mty bs o : In mty [1; 13] -> u32 xid -> 65519 < zlen (concat bs) ->
  respond s "ofp_multipart_reply" 19 (VInt xid) (Ok [VInt mty; VInt 0; VList [VBytes (concat bs)]]) o = (s, Err StructError).
Proof.
  intros Hm Hx Hl. unfold respond. rewrite hdr_eq by (unfold u8; try exact Hx; lia). cbn [bind].
  rewrite (multipart_big _ mty bs xid Hm Hx eq_refl Hl). reflexivity.
Qed.

Lemma items_bytes {A} (arg : pyval -> A -> Prop) (wire : A -> bytes) l : (forall x, arg (VBytes (wire x)) x) ->
  items_arg arg (VList (map VBytes (map wire l))) l.
Proof.
  intros H. right. exists (map VBytes (map wire l)). split; [left; reflexivity|].
  induction l as [|x l IH]; constructor; auto.
Qed.

(** The stored flows, in the order in which they are walked. *)
Lemma walked_flows s fms ks : a_flows s = flat_map entry fms -> NoDup (map fst (a_flows s)) ->
  Forall (fun xm => good xm /\ exists c, cookie_of (snd xm) = Some c) fms -> Permutation ks (map fst (a_flows s)) ->
  exists l, Permutation l fms /\
    mapM bflow (dvalues ks (a_flows s)) = Ok (map flow_stat_wire (flat_map (fun xm => stat_of (snd xm)) l)) /\
    Forall flow_stat_ok (flat_map (fun xm => stat_of (snd xm)) l).
Proof.
  intros Hf Hn Hg Hp. pose proof (dvalues_perm ks (a_flows s) Hn Hp) as Hv.
  assert (Em : map snd (a_flows s) = map (fun xm => msg_parsed (fst xm) (snd xm)) fms).
  { rewrite Hf. clear - Hg. induction Hg as [|xm l (_ & c & Ec) _ IH]; [reflexivity|]. cbn [flat_map map]. rewrite map_app, IH.
    unfold entry. rewrite Ec. reflexivity. }
  rewrite Em in Hv. destruct (Permutation_map_inv _ _ Hv) as (l & El & Hl). apply Permutation_sym in Hl.
  exists l. split; [exact Hl|]. rewrite El.
  assert (Hgl : Forall (fun xm => good xm /\ exists c, cookie_of (snd xm) = Some c) l).
  { rewrite Forall_forall in *. intros x Hx. apply Hg. apply (Permutation_in _ Hl). exact Hx. }
  clear - Hgl. induction Hgl as [|xm l [G (c & Ec)] _ (I1 & I2)]; [split; [reflexivity|constructor]|].
  assert (exists st, stat_of (snd xm) = [st]) as [st Est] by (destruct (snd xm); try discriminate Ec; eexists; reflexivity).
  destruct (stat_ok xm st G Est) as [S1 S2]. cbn [map mapM flat_map]. rewrite S2, Est. cbn [bind]. rewrite I1.
  cbn [bind Datatypes.app map]. split; [reflexivity|constructor; assumption].
Qed.

Lemma flow_request_reply s xid f t p g c k mt ks o po fms :
  good (xid, MRequest f (RqFlow t p g c k mt)) ->
  a_flows s = flat_map entry fms -> NoDup (map fst (a_flows s)) ->
  Forall (fun xm => good xm /\ exists c, cookie_of (snd xm) = Some c) fms -> Permutation ks (map fst (a_flows s)) ->
  exists l, Permutation l fms /\
    let sts := flat_map (fun xm => stat_of (snd xm)) l in
    switch_proc s (mwire xid (MRequest f (RqFlow t p g c k mt))) ks o po =
    if zlen (concat (map flow_stat_wire sts)) <=? 65519 then asend s (mwire xid (MReply 0 (RpFlow sts))) o else (s, Err StructError).
Proof.
  intros Hg Hf Hn Hgs Hp. destruct (walked_flows s fms ks Hf Hn Hgs Hp) as (l & Hl & Em & Hok). exists l. split; [exact Hl|]. cbv zeta.
  destruct (parse_good _ _ Hg) as (off & E). unfold switch_proc. rewrite E. destruct Hg as (Hx & _). cbn [fst] in Hx.
  cbn [msg_parsed hdr_view mtype rq_type Z.eqb Pos.eqb]. unfold joined. rewrite Em. cbn [bind].
  destruct (Z.leb_spec (zlen (concat (map flow_stat_wire (flat_map (fun xm => stat_of (snd xm)) l)))) 65519) as [L|L].
  - apply reply_joined; try assumption; [left; reflexivity|reflexivity| | |].
    + constructor. apply (items_bytes flow_stat_arg flow_stat_wire). intros x. constructor.
    + split; [repeat constructor|exact Hok].
    + cbn [rp_fields]. rewrite enc_R. exact L.
  - apply reply_too_big; try assumption. left. reflexivity.
Qed.

Lemma port_request_reply s xid f ks o po : good (xid, MRequest f (RqPlain 13)) -> inv s -> all_ok s -> Permutation ks (keys s) ->
  exists l, Permutation l (table s) /\
    switch_proc s (mwire xid (MRequest f (RqPlain 13))) ks o po =
    if zlen (concat (map port_wire l)) <=? 65519 then asend s (mwire xid (MReply 0 (RpPortDesc l))) o else (s, Err StructError).
Proof.
  intros Hg (_ & Hn & Heq & _) Hok Hp. pose proof (dvalues_perm ks (a_ports s) Hn Hp) as Hv.
  exists (map port_of (dvalues ks (a_ports s))).
  assert (Hl : Permutation (map port_of (dvalues ks (a_ports s))) (table s)).
  { transitivity (map port_of (map snd (a_ports s))); [apply Permutation_map; exact Hv|]. unfold table. rewrite map_map. apply Permutation_refl. }
  split; [exact Hl|].
  assert (Hp2 : Forall port_ok (map port_of (dvalues ks (a_ports s)))).
  { unfold all_ok in Hok. rewrite Forall_forall in *. intros x Hx. apply Hok. apply (Permutation_in _ Hl). exact Hx. }
  destruct (parse_good _ _ Hg) as (off & E). unfold switch_proc. rewrite E. destruct Hg as (Hx & _). cbn [fst] in Hx.
  cbn [msg_parsed hdr_view mtype rq_type Z.eqb Pos.eqb]. unfold joined.
  assert (Em : mapM bport (dvalues ks (a_ports s)) = Ok (map port_wire (map port_of (dvalues ks (a_ports s))))).
  { rewrite map_map. apply mapM_ok. clear - Hp2. induction (dvalues ks (a_ports s)) as [|p l IH]; [constructor|].
    cbn [map] in Hp2. inversion Hp2; subst. constructor; [apply bport_ok; assumption|apply IH; assumption]. }
  rewrite Em. cbn [bind].
  destruct (Z.leb_spec (zlen (concat (map port_wire (map port_of (dvalues ks (a_ports s)))))) 65519) as [L|L].
  - apply reply_joined; try assumption; [right; left; reflexivity|reflexivity| | |].
    + constructor. apply (items_bytes port_arg port_wire). intros x. constructor.
    + split; [repeat constructor|exact Hp2].
    + cbn [rp_fields]. rewrite enc_R. exact L.
  - apply reply_too_big; try assumption. right. left. reflexivity.
Qed.

Lemma desc_request_reply s xid f ks o po : good (xid, MRequest f (RqPlain 0)) ->
  switch_proc s (mwire xid (MRequest f (RqPlain 0))) ks o po = asend s (mwire xid (MReply 0 desc_reply)) o.
Proof.
  intros Hg. destruct (parse_good _ _ Hg) as (off & E). unfold switch_proc. rewrite E. destruct Hg as (Hx & _). cbn [fst] in Hx.
  cbn [msg_parsed hdr_view mtype rq_type]. cbv beta iota delta [Z.eqb Pos.eqb].
  assert (Rk : rp_ok desc_reply).
  { split; [cbn [desc_reply rp_fields]; repeat (apply Forall_cons; [exact I|]); apply Forall_nil|]. vm_compute. repeat split; lia. }
  set (dv := [VBytes (ascii_bytes "UC Berkeley"); VBytes (ascii_bytes "Intel Xeon"); VBytes (ascii_bytes "BESS"); VBytes (ascii_bytes "commit-6e343"); VNone]).
  assert (Eb : bld "ofp_desc" dv = Ok (enc (rp_fields desc_reply))).
  { exact (desc_build _ _ _ _ _ _ _ _ _ _ (or_introl eq_refl) (or_introl eq_refl) (or_introl eq_refl) (or_introl eq_refl) (or_intror (conj eq_refl eq_refl)) Rk). }
  rewrite Eb. cbn [bind].
  assert (Ok' : msg_ok (MReply 0 desc_reply)).
  { split; [|split; [|exact Rk]].
    - cbn [body_fields rp_type desc_reply]. unfold fits. repeat (apply Forall_cons; [cbn; lia || exact I|]). apply Forall_nil.
    - unfold body. cbn [body_fields desc_reply rp_fields]. rewrite enc_zlen. cbn [flen fld_len]. unfold padded. 
      match goal with |- ?x <= _ => let v := eval vm_compute in x in change x with v end. lia. }
  rewrite <- (respond_msg s "ofp_multipart_reply" xid [VInt 0; VInt 0; VTup "ofp_desc" dv] o (MReply 0 desc_reply)); [| |exact Ok'|exact Hx].
  - unfold respond. cbn [mtype]. rewrite hdr_eq by (unfold u8; try exact Hx; lia). cbn [bind].
    set (h := enc _). unfold bld.
    change (call (obj 0 8) 0 "ofp_multipart_reply" [VBytes h; VInt 0; VInt 0; VTup "ofp_desc" dv])
      with (b <- obj 0 8 (VTup "ofp_desc" dv) ;; message (obj 0 8) 0 (VBytes h) (VInt 19) (pack_app "HH4x" [VInt 0; VInt 0] b)).
    assert (Eo : obj 0 8 (VTup "ofp_desc" dv) = Ok (enc (rp_fields desc_reply))) by (rewrite <- Eb; reflexivity). rewrite Eo. reflexivity.
  - apply (XA_reply 0 (VTup "ofp_desc" dv) desc_reply). unfold desc_reply, dv. constructor; try (left; reflexivity). right. split; reflexivity.
Qed.

(** Requests without multipart. *)
Lemma plain_reply s xid m cls args r ks o po : good (xid, m) -> msg_ok r -> msg_args cls args r ->
  (m = MPlain 5 [] /\ r = MFeatures 1 2 3 0 15 /\ cls = "ofp_switch_features"%string /\ args = map VInt [1; 2; 3; 0; 15]) \/
  (m = MPlain 7 [] /\ r = MConfig 8 0 65509 /\ cls = "ofp_switch_config"%string /\ args = map VInt [0; 65509]) \/
  (exists role gen, m = MRole 24 role gen /\ r = MRole 25 role gen /\ cls = "ofp_role_request"%string /\ args = map VInt [role; gen]) ->
  switch_proc s (mwire xid m) ks o po = asend s (mwire xid r) o.
Proof.
  intros Hg Hr Ha Hc. destruct (parse_good _ _ Hg) as (off & E). unfold switch_proc. rewrite E. destruct Hg as (Hx & _). cbn [fst] in Hx.
  destruct Hc as [(-> & -> & -> & ->)|[(-> & -> & -> & ->)|(role & gen & -> & -> & -> & ->)]];
    cbn [msg_parsed hdr_view mtype Z.eqb Pos.eqb].
  - exact (respond_msg s _ xid _ o _ Ha Hr Hx).
  - exact (respond_msg s _ xid _ o _ Ha Hr Hx).
  - exact (respond_msg s _ xid _ o _ Ha Hr Hx).
Qed.

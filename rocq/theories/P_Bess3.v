(** Proofs about the BESS agent: requests answered, packets sent out, names that
    cannot be described. *)

From Coq Require Import Permutation.
From Verif Require Import Py Struct P_Struct M_Ports M_Bess S_Hello S_Ports S_Wire4 S_Msg4 S_Bess
  P_Hello P_Wire4 P_Act4 P_Rebuild4 P_Stat4 P_Msg4 P_MsgParse4 P_MsgRebuild4 P_Bess P_Bess2.
Local Open Scope Z_scope.
Local Open Scope list_scope.

(** *** Answers *)

Lemma constant_reply s xid m r ks o po : good (xid, m) -> constant_answer m r ->
  switch_proc s (mwire xid m) ks o po = asend s (mwire xid r) o.
Proof.
  intros Hg Hc. inversion Hc; subst.
  - apply (plain_reply s xid _ "ofp_switch_features" (map VInt [1; 2; 3; 0; 15])); [exact Hg| |constructor|left; auto].
    split; [|split; [|exact I]]; [unfold fits; repeat constructor; cbn; lia|vm_compute; discriminate].
  - apply (plain_reply s xid _ "ofp_switch_config" (map VInt [0; 65509])); [exact Hg| |apply (XA_config 8 0 (VInt 65509) 65509); right; reflexivity|right; left; auto].
    split; [|split]; [unfold fits; repeat constructor; cbn; lia|vm_compute; discriminate|cbn; auto].
  - apply (plain_reply s xid _ "ofp_role_request" (map VInt [role; gen])); [exact Hg| |constructor|right; right; exists role, gen; auto].
    destruct Hg as (_ & (H1 & H2 & _) & _). split; [exact H1|]. split; [exact H2|]. cbn. auto.
  - apply desc_request_reply. exact Hg.
Qed.

Lemma constant_type m r xid : constant_answer m r -> byte_at (mwire xid r) 1 <> 12.
Proof.
  intros H. unfold mwire, msg. change (byte_at _ 1) with (mtype r). inversion H; cbn; discriminate.
Qed.

Lemma announce_others s r p o : others (a_wire (fst (announce s r p o))) = others (a_wire s).
Proof.
  unfold announce, respond. match goal with |- context [match ?c with Ok _ => _ | Err _ => _ end] => destruct c as [m|e] eqn:E end; [|reflexivity].
  destruct o as [e|]; [reflexivity|]. cbn [asend fst a_wire]. unfold others. rewrite filter_app. cbn [filter].
  apply bind_ok in E. destruct E as (h & Eh & E). apply bind_ok in E. destruct E as (a & _ & E).
  destruct (hdr_inv _ _ _ Eh) as (xid & Ht & Hx & ->).
  rewrite (bld_type "ofp_port_status" 12 xid a m) by (try assumption; unfold answers; cbn [In]; tauto). cbn [Z.eqb Pos.eqb negb].
  change (12 =? 12) with true. cbn [negb]. apply app_nil_r.
Qed.

Lemma bstep_others s op : (forall m ks o po, op <> BMsg m ks o po) -> others (a_wire (fst (bstep s op))) = others (a_wire s).
Proof.
  intros Hn. destruct op as [dev mac c i o|dev ks o di de|m ks o po]; cbn [bstep].
  - unfold add_port. destruct (a_num s + 1 =? 4294967294); [reflexivity|]. cbv zeta.
    match goal with |- context [match ?c with Ok _ => _ | Err _ => _ end] => destruct c end; [|reflexivity].
    match goal with |- context [announce ?s1 ?r ?p ?o] => pose proof (announce_others s1 r p o) as F; destruct (announce s1 r p o) as [s2 [u|e]] end; exact F.
  - unfold del_port. destruct (find_dev (a_ports s) ks dev) as [[k p]|]; [|reflexivity].
    pose proof (announce_others s 1 p o) as F. destruct (announce s 1 p o) as [s2 [u|e]]; [|exact F].
    match goal with |- context [match ?c with Ok _ => _ | Err _ => _ end] => destruct c end; exact F.
  - exfalso. eapply Hn. reflexivity.
Qed.

Lemma answered qs os : requests qs os -> forall s,
  others (a_wire (fst (brun s os))) = others (a_wire s) ++ map (fun q => mwire (fst (fst q)) (snd q)) qs.
Proof.
  induction 1 as [|qs os dev mac c i o H IH|qs os dev ks o di de H IH|qs os xid m r ks po Hg Hc H IH]; intros s.
  - cbn. rewrite app_nil_r. reflexivity.
  - rewrite brun_cons. cbn [fst]. rewrite IH, bstep_others by discriminate. reflexivity.
  - rewrite brun_cons. cbn [fst]. rewrite IH, bstep_others by discriminate. reflexivity.
  - rewrite brun_cons. cbn [fst map snd]. rewrite IH. cbn [bstep]. rewrite (constant_reply s xid m r ks None po Hg Hc). cbn [asend fst a_wire].
    unfold others at 1. rewrite filter_app. cbn [filter]. pose proof (constant_type m r xid Hc) as T.
    destruct (Z.eqb_spec (byte_at (mwire xid r) 1) 12); [contradiction|]. cbn [negb]. rewrite <- app_assoc. reflexivity.
Qed.

(** Messages that are not answered. *)
Lemma unanswered s xid m ks o po : good (xid, m) ->
  (exists d, m = MPlain 20 d) \/ (exists es, m = MHello es) \/ (exists f x, m = MConfig 9 f x) \/
  (exists f r, m = MRequest f r /\ ~ In (rq_type r) [0; 1; 13]) ->
  switch_proc s (mwire xid m) ks o po = (s, Ok tt).
Proof.
  intros Hg Hc. destruct (parse_good _ _ Hg) as (off & E). unfold switch_proc. rewrite E.
  destruct Hc as [[d ->]|[[es ->]|[(f & x & ->)|(f & r & -> & Hn)]]]; try reflexivity.
  cbn [msg_parsed hdr_view mtype]. change (18 =? 5) with false. change (18 =? 7) with false. change (18 =? 24) with false.
  change (18 =? 14) with false. change (18 =? 18) with true. cbv iota.
  destruct (Z.eqb_spec (rq_type r) 1) as [X|_]; [exfalso; apply Hn; rewrite X; cbn; tauto|].
  destruct (Z.eqb_spec (rq_type r) 13) as [X|_]; [exfalso; apply Hn; rewrite X; cbn; tauto|].
  destruct (Z.eqb_spec (rq_type r) 0) as [X|_]; [exfalso; apply Hn; rewrite X; cbn; tauto|]. reflexivity.
Qed.

Lemma not_understood s xid m ks o po : good (xid, m) -> ~ In (mtype m) [0; 5; 7; 9; 13; 14; 18; 20; 24] ->
  switch_proc s (mwire xid m) ks o po = (s, Err AssertionError).
Proof.
  intros Hg Hn. destruct (parse_good _ _ Hg) as (off & E). unfold switch_proc. rewrite E.
  destruct (msg_parsed_head xid m) as (cls & fs & ->).
  repeat match goal with |- context [mtype m =? ?k] => destruct (Z.eqb_spec (mtype m) k) as [X|_]; [exfalso; apply Hn; rewrite X; cbn; tauto|] end.
  reflexivity.
Qed.

(** *** Packets out *)

Definition out_result (s : agent) (acts : list action) (d : bytes) (po : option exn) : agent * res unit :=
  match acts with
  | [] => (s, Err IndexError)
  | AcOutput p _ :: _ =>
      match dget p (a_ports s) with
      | None => (s, Err KeyError)
      | Some x =>
          match o_sock x, po with
          | None, _ => (s, Ok tt)
          | Some _, Some e => (s, Err e)
          | Some k, None => (mkAgent (a_ports s) (a_num s) (a_flows s) (a_wire s) (a_out s ++ [(k, d)]), Ok tt)
          end
      end
  | _ :: _ => (s, Err AttributeError)
  end.

Lemma packet_out s xid b i acts d ks o po : good (xid, MPacketOut b i acts d) ->
  switch_proc s (mwire xid (MPacketOut b i acts d)) ks o po = out_result s acts d po.
Proof.
  intros Hg. destruct (parse_good _ _ Hg) as (off & E). unfold switch_proc. rewrite E.
  destruct acts as [|[] acts]; reflexivity.
Qed.

(** *** Names that cannot be described *)

Lemma name_bad_err p : name_bad (o_name p) -> exists e, bport p = Err e.
Proof.
  intros H. change (bport p) with
    (M_Build4.ofp_port (VInt (o_no p)) (VBytes (o_hw p)) (VBytes (o_name p)) (VInt 0) (VInt 0) (VInt (o_curr p)) (VInt 0) (VInt 0) (VInt 0) (VInt 0) (VInt 0)).
  unfold M_Build4.ofp_port, encode_name. destruct (forallb (fun c => c <? 128) (o_name p)) eqn:F; [|eexists; reflexivity].
  cbn [bind]. destruct (length (o_hw p) =? 6)%nat; cbn [assert_ bind]; [|eexists; reflexivity].
  destruct H as [H|H].
  - destruct (Nat.leb_spec (length (o_name p)) 16); [lia|]. cbn [assert_ bind]. eexists. reflexivity.
  - exfalso. rewrite forallb_forall in F. apply Exists_exists in H. destruct H as (c & Hc & Hb). specialize (F c Hc). lia.
Qed.

Lemma announce_err s r p o e : bport p = Err e -> r = 0 \/ r = 1 -> announce s r p o = (s, Err e).
Proof.
  intros H Hr. unfold announce, respond. rewrite hdr_eq by (unfold u8, u32; lia). rewrite H. reflexivity.
Qed.

Lemma bad_stays s op k p e : inv s -> In (k, p) (a_ports s) -> bport p = Err e -> In (k, p) (a_ports (fst (bstep s op))).
Proof.
  intros Hi Hin He. pose proof (bstep_change s op Hi) as Hc. destruct (bstep s op) as [s' r] eqn:Eb. cbn [fst].
  inversion Hc as [x1 x2 C1 C2 C3 C4|x1 e' C1 C2 C3|dev mac c i o x1 q x2 C0 C1 C2 C3 C4 C5 C6 C7 C8|dev ks o di de x1 k' q C0 C1 C2 C3 C4]; subst.
  - rewrite C1. exact Hin.
  - rewrite C1. exact Hin.
  - rewrite C1. apply in_or_app. left. exact Hin.
  - rewrite C3. unfold ddel. apply filter_In. split; [exact Hin|]. cbn [fst].
    destruct (Z.eqb_spec k k') as [->|_]; [|reflexivity]. exfalso.
    cbn [bstep] in Eb. unfold del_port in Eb.
    destruct (find_dev (a_ports s) ks (o_name q)) as [[k2 p2]|] eqn:Ef; [|discriminate Eb].
    destruct (find_dev_some _ _ _ _ _ Ef) as [Hin2 _].
    destruct (announce s 1 p2 o) as [s2 [u|e2]] eqn:Ea; [|discriminate Eb].
    assert (k2 = k') as -> by (destruct (deinit_sock (o_name p2) di ;;; de); [injection Eb as _ <-; reflexivity|discriminate Eb]).
    destruct Hi as (_ & Hn & _).
    assert (p2 = p) as -> by (pose proof (in_dget _ _ _ Hn Hin); pose proof (in_dget _ _ _ Hn Hin2); congruence).
    rewrite (announce_err s 1 p o e He) in Ea by (right; reflexivity). discriminate Ea.
Qed.

Lemma run_inv os : forall s, inv s -> inv (fst (brun s os)).
Proof. induction os as [|op os IH]; intros s Hi; [exact Hi|]. rewrite brun_cons. apply IH. apply step_inv. exact Hi. Qed.

Lemma bad_remains os : forall s k p e, inv s -> In (k, p) (a_ports s) -> bport p = Err e -> In (k, p) (a_ports (fst (brun s os))).
Proof.
  induction os as [|op os IH]; intros s k p e Hi Hin He; [exact Hin|]. rewrite brun_cons. cbn [fst].
  eapply IH; [apply step_inv; exact Hi|eapply bad_stays; eassumption|exact He].
Qed.

Lemma mapM_err {A B} (f : A -> res B) l x e : In x l -> f x = Err e -> exists e', mapM f l = Err e'.
Proof.
  induction l as [|y l IH]; [intros []|]. intros [->|H] E; cbn [mapM].
  - rewrite E. eexists. reflexivity.
  - destruct (f y) as [z|e2]; [|eexists; reflexivity]. cbn [bind]. destruct (IH H E) as [e' ->]. eexists. reflexivity.
Qed.

Lemma port_desc_fails s xid f ks o po k p e : inv s -> In (k, p) (a_ports s) -> bport p = Err e ->
  good (xid, MRequest f (RqPlain 13)) -> Permutation ks (map fst (a_ports s)) ->
  exists e', switch_proc s (mwire xid (MRequest f (RqPlain 13))) ks o po = (s, Err e').
Proof.
  intros (_ & Hn & _) Hin He Hg Hp. destruct (parse_good _ _ Hg) as (off & E). unfold switch_proc. rewrite E. destruct Hg as (Hx & _). cbn [fst] in Hx.
  cbn [msg_parsed hdr_view mtype rq_type Z.eqb Pos.eqb]. unfold joined.
  pose proof (dvalues_perm ks (a_ports s) Hn Hp) as Hv.
  assert (Iv : In p (dvalues ks (a_ports s))) by (apply (Permutation_in _ (Permutation_sym Hv)); apply (in_map snd) in Hin; exact Hin).
  destruct (mapM_err bport _ p e Iv He) as [e' ->]. cbn [bind].
  change (exists e'0, respond s "ofp_multipart_reply" 19 (VInt xid) (Err e') o = (s, Err e'0)).
  unfold respond. rewrite hdr_eq by (unfold u8; try exact Hx; lia). cbn [bind]. eexists. reflexivity.
Qed.

(** Adding a device with such a name. *)
Lemma bad_add s dev mac i sk o : inv s -> a_num s + 1 <> 4294967294 -> mac_ok mac -> name_bad dev -> init_sock dev i = Ok sk ->
  let p := mkOport (a_num s + 1) (mac_bytes mac) dev 2050 sk in
  a_ports (fst (bstep s (BAdd dev mac (Ok tt) i o))) = a_ports s ++ [(a_num s + 1, p)] /\
  (exists e, snd (bstep s (BAdd dev mac (Ok tt) i o)) = RExn e) /\
  a_wire (fst (bstep s (BAdd dev mac (Ok tt) i o))) = a_wire s.
Proof.
  intros Hi Hn Hm Hb Hs p. cbn [bstep]. unfold add_port. destruct (Z.eqb_spec (a_num s + 1) 4294967294) as [X|_]; [contradiction|].
  cbv zeta. cbn [bind]. rewrite Hs. cbn [bind]. rewrite unhex_ok by exact Hm. cbn [bind a_ports a_num a_flows a_wire a_out]. fold p.
  rewrite dset_new by (apply fresh; assumption).
  destruct (name_bad_err p Hb) as [e He]. rewrite (announce_err _ 0 p o e He) by (left; reflexivity).
  cbn [fst snd a_ports a_wire]. split; [reflexivity|]. split; [eexists; reflexivity|reflexivity].
Qed.

(** *** Deleting by name *)

Lemma clean_del s dev ks : inv s -> all_ok s -> Permutation ks (map fst (a_ports s)) -> NoDup (map sp_name (table s)) ->
  let r := bstep s (BDel dev ks None (Ok tt) (Ok tt)) in
  table (fst r) = filter (fun p => if list_eq_dec Z.eq_dec (sp_name p) dev then false else true) (table s) /\
  match snd r with
  | RDeleted n => exists p, In p (table s) /\ sp_no p = n /\ sp_name p = dev
  | RNone => ~ In dev (map sp_name (table s))
  | _ => False
  end.
Proof.
  intros Hi Ho Hp Hn. pose proof Hi as (_ & Hk & Heq & _). cbv zeta. cbn [bstep]. unfold del_port.
  destruct (find_dev (a_ports s) ks dev) as [[k p]|] eqn:Ef.
  - destruct (find_dev_some _ _ _ _ _ Ef) as [Hin Hnm].
    assert (Pin : In (port_of p) (table s)) by (unfold table; apply (in_map (fun kp => port_of (snd kp))) in Hin; exact Hin).
    assert (Pok : port_ok (port_of p)) by (unfold all_ok in Ho; rewrite Forall_forall in Ho; exact (Ho _ Pin)).
    assert (Ek : k = o_no p) by (rewrite Forall_forall in Heq; exact (Heq _ Hin)).
    rewrite announce_ok by (try (right; reflexivity); exact Pok). cbn [asend].
    assert (Ed : (deinit_sock (o_name p) (Ok tt) ;;; Ok tt) = Ok tt) by (unfold deinit_sock; destruct (same _ _); reflexivity).
    rewrite Ed. cbn [fst snd]. split.
    + unfold table at 1. cbn [a_ports]. rewrite table_del by exact Heq.
      assert (U : forall q, In q (table s) -> sp_name q = dev -> q = port_of p).
      { intros q Hq Eq. clear - Hn Hq Eq Pin Hnm. assert (sp_name q = sp_name (port_of p)) as E by (cbn [port_of sp_name]; congruence). clear Hnm Eq dev.
        induction (table s) as [|x l IH]; [destruct Hq|]. cbn [map] in Hn. inversion Hn as [|? ? N1 N2]; subst.
        destruct Hq as [->|Hq], Pin as [Pp|Hq2]; subst; auto; exfalso; apply N1; rewrite ?E; [|rewrite <- E]; apply in_map; assumption. }
      assert (Tn : NoDup (map sp_no (table s))) by (rewrite table_nos by exact Heq; exact Hk).
      apply filter_ext_in. intros q Hq. destruct (list_eq_dec Z.eq_dec (sp_name q) dev) as [Eq|Ne].
      * rewrite (U q Hq Eq). cbn [port_of sp_no]. rewrite <- Ek, Z.eqb_refl. reflexivity.
      * destruct (Z.eqb_spec (sp_no q) k) as [E|_]; [|reflexivity]. exfalso. apply Ne.
        assert (q = port_of p) as ->.
        { assert (sp_no q = sp_no (port_of p)) as E2 by (cbn [port_of sp_no]; congruence).
          clear - Tn Hq Pin E2. induction (table s) as [|x l IH]; [destruct Hq|]. cbn [map] in Tn. inversion Tn as [|? ? N1 N2]; subst.
          destruct Hq as [->|Hq], Pin as [Pp|Hq2]; subst; auto; exfalso; apply N1; rewrite ?E2; [|rewrite <- E2]; apply in_map; assumption. }
        exact Hnm.
    + exists (port_of p). split; [exact Pin|]. split; [cbn [port_of sp_no]; congruence|exact Hnm].
  - cbn [fst snd]. pose proof (find_dev_none _ _ _ Ef Hk Hp) as F.
    assert (Nn : forall q, In q (table s) -> sp_name q <> dev).
    { intros q Hq. unfold table in Hq. apply in_map_iff in Hq. destruct Hq as (kp & <- & Hin). rewrite Forall_forall in F. exact (F kp Hin). }
    split.
    + symmetry. clear - Nn. induction (table s) as [|x l IH]; [reflexivity|]. cbn [filter].
      destruct (list_eq_dec Z.eq_dec (sp_name x) dev) as [E|_]; [exfalso; exact (Nn x (or_introl eq_refl) E)|].
      f_equal. apply IH. intros q Hq. apply Nn. right. exact Hq.
    + intros X. apply in_map_iff in X. destruct X as (q & E & Hq). exact (Nn q Hq E).
Qed.

(** Every table a sane history leads to can be described. *)
Lemma sane_ok os : forall s, inv s -> all_ok s -> Forall sane os -> all_ok (fst (brun s os)).
Proof.
  induction os as [|op os IH]; intros s Hi Ho Hs; [exact Ho|]. inversion Hs as [|? ? S1 S2]; subst. rewrite brun_cons. cbn [fst].
  apply IH; [apply step_inv; exact Hi| |exact S2].
  pose proof (bstep_change s op Hi) as Hc. destruct (bstep s op) as [s' r] eqn:Eb. cbn [fst].
  inversion Hc as [x1 x2 C1 C2 C3 C4|x1 e C1 C2 C3|dev mac c i o x1 p x2 C0 C1 C2 C3 C4 C5 C6 C7 C8|dev ks o di de x1 k p C0 C1 C2 C3 C4]; subst; unfold all_ok, table.
  - rewrite C1. exact Ho.
  - rewrite C1. exact Ho.
  - rewrite C1, map_app. apply Forall_app. split; [exact Ho|]. constructor; [|constructor]. cbn [snd].
    destruct S1 as (Hn & Hm & ->). rewrite unhex_ok in C7 by exact Hm. injection C7 as C7.
    apply (sane_added s (o_name p) mac c i s' p r Hi Eb Hn Hm C1 C4 eq_refl C6 (eq_sym C7)).
  - pose proof Hi as (_ & _ & Heq & _). rewrite C3, table_del by exact Heq. apply Forall_filter'. exact Ho.
Qed.

(** *** MAC addresses *)

Lemma nibble_in c x : nibble c = Some x -> In c (map fst hex_digits).
Proof.
  unfold nibble. intros H.
  let l := eval vm_compute in (map fst hex_digits) in change (In c l).
  repeat match type of H with (if ?b then _ else _) = _ => destruct b eqn:?; [|] end; try discriminate H; cbn [In]; lia.
Qed.

Lemma unhex_bad b : Exists (fun c => ~ In c (map fst hex_digits)) b -> exists e, unhex b = Err e.
Proof.
  remember (length b) as n eqn:E. revert b E. induction n as [n IH] using lt_wf_ind. intros b -> H.
  destruct b as [|x [|y b]]; [inversion H|eexists; reflexivity|]. cbn [unhex].
  destruct (nibble x) eqn:Ex; [|eexists; reflexivity]. destruct (nibble y) eqn:Ey; [|eexists; reflexivity].
  apply nibble_in in Ex. apply nibble_in in Ey.
  inversion H as [? ? H1|? ? H1]; subst; [contradiction|]. inversion H1 as [? ? H2|? ? H2]; subst; [contradiction|].
  destruct (IH (length b) ltac:(cbn; lia) b eq_refl H2) as [e ->]. eexists. reflexivity.
Qed.

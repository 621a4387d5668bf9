(** Proofs about the BESS agent. *)

From Coq Require Import Permutation Sorting.Sorted.
From Verif Require Import Py Struct P_Struct M_Ports M_Bess S_Hello S_Ports S_Wire4 S_Msg4 S_Bess
  P_Hello P_Wire4 P_Act4 P_Rebuild4 P_Stat4 P_Msg4 P_MsgParse4 P_MsgRebuild4.
Local Open Scope Z_scope.
Local Open Scope list_scope.

(** *** Dictionaries *)

Section DictProofs.
Context {V : Type}.
Implicit Types d : list (Z * V).

Lemma dget_none k d : dget k d = None <-> ~ In k (map fst d).
Proof.
  induction d as [|[k' v] d IH]; cbn [dget map fst In]; [tauto|].
  destruct (Z.eqb_spec k' k) as [->|N]; [split; [discriminate|tauto]|]. rewrite IH. tauto.
Qed.

Lemma dget_in k v d : dget k d = Some v -> In (k, v) d.
Proof.
  induction d as [|[k' v'] d IH]; cbn [dget]; [discriminate|].
  destruct (Z.eqb_spec k' k) as [->|N]; [intros E; injection E as <-; left; reflexivity|right; auto].
Qed.

Lemma in_dget k v d : NoDup (map fst d) -> In (k, v) d -> dget k d = Some v.
Proof.
  induction d as [|[k' v'] d IH]; cbn [dget map fst]; [intros _ []|]. intros Hn [E|Hi]; inversion Hn as [|? ? H1 H2]; subst.
  - injection E as -> ->. rewrite Z.eqb_refl. reflexivity.
  - destruct (Z.eqb_spec k' k) as [->|N]; [|apply IH; assumption].
    exfalso. apply H1. apply (in_map fst) in Hi. exact Hi.
Qed.

Lemma dset_new k v d : ~ In k (map fst d) -> dset k v d = d ++ [(k, v)].
Proof.
  induction d as [|[k' v'] d IH]; cbn [dset map fst In Datatypes.app]; [reflexivity|]. intros H.
  destruct (Z.eqb_spec k' k) as [->|N]; [tauto|]. rewrite IH by tauto. reflexivity.
Qed.

Lemma dvalues_perm ks d : NoDup (map fst d) -> Permutation ks (map fst d) -> Permutation (dvalues ks d) (map snd d).
Proof.
  intros Hn Hp. transitivity (dvalues (map fst d) d).
  - apply Permutation_flat_map. exact Hp.
  - clear Hp. unfold dvalues.
    assert (H : forall l, (forall kv, In kv l -> In kv d) ->
      flat_map (fun k => match dget k d with Some v => [v] | None => [] end) (map fst l) = map snd l).
    { induction l as [|[k v] l IH]; intros Hl; [reflexivity|]. cbn [map fst snd flat_map].
      rewrite (in_dget k v d Hn) by (apply Hl; left; reflexivity). rewrite IH by (intros kv Hk; apply Hl; right; exact Hk). reflexivity. }
    rewrite H; [apply Permutation_refl|auto].
Qed.
End DictProofs.

(** *** Sending *)

Lemma asend_facts s m o : let s' := fst (asend s m o) in
  a_ports s' = a_ports s /\ a_num s' = a_num s /\ a_flows s' = a_flows s /\ a_out s' = a_out s.
Proof. destruct o; cbn; auto. Qed.

Lemma respond_facts s cls ty xid args o : let s' := fst (respond s cls ty xid args o) in
  a_ports s' = a_ports s /\ a_num s' = a_num s /\ a_flows s' = a_flows s /\ a_out s' = a_out s.
Proof.
  cbv zeta. unfold respond. match goal with |- context [match ?c with Ok _ => _ | Err _ => _ end] => destruct c end.
  - apply asend_facts.
  - auto.
Qed.

Lemma hdr_eq ty xid : u8 ty -> u32 xid -> hdr ty (VInt xid) = Ok (enc [U 1 4; U 1 ty; U 2 0; U 4 xid]).
Proof.
  intros Ht Hx. unfold hdr. apply ofp_header_ok; try assumption; [right; reflexivity|right; reflexivity|unfold u16; lia].
Qed.

Lemma hdr_bytes m xid : hdr_arg 0 (msingle m) (mtype m) xid (VBytes (enc [U 1 4; U 1 (mtype m); U 2 0; U 4 xid])).
Proof. rewrite <- (app_nil_r (enc _)). apply HA_bytes. lia. Qed.

Lemma respond_msg s cls xid args o m : msg_args cls args m -> msg_ok m -> u32 xid ->
  respond s cls (mtype m) (VInt xid) (Ok args) o = asend s (mwire xid m) o.
Proof.
  intros Ha Hok Hx. unfold respond. rewrite hdr_eq by (try assumption; apply mtype_u8; exact Hok). cbn [bind].
  unfold bld. rewrite (msg_build 0 8 cls args m xid _ Ha Hok (hdr_bytes m xid) Hx ltac:(lia)). reflexivity.
Qed.

(** A list of one byte string is as good as a list of its parts. *)
Lemma multipart_joined h mty f bs : In mty [1; 13] ->
  bld "ofp_multipart_reply" [h; VInt mty; f; VList [VBytes (concat bs)]]
  = bld "ofp_multipart_reply" [h; VInt mty; f; VList (map VBytes bs)].
Proof.
  intros Hm. change (ofp_multipart_reply (obj 0 8) 0 h (VInt mty) f (VList [VBytes (concat bs)])
    = ofp_multipart_reply (obj 0 8) 0 h (VInt mty) f (VList (map VBytes bs))).
  unfold ofp_multipart_reply. rewrite oxm_join.
  change (join (obj 0 8) [VBytes (concat bs)]) with (Ok (concat bs ++ [])). rewrite app_nil_r. reflexivity.
Qed.

Lemma multipart_big h mty bs xid : In mty [1; 13] -> u32 xid -> h = enc [U 1 4; U 1 19; U 2 0; U 4 xid] ->
  65519 < zlen (concat bs) ->
  bld "ofp_multipart_reply" [VBytes h; VInt mty; VInt 0; VList [VBytes (concat bs)]] = Err StructError.
Proof.
  intros Hm Hx -> Hl.
  change (ofp_multipart_reply (obj 0 8) 0 (VBytes (enc [U 1 4; U 1 19; U 2 0; U 4 xid])) (VInt mty) (VInt 0) (VList [VBytes (concat bs)]) = Err StructError).
  unfold ofp_multipart_reply. change (join (obj 0 8) [VBytes (concat bs)]) with (Ok (concat bs ++ [])). rewrite app_nil_r.
  assert (E : (if py_inz (VInt mty) [0; 2; 8; 11] then Err ValueError
     else if py_inz (VInt mty) [1; 3; 4; 5; 6; 7; 9; 10; 12; 13] then Ok (concat bs)
     else if py_eqz (VInt mty) 65535 then Err ValueError else Err ValueError) = Ok (concat bs)).
  { destruct Hm as [<-|[<-|[]]]; reflexivity. }
  rewrite E. cbn [bind]. unfold message, pack_app.
  assert (P : exists p, packs "HH4x" [VInt mty; VInt 0] = Ok p /\ length p = 8%nat).
  { destruct Hm as [<-|[<-|[]]]; eexists; split; reflexivity. }
  destruct P as (p & -> & Lp). cbn [bind]. unfold ofp_.
  destruct (header_fields_ok 0 true 19 xid (VBytes (enc [U 1 4; U 1 19; U 2 0; U 4 xid])) (VInt 19)) as (v & x & E2 & Hv & Hxx).
  { rewrite <- (app_nil_r (enc _)). apply HA_bytes. lia. }
  { unfold u8. lia. } { exact Hx. } { left. reflexivity. }
  rewrite E2. cbn [bind obj].
  unfold ofp_header. 
  assert (Ev : default v 4 = VInt 4) by (destruct Hv as [->| ->]; reflexivity). rewrite Ev. cbn [py_eqz]. rewrite Z.eqb_refl. cbn [assert_ bind default].
  set (n := 8 + zlen (p ++ concat bs)). assert (Hn : 65535 < n) by (unfold n, zlen in *; rewrite app_length, Lp; lia).
  assert (Ex : default x 0 = VInt xid) by (destruct Hxx as [[-> ->]| ->]; reflexivity). rewrite Ex.
  change (packs "BBHI" [VInt 4; VInt 19; VInt n; VInt xid]) with (pack (map shape [U 1 4; U 1 19; U 2 n; U 4 xid]) (vals [U 1 4; U 1 19; U 2 n; U 4 xid])).
  rewrite pack_unfit; [reflexivity|]. intros F. inversion F as [|? ? _ F1]; subst. inversion F1 as [|? ? _ F2]; subst.
  inversion F2 as [|? ? F3 _]; subst. cbn in F3. lia.
Qed.

(** *** Ports *)

Lemma bport_ok p : port_ok (port_of p) -> bport p = Ok (port_wire (port_of p)).
Proof.
  intros H. pose proof (port_build 0 9 _ (port_of p) (PA_obj (port_of p)) H ltac:(lia)) as E. exact E.
Qed.

Lemma status_wire r p : u8 r -> mwire 0 (MPortStatus r p) = port_status 4 0 r p.
Proof.
  intros Hr. unfold mwire, port_status, body. cbn [mtype body_fields]. f_equal.
  change (enc [U 1 r; P 7; R (port_wire p)]) with (be 1 r ++ zeros 7 ++ port_wire p ++ []). rewrite app_nil_r.
  change (be 1 r) with [r mod 256]. rewrite Z.mod_small by exact Hr. do 2 f_equal.
  unfold port_wire, port_fields, enc_port. cbn [Z.eqb Pos.eqb]. rewrite enc_app, enc_words.
  unfold enc. cbn [map enc1 concat]. rewrite app_nil_r, <- !app_assoc. reflexivity.
Qed.

Lemma announce_ok s r p o : r = 0 \/ r = 1 -> port_ok (port_of p) ->
  announce s r p o = asend s (port_status 4 0 r (port_of p)) o.
Proof.
  intros Hr Hp. unfold announce. rewrite bport_ok by exact Hp. cbn [bind].
  assert (Hu : u8 r) by (unfold u8; lia).
  rewrite <- (status_wire r) by exact Hu.
  apply (respond_msg s "ofp_port_status" 0 [VInt r; VBytes (port_wire (port_of p))] o (MPortStatus r (port_of p))).
  - constructor. constructor.
  - assert (L := port_wlen _ (proj1 Hp)). split; [|split].
    + cbn [body_fields]. unfold fits. constructor; [cbn; unfold u8 in Hu; lia|]. constructor; [exact I|]. constructor; [exact I|]. constructor.
    + unfold body. rewrite enc_zlen. cbn [body_fields flen fld_len]. rewrite L. vm_compute. discriminate.
    + exact Hp.
  - unfold u32. lia.
Qed.

Lemma announce_facts s r p o : let s' := fst (announce s r p o) in
  a_ports s' = a_ports s /\ a_num s' = a_num s /\ a_flows s' = a_flows s /\ a_out s' = a_out s.
Proof. apply respond_facts. Qed.

Lemma nibble_ok c : In c (map fst hex_digits) -> nibble c = Some (hex_value c).
Proof.
  intros H.
  let l := eval vm_compute in (map fst hex_digits) in change (In c l) in H.
  repeat (destruct H as [<-|H]; [vm_compute; reflexivity|]). destruct H.
Qed.

Lemma unhex_ok mac : mac_ok mac -> unhex (firstn 12 mac) = Ok (mac_bytes mac).
Proof.
  intros [Hl Hd]. do 12 (destruct mac as [|? mac]; [cbn in Hl; lia|]). clear Hl. cbn [firstn] in *.
  repeat match goal with H : Forall _ (_ :: _) |- _ => inversion H; subst; clear H end.
  cbn [unhex]. rewrite !nibble_ok by assumption. cbn [bind unhex]. reflexivity.
Qed.

Lemma mac_bytes_length mac : length (mac_bytes mac) = 6%nat.
Proof. reflexivity. Qed.

Lemma name_ok_facts dev : name_ok dev -> (length dev <= 16)%nat /\ ~ In 0 dev /\ Forall (fun c => 0 <= c < 128) dev.
Proof.
  intros [Hl Hf]. split; [exact Hl|]. rewrite Forall_forall in Hf. split.
  - intros H. specialize (Hf 0 H). lia.
  - apply Forall_forall. intros c Hc. specialize (Hf c Hc). lia.
Qed.

(** *** The invariant *)

Definition keys (s : agent) : list Z := map fst (a_ports s).

Definition inv (s : agent) : Prop :=
  2 <= a_num s < 4294967294 /\ NoDup (keys s) /\
  Forall (fun kp => fst kp = o_no (snd kp)) (a_ports s) /\
  Forall (fun k => 0 <= k <= a_num s \/ k = 4294967294) (keys s).

Lemma inv0 s1 s2 : inv (agent0 s1 s2).
Proof.
  unfold inv, keys, agent0. cbn [a_num a_ports map fst snd o_no]. split; [lia|]. split; [|split].
  - repeat constructor; cbn; intuition lia.
  - repeat constructor.
  - repeat constructor; lia.
Qed.

Lemma fresh s : inv s -> a_num s + 1 <> 4294967294 -> ~ In (a_num s + 1) (keys s).
Proof. intros (Hr & _ & _ & Hk) Hn Hi. rewrite Forall_forall in Hk. specialize (Hk _ Hi). cbn in Hk. lia. Qed.

(** What one operation does to the ports: nothing; count on; add; delete. *)
Inductive change (s : agent) (op : bop) : agent * ares -> Prop :=
| Ch_none s' r : a_ports s' = a_ports s -> a_num s' = a_num s -> (forall n, r <> RAdded n) -> (forall n, r <> RDeleted n) -> change s op (s', r)
| Ch_lost s' e : a_ports s' = a_ports s -> a_num s' = a_num s + 1 -> a_num s + 1 <> 4294967294 -> change s op (s', RExn e)
| Ch_add dev mac c i o s' p r : op = BAdd dev mac c i o ->
    a_ports s' = a_ports s ++ [(a_num s + 1, p)] -> a_num s' = a_num s + 1 -> a_num s + 1 <> 4294967294 ->
    o_no p = a_num s + 1 -> o_name p = dev -> o_curr p = 2050 -> unhex (firstn 12 mac) = Ok (o_hw p) ->
    (r = RAdded (a_num s + 1) \/ exists e, r = RExn e) -> change s op (s', r)
| Ch_del dev ks o di de s' k p : op = BDel dev ks o di de ->
    In (k, p) (a_ports s) -> o_name p = dev ->
    a_ports s' = ddel k (a_ports s) -> a_num s' = a_num s -> change s op (s', RDeleted k).

Lemma same_eq a b : same a b = true <-> a = b.
Proof. unfold same. destruct (list_eq_dec Z.eq_dec a b); split; congruence. Qed.

Lemma find_dev_some d ks dev k p : find_dev d ks dev = Some (k, p) -> In (k, p) d /\ o_name p = dev.
Proof.
  induction ks as [|k' ks IH]; cbn [find_dev]; [discriminate|].
  destruct (dget k' d) as [p'|] eqn:E; [|exact IH]. destruct (same (o_name p') dev) eqn:E2; [|exact IH].
  intros H. injection H as <- <-. split; [apply dget_in; exact E|apply same_eq; exact E2].
Qed.

Lemma find_dev_none d ks dev : find_dev d ks dev = None -> NoDup (map fst d) -> Permutation ks (map fst d) ->
  Forall (fun kp => o_name (snd kp) <> dev) d.
Proof.
  intros H Hn Hp. apply Forall_forall. intros [k p] Hi E. cbn [snd] in E.
  assert (Hk : In k ks). { apply (Permutation_in _ (Permutation_sym Hp)). apply (in_map fst) in Hi. exact Hi. }
  clear Hp. induction ks as [|k' ks IH]; [destruct Hk|]. cbn [find_dev] in H. destruct Hk as [->|Hk].
  - rewrite (in_dget k p d Hn Hi) in H. assert (same (o_name p) dev = true) as S by (apply same_eq; exact E). rewrite S in H. discriminate.
  - destruct (dget k' d) as [p'|]; [destruct (same (o_name p') dev); [discriminate|]|]; apply IH; assumption.
Qed.

Lemma switch_ports s m ks o po : let s' := fst (switch_proc s m ks o po) in a_ports s' = a_ports s /\ a_num s' = a_num s.
Proof.
  assert (R : forall cls ty xid args, a_ports (fst (respond s cls ty xid args o)) = a_ports s /\ a_num (fst (respond s cls ty xid args o)) = a_num s).
  { intros cls ty xid args. destruct (respond_facts s cls ty xid args o) as (H1 & H2 & _). auto. }
  cbv zeta. unfold switch_proc.
  repeat match goal with
  | |- context [match ?c with _ => _ end] =>
      match c with
      | respond _ _ _ _ _ _ => fail 1
      | _ => destruct c
      end
  end; cbn [fst a_ports a_num]; auto.
Qed.

Lemma bstep_change s op : inv s -> change s op (bstep s op).
Proof.
  intros Hi. destruct op as [dev mac c i o|dev ks o di de|m ks o po]; cbn [bstep].
  - unfold add_port. destruct (Z.eqb_spec (a_num s + 1) 4294967294) as [E|N].
    + apply Ch_none; try reflexivity; discriminate.
    + cbv zeta. cbn [a_ports a_num a_flows a_wire a_out]. set (n := a_num s + 1) in *.
      destruct c as [[]|e]; cbn [bind]; [|apply Ch_lost; try reflexivity; assumption].
      destruct (init_sock dev i) as [sk|e]; cbn [bind]; [|apply Ch_lost; try reflexivity; assumption].
      destruct (unhex (firstn 12 mac)) as [hw|e] eqn:Eh; cbn [bind]; [|apply Ch_lost; try reflexivity; assumption].
      match goal with |- context [announce ?s1 ?r ?p ?o] => destruct (announce_facts s1 r p o) as (F1 & F2 & _); destruct (announce s1 r p o) as [s' [u|e]] end;
        cbn [fst a_ports a_num] in F1, F2; rewrite dset_new in F1 by (apply fresh; assumption);
        eapply Ch_add; try reflexivity; try eassumption; eauto.
  - unfold del_port. destruct (find_dev (a_ports s) ks dev) as [[k p]|] eqn:Ef; [|apply Ch_none; try reflexivity; discriminate].
    destruct (find_dev_some _ _ _ _ _ Ef) as [Hin Hn].
    destruct (announce_facts s 1 p o) as (F1 & F2 & _). destruct (announce s 1 p o) as [s' [u|e]]; cbn [fst] in F1, F2.
    + match goal with |- context [match ?c with Ok _ => _ | Err _ => _ end] => destruct c end.
      * eapply Ch_del; try reflexivity; try eassumption; cbn [a_ports a_num]; congruence.
      * apply Ch_none; try assumption; discriminate.
    + apply Ch_none; try assumption; discriminate.
  - destruct (switch_ports s m ks o po) as [F1 F2]. destruct (switch_proc s m ks o po) as [s' [u|e]]; apply Ch_none; try assumption; discriminate.
Qed.

Lemma ddel_keys {V} k (d : list (Z * V)) : map fst (ddel k d) = filter (fun x => negb (x =? k)) (map fst d).
Proof.
  induction d as [|[k' v] d IH]; [reflexivity|]. cbn [ddel filter map fst] in *. fold (ddel k d).
  destruct (negb (k' =? k)); cbn [map fst]; rewrite IH; reflexivity.
Qed.

Lemma Forall_filter' {A} (Q : A -> Prop) f l : Forall Q l -> Forall Q (filter f l).
Proof. intros H. rewrite Forall_forall in *. intros x Hx. apply H. apply filter_In in Hx. tauto. Qed.

Ltac use_ch :=
  match goal with E : a_ports ?s' = _ |- context [a_ports ?s'] => rewrite E end;
  match goal with E : a_num ?s' = _ |- context [a_num ?s'] => rewrite E end.

Lemma change_inv s op s' r : inv s -> change s op (s', r) -> inv s'.
Proof.
  intros (H1 & H2 & H3 & H4) Hc. inversion Hc; subst; unfold inv, keys in *.
  - use_ch. auto.
  - use_ch. split; [lia|]. split; [exact H2|]. split; [exact H3|].
    apply Forall_forall. intros k Hk. rewrite Forall_forall in H4. specialize (H4 k Hk). cbn in *. lia.
  - use_ch.
    rewrite map_app. cbn [map fst]. split; [lia|]. split; [|split].
    + apply Permutation_NoDup with (a_num s + 1 :: map fst (a_ports s)); [apply Permutation_cons_append|].
      constructor; [|exact H2]. apply (fresh s); [unfold inv, keys; auto|assumption].
    + apply Forall_app. split; [exact H3|]. constructor; [cbn; congruence|constructor].
    + apply Forall_app. split; [|constructor; [lia|constructor]].
      apply Forall_forall. intros k Hk. rewrite Forall_forall in H4. specialize (H4 k Hk). cbn in *. lia.
  - use_ch.
    rewrite ddel_keys. split; [exact H1|]. split; [apply NoDup_filter; exact H2|]. split; [apply Forall_filter'; exact H3|apply Forall_filter'; exact H4].
Qed.

Lemma brun_cons s op os : brun s (op :: os) =
  (fst (brun (fst (bstep s op)) os), snd (bstep s op) :: snd (brun (fst (bstep s op)) os)).
Proof. cbn [brun]. destruct (bstep s op) as [s1 r]. cbn [fst snd]. destruct (brun s1 os); reflexivity. Qed.

(** *** Numbers *)

Lemma numbers os : forall s, inv s ->
  StronglySorted Z.lt (added (snd (brun s os))) /\ Forall (fun n => a_num s < n < 4294967294) (added (snd (brun s os))).
Proof.
  induction os as [|op os IH]; intros s Hi; [split; constructor|]. rewrite brun_cons. cbn [snd].
  pose proof (bstep_change s op Hi) as Hc. destruct (bstep s op) as [s' r]. cbn [fst snd].
  pose proof (change_inv _ _ _ _ Hi Hc) as Hi'. destruct (IH s' Hi') as [IH1 IH2].
  assert (L : forall lo, lo <= a_num s' -> Forall (fun n => lo < n < 4294967294) (added (snd (brun s' os)))).
  { intros lo Hlo. eapply Forall_impl; [|exact IH2]. cbn. intros. lia. }
  destruct Hi' as (Hr & _).
  unfold added in *. cbn [flat_map]. inversion Hc; subst.
  - destruct r; try (split; [exact IH1|apply L; lia]). match goal with H : forall n, RAdded _ <> RAdded n |- _ => exfalso; eapply H; reflexivity end.
  - split; [exact IH1|apply L; lia].
  - match goal with H : _ \/ _ |- _ => destruct H as [->|[e ->]] end; [|split; [exact IH1|apply L; lia]].
    cbn [Datatypes.app]. split; [constructor; [exact IH1|]|constructor; [lia|apply L; lia]].
    eapply Forall_impl; [|apply (L (a_num s'))]; [|lia]. cbn. intros. lia.
  - split; [exact IH1|apply L; lia].
Qed.

(** A device that can always be added. *)
Definition easy_add : bop := BAdd (ascii_bytes "vm") (ascii_bytes "0011223344ff") (Ok tt) (Ok None) None.

Lemma easy_ok n : 0 <= n < 4294967296 -> port_ok (port_of (mkOport n [0; 17; 34; 51; 68; 255] (ascii_bytes "vm") 2050 None)).
Proof.
  intros Hn. unfold port_ok, sport_ok, port_of. cbn [sp_no sp_hw sp_name sp_words o_no o_hw o_name o_curr Z.eqb Pos.eqb length].
  split; [|vm_compute; repeat constructor; discriminate].
  split; [exact Hn|]. split; [reflexivity|]. split; [vm_compute; lia|]. split; [vm_compute; intuition discriminate|].
  split; [reflexivity|]. repeat constructor; lia.
Qed.

Lemma easy_step s : inv s -> a_num s + 1 <> 4294967294 ->
  a_num (fst (bstep s easy_add)) = a_num s + 1 /\ snd (bstep s easy_add) = RAdded (a_num s + 1).
Proof.
  intros Hi Hn. unfold easy_add. cbn [bstep]. unfold add_port.
  destruct (Z.eqb_spec (a_num s + 1) 4294967294) as [E|_]; [contradiction|]. cbv zeta.
  change (unhex (firstn 12 (ascii_bytes "0011223344ff"))) with (Ok [0; 17; 34; 51; 68; 255]).
  change (init_sock (ascii_bytes "vm") (Ok None)) with (Ok (None : option nat)). cbn [bind a_ports a_num a_flows a_wire a_out].
  destruct Hi as (Hr & _). rewrite announce_ok; [|left; reflexivity|apply easy_ok; lia]. cbn [asend fst snd a_num]. auto.
Qed.

Lemma easy_run k : forall s, inv s -> a_num s + Z.of_nat k < 4294967294 ->
  a_num (fst (brun s (repeat easy_add k))) = a_num s + Z.of_nat k /\ inv (fst (brun s (repeat easy_add k))) /\
  (forall n, a_num s < n <= a_num s + Z.of_nat k -> In n (added (snd (brun s (repeat easy_add k))))).
Proof.
  induction k as [|k IH]; intros s Hi Hk; cbn [repeat].
  - cbn [brun fst snd]. split; [lia|]. split; [exact Hi|]. intros n Hn. lia.
  - rewrite brun_cons. cbn [fst snd]. destruct (easy_step s Hi ltac:(lia)) as [E1 E2].
    pose proof (bstep_change s easy_add Hi) as Hc. destruct (bstep s easy_add) as [s' r]. cbn [fst snd] in *. subst r.
    destruct (IH s' (change_inv _ _ _ _ Hi Hc) ltac:(lia)) as (I1 & I2 & I3). split; [lia|]. split; [exact I2|].
    intros n Hn. unfold added. cbn [flat_map]. destruct (Z.eq_dec n (a_num s + 1)) as [->|Ne]; [left; reflexivity|right].
    apply I3. lia.
Qed.

(** *** The table *)

Lemma table_del s k : Forall (fun kp => fst kp = o_no (snd kp)) (a_ports s) ->
  map (fun kp => port_of (snd kp)) (ddel k (a_ports s)) = filter (fun p => negb (sp_no p =? k)) (table s).
Proof.
  unfold table. induction (a_ports s) as [|[k' p] d IH]; intros H; [reflexivity|]. inversion H; subst. cbn [fst snd] in *.
  cbn [ddel filter map fst snd]. fold (ddel k d). change (sp_no (port_of p)) with (o_no p). rewrite <- H2.
  destruct (negb (k' =? k)); cbn [map snd]; rewrite IH by assumption; reflexivity.
Qed.

Lemma table_nos s : Forall (fun kp => fst kp = o_no (snd kp)) (a_ports s) -> map sp_no (table s) = keys s.
Proof.
  unfold table, keys. induction 1 as [|[k p] d E _ IH]; [reflexivity|]. cbn [map fst snd] in *. rewrite IH, E. reflexivity.
Qed.

(** An addition without failure after the table was changed. *)
Lemma sane_added s dev mac c i s' p r : inv s ->
  bstep s (BAdd dev mac c i None) = (s', r) -> name_ok dev -> mac_ok mac ->
  a_ports s' = a_ports s ++ [(a_num s + 1, p)] ->
  o_no p = a_num s + 1 -> o_name p = dev -> o_curr p = 2050 -> o_hw p = mac_bytes mac ->
  port_ok (port_of p) /\ r = RAdded (a_num s + 1) /\ a_wire s' = a_wire s ++ [port_status 4 0 0 (port_of p)].
Proof.
  intros Hi Hs Hn Hm Hp H1 H2 H3 H4.
  assert (Hok : forall sk, port_ok (port_of (mkOport (a_num s + 1) (mac_bytes mac) dev 2050 sk))).
  { intros sk. destruct (name_ok_facts dev Hn) as (N1 & N2 & N3). destruct Hi as (Hr & _).
    unfold port_ok, sport_ok, port_of. cbn [sp_no sp_hw sp_name sp_words o_no o_hw o_name o_curr Z.eqb Pos.eqb].
    split; [|exact N3]. split; [change (0 <= a_num s + 1 < 4294967296); lia|]. split; [apply mac_bytes_length|]. split; [exact N1|]. split; [exact N2|].
    split; [reflexivity|]. repeat (apply Forall_cons; [lia|]); apply Forall_nil. }
  assert (Ep : port_of p = port_of (mkOport (a_num s + 1) (mac_bytes mac) dev 2050 None)) by (unfold port_of; cbn [o_no o_hw o_name o_curr]; rewrite H1, H2, H3, H4; reflexivity).
  rewrite Ep. split; [apply Hok|].
  cbn [bstep] in Hs. unfold add_port in Hs. destruct (Z.eqb_spec (a_num s + 1) 4294967294) as [E|_].
  { injection Hs as <- <-. apply (f_equal (@length _)) in Hp. rewrite app_length in Hp. cbn in Hp. lia. }
  cbv zeta in Hs. cbn [a_ports a_num a_flows a_wire a_out] in Hs.
  assert (Bad : forall X : Prop, a_ports s = a_ports s ++ [(a_num s + 1, p)] -> X).
  { intros X E. apply (f_equal (@length _)) in E. rewrite app_length in E. cbn in E. lia. }
  destruct c as [[]|e]; cbn [bind] in Hs; [|injection Hs as <- <-; apply Bad; exact Hp].
  destruct (init_sock dev i) as [sk|e]; cbn [bind] in Hs; [|injection Hs as <- <-; apply Bad; exact Hp].
  rewrite unhex_ok in Hs by exact Hm. cbn [bind] in Hs.
  rewrite announce_ok in Hs; [|left; reflexivity|apply Hok]. cbn [asend a_ports a_num a_flows a_wire a_out] in Hs.
  injection Hs as <- <-. cbn [a_wire]. split; reflexivity.
Qed.

Lemma table_step s op : inv s -> walked s op -> sane op ->
  table (fst (bstep s op)) = tab_step (table s) op (snd (bstep s op)) /\ legit (table s) op (snd (bstep s op)).
Proof.
  intros Hi Hw Hs. pose proof (bstep_change s op Hi) as Hc. destruct (bstep s op) as [s' r] eqn:Eb. cbn [fst snd].
  pose proof Hi as (_ & Hnd & Heq & _).
  inversion Hc as [x1 x2 C1 C2 C3 C4|x1 e C1 C2 C3|dev mac c i o x1 p x2 C0 C1 C2 C3 C4 C5 C6 C7 C8|dev ks o di de x1 k p C0 C1 C2 C3 C4]; subst.
  - assert (Et : table s' = table s) by (unfold table; congruence). split.
    + rewrite Et. destruct op, r; try reflexivity; match goal with H : forall n, ?c _ <> ?c n |- _ => exfalso; eapply H; reflexivity end.
    + destruct op as [dev mac c i o|dev ks o di de|m ks o po], r; try exact I; try (match goal with H : forall n, ?c _ <> ?c n |- _ => exfalso; eapply H; reflexivity end).
      cbn [legit]. cbn [walked] in Hw. cbn [bstep] in Eb. unfold del_port in Eb.
      destruct (find_dev (a_ports s) ks dev) as [[k p]|] eqn:Ef.
      { destruct (announce s 1 p o) as [s1 [u|e]]; [|discriminate Eb]. destruct (deinit_sock (o_name p) di ;;; de); discriminate Eb. }
      pose proof (find_dev_none _ _ _ Ef Hnd Hw) as F. unfold table. apply Forall_forall. intros q Hq. apply in_map_iff in Hq.
      destruct Hq as (kp & <- & Hin). rewrite Forall_forall in F. exact (F kp Hin).
  - assert (Et : table s' = table s) by (unfold table; congruence). rewrite Et. destruct op; split; reflexivity || exact I.
  - destruct Hs as (Hn & Hm & ->). rewrite unhex_ok in C7 by exact Hm. injection C7 as C7.
    destruct (sane_added s (o_name p) mac c i s' p r Hi Eb Hn Hm) as (_ & -> & _); try assumption; try reflexivity; try congruence.
    cbn [tab_step legit]. split.
    + unfold table. match goal with E : a_ports s' = _ |- _ => rewrite E end. rewrite map_app. f_equal. cbn [map snd].
      unfold port_of. congruence.
    + rewrite table_nos by exact Heq. apply fresh; assumption.
  - split.
    + unfold table at 1. match goal with E : a_ports s' = _ |- _ => rewrite E end. rewrite table_del by exact Heq. reflexivity.
    + exists (port_of p). split; [|split; [|reflexivity]].
      * unfold table. apply (in_map (fun kp => port_of (snd kp))) in C1. exact C1.
      * rewrite Forall_forall in Heq. specialize (Heq _ C1). cbn [fst snd] in Heq. symmetry. exact Heq.
Qed.

Lemma step_inv s op : inv s -> inv (fst (bstep s op)).
Proof. intros Hi. pose proof (bstep_change s op Hi) as Hc. destruct (bstep s op). eapply change_inv; eassumption. Qed.

Lemma table_all os : forall s, inv s -> throughout walked s os -> Forall sane os ->
  table (fst (brun s os)) = tab_run (table s) os (snd (brun s os)) /\ all_legit (table s) os (snd (brun s os)).
Proof.
  induction os as [|op os IH]; intros s Hi Hw Hs; [split; reflexivity || exact I|]. destruct Hw as [Hw Hws]. inversion Hs; subst.
  rewrite brun_cons. cbn [fst snd tab_run all_legit].
  destruct (table_step s op Hi Hw H1) as [T1 T2]. destruct (IH (fst (bstep s op)) (step_inv s op Hi) Hws H2) as [I1 I2].
  rewrite <- T1. auto.
Qed.

(** What the parser of OpenFlow 1.4 does with SET_MPLS_TTL actions, wherever
    they stand. *)

From Verif Require Import Py Struct P_Struct S_Hello S_Ports P_Hello P_Ports S_Wire4 S_Msg4 M_Build4 M_Parse4 P_Wire4 P_Act4 P_Stat4 P_Msg4 P_MsgParse4 P_Bad4.
From Verif Require Import S_Wire5 S_Msg5 M_Build5 M_Parse5 P_Wire5 P_Act5 P_Stat5 P_Msg5.
From Verif Require Import P_MsgParse5 P_Rebuild5.
Local Open Scope Z_scope.
Local Open Scope list_scope.

Lemma act_bad m off a : at_ m off (act_wire a) -> act_ok a -> ~ not_mpls_ttl a -> p_action m off = Err NameError.
Proof.
  intros Hat [Hf _] Hn. destruct a; try (exfalso; apply Hn; exact Logic.I).
  apply (mpls_ttl_parse m off ttl); [|exact Hat]. cbn [act_fields] in Hf.
  apply fits_cons in Hf. destruct Hf as [_ Hf]. apply fits_cons in Hf. destruct Hf as [_ Hf].
  apply fits_cons in Hf. destruct Hf as [Hf _]. exact Hf.
Qed.

Lemma acts_bad_while m n off l limit :
  at_ m off (acts_wire l) -> Forall act_ok l -> ~ Forall not_mpls_ttl l ->
  limit = (off + length (acts_wire l))%nat -> (length m <= n)%nat ->
  while_fetch n (p_action m) limit off = Err NameError.
Proof.
  intros Hat Hl Hm Hlim Hn.
  apply (while_stops act_wire not_mpls_ttl (p_action m) m NameError l); try assumption; [exact not_mpls_dec| | |apply act_pos].
  - intros a o Hin G Ho. eexists. apply act_parse; [exact Ho | exact (Forall_In _ _ _ Hl Hin) | exact G].
  - intros a o Hin G Ho. apply (act_bad m o a Ho (Forall_In _ _ _ Hl Hin) G).
Qed.

Lemma acts_bad m n off l :
  at_ m off (acts_wire l) -> Forall act_ok l -> ~ Forall not_mpls_ttl l -> (length m <= n)%nat ->
  list_fetch n (p_action m) (off + length (acts_wire l)) off = Err NameError.
Proof. intros Hat Hl Hm Hn. unfold list_fetch. rewrite (acts_bad_while m n off l) by auto. reflexivity. Qed.

Lemma inst_bad m n off i : at_ m off (inst_wire i) -> inst_ok i -> ~ inst_parsable i -> (length m <= n)%nat ->
  p_instruction n m off = Err NameError.
Proof.
  intros Hat [Hf Hx] Hp Hn. destruct i as [t|k w|t acts|k|e b]; try (exfalso; apply Hp; exact Logic.I).
  unfold inst_wire in Hat. cbn [inst_fields inst_parsable] in *. destruct Hx as [Hty Hacts].
  assert (Ht : 0 <= t < 65536) by (destruct Hty as [<-|[<-|[<-|[]]]]; lia).
  destruct (at_ihdr m off t [U 2 (8 + zlen (acts_wire acts)); P 4; R (acts_wire acts)] Hat) as [x Eh];
    [cbn [flen fld_len]; lia|exact Ht|].
  unfold p_instruction. rewrite Eh. cbn [bind].
  assert (En : forall k, ~ In k [3; 4; 5] -> (t =? k) = false).
  { intros k Hk. apply Z.eqb_neq. intros ->. apply Hk. exact Hty. }
  rewrite !En by (cbn; lia). rewrite py_inz_In by exact Hty.
  change [U 2 t; U 2 (8 + zlen (acts_wire acts)); P 4; R (acts_wire acts)]
    with ([U 2 t; U 2 (8 + zlen (acts_wire acts)); P 4] ++ [R (acts_wire acts)]) in Hat, Hf.
  apply at_enc_app in Hat. apply fits_app in Hf. destruct Hat as [H1 H2]. destruct Hf as [F1 _].
  unfold p_instruction_actions.
  rewrite (unp_enc "HH4x" [U 2 t; U 2 (8 + zlen (acts_wire acts)); P 4] m off eq_refl F1 H1).
  cbn [vals bind flen fld_len] in *. rewrite enc_R in H2.
  unfold list_fetch. rewrite (acts_bad_while m n _ acts) by (try assumption; unfold zlen; lia). reflexivity.
Qed.

Lemma insts_bad m n off l limit :
  at_ m off (insts_wire l) -> Forall inst_ok l -> ~ Forall inst_parsable l ->
  limit = (off + length (insts_wire l))%nat -> (length m <= n)%nat ->
  list_fetch n (p_instruction n m) limit off = Err NameError.
Proof.
  intros Hat Hl Hm Hlim Hn.
  apply (list_stops inst_wire inst_parsable (p_instruction n m) m NameError l); try assumption; [exact inst_parsable_dec| | |apply inst_pos].
  - intros a o Hin G Ho. eexists. apply inst_parse; [exact Ho | exact (Forall_In _ _ _ Hl Hin) | exact G | exact Hn].
  - intros a o Hin G Ho. apply (inst_bad m n o a Ho (Forall_In _ _ _ Hl Hin) G Hn).
Qed.

Lemma bucket_bad m n off b : at_ m off (bucket_wire b) -> bucket_ok b -> ~ bucket_parsable b -> (length m <= n)%nat ->
  p_bucket n m off = Err NameError.
Proof.
  destruct b as [w p g acts]. intros Hat [Hf Hx] Hp Hn. unfold bucket_wire in *.
  cbn [bucket_fields bucket_parsable] in *.
  change [U 2 (16 + zlen (acts_wire acts)); U 2 w; U 4 p; U 4 g; P 4; R (acts_wire acts)]
    with ([U 2 (16 + zlen (acts_wire acts)); U 2 w; U 4 p; U 4 g; P 4] ++ [R (acts_wire acts)]) in Hat, Hf.
  apply at_enc_app in Hat. apply fits_app in Hf. destruct Hat as [H1 H2]. destruct Hf as [F1 _].
  unfold p_bucket.
  rewrite (unp_enc "HHII4x" [U 2 (16 + zlen (acts_wire acts)); U 2 w; U 4 p; U 4 g; P 4] m off eq_refl F1 H1).
  cbn [vals bind flen fld_len Datatypes.app] in *. rewrite enc_R in H2.
  rewrite (acts_bad_while m n _ acts) by (try assumption; unfold zlen; lia). reflexivity.
Qed.

Lemma buckets_bad m n off l limit :
  at_ m off (buckets_wire l) -> Forall bucket_ok l -> ~ Forall bucket_parsable l ->
  limit = (off + length (buckets_wire l))%nat -> (length m <= n)%nat ->
  while_fetch n (p_bucket n m) limit off = Err NameError.
Proof.
  intros Hat Hl Hm Hlim Hn.
  apply (while_stops bucket_wire bucket_parsable (p_bucket n m) m NameError l); try assumption; [exact bucket_parsable_dec| | |apply bucket_pos].
  - intros a o Hin G Ho. eexists. apply bucket_parse; [exact Ho | exact (Forall_In _ _ _ Hl Hin) | exact G | exact Hn].
  - intros a o Hin G Ho. apply (bucket_bad m n o a Ho (Forall_In _ _ _ Hl Hin) G Hn).
Qed.

Ltac bstart k :=
  let Hok := fresh "Hok" in let Hl := fresh "Hl" in let Hlen := fresh "Hlen" in
  intros d n bs off Hat Hok Hc Hp Hx Hn Hd;
  destruct d as [|d]; [cbn [mdepth] in Hd; lia|];
  pose proof Hok as (Hf & Hlen & Hext); fold body_fields in *; fold msg_ok in *;
  destruct (p_header_ok bs off (mtype k) _ (body k) Hat (mtype_u8 _ Hok) Hx Hlen) as [Hh Hb];
  pose proof (enc_length (body_fields k)) as Hl; fold (body k) in Hl; rewrite Hl in Hh;
  match type of Hh with _ = Ok (?hv, _, _, _) => set (h := hv) in *; clearbody h end;
  unfold body in Hb; clear Hat Hlen Hl Hok;
  cbn [mtype body_fields msg_parsable flen fld_len mdepth] in *; unfold body in *.

Theorem mpls_message m : forall xid d n bs off,
  at_ bs off (mwire xid m) -> msg_ok m -> carries_actions m -> ~ msg_parsable m -> u32 xid -> (length bs <= n)%nat -> (mdepth m <= d)%nat ->
  parse d n bs off = Err NameError.
Proof.
  induction m; intros x0; try (intros ? ? ? ? ? ? Hc; exfalso; exact Hc).
  - bstart (MPacketOut buffer in_port acts data). by_type Hh. change (p_packet_out n bs off = Err NameError).
    unfold p_packet_out. rewrite Hh. cbn [bind]. cut_layout [U 4 buffer; U 4 in_port; U 2 (zlen (acts_wire acts)); P 6] Hb Hf.
    rewrite (unp_enc "IIH6x" [U 4 buffer; U 4 in_port; U 2 (zlen (acts_wire acts)); P 6]) by (try assumption; reflexivity). cbn [bind vals flen fld_len] in *.
    rewrite enc_R2 in Hb. apply at_app in Hb. destruct Hb as [B1 B2].
    assert (Ez : Z.to_nat (zlen (acts_wire acts)) = length (acts_wire acts)) by (unfold zlen; lia). rewrite Ez.
    rewrite (acts_bad_while bs n _ acts) by (try assumption; reflexivity). reflexivity.
  - bstart (MFlowMod cookie mask table command idle hard prio buffer out_port out_group flags importance m is). by_type Hh.
    change (p_flow_mod n bs off = Err NameError). destruct Hext as [Hm Hi].
    unfold p_flow_mod. rewrite Hh. cbn [bind].
    cut_layout [U 8 cookie; U 8 mask; U 1 table; U 1 command; U 2 idle; U 2 hard; U 2 prio; U 4 buffer; U 4 out_port; U 4 out_group; U 2 flags; U 2 importance] Hb Hf.
    rewrite (unp_enc "QQBB3H3IHH" [U 8 cookie; U 8 mask; U 1 table; U 1 command; U 2 idle; U 2 hard; U 2 prio; U 4 buffer; U 4 out_port; U 4 out_group; U 2 flags; U 2 importance])
      by (try assumption; reflexivity).
    cbn [bind vals flen fld_len] in *. rewrite enc_R2 in Hb. apply at_app in Hb. destruct Hb as [B1 B2].
    rewrite (match_parse _ _ m B1 Hm). cbn [bind].
    rewrite (insts_bad bs n _ is) by (try assumption; lia). reflexivity.
  - rename bs into bs0. bstart (MGroupMod command ty group bs0). by_type Hh. change (p_group_mod n bs off = Err NameError).
    unfold p_group_mod. rewrite Hh. cbn [bind]. cut_layout [U 2 command; U 1 ty; P 1; U 4 group] Hb Hf.
    rewrite (unp_enc "HBxI" [U 2 command; U 1 ty; P 1; U 4 group]) by (try assumption; reflexivity). cbn [bind vals flen fld_len] in *.
    rewrite enc_R in Hb. rewrite (buckets_bad bs n _ bs0) by (try assumption; lia). reflexivity.
  - bstart (MBundleAdd bundle flags xid m). destruct Hext as [Hux Hok]. by_type Hh.
    change (p_bundle_add_msg (parse d n) bs off = Err NameError).
    unfold p_bundle_add_msg. rewrite Hh. cbn [bind]. cut_layout [U 4 bundle; P 2; U 2 flags] Hb Hf.
    rewrite (unp_enc "I2xH" [U 4 bundle; P 2; U 2 flags]) by (try assumption; reflexivity). cbn [bind vals flen fld_len] in *.
    rewrite enc_R in Hb. rewrite (IHm xid d n bs _ Hb Hok Hc Hp Hux Hn) by lia. reflexivity.
  - bstart (MForward xid m). destruct Hext as [Hux Hok]. by_type Hh.
    change (p_requestforward (parse d n) bs off = Err NameError).
    unfold p_requestforward. rewrite Hh. cbn [bind]. rewrite enc_R in Hb.
    rewrite (IHm xid d n bs _ Hb Hok Hc Hp Hux Hn) by lia. reflexivity.
Qed.

(** *** Payloads *)

Lemma set_field_padded m off f :
  at_ m off (act_wire (AcSetField f)) -> act_ok (AcSetField f) -> ((4 + length f) mod 8 <> 0)%nat ->
  exists x z o, p_action m off = Ok (VTup "ofp_action_set_field" [VInt 25; x; VBytes (f ++ z)], o) /\
    z <> [] /\ Forall (fun b => b = 0) z /\ (length (act_wire (AcSetField f)) = 4 + length f + length z)%nat.
Proof.
  intros Hat Hok Hm. rewrite (act_parse m off _ Hat Hok Logic.I). unfold act_view. cbn [act_padded act_class act_fields vals].
  do 2 eexists. eexists. split; [reflexivity|]. split; [|split].
  - intros E. apply (f_equal (@length Z)) in E. rewrite zeros_length in E. change (@length Z []) with 0%nat in E. unfold gap in E.
    pose proof (Nat.mod_upper_bound (4 + length f) 8 ltac:(lia)). rewrite Nat.mod_small in E by lia. lia.
  - unfold zeros. apply Forall_forall. intros b Hb. exact (repeat_spec _ _ _ Hb).
  - unfold act_wire. rewrite enc_length. cbn [act_fields flen fld_len]. rewrite zeros_length. lia.
Qed.

Lemma experimenter_padded m off e d :
  at_ m off (act_wire (AcExperimenter e d)) -> act_ok (AcExperimenter e d) -> (length d mod 8 <> 0)%nat ->
  exists x z o, p_action m off = Ok (VTup "ofp_action_experimenter_" [VInt 65535; x; VInt e; VBytes (d ++ z)], o) /\
    z <> [] /\ Forall (fun b => b = 0) z /\ (length (act_wire (AcExperimenter e d)) = 8 + length d + length z)%nat.
Proof.
  intros Hat Hok Hm. rewrite (act_parse m off _ Hat Hok Logic.I). unfold act_view. cbn [act_padded act_class act_fields vals].
  do 2 eexists. eexists. split; [reflexivity|]. split; [|split].
  - intros E. apply (f_equal (@length Z)) in E. rewrite zeros_length in E. change (@length Z []) with 0%nat in E. unfold gap in E.
    assert (E8 : ((8 + length d) mod 8 = length d mod 8)%nat) by (rewrite Nat.add_mod by lia; rewrite Nat.mod_same by lia; cbn [Nat.add]; apply Nat.mod_mod; lia).
    rewrite E8 in E.
    pose proof (Nat.mod_upper_bound (length d) 8 ltac:(lia)). rewrite Nat.mod_small in E by lia. lia.
  - unfold zeros. apply Forall_forall. intros b Hb. exact (repeat_spec _ _ _ Hb).
  - unfold act_wire. rewrite enc_length. cbn [act_fields flen fld_len]. rewrite zeros_length. lia.
Qed.

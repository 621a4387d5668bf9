(** Proofs for C122: the parser of OpenFlow 1.3 runs forever exactly on the byte
    strings of S_Endless4.v. *)

From Coq Require Import String List ZArith Lia Bool.
From Verif Require Import Py Struct M_Parse4 P_Struct P_Fixed S_Name P_Name P_Term4 S_Accept4 P_Accept4 S_Endless4.
Import ListNotations.
Local Open Scope Z_scope.
Local Open Scope list_scope.

Ltac shp H := let S := fresh "S" in pose proof (here_shape _ _ _ _ _ H) as S; cbn [shape Datatypes.app repeat] in S.

(** *** Pieces *)

Lemma bind_fuel {A B} (p : res A) (q : A -> res B) : bind p q = Err OutOfFuel <-> p = Err OutOfFuel \/ exists a, p = Ok a /\ q a = Err OutOfFuel.
Proof.
  destruct p as [a|x]; cbn [bind]; split.
  - intros E. right. eauto.
  - intros [E|(b & E & F)]; [discriminate|]. apply Ok_inj in E. subst. exact F.
  - intros E. left. congruence.
  - intros [E|(b & E & F)]; [congruence|discriminate].
Qed.

Lemma bind_first {A B} (p : res A) (q : A -> res B) : (forall a, q a <> Err OutOfFuel) -> bind p q = Err OutOfFuel <-> p = Err OutOfFuel.
Proof. intros H. rewrite bind_fuel. split; [intros [E|(a & _ & E)]; [exact E|destruct (H a E)]|auto]. Qed.

Lemma unp_nofuel f fs m off : fmt f = Ok fs -> unp f m off <> Err OutOfFuel.
Proof. intros Hf. destruct (unp_cases f fs m off Hf) as [R|[R L]]; rewrite R; discriminate. Qed.

Lemma unp_then {B} f fs m off (q : _ -> res B) : bytes_ok m -> fmt f = Ok (map item fs) ->
  bind (unp f m off) q = Err OutOfFuel <-> exists vs o, here m off fs vs o /\ q (vs, o) = Err OutOfFuel.
Proof.
  intros Hm Hf. rewrite bind_fuel. split.
  - intros [E|([vs o] & E & F)]; [destruct (unp_nofuel _ _ _ _ Hf E)|]. apply (unp_here f fs m off vs o Hm Hf) in E. eauto.
  - intros (vs & o & H & F). right. exists (vs, o). split; [apply (unp_here f fs m off vs o Hm Hf), H|exact F].
Qed.

Lemma while_endless m f R D e : mono m f -> (forall off v o, f off = Ok (v, o) <-> R off v o) -> (forall off, f off = Err OutOfFuel <-> D off) ->
  forall n off, (length m - off < n)%nat -> while_fetch n f e off = Err OutOfFuel <-> endless R D e off.
Proof.
  intros Hm HR HD n off Hn. split.
  - revert off Hn. induction n as [|n IH]; intros off Hn E; [lia|]. cbn [while_fetch] in E. destruct (Nat.ltb_spec off e) as [L|L]; [|discriminate].
    apply bind_fuel in E. destruct E as [E|([v o] & E & F)]; [apply endless_inside; [exact L|apply HD, E]|].
    destruct (Hm _ _ _ E) as [M1 M2]. apply HR in E. destruct (Nat.eq_dec o off) as [->|Ne]; [exact (endless_still _ _ _ _ _ L E)|].
    apply bind_first in F; [|intros [? ?]; discriminate]. refine (endless_later _ _ _ _ _ _ L E (IH o _ F)). lia.
  - intros H. clear Hn. revert n. induction H as [off v L H|off L H|off v o L H _ IH]; intros n.
    + apply HR in H. exact (stuck_loop f e off v L H n).
    + apply Nat.ltb_lt in L. destruct n; cbn [while_fetch]; rewrite L; [reflexivity|]. rewrite (proj2 (HD off) H). reflexivity.
    + apply Nat.ltb_lt in L. destruct n; cbn [while_fetch]; rewrite L; [reflexivity|]. rewrite (proj2 (HR _ _ _) H). cbn [bind]. rewrite IH. reflexivity.
Qed.

Lemma list_endless m f R D e : mono m f -> (forall off v o, f off = Ok (v, o) <-> R off v o) -> (forall off, f off = Err OutOfFuel <-> D off) ->
  forall n off, (length m - off < n)%nat -> list_fetch n f e off = Err OutOfFuel <-> endless R D e off.
Proof.
  intros Hm HR HD n off Hn. unfold list_fetch. rewrite bind_first; [exact (while_endless m f R D e Hm HR HD n off Hn)|].
  intros [vs o]. unfold assert_. destruct (o =? e)%nat; discriminate.
Qed.

(** A reading with enough fuel. *)
Lemma mean_at {A} (p : nat -> res A) P (m : bytes) n : mean p P -> (forall n1 n2, (length m < n1)%nat -> (length m < n2)%nat -> p n1 = p n2) -> (length m < n)%nat ->
  forall a, p n = Ok a <-> P a.
Proof.
  intros [H1 H2] Hc Hn a. split; [apply H1|]. intros K. destruct (H2 a K) as (k & E). rewrite (Hc n (k + S (length m))%nat Hn ltac:(lia)). apply E. lia.
Qed.

Lemma exn_fuel (e : exn) : e = OutOfFuel \/ e <> OutOfFuel.
Proof. destruct e; try (right; discriminate). left. reflexivity. Qed.

(** *** Elements *)

Ltac nofu := repeat match goal with
  | |- bind _ _ <> Err OutOfFuel => apply bind_nofuel; [|intros ? _]
  | |- unp _ _ _ <> Err OutOfFuel => eapply unp_nofuel; vm_compute; reflexivity
  | |- fixed _ _ _ _ <> Err OutOfFuel => eapply fixed_nofuel; vm_compute; reflexivity
  | |- Ok _ <> Err OutOfFuel => discriminate
  | |- Err _ <> Err OutOfFuel => discriminate
  | |- (if ?b then _ else _) <> _ => destruct b
  | |- match ?x with _ => _ end <> _ => destruct x
  end.

Ltac nofu_in E := exfalso; revert E; match goal with |- ?a = ?b -> False => change (a <> b) end; nofu.

Lemma action_nofuel m off : p_action m off <> Err OutOfFuel.
Proof.
  unfold p_action, p_action_header, p_action_output, p_action_group, p_action_set_queue, p_action_mpls_ttl, p_action_nw_ttl, p_action_push, p_action_pop_mpls, p_action_set_field, p_action_experimenter. cbv zeta. nofu.
Qed.
Lemma unpacks_nofuel f fs m off : fmt f = Ok fs -> unpacks f m off <> Err OutOfFuel.
Proof. intros Hf. unfold unpacks. rewrite Hf. cbn [bind]. unfold unpack_from. destruct (_ <=? _)%nat; discriminate. Qed.
Lemma band_nofuel m off : p_meter_band m off <> Err OutOfFuel.
Proof.
  unfold p_meter_band, p_meter_band_header, p_meter_band_drop, p_meter_band_dscp_remark, p_meter_band_experimenter. nofu. eapply unpacks_nofuel. vm_compute. reflexivity.
Qed.

Section message.
Variable m : bytes.
Hypothesis Hm : bytes_ok m.
Variable n : nat.
Hypothesis Hn : (length m < n)%nat.

Lemma none_iff (f : nat -> res (pyval * nat)) : (forall off, f off <> Err OutOfFuel) -> forall off, f off = Err OutOfFuel <-> no_inner off.
Proof. intros H off. split; [apply H|intros []]. Qed.

Lemma actions_while e off : while_fetch n (p_action m) e off = Err OutOfFuel <-> actions_endless m e off.
Proof. apply (while_endless m); [apply action_mono|apply (action_iff m Hm)|apply none_iff, action_nofuel|lia]. Qed.
Lemma actions_list e off : list_fetch n (p_action m) e off = Err OutOfFuel <-> actions_endless m e off.
Proof. apply (list_endless m); [apply action_mono|apply (action_iff m Hm)|apply none_iff, action_nofuel|lia]. Qed.
Lemma bands_while e off : while_fetch n (p_meter_band m) e off = Err OutOfFuel <-> bands_endless m e off.
Proof. apply (while_endless m); [apply band_mono|apply (band_iff m Hm)|apply none_iff, band_nofuel|lia]. Qed.
Lemma bands_list e off : list_fetch n (p_meter_band m) e off = Err OutOfFuel <-> bands_endless m e off.
Proof. apply (list_endless m); [apply band_mono|apply (band_iff m Hm)|apply none_iff, band_nofuel|lia]. Qed.

Lemma instruction_at off v o : p_instruction n m off = Ok (v, o) <-> an_instruction m off v o.
Proof. exact (mean_at _ _ m n (instruction_mean m Hm off) (fun a b x y => instruction_const m a b x y off) Hn (v, o)). Qed.
Lemma bucket_at off v o : p_bucket n m off = Ok (v, o) <-> a_bucket m off v o.
Proof. exact (mean_at _ _ m n (bucket_mean m Hm off) (fun a b x y => bucket_const m a b x y off) Hn (v, o)). Qed.

Lemma instruction_forever off : p_instruction n m off = Err OutOfFuel <-> instruction_endless m off.
Proof.
  unfold instruction_endless. split.
  - intros E. unfold p_instruction in E. apply bind_fuel in E. destruct E as [E|([h o] & Eh & E)]; [destruct (fixed_nofuel "ofp_instruction" "HH" [FU 2; FU 2] m off eq_refl E)|].
    apply (fixed_iff m Hm "ofp_instruction" "HH" [N 2; N 2] off h o eq_refl) in Eh. destruct Eh as (vs & H & ->). shp H. destruct S as (ty & ? & -> & _ & len & ? & -> & _ & ->).
    destruct (ty =? 1); [unfold p_instruction_goto_table in E; nofu_in E|]. destruct (ty =? 2); [unfold p_instruction_write_metadata in E; nofu_in E|].
    destruct (py_inz (VInt ty) [3; 4; 5]) eqn:I; [|destruct (ty =? 6); [unfold p_instruction_meter in E; nofu_in E|]; destruct (ty =? 65535); [unfold p_instruction_experimenter in E; nofu_in E|discriminate]].
    unfold p_instruction_actions in E. apply (unp_then "HH4x" [N 2; N 2; G 4] m off _ Hm eq_refl) in E. destruct E as (vs & o1 & H1 & E).
    destruct (here_two m [] [G 4] off _ _ _ _ H H1) as (a & b & vs' & ws' & E1 & E2). injection E1 as <- <- <-. subst vs. destruct (here_tail m _ _ _ _ _ _ H1) as [_ S']. cbn [shape] in S'. subst ws'. cbv zeta in E. apply bind_first in E; [|intros [? ?]; discriminate].
    apply inz_iff in I. exists ty, len, o1. split; [cbn [In]; cbn [In] in I; tauto|]. split; [exact H1|]. apply actions_list. exact E.
  - intros (ty & len & o & I & H & E). unfold p_instruction.
    assert (K : fixed "ofp_instruction" "HH" m off = Ok (VTup "ofp_instruction" [VInt ty; VInt len], (off + 4)%nat)).
    { apply (fixed_iff m Hm "ofp_instruction" "HH" [N 2; N 2] off _ _ eq_refl). exists [VInt ty; VInt len]. split; [|reflexivity].
      apply (here_split m off [N 2; N 2] [G 4]) in H. destruct H as (v1 & v2 & o1 & Ev & A & B). shp B. subst v2. rewrite app_nil_r in Ev. subst v1.
      apply here_end in A as Eo. cbn in Eo. subst o1. exact A. }
    unfold p_instruction_header. rewrite K. cbn [bind]. rewrite !(proj2 (Z.eqb_neq ty _)) by (cbn [In] in I; lia). rewrite (proj2 (inz_iff ty [3; 4; 5]) I).
    unfold p_instruction_actions. apply (unp_then "HH4x" [N 2; N 2; G 4] m off _ Hm eq_refl). exists [VInt ty; VInt len], o. split; [exact H|]. cbv zeta.
    apply bind_first; [intros [? ?]; discriminate|]. apply actions_list. exact E.
Qed.

Lemma bucket_forever off : p_bucket n m off = Err OutOfFuel <-> bucket_endless m off.
Proof.
  unfold bucket_endless, p_bucket. rewrite (unp_then "HHII4x" [N 2; N 2; N 4; N 4; G 4] m off _ Hm eq_refl). split.
  - intros (vs & o & H & E). shp H. destruct S as (len & ? & -> & _ & w & ? & -> & _ & p & ? & -> & _ & g & ? & -> & _ & ->).
    apply bind_first in E; [|intros [? ?]; discriminate]. apply actions_while in E. exists len, w, p, g, o. auto.
  - intros (len & w & p & g & o & H & E). eexists _, o. split; [exact H|]. apply bind_first; [intros [? ?]; discriminate|]. apply actions_while. exact E.
Qed.

Lemma instructions_list e off : list_fetch n (p_instruction n m) e off = Err OutOfFuel <-> instructions_endless m e off.
Proof. apply (list_endless m); [apply instruction_mono|apply instruction_at|apply instruction_forever|lia]. Qed.
Lemma buckets_while e off : while_fetch n (p_bucket n m) e off = Err OutOfFuel <-> buckets_endless m e off.
Proof. apply (while_endless m); [apply bucket_mono|apply bucket_at|apply bucket_forever|lia]. Qed.
Lemma buckets_list e off : list_fetch n (p_bucket n m) e off = Err OutOfFuel <-> buckets_endless m e off.
Proof. apply (list_endless m); [apply bucket_mono|apply bucket_at|apply bucket_forever|lia]. Qed.

(** A match, then a list. *)
Lemma match_then {B} off (q : _ -> res B) : bind (p_match m off) q = Err OutOfFuel <-> exists mt o, a_match m off mt o /\ q (mt, o) = Err OutOfFuel.
Proof.
  rewrite bind_fuel. split.
  - intros [E|([mt o] & E & F)]; [destruct (match_nofuel _ _ E)|]. apply (match_iff m Hm) in E. eauto.
  - intros (mt & o & H & F). right. exists (mt, o). split; [apply (match_iff m Hm), H|exact F].
Qed.

Ltac last := apply bind_first; [intros [? ?]; discriminate|].
Ltac last_in E := apply bind_first in E; [|intros [? ?]; discriminate].

Lemma flow_stats_forever off : p_flow_stats n m off = Err OutOfFuel <-> flow_stats_endless m off.
Proof.
  unfold flow_stats_endless, p_flow_stats. rewrite (unp_then "HBxII4H4x3Q" [N 2; N 1; G 1; N 4; N 4; N 2; N 2; N 2; N 2; G 4; N 8; N 8; N 8] m off _ Hm eq_refl). split.
  - intros (vs & o & H & E). shp H. destruct S as (len & ws & -> & _). apply match_then in E. destruct E as (mt & o2 & M & E). last_in E. apply instructions_list in E.
    exists len, ws, o, mt, o2. auto.
  - intros (len & vs & o & mt & o2 & H & M & E). eexists _, o. split; [exact H|]. apply match_then. exists mt, o2. split; [exact M|]. last. apply instructions_list. exact E.
Qed.
Lemma group_desc_forever off : p_group_desc n m off = Err OutOfFuel <-> group_desc_endless m off.
Proof.
  unfold group_desc_endless, p_group_desc. rewrite (unp_then "HBxI" [N 2; N 1; G 1; N 4] m off _ Hm eq_refl). split.
  - intros (vs & o & H & E). shp H. destruct S as (len & ws & -> & _). last_in E. apply buckets_list in E. exists len, ws, o. auto.
  - intros (len & vs & o & H & E). eexists _, o. split; [exact H|]. last. apply buckets_list. exact E.
Qed.
Lemma meter_config_forever off : p_meter_config n m off = Err OutOfFuel <-> meter_config_endless m off.
Proof.
  unfold meter_config_endless, p_meter_config. rewrite (unp_then "HHI" [N 2; N 2; N 4] m off _ Hm eq_refl). split.
  - intros (vs & o & H & E). shp H. destruct S as (len & ws & -> & _). last_in E. apply bands_list in E. exists len, ws, o. auto.
  - intros (len & vs & o & H & E). eexists _, o. split; [exact H|]. last. apply bands_list. exact E.
Qed.

Lemma flow_stats_at off v o : p_flow_stats n m off = Ok (v, o) <-> flow_stats m off v o.
Proof. exact (mean_at _ _ m n (flow_stats_mean m Hm off) (fun a b x y => flow_stats_const m a b x y off) Hn (v, o)). Qed.
Lemma group_desc_at off v o : p_group_desc n m off = Ok (v, o) <-> with_list "ofp_group_desc" [N 2; N 1; G 1; N 4] 0 (a_bucket m) m off v o.
Proof.
  exact (mean_at _ _ m n (with_list0_mean m Hm "ofp_group_desc" "HBxI" [N 2; N 1; G 1; N 4] (fun n => p_bucket n m) (a_bucket m) off eq_refl Logic.I (fun o => bucket_mean m Hm o)) (fun a b x y => group_desc_const m a b x y off) Hn (v, o)).
Qed.
Lemma meter_config_at off v o : p_meter_config n m off = Ok (v, o) <-> with_list "ofp_meter_config" [N 2; N 2; N 4] 0 (a_band m) m off v o.
Proof.
  exact (mean_at _ _ m n (with_list0_mean m Hm "ofp_meter_config" "HHI" [N 2; N 2; N 4] (fun _ => p_meter_band m) (a_band m) off eq_refl Logic.I (fun o => band_mean m Hm o)) (fun a b x y => meter_config_const m a b x y off) Hn (v, o)).
Qed.

Lemma reply_forever ty f R D e off : mono m f -> (forall off v o, f off = Ok (v, o) <-> R off v o) -> (forall off, f off = Err OutOfFuel <-> D off) ->
  reply_element m ty R -> reply_endless m ty D ->
  (' (l, o) <- list_fetch n f e off ;; Ok (VList l, o)) = Err OutOfFuel <-> exists R D, reply_element m ty R /\ reply_endless m ty D /\ endless R D e off.
Proof.
  intros H1 H2 H3 Hr Hd. rewrite bind_first by (intros [? ?]; discriminate). rewrite (list_endless m f R D e H1 H2 H3) by lia. split; [eauto|].
  intros (R' & D' & A & B & C). inversion Hd; subst ty D; inversion Hr; subst R; inversion A; subst R'; inversion B; subst D'; exact C.
Qed.

Ltac never := split; [let K := fresh in intros K; exfalso; revert K; match goal with |- ?a = ?b -> False => change (a <> b) end | let B := fresh in intros B; inversion B].

Theorem parse_forever off : parse n m off = Err OutOfFuel <-> message_endless m off.
Proof.
  destruct (header_cases m off) as [E|[E|(h & E & L)]].
  1, 2: unfold parse, message_endless; rewrite E; split; [discriminate|]; intros (ty & len & h & H & _);
    pose proof (proj2 (header_iff m Hm off h ty (Z.to_nat len) (off + 8)) ltac:(eauto)); congruence.
  destruct (proj1 (header_iff m Hm _ _ _ _ _) E) as (len & H & El & _). rewrite El in E. match type of E with _ = Ok (_, ?t, _, _) => set (ty := t) in * end. clearbody ty.
  assert (M : message_endless m off <-> body_endless m (end_ off len) (off + 8) ty).
  { unfold message_endless. split; [|eauto]. intros (ty' & len' & h' & H' & B). destruct (header_det m _ _ _ _ _ _ _ H H') as (-> & -> & _). exact B. }
  rewrite M. clear M. unfold parse. rewrite E. cbn [bind].
  destruct (Z.eqb_spec ty 0) as [->|N0]. { never. unfold p_hello. rewrite E. cbn [bind]. lnf (hello_live m). }
  destruct (Z.eqb_spec ty 1) as [->|N1]. { never. unfold p_error_msg. rewrite E. cbn [bind]. repeat nf. }
  destruct (Z.eqb_spec ty 6) as [->|N6]. { never. unfold p_switch_features. rewrite E. cbn [bind]. read; discriminate. }
  destruct (py_inz (VInt ty) [9; 8]) eqn:I. { apply inz_iff in I. cbn [In] in I. split; [intros K; exfalso; revert K; match goal with |- ?a = ?b -> False => change (a <> b) end | intros B; inversion B; subst; lia]. unfold p_switch_config. snf. }
  destruct (Z.eqb_spec ty 10) as [->|N10]. { never. unfold p_packet_in. rewrite E. cbn [bind]. repeat nf. }
  destruct (Z.eqb_spec ty 11) as [->|N11]. { never. unfold p_flow_removed. rewrite E. cbn [bind]. repeat nf. }
  destruct (Z.eqb_spec ty 12) as [->|N12]. { never. unfold p_port_status. rewrite E. cbn [bind]. repeat nf. apply port_nofuel. }
  destruct (Z.eqb_spec ty 13) as [->|N13].
  { unfold p_packet_out. rewrite E. cbn [bind]. rewrite (unp_then "IIH6x" [N 4; N 4; N 2; G 6] m (off + 8) _ Hm eq_refl). split.
    - intros (vs & o & Hv & F). shp Hv. destruct S as (b & ? & -> & _ & i & ? & -> & _ & al & ? & -> & _ & ->). last_in F. apply actions_while in F. exact (end_packet_out _ _ _ _ _ _ _ Hv F).
    - intros B. inversion B as [b i al o Hv F| | | |]; subst. eexists _, o. split; [exact Hv|]. last. apply actions_while. exact F. }
  destruct (Z.eqb_spec ty 14) as [->|N14].
  { unfold p_flow_mod. rewrite E. cbn [bind]. rewrite (unp_then "QQBB3H3IH2x" [N 8; N 8; N 1; N 1; N 2; N 2; N 2; N 4; N 4; N 4; N 2; G 2] m (off + 8) _ Hm eq_refl). split.
    - intros (vs & o & Hv & F). apply match_then in F. destruct F as (mt & o2 & Mt & F). last_in F. apply instructions_list in F. exact (end_flow_mod _ _ _ _ _ _ _ Hv Mt F).
    - intros B. inversion B as [|vs o mt o2 Hv Mt F| | |]; subst. eexists _, o. split; [exact Hv|]. apply match_then. exists mt, o2. split; [exact Mt|]. last. apply instructions_list. exact F. }
  destruct (Z.eqb_spec ty 15) as [->|N15].
  { unfold p_group_mod. rewrite E. cbn [bind]. rewrite (unp_then "HBxI" [N 2; N 1; G 1; N 4] m (off + 8) _ Hm eq_refl). split.
    - intros (vs & o & Hv & F). last_in F. apply buckets_while in F. exact (end_group_mod _ _ _ _ _ Hv F).
    - intros B. inversion B as [| |vs o Hv F| |]; subst. eexists _, o. split; [exact Hv|]. last. apply buckets_while. exact F. }
  destruct (Z.eqb_spec ty 16) as [->|N16]. { never. unfold p_port_mod. rewrite E. cbn [bind]. apply bind_nofuel; [|discriminate]. eapply unpacks_nofuel. vm_compute. reflexivity. }
  destruct (Z.eqb_spec ty 17) as [->|N17]. { never. unfold p_table_mod. snf. }
  destruct (Z.eqb_spec ty 18) as [->|N18].
  { never. unfold p_multipart_request. rewrite E. cbn [bind]. read; [discriminate|]. apply bind_nofuel; [|intros [? ?] _; discriminate].
    repeat match goal with |- (if ?b then _ else _) <> _ => destruct b end; try discriminate.
    - unfold p_flow_stats_request, flow_request. repeat nf.
    - unfold p_aggregate_stats_request, flow_request. repeat nf.
    - unfold p_port_stats_request. nf.
    - unfold p_queue_stats_request. nf.
    - unfold p_group_stats_request. nf.
    - unfold p_meter_multipart_request. nf.
    - lnf (features_live m). }
  destruct (Z.eqb_spec ty 19) as [->|N19].
  { unfold p_multipart_reply. rewrite E. cbn [bind]. rewrite (unp_then "HH4x" [N 2; N 2; G 4] m (off + 8) _ Hm eq_refl).
    assert (Sh : forall vs o, here m (off + 8) [N 2; N 2; G 4] vs o -> exists mt fl, vs = [VInt mt; VInt fl]).
    { intros vs o Hv. shp Hv. destruct S as (mt & ? & -> & _ & fl & ? & -> & _ & ->). eauto. }
    transitivity (exists mt fl o, here m (off + 8) [N 2; N 2; G 4] [VInt mt; VInt fl] o /\ exists R D, reply_element m mt R /\ reply_endless m mt D /\ endless R D (end_ off len) o).
    2: { split.
         - intros (mt & fl & o & Hv & R & D & A & B & C). exact (end_reply _ _ _ _ _ _ _ _ Hv A B C).
         - intros B. inversion B; subst. eauto 12. }
    assert (W : forall mt fl o, (let fetch f := (' (l, o) <- list_fetch n f (off + Z.to_nat len) o ;; Ok (VList l, o)) in
        ' (body, o) <-
        (if mt =? 0 then p_desc m o
         else if mt =? 1 then fetch (p_flow_stats n m)
         else if mt =? 2 then fetch (p_aggregate_stats_reply m)
         else if mt =? 3 then fetch (p_table_stats m)
         else if mt =? 4 then fetch (p_port_stats m)
         else if mt =? 5 then fetch (p_queue_stats m)
         else if mt =? 6 then fetch (p_group_stats n m)
         else if mt =? 7 then fetch (p_group_desc n m)
         else if mt =? 8 then p_group_features m o
         else if mt =? 9 then fetch (p_meter_stats n m)
         else if mt =? 10 then fetch (p_meter_config n m)
         else if mt =? 11 then p_meter_features m o
         else if mt =? 12 then fetch (p_table_features m)
         else if mt =? 13 then fetch (p_port m)
         else if mt =? 65535 then p_experimenter_multipart m o (off + Z.to_nat len)
         else Err ValueError) ;;
        Ok (VTup "ofp_multipart_reply" (h :: [VInt mt; VInt fl] ++ [body]), o)) = Err OutOfFuel <->
      exists R D, reply_element m mt R /\ reply_endless m mt D /\ endless R D (end_ off len) o).
    { intros mt fl o. cbv zeta. rewrite bind_first by (intros [? ?]; discriminate).
      Ltac nrep := split; [let K := fresh in intros K; exfalso; revert K; match goal with |- ?a = ?b -> False => change (a <> b) end | let B := fresh in intros (? & ? & _ & B & _); inversion B].
      destruct (Z.eqb_spec mt 0) as [->|M0]. { nrep. unfold p_desc. nf. }
      destruct (Z.eqb_spec mt 1) as [->|M1]. { apply (reply_forever 1 _ (flow_stats m) (flow_stats_endless m)); [apply flow_stats_mono|apply flow_stats_at|apply flow_stats_forever|constructor..]. }
      destruct (Z.eqb_spec mt 2) as [->|M2]. { nrep. lnf (aggregate_live m). }
      destruct (Z.eqb_spec mt 3) as [->|M3]. { nrep. lnf (table_stats_live m). }
      destruct (Z.eqb_spec mt 4) as [->|M4]. { nrep. lnf (port_stats_live m). }
      destruct (Z.eqb_spec mt 5) as [->|M5]. { nrep. lnf (queue_stats_live m). }
      destruct (Z.eqb_spec mt 6) as [->|M6]. { nrep. lnf (group_stats_live m n Hn). }
      destruct (Z.eqb_spec mt 7) as [->|M7]. { apply (reply_forever 7 _ (with_list "ofp_group_desc" [N 2; N 1; G 1; N 4] 0 (a_bucket m) m) (group_desc_endless m)); [apply group_desc_mono|apply group_desc_at|apply group_desc_forever|constructor..]. }
      destruct (Z.eqb_spec mt 8) as [->|M8]. { nrep. unfold p_group_features. repeat nf. }
      destruct (Z.eqb_spec mt 9) as [->|M9]. { nrep. lnf (meter_stats_live m n Hn). }
      destruct (Z.eqb_spec mt 10) as [->|M10]. { apply (reply_forever 10 _ (with_list "ofp_meter_config" [N 2; N 2; N 4] 0 (a_band m) m) (meter_config_endless m)); [apply meter_config_mono|apply meter_config_at|apply meter_config_forever|constructor..]. }
      destruct (Z.eqb_spec mt 11) as [->|M11]. { nrep. unfold p_meter_features. nf. }
      destruct (Z.eqb_spec mt 12) as [->|M12]. { nrep. lnf (features_live m). }
      destruct (Z.eqb_spec mt 13) as [->|M13]. { nrep. lnf (port_live m). }
      destruct (Z.eqb_spec mt 65535) as [->|M14]. { nrep. unfold p_experimenter_multipart. repeat nf. }
      split; [discriminate|]. intros (? & ? & _ & B & _). inversion B; congruence. }
    split.
    - intros (vs & o & Hv & F). destruct (Sh vs o Hv) as (mt & fl & ->). exists mt, fl, o. split; [exact Hv|]. apply W with fl. exact F.
    - intros (mt & fl & o & Hv & F). eexists _, o. split; [exact Hv|]. apply (W mt fl o). exact F. }
  destruct (Z.eqb_spec ty 4) as [->|N4]. { never. unfold p_experimenter. apply bind_nofuel; [unfold p_experimenter_header; snf | discriminate]. }
  destruct (Z.eqb_spec ty 22) as [->|N22]. { never. unfold p_queue_get_config_request. snf. }
  destruct (Z.eqb_spec ty 23) as [->|N23]. { never. unfold p_queue_get_config_reply. rewrite E. cbn [bind]. read; [discriminate|]. lnf (queue_live m). }
  destruct (Z.eqb_spec ty 24) as [->|N24]. { never. unfold p_role_request. snf. }
  destruct (py_inz (VInt ty) [28; 27]) eqn:I2. { apply inz_iff in I2. cbn [In] in I2. split; [intros K; exfalso; revert K; match goal with |- ?a = ?b -> False => change (a <> b) end | intros B; inversion B; subst; lia]. unfold p_async_config. rewrite E. cbn [bind]. repeat nf. }
  destruct (Z.eqb_spec ty 29) as [->|N29].
  { unfold p_meter_mod. rewrite E. cbn [bind]. rewrite (unp_then "HHI" [N 2; N 2; N 4] m (off + 8) _ Hm eq_refl). split.
    - intros (vs & o & Hv & F). last_in F. apply bands_while in F. exact (end_meter_mod _ _ _ _ _ Hv F).
    - intros B. inversion B as [| | | |vs o Hv F]; subst. eexists _, o. split; [exact Hv|]. last. apply bands_while. exact F. }
  split; [unfold p_ofp; rewrite E; discriminate|]. intros B. inversion B; congruence.
Qed.

End message.

(** *** Which elements end where they begin *)

Lemma many_up (R : nat -> pyval -> nat -> Prop) e off l o : (forall a v b, R a v b -> (a <= b)%nat) -> many R e off l o -> (off <= o)%nat.
Proof. intros H M. induction M as [a L|a v b vs c L K M IH]; [lia|]. apply H in K. lia. Qed.

Section still.
Variable m : bytes.
Hypothesis Hm : bytes_ok m.

Lemma action_still off : (exists v, an_action m off v off) <-> exists ty o, In ty [25; 65535] /\ here m off [N 2; N 2; G 4] [VInt ty; VInt 0] o.
Proof.
  split.
  - intros (v & A). inversion A as [ty cls fs v' vs o I H ->|len o8 H|len x o8 H|ty len o I H].
    + exfalso. apply here_end in H. change (flen (N 2 :: N 2 :: fs)) with (2 + (2 + flen fs))%nat in H. lia.
    + subst v. unfold end_ in *. shp H. destruct S as (? & ? & E1 & _ & ? & ? & E2 & R & _). injection E1 as <- <-. injection E2 as <- <-. cbn [In]. exists 25, o8. split; [tauto|]. replace 0 with len by lia. exact H.
    + subst v. unfold end_ in *. shp H. destruct S as (? & ? & E1 & _ & ? & ? & E2 & R & _). injection E1 as <- <-. injection E2 as <- <-. cbn [In]. exists 65535, (off + 8)%nat. split; [tauto|].
      assert (len = 0) by lia. subst len. rewrite H1 in H. rewrite ?H1. destruct (here_tail m _ _ _ _ _ _ H) as [S' _]. replace (off + 8)%nat with (off + flen [N 2; N 2] + 4)%nat by (cbn; lia). exact (here_take m Hm [N 2; N 2] [N 4] 4 off [VInt 65535; VInt 0] [VInt x] o8 ltac:(cbn; lia) S' H).
    + exfalso. apply here_end in H. cbn in H. lia.
  - intros (ty & o & I & H). cbn [In] in I. destruct I as [<-|[<-|[]]].
    + pose proof (act_set_field m off 0 o H) as A. unfold end_ in A. cbn [Z.to_nat] in A. rewrite Nat.add_0_r in A. eauto.
    + assert (exists x, here m off [N 2; N 2; N 4] [VInt 65535; VInt 0; VInt x] (off + 8)) as (x & K).
      { apply (here_split m off [N 2; N 2] [G 4]) in H. destruct H as (v1 & v2 & o1 & Ev & A & B). shp B. subst v2. rewrite app_nil_r in Ev. subst v1. apply here_end in A as Eo. cbn in Eo. subst o1.
        apply (here_iff _ _ _ _ _ Hm) in B. destruct B as (Lb & _ & _). cbn in Lb.
        destruct (unp "I" m (off + 4)) as [[vs o']|x] eqn:U; [|destruct (unp_cases "I" [FU 4] m (off + 4) eq_refl) as [U'|[U' _]]; [|congruence]].
        - apply (unp_here "I" [N 4] m (off + 4) vs o' Hm eq_refl) in U. pose proof U as Us. shp Us. destruct S as (x & ? & -> & _ & ->). exists x. apply here_end in U as Eo. cbn in Eo. replace (off + 8)%nat with o' by lia.
          apply (here_split m off [N 2; N 2] [N 4]). exists [VInt 65535; VInt 0], [VInt x], (off + 4)%nat. auto.
        - exfalso. unfold unp, unpacks, unpack_from in U'. change (fmt "I") with (Ok [FU 4]) in U'. cbn [bind] in U'. change (calcsize [FU 4]) with 4%nat in U'. rewrite (proj2 (Nat.leb_le _ _)) in U' by lia. cbn [bind] in U'.
          change (sizes "I") with (Ok 4%nat) in U'. discriminate. }
      pose proof (act_experimenter m off 0 x _ K) as A. unfold end_ in A. cbn [Z.to_nat] in A. rewrite Nat.add_0_r in A. eauto.
Qed.

Lemma action_up a v b : an_action m a v b -> (a <= b)%nat.
Proof. intros H. apply (action_iff m Hm) in H. apply (action_mono m) in H. tauto. Qed.

Lemma instruction_still off : (exists v, an_instruction m off v off) <-> exists x o, here m off [N 2; N 2; N 4] [VInt 65535; VInt 0; VInt x] o.
Proof.
  split.
  - intros (v & A). inversion A as [v' len t o H Ev|v' len a b o H Ev|v' ty len acts o I H F Ev|v' len x o H Ev|v' len x o H Ev]; subst v'.
    1, 2, 4: exfalso; apply here_end in H; cbn in H; lia.
    + exfalso. apply (many_up _ _ _ _ _ action_up) in F. apply here_end in H. cbn in H. unfold end_ in *. lia.
    + unfold end_ in *. shp H. destruct S as (? & ? & E1 & _ & ? & ? & E2 & R & _). injection E1 as <- <-. injection E2 as <- <-. assert (len = 0) by lia. subst len. eauto.
  - intros (x & o & H). pose proof (ins_experimenter m off _ 0 x o H eq_refl) as A. unfold end_ in A. cbn [Z.to_nat] in A. rewrite Nat.add_0_r in A. eauto.
Qed.

Lemma bucket_up a v b : a_bucket m a v b -> (a + 16 <= b)%nat.
Proof. intros (len & w & p & g & o & acts & H & M & _). apply (many_up _ _ _ _ _ action_up) in M. apply here_end in H. cbn in H. lia. Qed.
Lemma instruction_up a v b : an_instruction m a v b -> (a <= b)%nat.
Proof. intros H. apply (proj2 (instruction_at m Hm _ (Nat.lt_succ_diag_r _) a v b)) in H. apply instruction_mono in H. tauto. Qed.
Lemma band_up a v b : a_band m a v b -> (a <= b)%nat.
Proof. intros H. apply (band_iff m Hm) in H. apply band_mono in H. tauto. Qed.

Lemma band_still off : (exists v, a_band m off v off) <-> exists len r s x o, here m off [N 2; N 2; N 4; N 4; N 4] [VInt 65535; VInt len; VInt r; VInt s; VInt x] o.
Proof.
  split.
  - intros (v & A). inversion A as [v' len r s o H Ev|v' len r s p o H Ev|v' len r s x o H Ev]; subst v'.
    1, 2: exfalso; apply here_end in H; cbn in H; lia. eauto 7.
  - intros (len & r & s & x & o & H). eexists. eapply band_experimenter; [exact H|reflexivity].
Qed.

Lemma reply_up ty R D off v o : reply_element m ty R -> reply_endless m ty D -> R off v o -> (off < o)%nat.
Proof.
  intros A B. inversion B; subst ty D; inversion A; subst R.
  - intros (len & vs & o1 & mt & o2 & is & H & M & -> & F & _). apply (many_up _ _ _ _ _ instruction_up) in F. apply (match_iff m Hm) in M. apply match_mono in M. apply here_end in H. cbn in H. lia.
  - intros (len & vs & o1 & l & H & _ & -> & F & _). apply (many_up (a_bucket m)) in F; [|intros a v' b K; apply bucket_up in K; lia]. apply here_end in H. cbn in H. lia.
  - intros (len & vs & o1 & l & H & _ & -> & F & _). apply (many_up _ _ _ _ _ band_up) in F. apply here_end in H. cbn in H. lia.
Qed.

End still.

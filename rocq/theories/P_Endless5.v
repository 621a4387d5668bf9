(** Proofs for C123: the parser of OpenFlow 1.4 runs forever exactly on the byte
    strings of S_Endless5.v. *)

From Coq Require Import String List ZArith Lia Bool.
From Verif Require Import Py Struct M_Parse4 M_Parse5 P_Struct P_Fixed P_Name P_Term4 S_Accept4 P_Accept4 P_Endless4 P_Term5 S_Accept5 P_Accept5 S_Unused P_Unused4 P_Unused5 S_Endless4 S_Endless5.
Import ListNotations.
Local Open Scope Z_scope.
Local Open Scope list_scope.

Ltac shp H := let S := fresh "S" in pose proof (here_shape _ _ _ _ _ H) as S; cbn [shape Datatypes.app repeat] in S.
Ltac last := apply bind_first; [intros [? ?]; discriminate|].
Ltac last_in E := apply bind_first in E; [|intros [? ?]; discriminate].

(** *** Elements without lists always end *)

Lemma prop_type_nofuel m off : prop_type m off <> Err OutOfFuel.
Proof. unfold prop_type. nofu. Qed.
Ltac nof := nofu; try (apply prop_type_nofuel); nofu.

Lemma action_nofuel m off : p_action m off <> Err OutOfFuel.
Proof.
  unfold p_action, p_action_header, p_action_output, p_action_group, p_action_set_queue, p_action_mpls_ttl, p_action_nw_ttl, p_action_push, p_action_pop_mpls, p_action_set_field, p_action_experimenter, p_action_generic. cbv zeta. nof.
Qed.
Lemma port_stats_prop_nofuel m off : p_port_stats_prop m off <> Err OutOfFuel.
Proof. intros E. apply port_prop_exc in E. destruct E; discriminate. Qed.
Lemma queue_stats_prop_nofuel m off : p_queue_stats_prop m off <> Err OutOfFuel.
Proof. intros E. apply queue_prop_exc in E. destruct E; discriminate. Qed.
Lemma queue_desc_prop_nofuel m off : p_queue_desc_prop m off <> Err OutOfFuel.
Proof. unfold p_queue_desc_prop, p_queue_desc_prop_min_rate, p_queue_desc_prop_max_rate, p_queue_desc_prop_experimenter, exp_prop_aligned. cbv zeta. nof. Qed.
Lemma table_mod_prop_nofuel m off : p_table_mod_prop m off <> Err OutOfFuel.
Proof. unfold p_table_mod_prop, p_table_mod_prop_eviction, p_table_mod_prop_vacancy, p_table_mod_prop_experimenter, exp_prop_aligned. cbv zeta. nof. Qed.

Section message.
Variable m : bytes.
Hypothesis Hm : bytes_ok m.
Variable n : nat.
Hypothesis Hn : (length m < n)%nat.

Lemma mean0 {A} (r : res A) P : mean (fun _ => r) P -> forall a, r = Ok a <-> P a.
Proof. intros [H1 H2] a. split; [apply (H1 0%nat)|]. intros K. destruct (H2 a K) as (k & E). exact (E k (le_n k)). Qed.

Lemma flat_while (f : nat -> res (pyval * nat)) (R : rel) : mono m f -> (forall off, mean (fun _ => f off) (holds R off)) -> (forall off, f off <> Err OutOfFuel) ->
  forall e off, while_fetch n f e off = Err OutOfFuel <-> flat_endless R e off.
Proof. intros H1 H2 H3 e off. apply (while_endless m); [exact H1|intros o v o'; exact (mean0 _ _ (H2 o) (v, o'))|apply none_iff, H3|lia]. Qed.
Lemma flat_list (f : nat -> res (pyval * nat)) (R : rel) : mono m f -> (forall off, mean (fun _ => f off) (holds R off)) -> (forall off, f off <> Err OutOfFuel) ->
  forall e off, list_fetch n f e off = Err OutOfFuel <-> flat_endless R e off.
Proof. intros H1 H2 H3 e off. apply (list_endless m); [exact H1|intros o v o'; exact (mean0 _ _ (H2 o) (v, o'))|apply none_iff, H3|lia]. Qed.

Definition actions_while := flat_while _ _ (action_mono m) (action_mean m Hm) (action_nofuel m).
Definition actions_list := flat_list _ _ (action_mono m) (action_mean m Hm) (action_nofuel m).
Definition table_mod_while := flat_while _ _ (table_mod_prop_mono m) (table_mod_prop_mean m Hm) (table_mod_prop_nofuel m).
Definition queue_desc_while := flat_while _ _ (queue_desc_prop_mono m) (queue_desc_prop_mean m Hm) (queue_desc_prop_nofuel m).
Definition port_stats_while := flat_while _ _ (port_stats_prop_mono m) (fun o => port_stats_prop_mean m o Hm) (port_stats_prop_nofuel m).
Definition queue_stats_while := flat_while _ _ (queue_stats_prop_mono m) (fun o => queue_stats_prop_mean m o Hm) (queue_stats_prop_nofuel m).
Definition band_while := flat_while _ _ (band_mono m) (P_Accept4.band_mean m Hm) (band_nofuel m).
Definition band_list := flat_list _ _ (band_mono m) (P_Accept4.band_mean m Hm) (band_nofuel m).

Lemma instruction_at off v o : p_instruction n m off = Ok (v, o) <-> an_instruction m off v o.
Proof. exact (mean_at _ _ m n (instruction_mean m Hm off) (fun a b x y => instruction_const m a b x y off) Hn (v, o)). Qed.
Lemma bucket_at off v o : p_bucket n m off = Ok (v, o) <-> a_bucket m off v o.
Proof. exact (mean_at _ _ m n (bucket_mean m Hm off) (fun a b x y => bucket_const m a b x y off) Hn (v, o)). Qed.
Lemma flow_stats_at off v o : p_flow_stats n m off = Ok (v, o) <-> flow_stats m off v o.
Proof. exact (mean_at _ _ m n (flow_stats_mean m Hm off) (fun a b x y => flow_stats_const m a b x y off) Hn (v, o)). Qed.

Lemma instruction_forever off : p_instruction n m off = Err OutOfFuel <-> instruction_endless m off.
Proof.
  unfold instruction_endless. split.
  - intros E. unfold p_instruction, p_instruction_header in E. apply bind_fuel in E. destruct E as [E|([h o] & Eh & E)]; [destruct (fixed_nofuel _ "HH" [FU 2; FU 2] m off eq_refl E)|].
    apply (fixed_iff m Hm _ "HH" [N 2; N 2] off h o eq_refl) in Eh. destruct Eh as (vs & H & ->). shp H. destruct S as (ty & ? & -> & _ & len & ? & -> & _ & ->).
    destruct (ty =? 1); [unfold p_instruction_goto_table in E; nofu_in E|]. destruct (ty =? 2); [unfold p_instruction_write_metadata in E; nofu_in E|].
    destruct (py_inz (VInt ty) [3; 4; 5]) eqn:I; [|destruct (ty =? 6); [unfold p_instruction_meter in E; nofu_in E|]; destruct (ty =? 65535); [unfold p_instruction_experimenter in E; nofu_in E|discriminate]].
    unfold p_instruction_actions in E. apply (unp_then "HH4x" [N 2; N 2; G 4] m off _ Hm eq_refl) in E. destruct E as (vs & o1 & H1 & E).
    destruct (here_two m [] [G 4] off _ _ _ _ H H1) as (a & b & vs' & ws' & E1 & E2). injection E1 as <- <- <-. subst vs. destruct (here_tail m _ _ _ _ _ _ H1) as [_ S']. cbn [shape] in S'. subst ws'. cbv zeta in E. last_in E.
    apply inz_iff in I. exists ty, len, o1. split; [cbn [In]; cbn [In] in I; tauto|]. split; [exact H1|]. apply actions_list. exact E.
  - intros (ty & len & o & I & H & E). unfold p_instruction, p_instruction_header.
    match goal with |- context [fixed ?c "HH" m off] => assert (K : fixed c "HH" m off = Ok (VTup c [VInt ty; VInt len], (off + 4)%nat)) end.
    { apply (fixed_iff m Hm _ "HH" [N 2; N 2] off _ _ eq_refl). exists [VInt ty; VInt len]. split; [|reflexivity].
      apply (here_split m off [N 2; N 2] [G 4]) in H. destruct H as (v1 & v2 & o1 & Ev & A & B). shp B. subst v2. rewrite app_nil_r in Ev. subst v1.
      apply here_end in A as Eo. cbn in Eo. subst o1. exact A. }
    rewrite K. cbn [bind]. rewrite !(proj2 (Z.eqb_neq ty _)) by (cbn [In] in I; lia). rewrite (proj2 (inz_iff ty [3; 4; 5]) I).
    unfold p_instruction_actions. apply (unp_then "HH4x" [N 2; N 2; G 4] m off _ Hm eq_refl). exists [VInt ty; VInt len], o. split; [exact H|]. cbv zeta.
    last. apply actions_list. exact E.
Qed.

(** A length, then a list. *)
Lemma within_forever f fs k E off (q : list pyval -> nat -> res (pyval * nat)) : fmt f = Ok (map item fs) ->
  (forall vs o, shape fs vs -> exists len, nth_error vs k = Some (VInt len) /\ (q vs o = Err OutOfFuel <-> E (end_ off len) o)) ->
  (' (vs, o) <- unp f m off ;; q vs o) = Err OutOfFuel <-> list_within fs k E m off.
Proof.
  intros Hf Hq. rewrite (unp_then f fs m off _ Hm Hf). unfold list_within. split.
  - intros (vs & o & H & K). destruct (Hq vs o (here_shape _ _ _ _ _ H)) as (len & Hk & Hi). exists len, vs, o. split; [exact H|]. split; [exact Hk|]. apply Hi. exact K.
  - intros (len & vs & o & H & Hk & K). exists vs, o. split; [exact H|]. destruct (Hq vs o (here_shape _ _ _ _ _ H)) as (len' & Hk' & Hi). rewrite Hk in Hk'. injection Hk' as <-. apply Hi. exact K.
Qed.

Ltac within L := let vs := fresh in let o := fresh in let S := fresh "S" in intros vs o S; cbn [shape Datatypes.app repeat] in S;
  first [destruct S as (? & ? & -> & _ & ? & ? & -> & _ & ? & ? & -> & _ & ->) | destruct S as (? & ? & -> & _)];
  eexists; split; [reflexivity|]; cbv beta iota; rewrite bind_first by (first [intros [? ?]; discriminate | intros ?; discriminate]); apply L.

Lemma bucket_forever off : p_bucket n m off = Err OutOfFuel <-> bucket_endless m off.
Proof. unfold p_bucket, bucket_endless. apply (within_forever "HHII4x"); [reflexivity|]. within actions_while. Qed.

Lemma instructions_list e off : list_fetch n (p_instruction n m) e off = Err OutOfFuel <-> instructions_endless m e off.
Proof. apply (list_endless m); [apply instruction_mono|apply instruction_at|apply instruction_forever|lia]. Qed.
Lemma buckets_while e off : while_fetch n (p_bucket n m) e off = Err OutOfFuel <-> buckets_endless m e off.
Proof. apply (while_endless m); [apply bucket_mono|apply bucket_at|apply bucket_forever|lia]. Qed.
Lemma buckets_list e off : list_fetch n (p_bucket n m) e off = Err OutOfFuel <-> buckets_endless m e off.
Proof. apply (list_endless m); [apply bucket_mono|apply bucket_at|apply bucket_forever|lia]. Qed.

Lemma flow_stats_forever off : p_flow_stats n m off = Err OutOfFuel <-> flow_stats_endless m off.
Proof.
  unfold flow_stats_endless, p_flow_stats. rewrite (unp_then "HBxII4H4x3Q" [N 2; N 1; G 1; N 4; N 4; N 2; N 2; N 2; N 2; G 4; N 8; N 8; N 8] m off _ Hm eq_refl). split.
  - intros (vs & o & H & E). shp H. destruct S as (len & ws & -> & _). apply (match_then m Hm) in E. destruct E as (mt & o2 & M & E). last_in E. apply instructions_list in E.
    exists len, ws, o, mt, o2. auto.
  - intros (len & vs & o & mt & o2 & H & M & E). eexists _, o. split; [exact H|]. apply (match_then m Hm). exists mt, o2. split; [exact M|]. last. apply instructions_list. exact E.
Qed.
Lemma group_desc_forever off : p_group_desc n m off = Err OutOfFuel <-> list_within [N 2; N 1; G 1; N 4] 0 (buckets_endless m) m off.
Proof. unfold p_group_desc. apply (within_forever "HBxI"); [reflexivity|]. within buckets_list. Qed.
Lemma meter_config_forever off : p_meter_config n m off = Err OutOfFuel <-> list_within [N 2; N 2; N 4] 0 (flat_endless (a_band m)) m off.
Proof. unfold p_meter_config. apply (within_forever "HHI"); [reflexivity|]. within band_list. Qed.
Lemma queue_desc_forever off : p_queue_desc n m off = Err OutOfFuel <-> list_within [N 4; N 4; N 2; G 6] 2 (flat_endless (queue_desc_prop m)) m off.
Proof. unfold p_queue_desc. apply (within_forever "IIH6x"); [reflexivity|]. within queue_desc_while. Qed.
Lemma port_stats_forever off : p_port_stats n m off = Err OutOfFuel <-> list_within port_stats_fields 0 (flat_endless (port_stats_prop m)) m off.
Proof. unfold p_port_stats. apply (within_forever "H2xIII12Q2I"); [reflexivity|]. within port_stats_while. Qed.
Lemma queue_stats_forever off : p_queue_stats n m off = Err OutOfFuel <-> list_within queue_stats_fields 0 (flat_endless (queue_stats_prop m)) m off.
Proof. unfold p_queue_stats. apply (within_forever "H6xII3QII"); [reflexivity|]. within queue_stats_while. Qed.

Lemma group_desc_at off v o : p_group_desc n m off = Ok (v, o) <-> with_list "ofp_group_desc" [N 2; N 1; G 1; N 4] 0 (a_bucket m) m off v o.
Proof.
  exact (mean_at _ _ m n (with_list0_mean m Hm "ofp_group_desc" "HBxI" [N 2; N 1; G 1; N 4] (fun n => p_bucket n m) (a_bucket m) off eq_refl Logic.I (fun o => bucket_mean m Hm o)) (fun a b x y => group_desc_const m a b x y off) Hn (v, o)).
Qed.
Lemma meter_config_at off v o : p_meter_config n m off = Ok (v, o) <-> with_list "ofp_meter_config" [N 2; N 2; N 4] 0 (a_band m) m off v o.
Proof.
  exact (mean_at _ _ m n (with_list0_mean m Hm "ofp_meter_config" "HHI" [N 2; N 2; N 4] (fun _ => p_meter_band m) (a_band m) off eq_refl Logic.I (fun o => P_Accept4.band_mean m Hm o)) (fun a b x y => meter_config_const m a b x y off) Hn (v, o)).
Qed.
Lemma queue_desc_mean off : mean (fun n => p_queue_desc n m off) (holds (with_many "ofp_queue_desc" [N 4; N 4; N 2; G 6] 2 (queue_desc_prop m) m) off).
Proof.
  apply (many_mean m Hm _ "IIH6x" [N 4; N 4; N 2; G 6] 2 (fun _ => p_queue_desc_prop m) (queue_desc_prop m)); [reflexivity|exact (queue_desc_prop_mean m Hm)|].
  intros vs o' S. cbn [shape] in S. destruct S as (a & ? & -> & _ & b & ? & -> & _ & c & ? & -> & _ & ->). exists c. split; reflexivity.
Qed.
Lemma queue_desc_at off v o : p_queue_desc n m off = Ok (v, o) <-> with_many "ofp_queue_desc" [N 4; N 4; N 2; G 6] 2 (queue_desc_prop m) m off v o.
Proof. exact (mean_at _ _ m n (queue_desc_mean off) (fun a b x y => queue_desc_const m a b x y off) Hn (v, o)). Qed.
Lemma port_stats_at off v o : p_port_stats n m off = Ok (v, o) <-> nothing off v o.
Proof.
  split; [|intros []]. unfold p_port_stats. destruct (unp _ m off) as [[vs o']|]; cbn [bind]; [|discriminate].
  destruct vs as [|[] vs]; try discriminate. destruct (while_fetch _ _ _ _); discriminate.
Qed.
Lemma queue_stats_at off v o : p_queue_stats n m off = Ok (v, o) <-> nothing off v o.
Proof.
  split; [|intros []]. unfold p_queue_stats. destruct (unp _ m off) as [[vs o']|]; cbn [bind]; [|discriminate].
  destruct vs as [|[] vs]; try discriminate. destruct (while_fetch _ _ _ _); discriminate.
Qed.

(** *** The two loops of other kinds *)

Lemma one_port_mod_prop_mono : mono m (one_port_mod_prop m).
Proof.
  intros off v o E. unfold one_port_mod_prop in E. ptype; [discriminate|].
  pick E; [revert E; eapply fixed_mono; [vm_compute; reflexivity | cbn; lia]|].
  pick E; [revert E; eapply fixed_mono; [vm_compute; reflexivity | cbn; lia]|].
  pick E; [revert E; apply port_mod_experimenter_mono | discriminate].
Qed.
Lemma type_iff off ty : prop_type m off = Ok ty <-> typed m off ty.
Proof. exact (mean0 _ _ (type_mean m Hm off) ty). Qed.
Lemma one_port_mod_prop_forever off : one_port_mod_prop m off = Err OutOfFuel <-> unknown_port_mod_prop m off.
Proof.
  unfold one_port_mod_prop, unknown_port_mod_prop. rewrite bind_fuel. split.
  - intros [E|(ty & E & F)]; [destruct (prop_type_nofuel _ _ E)|]. exists ty. split; [apply type_iff, E|].
    destruct (Z.eqb_spec ty 0) as [->|A]; [unfold p_port_mod_prop_ethernet in F; nofu_in F|].
    destruct (Z.eqb_spec ty 1) as [->|B]; [unfold p_port_mod_prop_optical in F; nofu_in F|].
    destruct (Z.eqb_spec ty 65535) as [->|C]; [unfold p_port_mod_prop_experimenter in F; cbv zeta in F; nofu_in F|]. cbn [In]. intuition congruence.
  - intros (ty & E & K). right. exists ty. split; [apply type_iff, E|]. cbn [In] in K. rewrite !(proj2 (Z.eqb_neq ty _)) by (intros ->; tauto). reflexivity.
Qed.
Lemma port_mod_forever e off : port_mod_props n m e off = Err OutOfFuel <-> endless (port_mod_prop m) (unknown_port_mod_prop m) e off.
Proof.
  rewrite port_mod_while. apply (while_endless m); [exact one_port_mod_prop_mono| |exact one_port_mod_prop_forever|lia].
  intros o v o'. exact (mean0 _ _ (port_mod_prop_mean m Hm o) (v, o')).
Qed.

Lemma role_forever start e off : (start + 12 <= length m)%nat ->
  while_fetch n (p_role_prop start m) e off = Err OutOfFuel <-> (off < e)%nat /\ typed m off 65535.
Proof.
  intros Hs. assert (X : exists v, p_role_prop_experimenter m start = Ok v).
  { unfold p_role_prop_experimenter, unpacks. change (fmt "HHII") with (Ok [FU 2; FU 2; FU 4; FU 4]). cbn [bind]. unfold unpack_from. change (calcsize [FU 2; FU 2; FU 4; FU 4]) with 12%nat.
    apply Nat.leb_le in Hs. rewrite Hs. cbn [bind decode item_size]. eexists. reflexivity. }
  destruct X as (x & X). split.
  - destruct n as [|k]; [lia|]. cbn [while_fetch]. destruct (Nat.ltb_spec off e) as [L|L]; [|discriminate]. intros E. split; [exact L|].
    unfold p_role_prop at 1 in E. destruct (prop_type m off) as [ty|y] eqn:Et; cbn [bind] in E; [|destruct (prop_type_nofuel m off); rewrite Et; congruence].
    destruct (Z.eqb_spec ty 65535) as [->|Ne]; [apply type_iff, Et|discriminate].
  - intros [L K]. apply (stuck_loop _ _ _ x L). unfold p_role_prop. rewrite (proj2 (type_iff off 65535) K). cbn [bind]. change (65535 =? 65535) with true. cbv iota. rewrite X. reflexivity.
Qed.

Lemma reply_forever ty f R D e off : mono m f -> (forall off v o, f off = Ok (v, o) <-> R off v o) -> (forall off, f off = Err OutOfFuel <-> D off) ->
  reply_endless m ty R D ->
  (' (l, o) <- list_fetch n f e off ;; Ok (VList l, o)) = Err OutOfFuel <-> exists R D, reply_endless m ty R D /\ endless R D e off.
Proof.
  intros H1 H2 H3 Hr. rewrite bind_first by (intros [? ?]; discriminate). rewrite (list_endless m f R D e H1 H2 H3) by lia. split; [eauto|].
  intros (R' & D' & A & C). inversion Hr; subst ty R D; inversion A; subst R' D'; exact C.
Qed.

Ltac never := split; [let K := fresh in intros K; exfalso; revert K; match goal with |- ?a = ?b -> False => change (a <> b) end | let B := fresh in intros B; inversion B].
Ltac nrep := split; [let K := fresh in intros K; exfalso; revert K; match goal with |- ?a = ?b -> False => change (a <> b) end | let B := fresh in intros (? & ? & B & _); inversion B].

Lemma replies_forever e o mt :
  (let fetch f := (' (l, o) <- list_fetch n f e o ;; Ok (VList l, o)) in
        (if mt =? 0 then p_desc m o
         else if mt =? 1 then fetch (p_flow_stats n m)
         else if mt =? 2 then fetch (p_aggregate_stats_reply m)
         else if mt =? 3 then fetch (p_table_stats m)
         else if mt =? 4 then fetch (p_port_stats n m)
         else if mt =? 5 then fetch (p_queue_stats n m)
         else if mt =? 6 then fetch (p_group_stats n m)
         else if mt =? 7 then fetch (p_group_desc n m)
         else if mt =? 8 then p_group_features m o
         else if mt =? 9 then fetch (p_meter_stats n m)
         else if mt =? 10 then fetch (p_meter_config n m)
         else if mt =? 11 then p_meter_features m o
         else if mt =? 12 then fetch (p_table_features n m)
         else if mt =? 13 then fetch (p_port m)
         else if mt =? 14 then fetch (p_table_desc m)
         else if mt =? 15 then fetch (p_queue_desc n m)
         else if mt =? 16 then fetch (p_flow_update_header m)
         else if mt =? 65535 then p_experimenter_multipart m o e
         else Err ValueError)) = Err OutOfFuel <-> exists R D, reply_endless m mt R D /\ endless R D e o.
Proof.
  cbv zeta.
  destruct (Z.eqb_spec mt 0) as [->|M0]. { nrep. unfold p_desc. nf. }
  destruct (Z.eqb_spec mt 1) as [->|M1]. { eapply reply_forever; [apply flow_stats_mono|apply flow_stats_at|apply flow_stats_forever|constructor]. }
  destruct (Z.eqb_spec mt 2) as [->|M2]. { nrep. lnf (aggregate_live m). }
  destruct (Z.eqb_spec mt 3) as [->|M3]. { nrep. lnf (table_stats_live m). }
  destruct (Z.eqb_spec mt 4) as [->|M4]. { eapply reply_forever; [apply port_stats_mono|apply port_stats_at|apply port_stats_forever|constructor]. }
  destruct (Z.eqb_spec mt 5) as [->|M5]. { eapply reply_forever; [apply queue_stats_mono|apply queue_stats_at|apply queue_stats_forever|constructor]. }
  destruct (Z.eqb_spec mt 6) as [->|M6]. { nrep. lnf (group_stats_live m n Hn). }
  destruct (Z.eqb_spec mt 7) as [->|M7]. { eapply reply_forever; [apply group_desc_mono|apply group_desc_at|apply group_desc_forever|constructor]. }
  destruct (Z.eqb_spec mt 8) as [->|M8]. { nrep. unfold p_group_features. repeat nf. }
  destruct (Z.eqb_spec mt 9) as [->|M9]. { nrep. lnf (meter_stats_live m n Hn). }
  destruct (Z.eqb_spec mt 10) as [->|M10]. { eapply reply_forever; [apply meter_config_mono|apply meter_config_at|apply meter_config_forever|constructor]. }
  destruct (Z.eqb_spec mt 11) as [->|M11]. { nrep. unfold p_meter_features. nf. }
  destruct (Z.eqb_spec mt 12) as [->|M12]. { nrep. lnf (features_live n m Hn). }
  destruct (Z.eqb_spec mt 13) as [->|M13]. { nrep. lnf (port_live m). }
  destruct (Z.eqb_spec mt 14) as [->|M14]. { nrep. lnf (table_desc_live m). }
  destruct (Z.eqb_spec mt 15) as [->|M15]. { eapply reply_forever; [apply queue_desc_mono|apply queue_desc_at|apply queue_desc_forever|constructor]. }
  destruct (Z.eqb_spec mt 16) as [->|M16]. { nrep. lnf (flow_update_live m). }
  destruct (Z.eqb_spec mt 65535) as [->|M17]. { nrep. unfold p_experimenter_multipart. repeat nf. }
  split; [discriminate|]. intros (? & ? & B & _). inversion B; congruence.
Qed.

(** *** Messages *)

Theorem parse_forever : forall d off, (length m - off < d)%nat -> parse d n m off = Err OutOfFuel <-> message_endless m off.
Proof.
  induction d as [|d IH]; intros off Hd; [lia|]. cbn [parse].
  destruct (header_cases m off) as [E|[E|(h & E & L)]].
  1, 2: rewrite E; split; [discriminate|]; intros K;
    assert (X : exists ty len h, header m off ty len h) by (inversion K; eauto); destruct X as (ty & len & h & H);
    pose proof (proj2 (header_iff m Hm off h ty (Z.to_nat len) (off + 8)) ltac:(eauto)); congruence.
  destruct (proj1 (header_iff m Hm _ _ _ _ _) E) as (len & H & El & _). rewrite El in E. match type of E with _ = Ok (_, ?t, _, _) => set (ty := t) in * end. clearbody ty.
  assert (Plain : ty <> 32 -> ty <> 34 -> message_endless m off <-> body_endless m (end_ off len) off ty).
  { intros A B. split; [|intros K; exact (end_body m off ty len h H K)]. intros K. inversion K as [o' ty' len' h' H' B'|o' len' h' H' B'|o' len' h' vs o H' Hv B']; subst o'.
    - destruct (header_det m _ _ _ _ _ _ _ H H') as (-> & -> & _). exact B'.
    - destruct (header_det m _ _ _ _ _ _ _ H H') as (-> & _). congruence.
    - destruct (header_det m _ _ _ _ _ _ _ H H') as (-> & _). congruence. }
  rewrite E. cbn [bind].
  Ltac plain Plain := rewrite Plain by lia.
  destruct (Z.eqb_spec ty 0) as [->|N0]. { plain Plain. never. unfold p_hello. rewrite E. cbn [bind]. lnf (hello_live m). }
  destruct (Z.eqb_spec ty 1) as [->|N1]. { plain Plain. never. unfold p_error_msg. snf. }
  destruct (Z.eqb_spec ty 6) as [->|N6]. { plain Plain. never. unfold p_switch_features. rewrite E. cbn [bind]. read; discriminate. }
  destruct (py_inz (VInt ty) [9; 8]) eqn:I. { apply inz_iff in I. cbn [In] in I. plain Plain. split; [intros K; exfalso; revert K; match goal with |- ?a = ?b -> False => change (a <> b) end | intros B; inversion B; subst; lia]. unfold p_switch_config. snf. }
  destruct (Z.eqb_spec ty 10) as [->|N10]. { plain Plain. never. unfold p_packet_in. rewrite E. cbn [bind]. repeat nf. }
  destruct (Z.eqb_spec ty 11) as [->|N11]. { plain Plain. never. unfold p_flow_removed. rewrite E. cbn [bind]. repeat nf. }
  destruct (Z.eqb_spec ty 12) as [->|N12]. { plain Plain. never. unfold p_port_status. rewrite E. cbn [bind]. repeat nf. exact (proj1 (port_live m _ Logic.I)). }
  destruct (Z.eqb_spec ty 13) as [->|N13].
  { plain Plain. unfold p_packet_out. rewrite E. cbn [bind]. rewrite (unp_then "IIH6x" [N 4; N 4; N 2; G 6] m (off + 8) _ Hm eq_refl). split.
    - intros (vs & o & Hv & F). shp Hv. destruct S as (b & ? & -> & _ & i & ? & -> & _ & al & ? & -> & _ & ->). last_in F. apply actions_while in F. exact (end_packet_out _ _ _ _ _ _ _ Hv F).
    - intros B. inversion B as [b i al o Hv F| | | | | | |]; subst. eexists _, o. split; [exact Hv|]. shp Hv. destruct S as (b' & ? & Eb & _ & i' & ? & Ei & _ & _). subst. last. apply actions_while. exact F. }
  destruct (Z.eqb_spec ty 14) as [->|N14].
  { plain Plain. unfold p_flow_mod. rewrite E. cbn [bind]. rewrite (unp_then "QQBB3H3IHH" [N 8; N 8; N 1; N 1; N 2; N 2; N 2; N 4; N 4; N 4; N 2; N 2] m (off + 8) _ Hm eq_refl). split.
    - intros (vs & o & Hv & F). apply (match_then m Hm) in F. destruct F as (mt & o2 & Mt & F). last_in F. apply instructions_list in F. exact (end_flow_mod _ _ _ _ _ _ _ Hv Mt F).
    - intros B. inversion B as [|vs o mt o2 Hv Mt F| | | | | |]; subst. eexists _, o. split; [exact Hv|]. apply (match_then m Hm). exists mt, o2. split; [exact Mt|]. last. apply instructions_list. exact F. }
  destruct (Z.eqb_spec ty 15) as [->|N15].
  { plain Plain. unfold p_group_mod. rewrite E. cbn [bind]. rewrite (unp_then "HBxI" [N 2; N 1; G 1; N 4] m (off + 8) _ Hm eq_refl). split.
    - intros (vs & o & Hv & F). last_in F. apply buckets_while in F. exact (end_group_mod _ _ _ _ _ Hv F).
    - intros B. inversion B as [| |vs o Hv F| | | | |]; subst. eexists _, o. split; [exact Hv|]. last. apply buckets_while. exact F. }
  destruct (Z.eqb_spec ty 16) as [->|N16].
  { plain Plain. unfold p_port_mod. rewrite E. cbn [bind]. rewrite (unp_then "I4x6s2xII" [N 4; G 4; T 6; G 2; N 4; N 4] m off _ Hm eq_refl). split.
    - intros (vs & o & Hv & F). last_in F. apply port_mod_forever in F. exact (end_port_mod _ _ _ _ _ Hv F).
    - intros B. inversion B as [| | |vs o Hv F| | | |]; subst. eexists _, o. split; [exact Hv|]. last. apply port_mod_forever. exact F. }
  destruct (Z.eqb_spec ty 17) as [->|N17].
  { plain Plain. unfold p_table_mod. rewrite E. cbn [bind]. rewrite (unp_then "B3xI" [N 1; G 3; N 4] m (off + 8) _ Hm eq_refl). split.
    - intros (vs & o & Hv & F). last_in F. apply table_mod_while in F. exact (end_table_mod _ _ _ _ _ Hv F).
    - intros B. inversion B as [| | | |vs o Hv F| | |]; subst. eexists _, o. split; [exact Hv|]. last. apply table_mod_while. exact F. }
  destruct (Z.eqb_spec ty 18) as [->|N18].
  { plain Plain. never. unfold p_multipart_request. rewrite E. cbn [bind]. read; [discriminate|]. apply bind_nofuel; [|intros [? ?] _; discriminate].
    repeat match goal with |- (if ?b then _ else _) <> _ => destruct b end; try discriminate.
    - unfold p_flow_stats_request, flow_request. repeat nf.
    - unfold p_aggregate_stats_request, flow_request. repeat nf.
    - unfold p_port_stats_request. nf.
    - unfold p_queue_stats_request. nf.
    - unfold p_group_stats_request. nf.
    - unfold p_queue_desc_request. nf.
    - unfold p_flow_monitor_request. repeat nf.
    - lnf (features_live n m Hn). }
  destruct (Z.eqb_spec ty 19) as [->|N19].
  { plain Plain. unfold p_multipart_reply. rewrite E. cbn [bind]. rewrite (unp_then "HH4x" [N 2; N 2; G 4] m (off + 8) _ Hm eq_refl). split.
    - intros (vs & o & Hv & F). shp Hv. destruct S as (mt & ? & -> & _ & fl & ? & -> & _ & ->). cbv zeta in F. last_in F.
      apply (replies_forever (end_ off len) o mt) in F. destruct F as (R & D & A & C). exact (end_reply _ _ _ _ _ _ _ _ Hv A C).
    - intros B. inversion B as [| | | | |mt fl o R D Hv A C| |]; subst. eexists _, o. split; [exact Hv|]. cbv zeta. last. apply (replies_forever (end_ off len) o mt). eauto. }
  destruct (Z.eqb_spec ty 4) as [->|N4]. { plain Plain. never. unfold p_experimenter_msg. snf. }
  destruct (py_inz (VInt ty) [28; 27]) eqn:I2. { apply inz_iff in I2. cbn [In] in I2. plain Plain. split; [intros K; exfalso; revert K; match goal with |- ?a = ?b -> False => change (a <> b) end | intros B; inversion B; subst; lia]. unfold p_async_config. rewrite E. cbn [bind]. lnf (async_prop_live m). }
  destruct (Z.eqb_spec ty 29) as [->|N29].
  { plain Plain. unfold p_meter_mod. rewrite E. cbn [bind]. rewrite (unp_then "HHI" [N 2; N 2; N 4] m (off + 8) _ Hm eq_refl). split.
    - intros (vs & o & Hv & F). last_in F. apply band_while in F. exact (end_meter_mod _ _ _ _ _ Hv F).
    - intros B. inversion B as [| | | | | |vs o Hv F|]; subst. eexists _, o. split; [exact Hv|]. last. apply band_while. exact F. }
  destruct (Z.eqb_spec ty 30) as [->|N30].
  { plain Plain. unfold p_role_status. rewrite E. cbn [bind]. rewrite (unp_then "IB3xQ" [N 4; N 1; G 3; N 8] m off _ Hm eq_refl).
    assert (W : forall vs o, here m off [N 4; N 1; G 3; N 8] vs o -> (off + 12 <= length m)%nat).
    { intros vs o Hv. apply (proj2 (unp_here "IB3xQ" [N 4; N 1; G 3; N 8] m off vs o Hm eq_refl)) in Hv.
      destruct (unp_cases "IB3xQ" _ m off eq_refl) as [R|[R LL]]; rewrite R in Hv; [discriminate|]. cbn in LL. lia. }
    split.
    - intros (vs & o & Hv & F). last_in F. apply (role_forever off _ _ (W _ _ Hv)) in F. destruct F as [F1 F2]. exact (end_role_status _ _ _ _ _ Hv F1 F2).
    - intros B. inversion B as [| | | | | | |vs o Hv F1 F2]; subst. eexists _, o. split; [exact Hv|]. last. apply (role_forever off _ _ (W _ _ Hv)). auto. }
  destruct (Z.eqb_spec ty 31) as [->|N31]. { plain Plain. never. unfold p_table_status. rewrite E. cbn [bind]. repeat nf. unfold p_table_desc. read; discriminate. }
  destruct (Z.eqb_spec ty 32) as [->|N32].
  { clear Plain. unfold p_requestforward. rewrite E. cbn [bind]. rewrite bind_first by (intros [? ?]; discriminate). rewrite IH by lia. split; [intros K; exact (end_forwarded m off len h H K)|].
    intros K. inversion K as [o' ty' len' h' H' B'|o' len' h' H' B'|o' len' h' vs o H' Hv B']; subst o'; [|exact B'|].
    - destruct (header_det m _ _ _ _ _ _ _ H H') as (<- & _). inversion B'.
    - destruct (header_det m _ _ _ _ _ _ _ H H') as (X & _). discriminate X. }
  destruct (Z.eqb_spec ty 33) as [->|N33]. { plain Plain. never. unfold p_bundle_ctrl_msg. rewrite E. cbn [bind]. read; [discriminate|]. lnf (bundle_prop_live m). }
  destruct (Z.eqb_spec ty 34) as [->|N34].
  { clear Plain. unfold p_bundle_add_msg. rewrite E. cbn [bind]. rewrite (unp_then "I2xH" [N 4; G 2; N 2] m (off + 8) _ Hm eq_refl).
    assert (U : forall vs o, here m (off + 8) [N 4; G 2; N 2] vs o -> parse d n m o = Err OutOfFuel <-> message_endless m o).
    { intros vs o Hv. apply here_end in Hv. cbn in Hv. apply IH. lia. }
    split.
    - intros (vs & o & Hv & F). apply bind_first in F; [|intros [? ?]; destruct (_ <? _)%nat; discriminate]. apply (U vs o Hv) in F. exact (end_bundle_add m off len h vs o H Hv F).
    - intros K. inversion K as [o' ty' len' h' H' B'|o' len' h' H' B'|o' len' h' vs o H' Hv B']; subst o'.
      + destruct (header_det m _ _ _ _ _ _ _ H H') as (<- & _). inversion B'.
      + destruct (header_det m _ _ _ _ _ _ _ H H') as (X & _). discriminate X.
      + exists vs, o. split; [exact Hv|]. apply bind_first; [intros [? ?]; destruct (_ <? _)%nat; discriminate|]. apply (U vs o Hv). exact B'. }
  plain Plain. split; [unfold p_ofp; rewrite E; discriminate|]. intros B. inversion B; congruence.
Qed.

End message.

(** *** Which elements end where they begin *)

Section still.
Variable m : bytes.
Hypothesis Hm : bytes_ok m.

Lemma plain_moves cls fs off v : (0 < flen fs)%nat -> ~ plain_struct cls fs m off v off.
Proof. intros L (vs & H & _). apply here_end in H. lia. Qed.

Lemma data_still cls fs first (stop : place) off ty v : (forall o len, 0 <= len -> stop off o len = off <-> len = 0) ->
  typed m off ty -> with_data cls fs first stop m off v off -> exists vs o, here m off (N 2 :: N 2 :: fs) (VInt ty :: VInt 0 :: vs) o.
Proof.
  intros Hs (len & o & H) (ty' & len' & vs & o' & H' & _ & E). destruct (here_two m [] fs off _ _ _ _ H H') as (a & b & vs' & ws' & E1 & E2).
  injection E1 as <- <- <-. injection E2 as -> -> <-. shp H. destruct S as (? & ? & X1 & _ & ? & ? & X2 & R & _). injection X1 as <- <-. injection X2 as <- <-.
  symmetry in E. apply Hs in E; [|lia]. subst len. eauto.
Qed.

Lemma typed_of off fs ty vs o : here m off (N 2 :: N 2 :: fs) (VInt ty :: VInt 0 :: vs) o -> typed m off ty.
Proof.
  intros H. apply (here_split m off [N 2; N 2] fs) in H. destruct H as (v1 & v2 & o1 & Ev & A & B). exists 0, o1.
  pose proof A as A'. shp A'. destruct S as (? & ? & -> & _ & ? & ? & -> & _ & ->). cbn [Datatypes.app] in Ev. injection Ev as <- <- <-. exact A.
Qed.
Lemma data_stays cls fs first (stop : place) off ty vs o : (forall o, stop off o 0 = off) ->
  here m off (N 2 :: N 2 :: fs) (VInt ty :: VInt 0 :: vs) o -> exists v, with_data cls fs first stop m off v off.
Proof. intros Hs H. eexists. exists ty, 0, vs, o. split; [exact H|]. split; [reflexivity|]. symmetry. apply Hs. Qed.

Lemma at_end_still off (o : nat) len : 0 <= len -> at_end off o len = off <-> len = 0.
Proof. unfold at_end, end_. lia. Qed.
Lemma at_padded_end_still off (o : nat) len : 0 <= len -> at_padded_end off o len = off <-> len = 0.
Proof. unfold at_padded_end, end_, up8. intros H. Z.div_mod_to_equations. lia. Qed.

Ltac rows C := repeat match type of C with
  | _ \/ _ => destruct C as [[? C]|[? C]]; [try (exfalso; refine (plain_moves _ _ _ _ _ C); cbn; lia)|]
  end.
Ltac row := repeat (right; split; [cbn [In]; lia|]); left; split; [cbn [In]; lia|].

Lemma action_still off : (exists v, an_action m off v off) <-> zero_long m [] 25 off \/ zero_long m [N 4] 65535 off.
Proof.
  unfold zero_long. split.
  - intros (v & ty & K & C). cbn [choose] in C. rows C; cbn [In] in *; try contradiction.
    + left. replace 25 with ty by lia. exact (data_still _ _ _ _ off ty v (at_end_still off) K C).
    + right. replace 65535 with ty by lia. exact (data_still _ _ _ _ off ty v (at_end_still off) K C).
  - intros [(vs & o & H)|(vs & o & H)].
    + destruct (data_stays "ofp_action_set_field" [] after_fields at_end off 25 vs o) as (v & W); [intros; apply at_end_still; lia|exact H|].
      exists v, 25. split; [exact (typed_of _ _ _ _ _ H)|]. cbn [choose]. row. exact W.
    + destruct (data_stays "ofp_action_experimenter_" [N 4] after_fields at_end off 65535 vs o) as (v & W); [intros; apply at_end_still; lia|exact H|].
      exists v, 65535. split; [exact (typed_of _ _ _ _ _ H)|]. cbn [choose]. row. exact W.
Qed.

Lemma action_up a v b : an_action m a v b -> (a <= b)%nat.
Proof. intros H. apply (mean0 _ _ (action_mean m Hm a) (v, b)) in H. apply (action_mono m) in H. tauto. Qed.

Lemma instruction_still off : (exists v, an_instruction m off v off) <-> zero_long m [N 4] 65535 off.
Proof.
  unfold zero_long. split.
  - intros (v & ty & K & C). cbn [choose] in C. rows C; cbn [In] in *; try contradiction.
    + exfalso. destruct C as (len & vs & o & l & Hv & _ & E & F & _). apply (many_up _ _ _ _ _ action_up) in F. apply here_end in Hv. cbn in Hv. lia.
    + replace 65535 with ty by lia. exact (data_still _ _ _ _ off ty v (at_end_still off) K C).
  - intros (vs & o & H).
    destruct (data_stays "ofp_instruction_experimenter_" [N 4] after_fields at_end off 65535 vs o) as (v & W); [intros; apply at_end_still; lia|exact H|].
    exists v, 65535. split; [exact (typed_of _ _ _ _ _ H)|]. cbn [choose]. row. exact W.
Qed.

Ltac prop_still :=
  unfold zero_long; split; [
    let v := fresh in let ty := fresh "ty" in let K := fresh "K" in let C := fresh "C" in
    intros (v & ty & K & C); cbn [choose] in C; rows C; cbn [In] in *; try contradiction;
      try (replace 65535 with ty by lia; exact (data_still _ _ _ _ _ ty v (at_padded_end_still _) K C))
  | let vs := fresh in let o := fresh in let H := fresh "H" in intros (vs & o & H);
    match goal with |- exists v, ?R m ?off v _ => unfold R, by_type end;
    match goal with |- context [with_data ?c ?fs ?f at_padded_end m] =>
      let v := fresh in let W := fresh "W" in
      destruct (data_stays c fs f at_padded_end _ 65535 vs o ltac:(intros; apply at_padded_end_still; lia) H) as (v & W);
      exists v, 65535; split; [exact (typed_of _ _ _ _ _ H)|]; cbn [choose]; row; exact W end ].

Lemma table_mod_prop_still off : (exists v, table_mod_prop m off v off) <-> zero_long m [N 4; N 4] 65535 off.
Proof. prop_still. Qed.
Lemma queue_desc_prop_still off : (exists v, queue_desc_prop m off v off) <-> zero_long m [N 4; N 4] 65535 off.
Proof. prop_still. Qed.
Lemma port_stats_prop_still off : (exists v, port_stats_prop m off v off) <-> zero_long m [N 4; N 4] 65535 off.
Proof. prop_still. Qed.
Lemma queue_stats_prop_still off : (exists v, queue_stats_prop m off v off) <-> zero_long m [N 4; N 4] 65535 off.
Proof. prop_still. Qed.
Lemma port_mod_prop_still off : (exists v, port_mod_prop m off v off) <-> zero_long m [N 4; N 4] 65535 off.
Proof.
  prop_still. exfalso. match goal with C : port_mod_optical _ _ _ _ |- _ => destruct C as (? & ? & ? & ? & ? & ? & ? & X & _) end. apply here_end in X. cbn in X. lia.
Qed.

Lemma bucket_up a v b : a_bucket m a v b -> (a + 16 <= b)%nat.
Proof. intros (len & vs & o & acts & H & _ & M & _). apply (many_up _ _ _ _ _ action_up) in M. apply here_end in H. cbn in H. lia. Qed.
Lemma instruction_up a v b : an_instruction m a v b -> (a <= b)%nat.
Proof. intros H. apply (proj2 (instruction_at m Hm _ (Nat.lt_succ_diag_r _) a v b)) in H. apply instruction_mono in H. tauto. Qed.
Lemma band_up a v b : a_band m a v b -> (a <= b)%nat.
Proof. intros H. apply (band_iff m Hm) in H. apply band_mono in H. tauto. Qed.
Lemma queue_desc_prop_up a v b : queue_desc_prop m a v b -> (a <= b)%nat.
Proof. intros H. apply (mean0 _ _ (queue_desc_prop_mean m Hm a) (v, b)) in H. apply (queue_desc_prop_mono m) in H. tauto. Qed.

Lemma reply_up ty R D off v o : reply_endless m ty R D -> R off v o -> (off < o)%nat.
Proof.
  intros B. inversion B; subst ty R D; try solve [intros K; exact (False_ind _ K)].
  - intros (len & vs & o1 & mt & o2 & is & Hv & M & -> & F & _). apply (many_up _ _ _ _ _ instruction_up) in F. apply (match_iff m Hm) in M. apply match_mono in M. apply here_end in Hv. cbn in Hv. lia.
  - intros (len & vs & o1 & l & Hv & _ & -> & F & _). apply (many_up (a_bucket m)) in F; [|intros a v' b K; apply bucket_up in K; lia]. apply here_end in Hv. cbn in Hv. lia.
  - intros (len & vs & o1 & l & Hv & _ & -> & F & _). apply (many_up _ _ _ _ _ band_up) in F. apply here_end in Hv. cbn in Hv. lia.
  - intros (len & vs & o1 & l & Hv & _ & F & _). apply (many_up _ _ _ _ _ queue_desc_prop_up) in F. apply here_end in Hv. cbn in Hv. lia.
Qed.

End still.

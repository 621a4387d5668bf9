(** Proofs for C121, OpenFlow 1.3: the parsers nothing calls. *)

From Coq Require Import String List ZArith Lia Bool.
From Verif Require Import Py Struct M_Parse4 P_Struct P_Fixed S_Accept4 P_Accept4 S_Accept5 P_Accept5 S_Unused.
Import ListNotations.
Local Open Scope Z_scope.
Local Open Scope list_scope.

Lemma takes_mean p R : (forall m off, bytes_ok m -> mean (fun n => p n m off) (holds (R m) off)) -> takes p R.
Proof.
  intros H m off v o Hm. destruct (H m off Hm) as [A B]. split; [intros n E; exact (A n (v, o) E)|intros K; exact (B (v, o) K)].
Qed.
Lemma takes_plain cls f fs : fmt f = Ok (map item fs) -> takes (fun _ => fixed cls f) (plain_struct cls fs).
Proof. intros Hf. apply takes_mean. intros m off Hm. apply (mean_fixed m Hm), Hf. Qed.
Lemma takes_iff p R : (forall m off v o, bytes_ok m -> p m off = Ok (v, o) <-> R m off v o) -> takes (fun _ => p) R.
Proof. intros H. apply takes_mean. intros m off Hm. apply mean_const. intros [v o]. apply H, Hm. Qed.

(** A format reads if and only if there are enough bytes. *)
Lemma unp_some f fs m off : fmt f = Ok (map item fs) -> (off + flen fs <= length m)%nat -> exists vs, unp f m off = Ok (vs, (off + flen fs)%nat).
Proof.
  intros Hf L. unfold unp, unpacks, sizes, unpack_from. rewrite Hf. cbn [bind]. fold (flen fs). rewrite (proj2 (Nat.leb_le _ _) L). cbn [bind]. eauto.
Qed.
Lemma unp_short f fs m off : fmt f = Ok (map item fs) -> (length m < off + flen fs)%nat -> unp f m off = Err StructError.
Proof.
  intros Hf L. unfold unp, unpacks, unpack_from. rewrite Hf. cbn [bind]. fold (flen fs). rewrite (proj2 (Nat.leb_gt _ _) L). reflexivity.
Qed.
Lemma raises_unp f fs e : fmt f = Ok (map item fs) -> raises (fun m off => unp f m off ;;; Err e) (flen fs) e.
Proof.
  intros Hf m off. split; intros L; [destruct (unp_some f fs m off Hf L) as (vs & ->)|rewrite (unp_short f fs m off Hf L)]; reflexivity.
Qed.

Ltac shp H := let S := fresh "S" in pose proof (here_shape _ _ _ _ _ H) as S; cbn [shape Datatypes.app repeat] in S.

(** A header read as a structure, then other fields. *)
Lemma queue_rate_iff cls m off v o : bytes_ok m ->
  (' (h, o) <- p_queue_prop_header m off ;; ' (vs, o) <- unp "H6x" m o ;; Ok (VTup cls (h :: vs), o)) = Ok (v, o) <-> queue_rate cls m off v o.
Proof.
  intros Hm. unfold queue_rate. rewrite bind_iff. split.
  - intros ([h o1] & Eh & E). apply (fixed_iff m Hm "ofp_queue_prop_header" "HH4x" [N 2; N 2; G 4] off h o1 eq_refl) in Eh. destruct Eh as (ws & Hh & ->).
    apply bind_ok in E. destruct E as ([vs o2] & Ev & E). apply (unp_here "H6x" [N 2; G 6] m o1 vs o2 Hm eq_refl) in Ev. apply Ok_inj in E. injection E as <- <-.
    pose proof (here_split m off [N 2; N 2; G 4] [N 2; G 6] (ws ++ vs) o2) as K. shp Hh. destruct S as (ty & ? & -> & _ & len & ? & -> & _ & ->).
    pose proof Ev as Ev'. shp Ev. destruct S as (r & ? & -> & _ & ->). exists (VInt ty), (VInt len), (VInt r). split; [|reflexivity].
    apply K. exists [VInt ty; VInt len], [VInt r], o1. auto.
  - intros (ty & len & r & H & ->). apply (here_split m off [N 2; N 2; G 4] [N 2; G 6] [ty; len; r] o) in H. destruct H as (v1 & v2 & o1 & E & H1 & H2).
    pose proof H1 as H1'. shp H1'. destruct S as (a & ? & -> & _ & b & ? & -> & _ & ->). injection E as -> -> <-.
    exists (VTup "ofp_queue_prop_header" [VInt a; VInt b], o1). split; [apply (fixed_iff m Hm "ofp_queue_prop_header" "HH4x" [N 2; N 2; G 4] off _ o1 eq_refl); eexists; split; [exact H1|reflexivity]|].
    rewrite (proj2 (unp_here "H6x" [N 2; G 6] m o1 [r] o Hm eq_refl) H2). reflexivity.
Qed.

Lemma queue_experimenter_iff m off v o : bytes_ok m -> p_queue_prop_experimenter m off = Ok (v, o) <-> queue_experimenter m off v o.
Proof.
  intros Hm. unfold p_queue_prop_experimenter, queue_experimenter. rewrite bind_iff. split.
  - intros ([h o1] & Eh & E). apply (fixed_iff m Hm "ofp_queue_prop_header" "HH4x" [N 2; N 2; G 4] off h o1 eq_refl) in Eh. destruct Eh as (ws & Hh & ->).
    apply bind_ok in E. destruct E as ([vs o2] & Ev & E). apply (unp_here "I4x" [N 4; G 4] m o1 vs o2 Hm eq_refl) in Ev. apply Ok_inj in E. injection E as <- <-.
    pose proof (here_split m off [N 2; N 2; G 4] [N 4; G 4] (ws ++ vs) o2) as K. shp Hh. destruct S as (ty & ? & -> & _ & len & ? & -> & _ & ->).
    pose proof Ev as Ev'. shp Ev. destruct S as (r & ? & -> & _ & ->). exists (VInt ty), len, (VInt r), o2. split; [|split; reflexivity].
    apply K. exists [VInt ty; VInt len], [VInt r], o1. auto.
  - intros (ty & len & r & o' & H & -> & ->). apply (here_split m off [N 2; N 2; G 4] [N 4; G 4] [ty; VInt len; r] o') in H. destruct H as (v1 & v2 & o1 & E & H1 & H2).
    pose proof H1 as H1'. shp H1'. destruct S as (a & ? & -> & _ & b & ? & -> & _ & ->). injection E as -> -> <-.
    exists (VTup "ofp_queue_prop_header" [VInt a; VInt b], o1). split; [apply (fixed_iff m Hm "ofp_queue_prop_header" "HH4x" [N 2; N 2; G 4] off _ o1 eq_refl); eexists; split; [exact H1|reflexivity]|].
    rewrite (proj2 (unp_here "I4x" [N 4; G 4] m o1 [r] o' Hm eq_refl) H2). reflexivity.
Qed.

Lemma instructions_iff m off v o : bytes_ok m -> p_table_feature_prop_instructions m off = Ok (v, o) <-> feature_empty "ofp_table_feature_prop_instructions" m off v o.
Proof.
  intros Hm. unfold p_table_feature_prop_instructions, feature_empty. rewrite bind_iff. split.
  - intros ([vs o'] & H & E). apply (unp_here "HH" [N 2; N 2] m off vs o' Hm eq_refl) in H. destruct (two_shape m _ _ _ H) as (ty & len & -> & R). cbv zeta in E.
    pose proof (here_end _ _ _ _ _ H) as Eo. cbn in Eo. destruct (Nat.ltb_spec o' (off + Z.to_nat len)) as [L|L]; [discriminate|]. apply Ok_inj in E. injection E as <- <-.
    exists (VInt ty), len, o'. split; [exact H|]. split; [lia|]. split; [reflexivity|]. unfold after_padding. rewrite pad_z by lia. reflexivity.
  - intros (ty & len & o' & H & L & -> & ->). exists ([ty; VInt len], o'). split; [apply (unp_here "HH" [N 2; N 2] m off _ o' Hm eq_refl), H|]. cbv zeta.
    destruct (two_shape m _ _ _ H) as (ty' & len' & E & R). injection E as -> <-. pose proof (here_end _ _ _ _ _ H) as Eo. cbn in Eo.
    rewrite (proj2 (Nat.ltb_ge _ _)) by lia. unfold after_padding. rewrite pad_z by lia. reflexivity.
Qed.

Lemma tables_iff m off v o : bytes_ok m -> p_table_feature_prop_next_tables m off = Ok (v, o) <-> feature_next_tables m off v o.
Proof.
  intros Hm. unfold p_table_feature_prop_next_tables, feature_next_tables. rewrite bind_iff. split.
  - intros ([vs o'] & H & E). apply (unp_here "HH" [N 2; N 2] m off vs o' Hm eq_refl) in H. destruct (two_shape m _ _ _ H) as (ty & len & -> & R). cbv zeta in E.
    apply bind_ok in E. destruct E as ([ids o2] & Ei & E). apply (count_iff m Hm) in Ei. destruct Ei as [L Hi]. apply Ok_inj in E. injection E as <- <-.
    exists ty, len, o', ids, o2. unfold after_padding. rewrite pad_z by lia. split; [exact H|]. split; [lia|]. auto.
  - intros (ty & len & o' & ids & o2 & H & L & Hi & -> & ->). exists ([VInt ty; VInt len], o'). split; [apply (unp_here "HH" [N 2; N 2] m off _ o' Hm eq_refl), H|]. cbv zeta.
    assert (Ei : unp_count (FU 1) (len - 4) m off = Ok (ids, o2)) by (apply (count_iff m Hm); split; [lia|exact Hi]). rewrite Ei. cbn [bind Datatypes.app].
    unfold after_padding. rewrite pad_z by lia. reflexivity.
Qed.

(** The cursor does not move in the loop over actions. *)
Lemma action_id_stays m off v o : p_action_id m off = Ok (v, o) -> o = off.
Proof.
  unfold p_action_id. intros E. apply bind_ok in E. destruct E as ([h o1] & _ & E). destruct h as [| | | | |? l]; try discriminate.
  destruct l as [|[] [|[] [|]]]; try discriminate. destruct (_ =? 65535); [discriminate|]. destruct (_ =? 4); [|discriminate]. cbn [assert_ bind] in E. congruence.
Qed.
Lemma actions_loop m e off n : (off < e)%nat -> forall r, while_fetch n (p_action_id m) e off <> Ok r.
Proof.
  intros L. induction n as [|n IH]; intros r E; cbn [while_fetch] in E; rewrite (proj2 (Nat.ltb_lt _ _) L) in E; [discriminate|].
  apply bind_ok in E. destruct E as ([v o] & Ev & E). apply action_id_stays in Ev. subst o. apply bind_ok in E. destruct E as ([vs o'] & Es & _). exact (IH _ Es).
Qed.
Lemma actions_forever m e off n v o : (off < e)%nat -> p_action_id m off = Ok (v, o) -> while_fetch n (p_action_id m) e off = Err OutOfFuel.
Proof.
  intros L E. pose proof (action_id_stays _ _ _ _ E) as ->. induction n as [|n IH]; cbn [while_fetch]; rewrite (proj2 (Nat.ltb_lt _ _) L); [reflexivity|].
  rewrite E. cbn [bind]. rewrite IH. reflexivity.
Qed.

Lemma actions_iff n m off v o : bytes_ok m -> p_table_feature_prop_actions n m off = Ok (v, o) <-> feature_empty "ofp_table_feature_prop_actions" m off v o.
Proof.
  intros Hm. unfold p_table_feature_prop_actions, feature_empty. rewrite bind_iff. split.
  - intros ([vs o'] & H & E). apply (unp_here "HH" [N 2; N 2] m off vs o' Hm eq_refl) in H. destruct (two_shape m _ _ _ H) as (ty & len & -> & R). cbv zeta in E.
    pose proof (here_end _ _ _ _ _ H) as Eo. cbn in Eo. apply bind_ok in E. destruct E as ([ids o2] & Ei & E).
    destruct (Nat.ltb_spec o' (off + Z.to_nat len)) as [L|L]; [destruct (actions_loop _ _ _ _ L _ Ei)|].
    assert (W : while_fetch n (p_action_id m) (off + Z.to_nat len) o' = Ok ([], o')) by (destruct n; cbn [while_fetch]; rewrite (proj2 (Nat.ltb_ge _ _) L); reflexivity).
    rewrite W in Ei. apply Ok_inj in Ei. injection Ei as <- <-. apply Ok_inj in E. injection E as <- <-.
    exists (VInt ty), len, o'. split; [exact H|]. split; [lia|]. split; [reflexivity|]. unfold after_padding. rewrite pad_z by lia. reflexivity.
  - intros (ty & len & o' & H & L & -> & ->). exists ([ty; VInt len], o'). split; [apply (unp_here "HH" [N 2; N 2] m off _ o' Hm eq_refl), H|]. cbv zeta.
    destruct (two_shape m _ _ _ H) as (ty' & len' & E & R). injection E as -> <-. pose proof (here_end _ _ _ _ _ H) as Eo. cbn in Eo.
    assert (W : while_fetch n (p_action_id m) (off + Z.to_nat len) o' = Ok ([], o')) by (destruct n; cbn [while_fetch]; rewrite (proj2 (Nat.ltb_ge o' (off + Z.to_nat len))) by lia; reflexivity).
    rewrite W. cbn [bind]. unfold after_padding. rewrite pad_z by lia. reflexivity.
Qed.

Lemma oxm_mean m off : bytes_ok m -> mean (fun _ => p_table_feature_prop_oxm m off) (holds (feature_oxm m) off).
Proof. intros Hm. exact (feature_oxm_mean m Hm off). Qed.
Lemma experimenter_mean m off : bytes_ok m -> mean (fun _ => p_table_feature_prop_experimenter m off) (holds (with_data "ofp_table_feature_prop_experimenter" [N 4; N 4] after_fields after_padding m) off).
Proof.
  intros Hm. unfold p_table_feature_prop_experimenter.
  apply (data_mean m Hm "ofp_table_feature_prop_experimenter" "HHII" [N 4; N 4]); [reflexivity|].
  intros ty len vs o n. cbn [shape]. intros (a & ? & -> & _ & b & ? & -> & _ & ->) L ->. cbn [Datatypes.app]. unfold after_fields, after_padding, end_. rewrite pad_z by lia. reflexivity.
Qed.

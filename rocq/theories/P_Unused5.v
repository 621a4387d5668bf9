(** Proofs for C121, OpenFlow 1.4: the parsers nothing calls and those that
    always raise an exception. *)

From Coq Require Import String List ZArith Lia Bool.
From Verif Require Import Py Struct M_Parse4 M_Parse5 P_Struct P_Fixed S_Accept4 P_Accept4 S_Accept5 P_Accept5 S_Unused P_Unused4.
Import ListNotations.
Local Open Scope Z_scope.
Local Open Scope list_scope.

Ltac shp H := let S := fresh "S" in pose proof (here_shape _ _ _ _ _ H) as S; cbn [shape Datatypes.app repeat] in S.
Ltac dmean f fs := apply takes_mean; intros m off Hm; apply (data_mean m Hm _ f fs); [reflexivity|];
  let ty := fresh in let len := fresh in let vs := fresh in let o := fresh in let n := fresh in
  intros ty len vs o n; cbn [shape]; try (intros (? & ? & -> & _ & ? & ? & -> & _ & ->)); try intros ->; intros ? ->; cbn [Datatypes.app];
  unfold after_fields, at_start, at_end, at_padded_end, after_padding, end_; rewrite ?up8_z, ?pad_z by lia; reflexivity.

Lemma action_id_takes : takes (fun _ => p_action_id) (with_data "ofp_action_id" [] after_fields after_fields).
Proof. dmean "HH"%string (@nil fld). Qed.
Lemma bundle_experimenter_takes : takes (fun _ => p_bundle_prop_experimenter) (with_data "ofp_bundle_prop_experimenter" [N 4; N 4] after_fields at_end).
Proof. dmean "HHII"%string [N 4; N 4]. Qed.

Lemma instruction_experimenter_takes : takes (fun _ => p_instruction_experimenter_header) instruction_experimenter_header.
Proof.
  apply takes_iff. intros m off v o Hm. unfold p_instruction_experimenter_header, instruction_experimenter_header. rewrite bind_iff. split.
  - intros ([vs o'] & H & E). apply (unp_here "HHI" [N 2; N 2; N 4] m off vs o' Hm eq_refl) in H. pose proof H as H'. shp H'.
    destruct S as (a & ? & -> & _ & b & ? & -> & _ & c & ? & -> & _ & ->). apply Ok_inj in E. injection E as <- <-. exists (VInt a), b, (VInt c), o'. auto.
  - intros (ty & len & x & o' & H & -> & ->). exists ([ty; VInt len; x], o'). split; [apply (unp_here "HHI" [N 2; N 2; N 4] m off _ o' Hm eq_refl), H|reflexivity].
Qed.

Lemma paused_takes : takes (fun _ => p_flow_update_paused) flow_update_paused.
Proof.
  apply takes_iff. intros m off v o Hm. unfold p_flow_update_paused, flow_update_paused. rewrite bind_iff. split.
  - intros ([vs o'] & H & E). apply (unp_here "HHI" [N 2; N 2; N 4] m off vs o' Hm eq_refl) in H. pose proof H as H'. shp H'.
    destruct S as (a & ? & -> & _ & b & ? & -> & _ & c & ? & -> & _ & ->). cbv beta iota in E. destruct (Z.eqb_spec c 0) as [->|]; [|discriminate]. cbn [assert_ bind] in E.
    apply Ok_inj in E. injection E as <- <-. exists (VInt a), (VInt b). auto.
  - intros (l & e & H & ->). exists ([l; e; VInt 0], o). split; [apply (unp_here "HHI" [N 2; N 2; N 4] m off _ o Hm eq_refl), H|reflexivity].
Qed.

Lemma full_takes : takes p_flow_update_full flow_update_full.
Proof.
  apply takes_mean. intros m off Hm. unfold p_flow_update_full.
  refine (mean_ext _ _ _ (mean_pair _ (fun vs o n => match vs with
  | [VInt len; a; b; c; d; e; f; VInt zero; g] =>
      assert_ (zero =? 0) ;;;
      ' (mt, o) <- p_match m o ;;
      ' (insts, o) <- while_fetch n (p_instruction n m) (off + Z.to_nat len) o ;;
      Ok (VTup "ofp_flow_monitor_request" [VInt len; a; b; c; d; e; f; g; mt; VList insts], o)
  | _ => Err ValueError
  end) _ (fun vs o y => exists len a b c d e f g, vs = [VInt len; a; b; c; d; e; f; VInt 0; g] /\
      exists mt o2, a_match m o mt o2 /\ exists is o3, many (an_instruction m) (end_ off len) o2 is o3 /\
      y = (VTup "ofp_flow_monitor_request" [VInt len; a; b; c; d; e; f; g; mt; VList is], o3)) (mean_unp m Hm "HHBBHHHIQ" [N 2; N 2; N 1; N 1; N 2; N 2; N 2; N 4; N 8] off eq_refl) _) _).
  - intros vs o H. shp H. destruct S as (len & ? & -> & _ & a & ? & -> & _ & b & ? & -> & _ & c & ? & -> & _ & d & ? & -> & _ & e & ? & -> & _ & f & ? & -> & _ & z & ? & -> & _ & g & ? & -> & _ & ->).
    cbv beta iota. destruct (Z.eqb_spec z 0) as [->|Nz]; cbn [assert_ bind].
    + eapply mean_ext; [eapply mean_pair; [apply (match_mean m Hm)|intros mt o2 _; eapply mean_pair; [apply (mean_while (fun n => p_instruction n m) (an_instruction m) _ (instruction_mean m Hm))|intros is o3 _; apply mean_ok]]|].
      intros y. split; [intros K; do 8 eexists; split; [reflexivity|exact K]|]. intros (l & ? & ? & ? & ? & ? & ? & ? & E & K). injection E as <- <- <- <- <- <- <- <-. exact K.
    + refine (mean_ext _ _ _ (mean_err _) _). intros y. split; [intros []|]. intros (? & ? & ? & ? & ? & ? & ? & ? & E & _). injection E as _ _ _ _ _ _ _ E _. exact (Nz E).
  - intros [v o]. cbn [fst snd]. unfold flow_update_full. split.
    + intros (vs & o1 & H & len & a & b & c & d & e & f & g & -> & mt & o2 & M & is & o3 & I & E). injection E as -> ->. exists len, a, b, c, d, e, f, g, o1, mt, o2, is. auto.
    + intros (len & a & b & c & d & e & f & g & o1 & mt & o2 & is & H & M & I & ->). eexists _, o1. split; [exact H|]. exists len, a, b, c, d, e, f, g. split; [reflexivity|]. exists mt, o2. split; [exact M|]. exists is, o. auto.
Qed.

(** Messages. *)
Lemma headed (q : bytes -> nat -> res (pyval * nat)) (R : bytes -> pyval -> nat -> rel) :
  (forall m off v o, q m off = Ok (v, o) -> exists x, p_header m off = Ok x) ->
  (forall m off h ty len v o, bytes_ok m -> p_header m off = Ok (h, ty, Z.to_nat len, (off + 8)%nat) -> q m off = Ok (v, o) <-> R m h (end_ off len) off v o) ->
  takes (fun _ => q) (fun m off v o => exists ty len h, header m off ty len h /\ R m h (end_ off len) off v o).
Proof.
  intros H1 H2. apply takes_iff. intros m off v o Hm. split.
  - intros E. destruct (H1 _ _ _ _ E) as ([[[h ty] l] o'] & Eh). pose proof Eh as Eh'. apply (header_iff m Hm) in Eh'. destruct Eh' as (len & Hh & -> & ->). exists ty, len, h. split; [exact Hh|]. apply (H2 m off h ty len v o Hm Eh), E.
  - intros (ty & len & h & Hh & K). apply (H2 m off h ty len v o Hm); [|exact K]. apply (header_iff m Hm). eauto.
Qed.
Lemma role_takes : takes (fun _ => p_role_request) role_request.
Proof.
  apply (headed p_role_request (fun m h _ => simple m h "ofp_role_request" [N 4; G 4; N 8])).
  - intros m off v o E. unfold p_role_request, simple_message in E. destruct (p_header m off) as [x|]; [eauto|discriminate].
  - intros m off h ty len v o Hm Eh. pose proof (simple_mean m Hm off h ty len Eh "ofp_role_request" "I4xQ" [N 4; G 4; N 8] eq_refl) as [A B]. split.
    + intros E. exact (A 0%nat (v, o) E).
    + intros K. destruct (B (v, o) K) as (k & E). exact (E k ltac:(lia)).
Qed.
Lemma error_takes : takes (fun _ => p_error_experimenter_msg) error_experimenter.
Proof.
  apply (headed p_error_experimenter_msg (fun m h e => with_rest m h e "ofp_error_experimenter_msg" [N 2; N 2; N 4])).
  - intros m off v o E. unfold p_error_experimenter_msg, data_message in E. destruct (p_header m off) as [x|]; [eauto|discriminate].
  - intros m off h ty len v o Hm Eh. pose proof (rest_mean m Hm off h ty len Eh "ofp_error_experimenter_msg" "HHI" [N 2; N 2; N 4] eq_refl) as [A B]. split.
    + intros E. exact (A 0%nat (v, o) E).
    + intros K. destruct (B (v, o) K) as (k & E). exact (E k ltac:(lia)).
Qed.
Lemma forward_takes : takes (fun _ => p_requestforward_header) two_headers.
Proof.
  apply takes_iff. intros m off v o Hm. unfold p_requestforward_header, two_headers. rewrite bind_iff. split.
  - intros ([[[h ty] l] o1] & Eh & E). apply (header_iff m Hm) in Eh. destruct Eh as (len & Hh & _ & ->). apply bind_ok in E. destruct E as ([[[r ty'] l'] o2] & Er & E).
    apply (header_iff m Hm) in Er. destruct Er as (len' & Hr & _ & ->). apply Ok_inj in E. injection E as <- <-. exists ty, len, h, ty', len', r. split; [exact Hh|]. split; [exact Hr|]. split; [reflexivity|lia].
  - intros (ty & len & h & ty' & len' & h' & Hh & Hr & -> & ->). exists (h, ty, Z.to_nat len, (off + 8)%nat). split; [apply (header_iff m Hm); eauto|].
    rewrite (proj2 (header_iff m Hm (off + 8) h' ty' (Z.to_nat len') (off + 8 + 8))); [cbn [bind]; do 2 f_equal; lia|eauto].
Qed.

(** Properties of statistics. *)
Lemma port_stats_prop_mean m off : bytes_ok m -> mean (fun _ => p_port_stats_prop m off) (holds (port_stats_prop m) off).
Proof.
  intros Hm. apply (by_type_mean m Hm _ off (fun ty _ => if ty =? 0 then p_port_stats_prop_ethernet m off
  else if ty =? 1 then p_port_stats_prop_optical m off
  else if ty =? 65535 then p_port_stats_prop_experimenter m off
  else Err ValueError)).
  intros ty _. line; [apply (fun fs cls off H => mean_fixed m Hm cls "HH4x4Q" fs off H); reflexivity|]. line; [apply (fun fs cls off H => mean_fixed m Hm cls "HH4x7I4H" fs off H); reflexivity|].
  line; [|apply mean_nothing]. apply (data_mean m Hm _ "HHII" [N 4; N 4]); [reflexivity|]. intros t len vs o n. cbn [shape]. intros (? & ? & -> & _ & ? & ? & -> & _ & ->) L ->. cbn [Datatypes.app].
  unfold after_fields, at_padded_end, end_. rewrite ?up8_z by lia. reflexivity.
Qed.
Lemma queue_stats_prop_mean m off : bytes_ok m -> mean (fun _ => p_queue_stats_prop m off) (holds (queue_stats_prop m) off).
Proof.
  intros Hm. apply (by_type_mean m Hm _ off (fun ty _ => if ty =? 65535 then p_queue_stats_prop_experimenter m off else Err ValueError)).
  intros ty _. line; [|apply mean_nothing]. apply (data_mean m Hm _ "HHII" [N 4; N 4]); [reflexivity|]. intros t len vs o n. cbn [shape]. intros (? & ? & -> & _ & ? & ? & -> & _ & ->) L ->. cbn [Datatypes.app].
  unfold after_fields, at_padded_end, end_. rewrite ?up8_z by lia. reflexivity.
Qed.

(** Which exception. *)
Lemma unp_exc f fs m off e : fmt f = Ok (map item fs) -> unp f m off = Err e -> e = StructError.
Proof.
  intros Hf E. destruct (Nat.le_gt_cases (off + flen fs) (length m)) as [L|L]; [destruct (unp_some f fs m off Hf L) as (vs & K); congruence|rewrite (unp_short f fs m off Hf L) in E; congruence].
Qed.
Lemma while_exc n (f : nat -> res (pyval * nat)) e off x : while_fetch n f e off = Err x -> x = OutOfFuel \/ exists o, f o = Err x.
Proof.
  revert off. induction n as [|n IH]; intros off E; cbn [while_fetch] in E; destruct (off <? e)%nat; try discriminate; [left; congruence|].
  destruct (f off) as [[v o]|y] eqn:Ef; cbn [bind] in E; [|right; exists off; congruence].
  destruct (while_fetch n f e o) as [[vs o']|y] eqn:Ew; cbn [bind] in E; [discriminate|]. apply (IH o). congruence.
Qed.
Lemma type_exc m off e : prop_type m off = Err e -> e = StructError \/ e = ValueError.
Proof.
  unfold prop_type. destruct (unp "HH" m off) as [[vs o]|y] eqn:E; cbn [bind].
  - destruct vs as [|[] ?]; intros K; try discriminate; injection K as <-; auto.
  - intros K. injection K as <-. left. exact (unp_exc "HH" [N 2; N 2] m off y eq_refl E).
Qed.
Lemma aligned_exc cls m off e : exp_prop_aligned cls m off = Err e -> e = StructError \/ e = ValueError.
Proof.
  unfold exp_prop_aligned. destruct (unp "HHII" m off) as [[vs o]|y] eqn:E; cbn [bind].
  - destruct vs as [|? [|[] ?]]; intros K; try discriminate; injection K as <-; auto.
  - intros K. injection K as <-. left. exact (unp_exc "HHII" [N 2; N 2; N 4; N 4] m off y eq_refl E).
Qed.
Lemma fixed_exc cls f fs m off e : fmt f = Ok (map item fs) -> fixed cls f m off = Err e -> e = StructError.
Proof.
  intros Hf. unfold fixed. destruct (unp f m off) as [[vs o]|y] eqn:E; cbn [bind]; [discriminate|]. intros K. injection K as <-. exact (unp_exc f fs m off y Hf E).
Qed.
Lemma port_prop_exc m off e : p_port_stats_prop m off = Err e -> e = StructError \/ e = ValueError.
Proof.
  unfold p_port_stats_prop. destruct (prop_type m off) as [ty|y] eqn:E; cbn [bind]; [|intros K; injection K as <-; exact (type_exc _ _ _ E)].
  destruct (ty =? 0); [intros K; left; exact (fixed_exc _ "HH4x4Q" ([N 2; N 2; G 4] ++ repeat (N 8) 4) m off e eq_refl K)|].
  destruct (ty =? 1); [intros K; left; exact (fixed_exc _ "HH4x7I4H" ([N 2; N 2; G 4] ++ repeat (N 4) 7 ++ repeat (N 2) 4) m off e eq_refl K)|].
  destruct (ty =? 65535); [apply aligned_exc|]. intros K. injection K as <-. auto.
Qed.
Lemma queue_prop_exc m off e : p_queue_stats_prop m off = Err e -> e = StructError \/ e = ValueError.
Proof.
  unfold p_queue_stats_prop. destruct (prop_type m off) as [ty|y] eqn:E; cbn [bind]; [|intros K; injection K as <-; exact (type_exc _ _ _ E)].
  destruct (ty =? 65535); [apply aligned_exc|]. intros K. injection K as <-. auto.
Qed.

Lemma stats_raise f fs (p : bytes -> nat -> res (pyval * nat)) R m off : bytes_ok m -> fmt f = Ok (map item (N 2 :: fs)) ->
  (forall off, mean (fun _ => p m off) (holds (R m) off)) -> (forall off e, p m off = Err e -> e = StructError \/ e = ValueError) ->
  let q n : res (pyval * nat) := ' (vs, o) <- unp f m off ;; match vs with VInt len :: _ => while_fetch n (p m) (off + Z.to_nat len) o ;;; Err TypeError | _ => Err ValueError end in
  (forall n, exists e, q n = Err e /\ In e [StructError; ValueError; TypeError; OutOfFuel] /\ (e = TypeError -> readable (N 2 :: fs) (R m) m off)) /\
  (readable (N 2 :: fs) (R m) m off -> exists k, forall n, (k <= n)%nat -> q n = Err TypeError).
Proof.
  intros Hm Hf Hp He q. split.
  - intros n. unfold q. destruct (unp f m off) as [[vs o]|y] eqn:E; cbn [bind].
    + pose proof (proj1 (unp_here f _ m off vs o Hm Hf) E) as H. shp H. destruct S as (len & ws & -> & _ & _).
      destruct (while_fetch n (p m) (off + Z.to_nat len) o) as [[l o']|x] eqn:W; cbn [bind].
      * exists TypeError. split; [reflexivity|]. split; [cbn [In]; tauto|]. intros _. exists len, ws, o, l, o'. split; [exact H|].
        exact (proj1 (mean_while (fun _ => p m) (R m) (end_ off len) Hp o) n (l, o') W).
      * exists x. split; [reflexivity|]. destruct (while_exc _ _ _ _ _ W) as [->|(o' & K)]; [split; [cbn [In]; tauto|discriminate]|].
        destruct (He _ _ K) as [->| ->]; (split; [cbn [In]; tauto|discriminate]).
    + exists y. split; [reflexivity|]. rewrite (unp_exc f _ m off y Hf E). split; [cbn [In]; tauto|discriminate].
  - intros (len & vs & o & l & o' & H & M). destruct (proj2 (mean_while (fun _ => p m) (R m) (end_ off len) Hp o) (l, o') M) as (k & K). exists k. intros n Hn. unfold q.
    rewrite (proj2 (unp_here f _ m off _ o Hm Hf) H). cbn [bind]. unfold end_ in K. rewrite (K n Hn). reflexivity.
Qed.

Lemma type_some m off : (off + 4 <= length m)%nat -> exists ty, prop_type m off = Ok ty.
Proof.
  intros L. unfold prop_type, unp, unpacks, sizes, unpack_from. change (fmt "HH") with (Ok [FU 2; FU 2]). cbn [bind]. change (calcsize [FU 2; FU 2]) with 4%nat.
  rewrite (proj2 (Nat.leb_le _ _) L). cbn [bind decode]. eexists. reflexivity.
Qed.
Lemma bundle_raises : raises p_bundle_prop 4 NameError.
Proof.
  intros m off. unfold p_bundle_prop. split; intros L.
  - destruct (type_some m off L) as (ty & ->). reflexivity.
  - unfold prop_type. rewrite (unp_short "HH" [N 2; N 2] m off eq_refl L). reflexivity.
Qed.

Lemma role_prop_takes start : takes (fun _ => p_role_prop start) (role_property start).
Proof.
  apply takes_iff. intros m off v o Hm. unfold p_role_prop, role_property.
  assert (T : forall ty, prop_type m off = Ok ty <-> typed m off ty).
  { intros ty. destruct (type_mean m Hm off) as [A B]. split; [intros E; exact (A 0%nat ty E)|]. intros K. destruct (B ty K) as (k & H). exact (H k (le_n k)). }
  assert (U : forall vs, unpacks "HHII" m start = Ok vs <-> here m start [N 2; N 2; N 4; N 4] vs (start + 12)).
  { intros vs. rewrite <- (unp_here "HHII" [N 2; N 2; N 4; N 4] m start vs (start + 12) Hm eq_refl). unfold unp. destruct (unpacks "HHII" m start) as [ws|]; cbn [bind]; [|split; discriminate].
    change (sizes "HHII") with (Ok 12%nat). cbn [bind]. split; intros E; apply Ok_inj in E; [subst; reflexivity|]. injection E as ->. reflexivity. }
  rewrite bind_iff. split.
  - intros (ty & E & K). destruct (ty =? 65535) eqn:Ty; [|discriminate]. apply Z.eqb_eq in Ty. subst ty. split; [apply T, E|].
    apply bind_ok in K. destruct K as (w & K & F). apply Ok_inj in F. injection F as <- <-. split; [reflexivity|].
    unfold p_role_prop_experimenter in K. apply bind_ok in K. destruct K as (vs & K & F). apply U in K. shp K. destruct S as (a & ? & -> & _ & b & ? & -> & _ & c & ? & -> & _ & d & ? & -> & _ & ->).
    apply Ok_inj in F. subst w. eexists _, _, _, _, _. split; [exact K|reflexivity].
  - intros (Ty & -> & ty & len & x & t & o' & H & ->). exists 65535. split; [apply T, Ty|]. cbn [Z.eqb Pos.eqb].
    assert (o' = (start + 12)%nat) by (apply here_end in H; cbn in H; lia). subst o'. unfold p_role_prop_experimenter. rewrite (proj2 (U _) H). reflexivity.
Qed.

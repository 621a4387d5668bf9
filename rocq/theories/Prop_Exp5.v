(** Property C112: the experimenter properties of OpenFlow 1.4. *)

From Coq Require Import String Lia.
From Verif Require Import Py Struct P_Struct S_Wire4 M_Build4 M_Parse4 P_Wire4 P_Fixed M_Build5 M_Parse5 S_Exp5 P_Exp5.
Local Open Scope Z_scope.
Local Open Scope list_scope.

Ltac five args E :=
  destruct args as [|a1 [|a2 [|a3 [|a4 [|a5 [|a6 args]]]]]];
  [discriminate E|discriminate E|discriminate E|discriminate E|discriminate E| |discriminate E].

(** The experimenter property of a table modification, port modification,
    queue statistics or bundle is built from exactly two numbers of 32 bits and
    data that leave the length in 16 bits; the type and length given are not
    looked at; the bytes are those of the specification. *)
Theorem C112_built : forall dx d cls args b, In cls plain_classes ->
  obj dx (S d) (VTup cls args) = Ok b <->
  exists t l e x data, args = [t; l; VInt e; VInt x; VBytes data] /\ exp_ok e x data /\ b = exp_wire e x data.
Proof.
  intros dx d cls args b Hin.
  assert (K : forall t l e x v, obj dx (S d) (VTup cls [t; l; e; x; v]) = exp_prop (VInt 65535) e x v).
  { destruct Hin as [<-|[<-|[<-|[<-|[]]]]]; reflexivity. }
  split.
  - intros E. assert (L : exists t l e x v, args = [t; l; e; x; v]).
    { destruct Hin as [<-|[<-|[<-|[<-|[]]]]]; five args E; eauto 6. }
    destruct L as (t & l & e & x & v & ->). rewrite K in E. apply exp_exactly in E.
    destruct E as (ez & xz & data & -> & -> & -> & Ok_ & ->). exists t, l, ez, xz, data. auto.
  - intros (t & l & e & x & data & -> & Ok_ & ->). rewrite K. apply exp_exactly. exists e, x, data. auto.
Qed.
Print Assumptions C112_built.

Example C112_built_example :
  exp_ok 3333 7 [1; 2; 3; 4; 5] /\
  obj 0 1 (VTup "ofp_bundle_prop_experimenter" [VNone; VInt 99; VInt 3333; VInt 7; VBytes [1; 2; 3; 4; 5]]) =
  Ok [255; 255; 0; 17; 0; 0; 13; 5; 0; 0; 0; 7; 1; 2; 3; 4; 5; 0; 0; 0; 0; 0; 0; 0].
Proof. split; [repeat split; cbv; congruence|vm_compute; reflexivity]. Qed.

(** In role status the data may be left out. *)
Theorem C112_role_built : forall dx d args b,
  obj dx (S d) (VTup "ofp_role_prop_experimenter" args) = Ok b <->
  exists t l e x v data, args = [t; l; VInt e; VInt x; v] /\ (v = VBytes data \/ v = VNone /\ data = []) /\
    exp_ok e x data /\ b = exp_wire e x data.
Proof.
  intros dx d args b.
  assert (K : forall t l e x v, obj dx (S d) (VTup "ofp_role_prop_experimenter" [t; l; e; x; v]) =
    exp_prop (VInt 65535) e x (dflt_bytes v [])) by reflexivity.
  split.
  - intros E. assert (L : exists t l e x v, args = [t; l; e; x; v]) by (five args E; eauto 6).
    destruct L as (t & l & e & x & v & ->). rewrite K in E. apply exp_exactly in E.
    destruct E as (ez & xz & data & -> & -> & Ev & Ok_ & ->). exists t, l, ez, xz, v, data.
    split; [reflexivity|]. split; [|auto]. destruct v; try discriminate Ev; injection Ev as <-; auto.
  - intros (t & l & e & x & v & data & -> & Hv & Ok_ & ->). rewrite K. apply exp_exactly. exists e, x, data.
    destruct Hv as [->|[-> ->]]; auto 6.
Qed.
Print Assumptions C112_role_built.

Example C112_role_built_example :
  obj 0 1 (VTup "ofp_role_prop_experimenter" [VNone; VNone; VInt 1; VInt 2; VNone]) =
  Ok [255; 255; 0; 12; 0; 0; 0; 1; 0; 0; 0; 2; 0; 0; 0; 0].
Proof. vm_compute. reflexivity. Qed.

(** The first four cannot leave it out, though their code goes on to replace
    None by the empty string: the length is asked of None first. *)
Theorem C112_no_data_refuted : forall dx d cls t l e x, In cls plain_classes ->
  obj dx (S d) (VTup cls [t; l; e; x; VNone]) = Err TypeError.
Proof. intros dx d cls t l e x [<-|[<-|[<-|[<-|[]]]]]; reflexivity. Qed.
Print Assumptions C112_no_data_refuted.

(** In port statistics the padding is missing: what is built is the property
    as far as its length says, so it is the property of the specification only
    if that is a multiple of eight bytes already. *)
Theorem C112_port_stats_refuted :
  (forall dx d args b,
    obj dx (S d) (VTup "ofp_port_stats_prop_experimenter" args) = Ok b <->
    exists t l e x v data, args = [t; l; VInt e; VInt x; v] /\ (v = VBytes data \/ v = VNone /\ data = []) /\
      exp_ok e x data /\ b = exp_head e x data) /\
  (forall e x data, exp_head e x data = exp_wire e x data <-> ((12 + length data) mod 8 = 0)%nat).
Proof.
  split.
  - intros dx d args b.
    assert (K : forall t l e x v, obj dx (S d) (VTup "ofp_port_stats_prop_experimenter" [t; l; e; x; v]) =
      ofp_port_stats_prop_experimenter t l e x v) by reflexivity.
    split.
    + intros E. assert (L : exists t l e x v, args = [t; l; e; x; v]) by (five args E; eauto 6).
      destruct L as (t & l & e & x & v & ->). rewrite K in E. apply unpadded_exactly in E.
      destruct E as (ez & xz & data & -> & -> & Ev & Ok_ & ->). exists t, l, ez, xz, v, data.
      split; [reflexivity|]. split; [|auto]. destruct v; try discriminate Ev; injection Ev as <-; auto.
    + intros (t & l & e & x & v & data & -> & Hv & Ok_ & ->). rewrite K. apply unpadded_exactly. exists e, x, data.
      destruct Hv as [->|[-> ->]]; auto 6.
  - intros e x data. split.
    + intros E. apply (f_equal (@length Z)) in E. unfold exp_wire in E. rewrite app_length, zeros_length in E.
      assert (G : gap (12 + length data) = 0%nat) by lia. unfold gap in G.
      pose proof (Nat.mod_upper_bound (12 + length data) 8). destruct ((12 + length data) mod 8)%nat as [|n]; [reflexivity|].
      revert G. rewrite Nat.mod_small by lia. lia.
    + intros E. unfold exp_wire, gap. rewrite E. symmetry. apply app_nil_r.
Qed.
Print Assumptions C112_port_stats_refuted.

Example C112_port_stats_example :
  obj 0 1 (VTup "ofp_port_stats_prop_experimenter" [VNone; VNone; VInt 1; VInt 2; VBytes [9]]) =
  Ok [255; 255; 0; 13; 0; 0; 0; 1; 0; 0; 0; 2; 9].
Proof. vm_compute. reflexivity. Qed.

(** Those of ports, table features, queue descriptions and asynchronous
    configuration are built from nothing at all: each meets a name that is not
    defined.  With the arguments of a property the error is NameError. *)
Theorem C112_unbuildable_refuted : forall dx d cls, In cls unbuildable_classes ->
  (forall args b, obj dx (S d) (VTup cls args) <> Ok b) /\
  (forall l e x data, exp_ok e x data ->
    obj dx (S d) (VTup cls [VInt 65535; l; VInt e; VInt x; VBytes data]) = Err NameError).
Proof.
  intros dx d cls Hin. split.
  - intros args b E. destruct Hin as [<-|[<-|[<-|[<-|[]]]]]; five args E; try discriminate E.
    change (ofp_port_desc_prop_experimenter a1 a2 a3 a4 a5 = Ok b) in E. unfold ofp_port_desc_prop_experimenter in E. cbv zeta in E.
    repeat (apply bind_iff in E; destruct E as (? & _ & E)). discriminate E.
  - intros l e x data Ok_. destruct Hin as [<-|[<-|[<-|[<-|[]]]]]; try reflexivity.
    change (ofp_port_desc_prop_experimenter (VInt 65535) l (VInt e) (VInt x) (VBytes data) = Err NameError).
    assert (P : exp_prop (VInt 65535) (VInt e) (VInt x) (VBytes data) = Ok (exp_wire e x data))
      by (apply exp_exactly; exists e, x, data; auto).
    unfold exp_prop in P. cbn [len_of bind] in P. cbv zeta in P. apply bind_iff in P. destruct P as (p & P & _).
    unfold ofp_port_desc_prop_experimenter. cbn [default dflt_bytes len_of bind py_eqz]. cbv zeta.
    replace (12 + Z.of_nat (length data)) with (Z.of_nat (12 + length data)) by lia.
    change (py_eqz (VInt 65535) 65535) with true. cbn [assert_ bind]. rewrite P. reflexivity.
Qed.
Print Assumptions C112_unbuildable_refuted.

(** The parsers of table modification, queue statistics and queue descriptions
    return what the property says and go on behind its padding. *)
Definition right_parsers : list (string * (bytes -> nat -> res (pyval * nat))) :=
  [("ofp_table_mod_prop_experimenter"%string, p_table_mod_prop_experimenter);
   ("ofp_queue_stats_prop_experimenter"%string, p_queue_stats_prop_experimenter);
   ("ofp_queue_desc_prop_experimenter"%string, p_queue_desc_prop_experimenter)].

Lemma aligned cls e x data m off : at_ m off (exp_wire e x data) -> exp_ok e x data ->
  exp_prop_aligned cls m off = Ok (exp_value cls e x data, (off + length (exp_wire e x data))%nat).
Proof.
  intros A O. unfold exp_prop_aligned. rewrite (exp_unp _ _ _ _ _ A O). cbn [bind]. cbv zeta.
  rewrite (exp_data _ _ _ _ _ A), (proj1 (exp_len e x data)). reflexivity.
Qed.

Theorem C112_parsed : forall cls p e x data m off, In (cls, p) right_parsers ->
  at_ m off (exp_wire e x data) -> exp_ok e x data ->
  p m off = Ok (exp_value cls e x data, (off + length (exp_wire e x data))%nat).
Proof.
  intros cls p e x data m off Hin A O.
  destruct Hin as [H|[H|[H|[]]]]; injection H as <- <-; apply aligned; assumption.
Qed.
Print Assumptions C112_parsed.

Example C112_parsed_example :
  p_table_mod_prop_experimenter ([7; 7; 7] ++ exp_wire 3333 7 [1; 2; 3; 4; 5] ++ [8]) 3 =
  Ok (VTup "ofp_table_mod_prop_experimenter" [VInt 65535; VInt 17; VInt 3333; VInt 7; VBytes [1; 2; 3; 4; 5]], 27%nat).
Proof. vm_compute. reflexivity. Qed.

(** So for table modification and queue statistics what is built is parsed,
    and what was parsed is built again. *)
Theorem C112_round_trip : forall dx d cls p args b m off,
  In (cls, p) right_parsers -> obj dx (S d) (VTup cls args) = Ok b -> at_ m off b ->
  exists v, p m off = Ok (v, (off + length b)%nat) /\ obj dx (S d) v = Ok b.
Proof.
  intros dx d cls p args b m off Hin E A.
  assert (Hc : In cls plain_classes).
  { destruct Hin as [H|[H|[H|[]]]]; injection H as <- <-.
    - left. reflexivity.
    - right. right. left. reflexivity.
    - destruct (proj1 (C112_unbuildable_refuted dx d "ofp_queue_desc_prop_experimenter" ltac:(cbn; auto)) _ _ E). }
  apply (C112_built dx d cls args b Hc) in E. destruct E as (t & l & e & x & data & -> & O & ->).
  exists (exp_value cls e x data). split; [apply (C112_parsed cls p); assumption|].
  apply C112_built; [exact Hc|]. exists (VInt 65535), (VInt (12 + zlen data)), e, x, data. auto.
Qed.
Print Assumptions C112_round_trip.

(** In port statistics the parser returns the name of no class: the value
    cannot be built again. *)
Theorem C112_port_stats_name_refuted : forall dx d e x data m off,
  at_ m off (exp_wire e x data) -> exp_ok e x data ->
  p_port_stats_prop_experimenter m off =
    Ok (exp_value "ofp_port_stats_experimenter" e x data, (off + length (exp_wire e x data))%nat) /\
  obj dx (S d) (exp_value "ofp_port_stats_experimenter" e x data) = Err NameError.
Proof. intros dx d e x data m off A O. split; [exact (aligned _ _ _ _ _ _ A O)|reflexivity]. Qed.
Print Assumptions C112_port_stats_name_refuted.

(** The parsers for ports and bundles return what the property says but stop
    before its padding. *)
Theorem C112_exact_refuted : forall cls p e x data m off,
  In (cls, p) [("ofp_port_desc_prop_experimenter"%string, p_port_desc_prop_experimenter);
               ("ofp_bundle_prop_experimenter"%string, p_bundle_prop_experimenter)] ->
  at_ m off (exp_wire e x data) -> exp_ok e x data ->
  exists o, p m off = Ok (exp_value cls e x data, o) /\
    o = (off + 12 + length data)%nat /\
    (o = off + length (exp_wire e x data) <-> (12 + length data) mod 8 = 0)%nat.
Proof.
  intros cls p e x data m off Hin A O. exists (off + 12 + length data)%nat. split; [|split; [reflexivity|]].
  - assert (K : p m off = exp_prop_exact cls m off) by (destruct Hin as [H|[H|[]]]; injection H as <- <-; reflexivity).
    rewrite K. unfold exp_prop_exact. rewrite (exp_unp _ _ _ _ _ A O). cbn [bind]. cbv zeta.
    rewrite (exp_data _ _ _ _ _ A). replace (off + Z.to_nat (12 + zlen data))%nat with (off + 12 + length data)%nat by (unfold zlen; lia).
    reflexivity.
  - rewrite <- (proj2 C112_port_stats_refuted e x data). destruct (exp_len e x data) as (_ & L). split; intros E.
    + unfold exp_wire in *. rewrite app_length, L in E. rewrite zeros_length in E.
      replace (gap (12 + length data)) with 0%nat by (unfold zlen in E; lia). symmetry. apply app_nil_r.
    + rewrite <- E, L. unfold zlen. lia.
Qed.
Print Assumptions C112_exact_refuted.

Example C112_exact_example :
  p_bundle_prop_experimenter (exp_wire 3333 7 [1]) 0 =
  Ok (VTup "ofp_bundle_prop_experimenter" [VInt 65535; VInt 13; VInt 3333; VInt 7; VBytes [1]], 13%nat) /\
  length (exp_wire 3333 7 [1]) = 16%nat.
Proof. split; vm_compute; reflexivity. Qed.

(** The parsers for port modification and role status take the property itself
    for its data: type, length and all, and never the data alone. *)
Theorem C112_whole_as_data_refuted : forall e x data m off,
  at_ m off (exp_wire e x data) -> exp_ok e x data ->
  exp_head e x data <> data /\
  (exists v, v = VTup "ofp_port_mod_prop_experimenter"
       [VInt 65535; VInt (12 + zlen data); VInt e; VInt x; VBytes (exp_head e x data)] /\
     p_port_mod_prop_experimenter m off = Ok (v, (off + length (exp_wire e x data))%nat)) /\
  p_role_prop_experimenter m off = Ok (VTup "ofp_role_prop_experimenter"
       [VInt 65535; VInt (12 + zlen data); VInt e; VInt x; VBytes (exp_head e x data)]).
Proof.
  intros e x data m off A O. split; [|split].
  - intros E. apply (f_equal (@length Z)) in E. rewrite (proj2 (exp_len e x data)) in E. unfold zlen in E. lia.
  - eexists. split; [reflexivity|]. unfold p_port_mod_prop_experimenter. rewrite (exp_unp _ _ _ _ _ A O). cbn [bind]. cbv zeta.
    rewrite (exp_whole _ _ _ _ _ A), (proj1 (exp_len e x data)). reflexivity.
  - unfold p_role_prop_experimenter. pose proof (exp_unp _ _ _ _ _ A O) as U. unfold unp in U.
    apply bind_iff in U. destruct U as (f & F & U). apply bind_iff in U. destruct U as (k & _ & U). injection U as -> _.
    rewrite F. cbn [bind]. rewrite (exp_whole _ _ _ _ _ A). reflexivity.
Qed.
Print Assumptions C112_whole_as_data_refuted.

Example C112_whole_as_data_example :
  p_port_mod_prop_experimenter (exp_wire 1 2 [9]) 0 =
  Ok (VTup "ofp_port_mod_prop_experimenter" [VInt 65535; VInt 13; VInt 1; VInt 2;
        VBytes [255; 255; 0; 13; 0; 0; 0; 1; 0; 0; 0; 2; 9]], 16%nat).
Proof. vm_compute. reflexivity. Qed.

(** The parser for asynchronous configuration fails at every property, and the
    one for table features (types 65534 and 65535) goes on at a place that is
    not behind the property unless it has no data: behind the twelve bytes
    before the data and as many as there are of padding. *)
Theorem C112_async_refuted : forall m off r, p_async_config_prop_experimenter m off <> Ok r.
Proof. intros m off r E. unfold p_async_config_prop_experimenter in E. apply bind_iff in E. destruct E as (? & _ & E). discriminate E. Qed.
Print Assumptions C112_async_refuted.

Theorem C112_table_feature_refuted : forall e x data m off,
  at_ m off (exp_wire e x data) -> exp_ok e x data ->
  exists o, p_table_feature_prop_experimenter m off = Ok (exp_value "ofp_table_feature_prop_experimenter" e x data, o) /\
    (o + length data = off + length (exp_wire e x data))%nat.
Proof.
  intros e x data m off A O. unfold p_table_feature_prop_experimenter. rewrite (exp_unp _ _ _ _ _ A O). cbn [bind]. cbv zeta.
  rewrite (exp_data _ _ _ _ _ A). eexists. split; [reflexivity|].
  rewrite (proj1 (exp_len e x data)), gap_align. unfold zlen. lia.
Qed.
Print Assumptions C112_table_feature_refuted.

Example C112_table_feature_example :
  p_table_feature_prop_experimenter (exp_wire 1 2 [9; 9; 9; 9]) 0 =
  Ok (VTup "ofp_table_feature_prop_experimenter" [VInt 65535; VInt 16; VInt 1; VInt 2; VBytes [9; 9; 9; 9]], 12%nat) /\
  length (exp_wire 1 2 [9; 9; 9; 9]) = 16%nat.
Proof. split; vm_compute; reflexivity. Qed.

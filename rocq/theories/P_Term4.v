(** Loops of the OpenFlow 1.3 parser. *)

From Verif Require Import Py Struct P_Struct S_Hello S_Ports P_Hello P_Ports S_Wire4 S_Msg4 M_Build4 M_Parse4 P_Wire4 P_Act4 P_Rebuild4 P_Stat4 P_Msg4 P_MsgParse4.
Local Open Scope Z_scope.
Local Open Scope list_scope.

(** *** Reading *)

Lemma unp_cases f fs m off : fmt f = Ok fs ->
  unp f m off = Err StructError \/
  (unp f m off = Ok (decode fs (skipn off m), (off + calcsize fs)%nat) /\ (off + calcsize fs <= length m)%nat).
Proof.
  intros Hf. unfold unp, unpacks, sizes. rewrite Hf. cbn [bind]. unfold unpack_from.
  destruct (off + calcsize fs <=? length m)%nat eqn:E; [right | left; reflexivity].
  apply Nat.leb_le in E. split; [reflexivity | exact E].
Qed.

Lemma read_u16 m off : (off + 2 <= length m)%nat -> of_be (firstn 2 (skipn off m)) = u16_at m off.
Proof.
  intros H. unfold u16_at, byte_at. rewrite <- (firstn_skipn off m) at 2 3.
  assert (L : length (firstn off m) = off) by (rewrite firstn_length; lia).
  rewrite !app_nth2 by lia. rewrite L, Nat.sub_diag. replace (off + 1 - off)%nat with 1%nat by lia.
  destruct (skipn off m) as [|a [|b l]] eqn:E.
  - assert (length (skipn off m) = 0%nat) by (rewrite E; reflexivity). rewrite skipn_length in *. lia.
  - assert (length (skipn off m) = 1%nat) by (rewrite E; reflexivity). rewrite skipn_length in *. lia.
  - cbn. lia.
Qed.

(** *** Two properties of a piece of parser: a result is never behind the
    start, and it is the same with any fuel above the message's length. *)

Definition mono (m : bytes) (f : nat -> res (pyval * nat)) : Prop :=
  forall off v o, f off = Ok (v, o) -> (off <= o)%nat /\ (off < length m)%nat.

Lemma stuck_loop f limit off v : (off < limit)%nat -> f off = Ok (v, off) -> forall n, while_fetch n f limit off = Err OutOfFuel.
Proof.
  intros Hl Hf n. apply Nat.ltb_lt in Hl. induction n as [|n IH]; cbn [while_fetch]; rewrite Hl; [reflexivity|].
  rewrite Hf. cbn [bind]. rewrite IH. reflexivity.
Qed.

Lemma while_const m f g limit : mono m f -> (forall o, g o = f o) ->
  forall n1 n2 off, (length m - off < n1)%nat -> (length m - off < n2)%nat ->
  while_fetch n1 f limit off = while_fetch n2 g limit off.
Proof.
  intros Hm Hg n1. induction n1 as [|n1 IH]; intros n2 off H1 H2; [lia|]. destruct n2 as [|n2]; [lia|].
  cbn [while_fetch]. destruct (off <? limit)%nat eqn:El; [|reflexivity]. rewrite Hg.
  destruct (f off) as [[v o]|e] eqn:Ef; [|reflexivity]. cbn [bind].
  destruct (Hm _ _ _ Ef) as [M1 M2]. assert (C : o = off \/ (off < o)%nat) by lia. destruct C as [->|C].
  - apply Nat.ltb_lt in El. rewrite (stuck_loop f limit off v El Ef).
    rewrite (stuck_loop g limit off v El) by (rewrite Hg; exact Ef). reflexivity.
  - rewrite (IH n2 o) by lia. reflexivity.
Qed.

Lemma list_const m f g limit : mono m f -> (forall o, g o = f o) ->
  forall n1 n2 off, (length m - off < n1)%nat -> (length m - off < n2)%nat ->
  list_fetch n1 f limit off = list_fetch n2 g limit off.
Proof. intros Hm Hg n1 n2 off H1 H2. unfold list_fetch. rewrite (while_const m f g limit Hm Hg n1 n2 off) by assumption. reflexivity. Qed.

Lemma while_mono m f limit : mono m f -> forall n off vs o, while_fetch n f limit off = Ok (vs, o) -> (off <= o)%nat.
Proof.
  intros Hm n. induction n as [|n IH]; intros off vs o; cbn [while_fetch]; destruct (off <? limit)%nat; try discriminate;
    try (intros E; injection E as <- <-; lia).
  destruct (f off) as [[v o1]|e] eqn:Ef; [|discriminate]. cbn [bind]. intros E.
  destruct (while_fetch n f limit o1) as [[vs' o2]|e] eqn:Ew; [|discriminate]. cbn [bind] in E. injection E as <- <-.
  apply IH in Ew. destruct (Hm _ _ _ Ef). lia.
Qed.

Lemma list_mono m f limit : mono m f -> forall n off vs o, list_fetch n f limit off = Ok (vs, o) -> (off <= o)%nat.
Proof.
  intros Hm n off vs o E. unfold list_fetch in E. destruct (while_fetch n f limit off) as [[vs' o']|e] eqn:Ew; [|discriminate].
  cbn [bind] in E. unfold assert_ in E. destruct (o' =? limit)%nat; [|discriminate]. cbn [bind] in E. injection E as <- <-.
  eapply while_mono; eassumption.
Qed.

(** Unfold one read of the goal's parser. *)
Ltac read :=
  match goal with
  | |- context [unp ?f ?m ?off] =>
      let fs := eval vm_compute in (match fmt f with Ok l => l | _ => [] end) in
      let R := fresh "R" in let L := fresh "L" in
      destruct (unp_cases f fs m off eq_refl) as [R|[R L]]; rewrite R; clear R; [|cbn [calcsize item_size Nat.add] in L; cbn [decode calcsize item_size]]; cbn [bind]
  | H : context [unp ?f ?m ?off] |- _ =>
      let fs := eval vm_compute in (match fmt f with Ok l => l | _ => [] end) in
      let R := fresh "R" in let L := fresh "L" in
      destruct (unp_cases f fs m off eq_refl) as [R|[R L]]; rewrite R in H; clear R; [|cbn [calcsize item_size Nat.add] in L; cbn [decode calcsize item_size] in H]; cbn [bind] in H
  end.

Lemma fixed_mono cls f fs m : fmt f = Ok fs -> (0 < calcsize fs)%nat -> mono m (fixed cls f m).
Proof.
  intros Hf Hc off v o E. unfold fixed in E. destruct (unp_cases f fs m off Hf) as [R|[R L]]; rewrite R in E; [discriminate|].
  cbn [bind] in E. injection E as <- <-. lia.
Qed.

Ltac fm := eapply fixed_mono; [vm_compute; reflexivity | cbn; lia].

Lemma action_mono m : mono m (p_action m).
Proof.
  intros off v o E. unfold p_action, p_action_header, fixed in E. read; [discriminate|].
  set (ty := of_be (firstn 2 (skipn off m))) in E. clearbody ty.
  destruct (ty =? 0); [unfold p_action_output, fixed in E; read; [discriminate|]; injection E as _ <-; lia|].
  destruct (ty =? 22); [unfold p_action_group, fixed in E; read; [discriminate|]; injection E as _ <-; lia|].
  destruct (ty =? 21); [unfold p_action_set_queue, fixed in E; read; [discriminate|]; injection E as _ <-; lia|].
  destruct (ty =? 15); [discriminate|].
  destruct (ty =? 23); [unfold p_action_nw_ttl, fixed in E; read; [discriminate|]; injection E as _ <-; lia|].
  destruct (py_inz (VInt ty) [17; 19; 26]); [unfold p_action_push, fixed in E; read; [discriminate|]; injection E as _ <-; lia|].
  destruct (ty =? 20); [unfold p_action_pop_mpls, fixed in E; read; [discriminate|]; injection E as _ <-; lia|].
  destruct (ty =? 25); [unfold p_action_set_field in E; read; [discriminate|]; injection E as _ <-; lia|].
  destruct (ty =? 65535); [unfold p_action_experimenter in E; read; [discriminate|]; injection E as _ <-; lia|].
  injection E as _ <-. lia.
Qed.

Lemma instruction_mono n m : mono m (p_instruction n m).
Proof.
  intros off v o E. unfold p_instruction, p_instruction_header, fixed in E. read; [discriminate|].
  set (ty := of_be (firstn 2 (skipn off m))) in E. clearbody ty.
  destruct (ty =? 1); [unfold p_instruction_goto_table, fixed in E; read; [discriminate|]; injection E as _ <-; lia|].
  destruct (ty =? 2); [unfold p_instruction_write_metadata, fixed in E; read; [discriminate|]; injection E as _ <-; lia|].
  destruct (py_inz (VInt ty) [3; 4; 5]).
  { unfold p_instruction_actions in E. read; [discriminate|]. apply bind_ok in E. destruct E as ([acts o'] & E1 & E2).
    injection E2 as _ <-. apply (list_mono m) in E1; [lia | apply action_mono]. }
  destruct (ty =? 6); [unfold p_instruction_meter, fixed in E; read; [discriminate|]; injection E as _ <-; lia|].
  destruct (ty =? 65535); [unfold p_instruction_experimenter in E; read; [discriminate|]; injection E as _ <-; lia|].
  discriminate.
Qed.

Lemma instruction_const m n1 n2 : (length m < n1)%nat -> (length m < n2)%nat -> forall off, p_instruction n1 m off = p_instruction n2 m off.
Proof.
  intros H1 H2 off. unfold p_instruction, p_instruction_actions.
  destruct (p_instruction_header m off) as [[h o]|e]; [|reflexivity]. cbn [bind].
  destruct h as [| | | | |c l]; try reflexivity. destruct l as [|[|ty| | | |] [|x [|? ?]]]; try reflexivity.
  destruct (ty =? 1); [reflexivity|]. destruct (ty =? 2); [reflexivity|].
  destruct (py_inz (VInt ty) [3; 4; 5]); [|reflexivity].
  read; [reflexivity|]. erewrite (list_const m (p_action m) (p_action m) _ (action_mono m) (fun _ => eq_refl) n1 n2) by lia. reflexivity.
Qed.

Lemma bucket_mono n m : mono m (p_bucket n m).
Proof.
  intros off v o E. unfold p_bucket in E. read; [discriminate|]. apply bind_ok in E. destruct E as ([acts o'] & E1 & E2).
  injection E2 as _ <-. apply (while_mono m) in E1; [lia | apply action_mono].
Qed.

Lemma bucket_const m n1 n2 : (length m < n1)%nat -> (length m < n2)%nat -> forall off, p_bucket n1 m off = p_bucket n2 m off.
Proof.
  intros H1 H2 off. unfold p_bucket. read; [reflexivity|].
  erewrite (while_const m (p_action m) (p_action m) _ (action_mono m) (fun _ => eq_refl) n1 n2) by lia. reflexivity.
Qed.

Lemma band_mono m : mono m (p_meter_band m).
Proof.
  intros off v o E. unfold p_meter_band, p_meter_band_header, fixed in E. read; [discriminate|].
  set (ty := of_be (firstn 2 (skipn off m))) in E. clearbody ty.
  destruct (ty =? 1); [unfold p_meter_band_drop, fixed in E; read; [discriminate|]; injection E as _ <-; lia|].
  destruct (ty =? 2); [unfold p_meter_band_dscp_remark, fixed in E; read; [discriminate|]; injection E as _ <-; lia|].
  destruct (ty =? 65535); [|discriminate].
  unfold p_meter_band_experimenter in E. apply bind_ok in E. destruct E as (vs & E1 & E2).
  destruct vs as [|? [|[] ?]]; try discriminate. injection E2 as _ <-. lia.
Qed.

Lemma port_mono m : mono m (p_port m).
Proof.
  intros off v o E. unfold p_port in E. read; [discriminate|]. apply bind_ok in E. destruct E as (t & _ & E). injection E as _ <-. lia.
Qed.

Lemma queue_mono m : mono m (p_packet_queue m).
Proof.
  intros off v o E. unfold p_packet_queue in E. read; [discriminate|]. cbv zeta in E.
  match type of E with (if ?b then _ else _) = _ => destruct b end.
  - unfold p_queue_prop_header, fixed in E. read; discriminate.
  - apply bind_ok in E. destruct E as (u & _ & E). injection E as _ <-. lia.
Qed.

Lemma hello_mono m : mono m (p_hello_elem m).
Proof.
  intros off v o E. unfold p_hello_elem, p_hello_elem_header, fixed in E. read; [discriminate|].
  match type of E with (if ?b then _ else _) = _ => destruct b end; [|discriminate].
  unfold p_hello_elem_versionbitmap in E. read; [discriminate|].
  apply bind_ok in E. destruct E as (u & _ & E). cbv zeta in E. apply bind_ok in E. destruct E as ([bm o'] & E1 & E2).
  injection E2 as _ <-. unfold unp_count in E1. cbv zeta in E1. match type of E1 with (if ?b then _ else _) = _ => destruct b end; [discriminate|].
  apply bind_ok in E1. destruct E1 as (x & _ & E1). injection E1 as _ <-. lia.
Qed.

Lemma match_mono m off v o : p_match m off = Ok (v, o) -> (off <= o)%nat.
Proof. intros E. unfold p_match in E. read; [discriminate|]. cbv zeta in E. injection E as _ <-. lia. Qed.

(** Strictly longer than what is read before it. *)
Ltac stat_mono E := read; [discriminate|]; apply bind_ok in E; destruct E as ([? ?] & E1 & E2).

Lemma flow_stats_mono n m : mono m (p_flow_stats n m).
Proof.
  intros off v o E. unfold p_flow_stats in E. read; [discriminate|].
  apply bind_ok in E. destruct E as ([mt o1] & E1 & E). apply bind_ok in E. destruct E as ([l o2] & E2 & E). injection E as _ <-.
  apply match_mono in E1. apply (list_mono m) in E2; [lia | apply instruction_mono].
Qed.

Lemma flow_stats_const m n1 n2 : (length m < n1)%nat -> (length m < n2)%nat -> forall off, p_flow_stats n1 m off = p_flow_stats n2 m off.
Proof.
  intros H1 H2 off. unfold p_flow_stats. read; [reflexivity|].
  match goal with |- context [p_match m ?x] => destruct (p_match m x) as [[mt o]|e]; [|reflexivity] end. cbn [bind].
  erewrite (list_const m (p_instruction n1 m) (p_instruction n2 m) _ (instruction_mono n1 m) (instruction_const m n2 n1 H2 H1) n1 n2) by lia. reflexivity.
Qed.

Lemma group_stats_mono n m : mono m (p_group_stats n m).
Proof.
  intros off v o E. unfold p_group_stats in E. read; [discriminate|].
  apply bind_ok in E. destruct E as ([l o2] & E2 & E). injection E as _ <-.
  apply (list_mono m) in E2; [lia | unfold p_bucket_counter; fm].
Qed.

Lemma group_stats_const m n1 n2 : (length m < n1)%nat -> (length m < n2)%nat -> forall off, p_group_stats n1 m off = p_group_stats n2 m off.
Proof.
  intros H1 H2 off. unfold p_group_stats. read; [reflexivity|].
  erewrite (list_const m (p_bucket_counter m) (p_bucket_counter m) _ _ (fun _ => eq_refl) n1 n2) by lia. reflexivity.
  Unshelve. unfold p_bucket_counter. fm.
Qed.

Lemma group_desc_mono n m : mono m (p_group_desc n m).
Proof.
  intros off v o E. unfold p_group_desc in E. read; [discriminate|].
  apply bind_ok in E. destruct E as ([l o2] & E2 & E). injection E as _ <-.
  apply (list_mono m) in E2; [lia | apply bucket_mono].
Qed.

Lemma group_desc_const m n1 n2 : (length m < n1)%nat -> (length m < n2)%nat -> forall off, p_group_desc n1 m off = p_group_desc n2 m off.
Proof.
  intros H1 H2 off. unfold p_group_desc. read; [reflexivity|].
  erewrite (list_const m (p_bucket n1 m) (p_bucket n2 m) _ (bucket_mono n1 m) (bucket_const m n2 n1 H2 H1) n1 n2) by lia. reflexivity.
Qed.

Lemma meter_stats_mono n m : mono m (p_meter_stats n m).
Proof.
  intros off v o E. unfold p_meter_stats in E. read; [discriminate|].
  apply bind_ok in E. destruct E as ([l o2] & E2 & E). injection E as _ <-.
  apply (list_mono m) in E2; [lia | unfold p_meter_band_stats; fm].
Qed.

Lemma meter_stats_const m n1 n2 : (length m < n1)%nat -> (length m < n2)%nat -> forall off, p_meter_stats n1 m off = p_meter_stats n2 m off.
Proof.
  intros H1 H2 off. unfold p_meter_stats. read; [reflexivity|].
  erewrite (list_const m (p_meter_band_stats m) (p_meter_band_stats m) _ _ (fun _ => eq_refl) n1 n2) by lia. reflexivity.
  Unshelve. unfold p_meter_band_stats. fm.
Qed.

Lemma meter_config_mono n m : mono m (p_meter_config n m).
Proof.
  intros off v o E. unfold p_meter_config in E. read; [discriminate|].
  apply bind_ok in E. destruct E as ([l o2] & E2 & E). injection E as _ <-.
  apply (list_mono m) in E2; [lia | apply band_mono].
Qed.

Lemma meter_config_const m n1 n2 : (length m < n1)%nat -> (length m < n2)%nat -> forall off, p_meter_config n1 m off = p_meter_config n2 m off.
Proof.
  intros H1 H2 off. unfold p_meter_config. read; [reflexivity|].
  erewrite (list_const m (p_meter_band m) (p_meter_band m) _ (band_mono m) (fun _ => eq_refl) n1 n2) by lia. reflexivity.
Qed.

Lemma features_mono m : mono m (p_table_features m).
Proof. intros off v o E. unfold p_table_features in E. read; discriminate. Qed.

(** *** The whole parser does not depend on the fuel above the length *)

Ltac same := cbn [bind]; match goal with |- ?a = ?b => constr_eq a b; reflexivity end.
Ltac branch := match goal with |- (if ?b then _ else _) = _ => destruct b end; try same.
Ltac by_list m := match goal with |- context [unp ?f m ?o] => read; [same|] end.

Lemma hello_const m n1 n2 off : (length m < n1)%nat -> (length m < n2)%nat -> p_hello n1 m off = p_hello n2 m off.
Proof.
  intros H1 H2. unfold p_hello. destruct (p_header m off) as [[[[h ty] len] o]|e]; [|same]. cbn [bind].
  rewrite (list_const m _ _ (off + len) (hello_mono m) (fun _ => eq_refl) n1 n2) by lia. same.
Qed.

Lemma packet_out_const m n1 n2 off : (length m < n1)%nat -> (length m < n2)%nat -> p_packet_out n1 m off = p_packet_out n2 m off.
Proof.
  intros H1 H2. unfold p_packet_out. destruct (p_header m off) as [[[[h ty] len] o]|e]; [|same]. cbn [bind]. read; [same|].
  erewrite (while_const m (p_action m) (p_action m) _ (action_mono m) (fun _ => eq_refl) n1 n2) by lia. same.
Qed.

Lemma flow_mod_const m n1 n2 off : (length m < n1)%nat -> (length m < n2)%nat -> p_flow_mod n1 m off = p_flow_mod n2 m off.
Proof.
  intros H1 H2. unfold p_flow_mod. destruct (p_header m off) as [[[[h ty] len] o]|e]; [|same]. cbn [bind]. read; [same|].
  match goal with |- context [p_match m ?x] => destruct (p_match m x) as [[mt o']|e]; [|same] end. cbn [bind].
  erewrite (list_const m (p_instruction n1 m) (p_instruction n2 m) _ (instruction_mono n1 m) (instruction_const m n2 n1 H2 H1) n1 n2) by lia. same.
Qed.

Lemma group_mod_const m n1 n2 off : (length m < n1)%nat -> (length m < n2)%nat -> p_group_mod n1 m off = p_group_mod n2 m off.
Proof.
  intros H1 H2. unfold p_group_mod. destruct (p_header m off) as [[[[h ty] len] o]|e]; [|same]. cbn [bind]. read; [same|].
  erewrite (while_const m (p_bucket n1 m) (p_bucket n2 m) _ (bucket_mono n1 m) (bucket_const m n2 n1 H2 H1) n1 n2) by lia. same.
Qed.

Lemma meter_mod_const m n1 n2 off : (length m < n1)%nat -> (length m < n2)%nat -> p_meter_mod n1 m off = p_meter_mod n2 m off.
Proof.
  intros H1 H2. unfold p_meter_mod. destruct (p_header m off) as [[[[h ty] len] o]|e]; [|same]. cbn [bind]. read; [same|].
  erewrite (while_const m (p_meter_band m) (p_meter_band m) _ (band_mono m) (fun _ => eq_refl) n1 n2) by lia. same.
Qed.

Lemma queues_const m n1 n2 off : (length m < n1)%nat -> (length m < n2)%nat -> p_queue_get_config_reply n1 m off = p_queue_get_config_reply n2 m off.
Proof.
  intros H1 H2. unfold p_queue_get_config_reply. destruct (p_header m off) as [[[[h ty] len] o]|e]; [|same]. cbn [bind]. read; [same|].
  erewrite (list_const m (p_packet_queue m) (p_packet_queue m) _ (queue_mono m) (fun _ => eq_refl) n1 n2) by lia. same.
Qed.

Lemma request_const m n1 n2 off : (length m < n1)%nat -> (length m < n2)%nat -> p_multipart_request n1 m off = p_multipart_request n2 m off.
Proof.
  intros H1 H2. unfold p_multipart_request. destruct (p_header m off) as [[[[h ty] len] o]|e]; [|same]. cbn [bind]. read; [same|].
  erewrite (while_const m (p_table_features m) (p_table_features m) _ (features_mono m) (fun _ => eq_refl) n1 n2) by lia. same.
Qed.

Lemma aggregate_stats_reply_mono m : mono m (p_aggregate_stats_reply m).
Proof. unfold p_aggregate_stats_reply. fm. Qed.
Lemma table_stats_mono m : mono m (p_table_stats m).
Proof. unfold p_table_stats. fm. Qed.
Lemma port_stats_mono m : mono m (p_port_stats m).
Proof. unfold p_port_stats. fm. Qed.
Lemma queue_stats_mono m : mono m (p_queue_stats m).
Proof. unfold p_queue_stats. fm. Qed.

Lemma reply_const m n1 n2 off : (length m < n1)%nat -> (length m < n2)%nat -> p_multipart_reply n1 m off = p_multipart_reply n2 m off.
Proof.
  intros H1 H2. unfold p_multipart_reply. destruct (p_header m off) as [[[[h ty] len] o]|e]; [|same]. cbn [bind]. read; [same|]. cbv zeta.
  match goal with |- bind ?a _ = bind ?b _ => assert (E : a = b); [|rewrite E; same] end.
  match goal with |- context [list_fetch n1 _ _ ?x] => set (o' := x) end.
  branch. branch.
  { rewrite (list_const m (p_flow_stats n1 m) (p_flow_stats n2 m) (off + len) (flow_stats_mono n1 m) (flow_stats_const m n2 n1 H2 H1) n1 n2) by lia. same. }
  branch. { rewrite (list_const m (p_aggregate_stats_reply m) (p_aggregate_stats_reply m) (off + len) (aggregate_stats_reply_mono m) (fun _ => eq_refl) n1 n2) by lia. same. }
  branch. { rewrite (list_const m (p_table_stats m) (p_table_stats m) (off + len) (table_stats_mono m) (fun _ => eq_refl) n1 n2) by lia. same. }
  branch. { rewrite (list_const m (p_port_stats m) (p_port_stats m) (off + len) (port_stats_mono m) (fun _ => eq_refl) n1 n2) by lia. same. }
  branch. { rewrite (list_const m (p_queue_stats m) (p_queue_stats m) (off + len) (queue_stats_mono m) (fun _ => eq_refl) n1 n2) by lia. same. }
  branch. { rewrite (list_const m (p_group_stats n1 m) (p_group_stats n2 m) (off + len) (group_stats_mono n1 m) (group_stats_const m n2 n1 H2 H1) n1 n2) by lia. same. }
  branch. { rewrite (list_const m (p_group_desc n1 m) (p_group_desc n2 m) (off + len) (group_desc_mono n1 m) (group_desc_const m n2 n1 H2 H1) n1 n2) by lia. same. }
  branch. branch. { rewrite (list_const m (p_meter_stats n1 m) (p_meter_stats n2 m) (off + len) (meter_stats_mono n1 m) (meter_stats_const m n2 n1 H2 H1) n1 n2) by lia. same. }
  branch. { rewrite (list_const m (p_meter_config n1 m) (p_meter_config n2 m) (off + len) (meter_config_mono n1 m) (meter_config_const m n2 n1 H2 H1) n1 n2) by lia. same. }
  branch. branch. { rewrite (list_const m (p_table_features m) (p_table_features m) (off + len) (features_mono m) (fun _ => eq_refl) n1 n2) by lia. same. }
  branch. { rewrite (list_const m (p_port m) (p_port m) (off + len) (port_mono m) (fun _ => eq_refl) n1 n2) by lia. same. }
Qed.

Theorem parse_const m n1 n2 off : (length m < n1)%nat -> (length m < n2)%nat -> parse n1 m off = parse n2 m off.
Proof.
  intros H1 H2. unfold parse.
  rewrite (hello_const m n1 n2), (packet_out_const m n1 n2), (flow_mod_const m n1 n2), (group_mod_const m n1 n2),
    (meter_mod_const m n1 n2), (queues_const m n1 n2), (request_const m n1 n2), (reply_const m n1 n2) by assumption. same.
Qed.

(** *** No loop runs for ever when there is no stuck place *)

Lemma ok_snd {A B} (a c : A) (b d : B) : @Ok (A * B) (a, b) = Ok (c, d) -> b = d.
Proof. intros E. congruence. Qed.

Definition live_on (I : nat -> Prop) (m : bytes) (f : nat -> res (pyval * nat)) : Prop :=
  forall off, I off -> f off <> Err OutOfFuel /\ forall v o, f off = Ok (v, o) -> (off < o)%nat /\ (off < length m)%nat /\ I o.

Notation live := (live_on (fun _ => True)).

Lemma while_live I m f limit : live_on I m f ->
  forall n off, I off -> (length m - off < n)%nat -> while_fetch n f limit off <> Err OutOfFuel.
Proof.
  intros Hf n. induction n as [|n IH]; intros off Hi Hn; [lia|]. cbn [while_fetch].
  destruct (off <? limit)%nat; [|discriminate]. destruct (Hf off Hi) as [F1 F2].
  destruct (f off) as [[v o]|e]; cbn [bind]; [|intros E; apply F1; congruence].
  destruct (F2 v o eq_refl) as (M1 & M2 & M3). specialize (IH o M3 ltac:(lia)).
  destruct (while_fetch n f limit o) as [[vs o']|e]; cbn [bind]; [discriminate|]. intros E. apply IH. congruence.
Qed.

Lemma list_live I m f limit : live_on I m f ->
  forall n off, I off -> (length m - off < n)%nat -> list_fetch n f limit off <> Err OutOfFuel.
Proof.
  intros Hf n off Hi Hn. unfold list_fetch. pose proof (while_live I m f limit Hf n off Hi Hn) as W.
  destruct (while_fetch n f limit off) as [[vs o']|e]; cbn [bind]; [|congruence].
  unfold assert_. destruct (o' =? limit)%nat; discriminate.
Qed.

Lemma fixed_live cls f fs m : fmt f = Ok fs -> (0 < calcsize fs)%nat -> live m (fixed cls f m).
Proof.
  intros Hf Hc off _. unfold fixed. destruct (unp_cases f fs m off Hf) as [R|[R L]]; rewrite R; cbn [bind].
  - split; [discriminate | intros; discriminate].
  - split; [discriminate|]. intros v o E. apply ok_snd in E; subst. repeat split; lia.
Qed.

Lemma fixed_nofuel cls f fs m off : fmt f = Ok fs -> fixed cls f m off <> Err OutOfFuel.
Proof. intros Hf. unfold fixed. destruct (unp_cases f fs m off Hf) as [R|[R L]]; rewrite R; discriminate. Qed.

Ltac fl := eapply fixed_live; [vm_compute; reflexivity | cbn; lia].
Ltac fnf := eapply fixed_nofuel; vm_compute; reflexivity.

(** A [fixed] reader inside a [live] goal. *)
Ltac done_fixed := read; [split; [discriminate | intros; discriminate]|];
  split; [discriminate|]; intros ? ? E; apply ok_snd in E; subst; repeat split; lia.

Lemma skip_skip (a b : nat) (m : bytes) : skipn a (skipn b m) = skipn (b + a) m.
Proof.
  revert m. induction b as [|b IH]; intros m; [reflexivity|]. destruct m as [|x m]; [cbn [skipn Nat.add]; apply skipn_nil|].
  cbn [skipn Nat.add]. apply IH.
Qed.

Lemma second_u16 off (m : bytes) : firstn 2 (skipn 2 (skipn off m)) = firstn 2 (skipn (off + 2) m).
Proof. rewrite skip_skip. reflexivity. Qed.

Lemma read_u8 m off : (off + 1 <= length m)%nat -> of_be (firstn 1 (skipn off m)) = byte_at m off.
Proof.
  intros H. unfold byte_at. rewrite <- (firstn_skipn off m) at 2.
  assert (L : length (firstn off m) = off) by (rewrite firstn_length; lia).
  rewrite app_nth2 by lia. rewrite L, Nat.sub_diag. destruct (skipn off m) as [|a l] eqn:E.
  - assert (length (skipn off m) = 0%nat) by (rewrite E; reflexivity). rewrite skipn_length in *. lia.
  - cbn. lia.
Qed.

(** The announced length of a SET_FIELD or EXPERIMENTER is not zero; it could
    only be negative if the bytes were not bytes. *)
Definition clean (lo : nat) (m : bytes) : Prop := Forall (fun b => 0 <= b < 256) m /\ forall o, (lo <= o)%nat -> ~ stuck_tlv m o.

Lemma byte_at_range m o : Forall (fun b => 0 <= b < 256) m -> 0 <= byte_at m o < 256.
Proof.
  intros H. unfold byte_at. destruct (Nat.lt_ge_cases o (length m)) as [L|L].
  - rewrite Forall_forall in H. apply H. apply nth_In. exact L.
  - rewrite nth_overflow by exact L. lia.
Qed.

Lemma advance lo m off ty : clean lo m -> (lo <= off)%nat -> (off + 4 <= length m)%nat -> ty = u16_at m off -> ty = 25 \/ ty = 65535 ->
  (0 < Z.to_nat (of_be (firstn 2 (skipn 2 (skipn off m)))))%nat.
Proof.
  intros [Hb Hc] Hlo Hl -> Ht. rewrite second_u16, read_u16 by lia.
  assert (N : u16_at m (off + 2) <> 0). { intros E. apply (Hc off Hlo). repeat split; assumption. }
  pose proof (byte_at_range m (off + 2) Hb). pose proof (byte_at_range m (off + 2 + 1) Hb). unfold u16_at in *. lia.
Qed.

Lemma action_live lo m : clean lo m -> live_on (fun o => (lo <= o)%nat) m (p_action m).
Proof.
  intros Hc off Ho. unfold p_action, p_action_header, fixed. read; [split; [discriminate | intros; discriminate]|].
  pose proof (read_u16 m off ltac:(lia)) as Ety. set (ty := of_be (firstn 2 (skipn off m))) in *.
  destruct (ty =? 0); [unfold p_action_output, fixed; done_fixed|].
  destruct (ty =? 22); [unfold p_action_group, fixed; done_fixed|].
  destruct (ty =? 21); [unfold p_action_set_queue, fixed; done_fixed|].
  destruct (ty =? 15); [split; [discriminate | intros; discriminate]|].
  destruct (ty =? 23); [unfold p_action_nw_ttl, fixed; done_fixed|].
  destruct (py_inz (VInt ty) [17; 19; 26]); [unfold p_action_push, fixed; done_fixed|].
  destruct (ty =? 20); [unfold p_action_pop_mpls, fixed; done_fixed|].
  destruct (ty =? 25) eqn:E25.
  { pose proof (advance lo m off ty Hc Ho ltac:(lia) Ety (or_introl (proj1 (Z.eqb_eq _ _) E25))) as A.
    unfold p_action_set_field. read; [split; [discriminate | intros; discriminate]|].
    split; [discriminate|]. intros v o E. apply ok_snd in E; subst. repeat split; lia. }
  destruct (ty =? 65535) eqn:EX.
  { pose proof (advance lo m off ty Hc Ho ltac:(lia) Ety (or_intror (proj1 (Z.eqb_eq _ _) EX))) as A.
    unfold p_action_experimenter. read; [split; [discriminate | intros; discriminate]|].
    split; [discriminate|]. intros v o E. apply ok_snd in E; subst. repeat split; lia. }
  split; [discriminate|]. intros v o E. apply ok_snd in E; subst. repeat split; lia.
Qed.

Ltac nofuel := split; [discriminate | intros; discriminate].

Lemma instruction_live lo m n : clean lo m -> (length m < n)%nat -> live_on (fun o => (lo <= o)%nat) m (p_instruction n m).
Proof.
  intros Hc Hn off Ho. unfold p_instruction, p_instruction_header, fixed. read; [nofuel|].
  pose proof (read_u16 m off ltac:(lia)) as Ety. set (ty := of_be (firstn 2 (skipn off m))) in *.
  destruct (ty =? 1); [unfold p_instruction_goto_table, fixed; done_fixed|].
  destruct (ty =? 2); [unfold p_instruction_write_metadata, fixed; done_fixed|].
  destruct (py_inz (VInt ty) [3; 4; 5]).
  { unfold p_instruction_actions. read; [nofuel|]. cbv zeta.
    match goal with |- context [list_fetch n ?f ?e ?o] => pose proof (list_live _ m f e (action_live lo m Hc) n o ltac:(cbn; lia) ltac:(lia)) as W;
      pose proof (list_mono m f e (action_mono m) n o) as M; destruct (list_fetch n f e o) as [[acts o']|x] end; cbn [bind].
    - split; [discriminate|]. intros v o E. apply ok_snd in E; subst. specialize (M _ _ eq_refl). cbn in M. repeat split; lia.
    - split; [congruence | intros; discriminate]. }
  destruct (ty =? 6); [unfold p_instruction_meter, fixed; done_fixed|].
  destruct (ty =? 65535) eqn:EX; [|nofuel].
  pose proof (advance lo m off ty Hc Ho ltac:(lia) Ety (or_intror (proj1 (Z.eqb_eq _ _) EX))) as A.
  unfold p_instruction_experimenter. read; [nofuel|].
  split; [discriminate|]. intros v o E. apply ok_snd in E; subst. repeat split; lia.
Qed.

(** A loop at the end of an entry. *)
Ltac loop_in ll mm :=
  let W := fresh "W" in let M := fresh "M" in let E := fresh "E" in
  match goal with
  | |- context [list_fetch ?n ?f ?e ?o] =>
      pose proof (list_live _ _ f e ll n o ltac:(first [exact I | cbn; lia]) ltac:(lia)) as W; pose proof (list_mono _ f e mm n o) as M;
      destruct (list_fetch n f e o) as [[? ?]|?]
  | |- context [while_fetch ?n ?f ?e ?o] =>
      pose proof (while_live _ _ f e ll n o ltac:(first [exact I | cbn; lia]) ltac:(lia)) as W; pose proof (while_mono _ f e mm n o) as M;
      destruct (while_fetch n f e o) as [[? ?]|?]
  end; cbn [bind];
  [ split; [discriminate|]; intros ? ? E; apply ok_snd in E; subst; specialize (M _ _ eq_refl); cbn [calcsize item_size Nat.add] in M; repeat split; lia
  | split; [congruence | intros; discriminate] ].

Lemma bucket_live lo m n : clean lo m -> (length m < n)%nat -> live_on (fun o => (lo <= o + 16)%nat) m (p_bucket n m).
Proof. intros Hc Hn off Ho. unfold p_bucket. read; [nofuel|]. loop_in (action_live lo m Hc) (action_mono m). Qed.

Lemma bucket_counter_live m : live m (p_bucket_counter m).
Proof. unfold p_bucket_counter. fl. Qed.
Lemma bucket_counter_mono m : mono m (p_bucket_counter m).
Proof. unfold p_bucket_counter. fm. Qed.
Lemma meter_band_stats_live m : live m (p_meter_band_stats m).
Proof. unfold p_meter_band_stats. fl. Qed.
Lemma meter_band_stats_mono m : mono m (p_meter_band_stats m).
Proof. unfold p_meter_band_stats. fm. Qed.

Lemma group_stats_live m n : (length m < n)%nat -> live m (p_group_stats n m).
Proof. intros Hn off _. unfold p_group_stats. read; [nofuel|]. loop_in (bucket_counter_live m) (bucket_counter_mono m). Qed.

Lemma group_desc_live lo m n : clean lo m -> (length m < n)%nat -> live_on (fun o => (lo <= o + 24)%nat) m (p_group_desc n m).
Proof. intros Hc Hn off Ho. unfold p_group_desc. read; [nofuel|]. loop_in (bucket_live lo m n Hc Hn) (bucket_mono n m). Qed.

Lemma meter_stats_live m n : (length m < n)%nat -> live m (p_meter_stats n m).
Proof. intros Hn off _. unfold p_meter_stats. read; [nofuel|]. loop_in (meter_band_stats_live m) (meter_band_stats_mono m). Qed.

Lemma match_nofuel m off : p_match m off <> Err OutOfFuel.
Proof. unfold p_match. read; discriminate. Qed.

Lemma flow_stats_live lo m n : clean lo m -> (length m < n)%nat -> live_on (fun o => (lo <= o + 48)%nat) m (p_flow_stats n m).
Proof.
  intros Hc Hn off Ho. unfold p_flow_stats. read; [nofuel|].
  match goal with |- context [p_match m ?x] => pose proof (match_nofuel m x) as Nm; pose proof (match_mono m x) as Mm; destruct (p_match m x) as [[mt o1]|e] end;
    cbn [bind]; [|split; [congruence | intros; discriminate]].
  specialize (Mm _ _ eq_refl). cbn [calcsize item_size Nat.add] in Mm. loop_in (instruction_live lo m n Hc Hn) (instruction_mono n m).
Qed.

(** Meter bands: 16 bytes each as long as none is an experimenter's. *)
Lemma band_live (J : nat -> Prop) m : (forall o, J o -> J (o + 16)%nat) -> (forall o, J o -> ~ stuck_band m o) -> live_on J m (p_meter_band m).
Proof.
  intros Hs Hc off Hj. unfold p_meter_band, p_meter_band_header, fixed. read; [nofuel|].
  pose proof (read_u16 m off ltac:(lia)) as Ety. set (ty := of_be (firstn 2 (skipn off m))) in *.
  destruct (ty =? 1).
  { unfold p_meter_band_drop, fixed. read; [nofuel|]. split; [discriminate|]. intros v o E. apply ok_snd in E; subst.
    repeat split; try lia. apply Hs. exact Hj. }
  destruct (ty =? 2).
  { unfold p_meter_band_dscp_remark, fixed. read; [nofuel|]. split; [discriminate|]. intros v o E. apply ok_snd in E; subst.
    repeat split; try lia. apply Hs. exact Hj. }
  destruct (ty =? 65535) eqn:EX; [|nofuel]. exfalso. apply Z.eqb_eq in EX. apply (Hc off Hj). split; [lia | congruence].
Qed.

Lemma meter_config_live lo m n : (forall o, (lo <= o)%nat -> ~ stuck_band m o) -> (length m < n)%nat ->
  live_on (fun o => (lo <= o + 8)%nat) m (p_meter_config n m).
Proof.
  intros Hc Hn off Ho. unfold p_meter_config. read; [nofuel|].
  assert (S : forall o, (lo <= o)%nat -> (lo <= o + 16)%nat) by (intros; lia).
  loop_in (band_live (fun o => (lo <= o)%nat) m S Hc) (band_mono m).
Qed.

Lemma utf8_nofuel b : utf8 b <> Err OutOfFuel.
Proof.
  assert (H : forall n b, (length b <= n)%nat -> utf8 b <> Err OutOfFuel).
  { clear. induction n as [|n IH]; intros b Hb; [destruct b; [discriminate | cbn in Hb; lia]|].
    assert (Hi : forall k l, (length l <= n)%nat -> bind (utf8 l) (fun r => Ok (k :: r)) <> Err OutOfFuel).
    { intros k l Hl. pose proof (IH l Hl). destruct (utf8 l); cbn [bind]; [discriminate | congruence]. }
    destruct b as [|b0 b]; [discriminate|]. cbn [length] in Hb. cbn [utf8].
    repeat match goal with
           | |- (if ?c then _ else _) <> _ => destruct c
           | |- match ?l with [] => _ | _ => _ end <> _ => destruct l; cbn [length] in *
           end; try discriminate; try (apply Hi; cbn [length]; lia). }
  exact (H (length b) b (le_n _)).
Qed.

Lemma port_live m : live m (p_port m).
Proof.
  intros off _. unfold p_port. read; [nofuel|].
  match goal with |- context [utf8 ?b] => pose proof (utf8_nofuel b) as N; destruct (utf8 b) end; cbn [bind].
  - split; [discriminate|]. intros v o E. apply ok_snd in E; subst. repeat split; lia.
  - split; [congruence | intros; discriminate].
Qed.

Lemma queue_live m : live m (p_packet_queue m).
Proof.
  intros off _. unfold p_packet_queue. read; [nofuel|]. cbv zeta.
  match goal with |- context [if ?b then _ else _] => destruct b end.
  - unfold p_queue_prop_header, fixed. read; nofuel.
  - unfold assert_. match goal with |- context [if ?b then _ else _] => destruct b end; cbn [bind]; [|nofuel].
    split; [discriminate|]. intros v o E. apply ok_snd in E; subst. repeat split; lia.
Qed.

Lemma unp_count_nofuel f k m off : unp_count f k m off <> Err OutOfFuel.
Proof. unfold unp_count, unpack_from. destruct (k <? 0); [discriminate|]. cbv zeta. destruct (_ <=? _)%nat; discriminate. Qed.

Lemma hello_live m : live m (p_hello_elem m).
Proof.
  intros off _. unfold p_hello_elem, p_hello_elem_header, fixed. read; [nofuel|].
  match goal with |- context [if ?b then _ else _] => destruct b end; [|nofuel].
  unfold p_hello_elem_versionbitmap. read; [nofuel|]. unfold assert_.
  match goal with |- context [if ?b then _ else _] => destruct b end; cbn [bind]; [|nofuel]. cbv zeta.
  match goal with |- context [unp_count ?f ?k ?mm ?x] => pose proof (unp_count_nofuel f k mm x) as N; destruct (unp_count f k mm x) as [[bm o1]|e] eqn:E1 end;
    cbn [bind]; [|split; [congruence | intros; discriminate]].
  split; [discriminate|]. intros v o E. apply ok_snd in E; subst.
  unfold unp_count in E1. cbv zeta in E1. match type of E1 with (if ?b then _ else _) = _ => destruct b end; [discriminate|].
  apply bind_ok in E1. destruct E1 as (x & _ & E1). injection E1 as _ <-. repeat split; lia.
Qed.

Lemma features_live m : live m (p_table_features m).
Proof. intros off _. unfold p_table_features. read; nofuel. Qed.
Lemma aggregate_live m : live m (p_aggregate_stats_reply m).
Proof. unfold p_aggregate_stats_reply. fl. Qed.
Lemma table_stats_live m : live m (p_table_stats m).
Proof. unfold p_table_stats. fl. Qed.
Lemma port_stats_live m : live m (p_port_stats m).
Proof. unfold p_port_stats. fl. Qed.
Lemma queue_stats_live m : live m (p_queue_stats m).
Proof. unfold p_queue_stats. fl. Qed.

Lemma bind_nofuel {A B} (r : res A) (k : A -> res B) : r <> Err OutOfFuel -> (forall a, r = Ok a -> k a <> Err OutOfFuel) -> bind r k <> Err OutOfFuel.
Proof. intros H1 H2. destruct r as [a|e]; cbn [bind]; [apply H2; reflexivity | congruence]. Qed.

Lemma header_cases m off : p_header m off = Err StructError \/ p_header m off = Err AssertionError \/
  exists h, p_header m off = Ok (h, byte_at m (off + 1), Z.to_nat (u16_at m (off + 2)), (off + 8)%nat) /\ (off + 8 <= length m)%nat.
Proof.
  unfold p_header. read; [left; reflexivity|]. unfold assert_.
  match goal with |- context [if ?b then _ else _] => destruct b end; cbn [bind]; [|right; left; reflexivity].
  right. right. eexists. split; [|lia].
  rewrite !skip_skip, (read_u8 m (off + 1)), read_u16 by lia. replace (off + 1 + 1)%nat with (off + 2)%nat by lia. reflexivity.
Qed.

Ltac nf := match goal with
  | |- bind _ _ <> _ => apply bind_nofuel; [|intros ? ?]
  | |- (let '(_, _) := ?x in _) <> _ => destruct x
  | |- Ok _ <> _ => discriminate
  | |- unp ?f ?m ?o <> _ => read; discriminate
  | |- fixed _ _ _ _ <> _ => fnf
  | |- p_match _ _ <> _ => apply match_nofuel
  end.

Lemma port_nofuel m off : p_port m off <> Err OutOfFuel.
Proof. exact (proj1 (port_live m off I)). Qed.

Lemma simple_nofuel cls f fs m off : fmt f = Ok fs -> simple_message cls f m off <> Err OutOfFuel.
Proof.
  intros Hf. unfold simple_message. destruct (header_cases m off) as [E|[E|(h & E & _)]]; rewrite E; [discriminate..|]. cbn [bind].
  destruct (unp_cases f fs m (off + 8) Hf) as [R|[R L]]; rewrite R; discriminate.
Qed.

Ltac snf := eapply simple_nofuel; vm_compute; reflexivity.
Ltac lnf ll := apply bind_nofuel; [first [refine (list_live _ _ _ _ ll _ _ _ _) | refine (while_live _ _ _ _ ll _ _ _ _)]; first [exact I | cbn [calcsize item_size]; lia] | intros [? ?] _; discriminate].

Theorem parse_terminates m n off : Forall (fun b => 0 <= b < 256) m -> (length m < n)%nat ->
  (forall lo, tlvs_from m off lo -> forall o, (lo <= o)%nat -> ~ stuck_tlv m o) ->
  (byte_at m (off + 1) = 29 -> forall k, ~ stuck_band m (off + 16 + 16 * k)) ->
  (byte_at m (off + 1) = 19 /\ u16_at m (off + 8) = 10 -> forall o, (off + 24 <= o)%nat -> ~ stuck_band m o) ->
  parse n m off <> Err OutOfFuel.
Proof.
  intros Hb Hn Ht Hmm Hmc.
  assert (Hc : forall lo, tlvs_from m off lo -> clean lo m) by (intros lo H; split; [exact Hb | exact (Ht lo H)]).
  clear Ht. unfold tlvs_from in Hc. unfold parse. destruct (header_cases m off) as [E|[E|(h & E & L)]]; rewrite E; [discriminate..|]. cbn [bind].
  set (ty := byte_at m (off + 1)) in *. clearbody ty. set (len := Z.to_nat (u16_at m (off + 2))) in *. clearbody len.
  destruct (ty =? 0). { unfold p_hello. rewrite E. cbn [bind]. lnf (hello_live m). }
  destruct (ty =? 1). { unfold p_error_msg. rewrite E. cbn [bind]. repeat nf. }
  destruct (ty =? 6). { unfold p_switch_features. rewrite E. cbn [bind]. read; discriminate. }
  destruct (py_inz (VInt ty) [9; 8]). { unfold p_switch_config. snf. }
  destruct (ty =? 10). { unfold p_packet_in. rewrite E. cbn [bind]. repeat nf. }
  destruct (ty =? 11). { unfold p_flow_removed. rewrite E. cbn [bind]. repeat nf. }
  destruct (ty =? 12). { unfold p_port_status. rewrite E. cbn [bind]. repeat nf. apply port_nofuel. }
  destruct (ty =? 13) eqn:E13. { apply Z.eqb_eq in E13. unfold p_packet_out. rewrite E. cbn [bind]. read; [discriminate|]. lnf (action_live _ m (Hc (off + 24)%nat ltac:(tauto))). }
  destruct (ty =? 14) eqn:E14. { apply Z.eqb_eq in E14. unfold p_flow_mod. rewrite E. cbn [bind]. read; [discriminate|].
    match goal with |- context [p_match m ?x] => pose proof (match_nofuel m x); pose proof (match_mono m x) as Mm; destruct (p_match m x) as [[mt o]|e] end; cbn [bind]; [|congruence].
    specialize (Mm _ _ eq_refl). cbn [calcsize item_size Nat.add] in Mm. lnf (instruction_live _ m n (Hc (off + 48)%nat ltac:(tauto)) Hn). }
  destruct (ty =? 15) eqn:E15. { apply Z.eqb_eq in E15. unfold p_group_mod. rewrite E. cbn [bind]. read; [discriminate|]. lnf (bucket_live _ m n (Hc (off + 32)%nat ltac:(tauto)) Hn). }
  destruct (ty =? 16). { unfold p_port_mod. rewrite E. cbn [bind]. apply bind_nofuel; [|discriminate].
    unfold unpacks. cbn [bind]. intros F. vm_compute (fmt _) in F. cbn [bind] in F. unfold unpack_from in F. destruct (_ <=? _)%nat in F; discriminate. }
  destruct (ty =? 17). { unfold p_table_mod. snf. }
  destruct (ty =? 18).
  { unfold p_multipart_request. rewrite E. cbn [bind]. read; [discriminate|]. apply bind_nofuel; [|intros [? ?] _; discriminate].
    repeat match goal with |- (if ?b then _ else _) <> _ => destruct b end; try discriminate.
    - unfold p_flow_stats_request, flow_request. repeat nf.
    - unfold p_aggregate_stats_request, flow_request. repeat nf.
    - unfold p_port_stats_request. nf.
    - unfold p_queue_stats_request. nf.
    - unfold p_group_stats_request. nf.
    - unfold p_meter_multipart_request. nf.
    - lnf (features_live m). }
  destruct (ty =? 19) eqn:E19.
  { apply Z.eqb_eq in E19. unfold p_multipart_reply. rewrite E. cbn [bind]. read; [discriminate|]. cbv zeta.
    apply bind_nofuel; [|intros [? ?] _; discriminate].
    rewrite read_u16 by lia. set (mt := u16_at m (off + 8)) in *.
    destruct (mt =? 0). { unfold p_desc. nf. }
    destruct (mt =? 1) eqn:E1. { apply Z.eqb_eq in E1. lnf (flow_stats_live _ m n (Hc (off + 64)%nat ltac:(tauto)) Hn). }
    destruct (mt =? 2). { lnf (aggregate_live m). }
    destruct (mt =? 3). { lnf (table_stats_live m). }
    destruct (mt =? 4). { lnf (port_stats_live m). }
    destruct (mt =? 5). { lnf (queue_stats_live m). }
    destruct (mt =? 6). { lnf (group_stats_live m n Hn). }
    destruct (mt =? 7) eqn:E7. { apply Z.eqb_eq in E7. lnf (group_desc_live _ m n (Hc (off + 40)%nat ltac:(tauto)) Hn). }
    destruct (mt =? 8). { unfold p_group_features. repeat nf. }
    destruct (mt =? 9). { lnf (meter_stats_live m n Hn). }
    destruct (mt =? 10) eqn:E10. { apply Z.eqb_eq in E10. lnf (meter_config_live _ m n (Hmc (conj E19 E10)) Hn). }
    destruct (mt =? 11). { unfold p_meter_features. nf. }
    destruct (mt =? 12). { lnf (features_live m). }
    destruct (mt =? 13). { lnf (port_live m). }
    destruct (mt =? 65535); [|discriminate]. unfold p_experimenter_multipart. repeat nf. }
  destruct (ty =? 4). { unfold p_experimenter. apply bind_nofuel; [unfold p_experimenter_header; snf | discriminate]. }
  destruct (ty =? 22). { unfold p_queue_get_config_request. snf. }
  destruct (ty =? 23). { unfold p_queue_get_config_reply. rewrite E. cbn [bind]. read; [discriminate|]. lnf (queue_live m). }
  destruct (ty =? 24). { unfold p_role_request. snf. }
  destruct (py_inz (VInt ty) [28; 27]). { unfold p_async_config. rewrite E. cbn [bind]. repeat nf. }
  destruct (ty =? 29) eqn:E29.
  { apply Z.eqb_eq in E29. unfold p_meter_mod. rewrite E. cbn [bind]. read; [discriminate|].
    apply bind_nofuel; [|intros [? ?] _; discriminate].
    refine (while_live (fun o => exists k, o = (off + 16 + 16 * k)%nat) m _ _ (band_live _ m _ _) n _ _ _).
    - intros o (k & ->). exists (S k). lia.
    - intros o (k & ->). apply Hmm. exact E29.
    - exists 0%nat. cbn [calcsize item_size]. lia.
    - cbn [calcsize item_size]. lia. }
  unfold p_ofp. rewrite E. discriminate.
Qed.

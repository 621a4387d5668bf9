(** Loops of the OpenFlow 1.4 parser (as P_Term4.v). *)

From Verif Require Import Py Struct P_Struct S_Hello S_Ports P_Hello P_Ports S_Wire4 S_Msg4 M_Build4 M_Parse4 P_Wire4 P_Act4 P_Rebuild4 P_Stat4 P_Msg4 P_MsgParse4 P_Term4.
From Verif Require Import S_Wire5 S_Msg5 M_Build5 M_Parse5 P_Wire5 P_Act5 P_Stat5 P_Msg5 P_MsgParse5 S_Term5.
Local Open Scope Z_scope.
Local Open Scope list_scope.

(** *** A result is never behind the start *)

Lemma action_mono m : mono m (p_action m).
Proof.
  intros off v o E. unfold p_action, p_action_header, fixed in E. read; [discriminate|].
  set (ty := of_be (firstn 2 (skipn off m))) in E. clearbody ty.
  destruct (ty =? 0); [unfold p_action_output, fixed in E; read; [discriminate|]; injection E as _ <-; lia|].
  destruct (ty =? 22); [unfold p_action_group, fixed in E; read; [discriminate|]; injection E as _ <-; lia|].
  destruct (ty =? 21); [unfold p_action_set_queue, fixed in E; read; [discriminate|]; injection E as _ <-; lia|].
  destruct (ty =? 15); [discriminate|].
  destruct (ty =? 23); [unfold p_action_nw_ttl, fixed in E; read; [discriminate|]; injection E as _ <-; lia|].
  destruct (py_inz (VInt ty) [17; 19; 26]); [unfold p_action_push, fixed in E; read; [discriminate|]; injection E as _ <-; lia|].
  destruct (ty =? 20); [unfold p_action_pop_mpls, fixed in E; read; [discriminate|]; injection E as _ <-; lia|].
  destruct (ty =? 25); [unfold p_action_set_field in E; read; [discriminate|]; injection E as _ <-; lia|].
  destruct (ty =? 65535); [unfold p_action_experimenter in E; read; [discriminate|]; injection E as _ <-; lia|].
  destruct (py_inz (VInt ty) _); [|discriminate]. unfold p_action_generic, fixed in E; read; [discriminate|]; injection E as _ <-; lia.
Qed.

Lemma instruction_mono n m : mono m (p_instruction n m).
Proof.
  intros off v o E. unfold p_instruction, p_instruction_header, fixed in E. read; [discriminate|].
  set (ty := of_be (firstn 2 (skipn off m))) in E. clearbody ty.
  destruct (ty =? 1); [unfold p_instruction_goto_table, fixed in E; read; [discriminate|]; injection E as _ <-; lia|].
  destruct (ty =? 2); [unfold p_instruction_write_metadata, fixed in E; read; [discriminate|]; injection E as _ <-; lia|].
  destruct (py_inz (VInt ty) [3; 4; 5]).
  { unfold p_instruction_actions in E. read; [discriminate|]. apply bind_ok in E. destruct E as ([acts o'] & E1 & E2).
    injection E2 as _ <-. apply (list_mono m) in E1; [lia | apply action_mono]. }
  destruct (ty =? 6); [unfold p_instruction_meter, fixed in E; read; [discriminate|]; injection E as _ <-; lia|].
  destruct (ty =? 65535); [unfold p_instruction_experimenter in E; read; [discriminate|]; injection E as _ <-; lia|].
  discriminate.
Qed.

Lemma instruction_const m n1 n2 : (length m < n1)%nat -> (length m < n2)%nat -> forall off, p_instruction n1 m off = p_instruction n2 m off.
Proof.
  intros H1 H2 off. unfold p_instruction, p_instruction_actions.
  destruct (p_instruction_header m off) as [[h o]|e]; [|reflexivity]. cbn [bind].
  destruct h as [| | | | |c l]; try reflexivity. destruct l as [|[|ty| | | |] [|x [|? ?]]]; try reflexivity.
  destruct (ty =? 1); [reflexivity|]. destruct (ty =? 2); [reflexivity|].
  destruct (py_inz (VInt ty) [3; 4; 5]); [|reflexivity].
  read; [reflexivity|]. erewrite (list_const m (p_action m) (p_action m) _ (action_mono m) (fun _ => eq_refl) n1 n2) by lia. reflexivity.
Qed.

Lemma bucket_mono n m : mono m (p_bucket n m).
Proof.
  intros off v o E. unfold p_bucket in E. read; [discriminate|]. apply bind_ok in E. destruct E as ([acts o'] & E1 & E2).
  injection E2 as _ <-. apply (while_mono m) in E1; [lia | apply action_mono].
Qed.

Lemma bucket_const m n1 n2 : (length m < n1)%nat -> (length m < n2)%nat -> forall off, p_bucket n1 m off = p_bucket n2 m off.
Proof.
  intros H1 H2 off. unfold p_bucket. read; [reflexivity|].
  erewrite (while_const m (p_action m) (p_action m) _ (action_mono m) (fun _ => eq_refl) n1 n2) by lia. reflexivity.
Qed.

Lemma band_mono m : mono m (p_meter_band m).
Proof.
  intros off v o E. unfold p_meter_band, p_meter_band_header, fixed in E. read; [discriminate|].
  set (ty := of_be (firstn 2 (skipn off m))) in E. clearbody ty.
  destruct (ty =? 1); [unfold p_meter_band_drop, fixed in E; read; [discriminate|]; injection E as _ <-; lia|].
  destruct (ty =? 2); [unfold p_meter_band_dscp_remark, fixed in E; read; [discriminate|]; injection E as _ <-; lia|].
  destruct (ty =? 65535); [|discriminate].
  unfold p_meter_band_experimenter in E. apply bind_ok in E. destruct E as (vs & E1 & E2).
  destruct vs as [|? [|[] ?]]; try discriminate. injection E2 as _ <-. lia.
Qed.

(** Properties. *)
Lemma prop_type_cases m off : prop_type m off = Err StructError \/ (prop_type m off = Ok (u16_at m off) /\ (off + 4 <= length m)%nat).
Proof.
  unfold prop_type. read; [left; reflexivity|]. right. rewrite read_u16 by lia. split; [reflexivity | lia].
Qed.

Ltac ptype := 
  match goal with
  | H : context [prop_type ?m ?off] |- _ => let R := fresh "R" in let L := fresh "L" in
      destruct (prop_type_cases m off) as [R|[R L]]; rewrite R in H; clear R; cbn [bind] in H
  | |- context [prop_type ?m ?off] => let R := fresh "R" in let L := fresh "L" in
      destruct (prop_type_cases m off) as [R|[R L]]; rewrite R; clear R; cbn [bind]
  end.

Lemma exp_aligned_mono cls m : mono m (exp_prop_aligned cls m).
Proof. intros off v o E. unfold exp_prop_aligned in E. read; [discriminate|]. cbv zeta in E. injection E as _ <-. lia. Qed.
Lemma exp_exact_mono cls m : mono m (exp_prop_exact cls m).
Proof. intros off v o E. unfold exp_prop_exact in E. read; [discriminate|]. cbv zeta in E. injection E as _ <-. lia. Qed.

Ltac pick E := match type of E with (if ?b then _ else _) = _ => destruct b end.

Lemma prop_type_ok m off : (off + 4 <= length m)%nat -> prop_type m off = Ok (u16_at m off).
Proof.
  intros H. unfold prop_type, unp, unpacks, sizes. change (fmt "HH") with (Ok [FU 2; FU 2]). cbn [bind]. unfold unpack_from.
  apply Nat.leb_le in H as H'. change (calcsize [FU 2; FU 2]) with 4%nat. rewrite H'. cbn [bind decode item_size].
  rewrite read_u16 by lia. reflexivity.
Qed.

Lemma table_mod_prop_mono m : mono m (p_table_mod_prop m).
Proof.
  intros off v o E. unfold p_table_mod_prop in E. ptype; [discriminate|].
  pick E; [revert E; apply fixed_mono with (fs := [FU 2; FU 2; FU 4]); [vm_compute; reflexivity | cbn; lia]|].
  pick E; [revert E; eapply fixed_mono; [vm_compute; reflexivity | cbn; lia]|].
  pick E; [revert E; apply exp_aligned_mono | discriminate].
Qed.

Lemma port_stats_prop_mono m : mono m (p_port_stats_prop m).
Proof.
  intros off v o E. unfold p_port_stats_prop in E. ptype; [discriminate|].
  pick E; [revert E; eapply fixed_mono; [vm_compute; reflexivity | cbn; lia]|].
  pick E; [revert E; eapply fixed_mono; [vm_compute; reflexivity | cbn; lia]|].
  pick E; [revert E; apply exp_aligned_mono | discriminate].
Qed.

Lemma queue_stats_prop_mono m : mono m (p_queue_stats_prop m).
Proof.
  intros off v o E. unfold p_queue_stats_prop in E. ptype; [discriminate|].
  pick E; [revert E; apply exp_aligned_mono | discriminate].
Qed.

Lemma queue_desc_prop_mono m : mono m (p_queue_desc_prop m).
Proof.
  intros off v o E. unfold p_queue_desc_prop in E. ptype; [discriminate|].
  pick E; [revert E; eapply fixed_mono; [vm_compute; reflexivity | cbn; lia]|].
  pick E; [revert E; eapply fixed_mono; [vm_compute; reflexivity | cbn; lia]|].
  pick E; [revert E; apply exp_aligned_mono | discriminate].
Qed.

Lemma async_prop_mono m : mono m (p_async_config_prop m).
Proof.
  intros off v o E. unfold p_async_config_prop in E. ptype; [discriminate|].
  pick E; [revert E; eapply fixed_mono; [vm_compute; reflexivity | cbn; lia] | discriminate].
Qed.

Lemma bundle_prop_mono m : mono m (p_bundle_prop m).
Proof. intros off v o E. unfold p_bundle_prop in E. ptype; discriminate. Qed.

Lemma role_prop_mono start m : mono m (p_role_prop start m).
Proof.
  intros off v o E. unfold p_role_prop in E. ptype; [discriminate|]. pick E; [|discriminate].
  apply bind_ok in E. destruct E as (x & _ & E). injection E as _ <-. lia.
Qed.

Lemma port_mono m : mono m (p_port m).
Proof.
  intros off v o E. unfold p_port in E. read; [discriminate|]. pick E; [|discriminate].
  ptype; [discriminate|].
  pick E; [unfold p_port_desc_prop_ethernet, fixed in E; read; [discriminate|]; injection E as _ <-; lia|].
  pick E; [unfold p_port_desc_prop_optical, fixed in E; read; [discriminate|]; injection E as _ <-; lia|].
  pick E; [apply exp_exact_mono in E; lia | discriminate].
Qed.

Lemma hello_mono m : mono m (p_hello_elem m).
Proof.
  intros off v o E. unfold p_hello_elem, p_hello_elem_header, fixed in E. read; [discriminate|].
  match type of E with (if ?b then _ else _) = _ => destruct b end; [|discriminate].
  unfold p_hello_elem_versionbitmap in E. read; [discriminate|].
  apply bind_ok in E. destruct E as (u & _ & E). cbv zeta in E. apply bind_ok in E. destruct E as ([bm o'] & E1 & E2).
  injection E2 as _ <-. unfold unp_count in E1. cbv zeta in E1. match type of E1 with (if ?b then _ else _) = _ => destruct b end; [discriminate|].
  apply bind_ok in E1. destruct E1 as (x & _ & E1). injection E1 as _ <-. lia.
Qed.

Lemma match_mono m off v o : p_match m off = Ok (v, o) -> (off <= o)%nat.
Proof. intros E. unfold p_match in E. read; [discriminate|]. cbv zeta in E. injection E as _ <-. lia. Qed.

Lemma flow_stats_mono n m : mono m (p_flow_stats n m).
Proof.
  intros off v o E. unfold p_flow_stats in E. read; [discriminate|].
  apply bind_ok in E. destruct E as ([mt o1] & E1 & E). apply bind_ok in E. destruct E as ([l o2] & E2 & E). injection E as _ <-.
  apply match_mono in E1. apply (list_mono m) in E2; [lia | apply instruction_mono].
Qed.

Lemma flow_stats_const m n1 n2 : (length m < n1)%nat -> (length m < n2)%nat -> forall off, p_flow_stats n1 m off = p_flow_stats n2 m off.
Proof.
  intros H1 H2 off. unfold p_flow_stats. read; [reflexivity|].
  match goal with |- context [p_match m ?x] => destruct (p_match m x) as [[mt o]|e]; [|reflexivity] end. cbn [bind].
  erewrite (list_const m (p_instruction n1 m) (p_instruction n2 m) _ (instruction_mono n1 m) (instruction_const m n2 n1 H2 H1) n1 n2) by lia. reflexivity.
Qed.

Lemma bucket_counter_mono m : mono m (p_bucket_counter m).
Proof. unfold p_bucket_counter. fm. Qed.
Lemma meter_band_stats_mono m : mono m (p_meter_band_stats m).
Proof. unfold p_meter_band_stats. fm. Qed.

(** An entry that ends in a list. *)
Ltac entry_mono E mm := read; [discriminate|]; apply bind_ok in E; destruct E as ([? ?] & E & E2);
  first [injection E2 as _ <- | discriminate E2]; first [apply (list_mono _ _ _ mm) in E | apply (while_mono _ _ _ mm) in E]; lia.
Ltac entry_const n1 n2 mm cc := read; [reflexivity|];
  first [erewrite (list_const _ _ _ _ mm cc n1 n2) by lia | erewrite (while_const _ _ _ _ mm cc n1 n2) by lia]; reflexivity.

Lemma group_stats_mono n m : mono m (p_group_stats n m).
Proof. intros off v o E. unfold p_group_stats in E. entry_mono E (bucket_counter_mono m). Qed.
Lemma group_stats_const m n1 n2 : (length m < n1)%nat -> (length m < n2)%nat -> forall off, p_group_stats n1 m off = p_group_stats n2 m off.
Proof. intros H1 H2 off. unfold p_group_stats. entry_const n1 n2 (bucket_counter_mono m) (fun o => @eq_refl _ (p_bucket_counter m o)). Qed.

Lemma group_desc_mono n m : mono m (p_group_desc n m).
Proof. intros off v o E. unfold p_group_desc in E. entry_mono E (bucket_mono n m). Qed.
Lemma group_desc_const m n1 n2 : (length m < n1)%nat -> (length m < n2)%nat -> forall off, p_group_desc n1 m off = p_group_desc n2 m off.
Proof. intros H1 H2 off. unfold p_group_desc. entry_const n1 n2 (bucket_mono n1 m) (bucket_const m n2 n1 H2 H1). Qed.

Lemma meter_stats_mono n m : mono m (p_meter_stats n m).
Proof. intros off v o E. unfold p_meter_stats in E. entry_mono E (meter_band_stats_mono m). Qed.
Lemma meter_stats_const m n1 n2 : (length m < n1)%nat -> (length m < n2)%nat -> forall off, p_meter_stats n1 m off = p_meter_stats n2 m off.
Proof. intros H1 H2 off. unfold p_meter_stats. entry_const n1 n2 (meter_band_stats_mono m) (fun o => @eq_refl _ (p_meter_band_stats m o)). Qed.

Lemma meter_config_mono n m : mono m (p_meter_config n m).
Proof. intros off v o E. unfold p_meter_config in E. entry_mono E (band_mono m). Qed.
Lemma meter_config_const m n1 n2 : (length m < n1)%nat -> (length m < n2)%nat -> forall off, p_meter_config n1 m off = p_meter_config n2 m off.
Proof. intros H1 H2 off. unfold p_meter_config. entry_const n1 n2 (band_mono m) (fun o => @eq_refl _ (p_meter_band m o)). Qed.

Lemma port_stats_mono n m : mono m (p_port_stats n m).
Proof. intros off v o E. unfold p_port_stats in E. entry_mono E (port_stats_prop_mono m). Qed.
Lemma port_stats_const m n1 n2 : (length m < n1)%nat -> (length m < n2)%nat -> forall off, p_port_stats n1 m off = p_port_stats n2 m off.
Proof. intros H1 H2 off. unfold p_port_stats. entry_const n1 n2 (port_stats_prop_mono m) (fun o => @eq_refl _ (p_port_stats_prop m o)). Qed.

Lemma queue_stats_mono n m : mono m (p_queue_stats n m).
Proof. intros off v o E. unfold p_queue_stats in E. entry_mono E (queue_stats_prop_mono m). Qed.
Lemma queue_stats_const m n1 n2 : (length m < n1)%nat -> (length m < n2)%nat -> forall off, p_queue_stats n1 m off = p_queue_stats n2 m off.
Proof. intros H1 H2 off. unfold p_queue_stats. entry_const n1 n2 (queue_stats_prop_mono m) (fun o => @eq_refl _ (p_queue_stats_prop m o)). Qed.

Lemma queue_desc_mono n m : mono m (p_queue_desc n m).
Proof. intros off v o E. unfold p_queue_desc in E. entry_mono E (queue_desc_prop_mono m). Qed.
Lemma queue_desc_const m n1 n2 : (length m < n1)%nat -> (length m < n2)%nat -> forall off, p_queue_desc n1 m off = p_queue_desc n2 m off.
Proof. intros H1 H2 off. unfold p_queue_desc. entry_const n1 n2 (queue_desc_prop_mono m) (fun o => @eq_refl _ (p_queue_desc_prop m o)). Qed.

(** *** Table features *)

Lemma list_end n f limit off vs o : list_fetch n f limit off = Ok (vs, o) -> o = limit.
Proof.
  intros E. unfold list_fetch in E. apply bind_ok in E. destruct E as ([l o'] & _ & E). unfold assert_ in E.
  destruct (o' =? limit)%nat eqn:El; [|discriminate]. cbn [bind] in E. injection E as _ <-. apply Nat.eqb_eq. exact El.
Qed.

Lemma align8_le n : (n <= align8 n)%nat.
Proof. rewrite gap_align. lia. Qed.

Lemma instruction_id_live m : live m (p_instruction_id m).
Proof.
  intros off _. unfold p_instruction_id, feature_id. read; [nofuel|]. split; [discriminate|].
  intros v o E. apply ok_snd in E; subst. cbn [Nat.add]. repeat split; lia.
Qed.
Lemma live_mono m f : live m f -> mono m f.
Proof. intros H off v o E. destruct (H off I) as [_ H2]. destruct (H2 _ _ E) as (A & B & _). lia. Qed.

Lemma feature_prop_instructions_live n m : (length m < n)%nat -> live m (p_table_feature_prop_instructions n m).
Proof.
  intros Hn off _. unfold p_table_feature_prop_instructions. read; [nofuel|]. cbv zeta.
  match goal with |- context [list_fetch n ?f ?e ?o] => pose proof (list_live _ m f e (instruction_id_live m) n o I ltac:(lia)) as W;
    pose proof (list_mono m f e (live_mono m f (instruction_id_live m)) n o) as M; pose proof (list_end n f e o) as N; destruct (list_fetch n f e o) as [[acts o']|x] end; cbn [bind].
  - specialize (M _ _ eq_refl). specialize (N _ _ eq_refl). subst o'. cbn [Nat.add] in M.
    split; [discriminate|]. intros v o E. apply ok_snd in E; subst.
    match goal with |- context [align8 ?k] => pose proof (align8_le k) end. repeat split; lia.
  - split; [congruence | intros; discriminate].
Qed.

Lemma feature_prop_instructions_mono n m : mono m (p_table_feature_prop_instructions n m).
Proof.
  intros off v o E. unfold p_table_feature_prop_instructions in E. read; [discriminate|]. cbv zeta in E.
  apply bind_ok in E. destruct E as ([ids o1] & _ & E2). injection E2 as _ <-. lia.
Qed.

Lemma unp_count_end f k m off vs o : unp_count f k m off = Ok (vs, o) -> (off <= o)%nat.
Proof.
  unfold unp_count. destruct (k <? 0); [discriminate|]. cbv zeta. intros E. apply bind_ok in E. destruct E as (x & _ & E).
  injection E as _ <-. lia.
Qed.

Lemma feature_prop_tables_live m : live m (p_table_feature_prop_tables m).
Proof.
  intros off _. unfold p_table_feature_prop_tables. read; [nofuel|]. cbv zeta.
  match goal with |- context [unp_count ?f ?k ?mm ?x] => pose proof (unp_count_nofuel f k mm x) as N; destruct (unp_count f k mm x) as [[ids o1]|e] end;
    cbn [bind]; [|split; [congruence | intros; discriminate]].
  split; [discriminate|]. intros v o E. apply ok_snd in E; subst. cbn [Nat.add]. repeat split; lia.
Qed.

Lemma feature_prop_oxm_live m : live m (p_table_feature_prop_oxm m).
Proof.
  intros off _. unfold p_table_feature_prop_oxm. read; [nofuel|]. cbv zeta.
  match goal with |- context [unp_count ?f ?k ?mm ?x] => pose proof (unp_count_nofuel f k mm x) as N; pose proof (unp_count_end f k mm x) as M; destruct (unp_count f k mm x) as [[ids o1]|e] end;
    cbn [bind]; [|split; [congruence | intros; discriminate]].
  specialize (M _ _ eq_refl). split; [discriminate|]. intros v o E. apply ok_snd in E; subst. cbn [Nat.add] in *. repeat split; lia.
Qed.

Lemma feature_prop_experimenter_live m : live m (p_table_feature_prop_experimenter m).
Proof.
  intros off _. unfold p_table_feature_prop_experimenter. read; [nofuel|]. cbv zeta.
  split; [discriminate|]. intros v o E. apply ok_snd in E; subst. cbn [Nat.add] in *. repeat split; lia.
Qed.

Lemma feature_prop_live n m : (length m < n)%nat -> live m (p_table_feature_prop n m).
Proof.
  intros Hn off _. unfold p_table_feature_prop. ptype; [nofuel|].
  destruct (py_inz _ [0; 1]); [exact (feature_prop_instructions_live n m Hn off I)|].
  destruct (py_inz _ [2; 3; 14]); [exact (feature_prop_tables_live m off I)|].
  destruct (py_inz _ [4; 5; 6; 7]); [unfold p_table_feature_prop_actions; read; nofuel|].
  destruct (py_inz _ [8; 9; 10; 11; 12; 13]); [exact (feature_prop_oxm_live m off I)|].
  destruct (py_inz _ [65534; 65535]); [exact (feature_prop_experimenter_live m off I)|]. nofuel.
Qed.

Lemma feature_prop_mono n m : mono m (p_table_feature_prop n m).
Proof.
  intros off v o E. unfold p_table_feature_prop in E. ptype; [discriminate|].
  pick E; [revert E; apply feature_prop_instructions_mono|].
  pick E; [revert E; apply (live_mono m _ (feature_prop_tables_live m))|].
  pick E; [unfold p_table_feature_prop_actions in E; read; discriminate|].
  pick E; [revert E; apply (live_mono m _ (feature_prop_oxm_live m))|].
  pick E; [revert E; apply (live_mono m _ (feature_prop_experimenter_live m)) | discriminate].
Qed.

Lemma feature_prop_const m n1 n2 : (length m < n1)%nat -> (length m < n2)%nat -> forall off, p_table_feature_prop n1 m off = p_table_feature_prop n2 m off.
Proof.
  intros H1 H2 off. unfold p_table_feature_prop. ptype; [reflexivity|].
  destruct (py_inz _ [0; 1]); [|reflexivity]. unfold p_table_feature_prop_instructions. cbv zeta.
  entry_const n1 n2 (live_mono m _ (instruction_id_live m)) (fun o => @eq_refl _ (p_instruction_id m o)).
Qed.

Lemma features_mono n m : mono m (p_table_features n m).
Proof. intros off v o E. unfold p_table_features in E. entry_mono E (feature_prop_mono n m). Qed.
Lemma features_const m n1 n2 : (length m < n1)%nat -> (length m < n2)%nat -> forall off, p_table_features n1 m off = p_table_features n2 m off.
Proof. intros H1 H2 off. unfold p_table_features. entry_const n1 n2 (feature_prop_mono n1 m) (feature_prop_const m n2 n1 H2 H1). Qed.
Lemma features_live n m : (length m < n)%nat -> live m (p_table_features n m).
Proof. intros Hn off _. unfold p_table_features. read; [nofuel|]. loop_in (feature_prop_live n m Hn) (feature_prop_mono n m). Qed.

(** *** The properties of a port modification *)

Lemma port_mod_experimenter_mono m : mono m (p_port_mod_prop_experimenter m).
Proof. intros off v o E. unfold p_port_mod_prop_experimenter in E. read; [discriminate|]. cbv zeta in E. injection E as _ <-. lia. Qed.

(** A property of another type is met again and again. *)
Lemma port_mod_stuck m limit off : (off < limit)%nat -> (off + 4 <= length m)%nat -> ~ In (u16_at m off) [0; 1; 65535] ->
  forall n, port_mod_props n m limit off = Err OutOfFuel.
Proof.
  intros Hl Hm Hn n. apply Nat.ltb_lt in Hl. induction n as [|n IH]; cbn [port_mod_props]; rewrite Hl; [reflexivity|].
  rewrite prop_type_ok by exact Hm. cbn [bind].
  cbn [In] in Hn. destruct (u16_at m off =? 0) eqn:E0; [apply Z.eqb_eq in E0; lia|].
  destruct (u16_at m off =? 1) eqn:E1; [apply Z.eqb_eq in E1; lia|].
  destruct (u16_at m off =? 65535) eqn:EX; [apply Z.eqb_eq in EX; lia|]. exact IH.
Qed.

(** So is an experimenter property of length zero. *)
Lemma port_mod_stuck_experimenter m limit off v : (off < limit)%nat -> prop_type m off = Ok 65535 -> p_port_mod_prop_experimenter m off = Ok (v, off) ->
  forall n, port_mod_props n m limit off = Err OutOfFuel.
Proof.
  intros Hl Ht He n. apply Nat.ltb_lt in Hl. induction n as [|n IH]; cbn [port_mod_props]; rewrite Hl; [reflexivity|].
  rewrite Ht. cbn [bind]. change (65535 =? 0) with false. change (65535 =? 1) with false. change (65535 =? 65535) with true. cbv iota.
  rewrite He. cbn [bind]. rewrite IH. reflexivity.
Qed.

Lemma port_mod_props_const m limit : forall n1 n2 off, (length m - off < n1)%nat -> (length m - off < n2)%nat ->
  port_mod_props n1 m limit off = port_mod_props n2 m limit off.
Proof.
  intros n1. induction n1 as [|n1 IH]; intros n2 off H1 H2; [lia|]. destruct n2 as [|n2]; [lia|].
  cbn [port_mod_props]. destruct (off <? limit)%nat eqn:El; [|reflexivity]. apply Nat.ltb_lt in El.
  destruct (prop_type_cases m off) as [R|[R L]]; rewrite R; cbn [bind]; [reflexivity|].
  destruct (u16_at m off =? 0) eqn:E0.
  { unfold p_port_mod_prop_ethernet, fixed. read; [reflexivity|]. rewrite (IH n2) by lia. reflexivity. }
  destruct (u16_at m off =? 1) eqn:E1.
  { unfold p_port_mod_prop_optical, fixed. read; [reflexivity|]. rewrite (IH n2) by lia. reflexivity. }
  destruct (u16_at m off =? 65535) eqn:EX.
  { apply Z.eqb_eq in EX. rewrite EX in R. destruct (p_port_mod_prop_experimenter m off) as [[v o]|e] eqn:Ef; [|reflexivity]. cbn [bind].
    destruct (port_mod_experimenter_mono m off v o Ef) as [M1 M2]. assert (C : o = off \/ (off < o)%nat) by lia. destruct C as [->|C].
    - rewrite (port_mod_stuck_experimenter m limit off v El R Ef n1), (port_mod_stuck_experimenter m limit off v El R Ef n2). reflexivity.
    - rewrite (IH n2 o) by lia. reflexivity. }
  rewrite !(port_mod_stuck m limit off El L); [reflexivity | |]; cbn [In]; apply Z.eqb_neq in E0, E1, EX; lia.
Qed.

(** *** The whole parser does not depend on the fuel above the length *)

Ltac mhead := match goal with |- context [p_header ?m ?off] => destruct (p_header m off) as [[[[? ?] ?] ?]|?]; [|same] end; cbn [bind].
Ltac mconst n1 n2 mm cc := first [erewrite (list_const _ _ _ _ mm cc n1 n2) by lia | erewrite (while_const _ _ _ _ mm cc n1 n2) by lia]; same.
Notation refl_of f := (fun o => @eq_refl _ (f o)).

Lemma hello_const m n1 n2 off : (length m < n1)%nat -> (length m < n2)%nat -> p_hello n1 m off = p_hello n2 m off.
Proof. intros H1 H2. unfold p_hello. mhead. mconst n1 n2 (hello_mono m) (refl_of (p_hello_elem m)). Qed.

Lemma packet_out_const m n1 n2 off : (length m < n1)%nat -> (length m < n2)%nat -> p_packet_out n1 m off = p_packet_out n2 m off.
Proof. intros H1 H2. unfold p_packet_out. mhead. read; [same|]. mconst n1 n2 (action_mono m) (refl_of (p_action m)). Qed.

Lemma flow_mod_const m n1 n2 off : (length m < n1)%nat -> (length m < n2)%nat -> p_flow_mod n1 m off = p_flow_mod n2 m off.
Proof.
  intros H1 H2. unfold p_flow_mod. mhead. read; [same|].
  match goal with |- context [p_match m ?x] => destruct (p_match m x) as [[mt o']|e]; [|same] end. cbn [bind].
  mconst n1 n2 (instruction_mono n1 m) (instruction_const m n2 n1 H2 H1).
Qed.

Lemma group_mod_const m n1 n2 off : (length m < n1)%nat -> (length m < n2)%nat -> p_group_mod n1 m off = p_group_mod n2 m off.
Proof. intros H1 H2. unfold p_group_mod. mhead. read; [same|]. mconst n1 n2 (bucket_mono n1 m) (bucket_const m n2 n1 H2 H1). Qed.

Lemma meter_mod_const m n1 n2 off : (length m < n1)%nat -> (length m < n2)%nat -> p_meter_mod n1 m off = p_meter_mod n2 m off.
Proof. intros H1 H2. unfold p_meter_mod. mhead. read; [same|]. mconst n1 n2 (band_mono m) (refl_of (p_meter_band m)). Qed.

Lemma table_mod_const m n1 n2 off : (length m < n1)%nat -> (length m < n2)%nat -> p_table_mod n1 m off = p_table_mod n2 m off.
Proof. intros H1 H2. unfold p_table_mod. mhead. read; [same|]. mconst n1 n2 (table_mod_prop_mono m) (refl_of (p_table_mod_prop m)). Qed.

Lemma port_mod_const m n1 n2 off : (length m < n1)%nat -> (length m < n2)%nat -> p_port_mod n1 m off = p_port_mod n2 m off.
Proof. intros H1 H2. unfold p_port_mod. mhead. read; [same|]. erewrite (port_mod_props_const m _ n1 n2) by lia. same. Qed.

Lemma async_const m n1 n2 off : (length m < n1)%nat -> (length m < n2)%nat -> p_async_config n1 m off = p_async_config n2 m off.
Proof. intros H1 H2. unfold p_async_config. mhead. mconst n1 n2 (async_prop_mono m) (refl_of (p_async_config_prop m)). Qed.

Lemma role_status_const m n1 n2 off : (length m < n1)%nat -> (length m < n2)%nat -> p_role_status n1 m off = p_role_status n2 m off.
Proof. intros H1 H2. unfold p_role_status. mhead. read; [same|]. mconst n1 n2 (role_prop_mono off m) (refl_of (p_role_prop off m)). Qed.

Lemma bundle_ctrl_const m n1 n2 off : (length m < n1)%nat -> (length m < n2)%nat -> p_bundle_ctrl_msg n1 m off = p_bundle_ctrl_msg n2 m off.
Proof. intros H1 H2. unfold p_bundle_ctrl_msg. mhead. read; [same|]. mconst n1 n2 (bundle_prop_mono m) (refl_of (p_bundle_prop m)). Qed.

Lemma request_const m n1 n2 off : (length m < n1)%nat -> (length m < n2)%nat -> p_multipart_request n1 m off = p_multipart_request n2 m off.
Proof.
  intros H1 H2. unfold p_multipart_request. mhead. read; [same|].
  mconst n1 n2 (features_mono n1 m) (features_const m n2 n1 H2 H1).
Qed.

Lemma aggregate_stats_reply_mono m : mono m (p_aggregate_stats_reply m).
Proof. unfold p_aggregate_stats_reply. fm. Qed.
Lemma table_stats_mono m : mono m (p_table_stats m).
Proof. intros off v o E. unfold p_table_stats in E. read; discriminate. Qed.
Lemma table_desc_mono m : mono m (p_table_desc m).
Proof. intros off v o E. unfold p_table_desc in E. read; discriminate. Qed.
Lemma flow_update_mono m : mono m (p_flow_update_header m).
Proof. unfold p_flow_update_header. fm. Qed.

Lemma reply_const m n1 n2 off : (length m < n1)%nat -> (length m < n2)%nat -> p_multipart_reply n1 m off = p_multipart_reply n2 m off.
Proof.
  intros H1 H2. unfold p_multipart_reply. mhead. read; [same|]. cbv zeta.
  match goal with |- bind ?a _ = bind ?b _ => assert (E : a = b); [|rewrite E; same] end.
  match goal with |- context [list_fetch n1 _ _ ?x] => set (o' := x) end.
  branch. branch. { mconst n1 n2 (flow_stats_mono n1 m) (flow_stats_const m n2 n1 H2 H1). }
  branch. { mconst n1 n2 (aggregate_stats_reply_mono m) (refl_of (p_aggregate_stats_reply m)). }
  branch. { mconst n1 n2 (table_stats_mono m) (refl_of (p_table_stats m)). }
  branch. { mconst n1 n2 (port_stats_mono n1 m) (port_stats_const m n2 n1 H2 H1). }
  branch. { mconst n1 n2 (queue_stats_mono n1 m) (queue_stats_const m n2 n1 H2 H1). }
  branch. { mconst n1 n2 (group_stats_mono n1 m) (group_stats_const m n2 n1 H2 H1). }
  branch. { mconst n1 n2 (group_desc_mono n1 m) (group_desc_const m n2 n1 H2 H1). }
  branch. branch. { mconst n1 n2 (meter_stats_mono n1 m) (meter_stats_const m n2 n1 H2 H1). }
  branch. { mconst n1 n2 (meter_config_mono n1 m) (meter_config_const m n2 n1 H2 H1). }
  branch. branch. { mconst n1 n2 (features_mono n1 m) (features_const m n2 n1 H2 H1). }
  branch. { mconst n1 n2 (port_mono m) (refl_of (p_port m)). }
  branch. { mconst n1 n2 (table_desc_mono m) (refl_of (p_table_desc m)). }
  branch. { mconst n1 n2 (queue_desc_mono n1 m) (queue_desc_const m n2 n1 H2 H1). }
  branch. { mconst n1 n2 (flow_update_mono m) (refl_of (p_flow_update_header m)). }
Qed.

Lemma header_cases m off : p_header m off = Err StructError \/ p_header m off = Err AssertionError \/
  exists h, p_header m off = Ok (h, byte_at m (off + 1), Z.to_nat (u16_at m (off + 2)), (off + 8)%nat) /\ (off + 8 <= length m)%nat.
Proof.
  unfold p_header. read; [left; reflexivity|]. unfold assert_.
  match goal with |- context [if ?b then _ else _] => destruct b end; cbn [bind]; [|right; left; reflexivity].
  right. right. eexists. split; [|lia].
  rewrite !skip_skip, (read_u8 m (off + 1)), read_u16 by lia. replace (off + 1 + 1)%nat with (off + 2)%nat by lia. reflexivity.
Qed.

Theorem parse_const m n1 n2 : (length m < n1)%nat -> (length m < n2)%nat -> forall d1 d2 off,
  (length m - off < d1)%nat -> (length m - off < d2)%nat -> parse d1 n1 m off = parse d2 n2 m off.
Proof.
  intros H1 H2 d1. induction d1 as [|d1 IH]; intros d2 off D1 D2; [lia|]. destruct d2 as [|d2]; [lia|]. cbn [parse].
  rewrite (hello_const m n1 n2), (packet_out_const m n1 n2), (flow_mod_const m n1 n2), (group_mod_const m n1 n2), (port_mod_const m n1 n2),
    (table_mod_const m n1 n2), (meter_mod_const m n1 n2), (request_const m n1 n2), (reply_const m n1 n2), (async_const m n1 n2),
    (role_status_const m n1 n2), (bundle_ctrl_const m n1 n2) by assumption.
  destruct (header_cases m off) as [E|[E|(h & E & L)]]; rewrite E; cbn [bind]; [same..|].
  assert (F : p_requestforward (parse d1 n1) m off = p_requestforward (parse d2 n2) m off).
  { unfold p_requestforward. rewrite E. cbn [bind]. rewrite (IH d2) by lia. same. }
  assert (G : p_bundle_add_msg (parse d1 n1) m off = p_bundle_add_msg (parse d2 n2) m off).
  { unfold p_bundle_add_msg. rewrite E. cbn [bind]. read; [cbn [bind]; same|]. rewrite (IH d2) by lia. same. }
  rewrite F, G. same.
Qed.

(** *** No loop runs for ever when there is no stuck place *)

Ltac adv Hc Ho L Ety Hty := 
  match type of Hc with clean ?lo ?m => match type of Ety with ?ty = u16_at m ?off =>
    pose proof (advance lo m off ty Hc Ho ltac:(lia) Ety Hty) end end.

Lemma action_live lo m : clean lo m -> live_on (fun o => (lo <= o)%nat) m (p_action m).
Proof.
  intros Hc off Ho. unfold p_action, p_action_header, fixed. read; [nofuel|].
  pose proof (read_u16 m off ltac:(lia)) as Ety. set (ty := of_be (firstn 2 (skipn off m))) in *.
  destruct (ty =? 0); [unfold p_action_output, fixed; done_fixed|].
  destruct (ty =? 22); [unfold p_action_group, fixed; done_fixed|].
  destruct (ty =? 21); [unfold p_action_set_queue, fixed; done_fixed|].
  destruct (ty =? 15); [split; [discriminate | intros; discriminate]|].
  destruct (ty =? 23); [unfold p_action_nw_ttl, fixed; done_fixed|].
  destruct (py_inz (VInt ty) [17; 19; 26]); [unfold p_action_push, fixed; done_fixed|].
  destruct (ty =? 20); [unfold p_action_pop_mpls, fixed; done_fixed|].
  destruct (ty =? 25) eqn:E25.
  { pose proof (advance lo m off ty Hc Ho ltac:(lia) Ety (or_introl (proj1 (Z.eqb_eq _ _) E25))) as A.
    unfold p_action_set_field. read; [nofuel|].
    split; [discriminate|]. intros v o E. apply ok_snd in E; subst. repeat split; lia. }
  destruct (ty =? 65535) eqn:EX.
  { pose proof (advance lo m off ty Hc Ho ltac:(lia) Ety (or_intror (proj1 (Z.eqb_eq _ _) EX))) as A.
    unfold p_action_experimenter. read; [nofuel|].
    split; [discriminate|]. intros v o E. apply ok_snd in E; subst. repeat split; lia. }
  destruct (py_inz (VInt ty) _); [unfold p_action_generic, fixed; done_fixed | nofuel].
Qed.

Lemma instruction_live lo m n : clean lo m -> (length m < n)%nat -> live_on (fun o => (lo <= o)%nat) m (p_instruction n m).
Proof.
  intros Hc Hn off Ho. unfold p_instruction, p_instruction_header, fixed. read; [nofuel|].
  pose proof (read_u16 m off ltac:(lia)) as Ety. set (ty := of_be (firstn 2 (skipn off m))) in *.
  destruct (ty =? 1); [unfold p_instruction_goto_table, fixed; done_fixed|].
  destruct (ty =? 2); [unfold p_instruction_write_metadata, fixed; done_fixed|].
  destruct (py_inz (VInt ty) [3; 4; 5]).
  { unfold p_instruction_actions. read; [nofuel|]. cbv zeta. loop_in (action_live lo m Hc) (action_mono m). }
  destruct (ty =? 6); [unfold p_instruction_meter, fixed; done_fixed|].
  destruct (ty =? 65535) eqn:EX; [|nofuel].
  pose proof (advance lo m off ty Hc Ho ltac:(lia) Ety (or_intror (proj1 (Z.eqb_eq _ _) EX))) as A.
  unfold p_instruction_experimenter. read; [nofuel|].
  split; [discriminate|]. intros v o E. apply ok_snd in E; subst. repeat split; lia.
Qed.

Lemma bucket_live lo m n : clean lo m -> (length m < n)%nat -> live_on (fun o => (lo <= o + 16)%nat) m (p_bucket n m).
Proof. intros Hc Hn off Ho. unfold p_bucket. read; [nofuel|]. loop_in (action_live lo m Hc) (action_mono m). Qed.

Lemma bucket_counter_live m : live m (p_bucket_counter m).
Proof. unfold p_bucket_counter. fl. Qed.
Lemma meter_band_stats_live m : live m (p_meter_band_stats m).
Proof. unfold p_meter_band_stats. fl. Qed.

Lemma group_stats_live m n : (length m < n)%nat -> live m (p_group_stats n m).
Proof. intros Hn off _. unfold p_group_stats. read; [nofuel|]. loop_in (bucket_counter_live m) (bucket_counter_mono m). Qed.

Lemma group_desc_live lo m n : clean lo m -> (length m < n)%nat -> live_on (fun o => (lo <= o + 24)%nat) m (p_group_desc n m).
Proof. intros Hc Hn off Ho. unfold p_group_desc. read; [nofuel|]. loop_in (bucket_live lo m n Hc Hn) (bucket_mono n m). Qed.

Lemma meter_stats_live m n : (length m < n)%nat -> live m (p_meter_stats n m).
Proof. intros Hn off _. unfold p_meter_stats. read; [nofuel|]. loop_in (meter_band_stats_live m) (meter_band_stats_mono m). Qed.

Lemma match_nofuel m off : p_match m off <> Err OutOfFuel.
Proof. unfold p_match. read; discriminate. Qed.

Lemma flow_stats_live lo m n : clean lo m -> (length m < n)%nat -> live_on (fun o => (lo <= o + 48)%nat) m (p_flow_stats n m).
Proof.
  intros Hc Hn off Ho. unfold p_flow_stats. read; [nofuel|].
  match goal with |- context [p_match m ?x] => pose proof (match_nofuel m x) as Nm; pose proof (match_mono m x) as Mm; destruct (p_match m x) as [[mt o1]|e] end;
    cbn [bind]; [|split; [congruence | intros; discriminate]].
  specialize (Mm _ _ eq_refl). cbn [calcsize item_size Nat.add] in Mm. loop_in (instruction_live lo m n Hc Hn) (instruction_mono n m).
Qed.

Lemma band_live (J : nat -> Prop) m : (forall o, J o -> J (o + 16)%nat) -> (forall o, J o -> ~ stuck_band m o) -> live_on J m (p_meter_band m).
Proof.
  intros Hs Hc off Hj. unfold p_meter_band, p_meter_band_header, fixed. read; [nofuel|].
  pose proof (read_u16 m off ltac:(lia)) as Ety. set (ty := of_be (firstn 2 (skipn off m))) in *.
  destruct (ty =? 1).
  { unfold p_meter_band_drop, fixed. read; [nofuel|]. split; [discriminate|]. intros v o E. apply ok_snd in E; subst.
    repeat split; try lia. apply Hs. exact Hj. }
  destruct (ty =? 2).
  { unfold p_meter_band_dscp_remark, fixed. read; [nofuel|]. split; [discriminate|]. intros v o E. apply ok_snd in E; subst.
    repeat split; try lia. apply Hs. exact Hj. }
  destruct (ty =? 65535) eqn:EX; [|nofuel]. exfalso. apply Z.eqb_eq in EX. apply (Hc off Hj). split; [lia | congruence].
Qed.

Lemma meter_config_live lo m n : (forall o, (lo <= o)%nat -> ~ stuck_band m o) -> (length m < n)%nat ->
  live_on (fun o => (lo <= o + 8)%nat) m (p_meter_config n m).
Proof.
  intros Hc Hn off Ho. unfold p_meter_config. read; [nofuel|].
  assert (S : forall o, (lo <= o)%nat -> (lo <= o + 16)%nat) by (intros; lia).
  loop_in (band_live (fun o => (lo <= o)%nat) m S Hc) (band_mono m).
Qed.

(** Properties. *)
Lemma exp_aligned_live lo cls m off : clean lo m -> (lo <= off)%nat -> u16_at m off = 65535 ->
  exp_prop_aligned cls m off <> Err OutOfFuel /\ forall v o, exp_prop_aligned cls m off = Ok (v, o) -> (off < o)%nat /\ (off < length m)%nat /\ (lo <= o)%nat.
Proof.
  intros Hc Ho Et. unfold exp_prop_aligned. read; [nofuel|]. cbv zeta. split; [discriminate|]. intros v o E. apply ok_snd in E; subst.
  pose proof (advance lo m off _ Hc Ho ltac:(lia) eq_refl (or_intror Et)) as A.
  match goal with |- context [align8 ?k] => pose proof (align8_le k) end. repeat split; lia.
Qed.

Ltac plive Hc Ho := match goal with
  | |- (if ?b then _ else _) <> _ /\ _ => let B := fresh "B" in destruct b eqn:B
  | |- fixed _ _ _ _ <> _ /\ _ => unfold fixed; done_fixed
  | B : (u16_at ?m ?off =? 65535) = true |- exp_prop_aligned _ _ _ <> _ /\ _ => apply Z.eqb_eq in B; exact (exp_aligned_live _ _ _ _ Hc Ho B)
  | |- Err _ <> _ /\ _ => nofuel
  end.

Lemma table_mod_prop_live lo m : clean lo m -> live_on (fun o => (lo <= o)%nat) m (p_table_mod_prop m).
Proof.
  intros Hc off Ho. unfold p_table_mod_prop, p_table_mod_prop_eviction, p_table_mod_prop_vacancy, p_table_mod_prop_experimenter.
  ptype; [nofuel|]. repeat plive Hc Ho.
Qed.
Lemma port_stats_prop_live lo m : clean lo m -> live_on (fun o => (lo <= o)%nat) m (p_port_stats_prop m).
Proof.
  intros Hc off Ho. unfold p_port_stats_prop, p_port_stats_prop_ethernet, p_port_stats_prop_optical, p_port_stats_prop_experimenter.
  ptype; [nofuel|]. repeat plive Hc Ho.
Qed.
Lemma queue_stats_prop_live lo m : clean lo m -> live_on (fun o => (lo <= o)%nat) m (p_queue_stats_prop m).
Proof. intros Hc off Ho. unfold p_queue_stats_prop, p_queue_stats_prop_experimenter. ptype; [nofuel|]. repeat plive Hc Ho. Qed.
Lemma queue_desc_prop_live lo m : clean lo m -> live_on (fun o => (lo <= o)%nat) m (p_queue_desc_prop m).
Proof.
  intros Hc off Ho. unfold p_queue_desc_prop, p_queue_desc_prop_min_rate, p_queue_desc_prop_max_rate, p_queue_desc_prop_experimenter.
  ptype; [nofuel|]. repeat plive Hc Ho.
Qed.
Lemma async_prop_live m : live m (p_async_config_prop m).
Proof. intros off Ho. unfold p_async_config_prop, p_async_config_prop_reasons. ptype; [nofuel|]. repeat plive Ho Ho. Qed.
Lemma bundle_prop_live m : live m (p_bundle_prop m).
Proof. intros off Ho. unfold p_bundle_prop. ptype; nofuel. Qed.

Lemma port_stats_live lo m n : clean lo m -> (length m < n)%nat -> live_on (fun o => (lo <= o + 120)%nat) m (p_port_stats n m).
Proof.
  intros Hc Hn off Ho. unfold p_port_stats. read; [nofuel|]. 
  match goal with |- context [while_fetch n ?f ?e ?o] => pose proof (while_live _ m f e (port_stats_prop_live lo m Hc) n o ltac:(cbn; lia) ltac:(lia)) as W;
    destruct (while_fetch n f e o) as [[? ?]|?] end; cbn [bind]; [nofuel|]. split; [congruence | intros; discriminate].
Qed.
Lemma queue_stats_live lo m n : clean lo m -> (length m < n)%nat -> live_on (fun o => (lo <= o + 48)%nat) m (p_queue_stats n m).
Proof.
  intros Hc Hn off Ho. unfold p_queue_stats. read; [nofuel|]. 
  match goal with |- context [while_fetch n ?f ?e ?o] => pose proof (while_live _ m f e (queue_stats_prop_live lo m Hc) n o ltac:(cbn; lia) ltac:(lia)) as W;
    destruct (while_fetch n f e o) as [[? ?]|?] end; cbn [bind]; [nofuel|]. split; [congruence | intros; discriminate].
Qed.
Lemma queue_desc_live lo m n : clean lo m -> (length m < n)%nat -> live_on (fun o => (lo <= o + 16)%nat) m (p_queue_desc n m).
Proof. intros Hc Hn off Ho. unfold p_queue_desc. read; [nofuel|]. loop_in (queue_desc_prop_live lo m Hc) (queue_desc_prop_mono m). Qed.

(** A port moves on, if only by the length of its first property. *)
Lemma port_live m : live m (p_port m).
Proof.
  intros off _. unfold p_port. read; [nofuel|]. 
  match goal with |- context [(?a <? ?b)%nat] => destruct (a <? b)%nat end; [|nofuel]. ptype; [nofuel|].
  unfold p_port_desc_prop_ethernet, p_port_desc_prop_optical, p_port_desc_prop_experimenter, exp_prop_exact.
  repeat match goal with
    | |- (if ?b then _ else _) <> _ /\ _ => destruct b
    | |- fixed _ _ _ _ <> _ /\ _ => unfold fixed; done_fixed
    | |- Err _ <> _ /\ _ => nofuel
    end.
  done_fixed.
Qed.

Lemma hello_live m : live m (p_hello_elem m).
Proof.
  intros off _. unfold p_hello_elem, p_hello_elem_header, fixed. read; [nofuel|].
  match goal with |- context [if ?b then _ else _] => destruct b end; [|nofuel].
  unfold p_hello_elem_versionbitmap. read; [nofuel|]. unfold assert_.
  match goal with |- context [if ?b then _ else _] => destruct b end; cbn [bind]; [|nofuel]. cbv zeta.
  match goal with |- context [unp_count ?f ?k ?mm ?x] => pose proof (unp_count_nofuel f k mm x) as N; pose proof (unp_count_end f k mm x) as M; destruct (unp_count f k mm x) as [[bm o1]|e] end;
    cbn [bind]; [|split; [congruence | intros; discriminate]].
  specialize (M _ _ eq_refl). split; [discriminate|]. intros v o E. apply ok_snd in E; subst. cbn [Nat.add] in *. repeat split; lia.
Qed.

Lemma aggregate_live m : live m (p_aggregate_stats_reply m).
Proof. unfold p_aggregate_stats_reply. fl. Qed.
Lemma table_stats_live m : live m (p_table_stats m).
Proof. intros off _. unfold p_table_stats. read; nofuel. Qed.
Lemma table_desc_live m : live m (p_table_desc m).
Proof. intros off _. unfold p_table_desc. read; nofuel. Qed.
Lemma flow_update_live m : live m (p_flow_update_header m).
Proof. unfold p_flow_update_header. fl. Qed.

Ltac nf := match goal with
  | |- bind _ _ <> _ => apply bind_nofuel; [|intros ? ?]
  | |- (let '(_, _) := ?x in _) <> _ => destruct x
  | |- Ok _ <> _ => discriminate
  | |- unp ?f ?m ?o <> _ => read; discriminate
  | |- fixed _ _ _ _ <> _ => fnf
  | |- p_match _ _ <> _ => apply match_nofuel
  end.

Lemma simple_nofuel cls f fs m off : fmt f = Ok fs -> simple_message cls f m off <> Err OutOfFuel.
Proof.
  intros Hf. unfold simple_message. destruct (header_cases m off) as [E|[E|(h & E & _)]]; rewrite E; [discriminate..|]. cbn [bind].
  destruct (unp_cases f fs m (off + 8) Hf) as [R|[R L]]; rewrite R; discriminate.
Qed.
Lemma data_nofuel cls f fs m off : fmt f = Ok fs -> data_message cls f m off <> Err OutOfFuel.
Proof.
  intros Hf. unfold data_message. destruct (header_cases m off) as [E|[E|(h & E & _)]]; rewrite E; [discriminate..|]. cbn [bind].
  destruct (unp_cases f fs m (off + 8) Hf) as [R|[R L]]; rewrite R; discriminate.
Qed.
Ltac snf := first [eapply simple_nofuel; vm_compute; reflexivity | eapply data_nofuel; vm_compute; reflexivity].

Theorem parse_terminates m n : Forall (fun b => 0 <= b < 256) m -> (length m < n)%nat -> forall d off, (length m - off < d)%nat ->
  (forall o, holds m off o -> unstuck m o) -> parse d n m off <> Err OutOfFuel.
Proof.
  intros Hb Hn d. induction d as [|d IH]; intros off Hd Hu; [lia|].
  destruct (Hu off (holds_self m off)) as (Ht & Hmm & Hmc & Hpm & Hrs).
  assert (Hc : forall lo, tlvs5_from m off lo -> clean lo m) by (intros lo H; split; [exact Hb | exact (Ht lo H)]).
  clear Ht. unfold tlvs5_from in Hc. cbn [parse]. destruct (header_cases m off) as [E|[E|(h & E & L)]]; rewrite E; [discriminate..|]. cbn [bind].
  pose proof (holds_forward m off) as Hf. pose proof (holds_bundle m off) as Hba.
  set (ty := byte_at m (off + 1)) in *. clearbody ty. set (len := Z.to_nat (u16_at m (off + 2))) in *. clearbody len.
  destruct (ty =? 0). { unfold p_hello. rewrite E. cbn [bind]. lnf (hello_live m). }
  destruct (ty =? 1). { unfold p_error_msg. snf. }
  destruct (ty =? 6). { unfold p_switch_features. rewrite E. cbn [bind]. read; discriminate. }
  destruct (py_inz (VInt ty) [9; 8]). { unfold p_switch_config. snf. }
  destruct (ty =? 10). { unfold p_packet_in. rewrite E. cbn [bind]. repeat nf. }
  destruct (ty =? 11). { unfold p_flow_removed. rewrite E. cbn [bind]. repeat nf. }
  destruct (ty =? 12). { unfold p_port_status. rewrite E. cbn [bind]. repeat nf. exact (proj1 (port_live m _ I)). }
  destruct (ty =? 13) eqn:E13. { apply Z.eqb_eq in E13. unfold p_packet_out. rewrite E. cbn [bind]. read; [discriminate|]. lnf (action_live _ m (Hc (off + 24)%nat ltac:(tauto))). }
  destruct (ty =? 14) eqn:E14. { apply Z.eqb_eq in E14. unfold p_flow_mod. rewrite E. cbn [bind]. read; [discriminate|].
    match goal with |- context [p_match m ?x] => pose proof (match_nofuel m x); pose proof (match_mono m x) as Mm; destruct (p_match m x) as [[mt o]|e] end; cbn [bind]; [|congruence].
    specialize (Mm _ _ eq_refl). cbn [calcsize item_size Nat.add] in Mm. lnf (instruction_live _ m n (Hc (off + 48)%nat ltac:(tauto)) Hn). }
  destruct (ty =? 15) eqn:E15. { apply Z.eqb_eq in E15. unfold p_group_mod. rewrite E. cbn [bind]. read; [discriminate|]. lnf (bucket_live _ m n (Hc (off + 32)%nat ltac:(tauto)) Hn). }
  destruct (ty =? 16) eqn:E16; [apply Z.eqb_eq in E16; contradiction|].
  destruct (ty =? 17) eqn:E17. { apply Z.eqb_eq in E17. unfold p_table_mod. rewrite E. cbn [bind]. read; [discriminate|]. lnf (table_mod_prop_live _ m (Hc (off + 16)%nat ltac:(tauto))). }
  destruct (ty =? 18).
  { unfold p_multipart_request. rewrite E. cbn [bind]. read; [discriminate|]. apply bind_nofuel; [|intros [? ?] _; discriminate].
    repeat match goal with |- (if ?b then _ else _) <> _ => destruct b end; try discriminate.
    - unfold p_flow_stats_request, flow_request. repeat nf.
    - unfold p_aggregate_stats_request, flow_request. repeat nf.
    - unfold p_port_stats_request. nf.
    - unfold p_queue_stats_request. nf.
    - unfold p_group_stats_request. nf.
    - unfold p_queue_desc_request. nf.
    - unfold p_flow_monitor_request. repeat nf.
    - lnf (features_live n m Hn). }
  destruct (ty =? 19) eqn:E19.
  { apply Z.eqb_eq in E19. unfold p_multipart_reply. rewrite E. cbn [bind]. read; [discriminate|]. cbv zeta.
    apply bind_nofuel; [|intros [? ?] _; discriminate].
    rewrite read_u16 by lia. set (mt := u16_at m (off + 8)) in *.
    destruct (mt =? 0). { unfold p_desc. nf. }
    destruct (mt =? 1) eqn:E1. { apply Z.eqb_eq in E1. lnf (flow_stats_live _ m n (Hc (off + 64)%nat ltac:(tauto)) Hn). }
    destruct (mt =? 2). { lnf (aggregate_live m). }
    destruct (mt =? 3). { lnf (table_stats_live m). }
    destruct (mt =? 4) eqn:E4. { apply Z.eqb_eq in E4. lnf (port_stats_live _ m n (Hc (off + 136)%nat ltac:(tauto)) Hn). }
    destruct (mt =? 5) eqn:E5. { apply Z.eqb_eq in E5. lnf (queue_stats_live _ m n (Hc (off + 64)%nat ltac:(tauto)) Hn). }
    destruct (mt =? 6). { lnf (group_stats_live m n Hn). }
    destruct (mt =? 7) eqn:E7. { apply Z.eqb_eq in E7. lnf (group_desc_live _ m n (Hc (off + 40)%nat ltac:(tauto)) Hn). }
    destruct (mt =? 8). { unfold p_group_features. repeat nf. }
    destruct (mt =? 9). { lnf (meter_stats_live m n Hn). }
    destruct (mt =? 10) eqn:E10. { apply Z.eqb_eq in E10. lnf (meter_config_live _ m n (Hmc (conj E19 E10)) Hn). }
    destruct (mt =? 11). { unfold p_meter_features. nf. }
    destruct (mt =? 12). { lnf (features_live n m Hn). }
    destruct (mt =? 13). { lnf (port_live m). }
    destruct (mt =? 14). { lnf (table_desc_live m). }
    destruct (mt =? 15) eqn:EQ. { apply Z.eqb_eq in EQ. lnf (queue_desc_live _ m n (Hc (off + 32)%nat ltac:(tauto)) Hn). }
    destruct (mt =? 16). { lnf (flow_update_live m). }
    destruct (mt =? 65535); [|discriminate]. unfold p_experimenter_multipart. repeat nf. }
  destruct (ty =? 4). { unfold p_experimenter_msg. snf. }
  destruct (py_inz (VInt ty) [28; 27]). { unfold p_async_config. rewrite E. cbn [bind]. lnf (async_prop_live m). }
  destruct (ty =? 29) eqn:E29.
  { apply Z.eqb_eq in E29. unfold p_meter_mod. rewrite E. cbn [bind]. read; [discriminate|].
    apply bind_nofuel; [|intros [? ?] _; discriminate].
    refine (while_live (fun o => exists k, o = (off + 16 + 16 * k)%nat) m _ _ (band_live _ m _ _) n _ _ _).
    - intros o (k & ->). exists (S k). lia.
    - intros o (k & ->). apply Hmm. exact E29.
    - exists 0%nat. cbn [calcsize item_size]. lia.
    - cbn [calcsize item_size]. lia. }
  destruct (ty =? 30) eqn:E30.
  { apply Z.eqb_eq in E30. unfold p_role_status. rewrite E. cbn [bind]. read; [discriminate|].
    apply bind_nofuel; [|intros [? ?] _; discriminate].
    refine (while_live (fun o => o = (off + 8)%nat) m _ _ _ n _ eq_refl ltac:(lia)).
    intros o ->. unfold p_role_prop. ptype; [nofuel|]. destruct (u16_at m (off + 8) =? 65535) eqn:EX; [|nofuel].
    apply Z.eqb_eq in EX. elim (Hrs E30 EX). }
  destruct (ty =? 31). { unfold p_table_status. rewrite E. cbn [bind]. repeat nf. unfold p_table_desc. read; discriminate. }
  destruct (ty =? 32) eqn:E32.
  { apply Z.eqb_eq in E32. unfold p_requestforward. rewrite E. cbn [bind].
    apply bind_nofuel; [apply IH; [lia|] | intros [? ?] _; discriminate]. intros o Ho. apply Hu. apply Hf; assumption. }
  destruct (ty =? 33). { unfold p_bundle_ctrl_msg. rewrite E. cbn [bind]. read; [discriminate|]. lnf (bundle_prop_live m). }
  destruct (ty =? 34) eqn:E34.
  { apply Z.eqb_eq in E34. unfold p_bundle_add_msg. rewrite E. cbn [bind]. read; [discriminate|]. cbn [calcsize item_size Nat.add].
    replace (off + 8 + 8)%nat with (off + 16)%nat by lia.
    apply bind_nofuel; [apply IH; [lia|] | intros [? ?] _; destruct (_ <? _)%nat; discriminate]. intros o Ho. apply Hu. apply Hba; assumption. }
  unfold p_ofp. rewrite E. discriminate.
Qed.

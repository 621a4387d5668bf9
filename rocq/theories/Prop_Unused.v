(** C121: exactly what the parsers take that nothing in the library calls, and
    which exception those raise that never return. *)

From Coq Require Import String List ZArith Lia Bool.
From Verif Require Import Py Struct M_Parse4 M_Parse5 P_Struct P_Fixed S_Accept4 P_Accept4 S_Accept5 P_Accept5 S_Unused P_Unused4 P_Unused5.
Import ListNotations.
Local Open Scope Z_scope.
Local Open Scope list_scope.

(** OpenFlow 1.3: of a property with a list of instructions or of actions only
    one whose list is empty is taken. *)
Theorem C121_of13 : Forall (fun x : _ * _ => takes (fst x) (snd x))
  [ (fun _ => M_Parse4.p_queue_prop_min_rate, queue_rate "ofp_queue_prop_min_rate");
    (fun _ => M_Parse4.p_queue_prop_max_rate, queue_rate "ofp_queue_prop_max_rate");
    (fun _ => M_Parse4.p_queue_prop_experimenter, queue_experimenter);
    (fun _ => M_Parse4.p_oxm_experimenter_header, plain_struct "ofp_oxm_experimenter_header" [N 4; N 4]);
    (fun _ => M_Parse4.p_table_feature_prop_header, plain_struct "ofp_table_feature_prop_header" [N 2; N 2]);
    (fun _ => M_Parse4.p_table_feature_prop_instructions, feature_empty "ofp_table_feature_prop_instructions");
    (fun _ => M_Parse4.p_table_feature_prop_next_tables, feature_next_tables);
    (M_Parse4.p_table_feature_prop_actions, feature_empty "ofp_table_feature_prop_actions");
    (fun _ => M_Parse4.p_table_feature_prop_oxm, feature_oxm);
    (fun _ => M_Parse4.p_table_feature_prop_experimenter, with_data "ofp_table_feature_prop_experimenter" [N 4; N 4] after_fields after_padding) ].
Proof.
  repeat (apply Forall_cons; [cbn [fst snd]|]); [..|apply Forall_nil].
  - apply takes_iff. intros. apply queue_rate_iff. assumption.
  - apply takes_iff. intros. apply queue_rate_iff. assumption.
  - apply takes_iff. intros. apply queue_experimenter_iff. assumption.
  - apply (takes_plain _ "II"). reflexivity.
  - apply (takes_plain _ "HH"). reflexivity.
  - apply takes_iff. intros. apply instructions_iff. assumption.
  - apply takes_iff. intros. apply tables_iff. assumption.
  - intros m off v o Hm. split; [intros n E; exact (proj1 (actions_iff n m off v o Hm) E)|]. intros K. exists 0%nat. intros n _. exact (proj2 (actions_iff n m off v o Hm) K).
  - apply takes_mean. intros m off Hm. apply oxm_mean, Hm.
  - apply takes_mean. intros m off Hm. apply experimenter_mean, Hm.
Qed.
Print Assumptions C121_of13.

(** OpenFlow 1.4. *)
Theorem C121_of14 : Forall (fun x : _ * _ => takes (fst x) (snd x))
  [ (fun _ => p_port_desc_prop_header, plain_struct "ofp_port_desc_prop_header" [N 2; N 2]);
    (fun _ => p_oxm_experimenter_header, plain_struct "ofp_oxm_experimenter_header" [N 4; N 4]);
    (fun _ => p_instruction_experimenter_header, instruction_experimenter_header);
    (fun _ => p_table_mod_prop_header, plain_struct "ofp_table_mod_prop_header" [N 2; N 2]);
    (fun _ => p_port_mod_prop_header, plain_struct "ofp_port_mod_prop_header" [N 2; N 2]);
    (fun _ => p_table_feature_prop_header, plain_struct "ofp_table_feature_prop_header" [N 2; N 2]);
    (fun _ => p_action_id, with_data "ofp_action_id" [] after_fields after_fields);
    (fun _ => p_port_stats_prop_header, plain_struct "ofp_port_stats_prop_header" [N 2; N 2]);
    (fun _ => p_port_stats_prop, port_stats_prop);
    (fun _ => p_queue_stats_prop_header, plain_struct "ofp_queue_stats_prop_header" [N 2; N 2]);
    (fun _ => p_queue_stats_prop, queue_stats_prop);
    (fun _ => p_queue_desc_prop_header, plain_struct "ofp_queue_desc_prop_header" [N 2; N 2]);
    (fun _ => p_meter_multipart_request, plain_struct "ofp_meter_multipart_request" [N 4; G 4]);
    (p_flow_update_full, flow_update_full);
    (fun _ => p_flow_update_abbrev, plain_struct "ofp_flow_update_abbrev" [N 2; N 2; N 4]);
    (fun _ => p_flow_update_paused, flow_update_paused);
    (fun _ => p_role_request, role_request);
    (fun _ => p_bundle_prop_header, plain_struct "ofp_bundle_prop_header" [N 2; N 2]);
    (fun _ => p_bundle_prop_experimenter, with_data "ofp_bundle_prop_experimenter" [N 4; N 4] after_fields at_end);
    (fun _ => p_async_config_prop_header, plain_struct "ofp_async_config_prop_header" [N 2; N 2]);
    (fun _ => p_role_prop_header, plain_struct "ofp_role_prop_header" [N 2; N 2]);
    (fun _ => p_requestforward_header, two_headers);
    (fun _ => p_error_experimenter_msg, error_experimenter) ].
Proof.
  repeat (apply Forall_cons; [cbn [fst snd]|]); [..|apply Forall_nil];
    try (apply (takes_plain _ "HH"); reflexivity); try (apply (takes_plain _ "II"); reflexivity).
  - exact instruction_experimenter_takes.
  - exact action_id_takes.
  - apply takes_mean. intros m off Hm. apply port_stats_prop_mean, Hm.
  - apply takes_mean. intros m off Hm. apply queue_stats_prop_mean, Hm.
  - apply (takes_plain _ "I4x"). reflexivity.
  - exact full_takes.
  - apply (takes_plain _ "HHI"). reflexivity.
  - exact paused_takes.
  - exact role_takes.
  - exact bundle_experimenter_takes.
  - exact forward_takes.
  - exact error_takes.
Qed.
Print Assumptions C121_of14.

(** A property of a role status: that it is one is read from its own place, all
    the rest from where the message starts. *)
Theorem C121_role : forall start, takes (fun _ => p_role_prop start) (role_property start).
Proof. exact role_prop_takes. Qed.
Print Assumptions C121_role.

(** Refuted: a parser whose result has the name of what it parsed.  The updates
    of a flow monitor come back as a request. *)
Theorem C121_update_refuted : forall n m off v o, bytes_ok m -> p_flow_update_full n m off = Ok (v, o) ->
  exists l, v = VTup "ofp_flow_monitor_request" l.
Proof.
  intros n m off v o Hm E. destruct (full_takes m off v o Hm) as [H _]. destruct (H n E) as (len & a & b & c & d & e & f & g & o1 & mt & o2 & is & _ & _ & _ & ->). eauto.
Qed.
Print Assumptions C121_update_refuted.

(** Refuted: the parser of a property with actions ends.  If the first of them
    could be read it never does: the cursor stays where it is. *)
Theorem C121_actions_refuted : forall m off ty len aty o o', bytes_ok m ->
  here m off [N 2; N 2] [ty; VInt len] o -> 4 < len -> here m o [N 2; N 2; G 4] [VInt aty; VInt 4] o' -> aty <> 65535 ->
  forall n, M_Parse4.p_table_feature_prop_actions n m off = Err OutOfFuel.
Proof.
  intros m off ty len aty o o' Hm H L Ha Na n. unfold M_Parse4.p_table_feature_prop_actions. rewrite (proj2 (unp_here "HH" [N 2; N 2] m off _ o Hm eq_refl) H). cbn [bind]. cbv zeta.
  assert (E : M_Parse4.p_action_id m o = Ok (VTup "ofp_action_header" [VInt aty; VInt 4], o)).
  { unfold M_Parse4.p_action_id. change (M_Parse4.p_action_header m o) with (fixed "ofp_action_header" "HH4x" m o). rewrite (proj2 (fixed_iff m Hm "ofp_action_header" "HH4x" [N 2; N 2; G 4] o (VTup "ofp_action_header" [VInt aty; VInt 4]) o' eq_refl)); [|eexists; split; [exact Ha|reflexivity]].
    cbn [bind]. rewrite (proj2 (Z.eqb_neq _ _) Na). reflexivity. }
  apply here_end in H. cbn in H. rewrite (actions_forever m (off + Z.to_nat len) o n _ _ ltac:(lia) E). reflexivity.
Qed.
Print Assumptions C121_actions_refuted.

(** Parsers that never return, and what they raise: struct.error if bytes are
    missing, or else always the same. *)
Theorem C121_raise : Forall (fun x : _ * _ * _ => raises (fst (fst x)) (snd (fst x)) (snd x))
  [ (M_Parse4.p_table_features, 64%nat, NameError);
    (p_experimenter_structure, 8%nat, NameError);
    (p_table_stats, 24%nat, TypeError);
    (p_table_desc, 8%nat, NameError);
    (p_table_feature_prop_actions, 4%nat, TypeError);
    (p_bundle_prop, 4%nat, NameError);
    (p_async_config_prop_experimenter, 12%nat, NameError) ].
Proof.
  repeat (apply Forall_cons; [cbn [fst snd]|]); [..|apply Forall_nil].
  - apply (raises_unp "HB5x32sQQII" [N 2; N 1; G 5; T 32; N 8; N 8; N 4; N 4]). reflexivity.
  - apply (raises_unp "II" [N 4; N 4]). reflexivity.
  - apply (raises_unp "B3xIQQ" [N 1; G 3; N 4; N 8; N 8]). reflexivity.
  - apply (raises_unp "HBxI" [N 2; N 1; G 1; N 4]). reflexivity.
  - apply (raises_unp "HH" [N 2; N 2]). reflexivity.
  - exact bundle_raises.
  - apply (raises_unp "HHII" [N 2; N 2; N 4; N 4]). reflexivity.
Qed.
Print Assumptions C121_raise.

(** Statistics of ports and of queues, OpenFlow 1.4: never returned.  If they
    could be read, with every property, the exception is a TypeError, which no
    other statistics raise. *)
Theorem C121_statistics : forall m off, bytes_ok m ->
  (forall n, exists e, p_port_stats n m off = Err e /\ In e [StructError; ValueError; TypeError; OutOfFuel] /\
     (e = TypeError -> readable port_stats_fields (port_stats_prop m) m off)) /\
  (readable port_stats_fields (port_stats_prop m) m off -> exists k, forall n, (k <= n)%nat -> p_port_stats n m off = Err TypeError) /\
  (forall n, exists e, p_queue_stats n m off = Err e /\ In e [StructError; ValueError; TypeError; OutOfFuel] /\
     (e = TypeError -> readable queue_stats_fields (queue_stats_prop m) m off)) /\
  (readable queue_stats_fields (queue_stats_prop m) m off -> exists k, forall n, (k <= n)%nat -> p_queue_stats n m off = Err TypeError).
Proof.
  intros m off Hm.
  destruct (stats_raise "H2xIII12Q2I" (tl port_stats_fields) p_port_stats_prop port_stats_prop m off Hm eq_refl (fun o => port_stats_prop_mean m o Hm) (port_prop_exc m)) as [A B].
  destruct (stats_raise "H6xII3QII" (tl queue_stats_fields) p_queue_stats_prop queue_stats_prop m off Hm eq_refl (fun o => queue_stats_prop_mean m o Hm) (queue_prop_exc m)) as [C D].
  split; [exact A|]. split; [exact B|]. split; [exact C|exact D].
Qed.
Print Assumptions C121_statistics.

(** OpenFlow 1.3: a modification of a port and an experimenter's message, whose
    headers are fine. *)
Theorem C121_message13 : forall m off ty len h, bytes_ok m -> S_Accept4.header m off ty len h ->
  ((off + 32 <= length m)%nat -> M_Parse4.p_port_mod m off = Err ValueError) /\
  ((length m < off + 32)%nat -> M_Parse4.p_port_mod m off = Err StructError) /\
  ((off + 16 <= length m)%nat -> M_Parse4.p_experimenter m off = Err NameError) /\
  ((length m < off + 16)%nat -> M_Parse4.p_experimenter m off = Err StructError).
Proof.
  intros m off ty len h Hm Hh.
  assert (E : M_Parse4.p_header m off = Ok (h, ty, Z.to_nat len, (off + 8)%nat)) by (apply (P_Accept4.header_iff m Hm); eauto).
  unfold M_Parse4.p_port_mod, M_Parse4.p_experimenter, M_Parse4.p_experimenter_header, M_Parse4.simple_message. rewrite E. cbn [bind].
  unfold unpacks, unpack_from. change (fmt "I4x6s2xIII4x") with (Ok (map item [N 4; G 4; T 6; G 2; N 4; N 4; N 4; G 4])). cbn [bind]. change (calcsize _) with 32%nat.
  split; [|split; [|split]]; intros L.
  - rewrite (proj2 (Nat.leb_le _ _) L). reflexivity.
  - rewrite (proj2 (Nat.leb_gt _ _) L). reflexivity.
  - destruct (unp_some "II" [N 4; N 4] m (off + 8) eq_refl ltac:(cbn; lia)) as (vs & ->). reflexivity.
  - rewrite (unp_short "II" [N 4; N 4] m (off + 8) eq_refl ltac:(cbn; lia)). reflexivity.
Qed.
Print Assumptions C121_message13.

(** An update with one instruction (goto table 3); a word that is not zero is
    refused. *)
Definition update (z : Z) : bytes :=
  [0; 40; 0; 0; 1; 2; 0; 5; 0; 6; 0; 7] ++ be 4 z ++ be 8 99 ++ [0; 1; 0; 4; 0; 0; 0; 0] ++ [0; 1; 0; 8; 3; 0; 0; 0].
Example C121_update_example :
  p_flow_update_full 9 (update 0) 0 = Ok (VTup "ofp_flow_monitor_request" [VInt 40; VInt 0; VInt 1; VInt 2; VInt 5; VInt 6; VInt 7; VInt 99;
    VTup "ofp_match" [VInt 1; VInt 4; VBytes []]; VList [VTup "ofp_instruction_goto_table" [VInt 1; VInt 8; VInt 3]]], 40%nat) /\
  p_flow_update_full 9 (update 1) 0 = Err AssertionError.
Proof. split; reflexivity. Qed.

(** A property of actions with one action that never ends. *)
Example C121_actions_example : forall n,
  M_Parse4.p_table_feature_prop_actions n ([0; 4; 0; 8] ++ [0; 0; 0; 4] ++ [0; 0; 0; 0]) 0 = Err OutOfFuel.
Proof.
  apply (C121_actions_refuted _ 0 (VInt 4) 8 0 4 12); [repeat constructor; lia| |lia| |lia].
  - refine (proj1 (unp_here "HH" [N 2; N 2] _ 0 _ _ _ eq_refl) _); [repeat constructor; lia|reflexivity].
  - refine (proj1 (unp_here "HH4x" [N 2; N 2; G 4] _ 4 _ _ _ eq_refl) _); [repeat constructor; lia|reflexivity].
Qed.

(** Statistics of a port with one property. *)
Definition stats : bytes := be 2 160 ++ repeat 0 118 ++ [0; 0; 0; 40; 0; 0; 0; 0] ++ repeat 1 32.
Example C121_statistics_example : readable port_stats_fields (port_stats_prop stats) stats 0 /\ p_port_stats 5 stats 0 = Err TypeError /\
  p_port_stats 5 (firstn 150 stats) 0 = Err StructError.
Proof.
  assert (E : p_port_stats 5 stats 0 = Err TypeError) by reflexivity. split; [|split; [exact E|reflexivity]].
  destruct (C121_statistics stats 0 ltac:(repeat constructor; lia)) as [A _]. destruct (A 5%nat) as (e & K & _ & H). apply H. congruence.
Qed.

(** The header of a 1.3 message. *)
Example C121_message13_example : S_Accept4.header ([4; 16; 0; 40; 0; 0; 0; 1] ++ repeat 0 32) 0 16 40 (VTup "ofp_header" [VInt 4; VInt 16; VInt 40; VInt 1]) /\
  M_Parse4.p_port_mod ([4; 16; 0; 40; 0; 0; 0; 1] ++ repeat 0 32) 0 = Err ValueError.
Proof.
  split; [|reflexivity]. exists 1, 8%nat. split; [|reflexivity].
  refine (proj1 (unp_here "BBHI" [N 1; N 1; N 2; N 4] _ 0 _ _ _ eq_refl) _); [repeat constructor; lia|reflexivity].
Qed.

(** Properties taken: those of actions in 1.4 leave the data unread; the tables
    of 1.3 begin with the type of the property. *)
Example C121_taken_example :
  p_action_id [0; 0; 0; 6; 7; 8] 0 = Ok (VTup "ofp_action_id" [VInt 0; VInt 6; VBytes [7; 8]], 4%nat) /\
  M_Parse4.p_table_feature_prop_next_tables [0; 2; 0; 6; 7; 8; 0; 0] 0 = Ok (VTup "ofp_table_feature_prop_next_tables" [VInt 2; VInt 6; VTup "tuple" [VInt 0; VInt 2]], 6%nat) /\
  M_Parse4.p_table_feature_prop_instructions [0; 0; 0; 8; 0; 1; 0; 4] 0 = Err TypeError /\
  p_role_request ([5; 24; 0; 24; 0; 0; 0; 1] ++ be 4 2 ++ be 4 0 ++ be 8 77) 0 = Ok (VTup "ofp_role_request" [VTup "ofp_header" [VInt 5; VInt 24; VInt 24; VInt 1]; VInt 2; VInt 77], 24%nat).
Proof. repeat split; reflexivity. Qed.

Example C121_role_example :
  p_role_prop 0 ([5; 30; 0; 14; 0; 0; 0; 1] ++ be 4 2 ++ [255; 255; 0; 12]) 12 =
    Ok (VTup "ofp_role_prop_experimenter" [VInt 1310; VInt 14; VInt 1; VInt 2; VBytes ([5; 30; 0; 14; 0; 0; 0; 1] ++ be 4 2 ++ [255; 255])], 12%nat).
Proof. reflexivity. Qed.

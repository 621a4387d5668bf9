(** Properties C40 - C42: actions, instructions and matches of OpenFlow 1.3. *)

From Verif Require Import Py Struct P_Struct S_Hello S_Ports S_Wire4 M_Build4 M_Parse4 P_Wire4 P_Act4 P_Rebuild4.
From Verif Require Import P_Bad4.
Local Open Scope Z_scope.
Local Open Scope list_scope.

(** ** C40: actions *)

(** Any sequence of actions, each written as an object or as bytes, is built
    into the TLVs of the specification, one after the other ([acts_wire]); every
    TLV takes a multiple of eight bytes and announces its size. *)
Theorem C40_actions_built : forall dx d v l,
  acts_arg v l -> Forall act_ok l -> (1 <= d)%nat ->
  seqarg (obj dx d) v = Ok (acts_wire l) /\
  Forall (fun a => (length (act_wire a) mod 8 = 0)%nat /\ (8 <= length (act_wire a))%nat /\
                   u16_at (act_wire a) 2 = Z.of_nat (length (act_wire a))) l.
Proof.
  intros dx d v l Hv Hl Hd. split; [apply acts_build; assumption|].
  revert Hl. apply Forall_impl. intros a [Hf _]. pose proof (act_len a) as [H1 H2]. split; [exact H2|]. split; [exact H1|].
  apply act_announces. exact Hf.
Qed.
Print Assumptions C40_actions_built.

(** They are parsed back wherever they stand - except SET_MPLS_TTL, and with
    payloads filled up with their padding. *)
Theorem C40_actions_parsed_partial : forall m n off l,
  at_ m off (acts_wire l) -> Forall act_ok l -> Forall not_mpls_ttl l -> (length m <= n)%nat ->
  list_fetch n (p_action m) (off + length (acts_wire l)) off =
  Ok (map (fun a => act_view (act_padded a)) l, (off + length (acts_wire l))%nat).
Proof. intros. apply acts_list; auto. Qed.
Print Assumptions C40_actions_parsed_partial.

(** The round trip proper, for payloads that need no padding. *)
Theorem C40_round_trip_partial : forall dx d l,
  Forall act_ok l -> Forall not_mpls_ttl l -> Forall act_aligned l -> (1 <= d)%nat ->
  exists b, seqarg (obj dx d) (VList (map act_view l)) = Ok b /\
  forall pre post n, (length (pre ++ b ++ post) <= n)%nat ->
    list_fetch n (p_action (pre ++ b ++ post)) (length pre + length b) (length pre) =
    Ok (map act_view l, (length pre + length b)%nat).
Proof.
  intros dx d l Hl Hm Ha Hd. exists (acts_wire l). split.
  - rewrite <- (aligned_parsed l Ha). apply acts_rebuild; assumption.
  - intros pre post n Hn. rewrite (acts_list _ n _ l); try assumption; try reflexivity.
    + pose proof (aligned_parsed l Ha) as E. injection E as ->. reflexivity.
    + exists pre, post. split; reflexivity.
Qed.
Print Assumptions C40_round_trip_partial.

(** What was parsed builds the same bytes, whatever the payloads. *)
Theorem C40_rebuild : forall dx d l,
  Forall act_ok l -> (1 <= d)%nat ->
  seqarg (obj dx d) (VList (map (fun a => act_view (act_padded a)) l)) = Ok (acts_wire l).
Proof. intros. apply acts_rebuild; assumption. Qed.
Print Assumptions C40_rebuild.

(** Refuted for every set-field payload that is not a multiple of eight with
    its header: it comes back with zeros added; *)
Theorem C40_padding_refuted : forall m off f,
  at_ m off (act_wire (AcSetField f)) -> act_ok (AcSetField f) -> ((4 + length f) mod 8 <> 0)%nat ->
  exists x z o, p_action m off = Ok (VTup "ofp_action_set_field" [VInt 25; x; VBytes (f ++ z)], o) /\
    z <> [] /\ Forall (fun b => b = 0) z /\ (length (act_wire (AcSetField f)) = 4 + length f + length z)%nat.
Proof. exact set_field_padded. Qed.
Print Assumptions C40_padding_refuted.

(** ... and likewise the data of an experimenter action. *)
Theorem C40_experimenter_padding_refuted : forall m off e d,
  at_ m off (act_wire (AcExperimenter e d)) -> act_ok (AcExperimenter e d) -> (length d mod 8 <> 0)%nat ->
  exists x z o, p_action m off = Ok (VTup "ofp_action_experimenter_" [VInt 65535; x; VInt e; VBytes (d ++ z)], o) /\
    z <> [] /\ Forall (fun b => b = 0) z /\ (length (act_wire (AcExperimenter e d)) = 8 + length d + length z)%nat.
Proof. exact experimenter_padded. Qed.
Print Assumptions C40_experimenter_padding_refuted.

Example C40_padding_example :
  exists f b, act_ok (AcSetField f) /\
    obj 0 1 (VTup "ofp_action_set_field" [VNone; VNone; VBytes f]) = Ok b /\
    p_action b 0 = Ok (VTup "ofp_action_set_field" [VInt 25; VInt 16; VBytes (f ++ [0; 0; 0; 0])], 16%nat).
Proof.
  exists [128; 0; 6; 2; 1; 2; 8; 9], [0; 25; 0; 16; 128; 0; 6; 2; 1; 2; 8; 9; 0; 0; 0; 0].
  split; [|split; vm_compute; reflexivity].
  split; [|exact I]. repeat constructor; cbn; lia.
Qed.

(** Refuted: no SET_MPLS_TTL action is ever parsed. *)
Theorem C40_mpls_ttl_refuted : forall m off ttl,
  0 <= ttl < 256 -> at_ m off (act_wire (AcMplsTtl ttl)) -> p_action m off = Err NameError.
Proof. exact mpls_ttl_parse. Qed.
Print Assumptions C40_mpls_ttl_refuted.

(** ... nor is any list of actions with one in it, wherever it stands there:
    the list is parsed if and only if there is none. *)
Theorem C40_mpls_ttl_list_refuted : forall m n off l,
  at_ m off (acts_wire l) -> Forall act_ok l -> (length m <= n)%nat -> ~ Forall not_mpls_ttl l ->
  list_fetch n (p_action m) (off + length (acts_wire l)) off = Err NameError.
Proof. intros m n off l Hat Hl Hn Hm. exact (acts_bad m n off l Hat Hl Hm Hn). Qed.
Print Assumptions C40_mpls_ttl_list_refuted.

Example C40_mpls_ttl_example :
  let l := [AcOutput 7 128; AcMplsTtl 63; AcGroup 3] in
  Forall act_ok l /\ ~ Forall not_mpls_ttl l /\
  list_fetch 40 (p_action (acts_wire l)) (length (acts_wire l)) 0 = Err NameError.
Proof.
  cbv zeta. split; [repeat constructor; cbn; try lia; tauto|]. split; [|vm_compute; reflexivity].
  intros F. exact (Forall_inv (Forall_inv_tail F)).
Qed.

Example C40_example :
  let l := [AcOutput 7 128; AcGroup 3; AcPush 17 33024; AcSetField [128; 0; 0; 4; 0; 0; 0; 9; 1; 2; 3; 4];
            AcExperimenter 8992 [1; 2; 3; 4; 5; 6; 7; 8]; AcPlain 18; AcNwTtl 64] in
  Forall act_ok l /\ Forall not_mpls_ttl l /\ Forall act_aligned l /\
  seqarg (obj 0 1) (VList (map act_view l)) = Ok (acts_wire l) /\ length (acts_wire l) = 80%nat.
Proof.
  cbv zeta. split; [|split; [|split; [|split]]].
  - repeat constructor; cbn; try lia; tauto.
  - repeat constructor.
  - repeat constructor.
  - vm_compute. reflexivity.
  - vm_compute. reflexivity.
Qed.

(** ** C41: instructions *)

Theorem C41_instructions_built : forall dx d v l,
  insts_arg v l -> Forall inst_ok l -> (2 <= d)%nat -> seqarg (obj dx d) v = Ok (insts_wire l).
Proof. exact insts_build. Qed.
Print Assumptions C41_instructions_built.

(** Parsed wherever they stand; missing: SET_MPLS_TTL inside, and payloads of
    the actions inside come back padded. *)
Theorem C41_instructions_parsed_partial : forall m n off l,
  at_ m off (insts_wire l) -> Forall inst_ok l -> Forall inst_parsable l -> (length m <= n)%nat ->
  list_fetch n (p_instruction n m) (off + length (insts_wire l)) off =
  Ok (map inst_parsed l, (off + length (insts_wire l))%nat).
Proof. intros. apply insts_list; auto. Qed.
Print Assumptions C41_instructions_parsed_partial.

(** The round trip proper: objects without padded payloads inside. *)
Theorem C41_round_trip_partial : forall dx d l,
  Forall inst_ok l -> Forall inst_parsable l -> Forall inst_aligned l -> (2 <= d)%nat ->
  exists b, seqarg (obj dx d) (VList (map inst_view l)) = Ok b /\
  forall pre post n, (length (pre ++ b ++ post) <= n)%nat ->
    list_fetch n (p_instruction n (pre ++ b ++ post)) (length pre + length b) (length pre) =
    Ok (map inst_view l, (length pre + length b)%nat).
Proof.
  intros dx d l Hl Hp Ha Hd. exists (insts_wire l).
  assert (E : map inst_parsed l = map inst_view l).
  { clear Hl Hp. induction Ha as [|i l Hi Ha IH]; [reflexivity|]. cbn [map]. rewrite IH, (inst_view_parsed i Hi). reflexivity. }
  split.
  - rewrite <- E. apply insts_rebuild; assumption.
  - intros pre post n Hn. rewrite (insts_list _ n _ l); try assumption; try reflexivity.
    + rewrite E. reflexivity.
    + exists pre, post. split; reflexivity.
Qed.
Print Assumptions C41_round_trip_partial.

Theorem C41_rebuild : forall dx d l,
  Forall inst_ok l -> (2 <= d)%nat -> seqarg (obj dx d) (VList (map inst_parsed l)) = Ok (insts_wire l).
Proof. exact insts_rebuild. Qed.
Print Assumptions C41_rebuild.

(** Refuted with SET_MPLS_TTL inside: any such list raises. *)
Theorem C41_mpls_ttl_refuted : forall m n off l,
  at_ m off (insts_wire l) -> Forall inst_ok l -> (length m <= n)%nat -> ~ Forall inst_parsable l ->
  list_fetch n (p_instruction n m) (off + length (insts_wire l)) off = Err NameError.
Proof. intros m n off l Hat Hl Hn Hm. exact (insts_bad m n off l _ Hat Hl Hm eq_refl Hn). Qed.
Print Assumptions C41_mpls_ttl_refuted.

Example C41_mpls_ttl_example :
  exists b, obj 0 2 (VTup "ofp_instruction_actions" [VInt 4; VNone; VList [VTup "ofp_action_mpls_ttl" [VNone; VNone; VInt 63]]]) = Ok b /\
  forall n, p_instruction (S n) b 0 = Err NameError.
Proof. eexists. split; [vm_compute; reflexivity|]. intros n. reflexivity. Qed.

(** The instruction types without a class (clear-actions has one) and deprecated
    ones are refused. *)
Theorem C41_unknown_type : forall m n off ty rest,
  at_ m off (be 2 ty ++ rest) -> (2 <= length rest)%nat -> 0 <= ty < 65536 -> ~ In ty [1; 2; 3; 4; 5; 6; 65535] ->
  p_instruction n m off = Err ValueError.
Proof. exact inst_unknown. Qed.
Print Assumptions C41_unknown_type.

Example C41_example :
  let l := [InMeter 4; InMetadata 1 255; InActions 4 [AcSetField [128; 0; 0; 4; 0; 0; 0; 9; 1; 2; 3; 4]; AcOutput 2 0];
            InExperimenter 9 [1; 2; 3]; InActions 5 []; InGoto 7] in
  Forall inst_ok l /\ Forall inst_parsable l /\ Forall inst_aligned l /\
  seqarg (obj 0 2) (VList (map inst_view l)) = Ok (insts_wire l) /\
  list_fetch 200 (p_instruction 200 (insts_wire l)) (length (insts_wire l)) 0 = Ok (map inst_view l, length (insts_wire l)).
Proof.
  cbv zeta. split; [|split; [|split; [|split]]].
  - solve_ok.
  - repeat constructor.
  - repeat constructor.
  - vm_compute. reflexivity.
  - vm_compute. reflexivity.
Qed.

(** ** C42: matches *)

(** Built from any sequence of OXM strings: type, length without the padding,
    the bytes, zeros up to a multiple of eight. *)
Theorem C42_match_built : forall dx d t ty len v oxm,
  opt_arg 1 t ty -> oxm_arg v oxm -> 0 <= ty < 65536 -> zlen oxm <= 65531 ->
  exists b pad, obj dx (S d) (VTup "ofp_match" [t; len; v]) = Ok b /\
    b = be 2 ty ++ be 2 (4 + zlen oxm) ++ oxm ++ zeros pad /\
    (pad < 8)%nat /\ (length b mod 8 = 0)%nat.
Proof.
  intros dx d t ty len v oxm Ht Hv Hty Hl.
  exists (match_wire (Match ty oxm)), (gap (4 + length oxm)). split; [|split; [|split]].
  - apply (match_build dx (S d)); [constructor; assumption | | lia].
    cbn [match_fields]. unfold zlen in *. repeat constructor; cbn; lia.
  - unfold match_wire, match_fields, enc. cbn [map enc1 concat]. rewrite !app_nil_r. reflexivity.
  - apply gap_lt.
  - apply match_len.
Qed.
Print Assumptions C42_match_built.

(** Longer ones are refused. *)
Theorem C42_match_too_long : forall dx d t ty len v oxm,
  opt_arg 1 t ty -> oxm_arg v oxm -> 65531 < zlen oxm ->
  obj dx (S d) (VTup "ofp_match" [t; len; v]) = Err StructError.
Proof. exact match_long. Qed.
Print Assumptions C42_match_too_long.

(** Parsed wherever the match stands, the bytes unchanged. *)
Theorem C42_match_parsed : forall pre post ty oxm pad,
  0 <= ty < 65536 -> zlen oxm <= 65531 -> (pad < 8)%nat -> ((4 + length oxm + pad) mod 8 = 0)%nat ->
  p_match (pre ++ (be 2 ty ++ be 2 (4 + zlen oxm) ++ oxm ++ zeros pad) ++ post) (length pre) =
  Ok (VTup "ofp_match" [VInt ty; VInt (4 + zlen oxm); VBytes oxm], (length pre + (4 + length oxm + pad))%nat).
Proof.
  intros pre post ty oxm pad Hty Hl Hp Hm.
  assert (Ep : pad = gap (4 + length oxm)) by (apply gap_unique; assumption). subst pad.
  assert (Ew : be 2 ty ++ be 2 (4 + zlen oxm) ++ oxm ++ zeros (gap (4 + length oxm)) = match_wire (Match ty oxm)).
  { unfold match_wire, match_fields, enc. cbn [map enc1 concat]. rewrite !app_nil_r. reflexivity. }
  rewrite Ew. rewrite (match_parse _ _ (Match ty oxm)).
  - cbn [match_view]. do 2 f_equal. unfold match_wire. rewrite enc_length. cbn [match_fields flen fld_len]. lia.
  - exists pre, post. split; reflexivity.
  - cbn [match_fields]. unfold zlen in *. repeat constructor; cbn; lia.
Qed.
Print Assumptions C42_match_parsed.

Theorem C42_rebuild : forall dx d m,
  fits (match_fields m) -> obj dx (S d) (match_view m) = Ok (match_wire m).
Proof. intros. apply match_build; [apply match_view_arg | assumption | lia]. Qed.
Print Assumptions C42_rebuild.

Example C42_example :
  let oxm := [128; 0; 0; 4; 0; 0; 0; 9; 128; 0; 10; 2; 8; 0] in
  obj 0 1 (VTup "ofp_match" [VNone; VNone; VList [VBytes (firstn 8 oxm); VBytes (skipn 8 oxm)]]) =
    Ok ([0; 1; 0; 18] ++ oxm ++ [0; 0; 0; 0; 0; 0]) /\
  p_match ([7; 7] ++ ([0; 1; 0; 18] ++ oxm ++ [0; 0; 0; 0; 0; 0]) ++ [9]) 2 =
    Ok (VTup "ofp_match" [VInt 1; VInt 18; VBytes oxm], 26%nat).
Proof. vm_compute. auto. Qed.

(** OpenFlow 1.4 messages with trailing properties, and loops of its parser. *)

From Verif Require Import Py Struct P_Struct S_Hello S_Ports P_Hello P_Ports S_Wire4 S_Msg4 M_Build4 M_Parse4 P_Wire4 P_Act4 P_Rebuild4 P_Stat4 P_Msg4 P_MsgParse4 P_MsgRebuild4 P_Term4 P_MsgBad4.
From Verif Require Import S_Wire5 S_Msg5 S_Term5 S_Rebuild5 M_Build5 M_Parse5 P_Wire5 P_Act5 P_Stat5 P_Msg5 P_MsgParse5 P_Rebuild5 P_Term5 P_MsgBad5 P_Status5.
Local Open Scope Z_scope.
Local Open Scope list_scope.

(** *** Bundles *)

Lemma bundle_properties d n bs off xid b t f props :
  at_ bs off (msg 5 33 xid (enc [U 4 b; U 2 t; U 2 f; R props])) -> u32 xid -> zlen props <= 65519 -> (4 <= length props)%nat ->
  parse (S d) (S n) bs off = Err NameError.
Proof.
  intros Hat Hx Hl Hp. set (bd := enc [U 4 b; U 2 t; U 2 f; R props]) in *.
  assert (L : length bd = (8 + length props)%nat) by (unfold bd; rewrite enc_length; cbn [flen fld_len]; lia).
  destruct (p_header_ok bs off 33 xid bd Hat ltac:(unfold u8; lia) Hx ltac:(unfold zlen in *; lia)) as [Hh Hb].
  by_type Hh. change (p_bundle_ctrl_msg (S n) bs off = Err NameError). unfold p_bundle_ctrl_msg. rewrite Hh. cbn [bind].
  pose proof (at_length _ _ _ Hb) as Lb.
  rewrite (unp_ok "IHH" [FU 4; FU 2; FU 2] bs (off + 8) eq_refl) by (cbn [calcsize item_size]; lia). cbn [bind].
  change (calcsize [FU 4; FU 2; FU 2]) with 8%nat. cbn [while_fetch].
  assert (Hlt : (off + 8 + 8 <? off + (8 + length bd))%nat = true) by (apply Nat.ltb_lt; lia). rewrite Hlt.
  unfold p_bundle_prop. rewrite prop_type_ok by lia. reflexivity.
Qed.

(** The message added is followed by properties. *)
Lemma bundle_add_properties d n bs off xid b f x k props :
  at_ bs off (msg 5 34 xid (enc [U 4 b; P 2; U 2 f; R (mwire x k); R props])) -> u32 xid -> zlen (mwire x k) + zlen props <= 65519 -> props <> [] ->
  msg_ok k -> msg_parsable k -> u32 x -> (length bs <= n)%nat -> (mdepth k <= d)%nat ->
  parse (S d) n bs off = Err TypeError.
Proof.
  intros Hat Hx Hl Hp Hok Hpk Hux Hn Hd. set (bd := enc [U 4 b; P 2; U 2 f; R (mwire x k); R props]) in *.
  assert (L : length bd = (8 + length (mwire x k) + length props)%nat) by (unfold bd; rewrite enc_length; cbn [flen fld_len]; lia).
  destruct (p_header_ok bs off 34 xid bd Hat ltac:(unfold u8; lia) Hx ltac:(unfold zlen in *; lia)) as [Hh Hb].
  by_type Hh. change (p_bundle_add_msg (parse d n) bs off = Err TypeError). unfold p_bundle_add_msg. rewrite Hh. cbn [bind].
  pose proof (at_length _ _ _ Hb) as Lb.
  rewrite (unp_ok "I2xH" [FU 4; FX 2; FU 2] bs (off + 8) eq_refl) by (cbn [calcsize item_size]; lia). cbn [bind].
  change (calcsize [FU 4; FX 2; FU 2]) with 8%nat.
  assert (Hk : at_ bs (off + 8 + 8) (mwire x k)).
  { unfold bd in Hb. change [U 4 b; P 2; U 2 f; R (mwire x k); R props] with ([U 4 b; P 2; U 2 f] ++ [R (mwire x k); R props]) in Hb.
    rewrite enc_app in Hb. apply at_app in Hb. destruct Hb as [_ Hb]. rewrite enc_length in Hb. cbn [flen fld_len] in Hb.
    rewrite enc_cons in Hb. apply at_app in Hb. apply Hb. }
  rewrite (msg_parse k x d n bs _ Hk Hok Hpk Hux Hn Hd). cbn [bind].
  assert (Hlt : (off + 8 + 8 + length (mwire x k) <? off + (8 + length bd))%nat = true).
  { apply Nat.ltb_lt. destruct props; [contradiction|]. cbn [length] in L. lia. }
  rewrite Hlt. reflexivity.
Qed.

(** *** Loops *)

Lemma loop_after {A} (w : A -> bytes) (view : A -> pyval) f bs limit l :
  (forall x o, In x l -> at_ bs o (w x) -> f o = Ok (view x, (o + length (w x))%nat)) ->
  forall off, at_ bs off (concat (map w l)) -> (off + length (concat (map w l)) < limit)%nat ->
  (forall n, while_fetch n f limit (off + length (concat (map w l))) = Err OutOfFuel) ->
  forall n, while_fetch n f limit off = Err OutOfFuel.
Proof.
  induction l as [|x l IH]; intros Hf off Hat Hl Hs n; cbn [map concat] in *.
  - cbn [length] in Hs. rewrite Nat.add_0_r in Hs. apply Hs.
  - apply at_app in Hat. destruct Hat as [H1 H2]. rewrite app_length in *.
    assert (Hlt : (off <? limit)%nat = true) by (apply Nat.ltb_lt; lia).
    destruct n as [|n]; cbn [while_fetch]; rewrite Hlt; [reflexivity|]. rewrite (Hf x off (or_introl eq_refl) H1). cbn [bind].
    rewrite (IH (fun y o Hy => Hf y o (or_intror Hy)) _ H2); [reflexivity | lia | intros k; rewrite <- Nat.add_assoc; apply Hs].
Qed.

Lemma zero_action_stuck m off ty rest : at_ m off (be 2 ty ++ [0; 0] ++ rest) -> (4 <= length rest)%nat -> ty = 25 \/ ty = 65535 ->
  exists v, p_action m off = Ok (v, off).
Proof.
  intros Hat Hr Hty. assert (L := at_length _ _ _ Hat). rewrite !app_length, be_length in L. cbn [length] in L.
  assert (S0 : firstn 2 (skipn off m) = be 2 ty).
  { destruct Hat as (pre & post & -> & ->). rewrite skipn_app_l by reflexivity. rewrite <- !app_assoc. apply firstn_app_l. apply be_length. }
  assert (S1 : firstn 2 (skipn 2 (skipn off m)) = [0; 0]).
  { destruct Hat as (pre & post & -> & ->). rewrite skipn_app_l by reflexivity. rewrite <- !app_assoc. rewrite skipn_app_l by apply be_length. reflexivity. }
  unfold p_action, p_action_header, fixed.
  rewrite (unp_ok "HH" [FU 2; FU 2] m off eq_refl) by (cbn [calcsize item_size]; lia).
  cbn [decode bind]. rewrite S0.
  destruct Hty as [-> | ->].
  - change (of_be (be 2 25)) with 25. change (exists v, p_action_set_field m off = Ok (v, off)). unfold p_action_set_field.
    rewrite (unp_ok "HH" [FU 2; FU 2] m off eq_refl) by (cbn [calcsize item_size]; lia).
    cbn [decode bind]. rewrite S1. cbv zeta. change (Z.to_nat (of_be [0; 0])) with 0%nat. rewrite Nat.add_0_r. eexists. reflexivity.
  - change (of_be (be 2 65535)) with 65535. change (exists v, p_action_experimenter m off = Ok (v, off)). unfold p_action_experimenter.
    rewrite (unp_ok "HHI" [FU 2; FU 2; FU 4] m off eq_refl) by (cbn [calcsize item_size]; lia).
    cbn [decode bind]. rewrite S1. cbv zeta. change (Z.to_nat (of_be [0; 0])) with 0%nat. rewrite ?Nat.add_0_r. eexists. reflexivity.
Qed.

Lemma packet_out_loops d bs off xid b i l alen ty rest :
  at_ bs off (msg 5 13 xid (enc [U 4 b; U 4 i; U 2 alen; P 6; R (acts_wire l); U 2 ty; P 2; R rest])) ->
  u32 xid -> u16 alen -> zlen (acts_wire l) < alen -> 24 + zlen (acts_wire l) + 4 + zlen rest <= 65535 ->
  Forall act_ok l -> Forall not_mpls_ttl l -> (4 <= length rest)%nat -> ty = 25 \/ ty = 65535 ->
  forall n, parse d n bs off = Err OutOfFuel.
Proof.
  intros Hat Hx Ha Hlen Hmax Hl Hm Hr Hty n. destruct d as [|d]; [reflexivity|].
  set (bd := enc [U 4 b; U 4 i; U 2 alen; P 6; R (acts_wire l); U 2 ty; P 2; R rest]) in *.
  assert (L : length bd = (16 + length (acts_wire l) + 4 + length rest)%nat) by (unfold bd; rewrite enc_length; cbn [flen fld_len]; lia).
  destruct (p_header_ok bs off 13 xid bd Hat ltac:(unfold u8; lia) Hx ltac:(unfold zlen in *; lia)) as [Hh Hb].
  by_type Hh. change (p_packet_out n bs off = Err OutOfFuel). unfold p_packet_out. rewrite Hh. cbn [bind].
  pose proof (at_length _ _ _ Hb) as Lb.
  assert (R2 : firstn 2 (skipn 4 (skipn 4 (skipn (off + 8) bs))) = be 2 alen).
  { rewrite !skip_skip. apply (slice_of bs (off + 8) bd 8 2); [exact Hb | reflexivity | apply be_length]. }
  rewrite (unp_ok "IIH6x" [FU 4; FU 4; FU 2; FX 6] bs (off + 8) eq_refl) by (cbn [calcsize item_size]; lia).
  cbn [decode bind]. rewrite R2, (of_be_be 2 alen) by (unfold in_u; change (256 ^ Z.of_nat 2) with 65536; unfold u16 in Ha; lia).
  change (calcsize [FU 4; FU 4; FU 2; FX 6]) with 16%nat.
  unfold bd in Hb. change [U 4 b; U 4 i; U 2 alen; P 6; R (acts_wire l); U 2 ty; P 2; R rest] with
    ([U 4 b; U 4 i; U 2 alen; P 6] ++ [R (acts_wire l)] ++ [U 2 ty; P 2; R rest]) in Hb.
  rewrite !enc_app in Hb. apply at_app in Hb. destruct Hb as [_ Hb]. apply at_app in Hb. destruct Hb as [Hb1 Hb2].
  rewrite !enc_R in *. rewrite enc_length in *. cbn [flen fld_len Nat.add] in Hb1, Hb2.
  rewrite (loop_after act_wire (fun a => act_view (act_padded a)) (p_action bs) bs _ l).
  - reflexivity.
  - intros a o Hin Ho. rewrite Forall_forall in *. apply act_parse; auto.
  - exact Hb1.
  - change (concat (map act_wire l)) with (acts_wire l). unfold zlen, u16 in *. lia.
  - change (concat (map act_wire l)) with (acts_wire l). intros k.
    change [U 2 ty; P 2; R rest] with ([U 2 ty; P 2] ++ [R rest]) in Hb2. rewrite enc_app, enc_R in Hb2.
    change (enc [U 2 ty; P 2]) with (be 2 ty ++ [0; 0]) in Hb2. rewrite <- app_assoc in Hb2.
    destruct (zero_action_stuck bs _ ty rest Hb2 Hr Hty) as [v E]. apply (stuck_loop _ _ _ v); [unfold zlen, u16 in *; lia | exact E].
Qed.

(** An experimenter property of length zero in a table modification. *)
Lemma table_mod_loops d bs off xid t c l rest :
  at_ bs off (msg 5 17 xid (enc [U 1 t; P 3; U 4 c; R (concat (map tprop_wire l)); U 2 65535; U 2 0; R rest])) ->
  u32 xid -> zlen (concat (map tprop_wire l)) + zlen rest <= 65515 ->
  Forall (fun p => fits (tprop_fields p)) l -> (8 <= length rest)%nat ->
  forall n, parse d n bs off = Err OutOfFuel.
Proof.
  intros Hat Hx Hmax Hl Hr n. destruct d as [|d]; [reflexivity|].
  set (bd := enc [U 1 t; P 3; U 4 c; R (concat (map tprop_wire l)); U 2 65535; U 2 0; R rest]) in *.
  assert (L : length bd = (8 + length (concat (map tprop_wire l)) + 4 + length rest)%nat) by (unfold bd; rewrite enc_length; cbn [flen fld_len]; lia).
  destruct (p_header_ok bs off 17 xid bd Hat ltac:(unfold u8; lia) Hx ltac:(unfold zlen in *; lia)) as [Hh Hb].
  by_type Hh. change (p_table_mod n bs off = Err OutOfFuel). unfold p_table_mod. rewrite Hh. cbn [bind].
  pose proof (at_length _ _ _ Hb) as Lb.
  rewrite (unp_ok "B3xI" [FU 1; FX 3; FU 4] bs (off + 8) eq_refl) by (cbn [calcsize item_size]; lia). cbn [bind].
  change (calcsize [FU 1; FX 3; FU 4]) with 8%nat.
  unfold bd in Hb. change [U 1 t; P 3; U 4 c; R (concat (map tprop_wire l)); U 2 65535; U 2 0; R rest] with
    ([U 1 t; P 3; U 4 c] ++ [R (concat (map tprop_wire l))] ++ [U 2 65535; U 2 0; R rest]) in Hb.
  rewrite !enc_app in Hb. apply at_app in Hb. destruct Hb as [_ Hb]. apply at_app in Hb. destruct Hb as [Hb1 Hb2].
  rewrite !enc_R in *. rewrite enc_length in *. cbn [flen fld_len Nat.add] in Hb1, Hb2.
  rewrite (loop_after tprop_wire tprop_view (p_table_mod_prop bs) bs _ l).
  - reflexivity.
  - intros p o Hin Ho. rewrite Forall_forall in *. apply tprop_parse; auto.
  - exact Hb1.
  - lia.
  - intros k. pose proof (at_length _ _ _ Hb2) as L2. rewrite enc_length in L2. cbn [flen fld_len] in L2.
    assert (E : exists v, p_table_mod_prop bs (off + 8 + 8 + length (concat (map tprop_wire l))) =
      Ok (v, (off + 8 + 8 + length (concat (map tprop_wire l)))%nat)).
    { unfold p_table_mod_prop. rewrite prop_type_ok by lia. rewrite (type_of bs _ _ 255 255 Hb2 eq_refl). cbn [bind].
      set (x := (off + 8 + 8 + length (concat (map tprop_wire l)))%nat) in *.
      change (exists v, p_table_mod_prop_experimenter bs x = Ok (v, x)).
      unfold p_table_mod_prop_experimenter, exp_prop_aligned.
      rewrite (unp_ok "HHII" [FU 2; FU 2; FU 4; FU 4] bs _ eq_refl) by (cbn [calcsize item_size]; lia). cbn [bind decode].
      rewrite !skip_skip. rewrite (slice_of bs _ _ 2 2 [0; 0] Hb2 eq_refl eq_refl).
      cbv zeta. change (align8 (Z.to_nat (of_be [0; 0]))) with 0%nat. rewrite ?Nat.add_0_r. eexists. reflexivity. }
    destruct E as [v E]. apply (stuck_loop _ _ _ v); [lia | exact E].
Qed.

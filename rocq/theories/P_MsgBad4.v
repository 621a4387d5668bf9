(** Messages the OpenFlow 1.3 parser cannot read. *)

From Verif Require Import Py Struct P_Struct S_Hello S_Ports P_Hello P_Ports S_Wire4 S_Msg4 M_Build4 M_Parse4 P_Wire4 P_Act4 P_Rebuild4 P_Stat4 P_Msg4 P_MsgParse4 P_MsgRebuild4 P_Term4.
Local Open Scope Z_scope.
Local Open Scope list_scope.

Lemma round_trip dx d cls args m xid h :
  msg_args cls args m -> msg_ok m -> msg_parsable m -> hdr_arg dx (msingle m) (mtype m) xid h -> u32 xid -> (3 <= d)%nat ->
  exists wire, call (obj dx d) dx cls (h :: args) = Ok wire /\
  forall pre post n, (length (pre ++ wire ++ post) <= n)%nat ->
    parse n (pre ++ wire ++ post) (length pre) =
    Ok (msg_parsed xid m, (length pre + length wire - msg_unread m)%nat).
Proof.
  intros Ha Hok Hp Hh Hx Hd. exists (mwire xid m). split; [apply msg_build; assumption|].
  intros pre post n Hn. apply msg_parse; try assumption. exists pre, post. split; reflexivity.
Qed.

Lemma header_of bs off xid m : at_ bs off (mwire xid m) -> msg_ok m -> u32 xid ->
  p_header bs off = Ok (hdr_view (mtype m) xid (body m), mtype m, (8 + length (body m))%nat, (off + 8)%nat) /\ at_ bs (off + 8) (body m).
Proof.
  intros Hat Hok Hx. pose proof Hok as (Hf & Hlen & Hext). exact (p_header_ok bs off (mtype m) xid (body m) Hat (mtype_u8 m Hok) Hx Hlen).
Qed.

Lemma port_mod_unparsed n bs off xid p hw c k a :
  at_ bs off (mwire xid (MPortMod p hw c k a)) -> msg_ok (MPortMod p hw c k a) -> u32 xid -> parse n bs off = Err ValueError.
Proof.
  intros Hat Hok Hx. destruct (header_of _ _ _ _ Hat Hok Hx) as [Hh Hb]. by_type Hh. cbn [mtype].
  change (p_port_mod bs off = Err ValueError). unfold p_port_mod. rewrite Hh. cbn [bind].
  apply at_length in Hat. rewrite mwire_len in Hat. destruct Hok as (_ & _ & Hw). cbn [body_fields flen fld_len] in Hat. rewrite Hw in Hat.
  unfold unpacks. set (fs := fmt _). vm_compute in fs. subst fs. cbn [bind]. unfold unpack_from.
  match goal with |- context [if ?b then _ else _] => assert (E : b = true) end; [|rewrite E; reflexivity].
  apply Nat.leb_le. cbn [calcsize item_size]. lia.
Qed.

Lemma role_reply_parsed n bs off xid r g :
  at_ bs off (mwire xid (MRole 25 r g)) -> msg_ok (MRole 25 r g) -> u32 xid ->
  parse n bs off = Ok (VTup "ofp_" [hdr_view 25 xid (body (MRole 25 r g)); VBytes (body (MRole 25 r g))], (off + 24)%nat).
Proof.
  intros Hat Hok Hx. destruct (header_of _ _ _ _ Hat Hok Hx) as [Hh Hb]. by_type Hh. cbn [mtype] in *.
  match goal with |- ?l = ?r => change (p_ofp bs off = r) end. unfold p_ofp. rewrite Hh. cbn [bind].
  rewrite (slice_at _ _ (body (MRole 25 r g))) by (try assumption; lia).
  reflexivity.
Qed.

Lemma exp_band_stuck m off r s e b : at_ m off (band_wire (BdExperimenter r s e b)) -> band_ok (BdExperimenter r s e b) ->
  exists v, p_meter_band m off = Ok (v, off).
Proof.
  intros Hat Hf. unfold band_wire, band_ok, p_meter_band, p_meter_band_header in *. cbn [band_fields] in *.
  pose proof (at_enc_app m off [U 2 65535; U 2 (16 + zlen b); U 4 r; U 4 s] [U 4 e; R b] Hat) as [H1 _].
  assert (F1 : fits [U 2 65535; U 2 (16 + zlen b); U 4 r; U 4 s]) by (apply (fits_app _ [U 4 e; R b]); exact Hf).
  rewrite (fixed_enc "ofp_meter_band_header" "HHII" [U 2 65535; U 2 (16 + zlen b); U 4 r; U 4 s] m off eq_refl F1 H1). cbn [bind vals].
  change (exists v, p_meter_band_experimenter m off = Ok (v, off)). unfold p_meter_band_experimenter.
  pose proof (at_enc_app m off [U 2 65535; U 2 (16 + zlen b); U 4 r; U 4 s; U 4 e] [R b] Hat) as [H2 _].
  assert (F2 : fits [U 2 65535; U 2 (16 + zlen b); U 4 r; U 4 s; U 4 e]) by (apply (fits_app _ [R b]); exact Hf).
  pose proof (unp_enc "HH3I" [U 2 65535; U 2 (16 + zlen b); U 4 r; U 4 s; U 4 e] m off eq_refl F2 H2) as E.
  unfold unp in E. destruct (unpacks "HH3I" m off) as [vs|x]; [|discriminate]. cbn [bind] in *.
  destruct (sizes "HH3I") as [k|x]; [|discriminate]. cbn [bind] in E. injection E as -> _.
  cbn [vals]. eexists. reflexivity.
Qed.


Lemma bands_stuck m limit l1 : forall off r s e b,
  at_ m off (bands_wire l1 ++ band_wire (BdExperimenter r s e b)) -> Forall band_ok l1 -> band_ok (BdExperimenter r s e b) ->
  (off + length (bands_wire l1) < limit)%nat ->
  forall n, while_fetch n (p_meter_band m) limit off = Err OutOfFuel.
Proof.
  induction l1 as [|x l1 IH]; intros off r s e b Hat Hl Hb Hlim n.
  - cbn in Hat, Hlim. destruct (exp_band_stuck _ _ _ _ _ _ Hat Hb) as [v E]. apply (stuck_loop _ _ _ v); [lia | exact E].
  - unfold bands_wire in Hat, Hlim. cbn [map concat] in Hat, Hlim. rewrite <- app_assoc in Hat. apply at_app in Hat. destruct Hat as [H1 H2].
    rewrite app_length in Hlim. pose proof (Forall_inv Hl) as Hx. pose proof (Forall_inv_tail Hl) as Hl'.
    assert (Hlt : (off <? limit)%nat = true) by (apply Nat.ltb_lt; pose proof (band_len x); lia).
    destruct x as [r1 s1|r1 s1 p1|r1 s1 e1 b1].
    3: { destruct (exp_band_stuck _ _ _ _ _ _ H1 Hx) as [v E]. apply (stuck_loop _ _ _ v); [apply Nat.ltb_lt; exact Hlt | exact E]. }
    all: (destruct n as [|n]; cbn [while_fetch]; rewrite Hlt; [reflexivity|];
      rewrite (band_parse _ _ _ H1 Hx I); cbn [bind];
      rewrite (IH _ _ _ _ _ H2 Hl' Hb ltac:(unfold bands_wire; lia) n); reflexivity).
Qed.

Lemma meter_mod_loops bs off xid c f m l : at_ bs off (mwire xid (MMeterMod c f m l)) -> msg_ok (MMeterMod c f m l) -> u32 xid ->
  ~ Forall band_plain l -> forall n, parse n bs off = Err OutOfFuel.
Proof.
  intros Hat Hok Hx Hl n. destruct (header_of _ _ _ _ Hat Hok Hx) as [Hh Hb]. by_type Hh. cbn [mtype].
  change (p_meter_mod n bs off = Err OutOfFuel). unfold p_meter_mod. rewrite Hh. cbn [bind].
  destruct Hok as (Hf & _ & Hext). unfold body in *. cbn [body_fields] in *.
  rewrite enc_length. cbn [flen fld_len]. cut_layout [U 2 c; U 2 f; U 4 m] Hb Hf.
  rewrite (unp_enc "HHI" [U 2 c; U 2 f; U 4 m]) by (try assumption; reflexivity). cbn [bind vals flen fld_len] in *.
  rewrite enc_R in Hb.
  assert (S : exists l1 r s e b l2, l = l1 ++ BdExperimenter r s e b :: l2).
  { clear -Hl. induction l as [|x l IH]; [contradict Hl; constructor|].
    destruct x as [r s|r s p|r s e b].
    3: { exists [], r, s, e, b, l. reflexivity. }
    all: (destruct IH as (l1 & r' & s' & e' & b' & l2 & ->); [intros Hc; apply Hl; constructor; [exact I | exact Hc]|];
      eexists (_ :: l1), r', s', e', b', l2; reflexivity). }
  destruct S as (l1 & r & s & e & b & l2 & ->). apply Forall_app in Hext. destruct Hext as [E1 E2].
  unfold bands_wire in *. rewrite map_app, concat_app in *. cbn [map concat] in *. rewrite app_assoc in Hb. apply at_app in Hb. destruct Hb as [Hb _].
  rewrite (bands_stuck bs _ l1 _ r s e b Hb E1 (Forall_inv E2)); [reflexivity|].
  rewrite !app_length. pose proof (band_len (BdExperimenter r s e b)). unfold bands_wire. lia.
Qed.

(** A zero-length SET_FIELD or EXPERIMENTER action: the list it stands in is
    never left. *)
Lemma zero_action_stuck m off ty rest : at_ m off (be 2 ty ++ [0; 0] ++ rest) -> (4 <= length rest)%nat -> ty = 25 \/ ty = 65535 ->
  exists v, p_action m off = Ok (v, off).
Proof.
  intros Hat Hr Hty. assert (L := at_length _ _ _ Hat). rewrite !app_length, be_length in L. cbn [length] in L.
  assert (S0 : firstn 2 (skipn off m) = be 2 ty).
  { destruct Hat as (pre & post & -> & ->). rewrite skipn_app_l by reflexivity. rewrite <- !app_assoc. apply firstn_app_l. apply be_length. }
  assert (S1 : firstn 2 (skipn 2 (skipn off m)) = [0; 0]).
  { destruct Hat as (pre & post & -> & ->). rewrite skipn_app_l by reflexivity. rewrite <- !app_assoc. rewrite skipn_app_l by apply be_length. reflexivity. }
  unfold p_action, p_action_header, fixed.
  destruct (unp_cases "HH4x" [FU 2; FU 2; FX 4] m off eq_refl) as [R|[R _]].
  { unfold unp, unpacks, sizes, unpack_from in R. set (fs := fmt _) in R. vm_compute in fs. subst fs. cbn [bind] in R.
    destruct (_ <=? _)%nat eqn:El in R; [discriminate|]. apply Nat.leb_gt in El. cbn [calcsize item_size] in El. lia. }
  rewrite R. cbn [decode bind]. rewrite S0, S1.
  destruct Hty as [-> | ->].
  - change (of_be (be 2 25)) with 25. change (exists v, p_action_set_field m off = Ok (v, off)). unfold p_action_set_field.
    destruct (unp_cases "HH" [FU 2; FU 2] m off eq_refl) as [R'|[R' _]].
    { unfold unp, unpacks, sizes, unpack_from in R'. set (fs := fmt _) in R'. vm_compute in fs. subst fs. cbn [bind] in R'.
      destruct (_ <=? _)%nat eqn:El in R'; [discriminate|]. apply Nat.leb_gt in El. cbn [calcsize item_size] in El. lia. }
    rewrite R'. cbn [decode bind]. rewrite S1. cbv zeta. change (Z.to_nat (of_be [0; 0])) with 0%nat. rewrite Nat.add_0_r. eexists. reflexivity.
  - change (of_be (be 2 65535)) with 65535. change (exists v, p_action_experimenter m off = Ok (v, off)). unfold p_action_experimenter.
    destruct (unp_cases "HHI" [FU 2; FU 2; FU 4] m off eq_refl) as [R'|[R' _]].
    { unfold unp, unpacks, sizes, unpack_from in R'. set (fs := fmt _) in R'. vm_compute in fs. subst fs. cbn [bind] in R'.
      destruct (_ <=? _)%nat eqn:El in R'; [discriminate|]. apply Nat.leb_gt in El. cbn [calcsize item_size] in El. lia. }
    rewrite R'. cbn [decode bind]. rewrite S1. cbv zeta. change (Z.to_nat (of_be [0; 0])) with 0%nat. rewrite Nat.add_0_r. eexists. reflexivity.
Qed.

(** Sequences of well-formed actions followed by such a one. *)
Lemma zero_action_loops m l limit ty rest : forall off,
  at_ m off (acts_wire l ++ be 2 ty ++ [0; 0] ++ rest) -> Forall act_ok l -> Forall not_mpls_ttl l -> (4 <= length rest)%nat -> ty = 25 \/ ty = 65535 ->
  (off + length (acts_wire l) < limit)%nat -> forall n, while_fetch n (p_action m) limit off = Err OutOfFuel.
Proof.
  induction l as [|x l IH]; intros off Hat Hl Hm Hr Hty Hlim n.
  - cbn in Hlim. destruct (zero_action_stuck _ _ _ _ Hat Hr Hty) as [v E]. apply (stuck_loop _ _ _ v); [lia | exact E].
  - unfold acts_wire in Hat, Hlim. cbn [map concat] in Hat, Hlim. rewrite <- app_assoc in Hat. apply at_app in Hat. destruct Hat as [H1 H2].
    rewrite app_length in Hlim. pose proof (act_len x) as [L1 _].
    assert (Hlt : (off <? limit)%nat = true) by (apply Nat.ltb_lt; lia).
    destruct n as [|n]; cbn [while_fetch]; rewrite Hlt; [reflexivity|].
    rewrite (act_parse _ _ _ H1 (Forall_inv Hl) (Forall_inv Hm)). cbn [bind].
    rewrite (IH _ H2 (Forall_inv_tail Hl) (Forall_inv_tail Hm) Hr Hty ltac:(unfold acts_wire; lia) n). reflexivity.
Qed.

(** A port whose name is a unicode object is refused. *)
Lemma text_port_refused dx d no hw t rest : forall b, obj dx d (VTup "ofp_port" (no :: hw :: VText t :: rest)) <> Ok b.
Proof.
  intros b E. destruct d as [|d]; [discriminate|].
  destruct rest as [|a1 [|a2 [|a3 [|a4 [|a5 [|a6 [|a7 [|a8 [|a9 r]]]]]]]]]; try discriminate.
  change (ofp_port no hw (VText t) a1 a2 a3 a4 a5 a6 a7 a8 = Ok b) in E. unfold ofp_port in E. cbn [encode_name bind] in E.
  apply bind_ok in E. destruct E as (u & _ & E). discriminate.
Qed.

Lemma port_status_not_rebuilt dx d xid r p : exists e, obj dx d (msg_parsed xid (MPortStatus r p)) = Err e.
Proof.
  destruct (obj dx d (msg_parsed xid (MPortStatus r p))) as [b|e] eqn:E; [exfalso | eexists; reflexivity].
  unfold msg_parsed in E. destruct d as [|d]; [discriminate|].
  set (h := hdr_view _ _ _) in E. change (ofp_port_status (obj dx d) dx h (VInt r) (port_parsed p) = Ok b) in E.
  unfold ofp_port_status, message in E. apply bind_ok in E. destruct E as (dt & E & _).
  apply bind_ok in E. destruct E as (q & _ & E). apply bind_ok in E. destruct E as (w & E & _).
  exact (text_port_refused dx d _ _ _ _ w E).
Qed.

(** Aggregate requests given as objects are refused: 32 bytes are asserted to
    be 40. *)
Lemma aggregate_refused dx d a b c e f m w : obj dx d (VTup "ofp_aggregate_stats_request" [a; b; c; e; f; m]) <> Ok w.
Proof.
  intros E. destruct d as [|d]; [discriminate|].
  change (ofp_aggregate_stats_request (obj dx d) a b c e f m = Ok w) in E. unfold ofp_aggregate_stats_request in E.
  apply bind_ok in E. destruct E as (desc & E1 & E). apply (packs_inv "B3xII4xQQ" [FU 1; FX 3; FU 4; FU 4; FX 4; FU 8; FU 8] _ _ eq_refl) in E1.
  apply pack_length in E1. cbn [calcsize item_size] in E1. apply bind_ok in E. destruct E as (u & E & _).
  unfold assert_ in E. destruct (length desc =? 40)%nat eqn:Ed; [|discriminate]. apply Nat.eqb_eq in Ed. lia.
Qed.

Lemma aggregate_not_built dx d h f m c k a b t w :
  call (obj dx d) dx "ofp_multipart_request" [h; VInt 2; f; VTup "ofp_aggregate_stats_request" [a; b; c; k; t; m]] <> Ok w.
Proof.
  intros E.
  change (ofp_multipart_request (obj dx d) dx h (VInt 2) f (VTup "ofp_aggregate_stats_request" [a; b; c; k; t; m]) = Ok w) in E.
  unfold ofp_multipart_request in E. apply bind_ok in E. destruct E as (b0 & E & _).
  change (bind (obj dx d (VTup "ofp_aggregate_stats_request" [a; b; c; k; t; m])) (fun b => Ok (VBytes b)) = Ok b0) in E.
  apply bind_ok in E. destruct E as (b1 & E & _). exact (aggregate_refused _ _ _ _ _ _ _ _ _ E).
Qed.

(** A body of table features: the parser always fails on the first entry. *)
Lemma features_nameerror m off : (off + 64 <= length m)%nat -> p_table_features m off = Err NameError.
Proof.
  intros H. unfold p_table_features. destruct (unp_cases "HB5x32sQQII" [FU 2; FU 1; FX 5; FS 32; FU 8; FU 8; FU 4; FU 4] m off eq_refl) as [R|[R _]].
  - unfold unp, unpacks, sizes, unpack_from in R. set (fs := fmt _) in R. vm_compute in fs. subst fs. cbn [bind] in R.
    destruct (_ <=? _)%nat eqn:El in R; [discriminate|]. apply Nat.leb_gt in El. cbn [calcsize item_size] in El. lia.
  - rewrite R. reflexivity.
Qed.

Lemma table_features_unparsed n bs off ty xid f b post :
  (ty = 18 \/ ty = 19) -> at_ bs off (msg 4 ty xid (be 2 12 ++ be 2 f ++ zeros 4 ++ b) ++ post) ->
  u32 xid -> 64 <= zlen b -> zlen b <= 65519 -> (0 < n)%nat -> parse n bs off = Err NameError.
Proof.
  intros Hty Hat Hx Hl1 Hl2 Hn. apply at_app in Hat. destruct Hat as [Hat _].
  set (body := be 2 12 ++ be 2 f ++ zeros 4 ++ b) in *.
  assert (Lb : length body = (8 + length b)%nat) by (unfold body; rewrite !app_length, !be_length, zeros_length; lia).
  assert (Ht : u8 ty) by (destruct Hty as [-> | ->]; unfold u8; lia).
  destruct (p_header_ok bs off ty xid body Hat Ht Hx ltac:(unfold zlen in *; lia)) as [Hh Hb].
  pose proof (at_length _ _ _ Hb) as Hlen. rewrite Lb in Hlen.
  assert (R0 : of_be (firstn 2 (skipn (off + 8) bs)) = 12).
  { destruct Hb as (pre & post' & -> & ->). rewrite skipn_app_l by reflexivity. unfold body. rewrite <- !app_assoc. rewrite firstn_app_l by apply be_length. reflexivity. }
  destruct (unp_cases "HH4x" [FU 2; FU 2; FX 4] bs (off + 8) eq_refl) as [R|[R _]].
  { unfold unp, unpacks, sizes, unpack_from in R. set (fs := fmt _) in R. vm_compute in fs. subst fs. cbn [bind] in R.
    destruct (_ <=? _)%nat eqn:El in R; [discriminate|]. apply Nat.leb_gt in El. cbn [calcsize item_size] in El. unfold zlen in *. lia. }
  cbn [decode calcsize item_size] in R. rewrite R0 in R.
  assert (F : p_table_features bs (off + 8 + (2 + (2 + (4 + 0)))) = Err NameError) by (apply features_nameerror; unfold zlen in *; lia).
  assert (W : while_fetch n (p_table_features bs) (off + (8 + length body)) (off + 8 + (2 + (2 + (4 + 0)))) = Err NameError).
  { destruct n as [|n]; [lia|]. cbn [while_fetch].
    assert (E : (off + 8 + (2 + (2 + (4 + 0))) <? off + (8 + length body))%nat = true) by (apply Nat.ltb_lt; unfold zlen in *; lia).
    rewrite E, F. reflexivity. }
  by_type Hh. destruct Hty as [-> | ->].
  - change (p_multipart_request n bs off = Err NameError). unfold p_multipart_request. rewrite Hh. cbn [bind]. rewrite R. cbn [bind].
    change (bind (bind (while_fetch n (p_table_features bs) (off + (8 + length body)) (off + 8 + (2 + (2 + (4 + 0)))))
      (fun '(fs, o) => Ok (VList fs, o))) (fun '(bd, o) => Ok (VTup "ofp_multipart_request" (hdr_view 18 xid body :: [VInt 12; VInt (of_be (firstn 2 (skipn 2 (skipn (off + 8) bs))))] ++ [bd]), o)) = Err NameError).
    rewrite W. reflexivity.
  - change (p_multipart_reply n bs off = Err NameError). unfold p_multipart_reply. rewrite Hh. cbn [bind]. rewrite R. cbn [bind]. cbv zeta.
    change (bind (bind (list_fetch n (p_table_features bs) (off + (8 + length body)) (off + 8 + (2 + (2 + (4 + 0)))))
      (fun '(fs, o) => Ok (VList fs, o))) (fun '(bd, o) => Ok (VTup "ofp_multipart_reply" (hdr_view 19 xid body :: [VInt 12; VInt (of_be (firstn 2 (skipn 2 (skipn (off + 8) bs))))] ++ [bd]), o)) = Err NameError).
    unfold list_fetch. rewrite W. reflexivity.
Qed.

(** A packet-out with such an action after any others. *)
Lemma packet_out_loops bs off xid b i l alen ty rest :
  at_ bs off (msg 4 13 xid (be 4 b ++ be 4 i ++ be 2 alen ++ zeros 6 ++ acts_wire l ++ be 2 ty ++ [0; 0] ++ rest)) ->
  u32 xid -> u16 alen -> zlen (acts_wire l) < alen -> 24 + zlen (acts_wire l) + 4 + zlen rest <= 65535 ->
  Forall act_ok l -> Forall not_mpls_ttl l -> (4 <= length rest)%nat -> ty = 25 \/ ty = 65535 ->
  forall n, parse n bs off = Err OutOfFuel.
Proof.
  intros Hat Hx Ha Hlen Hmax Hl Hm Hr Hty n.
  set (tl := acts_wire l ++ be 2 ty ++ [0; 0] ++ rest) in *.
  assert (Lt : zlen tl = zlen (acts_wire l) + 4 + zlen rest).
  { unfold tl, zlen. rewrite !app_length, be_length. cbn [length]. lia. }
  set (bd := be 4 b ++ be 4 i ++ be 2 alen ++ zeros 6 ++ tl) in *.
  assert (Lb : zlen bd = 16 + zlen tl).
  { unfold bd, zlen. rewrite !app_length, !be_length, zeros_length. lia. }
  destruct (p_header_ok bs off 13 xid bd Hat ltac:(unfold u8; lia) Hx ltac:(lia)) as [Hh Hb].
  by_type Hh. change (p_packet_out n bs off = Err OutOfFuel). unfold p_packet_out. rewrite Hh. cbn [bind].
  pose proof (at_length _ _ _ Hb) as L.
  assert (R2 : firstn 2 (skipn 4 (skipn 4 (skipn (off + 8) bs))) = be 2 alen).
  { destruct Hb as (pre & post & -> & ->). rewrite skipn_app_l by reflexivity. unfold bd. rewrite <- !app_assoc.
    rewrite skipn_app_l by apply be_length. rewrite skipn_app_l by apply be_length. apply firstn_app_l, be_length. }
  destruct (unp_cases "IIH6x" [FU 4; FU 4; FU 2; FX 6] bs (off + 8) eq_refl) as [R|[R _]].
  { unfold unp, unpacks, sizes, unpack_from in R. set (fs := fmt _) in R. vm_compute in fs. subst fs. cbn [bind] in R.
    destruct (_ <=? _)%nat eqn:El in R; [discriminate|]. apply Nat.leb_gt in El. cbn [calcsize item_size] in El. unfold zlen in *. lia. }
  cbn [decode calcsize item_size] in R. rewrite R2, (of_be_be 2 alen) in R by (unfold in_u; change (256 ^ Z.of_nat 2) with 65536; unfold u16 in Ha; lia).
  rewrite R. cbn [bind].
  assert (Ht : at_ bs (off + 8 + (4 + (4 + (2 + (6 + 0))))) tl).
  { unfold bd in Hb. rewrite !app_assoc in Hb. apply at_app in Hb. destruct Hb as [_ Hb].
    rewrite !app_length, !be_length, zeros_length in Hb. exact Hb. }
  rewrite (zero_action_loops bs l _ ty rest _ Ht Hl Hm Hr Hty); [reflexivity|]. unfold zlen in *. unfold u16 in Ha. lia.
Qed.

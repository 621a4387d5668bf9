(** Framing of built OpenFlow 1.4 messages, and messages the library cannot
    build or read. *)

From Verif Require Import Py Struct P_Struct S_Hello S_Ports P_Hello P_Ports S_Wire4 S_Msg4 M_Build4 M_Parse4 P_Wire4 P_Act4 P_Rebuild4 P_Stat4 P_Msg4 P_MsgParse4 P_MsgRebuild4 P_Term4 P_MsgBad4.
From Verif Require Import S_Wire5 S_Msg5 S_Term5 M_Build5 M_Parse5 P_Wire5 P_Act5 P_Stat5 P_Msg5 P_MsgParse5 P_Rebuild5 P_Term5.
Local Open Scope Z_scope.
Local Open Scope list_scope.

(** *** Lengths *)

Definition framed (r : res bytes) : Prop := forall b, r = Ok b -> well_framed5 b.

Lemma framed_err e : framed (Err e).
Proof. intros b H. discriminate. Qed.
Lemma framed_bind {A} (r : res A) f : (forall a, framed (f a)) -> framed (bind r f).
Proof. intros H b E. apply bind_ok in E. destruct E as (a & _ & E). exact (H a b E). Qed.
Lemma framed_sized n r : framed r -> framed (sized n r).
Proof.
  intros H b E. unfold sized in E. apply bind_ok in E. destruct E as (a & E1 & E2). apply bind_ok in E2. destruct E2 as (u & _ & E2).
  injection E2 as <-. exact (H a E1).
Qed.

(** What a header looks like. *)
Lemma header_built dx v t l x hd : ofp_header dx v t (VInt l) x = Ok hd ->
  exists ty z, t = VInt ty /\ u8 ty /\ 0 <= l < 65536 /\ u32 z /\ hd = [5; ty] ++ be 2 l ++ be 4 z.
Proof.
  intros Eh. unfold ofp_header in Eh. cbv zeta in Eh. apply bind_ok in Eh. destruct Eh as (u & Ea & Eh).
  assert (Ev : default v 5 = VInt 5).
  { unfold assert_ in Ea. destruct (py_eqz (default v 5) 5) eqn:E; [|discriminate].
    destruct (default v 5); try discriminate. cbn in E. apply Z.eqb_eq in E. subst. reflexivity. }
  rewrite Ev in Eh. cbn [default] in Eh.
  apply (packs_inv "BBHI" [FU 1; FU 1; FU 2; FU 4] _ _ eq_refl) in Eh.
  cbn [pack] in Eh. cbn [pack_item] in Eh. change (in_u 1 5) with true in Eh. cbv iota in Eh. cbn [bind] in Eh.
  destruct t as [|t| | | |]; try discriminate. cbn [pack_item] in Eh.
  destruct (in_u 1 t) eqn:Et; [|discriminate]. cbn [bind] in Eh.
  destruct (in_u 2 l) eqn:El; [|discriminate]. cbn [bind] in Eh.
  destruct (default x dx) as [|z| | | |]; try discriminate. cbn [pack_item] in Eh.
  destruct (in_u 4 z) eqn:Ez; [|discriminate]. cbn [bind] in Eh.
  unfold in_u in Et, El, Ez. apply andb_true_iff in Et, El, Ez.
  change (256 ^ Z.of_nat 1) with 256 in Et. change (256 ^ Z.of_nat 2) with 65536 in El. change (256 ^ Z.of_nat 4) with 4294967296 in Ez.
  rewrite Z.leb_le, Z.ltb_lt in Et, El, Ez.
  exists t, z. unfold u8, u32. repeat split; try lia. injection Eh as <-. rewrite ?app_nil_r. cbn. rewrite (Z.mod_small t) by lia. reflexivity.
Qed.

Lemma ofp_built o dx h data ty b : ofp_ o dx h data ty = Ok b ->
  exists t z v x dt, header_fields dx h ty = Ok (v, VInt t, x) /\ u8 t /\ u32 z /\ o data = Ok dt /\ 8 + zlen dt < 65536 /\ b = [5; t] ++ be 2 (8 + zlen dt) ++ be 4 z ++ dt.
Proof.
  unfold ofp_. intros E. apply bind_ok in E. destruct E as ([[v t] x] & Ef & E). apply bind_ok in E. destruct E as (dt & Ed & E).
  apply bind_ok in E. destruct E as (hd & Eh & E). injection E as <-.
  destruct (header_built _ _ _ _ _ _ Eh) as (t' & z & -> & Ht & Hl & Hz & ->).
  exists t', z, v, x, dt. repeat split; try assumption; try apply Ht; try apply Hz; lia.
Qed.

Lemma framed_ofp o dx h data ty : framed (ofp_ o dx h data ty).
Proof.
  intros b E. destruct (ofp_built _ _ _ _ _ _ E) as (t & z & v & x & dt & _ & Ht & Hz & _ & Hl & ->).
  assert (L : length ([5; t] ++ be 2 (8 + zlen dt) ++ be 4 z ++ dt) = (8 + length dt)%nat) by (rewrite !app_length, !be_length; reflexivity).
  unfold well_framed5. rewrite L. split; [lia|]. split; [reflexivity|]. unfold zlen in *.
  split; [rewrite u16_be2; [lia | lia | reflexivity] | lia].
Qed.

Lemma framed_message o dx h ty data : framed (message o dx h ty data).
Proof. unfold message. apply framed_bind. intros. apply framed_ofp. Qed.

Ltac args_of :=
  repeat match goal with
  | |- framed (Err _) => apply framed_err
  | |- framed (message _ _ _ _ _) => apply framed_message
  | |- framed (ofp_ _ _ _ _ _) => apply framed_ofp
  | |- framed (sized _ _) => apply framed_sized
  | |- framed (bind _ _) => apply framed_bind; intro
  | |- framed (match ?l with [] => _ | _ :: _ => _ end) => destruct l
  end.

Lemma built_framed o dx cls args : In cls message_builders5 -> framed (call o dx cls args).
Proof.
  intros Hin.
  repeat (destruct Hin as [<-|Hin]; [
    match goal with |- framed (call ?o ?dx ?c ?a) => let f := eval lazy [lookup builders String.eqb Ascii.eqb Bool.eqb] in (lookup c (builders o dx)) in
      match f with Some ?g => change (framed (g a)) end end;
    unfold arg2, arg3, arg4, arg5, arg6, arg8; args_of;
    cbv delta [ofp_hello ofp_switch_features ofp_switch_config ofp_table_mod ofp_flow_mod ofp_group_mod ofp_port_mod ofp_multipart_request
      ofp_multipart_reply ofp_packet_out ofp_role_request ofp_async_config ofp_packet_in ofp_bundle_ctrl_msg ofp_bundle_add_msg ofp_role_status
      ofp_flow_removed ofp_port_status ofp_error_msg ofp_error_experimenter_msg ofp_experimenter_msg ofp_table_status ofp_requestforward_header] beta zeta; args_of |]).
  destruct Hin.
Qed.

(** *** Whole messages *)

Lemma round_trip dx d d' cls args m xid h :
  msg_args cls args m -> msg_ok m -> msg_parsable m -> hdr_arg dx (msingle m) (mtype m) xid h -> u32 xid -> (2 + mdepth m <= d)%nat -> (mdepth m <= d')%nat ->
  exists wire, call (obj dx d) dx cls (h :: args) = Ok wire /\
  forall pre post n, (length (pre ++ wire ++ post) <= n)%nat ->
    parse d' n (pre ++ wire ++ post) (length pre) = Ok (msg_parsed xid m, (length pre + length wire)%nat).
Proof.
  intros Ha Hok Hp Hh Hx Hd Hd'. exists (mwire xid m). split; [apply msg_build; assumption|].
  intros pre post n Hn. apply (msg_parse m xid); try assumption. exists pre, post. split; reflexivity.
Qed.

Lemma header_of bs off xid m : at_ bs off (mwire xid m) -> msg_ok m -> u32 xid ->
  p_header bs off = Ok (hdr_view (mtype m) xid (body m), mtype m, (8 + length (body m))%nat, (off + 8)%nat) /\ at_ bs (off + 8) (body m).
Proof.
  intros Hat Hok Hx. destruct (msg_ok_parts m Hok) as [Hf Hlen]. exact (p_header_ok bs off (mtype m) xid (body m) Hat (mtype_u8 m Hok) Hx Hlen).
Qed.

Lemma unp_ok f fs m off : fmt f = Ok fs -> (off + calcsize fs <= length m)%nat -> unp f m off = Ok (decode fs (skipn off m), (off + calcsize fs)%nat).
Proof.
  intros Hf H. unfold unp, unpacks, sizes. rewrite Hf. cbn [bind]. unfold unpack_from. apply Nat.leb_le in H. rewrite H. reflexivity.
Qed.

Lemma slice_of m off w i k b : at_ m off w -> firstn k (skipn i w) = b -> length b = k -> firstn k (skipn (off + i) m) = b.
Proof.
  intros Hat <- Hk. destruct Hat as (pre & post & -> & ->). rewrite <- skip_skip, skipn_app_l by reflexivity.
  destruct k as [|k]; [reflexivity|]. rewrite firstn_length, skipn_length in Hk. rewrite skipn_app. replace (i - length w)%nat with 0%nat by lia. cbn [skipn].
  rewrite firstn_app. rewrite skipn_length. replace (S k - (length w - i))%nat with 0%nat by lia. apply app_nil_r.
Qed.

Lemma type_of m off w a b : at_ m off w -> firstn 2 w = [a; b] -> u16_at m off = 256 * a + b.
Proof.
  intros Hat Hw. assert (L : (2 <= length w)%nat) by (pose proof (f_equal (@length Z) Hw) as E; rewrite firstn_length in E; change (length [a; b]) with 2%nat in E; lia).
  rewrite <- read_u16 by (apply at_length in Hat; lia). pose proof (slice_of m off w 0 2 [a; b] Hat Hw eq_refl) as E. rewrite Nat.add_0_r in E.
  rewrite E. cbn. lia.
Qed.

(** *** Port modifications *)

Lemma port_mod_front xid p hw c k ps : exists rest, (length hw = 6%nat -> (10 <= length rest)%nat) /\
  mwire xid (MPortMod p hw c k ps) = ([5; 16] ++ be 2 (8 + zlen (body (MPortMod p hw c k ps)))) ++ be 4 xid ++ (be 4 p ++ [0; 0]) ++ [0; 0] ++ hw ++ rest.
Proof.
  exists ([0; 0] ++ be 4 c ++ be 4 k ++ concat (map pprop_wire ps) ++ []). split; [rewrite !app_length, !be_length; cbn [length]; lia|].
  unfold mwire, msg. unfold body at 2. cbn [body_fields mtype]. unfold enc. cbn [map enc1 concat].
  rewrite <- !app_assoc. reflexivity.
Qed.

(** The two fields read from the header and from the port number. *)
Lemma port_mod_fields bs off xid p hw c k ps : at_ bs off (mwire xid (MPortMod p hw c k ps)) -> msg_ok (MPortMod p hw c k ps) ->
  exists c' k', unp "I4x6s2xII" bs off = Ok ([VInt (84934656 + 8 + zlen (body (MPortMod p hw c k ps))); VBytes (be 4 p ++ [0; 0]); VInt c'; VInt k'], (off + 24)%nat).
Proof.
  intros Hat Hok. destruct (msg_ok_parts _ Hok) as [Hf Hlen]. assert (Hhw : length hw = 6%nat) by (destruct Hok as (_ & _ & H & _); exact H).
  destruct (port_mod_front xid p hw c k ps) as (rest & Lr & E). specialize (Lr Hhw).
  set (len := zlen (body (MPortMod p hw c k ps))) in *. assert (Hl0 : 0 <= len) by (unfold len, zlen; lia).
  rewrite E in Hat. pose proof (at_length _ _ _ Hat) as L. rewrite !app_length, !be_length in L. cbn [length] in L.
  rewrite (unp_ok "I4x6s2xII" [FU 4; FX 4; FS 6; FX 2; FU 4; FU 4] bs off eq_refl) by (cbn [calcsize item_size]; lia).
  destruct (at_skipn _ _ _ Hat) as [r ->]. do 2 eexists. apply (f_equal Ok). apply (f_equal2 pair); [|reflexivity].
  rewrite <- !app_assoc.
  rewrite (app_assoc [5; 16]), (app_assoc (be 4 p) [0; 0]). cbn [decode].
  rewrite (firstn_app_l 4) by (rewrite app_length, be_length; reflexivity). rewrite (skipn_app_l 4) by (rewrite app_length, be_length; reflexivity).
  rewrite (skipn_app_l 4) by apply be_length.
  rewrite (firstn_app_l 6) by (rewrite app_length, be_length; reflexivity).
  replace (of_be ([5; 16] ++ be 2 (8 + len))) with (84934656 + 8 + len); [reflexivity|].
  change ([5; 16] ++ be 2 (8 + len)) with [5; 16; (8 + len) / 256 mod 256; (8 + len) mod 256].
  rewrite (Z.mod_small ((8 + len) / 256)) by (split; [apply Z.div_pos; lia | apply Z.div_lt_upper_bound; lia]).
  unfold of_be. cbn [fold_left]. pose proof (Z.div_mod (8 + len) 256). lia.
Qed.

Lemma port_mod_read d n bs off xid p hw c k ps v o : at_ bs off (mwire xid (MPortMod p hw c k ps)) -> msg_ok (MPortMod p hw c k ps) -> u32 xid ->
  parse d n bs off = Ok (v, o) ->
  exists c' k' ps', v = VTup "ofp_port_mod" [hdr_view 16 xid (body (MPortMod p hw c k ps)); VInt (84934656 + 8 + zlen (body (MPortMod p hw c k ps)));
                                             VBytes (be 4 p ++ [0; 0]); VInt c'; VInt k'; VList ps'].
Proof.
  intros Hat Hok Hx E. destruct d as [|d]; [discriminate|]. destruct (header_of _ _ _ _ Hat Hok Hx) as [Hh Hb]. cbn [mtype] in Hh.
  destruct (port_mod_fields _ _ _ _ _ _ _ _ Hat Hok) as (c' & k' & F).
  revert E. by_type Hh. unfold p_port_mod. rewrite Hh. cbn [bind]. rewrite F. cbn [bind].
  destruct (port_mod_props n bs _ _) as [[ps' o']|e]; [|discriminate]. intros E. injection E as <- _.
  exists c', k', ps'. reflexivity.
Qed.

Lemma port_mod_loops d n bs off xid p hw c k ps : at_ bs off (mwire xid (MPortMod p hw c k ps)) -> msg_ok (MPortMod p hw c k ps) -> u32 xid ->
  ~ In (p / 65536) [0; 1; 65535] -> parse d n bs off = Err OutOfFuel.
Proof.
  intros Hat Hok Hx Hp. destruct d as [|d]; [reflexivity|]. destruct (header_of _ _ _ _ Hat Hok Hx) as [Hh Hb]. cbn [mtype] in Hh.
  destruct (port_mod_fields _ _ _ _ _ _ _ _ Hat Hok) as (c' & k' & F).
  by_type Hh. unfold p_port_mod. rewrite Hh. cbn [bind]. rewrite F. cbn [bind].
  assert (Hb' : exists r, body (MPortMod p hw c k ps) = be 4 p ++ r /\ (4 <= length r)%nat).
  { exists (enc [P 4; R hw; P 2; U 4 c; U 4 k; R (concat (map pprop_wire ps))]). split; [reflexivity|]. rewrite enc_length. cbn [flen fld_len]. lia. }
  destruct Hb' as (r & Er & Lr). rewrite Er in *. rewrite port_mod_stuck; [reflexivity | rewrite app_length, be_length; lia | |].
  - apply at_length in Hb. rewrite app_length, be_length in Hb. lia.
  - destruct (msg_ok_parts _ Hok) as [Hf _]. cbn [body_fields] in Hf. inversion Hf as [|? ? Hp4 _]; subst. cbn [in_range] in Hp4. change (256 ^ Z.of_nat 4) with 4294967296 in Hp4.
    rewrite (type_of bs (off + 8) _ ((p / 65536) / 256 mod 256) ((p / 65536) mod 256) Hb).
    + rewrite (Z.mod_small (p / 65536 / 256)) by (split; [apply Z.div_pos; [apply Z.div_pos|]; lia | apply Z.div_lt_upper_bound; [lia|]; apply Z.div_lt_upper_bound; lia]).
      rewrite <- Z.div_mod by lia. exact Hp.
    + cbn [be app firstn]. rewrite !Z.div_div by lia. reflexivity.
Qed.

Lemma port_mod_small_loops d n bs off xid p hw c k ps : at_ bs off (mwire xid (MPortMod p hw c k ps)) -> msg_ok (MPortMod p hw c k ps) -> u32 xid ->
  p < 65536 -> ~ In (u16_at hw 0) [0; 1; 65535] -> parse d n bs off = Err OutOfFuel.
Proof.
  intros Hat Hok Hx Hp Hn. destruct d as [|d]; [reflexivity|]. destruct (header_of _ _ _ _ Hat Hok Hx) as [Hh Hb]. cbn [mtype] in Hh.
  destruct (port_mod_fields _ _ _ _ _ _ _ _ Hat Hok) as (c' & k' & F). assert (Hhw : length hw = 6%nat) by (destruct Hok as (_ & _ & H & _); exact H).
  by_type Hh. unfold p_port_mod. rewrite Hh. cbn [bind]. rewrite F. cbn [bind].
  assert (Hb' : exists r, body (MPortMod p hw c k ps) = (be 4 p ++ zeros 4) ++ hw ++ r).
  { exists (enc [P 2; U 4 c; U 4 k; R (concat (map pprop_wire ps))]). unfold body, enc. cbn [body_fields map enc1 concat]. rewrite <- !app_assoc. reflexivity. }
  destruct Hb' as (r & Er). rewrite Er in *. destruct (msg_ok_parts _ Hok) as [Hf _]. cbn [body_fields] in Hf. inversion Hf as [|? ? Hp4 _]; subst. cbn [in_range] in Hp4.
  rewrite !app_length, be_length, zeros_length, Hhw.
  assert (T : u16_at bs (off + 8) = 0).
  { rewrite (type_of bs (off + 8) _ 0 0 Hb); [reflexivity|]. cbn [be app firstn]. rewrite !Z.div_div by lia. rewrite !Z.div_small by lia. reflexivity. }
  pose proof (at_length _ _ _ Hb) as L. rewrite !app_length, be_length, zeros_length, Hhw in L.
  apply at_app in Hb. destruct Hb as [_ Hb]. rewrite app_length, be_length, zeros_length in Hb.
  assert (Hlt : (off + 8 <? off + (8 + (4 + 4 + (6 + length r))))%nat = true) by (apply Nat.ltb_lt; lia).
  destruct n as [|n]; cbn [port_mod_props]; rewrite Hlt; [reflexivity|].
  rewrite prop_type_ok by lia. cbn [bind]. rewrite T. change (0 =? 0) with true. cbv iota. unfold p_port_mod_prop_ethernet, fixed.
  rewrite (unp_ok "HHI" [FU 2; FU 2; FU 4] bs _ eq_refl) by (cbn [calcsize item_size]; lia). cbn [bind calcsize item_size].
  rewrite port_mod_stuck; [reflexivity | lia | lia |].
  destruct hw as [|a [|b hw]]; [discriminate|discriminate|]. replace (off + 8 + (2 + (2 + (4 + 0))))%nat with (off + 8 + (4 + 4))%nat by lia.
  rewrite (type_of bs (off + 8 + (4 + 4)) _ a b Hb eq_refl). replace (256 * a + b) with (u16_at (a :: b :: hw) 0) by (unfold u16_at, byte_at; cbn [nth Nat.add]; lia). exact Hn.
Qed.

(** *** Meter modifications *)

Lemma exp_band_stuck m off r s e b : at_ m off (band_wire (BdExperimenter r s e b)) -> band_ok (BdExperimenter r s e b) ->
  exists v, p_meter_band m off = Ok (v, off).
Proof.
  intros Hat Hf. unfold band_wire, band_ok, p_meter_band, p_meter_band_header in *. cbn [band_fields] in *.
  pose proof (at_enc_app m off [U 2 65535; U 2 (16 + zlen b); U 4 r; U 4 s] [U 4 e; R b] Hat) as [H1 _].
  assert (F1 : fits [U 2 65535; U 2 (16 + zlen b); U 4 r; U 4 s]) by (apply (fits_app _ [U 4 e; R b]); exact Hf).
  rewrite (fixed_enc "ofp_meter_band_header" "HHII" [U 2 65535; U 2 (16 + zlen b); U 4 r; U 4 s] m off eq_refl F1 H1). cbn [bind vals].
  change (exists v, p_meter_band_experimenter m off = Ok (v, off)). unfold p_meter_band_experimenter.
  pose proof (at_enc_app m off [U 2 65535; U 2 (16 + zlen b); U 4 r; U 4 s; U 4 e] [R b] Hat) as [H2 _].
  assert (F2 : fits [U 2 65535; U 2 (16 + zlen b); U 4 r; U 4 s; U 4 e]) by (apply (fits_app _ [R b]); exact Hf).
  pose proof (unp_enc "HH3I" [U 2 65535; U 2 (16 + zlen b); U 4 r; U 4 s; U 4 e] m off eq_refl F2 H2) as E.
  unfold unp in E. destruct (unpacks "HH3I" m off) as [vs|x]; [|discriminate]. cbn [bind] in *.
  destruct (sizes "HH3I") as [k|x]; [|discriminate]. cbn [bind] in E. injection E as -> _.
  cbn [vals]. eexists. reflexivity.
Qed.


Lemma bands_stuck m limit l1 : forall off r s e b,
  at_ m off (bands_wire l1 ++ band_wire (BdExperimenter r s e b)) -> Forall band_ok l1 -> band_ok (BdExperimenter r s e b) ->
  (off + length (bands_wire l1) < limit)%nat ->
  forall n, while_fetch n (p_meter_band m) limit off = Err OutOfFuel.
Proof.
  induction l1 as [|x l1 IH]; intros off r s e b Hat Hl Hb Hlim n.
  - cbn in Hat, Hlim. destruct (exp_band_stuck _ _ _ _ _ _ Hat Hb) as [v E]. apply (stuck_loop _ _ _ v); [lia | exact E].
  - unfold bands_wire in Hat, Hlim. cbn [map concat] in Hat, Hlim. rewrite <- app_assoc in Hat. apply at_app in Hat. destruct Hat as [H1 H2].
    rewrite app_length in Hlim. pose proof (Forall_inv Hl) as Hx. pose proof (Forall_inv_tail Hl) as Hl'.
    assert (Hlt : (off <? limit)%nat = true) by (apply Nat.ltb_lt; pose proof (band_len x); lia).
    destruct x as [r1 s1|r1 s1 p1|r1 s1 e1 b1].
    3: { destruct (exp_band_stuck _ _ _ _ _ _ H1 Hx) as [v E]. apply (stuck_loop _ _ _ v); [apply Nat.ltb_lt; exact Hlt | exact E]. }
    all: (destruct n as [|n]; cbn [while_fetch]; rewrite Hlt; [reflexivity|];
      rewrite (band_parse _ _ _ H1 Hx I); cbn [bind];
      rewrite (IH _ _ _ _ _ H2 Hl' Hb ltac:(unfold bands_wire; lia) n); reflexivity).
Qed.

Lemma meter_mod_loops bs off xid c f m l : at_ bs off (mwire xid (MMeterMod c f m l)) -> msg_ok (MMeterMod c f m l) -> u32 xid ->
  ~ Forall band_plain l -> forall d n, parse d n bs off = Err OutOfFuel.
Proof.
  intros Hat Hok Hx Hl d n. destruct d as [|d]; [reflexivity|]. destruct (header_of _ _ _ _ Hat Hok Hx) as [Hh Hb]. by_type Hh. cbn [mtype].
  change (p_meter_mod n bs off = Err OutOfFuel). unfold p_meter_mod. rewrite Hh. cbn [bind].
  destruct Hok as (Hf & _ & Hext). unfold body in *. cbn [body_fields] in *.
  rewrite enc_length. cbn [flen fld_len]. cut_layout [U 2 c; U 2 f; U 4 m] Hb Hf.
  rewrite (unp_enc "HHI" [U 2 c; U 2 f; U 4 m]) by (try assumption; reflexivity). cbn [bind vals flen fld_len] in *.
  rewrite enc_R in Hb.
  assert (S : exists l1 r s e b l2, l = l1 ++ BdExperimenter r s e b :: l2).
  { clear -Hl. induction l as [|x l IH]; [contradict Hl; constructor|].
    destruct x as [r s|r s p|r s e b].
    3: { exists [], r, s, e, b, l. reflexivity. }
    all: (destruct IH as (l1 & r' & s' & e' & b' & l2 & ->); [intros Hc; apply Hl; constructor; [exact I | exact Hc]|];
      eexists (_ :: l1), r', s', e', b', l2; reflexivity). }
  destruct S as (l1 & r & s & e & b & l2 & ->). apply Forall_app in Hext. destruct Hext as [E1 E2].
  unfold bands_wire in *. rewrite map_app, concat_app in *. cbn [map concat] in *. rewrite app_assoc in Hb. apply at_app in Hb. destruct Hb as [Hb _].
  rewrite (bands_stuck bs _ l1 _ r s e b Hb E1 (Forall_inv E2)); [reflexivity|].
  rewrite !app_length. pose proof (band_len (BdExperimenter r s e b)). unfold bands_wire. lia.
Qed.


(** The header goes out as the caller wrote it. *)
Lemma meter_mod_built dx d v t lv l x xid c f m bv bs :
  type_arg v 5 -> opt_arg 8 lv l -> opt_arg dx x xid -> fits [U 1 t; U 2 l; U 4 xid; U 2 c; U 2 f; U 4 m] -> bands_arg bv bs -> Forall band_ok bs -> (1 <= d)%nat ->
  call (obj dx d) dx "ofp_meter_mod" [VTup "ofp_header" [v; VInt t; lv; x]; VInt c; VInt f; VInt m; bv] =
  Ok (enc [U 1 5; U 1 t; U 2 l; U 4 xid; U 2 c; U 2 f; U 4 m; R (bands_wire bs)]).
Proof.
  intros Hv Hl Hx Hf Hb Hok Hd.
  change (ofp_meter_mod (obj dx d) (VTup "ofp_header" [v; VInt t; lv; x]) (VInt c) (VInt f) (VInt m) bv =
    Ok (enc ([U 1 5; U 1 t; U 2 l; U 4 xid] ++ [U 2 c; U 2 f; U 4 m; R (bands_wire bs)]))).
  unfold ofp_meter_mod. rewrite (bands_build dx d bv bs Hb Hok Hd). cbn [bind]. destruct d as [|d]; [lia|].
  assert (Eh : obj dx (S d) (VTup "ofp_header" [v; VInt t; lv; x]) = Ok (enc [U 1 5; U 1 t; U 2 l; U 4 xid])).
  { change (ofp_header dx v (VInt t) lv x = Ok (enc [U 1 5; U 1 t; U 2 l; U 4 xid])). unfold ofp_header.
    assert (Ev : default v 5 = VInt 5) by (destruct Hv as [->| ->]; reflexivity).
    assert (Ex : default x dx = VInt xid) by (destruct Hx as [[-> ->]| ->]; reflexivity).
    assert (El : default lv 8 = VInt l) by (destruct Hl as [[-> ->]| ->]; reflexivity).
    rewrite Ev, Ex, El. cbn [py_eqz]. rewrite Z.eqb_refl. cbn [assert_ bind].
    apply (packs_enc "BBHI" [U 1 5; U 1 t; U 2 l; U 4 xid]); [reflexivity|]. apply Forall_cons; [cbn; lia|].
    apply (fits_app [U 1 t; U 2 l; U 4 xid] [U 2 c; U 2 f; U 4 m]) in Hf. apply Hf. }
  rewrite Eh. cbn [bind].
  change [VBytes (enc [U 1 5; U 1 t; U 2 l; U 4 xid]); VInt c; VInt f; VInt m] with (vals [R (enc [U 1 5; U 1 t; U 2 l; U 4 xid]); U 2 c; U 2 f; U 4 m]).
  rewrite (pack_app_enc "8sHHI" [R (enc [U 1 5; U 1 t; U 2 l; U 4 xid]); U 2 c; U 2 f; U 4 m]); [|reflexivity|].
  - rewrite enc_app. unfold enc at 1. cbn [Datatypes.app map concat enc1]. reflexivity.
  - apply Forall_cons; [exact I|]. apply (fits_app [U 1 t; U 2 l; U 4 xid] [U 2 c; U 2 f; U 4 m]) in Hf. apply Hf.
Qed.

Lemma meter_mod_none dx d c f m bv b : call (obj dx d) dx "ofp_meter_mod" [VNone; c; f; m; bv] <> Ok b.
Proof.
  intros E. change (ofp_meter_mod (obj dx d) VNone c f m bv = Ok b) in E. unfold ofp_meter_mod in E. apply bind_ok in E. destruct E as (bs & _ & E).
  destruct d; discriminate E.
Qed.

(** The message is right only if its type and its length were given. *)
Lemma meter_mod_wire xid t l c f m bs : u8 t -> u16 l -> 8 + zlen (body (MMeterMod c f m bs)) < 65536 ->
  enc [U 1 5; U 1 t; U 2 l; U 4 xid; U 2 c; U 2 f; U 4 m; R (bands_wire bs)] = mwire xid (MMeterMod c f m bs) <->
  t = 29 /\ l = 8 + zlen (body (MMeterMod c f m bs)).
Proof.
  intros Ht Hl Hlen. unfold mwire. cbn [mtype]. rewrite msg_enc by (unfold u8; lia).
  change [U 1 5; U 1 t; U 2 l; U 4 xid; U 2 c; U 2 f; U 4 m; R (bands_wire bs)] with ([U 1 5; U 1 t; U 2 l; U 4 xid] ++ body_fields (MMeterMod c f m bs)).
  change [U 1 5; U 1 29; U 2 (8 + zlen (body (MMeterMod c f m bs))); U 4 xid; R (body (MMeterMod c f m bs))] with
    ([U 1 5; U 1 29; U 2 (8 + zlen (body (MMeterMod c f m bs))); U 4 xid] ++ [R (body (MMeterMod c f m bs))]).
  rewrite !enc_app, enc_R. change (enc (body_fields (MMeterMod c f m bs))) with (body (MMeterMod c f m bs)). split.
  - intros E. apply app_inv_tail in E. unfold enc in E. cbn [map concat enc1] in E.
    pose proof (f_equal (fun l => nth 1 l 0) E) as E1. cbn in E1. unfold u8 in Ht. rewrite Z.mod_small in E1 by lia.
    apply (f_equal (fun l => firstn 2 (skipn 2 l))) in E. unfold u16 in Hl.
    change (be 2 l = be 2 (8 + zlen (body (MMeterMod c f m bs)))) in E.
    apply (f_equal of_be) in E. rewrite !of_be_be in E by (unfold in_u; change (256 ^ Z.of_nat 2) with 65536; unfold zlen in *; lia). split; assumption.
  - intros [-> ->]. reflexivity.
Qed.

(** OpenFlow 1.4 status messages and statistics the library cannot build or
    read. *)

From Verif Require Import Py Struct P_Struct S_Hello S_Ports P_Hello P_Ports S_Wire4 S_Msg4 M_Build4 M_Parse4 P_Wire4 P_Act4 P_Rebuild4 P_Stat4 P_Msg4 P_MsgParse4 P_MsgRebuild4 P_Term4 P_MsgBad4.
From Verif Require Import S_Wire5 S_Msg5 S_Term5 M_Build5 M_Parse5 P_Wire5 P_Act5 P_Stat5 P_Msg5 P_MsgParse5 P_Rebuild5 P_Term5 P_MsgBad5.
Local Open Scope Z_scope.
Local Open Scope list_scope.

(** *** Ports *)

Definition port_front (no : Z) (hw name : bytes) (config state k : Z) : list fld :=
  [U 4 no; U 2 (40 + k); P 2; R hw; P 2; R (name16 name); U 4 config; U 4 state].

Lemma port_fields_front no hw name config state props :
  port_fields no hw name config state props = port_front no hw name config state (zlen props) ++ [R props].
Proof. reflexivity. Qed.

Lemma port_front_unp m off no hw name config state k : at_ m off (enc (port_front no hw name config state k)) ->
  fits (port_front no hw name config state k) -> length hw = 6%nat -> (length name <= 16)%nat ->
  unp "IH2x6s2x16sII" m off = Ok (vals (port_front no hw name config state k), (off + 40)%nat).
Proof.
  intros Hat Hf Hh Hn. assert (Ln : length (name16 name) = 16%nat) by (unfold name16; rewrite app_length, zeros_length; lia).
  rewrite (unp_enc "IH2x6s2x16sII" (port_front no hw name config state k) m off); [| |exact Hf|exact Hat].
  - unfold port_front. cbn [flen fld_len]. rewrite Hh, Ln. reflexivity.
  - unfold port_front. cbn [map shape]. rewrite Hh, Ln. reflexivity.
Qed.

(** A port without properties. *)
Lemma port_bare m off no hw name config state rest : at_ m off (enc (port_fields no hw name config state []) ++ rest) ->
  fits (port_fields no hw name config state []) -> length hw = 6%nat -> (length name <= 16)%nat -> p_port m off = Err NameError.
Proof.
  intros Hat Hf Hh Hn. apply at_app in Hat. destruct Hat as [Hat _]. rewrite port_fields_front in Hat, Hf.
  apply at_enc_app in Hat. destruct Hat as [H1 _]. apply fits_app in Hf. destruct Hf as [F1 _].
  unfold p_port. rewrite (port_front_unp _ _ _ _ _ _ _ _ H1 F1 Hh Hn). unfold port_front. cbn [vals bind].
  change (Z.to_nat (40 + zlen [])) with 40%nat. rewrite Nat.ltb_irrefl. reflexivity.
Qed.

Definition ethernet_fields (c a s p cs ms : Z) : list fld := [U 2 0; U 2 32; P 4; U 4 c; U 4 a; U 4 s; U 4 p; U 4 cs; U 4 ms].

(** A port whose first property is that of an Ethernet port. *)
Lemma port_ethernet m off no hw name config state c a s p cs ms more : at_ m off (enc (port_fields no hw name config state (enc (ethernet_fields c a s p cs ms) ++ more))) ->
  fits (port_fields no hw name config state (enc (ethernet_fields c a s p cs ms) ++ more)) -> fits (ethernet_fields c a s p cs ms) -> length hw = 6%nat -> (length name <= 16)%nat ->
  p_port m off = Ok (VTup "ofp_port_desc_prop_ethernet" (all_z [0; 32; c; a; s; p; cs; ms]), (off + 40 + 32)%nat).
Proof.
  intros Hat Hf He Hh Hn. rewrite port_fields_front in Hat, Hf.
  apply at_enc_app in Hat. destruct Hat as [H1 H2]. apply fits_app in Hf. destruct Hf as [F1 _]. rewrite enc_R in H2.
  assert (L : flen (port_front no hw name config state (zlen (enc (ethernet_fields c a s p cs ms) ++ more))) = 40%nat).
  { unfold port_front, name16. cbn [flen fld_len]. rewrite app_length, zeros_length. lia. }
  rewrite L in H2. apply at_app in H2. destruct H2 as [H2 _].
  unfold p_port. rewrite (port_front_unp _ _ _ _ _ _ _ _ H1 F1 Hh Hn). unfold port_front. cbn [vals bind].
  assert (Lt : (off + 40 <? off + Z.to_nat (40 + zlen (enc (ethernet_fields c a s p cs ms) ++ more)))%nat = true).
  { apply Nat.ltb_lt. unfold zlen. rewrite app_length, enc_length. unfold ethernet_fields. cbn [flen fld_len]. lia. }
  rewrite Lt. rewrite (prop_type_at m (off + 40) 0 [U 2 32; P 4; U 4 c; U 4 a; U 4 s; U 4 p; U 4 cs; U 4 ms] H2) by (cbn; lia). cbn [bind].
  change (0 =? 0) with true. cbv iota. unfold p_port_desc_prop_ethernet.
  rewrite (fixed_enc "ofp_port_desc_prop_ethernet" "HH4x6I" (ethernet_fields c a s p cs ms) m (off + 40) eq_refl He H2). reflexivity.
Qed.

(** The body of a PORT_STATUS message. *)
Lemma port_status_parts bs off xid reason no hw name config state props :
  at_ bs off (port_status_wire xid reason no hw name config state props) -> u32 xid -> u8 reason -> zlen props <= 65479 -> length hw = 6%nat -> (length name <= 16)%nat ->
  exists body, p_header bs off = Ok (hdr_view 12 xid body, 12, (8 + length body)%nat, (off + 8)%nat) /\ zlen body = 48 + zlen props /\
    unp "B7x" bs (off + 8) = Ok ([VInt reason], (off + 16)%nat) /\ at_ bs (off + 16) (enc (port_fields no hw name config state props)).
Proof.
  intros Hat Hx Hr Hp Hh Hn. unfold port_status_wire in Hat. set (body := enc ([U 1 reason; P 7] ++ port_fields no hw name config state props)) in *.
  assert (Lb : zlen body = 48 + zlen props).
  { unfold body, zlen, port_fields, name16. rewrite enc_length. cbn [flen fld_len Datatypes.app]. rewrite app_length, zeros_length. lia. }
  destruct (p_header_ok bs off 12 xid body Hat ltac:(unfold u8; lia) Hx ltac:(lia)) as [Eh Hb]. exists body. split; [exact Eh|]. split; [exact Lb|].
  unfold body in Hb. apply at_enc_app in Hb. destruct Hb as [H1 H2]. cbn [flen fld_len] in H2. split; [|replace (off + 16)%nat with (off + 8 + (1 + (7 + 0)))%nat by lia; exact H2].
  rewrite (unp_enc "B7x" [U 1 reason; P 7] bs (off + 8) eq_refl); [cbn [vals flen fld_len]; do 2 f_equal; lia | | exact H1].
  repeat constructor; cbn; unfold u8 in Hr; lia.
Qed.

Lemma port_status_bare d n bs off xid reason no hw name config state :
  at_ bs off (port_status_wire xid reason no hw name config state []) -> u32 xid -> u8 reason -> fits (port_fields no hw name config state []) ->
  length hw = 6%nat -> (length name <= 16)%nat -> parse (S d) n bs off = Err NameError.
Proof.
  intros Hat Hx Hr Hf Hh Hn. destruct (port_status_parts _ _ _ _ _ _ _ _ _ _ Hat Hx Hr ltac:(unfold zlen; cbn [length]; lia) Hh Hn) as (body & Eh & _ & E1 & Hp).
  by_type Eh. unfold p_port_status. rewrite Eh. cbn [bind]. rewrite E1. cbn [bind].
  rewrite (port_bare bs (off + 16) no hw name config state []); [reflexivity | rewrite app_nil_r; exact Hp | exact Hf | exact Hh | exact Hn].
Qed.

Lemma port_status_ethernet d n bs off xid reason no hw name config state c a s p cs ms more :
  let props := enc (ethernet_fields c a s p cs ms) ++ more in
  at_ bs off (port_status_wire xid reason no hw name config state props) -> u32 xid -> u8 reason -> fits (port_fields no hw name config state props) -> zlen props <= 65479 ->
  fits (ethernet_fields c a s p cs ms) -> length hw = 6%nat -> (length name <= 16)%nat ->
  exists body, zlen body = 48 + zlen props /\
  parse (S d) n bs off = Ok (VTup "ofp_port_status" [hdr_view 12 xid body; VInt reason; VTup "ofp_port_desc_prop_ethernet" (all_z [0; 32; c; a; s; p; cs; ms])], (off + 88)%nat).
Proof.
  intros props Hat Hx Hr Hf Hl He Hh Hn. destruct (port_status_parts _ _ _ _ _ _ _ _ _ _ Hat Hx Hr Hl Hh Hn) as (body & Eh & Lb & E1 & Hp).
  exists body. split; [exact Lb|]. by_type Eh. match goal with |- _ = ?r => change (p_port_status bs off = r) end. unfold p_port_status. rewrite Eh. cbn [bind]. rewrite E1. cbn [bind].
  rewrite (port_ethernet bs (off + 16) no hw name config state c a s p cs ms more Hp Hf He Hh Hn). cbn [bind Datatypes.app]. do 2 f_equal. lia.
Qed.

Lemma port_status_unbuilt o dx args b : call o dx "ofp_port_status" args <> Ok b.
Proof.
  intros E. destruct args as [|h [|r [|p [|q l]]]]; try discriminate E.
  change (ofp_port_status o h r p = Ok b) in E. unfold ofp_port_status in E.
  apply bind_ok in E. destruct E as (x & _ & E). apply bind_ok in E. destruct E as (y & _ & E). discriminate.
Qed.

(** [ofp_port] announces the properties it leaves out. *)
Lemma port_built o dx no l hw name config state v b p : call o dx "ofp_port" [no; l; hw; name; config; state; v] = Ok b -> seqarg o v = Ok p ->
  length b = 40%nat /\ u16_at b 4 = 40 + zlen p.
Proof.
  intros E Ep. change (ofp_port o no l hw name config state v = Ok b) in E. unfold ofp_port in E.
  apply bind_ok in E. destruct E as (u1 & _ & E). apply bind_ok in E. destruct E as (u2 & _ & E). rewrite Ep in E. cbn [bind] in E.
  apply (packs_inv "IH2x6s2x16sII" [FU 4; FU 2; FX 2; FS 6; FX 2; FS 16; FU 4; FU 4] _ _ eq_refl) in E.
  split; [apply pack_length in E; exact E|].
  cbn [pack] in E. apply bind_ok in E. destruct E as (b1 & E1 & E). apply bind_ok in E. destruct E as (b2 & E2 & E). injection E as <-.
  apply bind_ok in E2. destruct E2 as (b3 & E3 & E2). apply bind_ok in E2. destruct E2 as (b4 & _ & E2). injection E2 as <-.
  apply pack_item_length in E1. cbn [item_size] in E1. cbn [pack_item] in E3. destruct (in_u 2 (40 + zlen p)) eqn:Hu; [|discriminate]. injection E3 as <-.
  unfold in_u in Hu. change (256 ^ Z.of_nat 2) with 65536 in Hu. destruct b1 as [|a1 [|a2 b1]]; try discriminate.
  change (u16_at (b1 ++ be 2 (40 + zlen p) ++ b4) 2 = 40 + zlen p). apply u16_be2; [lia | cbn [length] in E1; lia].
Qed.

(** *** Roles *)

Definition role_fields (role reason generation : Z) : list fld := [U 4 role; U 1 reason; P 3; U 8 generation].

Lemma role_status_parts bs off xid role reason generation props :
  at_ bs off (role_status_wire xid role reason generation props) -> u32 xid -> fits (role_fields role reason generation) -> zlen props <= 65511 ->
  exists body vs, p_header bs off = Ok (hdr_view 30 xid body, 30, (8 + length body)%nat, (off + 8)%nat) /\ zlen body = 16 + zlen props /\
    unp "IB3xQ" bs off = Ok (vs, (off + 16)%nat) /\ prop_type bs (off + 8) = Ok (role / 65536) /\ (off + 24 <= length bs)%nat.
Proof.
  intros Hat Hx Hf Hl. unfold role_status_wire in Hat. set (body := enc [U 4 role; U 1 reason; P 3; U 8 generation; R props]) in *.
  assert (Lb : zlen body = 16 + zlen props) by (unfold body, zlen; rewrite enc_length; cbn [flen fld_len]; lia).
  destruct (p_header_ok bs off 30 xid body Hat ltac:(unfold u8; lia) Hx ltac:(lia)) as [Eh Hb]. exists body.
  pose proof (at_length _ _ _ Hb) as L. unfold zlen in Lb.
  rewrite (unp_ok "IB3xQ" [FU 4; FU 1; FX 3; FU 8] bs off eq_refl) by (cbn [calcsize item_size]; lia). cbn [calcsize item_size].
  eexists. split; [exact Eh|]. split; [unfold zlen; lia|]. split; [do 2 f_equal; lia|]. split; [|lia].
  rewrite prop_type_ok by lia. f_equal. inversion Hf as [|? ? H4 _]; subst. cbn [in_range] in H4. change (256 ^ Z.of_nat 4) with 4294967296 in H4.
  rewrite (type_of bs (off + 8) _ ((role / 65536) / 256 mod 256) ((role / 65536) mod 256) Hb).
  - rewrite (Z.mod_small (role / 65536 / 256)) by (split; [apply Z.div_pos; [apply Z.div_pos|]; lia | apply Z.div_lt_upper_bound; [lia|]; apply Z.div_lt_upper_bound; lia]).
    rewrite <- Z.div_mod by lia. reflexivity.
  - unfold body, enc. cbn [map enc1 concat be Datatypes.app firstn]. rewrite !Z.div_div by lia. reflexivity.
Qed.

Lemma role_status_error d n bs off xid role reason generation props :
  at_ bs off (role_status_wire xid role reason generation props) -> u32 xid -> fits (role_fields role reason generation) -> zlen props <= 65511 ->
  role / 65536 <> 65535 -> parse (S d) (S n) bs off = Err ValueError.
Proof.
  intros Hat Hx Hf Hl Hr. destruct (role_status_parts _ _ _ _ _ _ _ Hat Hx Hf Hl) as (body & vs & Eh & Lb & E1 & Et & L).
  by_type Eh. unfold p_role_status. rewrite Eh. cbn [bind]. rewrite E1. cbn [bind while_fetch].
  assert (Lt : (off + 8 <? off + (8 + length body))%nat = true) by (apply Nat.ltb_lt; unfold zlen in Lb; lia).
  rewrite Lt. unfold p_role_prop. rewrite Et. cbn [bind]. apply Z.eqb_neq in Hr. rewrite Hr. reflexivity.
Qed.

Lemma role_status_loops d n bs off xid role reason generation props :
  at_ bs off (role_status_wire xid role reason generation props) -> u32 xid -> fits (role_fields role reason generation) -> zlen props <= 65511 ->
  role / 65536 = 65535 -> parse d n bs off = Err OutOfFuel.
Proof.
  intros Hat Hx Hf Hl Hr. destruct d as [|d]; [reflexivity|]. destruct (role_status_parts _ _ _ _ _ _ _ Hat Hx Hf Hl) as (body & vs & Eh & Lb & E1 & Et & L).
  by_type Eh. unfold p_role_status. rewrite Eh. cbn [bind]. rewrite E1. cbn [bind].
  assert (S : exists v, p_role_prop off bs (off + 8) = Ok (v, (off + 8)%nat)).
  { unfold p_role_prop. rewrite Et. cbn [bind]. rewrite Hr. change (65535 =? 65535) with true. cbv iota. unfold p_role_prop_experimenter.
    pose proof (unp_ok "HHII" [FU 2; FU 2; FU 4; FU 4] bs off eq_refl ltac:(cbn [calcsize item_size]; lia)) as U.
    unfold unp in U. destruct (unpacks "HHII" bs off) as [w|e]; [|discriminate]. cbn [bind] in U. destruct (sizes "HHII"); [|discriminate]. cbn [bind] in U. injection U as -> _.
    cbn [bind decode]. eexists. reflexivity. }
  destruct S as [v S]. rewrite (stuck_loop _ _ _ v); [reflexivity | unfold zlen in Lb; lia | exact S].
Qed.

Lemma role_status_type o dx h role reason generation props b : call o dx "ofp_role_status" [h; role; reason; generation; props] = Ok b -> In (byte_at b 1) [24; 25].
Proof.
  intros E. change (ofp_role_status o dx h role reason generation props = Ok b) in E. unfold ofp_role_status, message in E.
  apply bind_ok in E. destruct E as (ps & _ & E). apply bind_ok in E. destruct E as (dt & _ & E).
  destruct (ofp_built _ _ _ _ _ _ E) as (t & z & v & x & dt' & Hf & Ht & _ & _ & _ & ->). cbn [Datatypes.app byte_at nth].
  assert (I : forall w, py_in (VInt w) (map VInt [24; 25]) = true -> In w [24; 25]).
  { intros w H. cbn in H. rewrite orb_false_r in H. apply orb_true_iff in H. rewrite !Z.eqb_eq in H. cbn [In]. lia. }
  unfold header_fields, tup, check_type, fill_type in Hf. destruct h as [| |hb| | |c [|h1 [|h2 [|h3 [|h4 [|h5 h6]]]]]]; try discriminate.
  - apply bind_ok in Hf. destruct Hf as (vs & _ & Hf). destruct vs as [|v1 [|v2 [|v3 [|v4 [|v5 v6]]]]]; try discriminate.
    apply bind_ok in Hf. destruct Hf as (u & Hu & Hf). injection Hf as _ -> _. unfold assert_ in Hu. destruct (py_in _ _) eqn:P; [|discriminate]. exact (I t P).
  - apply bind_ok in Hf. destruct Hf as (w & Hu & Hf). apply bind_ok in Hu. destruct Hu as (u & Hu & Hw). injection Hw as <-. injection Hf as _ -> _.
    unfold assert_ in Hu. destruct (py_in _ _) eqn:P; [|discriminate]. exact (I t P).
Qed.

(** *** Table status *)

Lemma table_desc_fails m off table config props : at_ m off (enc (table_desc_fields table config props)) -> p_table_desc m off = Err NameError.
Proof.
  intros Hat. apply at_length in Hat. rewrite enc_length in Hat. unfold table_desc_fields in Hat. cbn [flen fld_len] in Hat.
  unfold p_table_desc. rewrite (unp_ok "HBxI" [FU 2; FU 1; FX 1; FU 4] m off eq_refl) by (cbn [calcsize item_size]; lia). reflexivity.
Qed.

Lemma table_status_fails d n bs off xid reason table config props :
  at_ bs off (table_status_wire xid reason table config props) -> u32 xid -> zlen props <= 65511 -> parse (S d) n bs off = Err NameError.
Proof.
  intros Hat Hx Hl. unfold table_status_wire in Hat. set (body := enc ([U 1 reason; P 7] ++ table_desc_fields table config props)) in *.
  assert (Lb : zlen body = 16 + zlen props) by (unfold body, zlen; rewrite enc_length; unfold table_desc_fields; cbn [flen fld_len Datatypes.app]; lia).
  destruct (p_header_ok bs off 31 xid body Hat ltac:(unfold u8; lia) Hx ltac:(lia)) as [Eh Hb].
  unfold body in Hb. apply at_enc_app in Hb. destruct Hb as [H1 H2]. cbn [flen fld_len] in H2. apply at_length in H1. rewrite enc_length in H1. cbn [flen fld_len] in H1.
  by_type Eh. unfold p_table_status. rewrite Eh. cbn [bind].
  rewrite (unp_ok "B7x" [FU 1; FX 7] bs (off + 8) eq_refl) by (cbn [calcsize item_size]; lia). cbn [bind calcsize item_size].
  rewrite (table_desc_fails _ _ _ _ _ H2). reflexivity.
Qed.

Lemma table_status_long o dx h reason v t b : call o dx "ofp_table_status" [h; reason; v] = Ok b -> o v = Ok t -> (forall x, o (VBytes x) = Ok x) -> length b = (17 + length t)%nat.
Proof.
  intros E Et Ho. change (ofp_table_status o dx h reason v = Ok b) in E. unfold ofp_table_status, message in E.
  apply bind_ok in E. destruct E as (dt & E1 & E). apply bind_ok in E1. destruct E1 as (p & Ep & E1). rewrite Et in E1. injection E1 as <-.
  apply (packs_inv "H7x" [FU 2; FX 7] _ _ eq_refl) in Ep. apply pack_length in Ep. cbn [calcsize item_size] in Ep.
  destruct (ofp_built _ _ _ _ _ _ E) as (ty & z & u & x & dt' & _ & _ & _ & Ed & _ & ->). rewrite Ho in Ed. injection Ed as <-.
  rewrite !app_length, !be_length, Ep. cbn [length]. lia.
Qed.

(** *** Multipart requests and replies *)

(** The start of a multipart message. *)
Lemma multipart_start bs off ty xid t f b :
  at_ bs off (msg 5 ty xid (enc [U 2 t; U 2 f; P 4; R b])) -> u8 ty -> u32 xid -> u16 t -> u16 f -> zlen b <= 65519 ->
  exists body, p_header bs off = Ok (hdr_view ty xid body, ty, (8 + length body)%nat, (off + 8)%nat) /\ length body = (8 + length b)%nat /\
    unp "HH4x" bs (off + 8) = Ok ([VInt t; VInt f], (off + 16)%nat) /\ at_ bs (off + 16) b.
Proof.
  intros Hat Hty Hx Ht Hf Hl. set (body := enc [U 2 t; U 2 f; P 4; R b]) in *.
  assert (Lb : length body = (8 + length b)%nat) by (unfold body; rewrite enc_length; cbn [flen fld_len]; lia).
  destruct (p_header_ok bs off ty xid body Hat Hty Hx ltac:(unfold zlen in *; lia)) as [Eh Hb]. exists body. split; [exact Eh|]. split; [exact Lb|].
  unfold body in Hb. apply (at_enc_app bs (off + 8) [U 2 t; U 2 f; P 4] [R b]) in Hb. destruct Hb as [H1 H2]. rewrite enc_R in H2. cbn [flen fld_len] in H2.
  replace (off + 16)%nat with (off + 8 + (2 + (2 + (4 + 0))))%nat by lia. split; [|exact H2].
  apply (unp_enc "HH4x" [U 2 t; U 2 f; P 4] bs (off + 8) eq_refl); [|exact H1]. unfold u16 in *. repeat constructor; cbn; lia.
Qed.

(** Meter requests. *)
Lemma meter_request_fails d n bs off xid f ty m : at_ bs off (mwire xid (MRequest f (RqMeter ty m))) -> msg_ok (MRequest f (RqMeter ty m)) -> u32 xid ->
  parse (S d) n bs off = Err NameError.
Proof.
  intros Hat Hok Hx. pose proof Hok as (Hfits & Hl & [_ Hin]). cbn [body_fields rq_type] in Hfits.
  inversion Hfits as [|? ? Ft Hfits']; subst. inversion Hfits' as [|? ? Ff _]; subst. cbn [in_range] in Ft, Ff.
  unfold mwire in Hat. cbn [mtype] in Hat. unfold body in Hat, Hl. cbn [body_fields rq_type] in Hat, Hl.
  destruct (multipart_start _ _ _ _ _ _ _ Hat ltac:(unfold u8; lia) Hx ltac:(unfold u16; lia) ltac:(unfold u16; lia)
    ltac:(unfold zlen; rewrite enc_length; cbn; lia)) as (body & Eh & Lb & E1 & _).
  by_type Eh. change (p_multipart_request n bs off = Err NameError). unfold p_multipart_request. rewrite Eh. cbn [bind]. rewrite E1. cbn [bind].
  destruct Hin as [<-|[<-|[]]]; reflexivity.
Qed.

(** A list of statistics whose first entry fails. *)
Lemma list_first_fails n f limit off e : (off < limit)%nat -> f off = Err e -> list_fetch (S n) f limit off = Err e.
Proof. intros Hl He. unfold list_fetch. cbn [while_fetch]. apply Nat.ltb_lt in Hl. rewrite Hl, He. reflexivity. Qed.

Lemma list_first_never n f limit off v : (off < limit)%nat -> (forall r, f off <> Ok r) -> list_fetch n f limit off <> Ok v.
Proof.
  intros Hl He. unfold list_fetch. apply Nat.ltb_lt in Hl. destruct n as [|n]; cbn [while_fetch]; rewrite Hl; [discriminate|].
  destruct (f off) as [r|e] eqn:E; [destruct (He r eq_refl) | discriminate].
Qed.

(** The replies that are lists of statistics of one kind. *)
Definition reply_of (n : nat) (m : bytes) (t : Z) : nat -> res (pyval * nat) :=
  if t =? 3 then p_table_stats m else if t =? 4 then p_port_stats n m else if t =? 5 then p_queue_stats n m
  else if t =? 12 then p_table_features n m else if t =? 13 then p_port m else p_table_desc m.

Lemma reply_fails d n bs off xid t f b e :
  at_ bs off (msg 5 19 xid (enc [U 2 t; U 2 f; P 4; R b])) -> u32 xid -> u16 f -> zlen b <= 65519 -> b <> [] -> In t [3; 4; 5; 12; 13; 14] ->
  reply_of (S n) bs t (off + 16) = Err e -> parse (S d) (S n) bs off = Err e.
Proof.
  intros Hat Hx Hf Hl Hb Hin He. assert (Ht : u16 t) by (unfold u16; cbn [In] in Hin; lia).
  destruct (multipart_start _ _ _ _ _ _ _ Hat ltac:(unfold u8; lia) Hx Ht Hf Hl) as (body & Eh & Lb & E1 & _).
  assert (Lt : (off + 16 < off + (8 + length body))%nat) by (destruct b; [congruence|]; cbn [length] in Lb; lia).
  by_type Eh. change (p_multipart_reply (S n) bs off = Err e). unfold p_multipart_reply. rewrite Eh. cbn [bind]. rewrite E1. cbn [bind]. cbv zeta.
  repeat (destruct Hin as [<-|Hin]; [cbv beta iota delta [reply_of Z.eqb Pos.eqb] in He |- *;
    rewrite (list_first_fails n _ _ _ e Lt He); reflexivity|]). destruct Hin.
Qed.

Lemma reply_never d n bs off xid t f b v :
  at_ bs off (msg 5 19 xid (enc [U 2 t; U 2 f; P 4; R b])) -> u32 xid -> u16 f -> zlen b <= 65519 -> b <> [] -> In t [3; 4; 5; 12; 13; 14] ->
  (forall r, reply_of n bs t (off + 16) <> Ok r) -> parse d n bs off <> Ok v.
Proof.
  intros Hat Hx Hf Hl Hb Hin He. destruct d as [|d]; [discriminate|]. assert (Ht : u16 t) by (unfold u16; cbn [In] in Hin; lia).
  destruct (multipart_start _ _ _ _ _ _ _ Hat ltac:(unfold u8; lia) Hx Ht Hf Hl) as (body & Eh & Lb & E1 & _).
  assert (Lt : (off + 16 < off + (8 + length body))%nat) by (destruct b; [congruence|]; cbn [length] in Lb; lia).
  by_type Eh. change (p_multipart_reply n bs off <> Ok v). unfold p_multipart_reply. rewrite Eh. cbn [bind]. rewrite E1. cbn [bind]. cbv zeta.
  intros E. apply bind_ok in E. destruct E as ([r o] & E & _). revert E.
  repeat (destruct Hin as [<-|Hin]; [cbv beta iota delta [reply_of Z.eqb Pos.eqb] in He |- *; intros E; apply bind_ok in E; destruct E as (w & E & _);
    exact (list_first_never n _ _ _ w Lt He E)|]). destruct Hin.
Qed.

Lemma port_stats_never n m off r : p_port_stats n m off <> Ok r.
Proof.
  intros E. unfold p_port_stats in E. apply bind_ok in E. destruct E as ([vs o] & _ & E). destruct vs as [|[|len| | | |] vs]; try discriminate.
  apply bind_ok in E. destruct E as (x & _ & E). discriminate.
Qed.
Lemma queue_stats_never n m off r : p_queue_stats n m off <> Ok r.
Proof.
  intros E. unfold p_queue_stats in E. apply bind_ok in E. destruct E as ([vs o] & _ & E). destruct vs as [|[|len| | | |] vs]; try discriminate.
  apply bind_ok in E. destruct E as (x & _ & E). discriminate.
Qed.
Lemma table_stats_fails m off : (off + 24 <= length m)%nat -> p_table_stats m off = Err TypeError.
Proof. intros H. unfold p_table_stats. rewrite (unp_ok "B3xIQQ" [FU 1; FX 3; FU 4; FU 8; FU 8] m off eq_refl) by (cbn [calcsize item_size]; lia). reflexivity. Qed.

Lemma reply_parts xid f r : mwire xid (MReply f r) = msg 5 19 xid (enc [U 2 (rp_type r); U 2 f; P 4; R (enc (rp_fields r))]).
Proof. reflexivity. Qed.

Lemma reply_hyps f r : msg_ok (MReply f r) -> u16 f /\ zlen (enc (rp_fields r)) <= 65519.
Proof.
  intros (Hf & Hl & _). cbn [body_fields] in Hf. inversion Hf as [|? ? _ Hf']; subst. inversion Hf' as [|? ? Ff _]; subst. cbn [in_range] in Ff.
  split; [exact Ff|]. unfold body, zlen in *. cbn [body_fields] in Hl. rewrite enc_length in Hl. cbn [flen fld_len] in Hl. lia.
Qed.

Lemma table_reply_fails d n bs off xid f s l : at_ bs off (mwire xid (MReply f (RpTable (s :: l)))) -> msg_ok (MReply f (RpTable (s :: l))) -> u32 xid ->
  parse (S d) (S n) bs off = Err TypeError.
Proof.
  intros Hat Hok Hx. destruct (reply_hyps _ _ Hok) as [Hf Hl]. rewrite reply_parts in Hat.
  assert (Ls : (24 <= length (enc (rp_fields (RpTable (s :: l)))))%nat).
  { cbn [rp_fields map concat]. rewrite enc_length. cbn [flen fld_len]. rewrite app_length, enc_length. destruct s. cbn [table_stat_fields flen fld_len]. lia. }
  apply (reply_fails d n bs off xid _ f _ TypeError Hat Hx Hf Hl); [intros C; rewrite C in Ls; cbn in Ls; lia | cbn; auto |].
  apply table_stats_fails. destruct (multipart_start _ _ _ _ _ _ _ Hat ltac:(unfold u8; lia) Hx ltac:(unfold u16; cbn; lia) Hf Hl) as (body & _ & _ & _ & Hb).
  apply at_length in Hb. lia.
Qed.

Lemma port_reply_never d n bs off xid f s l v : at_ bs off (mwire xid (MReply f (RpPort (s :: l)))) -> msg_ok (MReply f (RpPort (s :: l))) -> u32 xid ->
  parse d n bs off <> Ok v.
Proof.
  intros Hat Hok Hx. destruct (reply_hyps _ _ Hok) as [Hf Hl]. rewrite reply_parts in Hat.
  apply (reply_never d n bs off xid _ f _ v Hat Hx Hf Hl); [| cbn; auto | intros r; apply port_stats_never].
  intros C. apply (f_equal (@length Z)) in C. cbn [rp_fields map concat] in C. rewrite enc_length in C. cbn [flen fld_len length] in C.
  rewrite app_length in C. unfold port_stat_wire in C. rewrite enc_length in C. destruct s. cbn [port_stat_fields Datatypes.app flen fld_len] in C. lia.
Qed.
Lemma queue_reply_never d n bs off xid f s l v : at_ bs off (mwire xid (MReply f (RpQueue (s :: l)))) -> msg_ok (MReply f (RpQueue (s :: l))) -> u32 xid ->
  parse d n bs off <> Ok v.
Proof.
  intros Hat Hok Hx. destruct (reply_hyps _ _ Hok) as [Hf Hl]. rewrite reply_parts in Hat.
  apply (reply_never d n bs off xid _ f _ v Hat Hx Hf Hl); [| cbn; auto | intros r; apply queue_stats_never].
  intros C. apply (f_equal (@length Z)) in C. cbn [rp_fields map concat] in C. rewrite enc_length in C. cbn [flen fld_len length] in C.
  rewrite app_length in C. unfold queue_stat_wire in C. rewrite enc_length in C. destruct s. cbn [queue_stat_fields Datatypes.app flen fld_len] in C. lia.
Qed.

(** TABLE_DESC and PORT_DESC replies. *)
Lemma table_desc_reply_fails d n bs off xid f table config props rest :
  at_ bs off (msg 5 19 xid (enc [U 2 14; U 2 f; P 4; R (enc (table_desc_fields table config props) ++ rest)])) -> u32 xid -> u16 f ->
  zlen (enc (table_desc_fields table config props) ++ rest) <= 65519 -> parse (S d) (S n) bs off = Err NameError.
Proof.
  intros Hat Hx Hf Hl. apply (reply_fails d n bs off xid 14 f _ NameError Hat Hx Hf Hl); [discriminate | cbn; auto 8 |].
  destruct (multipart_start _ _ _ _ _ _ _ Hat ltac:(unfold u8; lia) Hx ltac:(unfold u16; lia) Hf Hl) as (body & _ & _ & _ & Hb).
  apply at_app in Hb. exact (table_desc_fails _ _ _ _ _ (proj1 Hb)).
Qed.
Lemma port_desc_reply_fails d n bs off xid f no hw name config state rest :
  at_ bs off (msg 5 19 xid (enc [U 2 13; U 2 f; P 4; R (enc (port_fields no hw name config state []) ++ rest)])) -> u32 xid -> u16 f ->
  zlen (enc (port_fields no hw name config state []) ++ rest) <= 65519 -> fits (port_fields no hw name config state []) -> length hw = 6%nat -> (length name <= 16)%nat ->
  parse (S d) (S n) bs off = Err NameError.
Proof.
  intros Hat Hx Hf Hl Hp Hh Hn. apply (reply_fails d n bs off xid 13 f _ NameError Hat Hx Hf Hl); [discriminate | cbn; auto 8 |].
  destruct (multipart_start _ _ _ _ _ _ _ Hat ltac:(unfold u8; lia) Hx ltac:(unfold u16; lia) Hf Hl) as (body & _ & _ & _ & Hb).
  exact (port_bare _ _ _ _ _ _ _ _ Hb Hp Hh Hn).
Qed.

(** *** What cannot be built *)

Lemma replies_refused o dx ty h f body : In ty [14; 15; 16] -> call o dx "ofp_multipart_reply" [h; VInt ty; f; body] = Err ValueError.
Proof. intros H. repeat (destruct H as [<-|H]; [reflexivity|]). destruct H. Qed.

Lemma aggregate_refused dx d a b c e f m w : obj dx d (VTup "ofp_aggregate_stats_request" [a; b; c; e; f; m]) <> Ok w.
Proof.
  intros E. destruct d as [|d]; [discriminate|].
  change (ofp_aggregate_stats_request (obj dx d) a b c e f m = Ok w) in E. unfold ofp_aggregate_stats_request in E.
  apply bind_ok in E. destruct E as (desc & E1 & E). apply (packs_inv "B3xII4xQQ" [FU 1; FX 3; FU 4; FU 4; FX 4; FU 8; FU 8] _ _ eq_refl) in E1.
  apply pack_length in E1. cbn [calcsize item_size] in E1. apply bind_ok in E. destruct E as (u & E & _).
  unfold assert_ in E. destruct (length desc =? 40)%nat eqn:Ed; [|discriminate]. apply Nat.eqb_eq in Ed. lia.
Qed.

Lemma aggregate_not_built dx d h f m c k a b t w :
  call (obj dx d) dx "ofp_multipart_request" [h; VInt 2; f; VTup "ofp_aggregate_stats_request" [a; b; c; k; t; m]] <> Ok w.
Proof.
  intros E.
  change (ofp_multipart_request (obj dx d) dx h (VInt 2) f (VTup "ofp_aggregate_stats_request" [a; b; c; k; t; m]) = Ok w) in E.
  unfold ofp_multipart_request in E. apply bind_ok in E. destruct E as (b0 & E & _).
  change (bind (obj dx d (VTup "ofp_aggregate_stats_request" [a; b; c; k; t; m])) (fun b => Ok (VBytes b)) = Ok b0) in E.
  apply bind_ok in E. destruct E as (b1 & E & _). exact (aggregate_refused _ _ _ _ _ _ _ _ _ E).
Qed.

(** Requests whose body has to be bytes. *)
Lemma request_bytes_only o dx ty h f body w : In ty [14; 15; 16; 65535] -> call o dx "ofp_multipart_request" [h; VInt ty; f; body] = Ok w ->
  exists b, body = VBytes b.
Proof.
  intros Hin E. change (ofp_multipart_request o dx h (VInt ty) f body = Ok w) in E. unfold ofp_multipart_request in E.
  assert (E' : message o dx h (VInt 18) (p <- packs "HH4x" [VInt ty; f] ;; b <- as_bytes body ;; Ok (p ++ b)) = Ok w).
  { repeat (destruct Hin as [<-|Hin]; [exact E|]). destruct Hin. }
  unfold message in E'. apply bind_ok in E'. destruct E' as (dt & E1 & _). apply bind_ok in E1. destruct E1 as (p & _ & E1).
  apply bind_ok in E1. destruct E1 as (b & E1 & _). destruct body; try discriminate. eexists. reflexivity.
Qed.

Lemma queue_request_none dx d cls p w : In cls ["ofp_queue_stats_request"; "ofp_queue_desc_request"]%string -> obj dx d (VTup cls [p; VNone]) <> Ok w.
Proof. intros Hin. destruct d as [|d]; [discriminate|]. destruct Hin as [<-|[<-|[]]]; discriminate. Qed.

(** An update of a flow announces eight bytes too many. *)
Lemma flow_update_long o dx l e t r i hd p c mv iv b : call o dx "ofp_flow_update_full" [l; e; t; r; i; hd; p; c; mv; iv] = Ok b -> u16_at b 0 = zlen b + 8.
Proof.
  intros E. change (ofp_flow_update_full o l e t r i hd p c mv iv = Ok b) in E. unfold ofp_flow_update_full in E.
  apply bind_ok in E. destruct E as (is & _ & E). apply bind_ok in E. destruct E as (m & _ & E). unfold pack_app in E.
  apply bind_ok in E. destruct E as (q & E1 & E). injection E as <-.
  apply (packs_inv "HHBB3H4xQ" [FU 2; FU 2; FU 1; FU 1; FU 2; FU 2; FU 2; FX 4; FU 8] _ _ eq_refl) in E1.
  pose proof (pack_length _ _ _ E1) as L. cbn [calcsize item_size] in L.
  cbn [pack] in E1. apply bind_ok in E1. destruct E1 as (b1 & E1 & E2). apply bind_ok in E2. destruct E2 as (b2 & _ & E2). injection E2 as <-.
  cbn [pack_item] in E1. destruct (in_u 2 (32 + zlen m + zlen is)) eqn:Hu; [|discriminate]. assert (Eb : b1 = be 2 (32 + zlen m + zlen is)) by congruence. clear E1. subst b1.
  unfold in_u in Hu. change (256 ^ Z.of_nat 2) with 65536 in Hu.
  replace (u16_at ((be 2 (32 + zlen m + zlen is) ++ b2) ++ m ++ is) 0) with (u16_at ([0; 0] ++ be 2 (32 + zlen m + zlen is) ++ b2 ++ m ++ is) 2).
  - rewrite (u16_be2 [0; 0] (32 + zlen m + zlen is) (b2 ++ m ++ is)) by (try reflexivity; lia). unfold zlen in *. rewrite !app_length in *. lia.
  - rewrite <- !app_assoc. reflexivity.
Qed.

(** An experimenter property of port statistics is never padded. *)
Lemma stats_property_unpadded o dx t l e x d b : call o dx "ofp_port_stats_prop_experimenter" [t; l; e; x; VBytes d] = Ok b -> length b = (12 + length d)%nat.
Proof.
  intros E. change (ofp_port_stats_prop_experimenter t l e x (VBytes d) = Ok b) in E. unfold ofp_port_stats_prop_experimenter in E. cbn [dflt_bytes len_of bind as_bytes] in E.
  apply bind_ok in E. destruct E as (q & E1 & E). injection E as <-. apply (packs_inv "HHII" [FU 2; FU 2; FU 4; FU 4] _ _ eq_refl) in E1.
  apply pack_length in E1. rewrite app_length, E1. reflexivity.
Qed.

(** *** Table features *)

Lemma table_features_class n m off v o : p_table_features n m off = Ok (v, o) ->
  exists l t name mm mw c x ps, v = VTup "ofp_table_feature_prop_header" [l; t; name; mm; mw; c; x; ps].
Proof.
  intros E. unfold p_table_features in E. apply bind_ok in E. destruct E as ([vs o1] & E1 & E).
  unfold unp in E1. apply bind_ok in E1. destruct E1 as (vs' & E1 & E2). apply bind_ok in E2. destruct E2 as (k & _ & E2). injection E2 as -> _.
  unfold unpacks in E1. apply bind_ok in E1. destruct E1 as (fs & Ef & E1). vm_compute in Ef. injection Ef as <-.
  unfold unpack_from in E1. destruct (_ <=? _)%nat in E1; [|discriminate]. injection E1 as <-. cbn [decode] in E.
  apply bind_ok in E. destruct E as ([ps o2] & _ & E). injection E as <- _. cbn [Datatypes.app]. do 8 eexists. reflexivity.
Qed.

Lemma table_features_not_rebuilt dx d l t name mm mw c x ps b : obj dx d (VTup "ofp_table_feature_prop_header" [l; t; name; mm; mw; c; x; ps]) <> Ok b.
Proof. destruct d; discriminate. Qed.

(** Features that list actions first. *)
Lemma table_features_actions n m off len t name mm mw c x ty rest :
  at_ m off (enc ([U 2 len; U 1 t; P 5; R name; U 8 mm; U 8 mw; U 4 c; U 4 x] ++ [U 2 ty; R rest])) ->
  fits [U 2 len; U 1 t; P 5; R name; U 8 mm; U 8 mw; U 4 c; U 4 x] -> length name = 32%nat -> 64 < len -> In ty [4; 5; 6; 7] -> (2 <= length rest)%nat ->
  p_table_features (S n) m off = Err TypeError.
Proof.
  intros Hat Hf Hn Hl Hty Hr. apply at_enc_app in Hat. destruct Hat as [H1 H2].
  unfold p_table_features. rewrite (unp_enc "HB5x32sQQII" [U 2 len; U 1 t; P 5; R name; U 8 mm; U 8 mw; U 4 c; U 4 x] m off); [|cbn [map shape]; rewrite Hn; reflexivity|exact Hf|exact H1].
  cbn [vals bind flen fld_len] in *. rewrite Hn in *.
  assert (Lt : (off + (2 + (1 + (5 + (32 + (8 + (8 + (4 + (4 + 0)))))))) <? off + Z.to_nat len)%nat = true) by (apply Nat.ltb_lt; lia).
  cbn [while_fetch]. rewrite Lt. unfold p_table_feature_prop.
  rewrite (prop_type_at m _ ty [R rest] H2) by (cbn [flen fld_len In] in *; lia). cbn [bind].
  assert (A : p_table_feature_prop_actions m (off + (2 + (1 + (5 + (32 + (8 + (8 + (4 + (4 + 0)))))))))%nat = Err TypeError).
  { unfold p_table_feature_prop_actions. apply at_length in H2. rewrite enc_length in H2. cbn [flen fld_len] in H2.
    rewrite (unp_ok "HH" [FU 2; FU 2] m _ eq_refl) by (cbn [calcsize item_size]; lia). reflexivity. }
  repeat (destruct Hty as [<-|Hty]; [cbv beta iota delta [py_inz py_eqz existsb Z.eqb Pos.eqb orb]; rewrite A; reflexivity|]). destruct Hty.
Qed.

(** *** Flow statistics *)

(** Two flows that differ in their importance only. *)
Lemma importance_lost n m1 m2 o1 o2 t ds dn p i h f w1 w2 c k o mt is :
  let s w := FlowStat t ds dn p i h f w c k o mt is in
  at_ m1 o1 (flow_stat_wire (s w1)) -> at_ m2 o2 (flow_stat_wire (s w2)) -> flow_stat_ok (s w1) -> flow_stat_ok (s w2) -> flow_stat_parsable (s w1) ->
  (length m1 <= n)%nat -> (length m2 <= n)%nat ->
  exists v, p_flow_stats n m1 o1 = Ok (v, (o1 + length (flow_stat_wire (s w1)))%nat) /\ p_flow_stats n m2 o2 = Ok (v, (o2 + length (flow_stat_wire (s w2)))%nat).
Proof.
  intros s H1 H2 K1 K2 Hp L1 L2. exists (flow_stat_parsed (s w1)). split.
  - exact (flow_stat_parse m1 n o1 (s w1) H1 K1 Hp L1).
  - exact (flow_stat_parse m2 n o2 (s w2) H2 K2 Hp L2).
Qed.

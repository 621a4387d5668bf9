(** Properties C71 and C75 - C81: messages of OpenFlow 1.4. *)

From Verif Require Import Py Struct P_Struct S_Hello S_Ports P_Hello P_Ports S_Wire4 S_Msg4 M_Build4 M_Parse4 P_Wire4 P_Act4 P_Rebuild4 P_Stat4 P_Msg4 P_MsgParse4 P_MsgRebuild4 P_Term4 P_MsgBad4.
From Verif Require Import S_Wire5 S_Msg5 S_Term5 S_Rebuild5 M_Build5 M_Parse5 P_Wire5 P_Act5 P_Stat5 P_Msg5 P_MsgParse5 P_Rebuild5 P_Term5 P_MsgBad5 P_Status5 P_MsgRebuild5 P_Nested5.
From Verif Require Import P_Bad5.
Local Open Scope Z_scope.
Local Open Scope list_scope.

Ltac ex5 :=
  repeat first [ exact I | match goal with |- Forall _ [] => apply Forall_nil | |- Forall _ (_ :: _) => apply Forall_cons | |- _ /\ _ => split end
               | progress cbv beta iota delta [fits in_range act_ok inst_ok act_fields inst_fields bucket_ok bucket_fields band_ok band_fields match_fields
                   msg_ok body_fields rq_ok rq_fields rp_ok rp_fields flow_stat_ok flow_stat_fields tprop_fields exp_fields pprop_ok pprop_fields port_fields
                   group_desc_ok queue_desc_ok queue_desc_fields qprop_fields ethernet_fields role_fields u8 u16 u32]
               | (cbn; lia) | (vm_compute; reflexivity) | (vm_compute; discriminate) | (cbn; tauto) ].

(** ** C71: lengths *)

(** Whatever the arguments (and whatever [obj] makes of the objects inside), a
    message that is returned by a builder other than ofp_meter_mod starts with
    version 5 and announces its own size, which is at most 65535. *)
Theorem C71_length_true_partial : forall o dx cls args b,
  In cls message_builders5 -> call o dx cls args = Ok b ->
  (8 <= length b)%nat /\ byte_at b 0 = 5 /\ u16_at b 2 = Z.of_nat (length b) /\ Z.of_nat (length b) <= 65535.
Proof. intros o dx cls args b Hc Hb. exact (built_framed o dx cls args Hc b Hb). Qed.
Print Assumptions C71_length_true_partial.

(** More than 65527 bytes of data are refused. *)
Theorem C71_too_long_raises : forall d dx h data t,
  65527 < Z.of_nat (length data) -> exists e, call (obj dx d) dx "ofp_" [h; VBytes data; t] = Err e.
Proof.
  intros d dx h data t Hl. destruct (call (obj dx d) dx "ofp_" [h; VBytes data; t]) as [b|e] eqn:E; [exfalso | eexists; reflexivity].
  change (ofp_ (obj dx d) dx h (VBytes data) t = Ok b) in E.
  destruct (ofp_built _ _ _ _ _ _ E) as (ty & z & v & x & dt & _ & _ & _ & Ed & Hb & _).
  assert (dt = data) by (destruct d; cbn [obj] in Ed; congruence). subst dt. unfold zlen in Hb. lia.
Qed.
Print Assumptions C71_too_long_raises.

(** Refuted for ofp_meter_mod: the length is the caller's word, or else 8, for
    any bands. *)
Theorem C71_meter_mod_refuted : forall dx d xid c f m bv bs,
  fits [U 4 xid; U 2 c; U 2 f; U 4 m] -> bands_arg bv bs -> Forall band_ok bs -> (1 <= d)%nat ->
  exists b, call (obj dx d) dx "ofp_meter_mod" [VTup "ofp_header" [VNone; VInt 29; VNone; VInt xid]; VInt c; VInt f; VInt m; bv] = Ok b /\
  u16_at b 2 = 8 /\ length b = (16 + length (bands_wire bs))%nat.
Proof.
  intros dx d xid c f m bv bs Hf Hb Hok Hd.
  exists (enc [U 1 5; U 1 29; U 2 8; U 4 xid; U 2 c; U 2 f; U 4 m; R (bands_wire bs)]). split; [|split].
  - apply (meter_mod_built dx d VNone 29 VNone 8 (VInt xid) xid c f m bv bs); try assumption; try (left; split; reflexivity); try (left; reflexivity); try (right; reflexivity).
    change [U 1 29; U 2 8; U 4 xid; U 2 c; U 2 f; U 4 m] with ([U 1 29; U 2 8] ++ [U 4 xid; U 2 c; U 2 f; U 4 m]).
    apply fits_app. split; [ex5 | exact Hf].
  - reflexivity.
  - rewrite enc_length. cbn [flen fld_len]. lia.
Qed.
Print Assumptions C71_meter_mod_refuted.

Example C71_example :
  call (obj 7 1) 7 "ofp_error_msg" [VTup "ofp_header" [VNone; VNone; VInt 3; VInt 5]; VInt 1; VInt 2; VBytes [9; 9]] =
    Ok [5; 1; 0; 14; 0; 0; 0; 5; 0; 1; 0; 2; 9; 9] /\
  call (obj 7 1) 7 "ofp_error_msg" [VTup "ofp_header" [VInt 4; VNone; VNone; VNone]; VInt 1; VInt 2; VBytes [9; 9]] = Err AssertionError /\
  call (obj 7 2) 7 "ofp_meter_mod" [VTup "ofp_header" [VNone; VInt 29; VNone; VInt 5]; VInt 0; VInt 1; VInt 3;
      VList [VTup "ofp_meter_band_drop" [VNone; VNone; VInt 100; VInt 10]]] =
    Ok ([5; 29; 0; 8; 0; 0; 0; 5; 0; 0; 0; 1; 0; 0; 0; 3] ++ [0; 1; 0; 16; 0; 0; 0; 100; 0; 0; 0; 10; 0; 0; 0; 0]).
Proof. split; [|split]; vm_compute; reflexivity. Qed.

(** ** C75: messages *)

(** Any message of [msg_args] (all but METER_MOD and the status messages), built
    from any way of writing its arguments, put anywhere, is parsed into its
    contents ([msg_parsed]), the cursor at the end of the message.  Missing:
    [msg_parsable] (SET_MPLS_TTL, the aggregates and ports of C77 - C79). *)
Theorem C75_round_trip_partial : forall dx d d' cls args m xid h,
  msg_args cls args m -> msg_ok m -> msg_parsable m -> hdr_arg dx (msingle m) (mtype m) xid h -> u32 xid ->
  (2 + mdepth m <= d)%nat -> (mdepth m <= d')%nat ->
  exists wire, call (obj dx d) dx cls (h :: args) = Ok wire /\
  forall pre post n, (length (pre ++ wire ++ post) <= n)%nat ->
    parse d' n (pre ++ wire ++ post) (length pre) = Ok (msg_parsed xid m, (length pre + length wire)%nat).
Proof. exact round_trip. Qed.
Print Assumptions C75_round_trip_partial.

(** FLOW_MOD in full: all the fields, the importance too. *)
Theorem C75_flow_mod_round_trip_partial : forall dx d xid h c k t cm i hd p b o g f w mt is args,
  let m := MFlowMod c k t cm i hd p b o g f w mt is in
  msg_args "ofp_flow_mod" args m -> msg_ok m -> Forall inst_parsable is -> hdr_arg dx true 14 xid h -> u32 xid -> (3 <= d)%nat ->
  exists wire, call (obj dx d) dx "ofp_flow_mod" (h :: args) = Ok wire /\
  forall pre post n, (length (pre ++ wire ++ post) <= n)%nat ->
    parse 1 n (pre ++ wire ++ post) (length pre) =
    Ok (VTup "ofp_flow_mod"
          (VTup "ofp_header" [VInt 5; VInt 14; VInt (zlen wire); VInt xid] ::
           [VInt c; VInt k; VInt t; VInt cm; VInt i; VInt hd; VInt p; VInt b; VInt o; VInt g; VInt f; VInt w;
            match_view mt; insts_parsed is]), (length pre + length wire)%nat).
Proof.
  intros dx d xid h c k t cm i hd p b o g f w mt is args m Ha Hok Hp Hh Hx Hd. exists (mwire xid m). split.
  - exact (msg_build _ _ _ Ha dx d xid h Hok Hh Hx Hd).
  - intros pre post n Hn.
    rewrite (msg_parse m xid 1%nat n (pre ++ mwire xid m ++ post) (length pre)); [|exists pre, post; auto | exact Hok | exact Hp | exact Hx | exact Hn | apply le_n].
    assert (L : zlen (mwire xid m) = 8 + zlen (body m)) by (unfold zlen, mwire; rewrite msg_len; lia).
    rewrite L. reflexivity.
Qed.
Print Assumptions C75_flow_mod_round_trip_partial.

(** Refuted with SET_MPLS_TTL: a FLOW_MOD, PACKET_OUT or GROUP_MOD with one
    among its actions is not parsed, alone or inside a bundle or a forwarded
    request. *)
Theorem C75_mpls_ttl_refuted : forall m xid d n bs off,
  at_ bs off (mwire xid m) -> msg_ok m -> carries_actions m -> ~ msg_parsable m -> u32 xid -> (length bs <= n)%nat -> (mdepth m <= d)%nat ->
  parse d n bs off = Err NameError.
Proof. exact mpls_message. Qed.
Print Assumptions C75_mpls_ttl_refuted.

Example C75_mpls_ttl_example :
  let m := MBundleAdd 7 1 8 (MPacketOut 1 2 [AcOutput 1 0; AcMplsTtl 64] [7]) in
  msg_ok m /\ carries_actions m /\ ~ msg_parsable m /\ parse 2 200 (mwire 8 m) 0 = Err NameError.
Proof.
  cbv zeta. split; [ex5|]. split; [exact I|]. split; [|vm_compute; reflexivity].
  intros F. exact (Forall_inv (Forall_inv_tail F)).
Qed.

Example C75_example :
  let m := MFlowMod 1 2 3 0 10 20 100 4294967295 4294967295 4294967295 1 500
             (Match 1 [128; 0; 0; 4; 0; 0; 0; 1]) [InActions 4 [AcOutput 3 65535]; InGoto 4] in
  exists args, msg_args "ofp_flow_mod" args m /\ msg_ok m /\ Forall inst_parsable [InActions 4 [AcOutput 3 65535]; InGoto 4] /\
    hdr_arg 9 true 14 9 VNone /\
    call (obj 9 3) 9 "ofp_flow_mod" (VNone :: args) = Ok (mwire 9 m) /\ u16_at (mwire 9 m) 46 = 500 /\
    parse 1 200 (mwire 9 m) 0 = Ok (msg_parsed 9 m, length (mwire 9 m)).
Proof.
  cbv zeta. exists (all_z [1; 2; 3; 0; 10; 20; 100] ++ [VNone; VNone; VNone; VInt 1; VInt 500; VTup "ofp_match" [VInt 1; VNone; VBytes [128; 0; 0; 4; 0; 0; 0; 1]];
    VList [VTup "ofp_instruction_actions" [VInt 4; VNone; VList [VTup "ofp_action_output" [VNone; VNone; VInt 3; VInt 65535]]];
           VTup "ofp_instruction_goto_table" [VNone; VNone; VInt 4]]]).
  split; [|split; [ex5 | split; [repeat constructor | split; [constructor; reflexivity | split; [vm_compute; reflexivity | split; vm_compute; reflexivity]]]]].
  - apply (XA_flow_mod 1 2 3 0 10 20 100 VNone 4294967295 VNone 4294967295 VNone 4294967295 1 500); try (left; split; reflexivity).
    + apply S_Wire4.MA_obj; [right; reflexivity | constructor].
    + apply LA_list. constructor; [|constructor; [|constructor]].
      * apply IA_actions. apply LA_list. constructor; [|constructor]. apply AA_output. left. reflexivity.
      * apply IA_goto. left. reflexivity.
Qed.

(** ** C76: messages within messages *)

(** The message at the bottom of any pile of BUNDLE_ADD_MESSAGE and
    REQUESTFORWARD: built by nesting the objects, it is found at the bottom of
    the parsed object again, with its own transaction id. *)
Inductive layer : Type := InBundle (bundle flags : Z) | InForward.
Definition wrap (l : layer) (x : Z) (k : omsg) : omsg :=
  match l with InBundle b f => MBundleAdd b f x k | InForward => MForward x k end.
(** The field of the parsed object that holds the message. *)
Definition unwrap (l : layer) (v : pyval) : option pyval :=
  match l, v with
  | InBundle b f, VTup "ofp_bundle_add_msg" [_; VInt b'; VInt f'; w; VList []] => if (b =? b') && (f =? f') then Some w else None
  | InForward, VTup "ofp_requestforward_" [_; w] => Some w
  | _, _ => None
  end.
Fixpoint pile (ls : list (layer * Z)) (k : omsg) : omsg :=
  match ls with [] => k | (l, x) :: ls => wrap l x (pile ls k) end.
Fixpoint dig (ls : list (layer * Z)) (v : pyval) : option pyval :=
  match ls with [] => Some v | (l, _) :: ls => match unwrap l v with Some w => dig ls w | None => None end end.
(** The transaction id of the message at the bottom. *)
Fixpoint bottom (ls : list (layer * Z)) (xid : Z) : Z := match ls with [] => xid | (_, x) :: ls => bottom ls x end.

Lemma dig_pile ls k : forall xid, dig ls (msg_parsed xid (pile ls k)) = Some (msg_parsed (bottom ls xid) k).
Proof.
  induction ls as [|[l x] ls IH]; intros xid; [reflexivity|]. destruct l as [b f|]; cbn [pile wrap msg_parsed dig unwrap bottom].
  - rewrite !Z.eqb_refl. apply IH.
  - apply IH.
Qed.

Theorem C76_nested_partial : forall dx d d' cls args ls k xid h,
  let m := pile ls k in
  msg_args cls args m -> msg_ok m -> msg_parsable m -> hdr_arg dx (msingle m) (mtype m) xid h -> u32 xid ->
  (2 + mdepth m <= d)%nat -> (mdepth m <= d')%nat ->
  exists wire, call (obj dx d) dx cls (h :: args) = Ok wire /\
  forall pre post n, (length (pre ++ wire ++ post) <= n)%nat ->
  exists v, parse d' n (pre ++ wire ++ post) (length pre) = Ok (v, (length pre + length wire)%nat) /\
            dig ls v = Some (msg_parsed (bottom ls xid) k).
Proof.
  intros dx d d' cls args ls k xid h m Ha Hok Hp Hh Hx Hd Hd'.
  destruct (round_trip dx d d' cls args m xid h Ha Hok Hp Hh Hx Hd Hd') as (w & E & F).
  exists w. split; [exact E|]. intros pre post n Hn. exists (msg_parsed xid m). split; [apply F; exact Hn | apply dig_pile].
Qed.
Print Assumptions C76_nested_partial.

(** Refuted: a bundle control message with any property raises NameError
    (the name OFPBPT_EXPERIMENTER is not defined) ... *)
Theorem C76_bundle_properties_refuted : forall d n bs off xid b t f props,
  at_ bs off (msg 5 33 xid (enc [U 4 b; U 2 t; U 2 f; R props])) -> u32 xid -> zlen props <= 65519 -> (4 <= length props)%nat ->
  parse (S d) (S n) bs off = Err NameError.
Proof. exact bundle_properties. Qed.
Print Assumptions C76_bundle_properties_refuted.

(** ... and an added message with anything behind it (padding, properties)
    TypeError: the name [message] was bound anew. *)
Theorem C76_bundle_add_properties_refuted : forall d n bs off xid b f x k props,
  at_ bs off (msg 5 34 xid (enc [U 4 b; P 2; U 2 f; R (mwire x k); R props])) -> u32 xid -> zlen (mwire x k) + zlen props <= 65519 -> props <> [] ->
  msg_ok k -> msg_parsable k -> u32 x -> (length bs <= n)%nat -> (mdepth k <= d)%nat ->
  parse (S d) n bs off = Err TypeError.
Proof. exact bundle_add_properties. Qed.
Print Assumptions C76_bundle_add_properties_refuted.

Example C76_example :
  let k := MPlain 2 [1; 2; 3] in
  let m := MBundleAdd 7 1 8 (MForward 9 k) in
  m = pile [(InBundle 7 1, 8); (InForward, 9)] k /\ msg_ok m /\ msg_parsable m /\ mdepth m = 3%nat /\
  call (obj 4 6) 4 "ofp_bundle_add_msg" [VTup "ofp_header" [VNone; VNone; VNone; VInt 5]; VInt 7; VInt 1;
      VTup "ofp_requestforward_header" [VTup "ofp_header" [VNone; VNone; VNone; VInt 8];
        VTup "ofp_" [VTup "ofp_header" [VNone; VInt 2; VNone; VInt 9]; VBytes [1; 2; 3]]]; VNone] =
    Ok ([5; 34; 0; 35; 0; 0; 0; 5; 0; 0; 0; 7; 0; 0; 0; 1] ++ [5; 32; 0; 19; 0; 0; 0; 8] ++ [5; 2; 0; 11; 0; 0; 0; 9; 1; 2; 3]) /\
  parse 3 100 (mwire 5 m) 0 = Ok (msg_parsed 5 m, 35%nat) /\
  dig [(InBundle 7 1, 8); (InForward, 9)] (msg_parsed 5 m) = Some (msg_parsed 9 k).
Proof.
  cbv zeta. split; [reflexivity|]. split; [|split; [exact I | split; [reflexivity | split; [vm_compute; reflexivity | split; vm_compute; reflexivity]]]].
  assert (K : msg_ok (MPlain 2 [1; 2; 3])) by (unfold msg_ok, plain_type; ex5; cbn [In]; lia).
  assert (F : msg_ok (MForward 9 (MPlain 2 [1; 2; 3]))) by (cbn [msg_ok]; split; [ex5 | split; [vm_compute; discriminate | split; [ex5 | exact K]]]).
  cbn [msg_ok]. split; [ex5 | split; [vm_compute; discriminate | split; [ex5 | exact F]]].
Qed.

(** ** C77: PORT_MOD and METER_MOD *)

(** PORT_MOD is built with its properties. *)
Theorem C77_port_mod_built : forall dx d xid h p hw c k v ps,
  let m := MPortMod p hw c k ps in
  list_arg pprop_arg pprop_wire v ps -> msg_ok m -> hdr_arg dx true 16 xid h -> u32 xid -> (3 <= d)%nat ->
  call (obj dx d) dx "ofp_port_mod" [h; VInt p; VBytes hw; VInt c; VInt k; v] =
  Ok (msg 5 16 xid (enc [U 4 p; P 4; R hw; P 2; U 4 c; U 4 k; R (concat (map pprop_wire ps))])).
Proof.
  intros dx d xid h p hw c k v ps m Hv Hok Hh Hx Hd.
  exact (msg_build "ofp_port_mod" [VInt p; VBytes hw; VInt c; VInt k; v] m (XA_port_mod p hw c k v ps Hv) dx d xid h Hok Hh Hx Hd).
Qed.
Print Assumptions C77_port_mod_built.

(** Refuted: it is not parsed back.  The fields are read from the start of the
    message: the "port number" of anything returned is made of version, type
    and length, its hardware address starts with the port number ... *)
Theorem C77_port_mod_refuted : forall d n bs off xid p hw c k ps v o,
  let m := MPortMod p hw c k ps in
  at_ bs off (mwire xid m) -> msg_ok m -> u32 xid -> parse d n bs off = Ok (v, o) ->
  exists c' k' ps', v = VTup "ofp_port_mod" [hdr_view 16 xid (body m); VInt (of_be [5; 16; 0; 0] + 8 + zlen (body m)); VBytes (be 4 p ++ [0; 0]); VInt c'; VInt k'; VList ps'].
Proof. intros d n bs off xid p hw c k ps v o m. exact (port_mod_read d n bs off xid p hw c k ps v o). Qed.
Print Assumptions C77_port_mod_refuted.

(** ... and with most port numbers nothing is returned: the parser never ends. *)
Theorem C77_port_mod_loops_refuted : forall d n bs off xid p hw c k ps,
  let m := MPortMod p hw c k ps in
  at_ bs off (mwire xid m) -> msg_ok m -> u32 xid ->
  ~ In (p / 65536) [0; 1; 65535] \/ (p < 65536 /\ ~ In (u16_at hw 0) [0; 1; 65535]) ->
  parse d n bs off = Err OutOfFuel.
Proof.
  intros d n bs off xid p hw c k ps m Hat Hok Hx [H|[H1 H2]].
  - exact (port_mod_loops d n bs off xid p hw c k ps Hat Hok Hx H).
  - exact (port_mod_small_loops d n bs off xid p hw c k ps Hat Hok Hx H1 H2).
Qed.
Print Assumptions C77_port_mod_loops_refuted.

(** METER_MOD goes out with the type and length of the caller's header; the
    message of the specification if and only if these are 29 and the size of
    the message. *)
Theorem C77_meter_mod_partial : forall dx d v t lv l x xid c f m bv bs,
  type_arg v 5 -> opt_arg 8 lv l -> opt_arg dx x xid -> fits [U 1 t; U 2 l; U 4 xid; U 2 c; U 2 f; U 4 m] ->
  bands_arg bv bs -> Forall band_ok bs -> (1 <= d)%nat -> 16 + zlen (bands_wire bs) < 65536 ->
  exists b, call (obj dx d) dx "ofp_meter_mod" [VTup "ofp_header" [v; VInt t; lv; x]; VInt c; VInt f; VInt m; bv] = Ok b /\
  (b = msg 5 29 xid (enc [U 2 c; U 2 f; U 4 m; R (bands_wire bs)]) <-> t = 29 /\ l = 16 + zlen (bands_wire bs)).
Proof.
  intros dx d v t lv l x xid c f m bv bs Hv Hl Hx Hf Hb Hok Hd Hlen. eexists. split; [apply meter_mod_built; eassumption|].
  assert (E : zlen (body (MMeterMod c f m bs)) = 8 + zlen (bands_wire bs)) by (unfold body; rewrite enc_zlen; cbn [body_fields flen fld_len]; unfold zlen; lia).
  inversion Hf as [|? ? F1 Hf']; subst. inversion Hf' as [|? ? F2 _]; subst. cbn [in_range] in F1, F2.
  change (256 ^ Z.of_nat 1) with 256 in F1. change (256 ^ Z.of_nat 2) with 65536 in F2.
  pose proof (meter_mod_wire xid t l c f m bs F1 F2 ltac:(lia)) as W. rewrite E in W. unfold mwire, body in W. cbn [mtype body_fields] in W.
  rewrite W. split; intros [A B]; split; lia.
Qed.
Print Assumptions C77_meter_mod_partial.

(** Parsed back unless there is an experimenter band. *)
Theorem C77_meter_mod_parsed_partial : forall d n bs off xid c f m l,
  at_ bs off (msg 5 29 xid (enc [U 2 c; U 2 f; U 4 m; R (bands_wire l)])) -> msg_ok (MMeterMod c f m l) -> Forall band_plain l ->
  u32 xid -> (length bs <= n)%nat ->
  parse (S d) n bs off = Ok (VTup "ofp_meter_mod" [VTup "ofp_header" [VInt 5; VInt 29; VInt (16 + zlen (bands_wire l)); VInt xid];
                                                  VInt c; VInt f; VInt m; VList (map band_view l)],
                            (off + 16 + length (bands_wire l))%nat).
Proof.
  intros d n bs off xid c f m l Hat Hok Hp Hx Hn.
  rewrite (msg_parse (MMeterMod c f m l) xid (S d) n bs off Hat Hok Hp Hx Hn) by (cbn [mdepth]; lia).
  assert (E : zlen (body (MMeterMod c f m l)) = 8 + zlen (bands_wire l)) by (unfold body; rewrite enc_zlen; cbn [body_fields flen fld_len]; unfold zlen; lia).
  rewrite mwire_len. cbn [body_fields flen fld_len msg_parsed]. unfold hdr_view. cbn [mtype]. rewrite E.
  replace (8 + (8 + zlen (bands_wire l))) with (16 + zlen (bands_wire l)) by lia. do 2 f_equal. lia.
Qed.
Print Assumptions C77_meter_mod_parsed_partial.

(** Refuted: no meter modification can be built without a header ... *)
Theorem C77_meter_mod_header_refuted : forall dx d c f m bv b, call (obj dx d) dx "ofp_meter_mod" [VNone; c; f; m; bv] <> Ok b.
Proof. exact meter_mod_none. Qed.
Print Assumptions C77_meter_mod_header_refuted.

(** ... and one with an experimenter band keeps the parser busy forever. *)
Theorem C77_experimenter_band_refuted : forall bs off xid c f m l,
  at_ bs off (mwire xid (MMeterMod c f m l)) -> msg_ok (MMeterMod c f m l) -> u32 xid -> ~ Forall band_plain l ->
  forall d n, parse d n bs off = Err OutOfFuel.
Proof. exact meter_mod_loops. Qed.
Print Assumptions C77_experimenter_band_refuted.

Example C77_example :
  let m := MPortMod 3 [1; 2; 3; 4; 5; 6] 7 8 [PpEthernet 9] in
  let bad := MMeterMod 0 1 3 [BdDrop 1 2; BdExperimenter 5 6 7 []] in
  msg_ok m /\ ~ In (u16_at [1; 2; 3; 4; 5; 6] 0) [0; 1; 65535] /\ parse 1 50 (mwire 5 m) 0 = Err OutOfFuel /\
  call (obj 4 3) 4 "ofp_port_mod" [VNone; VInt 3; VBytes [1; 2; 3; 4; 5; 6]; VInt 7; VInt 8;
      VList [VTup "ofp_port_mod_prop_ethernet" [VNone; VNone; VInt 9]]] = Ok (mwire 4 m) /\
  msg_ok bad /\ ~ Forall band_plain [BdDrop 1 2; BdExperimenter 5 6 7 []] /\
  call (obj 4 2) 4 "ofp_meter_mod" [VTup "ofp_header" [VInt 5; VInt 29; VInt 32; VInt 6]; VInt 0; VInt 1; VInt 3;
      VList [VTup "ofp_meter_band_drop" [VNone; VNone; VInt 1; VInt 2]]] = Ok (mwire 6 (MMeterMod 0 1 3 [BdDrop 1 2])).
Proof.
  cbv zeta. split; [ex5|]. split; [vm_compute; lia|]. split; [vm_compute; reflexivity|]. split; [vm_compute; reflexivity|]. split; [ex5|].
  split; [|vm_compute; reflexivity]. intros H. inversion H as [|? ? _ H2]. inversion H2 as [|? ? H3 _]. exact H3.
Qed.

(** ** C78: PORT_STATUS, ROLE_STATUS, TABLE_STATUS *)

(** Refuted: a port-status with a port without properties is not parsed ... *)
Theorem C78_port_status_refuted : forall d n bs off xid reason no hw name config state,
  at_ bs off (port_status_wire xid reason no hw name config state []) -> u32 xid -> u8 reason -> fits (port_fields no hw name config state []) ->
  length hw = 6%nat -> (length name <= 16)%nat -> parse (S d) n bs off = Err NameError.
Proof. exact port_status_bare. Qed.
Print Assumptions C78_port_status_refuted.

(** ... and of one with properties, the first an Ethernet property, only the
    reason and this property come back; the port is lost. *)
Theorem C78_port_lost_refuted : forall d n bs off xid reason no hw name config state c a s p cs ms more,
  let props := enc (ethernet_fields c a s p cs ms) ++ more in
  at_ bs off (port_status_wire xid reason no hw name config state props) -> u32 xid -> u8 reason -> fits (port_fields no hw name config state props) -> zlen props <= 65479 ->
  fits (ethernet_fields c a s p cs ms) -> length hw = 6%nat -> (length name <= 16)%nat ->
  exists body, zlen body = 48 + zlen props /\
  parse (S d) n bs off = Ok (VTup "ofp_port_status" [hdr_view 12 xid body; VInt reason; VTup "ofp_port_desc_prop_ethernet" (all_z [0; 32; c; a; s; p; cs; ms])], (off + 88)%nat).
Proof. exact port_status_ethernet. Qed.
Print Assumptions C78_port_lost_refuted.

(** No PORT_STATUS can be built at all; a port is built without its properties,
    but announces them. *)
Theorem C78_port_status_build_refuted : forall o dx args b, call o dx "ofp_port_status" args <> Ok b.
Proof. exact port_status_unbuilt. Qed.
Print Assumptions C78_port_status_build_refuted.
Theorem C78_port_properties_refuted : forall o dx no l hw name config state v b p,
  call o dx "ofp_port" [no; l; hw; name; config; state; v] = Ok b -> seqarg o v = Ok p ->
  length b = 40%nat /\ u16_at b 4 = 40 + zlen p.
Proof. exact port_built. Qed.
Print Assumptions C78_port_properties_refuted.

(** No ROLE_STATUS is parsed: ValueError, or forever when the role starts like an
    experimenter property. *)
Theorem C78_role_status_refuted : forall d n bs off xid role reason generation props v,
  at_ bs off (role_status_wire xid role reason generation props) -> u32 xid -> fits [U 4 role; U 1 reason; P 3; U 8 generation] -> zlen props <= 65511 ->
  parse d n bs off <> Ok v /\ (role / 65536 <> 65535 -> parse (S d) (S n) bs off = Err ValueError) /\
  (role / 65536 = 65535 -> parse d n bs off = Err OutOfFuel).
Proof.
  intros d n bs off xid role reason generation props v Hat Hx Hf Hl.
  assert (E : role / 65536 <> 65535 -> forall d n, parse (S d) (S n) bs off = Err ValueError)
    by (intros H d' n'; exact (role_status_error d' n' _ _ _ _ _ _ _ Hat Hx Hf Hl H)).
  assert (L : role / 65536 = 65535 -> forall d n, parse d n bs off = Err OutOfFuel)
    by (intros H d' n'; exact (role_status_loops d' n' _ _ _ _ _ _ _ Hat Hx Hf Hl H)).
  split; [|auto]. intros F. destruct d as [|d]; [discriminate|]. destruct n as [|n].
  - destruct (role_status_parts _ _ _ _ _ _ _ Hat Hx Hf Hl) as (body & vs & Hh & Hb & Hu & _ & _).
    revert F. by_type Hh. change (p_role_status 0 bs off = Ok v -> False). unfold p_role_status. rewrite Hh. cbn [bind]. rewrite Hu. cbn [bind while_fetch].
    assert (Hlt : (off + 8 <? off + (8 + length body))%nat = true) by (apply Nat.ltb_lt; unfold zlen in *; lia).
    rewrite Hlt. discriminate.
  - destruct (Z.eq_dec (role / 65536) 65535) as [H|H]; [rewrite (L H) in F | rewrite (E H) in F]; discriminate.
Qed.
Print Assumptions C78_role_status_refuted.

(** What ofp_role_status builds is a role request or reply. *)
Theorem C78_role_status_build_refuted : forall o dx h role reason generation props b,
  call o dx "ofp_role_status" [h; role; reason; generation; props] = Ok b -> byte_at b 1 <> 30.
Proof.
  intros o dx h role reason generation props b E. pose proof (role_status_type _ _ _ _ _ _ _ _ E) as H. cbn [In] in H. lia.
Qed.
Print Assumptions C78_role_status_build_refuted.

(** TABLE_STATUS: not parsed, and built one byte too long. *)
Theorem C78_table_status_refuted : forall d n bs off xid reason table config props,
  at_ bs off (table_status_wire xid reason table config props) -> u32 xid -> zlen props <= 65511 -> parse (S d) n bs off = Err NameError.
Proof. exact table_status_fails. Qed.
Print Assumptions C78_table_status_refuted.
Theorem C78_table_status_build_refuted : forall dx d h reason v t b,
  call (obj dx d) dx "ofp_table_status" [h; reason; v] = Ok b -> obj dx d v = Ok t -> length b = (17 + length t)%nat.
Proof. intros dx d h reason v t b E Ev. apply (table_status_long _ _ _ _ _ _ _ E Ev). intros x. destruct d; reflexivity. Qed.
Print Assumptions C78_table_status_build_refuted.

Example C78_example :
  let bare := port_status_wire 5 2 3 [1; 2; 3; 4; 5; 6] [101; 116; 104] 0 4 [] in
  let eth := port_status_wire 5 2 3 [1; 2; 3; 4; 5; 6] [101; 116; 104] 0 4 (enc (ethernet_fields 1 2 3 4 5 6)) in
  fits (port_fields 3 [1; 2; 3; 4; 5; 6] [101; 116; 104] 0 4 []) /\ fits (ethernet_fields 1 2 3 4 5 6) /\
  parse 1 200 bare 0 = Err NameError /\
  parse 1 200 eth 0 = Ok (VTup "ofp_port_status" [VTup "ofp_header" [VInt 5; VInt 12; VInt 88; VInt 5]; VInt 2; VTup "ofp_port_desc_prop_ethernet" (all_z [0; 32; 1; 2; 3; 4; 5; 6])], 88%nat) /\
  parse 1 200 (role_status_wire 5 2 0 9 []) 0 = Err ValueError /\ parse 1 200 (table_status_wire 5 3 1 0 []) 0 = Err NameError /\
  call (obj 5 3) 5 "ofp_role_status" [VTup "ofp_header" [VNone; VInt 24; VNone; VNone]; VInt 2; VInt 0; VInt 9; VNone] = Ok ([5; 24; 0; 24; 0; 0; 0; 5; 0; 0; 0; 2; 0; 0; 0; 0; 0; 0; 0; 0; 0; 0; 0; 9]) /\
  call (obj 5 3) 5 "ofp_table_status" [VNone; VInt 3; VTup "ofp_table_desc" [VNone; VInt 1; VInt 0; VNone]] = Ok [5; 31; 0; 25; 0; 0; 0; 5; 0; 3; 0; 0; 0; 0; 0; 0; 0; 0; 8; 1; 0; 0; 0; 0; 0].
Proof.
  cbv zeta. split; [ex5|]. split; [ex5|]. repeat split; vm_compute; reflexivity.
Qed.

(** ** C79: statistics *)

Definition is_multipart5 (m : omsg) : Prop := match m with MRequest _ _ | MReply _ _ => True | _ => False end.

(** All requests and replies of [msg_args], any number of entries.  Missing:
    replies with table, port and queue statistics, table and port descriptions
    and meter requests, which are not parsed; replies with queue descriptions
    and table descriptions, which are not built; the importance of flows. *)
Theorem C79_round_trip_partial : forall dx d cls args m xid h,
  is_multipart5 m -> msg_args cls args m -> msg_ok m -> msg_parsable m ->
  hdr_arg dx (msingle m) (mtype m) xid h -> u32 xid -> (3 <= d)%nat ->
  exists wire, call (obj dx d) dx cls (h :: args) = Ok wire /\
  forall pre post n, (length (pre ++ wire ++ post) <= n)%nat ->
    parse 1 n (pre ++ wire ++ post) (length pre) = Ok (msg_parsed xid m, (length pre + length wire)%nat).
Proof.
  intros dx d cls args m xid h Hk Ha Hok Hp Hh Hx Hd. apply (round_trip dx d 1 cls args m xid h); try assumption; destruct m; try destruct Hk; cbn [mdepth]; lia.
Qed.
Print Assumptions C79_round_trip_partial.

(** Replies with queue descriptions are parsed. *)
Theorem C79_queue_desc_parsed : forall d n bs off xid f l,
  let body := concat (map queue_desc_wire l) in
  at_ bs off (msg 5 19 xid (enc [U 2 15; U 2 f; P 4; R body])) -> u32 xid -> u16 f -> Forall queue_desc_ok l -> zlen body <= 65519 -> (length bs <= n)%nat ->
  parse (S d) n bs off =
  Ok (VTup "ofp_multipart_reply" [VTup "ofp_header" [VInt 5; VInt 19; VInt (16 + zlen body); VInt xid]; VInt 15; VInt f; VList (map queue_desc_view l)],
      (off + 16 + length body)%nat).
Proof.
  intros d n bs off xid f l b Hat Hx Hf Hl Hlen Hn.
  assert (W : mwire xid (MReply f (RpQueueDesc l)) = msg 5 19 xid (enc [U 2 15; U 2 f; P 4; R b])).
  { rewrite reply_parts. cbn [rp_type rp_fields]. rewrite enc_R. reflexivity. }
  assert (E : zlen (S_Msg5.body (MReply f (RpQueueDesc l))) = 8 + zlen b).
  { unfold S_Msg5.body. rewrite enc_zlen. cbn [body_fields flen fld_len rp_fields]. rewrite enc_R. unfold zlen, b. lia. }
  assert (Hok : msg_ok (MReply f (RpQueueDesc l))).
  { split; [|split; [unfold zlen in *; lia | split; [repeat constructor | exact Hl]]].
    cbn [body_fields]. repeat apply Forall_cons; try exact I; try apply Forall_nil; cbn [in_range rp_type]; change (256 ^ Z.of_nat 2) with 65536; [lia | exact Hf]. }
  rewrite <- W in Hat. rewrite (msg_parse _ xid (S d) n bs off Hat Hok I Hx Hn) by (cbn [mdepth]; lia).
  rewrite mwire_len. cbn [msg_parsed mtype rp_type rp_parsed body_fields flen fld_len rp_fields]. unfold hdr_view. rewrite E, enc_R. fold b.
  replace (8 + (8 + zlen b)) with (16 + zlen b) by lia. do 2 f_equal. lia.
Qed.
Print Assumptions C79_queue_desc_parsed.

(** Refuted: no reply with table, port or queue statistics is parsed. *)
Theorem C79_table_reply_refuted : forall d n bs off xid f s l,
  at_ bs off (mwire xid (MReply f (RpTable (s :: l)))) -> msg_ok (MReply f (RpTable (s :: l))) -> u32 xid ->
  parse (S d) (S n) bs off = Err TypeError.
Proof. exact table_reply_fails. Qed.
Print Assumptions C79_table_reply_refuted.
Theorem C79_port_reply_refuted : forall d n bs off xid f s l v,
  at_ bs off (mwire xid (MReply f (RpPort (s :: l)))) -> msg_ok (MReply f (RpPort (s :: l))) -> u32 xid -> parse d n bs off <> Ok v.
Proof. exact port_reply_never. Qed.
Print Assumptions C79_port_reply_refuted.
Theorem C79_queue_reply_refuted : forall d n bs off xid f s l v,
  at_ bs off (mwire xid (MReply f (RpQueue (s :: l)))) -> msg_ok (MReply f (RpQueue (s :: l))) -> u32 xid -> parse d n bs off <> Ok v.
Proof. exact queue_reply_never. Qed.
Print Assumptions C79_queue_reply_refuted.

(** Refuted: nor one with table descriptions, or with a port without
    properties, nor a request for meters. *)
Theorem C79_table_desc_refuted : forall d n bs off xid f table config props rest,
  at_ bs off (msg 5 19 xid (enc [U 2 14; U 2 f; P 4; R (enc (table_desc_fields table config props) ++ rest)])) -> u32 xid -> u16 f ->
  zlen (enc (table_desc_fields table config props) ++ rest) <= 65519 -> parse (S d) (S n) bs off = Err NameError.
Proof. exact table_desc_reply_fails. Qed.
Print Assumptions C79_table_desc_refuted.
Theorem C79_port_desc_refuted : forall d n bs off xid f no hw name config state rest,
  at_ bs off (msg 5 19 xid (enc [U 2 13; U 2 f; P 4; R (enc (port_fields no hw name config state []) ++ rest)])) -> u32 xid -> u16 f ->
  zlen (enc (port_fields no hw name config state []) ++ rest) <= 65519 -> fits (port_fields no hw name config state []) -> length hw = 6%nat -> (length name <= 16)%nat ->
  parse (S d) (S n) bs off = Err NameError.
Proof. exact port_desc_reply_fails. Qed.
Print Assumptions C79_port_desc_refuted.
Theorem C79_meter_request_refuted : forall d n bs off xid f ty m,
  at_ bs off (mwire xid (MRequest f (RqMeter ty m))) -> msg_ok (MRequest f (RqMeter ty m)) -> u32 xid -> parse (S d) n bs off = Err NameError.
Proof. exact meter_request_fails. Qed.
Print Assumptions C79_meter_request_refuted.

(** Refuted: replies of types 14 - 16 are not built at all; requests of these
    types only from ready-made bytes; no aggregate request from an object. *)
Theorem C79_replies_refused_refuted : forall o dx ty h f body, In ty [14; 15; 16] -> call o dx "ofp_multipart_reply" [h; VInt ty; f; body] = Err ValueError.
Proof. exact replies_refused. Qed.
Print Assumptions C79_replies_refused_refuted.
Theorem C79_request_objects_refuted : forall o dx ty h f cls fields w, In ty [14; 15; 16; 65535] ->
  call o dx "ofp_multipart_request" [h; VInt ty; f; VTup cls fields] <> Ok w.
Proof. intros o dx ty h f cls fields w Hin E. apply request_bytes_only in E; [|exact Hin]. destruct E. discriminate. Qed.
Print Assumptions C79_request_objects_refuted.
Theorem C79_aggregate_request_refuted : forall dx d h f t p g c k m w,
  call (obj dx d) dx "ofp_multipart_request" [h; VInt 2; f; VTup "ofp_aggregate_stats_request" [t; p; g; c; k; m]] <> Ok w.
Proof. intros dx d h f t p g c k m w. exact (aggregate_not_built dx d h f m g c t p k w). Qed.
Print Assumptions C79_aggregate_request_refuted.
Theorem C79_queue_default_refuted : forall dx d cls p w,
  In cls ["ofp_queue_stats_request"; "ofp_queue_desc_request"]%string -> obj dx d (VTup cls [p; VNone]) <> Ok w.
Proof. exact queue_request_none. Qed.
Print Assumptions C79_queue_default_refuted.

(** Refuted: a full flow update announces eight bytes more than it has; the
    experimenter property of port statistics is not padded. *)
Theorem C79_flow_update_refuted : forall o dx l e t r i hd p c mv iv b,
  call o dx "ofp_flow_update_full" [l; e; t; r; i; hd; p; c; mv; iv] = Ok b -> u16_at b 0 = zlen b + 8.
Proof. exact flow_update_long. Qed.
Print Assumptions C79_flow_update_refuted.
Theorem C79_stats_property_refuted : forall o dx t l e x d b,
  call o dx "ofp_port_stats_prop_experimenter" [t; l; e; x; VBytes d] = Ok b -> length b = (12 + length d)%nat.
Proof. exact stats_property_unpadded. Qed.
Print Assumptions C79_stats_property_refuted.

(** Refuted: two flows that differ in their importance only cannot be told
    apart once parsed. *)
Theorem C79_importance_refuted : forall n m1 m2 o1 o2 t ds dn p i h f w1 w2 c k o mt is,
  let s w := FlowStat t ds dn p i h f w c k o mt is in
  at_ m1 o1 (flow_stat_wire (s w1)) -> at_ m2 o2 (flow_stat_wire (s w2)) -> flow_stat_ok (s w1) -> flow_stat_ok (s w2) -> flow_stat_parsable (s w1) ->
  (length m1 <= n)%nat -> (length m2 <= n)%nat ->
  exists v, p_flow_stats n m1 o1 = Ok (v, (o1 + length (flow_stat_wire (s w1)))%nat) /\ p_flow_stats n m2 o2 = Ok (v, (o2 + length (flow_stat_wire (s w2)))%nat).
Proof. exact importance_lost. Qed.
Print Assumptions C79_importance_refuted.

(** Refuted: table features with actions or write-actions properties raise
    TypeError; any that are parsed have the class of a property, so that they
    cannot be built again. *)
Theorem C79_table_features_refuted : forall n m off,
  (forall len t name mm mw c x ty rest,
    at_ m off (enc ([U 2 len; U 1 t; P 5; R name; U 8 mm; U 8 mw; U 4 c; U 4 x] ++ [U 2 ty; R rest])) ->
    fits [U 2 len; U 1 t; P 5; R name; U 8 mm; U 8 mw; U 4 c; U 4 x] -> length name = 32%nat -> 64 < len -> In ty [4; 5; 6; 7] -> (2 <= length rest)%nat ->
    p_table_features (S n) m off = Err TypeError) /\
  (forall v o dx d b, p_table_features n m off = Ok (v, o) -> obj dx d v <> Ok b).
Proof.
  intros n m off. split.
  - intros len t name mm mw c x ty rest. exact (table_features_actions n m off len t name mm mw c x ty rest).
  - intros v o dx d b E. destruct (table_features_class _ _ _ _ _ E) as (l & t & name & mm & mw & c & x & ps & ->). apply table_features_not_rebuilt.
Qed.
Print Assumptions C79_table_features_refuted.

Definition ex_stats : list omsg :=
  [MRequest 0 (RqPlain 13); MRequest 0 (RqFlow 255 4294967295 4294967295 1 2 (Match 1 [128; 0; 0; 4; 0; 0; 0; 9]));
   MRequest 1 (RqPort 7); MRequest 0 (RqQueue 1 2); MRequest 0 (RqGroup 9); MRequest 0 (RqExperimenter [1; 2; 3]);
   MRequest 0 (RqQueueDesc 1 2); MRequest 0 (RqMonitor 1 2 3 4 5 6 (Match 1 []));
   MReply 1 (RpFlow [FlowStat 1 2 3 4 5 6 7 0 8 9 10 (Match 1 []) [InGoto 4]; FlowStat 1 2 3 4 5 6 7 11 8 9 10 (Match 1 [128; 0; 0; 4; 0; 0; 0; 9]) []]);
   MReply 0 (RpAggregate 1 2 3); MReply 0 (RpGroup [GroupStat 1 2 3 4 5 6 [(1, 2); (3, 4)]; GroupStat 9 2 3 4 5 6 []]);
   MReply 0 (RpGroupDesc [GroupDesc 1 2 [Bucket 1 2 3 [AcOutput 1 0]]]); MReply 0 (RpGroupFeatures 1 2 [3; 4; 5; 6] [7; 8; 9; 10]);
   MReply 0 (RpMeter [MeterStat 1 2 3 4 5 6 [(1, 2)]]); MReply 0 (RpMeterConfig [MeterConf 1 2 [BdDrop 3 4; BdDscp 5 6 7]]);
   MReply 0 (RpMeterFeatures 1 2 3 4 5); MReply 0 (RpQueueDesc [QueueDesc 1 2 [QpMin 3; QpMax 4; QpExperimenter 5 6 [7]]]);
   MReply 0 (RpExperimenter 1 2 [3; 4])].

Example C79_example :
  Forall (fun m => is_multipart5 m /\ msg_parsable m) ex_stats /\
  Forall (fun m => parse 1 300 (mwire 5 m) 0 = Ok (msg_parsed 5 m, length (mwire 5 m))) ex_stats /\
  msg_ok (MReply 0 (RpQueueDesc [QueueDesc 1 2 [QpMin 3; QpMax 4; QpExperimenter 5 6 [7]]])) /\
  msg_ok (MReply 1 (RpFlow [FlowStat 1 2 3 4 5 6 7 11 8 9 10 (Match 1 []) [InGoto 4]])) /\
  call (obj 5 3) 5 "ofp_multipart_reply" [VNone; VInt 4; VInt 0; VList [VTup "ofp_port_stats" (VNone :: all_z [1; 2; 3] ++ all_z [4; 5; 6; 7; 8; 9; 10; 11] ++ [VList []])]] =
    Ok (mwire 5 (MReply 0 (RpPort [PortStat 1 2 3 [4; 5; 6; 7; 8; 9; 10; 11] []]))).
Proof.
  split; [|split; [|split; [|split]]].
  - unfold ex_stats. repeat (apply Forall_cons; [split; [exact I | cbn; repeat constructor; cbn; try exact I; try discriminate]|]). apply Forall_nil.
  - unfold ex_stats. repeat (apply Forall_cons; [vm_compute; reflexivity|]). apply Forall_nil.
  - ex5.
  - ex5.
  - vm_compute. reflexivity.
Qed.

(** ** C80: termination *)

(** Neither the fuel of the loops nor the depth of nesting matters once above
    the length of the message: running out of it means that the loop has no
    end. *)
Theorem C80_fuel_is_enough : forall m off n1 n2 d1 d2,
  (length m < n1)%nat -> (length m < n2)%nat -> (length m < d1)%nat -> (length m < d2)%nat -> parse d1 n1 m off = parse d2 n2 m off.
Proof. intros m off n1 n2 d1 d2 H1 H2 H3 H4. apply parse_const; lia. Qed.
Print Assumptions C80_fuel_is_enough.

(** The parser comes back from every byte string at every offset, however
    deeply nested, if each message [o] held there is free of five things: a
    zero-length SET_FIELD/EXPERIMENTER where actions, instructions or
    properties start or later; experimenter bands in a meter-mod and in a
    meter configuration; being a port-mod; being a role-status with a role that
    begins with 65535.  The full claim, for all byte strings, is false, see
    below; the exact condition is C123_endless. *)
Theorem C80_terminates_partial : forall m n d off,
  Forall (fun b => 0 <= b < 256) m -> (length m < n)%nat -> (length m < d)%nat ->
  (forall o, holds m off o ->
    (forall lo p, tlvs5_from m o lo -> (lo <= p)%nat -> (p + 4 <= length m)%nat -> u16_at m p = 25 \/ u16_at m p = 65535 -> u16_at m (p + 2) <> 0) /\
    (byte_at m (o + 1) = 29 -> forall k, (o + 16 + 16 * k + 4 <= length m)%nat -> u16_at m (o + 16 + 16 * k) <> 65535) /\
    (byte_at m (o + 1) = 19 -> u16_at m (o + 8) = 10 -> forall p, (o + 24 <= p)%nat -> (p + 4 <= length m)%nat -> u16_at m p <> 65535) /\
    byte_at m (o + 1) <> 16 /\ (byte_at m (o + 1) = 30 -> u16_at m (o + 8) <> 65535)) ->
  parse d n m off <> Err OutOfFuel.
Proof.
  intros m n d off Hb Hn Hd Hs. apply parse_terminates; [exact Hb | exact Hn | lia|].
  intros o Ho. destruct (Hs o Ho) as (H1 & H2 & H3 & H4 & H5). split; [|split; [|split; [|split]]].
  - intros lo Hlo p Hge (Hp & Hty & Hz). exact (H1 lo p Hlo Hge Hp Hty Hz).
  - intros H k (Hk & He). exact (H2 H k Hk He).
  - intros [H H'] p Hge (Hp & He). exact (H3 H H' p Hge Hp He).
  - exact H4.
  - exact H5.
Qed.
Print Assumptions C80_terminates_partial.

(** Refuted: any packet-out in which a zero-length SET_FIELD or EXPERIMENTER
    action comes after any actions, any table-mod in which a zero-length
    experimenter property comes after any properties, any port-mod of a port
    whose number does not begin with 0, 1 or 65535, is never left... *)
Theorem C80_zero_length_action_refuted : forall d bs off xid b i l alen ty rest,
  at_ bs off (msg 5 13 xid (enc [U 4 b; U 4 i; U 2 alen; P 6; R (acts_wire l); U 2 ty; P 2; R rest])) ->
  u32 xid -> u16 alen -> zlen (acts_wire l) < alen -> 24 + zlen (acts_wire l) + 4 + zlen rest <= 65535 ->
  Forall act_ok l -> Forall not_mpls_ttl l -> (4 <= length rest)%nat -> ty = 25 \/ ty = 65535 ->
  forall n, parse d n bs off = Err OutOfFuel.
Proof. exact packet_out_loops. Qed.
Print Assumptions C80_zero_length_action_refuted.
Theorem C80_zero_length_property_refuted : forall d bs off xid t c l rest,
  at_ bs off (msg 5 17 xid (enc [U 1 t; P 3; U 4 c; R (concat (map tprop_wire l)); U 2 65535; U 2 0; R rest])) ->
  u32 xid -> zlen (concat (map tprop_wire l)) + zlen rest <= 65515 -> Forall (fun p => fits (tprop_fields p)) l -> (8 <= length rest)%nat ->
  forall n, parse d n bs off = Err OutOfFuel.
Proof. exact table_mod_loops. Qed.
Print Assumptions C80_zero_length_property_refuted.
Theorem C80_port_mod_refuted : forall d n bs off xid p hw c k ps,
  at_ bs off (mwire xid (MPortMod p hw c k ps)) -> msg_ok (MPortMod p hw c k ps) -> u32 xid -> ~ In (p / 65536) [0; 1; 65535] ->
  parse d n bs off = Err OutOfFuel.
Proof. exact port_mod_loops. Qed.
Print Assumptions C80_port_mod_refuted.

(** ... for instance these forty bytes. *)
Theorem C80_terminates_refuted : exists m, length m = 40%nat /\ Forall (fun b => 0 <= b < 256) m /\ forall d n, parse d n m 0 = Err OutOfFuel.
Proof.
  exists (msg 5 13 1 (enc [U 4 4294967295; U 4 1; U 2 16; P 6; R (acts_wire []); U 2 25; P 2; R (zeros 12)])).
  split; [vm_compute; reflexivity|]. split.
  - set (m := msg _ _ _ _). vm_compute in m. unfold m. repeat (apply Forall_cons; [lia|]). apply Forall_nil.
  - intros d. apply (C80_zero_length_action_refuted d _ 0 1 4294967295 1 [] 16 25 (zeros 12)); try (unfold u32, u16; lia); try (vm_compute; congruence).
    + apply at_whole.
    + apply Forall_nil.
    + apply Forall_nil.
    + apply Nat.leb_le. reflexivity.
Qed.
Print Assumptions C80_terminates_refuted.

Example C80_example :
  let m := mwire 5 (MBundleAdd 1 1 9 (MPacketOut 4294967295 1 [AcOutput 7 0; AcSetField [128; 0; 0; 4; 0; 0; 0; 9]] [5; 6])) in
  Forall (fun b => 0 <= b < 256) m /\ (length m < 100)%nat /\ holds m 0 16 /\
  (forall o, holds m 0 o -> o = 0%nat \/ o = 16%nat) /\
  (forall o, holds m 0 o -> forall lo p, tlvs5_from m o lo -> (lo <= p)%nat -> (p + 4 <= length m)%nat ->
     u16_at m p = 25 \/ u16_at m p = 65535 -> u16_at m (p + 2) <> 0) /\
  (forall o, holds m 0 o -> ~ In (byte_at m (o + 1)) [16; 19; 29; 30]).
Proof.
  intro m. assert (L : length m = 74%nat) by (vm_compute; reflexivity).
  assert (B : byte_at m 1 = 34 /\ byte_at m 17 = 13) by (split; vm_compute; reflexivity). destruct B as [B1 B2].
  assert (H : forall o, holds m 0 o -> o = 0%nat \/ o = 16%nat).
  { intros o H. inversion H as [|? ? H1 H2|? ? H1 H2]; subst; [left; reflexivity| |].
    - change (0 + 1)%nat with 1%nat in H1. rewrite B1 in H1. discriminate.
    - change (0 + 16)%nat with 16%nat in H2. inversion H2 as [|? ? H3 H4|? ? H3 H4]; subst; [right; reflexivity| |];
        change (16 + 1)%nat with 17%nat in H3; rewrite B2 in H3; discriminate. }
  split; [|split; [rewrite L; apply Nat.ltb_lt; reflexivity|split; [|split; [exact H|split]]]].
  - vm_compute in m. unfold m. repeat (apply Forall_cons; [lia|]). apply Forall_nil.
  - apply holds_bundle; [exact B1 | apply holds_self].
  - intros o Ho lo p T Hlo Hp Hq. rewrite L in Hp. destruct (H o Ho) as [-> | ->].
    + exfalso. unfold tlvs5_from in T. change (0 + 1)%nat with 1%nat in T. rewrite B1 in T. cbv zeta in T. lia.
    + assert (G : (40 <= p)%nat). { unfold tlvs5_from in T. change (16 + 1)%nat with 17%nat in T. rewrite B2 in T. cbv zeta in T. lia. }
      clear - G Hp Hq. do 40 (destruct p as [|p]; [lia|]).
      do 31 (destruct p as [|p]; [vm_compute in Hq; destruct Hq; try discriminate; vm_compute; discriminate|]). lia.
  - intros o Ho. destruct (H o Ho) as [-> | ->]; [change (0 + 1)%nat with 1%nat; rewrite B1 | change (16 + 1)%nat with 17%nat; rewrite B2]; cbn; lia.
Qed.

(** ** C81: parse and build again *)

(** Which messages come back byte for byte when they are parsed and the object
    is built again: exactly the [msg_rebuildable] ones.  The messages left out
    are table-mods, forwarded requests, requests for aggregates, queue
    descriptions and flow monitors, replies with aggregates, queue descriptions
    and experimenter data, and those with flows of an importance. *)
Theorem C81_rebuild_iff_partial : forall m xid dx d dp n bs off,
  at_ bs off (mwire xid m) -> msg_ok m -> msg_parsable m -> u32 xid -> (length bs <= n)%nat -> (mdepth m <= dp)%nat -> (3 + mdepth m <= d)%nat ->
  exists v e, parse dp n bs off = Ok (v, e) /\ (obj dx d v = Ok (mwire xid m) <-> msg_rebuildable m).
Proof.
  intros m xid dx d dp n bs off Hat Hok Hp Hx Hn Hdp Hd. exists (msg_parsed xid m). eexists. split; [apply msg_parse; eassumption|]. split.
  - apply msg_rebuilt_only; assumption.
  - intro Hr. exact (msg_rebuild m xid Hp Hr dx d Hok Hx Hd).
Qed.
Print Assumptions C81_rebuild_iff_partial.

(** Refuted: no table-mod that has been parsed comes back, nor a forwarded
    message. *)
Theorem C81_table_mod_refuted : forall t c ps xid dx d dp n bs off v e,
  at_ bs off (mwire xid (MTableMod t c ps)) -> msg_ok (MTableMod t c ps) -> u32 xid -> (length bs <= n)%nat -> (1 <= dp)%nat -> (4 <= d)%nat ->
  parse dp n bs off = Ok (v, e) -> obj dx d v <> Ok (mwire xid (MTableMod t c ps)).
Proof.
  intros t c ps xid dx d dp n bs off v e Hat Hok Hx Hn Hdp Hd E Hb.
  rewrite (msg_parse _ xid dp n bs off Hat Hok I Hx Hn) in E by exact Hdp. injection E as <- _.
  exact (msg_rebuilt_only _ xid dx d Hok I Hx Hd Hb).
Qed.
Print Assumptions C81_table_mod_refuted.
Theorem C81_forward_refuted : forall k x xid dx d dp n bs off v e,
  at_ bs off (mwire xid (MForward x k)) -> msg_ok (MForward x k) -> msg_parsable k -> u32 xid -> (length bs <= n)%nat -> (S (mdepth k) <= dp)%nat -> (4 + mdepth k <= d)%nat ->
  parse dp n bs off = Ok (v, e) -> obj dx d v <> Ok (mwire xid (MForward x k)).
Proof.
  intros k x xid dx d dp n bs off v e Hat Hok Hp Hx Hn Hdp Hd E Hb.
  rewrite (msg_parse _ xid dp n bs off Hat Hok Hp Hx Hn) in E by exact Hdp. injection E as <- _.
  exact (msg_rebuilt_only _ xid dx d Hok Hp Hx Hd Hb).
Qed.
Print Assumptions C81_forward_refuted.

Example C81_example :
  let m := MBundleAdd 1 1 9 (MPacketOut 4294967295 1 [AcOutput 7 0] [5; 6]) in
  msg_parsable m /\ msg_rebuildable m /\ mdepth m = 2%nat /\ ~ msg_rebuildable (MBundleAdd 1 1 9 (MTableMod 1 2 [])) /\
  obj 0 5 (msg_parsed 9 m) = Ok (mwire 9 m) /\
  ~ msg_rebuildable (MReply 0 (RpFlow [FlowStat 1 2 3 4 5 6 7 11 8 9 10 (Match 1 []) []])) /\
  obj 0 4 (msg_parsed 9 (MReply 0 (RpFlow [FlowStat 1 2 3 4 5 6 7 0 8 9 10 (Match 1 []) []]))) =
    Ok (mwire 9 (MReply 0 (RpFlow [FlowStat 1 2 3 4 5 6 7 0 8 9 10 (Match 1 []) []]))).
Proof.
  cbv zeta. split; [cbn; repeat constructor|]. split; [exact I|]. split; [reflexivity|]. split; [exact (fun H => H)|].
  split; [vm_compute; reflexivity|]. split; [|vm_compute; reflexivity].
  intro H. cbn in H. inversion H; subst. cbn in *. discriminate.
Qed.

(** Properties C39, C43 - C47 and C55: messages of OpenFlow 1.3. *)

From Verif Require Import Py Struct P_Struct S_Hello S_Ports S_Wire4 S_Msg4 M_Build4 M_Parse4 P_Wire4 P_Act4 P_Rebuild4 P_Stat4 P_Msg4 P_MsgParse4 P_MsgRebuild4 P_Term4 P_MsgBad4.
From Verif Require Import P_Bad4.
Local Open Scope Z_scope.
Local Open Scope list_scope.

Ltac solve_msg :=
  repeat first [ exact I | match goal with |- Forall _ [] => apply Forall_nil | |- Forall _ (_ :: _) => apply Forall_cons | |- _ /\ _ => split end
               | progress cbv beta iota delta [fits in_range act_ok inst_ok act_fields inst_fields bucket_ok bucket_fields band_ok band_fields match_fields
                   msg_ok body_fields rq_ok rq_fields rp_ok rp_fields flow_stat_ok group_stat_ok group_desc_ok meter_stat_ok meter_conf_ok]
               | (cbn; lia) | (vm_compute; reflexivity) | (vm_compute; discriminate) | (cbn; tauto) ].

(** ** C39: lengths *)

(** Whatever the arguments (and whatever [obj] makes of the objects inside), a
    message that is returned starts with version 4 and announces its own size;
    in particular nothing longer than 65535 bytes is ever returned. *)
Theorem C39_length_true : forall o dx cls args b,
  In cls message_builders -> call o dx cls args = Ok b ->
  (8 <= length b)%nat /\ byte_at b 0 = 4 /\ u16_at b 2 = Z.of_nat (length b) /\ Z.of_nat (length b) <= 65535.
Proof. intros o dx cls args b Hc Hb. exact (built_framed o dx cls args Hc b Hb). Qed.
Print Assumptions C39_length_true.

(** The data of the general builder is in the message, so that more than 65527
    bytes of it cannot be sent: an exception is raised. *)
Theorem C39_too_long_raises : forall d dx h data t,
  65527 < Z.of_nat (length data) -> exists e, call (obj dx d) dx "ofp_" [h; VBytes data; t] = Err e.
Proof.
  intros d dx h data t Hl. destruct (call (obj dx d) dx "ofp_" [h; VBytes data; t]) as [b|e] eqn:E; [exfalso | eexists; reflexivity].
  pose proof (built_framed _ _ _ _ (or_introl eq_refl) b E) as (_ & _ & _ & Hb).
  change (ofp_ (obj dx d) dx h (VBytes data) t = Ok b) in E. unfold ofp_ in E.
  apply bind_ok in E. destruct E as ([[v ty] x] & _ & E). apply bind_ok in E. destruct E as (dt & Ed & E).
  apply bind_ok in E. destruct E as (hd & Eh & E). injection E as <-.
  assert (dt = data) by (destruct d; cbn [obj] in Ed; congruence). subst dt.
  unfold M_Build4.ofp_header in Eh. cbv zeta in Eh. apply bind_ok in Eh. destruct Eh as (u & _ & Eh).
  apply (packs_inv "BBHI" [FU 1; FU 1; FU 2; FU 4] _ _ eq_refl) in Eh. apply pack_length in Eh. cbn in Eh.
  unfold zlen in Hb. rewrite app_length in Hb. lia.
Qed.
Print Assumptions C39_too_long_raises.

Example C39_example :
  call (obj 7 1) 7 "ofp_error_msg" [VTup "ofp_header" [VNone; VNone; VInt 3; VInt 5]; VInt 1; VInt 2; VBytes [9; 9]] =
    Ok [4; 1; 0; 14; 0; 0; 0; 5; 0; 1; 0; 2; 9; 9] /\
  call (obj 7 1) 7 "ofp_error_msg" [VTup "ofp_header" [VInt 5; VNone; VNone; VNone]; VInt 1; VInt 2; VBytes [9; 9]] = Err AssertionError.
Proof. split; vm_compute; reflexivity. Qed.

(** ** C43: FLOW_MOD *)

(** Built from any way of writing the arguments, placed anywhere, parsed: the
    header, all fields, the match, the instructions ([msg_parsed]).  Missing:
    SET_MPLS_TTL actions inside ([inst_parsable]); payloads of set-field and
    experimenter actions come back padded ([insts_parsed]). *)
Theorem C43_flow_mod_round_trip_partial : forall dx d xid h c k t cm i hd p b o g f mt is args,
  let m := MFlowMod c k t cm i hd p b o g f mt is in
  msg_args "ofp_flow_mod" args m -> msg_ok m -> Forall inst_parsable is -> hdr_arg dx true 14 xid h -> u32 xid -> (3 <= d)%nat ->
  exists wire, call (obj dx d) dx "ofp_flow_mod" (h :: args) = Ok wire /\
  forall pre post n, (length (pre ++ wire ++ post) <= n)%nat ->
    parse n (pre ++ wire ++ post) (length pre) =
    Ok (VTup "ofp_flow_mod"
          ([VTup "ofp_header" [VInt 4; VInt 14; VInt (zlen wire); VInt xid];
            VInt c; VInt k; VInt t; VInt cm; VInt i; VInt hd; VInt p; VInt b; VInt o; VInt g; VInt f] ++
           [match_view mt; VList (map inst_parsed is)]), (length pre + length wire)%nat).
Proof.
  intros dx d xid h c k t cm i hd p b o g f mt is args m Ha Hok Hp Hh Hx Hd.
  exists (mwire xid m). split; [apply msg_build; assumption|]. intros pre post n Hn.
  rewrite (msg_parse n _ (length pre) xid m) by (try assumption; exists pre, post; split; reflexivity).
  cbn [msg_unread m]. rewrite Nat.sub_0_r. replace (zlen (mwire xid m)) with (8 + zlen (body m)); [reflexivity|].
  unfold zlen. rewrite mwire_len. unfold body. rewrite enc_length. lia.
Qed.
Print Assumptions C43_flow_mod_round_trip_partial.

(** The parsed object builds the identical bytes. *)
Theorem C43_flow_mod_rebuild : forall dx d n bs off xid c k t cm i hd p b o g f mt is,
  let m := MFlowMod c k t cm i hd p b o g f mt is in
  at_ bs off (mwire xid m) -> msg_ok m -> Forall inst_parsable is -> u32 xid -> (length bs <= n)%nat -> (4 <= d)%nat ->
  exists v e, parse n bs off = Ok (v, e) /\ obj dx d v = Ok (mwire xid m).
Proof.
  intros. eexists. eexists. split; [apply msg_parse; eassumption|]. apply msg_rebuild; try assumption. exact I.
Qed.
Print Assumptions C43_flow_mod_rebuild.

(** Refuted with SET_MPLS_TTL: a FLOW_MOD - or a PACKET_OUT, or a GROUP_MOD -
    with one among its actions, wherever, is not parsed. *)
Theorem C43_mpls_ttl_refuted : forall n bs off xid c k t cm i hd p b o g f mt is,
  let m := MFlowMod c k t cm i hd p b o g f mt is in
  at_ bs off (mwire xid m) -> msg_ok m -> u32 xid -> (length bs <= n)%nat -> ~ Forall inst_parsable is ->
  parse n bs off = Err NameError.
Proof. intros n bs off xid c k t cm i hd p b o g f mt is m Hat Hok Hx Hn Hp. exact (mpls_message n bs off xid m Hat Hok I Hp Hx Hn). Qed.
Print Assumptions C43_mpls_ttl_refuted.

Example C43_mpls_ttl_example :
  exists b, obj 0 4 (VTup "ofp_flow_mod" [VNone; VInt 0; VInt 0; VInt 0; VInt 0; VInt 0; VInt 0; VInt 1; VNone; VNone; VNone; VInt 0;
     VTup "ofp_match" [VNone; VNone; VNone];
     VList [VTup "ofp_instruction_actions" [VInt 4; VNone; VList [VTup "ofp_action_mpls_ttl" [VNone; VNone; VInt 63]]]]]) = Ok b /\
  forall n, parse (S n) b 0 = Err NameError.
Proof. eexists. split; [vm_compute; reflexivity|]. intros n. reflexivity. Qed.

(** Refuted for the payload of a set-field action: it comes back with four
    more bytes. *)
Definition set_field_flow (f : bytes) : omsg :=
  MFlowMod 0 0 0 0 0 0 1 4294967295 4294967295 4294967295 0 (Match 1 []) [InActions 4 [AcSetField f]].
Theorem C43_padding_refuted :
  let f := [128; 0; 6; 2; 1; 2; 8; 9] in
  msg_ok (set_field_flow f) /\ msg_parsable (set_field_flow f) /\
  parse 100 (mwire 5 (set_field_flow f)) 0 = Ok (msg_parsed 5 (set_field_flow (f ++ [0; 0; 0; 0])), 80%nat).
Proof.
  cbv zeta. split; [unfold set_field_flow; solve_msg|]. split; [repeat constructor|]. vm_compute. reflexivity.
Qed.
Print Assumptions C43_padding_refuted.

Example C43_example :
  let m := MFlowMod 1 2 3 0 60 0 100 4294967295 4294967295 4294967295 1 (Match 1 [128; 0; 0; 4; 0; 0; 0; 9])
    [InActions 4 [AcOutput 7 128; AcSetField [128; 0; 0; 4; 0; 0; 0; 9; 1; 2; 3; 4]]; InGoto 5] in
  msg_ok m /\ msg_parsable m /\ length (mwire 77 m) = 112%nat /\
  parse 200 (mwire 77 m) 0 = Ok (msg_parsed 77 m, 112%nat) /\ obj 0 4 (msg_parsed 77 m) = Ok (mwire 77 m).
Proof.
  cbv zeta. split; [|split; [|split; [|split]]]; [solve_msg| |vm_compute; reflexivity..].
  repeat constructor.
Qed.

(** ** C44: messages between controller and switch *)

(** Every builder of hello, error, echo and other plain messages, features,
    switch-config, packet-in, flow-removed, port-status, packet-out, table-mod,
    queue-get-config, role and async messages: what is built is parsed back.
    Missing: role replies ([msg_parsable]), port-mod, SET_MPLS_TTL; payloads of
    actions come back padded, port names as text; the parser leaves the cursor
    before the payload of packet-in and packet-out. *)
Theorem C44_round_trip_partial : forall dx d cls args m xid h,
  is_control m -> msg_args cls args m -> msg_ok m -> msg_parsable m ->
  hdr_arg dx (msingle m) (mtype m) xid h -> u32 xid -> (3 <= d)%nat ->
  exists wire, call (obj dx d) dx cls (h :: args) = Ok wire /\
  forall pre post n, (length (pre ++ wire ++ post) <= n)%nat ->
    parse n (pre ++ wire ++ post) (length pre) = Ok (msg_parsed xid m, (length pre + length wire - msg_unread m)%nat).
Proof. intros dx d cls args m xid h _. apply round_trip. Qed.
Print Assumptions C44_round_trip_partial.

(** The parsed object builds the same bytes (missing: port-status). *)
Theorem C44_rebuild_partial : forall dx d n bs off xid m,
  is_control m -> (forall r p, m <> MPortStatus r p) ->
  at_ bs off (mwire xid m) -> msg_ok m -> msg_parsable m -> u32 xid -> (length bs <= n)%nat -> (4 <= d)%nat ->
  exists v e, parse n bs off = Ok (v, e) /\ obj dx d v = Ok (mwire xid m).
Proof.
  intros dx d n bs off xid m Hc Hs Hat Hok Hp Hx Hn Hd. eexists. eexists. split; [apply msg_parse; eassumption|].
  apply msg_rebuild; try assumption. destruct m; try exact I; try destruct Hc. exact (Hs _ _ eq_refl).
Qed.
Print Assumptions C44_rebuild_partial.

(** Refuted: no port-mod is ever parsed. *)
Theorem C44_port_mod_refuted : forall n bs off xid p hw c k a,
  at_ bs off (mwire xid (MPortMod p hw c k a)) -> msg_ok (MPortMod p hw c k a) -> u32 xid ->
  parse n bs off = Err ValueError.
Proof. exact port_mod_unparsed. Qed.
Print Assumptions C44_port_mod_refuted.

(** Refuted: a role reply comes back as header and raw bytes. *)
Theorem C44_role_reply_refuted : forall n bs off xid r g,
  at_ bs off (mwire xid (MRole 25 r g)) -> msg_ok (MRole 25 r g) -> u32 xid ->
  parse n bs off = Ok (VTup "ofp_" [VTup "ofp_header" [VInt 4; VInt 25; VInt 24; VInt xid]; VBytes (be 4 r ++ zeros 4 ++ be 8 g)], (off + 24)%nat).
Proof. exact role_reply_parsed. Qed.
Print Assumptions C44_role_reply_refuted.

(** Refuted: a parsed port-status cannot be built again, the name having
    become a unicode object. *)
Theorem C44_port_rebuild_refuted : forall dx d xid r p,
  exists e, obj dx d (msg_parsed xid (MPortStatus r p)) = Err e.
Proof. exact port_status_not_rebuilt. Qed.
Print Assumptions C44_port_rebuild_refuted.

(** Refuted: a name with a byte that is not ASCII cannot be built; a name with
    a NUL comes back shorter. *)
Theorem C44_port_name_refuted :
  obj 0 4 (VTup "ofp_port_status" [VNone; VInt 0; VTup "ofp_port" [VInt 1; VBytes (zeros 6); VBytes [233];
      VInt 0; VInt 0; VInt 0; VInt 0; VInt 0; VInt 0; VInt 0; VInt 0]]) = Err UnicodeError /\
  (exists b, obj 0 4 (VTup "ofp_port_status" [VNone; VInt 0; VTup "ofp_port" [VInt 1; VBytes (zeros 6); VBytes [101; 0; 102];
      VInt 0; VInt 0; VInt 0; VInt 0; VInt 0; VInt 0; VInt 0; VInt 0]]) = Ok b /\
   forall n, parse n b 0 = Ok (VTup "ofp_port_status" [VTup "ofp_header" [VInt 4; VInt 12; VInt 80; VInt 0]; VInt 0; VTup "ofp_port" [VInt 1; VBytes (zeros 6); VText [101];
      VInt 0; VInt 0; VInt 0; VInt 0; VInt 0; VInt 0; VInt 0; VInt 0]], 80%nat)).
Proof.
  split.
  - vm_compute. reflexivity.
  - eexists. split; [vm_compute; reflexivity|]. intros n. reflexivity.
Qed.
Print Assumptions C44_port_name_refuted.

Definition ex_port : sport := {| sp_no := 3; sp_hw := [2; 0; 0; 0; 0; 3]; sp_name := [101; 116; 104; 51]; sp_words := [0; 1; 2; 3; 4; 5; 6; 7] |}.

Ltac ex_step :=
  lazymatch goal with
  | |- True => exact I
  | |- _ /\ _ => split
  | |- Forall _ [] => apply Forall_nil
  | |- Forall _ (_ :: _) => apply Forall_cons
  | |- Forall ?P ?l => let l' := eval vm_compute in l in change (Forall P l')
  | |- (_ <= _)%Z => vm_compute; discriminate
  | |- (_ < _)%Z => vm_compute; reflexivity
  | |- (_ <= _)%nat => apply Nat.leb_le; vm_compute; reflexivity
  | |- _ = _ => vm_compute; reflexivity
  | |- ~ In _ _ => vm_compute; intuition discriminate
  | |- In _ _ => vm_compute; tauto
  | |- _ => progress cbv beta iota delta [fits in_range act_ok inst_ok bucket_ok band_ok u8 u16 u32 plain_type port_ok sport_ok band_plain
              not_mpls_ttl inst_parsable bucket_parsable rp_parsable flow_stat_parsable group_desc_parsable meter_conf_parsable
              msg_ok msg_parsable rq_ok rp_ok flow_stat_ok group_stat_ok group_desc_ok meter_stat_ok meter_conf_ok
              is_control is_group_meter is_multipart rq_fields rp_fields]
  end.
Ltac solve_ex := repeat ex_step.

Example C44_example :
  let l := [MHello [[18]]; MError 5 1 [1; 2]; MPlain 2 [7; 7; 7]; MFeatures 5 256 254 0 71; MConfig 9 0 65535;
            MPacketIn 4294967295 4 1 0 0 (Match 1 [128; 0; 0; 4; 0; 0; 0; 9]) [1; 2; 3; 4];
            MFlowRemoved 1 2 3 4 5 6 7 8 9 10 (Match 1 []); MPortStatus 2 ex_port;
            MPacketOut 4294967295 4294967293 [AcOutput 7 0] [5; 6]; MTableMod 255 3; MQueueReply 3 [(1, 3); (2, 3)];
            MRole 24 2 99; MAsync 28 (1, 2) (3, 4) (5, 6)] in
  Forall (fun m => is_control m /\ msg_ok m /\ msg_parsable m) l /\
  Forall (fun m => parse 100 (mwire 5 m) 0 = Ok (msg_parsed 5 m, length (mwire 5 m) - msg_unread m)%nat) l.
Proof.
  cbv zeta. split; [|repeat (apply Forall_cons; [vm_compute; reflexivity|]); apply Forall_nil].
  solve_ex.
Qed.

(** Refuted with SET_MPLS_TTL among the actions of a PACKET_OUT, ... *)
Theorem C44_mpls_ttl_refuted : forall n bs off xid b p acts data,
  let m := MPacketOut b p acts data in
  at_ bs off (mwire xid m) -> msg_ok m -> u32 xid -> (length bs <= n)%nat -> ~ Forall not_mpls_ttl acts ->
  parse n bs off = Err NameError.
Proof. intros n bs off xid b p acts data m Hat Hok Hx Hn Hp. exact (mpls_message n bs off xid m Hat Hok I Hp Hx Hn). Qed.
Print Assumptions C44_mpls_ttl_refuted.

(** ** C45: groups and meters *)

(** Missing: experimenter bands ([band_plain]), SET_MPLS_TTL in buckets; action
    payloads in buckets come back padded. *)
Theorem C45_round_trip_partial : forall dx d cls args m xid h,
  is_group_meter m -> msg_args cls args m -> msg_ok m -> msg_parsable m ->
  hdr_arg dx (msingle m) (mtype m) xid h -> u32 xid -> (3 <= d)%nat ->
  exists wire, call (obj dx d) dx cls (h :: args) = Ok wire /\
  forall pre post n, (length (pre ++ wire ++ post) <= n)%nat ->
    parse n (pre ++ wire ++ post) (length pre) = Ok (msg_parsed xid m, (length pre + length wire)%nat).
Proof.
  intros dx d cls args m xid h Hk Ha Hok Hp Hh Hx Hd. destruct (round_trip dx d cls args m xid h Ha Hok Hp Hh Hx Hd) as (w & E & P).
  exists w. split; [exact E|]. intros pre post n Hn. rewrite (P pre post n Hn). destruct m; try destruct Hk; cbn [msg_unread]; rewrite Nat.sub_0_r; reflexivity.
Qed.
Print Assumptions C45_round_trip_partial.

(** The parsed object builds the identical bytes. *)
Theorem C45_rebuild : forall dx d n bs off xid m,
  is_group_meter m -> at_ bs off (mwire xid m) -> msg_ok m -> msg_parsable m -> u32 xid -> (length bs <= n)%nat -> (4 <= d)%nat ->
  exists v e, parse n bs off = Ok (v, e) /\ obj dx d v = Ok (mwire xid m).
Proof.
  intros dx d n bs off xid m Hc Hat Hok Hp Hx Hn Hd. eexists. eexists. split; [apply msg_parse; eassumption|].
  apply msg_rebuild; try assumption. destruct m; try exact I; destruct Hc.
Qed.
Print Assumptions C45_rebuild.

(** Refuted: one experimenter band among any others, and the parser never
    comes back, whatever the fuel. *)
Theorem C45_experimenter_band_refuted : forall bs off xid c f m l,
  at_ bs off (mwire xid (MMeterMod c f m l)) -> msg_ok (MMeterMod c f m l) -> u32 xid ->
  ~ Forall band_plain l -> forall n, parse n bs off = Err OutOfFuel.
Proof. exact meter_mod_loops. Qed.
Print Assumptions C45_experimenter_band_refuted.

(** Refuted with SET_MPLS_TTL in a bucket of a GROUP_MOD. *)
Theorem C45_mpls_ttl_refuted : forall n bs off xid c t g l,
  let m := MGroupMod c t g l in
  at_ bs off (mwire xid m) -> msg_ok m -> u32 xid -> (length bs <= n)%nat -> ~ Forall bucket_parsable l ->
  parse n bs off = Err NameError.
Proof. intros n bs off xid c t g l m Hat Hok Hx Hn Hp. exact (mpls_message n bs off xid m Hat Hok I Hp Hx Hn). Qed.
Print Assumptions C45_mpls_ttl_refuted.

Example C45_mpls_ttl_example :
  let l := [Bucket 1 2 3 [AcOutput 1 0]; Bucket 1 2 3 [AcOutput 1 0; AcMplsTtl 64]] in
  msg_ok (MGroupMod 0 1 9 l) /\ ~ Forall bucket_parsable l /\ parse 100 (mwire 5 (MGroupMod 0 1 9 l)) 0 = Err NameError /\
  msg_ok (MPacketOut 1 2 [AcMplsTtl 64] [7]) /\ parse 100 (mwire 5 (MPacketOut 1 2 [AcMplsTtl 64] [7])) 0 = Err NameError.
Proof.
  cbv zeta. split; [solve_msg|]. split; [|split; [vm_compute; reflexivity|split; [solve_msg|vm_compute; reflexivity]]].
  intros F. exact (Forall_inv (Forall_inv_tail (Forall_inv (Forall_inv_tail F)))).
Qed.

Example C45_example :
  let l := [MGroupMod 0 1 50 [Bucket 1 4294967295 4294967295 [AcOutput 7 128; AcPush 17 33024]; Bucket 2 0 0 []];
            MMeterMod 0 1 5 [BdDrop 100 10; BdDscp 200 20 3]] in
  Forall (fun m => is_group_meter m /\ msg_ok m /\ msg_parsable m) l /\
  Forall (fun m => parse 200 (mwire 5 m) 0 = Ok (msg_parsed 5 m, length (mwire 5 m))) l /\
  (let m := MMeterMod 0 1 5 [BdDrop 100 10; BdExperimenter 1 2 3 [9; 9]] in msg_ok m /\ u32 5 /\
     ~ Forall band_plain [BdDrop 100 10; BdExperimenter 1 2 3 [9; 9]]).
Proof.
  cbv zeta. split; [solve_ex|]. split; [repeat (apply Forall_cons; [vm_compute; reflexivity|]); apply Forall_nil|].
  split; [solve_ex|]. split; [solve_ex|]. intros H. exact (Forall_inv (Forall_inv_tail H)).
Qed.

(** ** C46: statistics *)

(** All requests and replies, any number of entries.  Missing: replies with
    port, aggregate, experimenter statistics and table features; aggregate
    requests given as objects; strings come back NUL-padded, port names as
    text, action payloads padded. *)
Theorem C46_round_trip_partial : forall dx d cls args m xid h,
  is_multipart m -> msg_args cls args m -> msg_ok m -> msg_parsable m ->
  hdr_arg dx (msingle m) (mtype m) xid h -> u32 xid -> (3 <= d)%nat ->
  exists wire, call (obj dx d) dx cls (h :: args) = Ok wire /\
  forall pre post n, (length (pre ++ wire ++ post) <= n)%nat ->
    parse n (pre ++ wire ++ post) (length pre) = Ok (msg_parsed xid m, (length pre + length wire)%nat).
Proof.
  intros dx d cls args m xid h Hk Ha Hok Hp Hh Hx Hd. destruct (round_trip dx d cls args m xid h Ha Hok Hp Hh Hx Hd) as (w & E & P).
  exists w. split; [exact E|]. intros pre post n Hn. rewrite (P pre post n Hn). destruct m; try destruct Hk; cbn [msg_unread]; rewrite Nat.sub_0_r; reflexivity.
Qed.
Print Assumptions C46_round_trip_partial.

(** The parsed object builds the identical bytes (missing: port descriptions,
    aggregate requests). *)
Theorem C46_rebuild_partial : forall dx d n bs off xid m,
  is_multipart m -> (forall f l, m <> MReply f (RpPortDesc l)) -> (forall f t p g c k mt, m <> MRequest f (RqAggregate t p g c k mt)) ->
  at_ bs off (mwire xid m) -> msg_ok m -> msg_parsable m -> u32 xid -> (length bs <= n)%nat -> (4 <= d)%nat ->
  exists v e, parse n bs off = Ok (v, e) /\ obj dx d v = Ok (mwire xid m).
Proof.
  intros dx d n bs off xid m Hc Hs Hg Hat Hok Hp Hx Hn Hd. eexists. eexists. split; [apply msg_parse; eassumption|].
  apply msg_rebuild; try assumption. destruct m; try exact I; try destruct Hc; destruct r; try exact I.
  - exact (Hg _ _ _ _ _ _ _ eq_refl).
  - exact (Hs _ _ eq_refl).
Qed.
Print Assumptions C46_rebuild_partial.

(** Refuted: no aggregate request is built from an object. *)
Theorem C46_aggregate_request_refuted : forall dx d h f t p g c k m w,
  call (obj dx d) dx "ofp_multipart_request" [h; VInt 2; f; VTup "ofp_aggregate_stats_request" [t; p; g; c; k; m]] <> Ok w.
Proof. intros dx d h f t p g c k m w. exact (aggregate_not_built dx d h f m g c t p k w). Qed.
Print Assumptions C46_aggregate_request_refuted.

(** Refuted: no message with table features is parsed. *)
Theorem C46_table_features_refuted : forall n bs off ty xid f b post,
  (ty = 18 \/ ty = 19) -> at_ bs off (msg 4 ty xid (be 2 12 ++ be 2 f ++ zeros 4 ++ b) ++ post) ->
  u32 xid -> 64 <= zlen b -> zlen b <= 65519 -> (0 < n)%nat -> parse n bs off = Err NameError.
Proof. exact table_features_unparsed. Qed.
Print Assumptions C46_table_features_refuted.

(** Refuted: no reply with port statistics, whatever their number and contents,
    comes back with as many ports as it had; with fewer than 111 it is never
    parsed.  (The parser reads 111 of the 112 bytes of an entry.) *)
Definition port_stats_obj (no c : Z) : pyval := VTup "ofp_port_stats" (VInt no :: repeat (VInt c) 12 ++ [VInt 1; VInt 2]).
Theorem C46_port_stats_refuted : forall n bs off xid f ports r,
  at_ bs off (msg 4 19 xid (be 2 4 ++ be 2 f ++ zeros 4 ++ concat ports)) -> u32 xid -> u16 f ->
  Forall (fun p => length p = 112%nat) ports -> ports <> [] -> (length ports <= 584)%nat ->
  parse n bs off = Ok r ->
  (111 <= length ports)%nat /\
  forall h t fl l e, r = (VTup "ofp_multipart_reply" [h; t; fl; VList l], e) -> length l <> length ports.
Proof.
  intros n bs off xid f ports r Hat Hx Hf Hp Hne Hk E.
  assert (L : length (concat ports) = (112 * length ports)%nat).
  { clear - Hp. induction Hp as [|p ps H _ IH]; [reflexivity|]. cbn [concat length]. rewrite app_length, H, IH. lia. }
  assert (K : (0 < length ports)%nat) by (destruct ports; [contradiction|cbn; lia]).
  assert (R : exists h t fl l e, r = (VTup "ofp_multipart_reply" [h; t; fl; VList l], e)).
  { destruct (reply_start n bs off 4 xid f _ Hat Hx ltac:(unfold u16; lia) Hf ltac:(unfold zlen; lia)) as (Hh & Hu & _ & E2).
    rewrite E2 in E. unfold p_multipart_reply in E. rewrite Hh in E. cbn [bind] in E. rewrite Hu in E. cbn [bind] in E. cbv zeta in E.
    change (4 =? 0) with false in E. change (4 =? 1) with false in E. change (4 =? 2) with false in E.
    change (4 =? 3) with false in E. change (4 =? 4) with true in E. cbv iota in E.
    destruct (list_fetch n (p_port_stats bs) (off + (16 + length (concat ports))) (off + 16)) as [[l o]|]; [|discriminate].
    cbn [bind] in E. injection E as <-. do 5 eexists. reflexivity. }
  destruct R as (h & t & fl & l & e & ->).
  pose proof (port_stats_never n bs off xid f _ _ h t fl l e Hat Hx Hf ltac:(unfold zlen; lia) L K E) as N.
  split; [lia|]. intros h' t' fl' l' e' Ee. injection Ee as _ _ _ <- _. lia.
Qed.
Print Assumptions C46_port_stats_refuted.

Example C46_port_stats_example :
  exists b, obj 0 4 (VTup "ofp_multipart_reply" [VNone; VInt 4; VInt 0; VList [port_stats_obj 1 3]]) = Ok b /\
  parse 200 b 0 = Err StructError.
Proof. eexists. split; [vm_compute; reflexivity|]. vm_compute. reflexivity. Qed.

(** Refuted: every aggregate reply comes back as a list of one; nothing is
    built from such a list. *)
Theorem C46_aggregate_reply_refuted : forall n bs off xid f p b c,
  at_ bs off (msg 4 19 xid (be 2 2 ++ be 2 f ++ zeros 4 ++ enc [U 8 p; U 8 b; U 4 c; P 4])) -> u32 xid -> u16 f ->
  fits [U 8 p; U 8 b; U 4 c; P 4] -> (0 < n)%nat ->
  exists v, parse n bs off = Ok (v, (off + 40)%nat) /\
    (exists h, v = VTup "ofp_multipart_reply" [h; VInt 2; VInt f; VList [VTup "ofp_aggregate_stats_reply" [VInt p; VInt b; VInt c]]]) /\
    forall dx d w, obj dx d v <> Ok w.
Proof.
  intros n bs off xid f p b c Hat Hx Hf Hfit Hn. destruct (aggregate_reply n bs off xid f p b c Hat Hx Hf Hfit Hn) as [h E].
  eexists. split; [exact E|]. split; [eexists; reflexivity|]. intros dx d w. apply aggregate_list_unbuilt.
Qed.
Print Assumptions C46_aggregate_reply_refuted.

Example C46_aggregate_reply_example :
  let v := VTup "ofp_multipart_reply" [VTup "ofp_header" [VInt 4; VInt 19; VInt 40; VInt 0]; VInt 2; VInt 0;
             VList [VTup "ofp_aggregate_stats_reply" [VInt 1; VInt 2; VInt 3]]] in
  exists b, obj 0 4 (VTup "ofp_multipart_reply" [VNone; VInt 2; VInt 0; VTup "ofp_aggregate_stats_reply" [VInt 1; VInt 2; VInt 3]]) = Ok b /\
  parse 200 b 0 = Ok (v, 40%nat) /\ obj 0 4 v = Err ValueError.
Proof. cbv zeta. eexists. split; [vm_compute; reflexivity|]. split; vm_compute; reflexivity. Qed.

(** Refuted: every experimenter reply is parsed into an object the builder
    refuses. *)
Theorem C46_experimenter_refuted : forall n bs off xid f e t d,
  at_ bs off (msg 4 19 xid (be 2 65535 ++ be 2 f ++ zeros 4 ++ be 4 e ++ be 4 t ++ d)) -> u32 xid -> u16 f -> u32 e -> u32 t ->
  zlen d <= 65511 ->
  exists v, parse n bs off = Ok (v, (off + 24 + length d)%nat) /\
    (exists h, v = VTup "ofp_multipart_reply" [h; VInt 65535; VInt f; VTup "ofp_experimenter_multipart_" [VInt e; VInt t; VBytes d]]) /\
    forall dx k w, obj dx k v <> Ok w.
Proof.
  intros n bs off xid f e t d Hat Hx Hf He Ht Hl. destruct (experimenter_reply n bs off xid f e t d Hat Hx Hf He Ht Hl) as [h E].
  eexists. split; [exact E|]. split; [eexists; reflexivity|]. intros dx k w. apply experimenter_tuple_unbuilt.
Qed.
Print Assumptions C46_experimenter_refuted.

Example C46_experimenter_example :
  let v := VTup "ofp_multipart_reply" [VTup "ofp_header" [VInt 4; VInt 19; VInt 26; VInt 0]; VInt 65535; VInt 0;
             VTup "ofp_experimenter_multipart_" [VInt 1; VInt 2; VBytes [7; 8]]] in
  exists b, obj 0 4 (VTup "ofp_multipart_reply" [VNone; VInt 65535; VInt 0; VBytes [0; 0; 0; 1; 0; 0; 0; 2; 7; 8]]) = Ok b /\
  parse 200 b 0 = Ok (v, 26%nat) /\ obj 0 4 v = Err ValueError.
Proof. cbv zeta. eexists. split; [vm_compute; reflexivity|]. split; vm_compute; reflexivity. Qed.

(** Refuted: a request whose body was left out is built but not parsed; the
    default queue id is an undefined name. *)
Theorem C46_defaults_refuted :
  (forall ty, In ty [1; 2; 4; 5; 6; 9; 10] ->
     exists b, obj 0 4 (VTup "ofp_multipart_request" [VNone; VInt ty; VInt 0; VNone]) = Ok b /\ forall n, parse n b 0 = Err StructError) /\
  (forall dx d v, (0 < d)%nat -> obj dx d (VTup "ofp_queue_stats_request" [v; VNone]) = Err NameError).
Proof.
  split.
  - intros ty [<-|[<-|[<-|[<-|[<-|[<-|[<-|[]]]]]]]]; eexists; (split; [vm_compute; reflexivity|intros n; reflexivity]).
  - intros dx [|d] v Hd; [lia|reflexivity].
Qed.
Print Assumptions C46_defaults_refuted.

(** Refuted: strings come back padded with NULs. *)
Theorem C46_desc_refuted : forall n bs off xid f a b c d e,
  let m := MReply f (RpDesc a b c d e) in
  at_ bs off (mwire xid m) -> msg_ok m -> u32 xid -> (length bs <= n)%nat -> (length a < 256)%nat ->
  exists h b' c' d' e' o, parse n bs off =
    Ok (VTup "ofp_multipart_reply" [h; VInt 0; VInt f; VTup "ofp_desc" [VBytes (a ++ zeros (256 - length a)); b'; c'; d'; e']], o) /\
    a ++ zeros (256 - length a) <> a.
Proof.
  intros n bs off xid f a b c d e m Hat Hok Hx Hn Ha. do 6 eexists. split.
  - rewrite (msg_parse n bs off xid m Hat Hok I Hx Hn). reflexivity.
  - intros E. apply (f_equal (@length Z)) in E. rewrite app_length, zeros_length in E. lia.
Qed.
Print Assumptions C46_desc_refuted.

(** Refuted: the length of meter statistics is left to the caller; None, which
    the other builders accept, is refused. *)
Theorem C46_meter_length_refuted :
  obj 0 4 (VTup "ofp_multipart_reply" [VNone; VInt 9; VInt 0;
     VList [VTup "ofp_meter_stats" [VInt 1; VNone; VInt 2; VInt 3; VInt 4; VInt 5; VInt 6; VList []]]]) = Err StructError /\
  exists e, obj 0 4 (VTup "ofp_multipart_reply" [VNone; VInt 6; VInt 0;
     VList [VTup "ofp_group_stats" [VNone; VInt 1; VInt 2; VInt 3; VInt 4; VInt 5; VInt 6; VList []]]]) = Ok e.
Proof. split; [|eexists]; vm_compute; reflexivity. Qed.
Print Assumptions C46_meter_length_refuted.

Example C46_example :
  let l := [MRequest 0 (RqPlain 13); MRequest 0 (RqFlow 255 4294967295 4294967295 1 2 (Match 1 [128; 0; 0; 4; 0; 0; 0; 9]));
            MRequest 0 (RqAggregate 1 2 3 4 5 (Match 1 [])); MRequest 1 (RqPort 7); MRequest 0 (RqQueue 1 2); MRequest 0 (RqGroup 9);
            MRequest 0 (RqMeter 10 3); MRequest 0 (RqExperimenter [1; 2; 3]);
            MReply 1 (RpFlow [FlowStat 1 2 3 4 5 6 7 8 9 10 (Match 1 []) [InGoto 4]; FlowStat 1 2 3 4 5 6 7 8 9 10 (Match 1 [128; 0; 0; 4; 0; 0; 0; 9]) []]);
            MReply 0 (RpTable [TableStat 0 1 2 3; TableStat 1 4 5 6]); MReply 0 (RpQueue [QueueStat 1 2 3 4 5 6 7]);
            MReply 0 (RpGroup [GroupStat 1 2 3 4 5 6 [(1, 2); (3, 4)]; GroupStat 9 2 3 4 5 6 []]);
            MReply 0 (RpGroupDesc [GroupDesc 1 2 [Bucket 1 2 3 [AcOutput 1 0]]]); MReply 0 (RpGroupFeatures 1 2 [3; 4; 5; 6] [7; 8; 9; 10]);
            MReply 0 (RpMeter [MeterStat 1 2 3 4 5 6 [(1, 2)]]); MReply 0 (RpMeterConfig [MeterConf 1 2 [BdDrop 3 4; BdDscp 5 6 7]]);
            MReply 0 (RpMeterFeatures 1 2 3 4 5); MReply 0 (RpPortDesc [ex_port; ex_port])] in
  Forall (fun m => is_multipart m /\ msg_ok m /\ msg_parsable m) l /\
  Forall (fun m => parse 300 (mwire 5 m) 0 = Ok (msg_parsed 5 m, length (mwire 5 m))) l.
Proof.
  cbv zeta. split; [solve_ex|repeat (apply Forall_cons; [vm_compute; reflexivity|]); apply Forall_nil].
Qed.

(** ** C47: termination *)

(** The fuel bounds the rounds of each loop of the parser; with more than the
    length of the message the result does not depend on it, so that running
    out of fuel means: the loop has no end. *)
Theorem C47_fuel_is_enough : forall m off n1 n2,
  (length m < n1)%nat -> (length m < n2)%nat -> parse n1 m off = parse n2 m off.
Proof. intros m off n1 n2. apply parse_const. Qed.
Print Assumptions C47_fuel_is_enough.

(** The parser comes back from every byte string at every offset, provided that:
    where the message's actions and instructions start, or later
    ([tlvs_from]), there is no zero-length SET_FIELD/EXPERIMENTER; and there is
    no experimenter band in a meter-mod or meter configuration.  The full
    claim, for all byte strings, is false, see below; the exact condition is
    C122_endless. *)
Theorem C47_terminates_partial : forall m n off,
  Forall (fun b => 0 <= b < 256) m -> (length m < n)%nat ->
  (forall lo o, tlvs_from m off lo -> (lo <= o)%nat -> (o + 4 <= length m)%nat ->
     u16_at m o = 25 \/ u16_at m o = 65535 -> u16_at m (o + 2) <> 0) ->
  (byte_at m (off + 1) = 29 -> forall k, (off + 16 + 16 * k + 4 <= length m)%nat -> u16_at m (off + 16 + 16 * k) <> 65535) ->
  (byte_at m (off + 1) = 19 -> u16_at m (off + 8) = 10 -> forall o, (off + 24 <= o)%nat -> (o + 4 <= length m)%nat -> u16_at m o <> 65535) ->
  parse n m off <> Err OutOfFuel.
Proof.
  intros m n off Hb Hn Ht Hm Hc. apply parse_terminates.
  - exact Hb.
  - exact Hn.
  - intros lo Hlo o Hge (Ho & Hty & Hz). exact (Ht lo o Hlo Hge Ho Hty Hz).
  - intros H k (Hk & He). exact (Hm H k Hk He).
  - intros [H1 H2] o Hge (Ho & He). exact (Hc H1 H2 o Hge Ho He).
Qed.
Print Assumptions C47_terminates_partial.

(** Refuted: any packet-out in which a zero-length SET_FIELD or EXPERIMENTER
    action comes after any actions is never left... *)
Theorem C47_zero_length_action_refuted : forall bs off xid b i l alen ty rest,
  at_ bs off (msg 4 13 xid (be 4 b ++ be 4 i ++ be 2 alen ++ zeros 6 ++ acts_wire l ++ be 2 ty ++ [0; 0] ++ rest)) ->
  u32 xid -> u16 alen -> zlen (acts_wire l) < alen -> 24 + zlen (acts_wire l) + 4 + zlen rest <= 65535 ->
  Forall act_ok l -> Forall not_mpls_ttl l -> (4 <= length rest)%nat -> ty = 25 \/ ty = 65535 ->
  forall n, parse n bs off = Err OutOfFuel.
Proof. exact packet_out_loops. Qed.
Print Assumptions C47_zero_length_action_refuted.

(** ... for instance these forty bytes. *)
Theorem C47_terminates_refuted : exists m, length m = 40%nat /\ Forall (fun b => 0 <= b < 256) m /\ forall n, parse n m 0 = Err OutOfFuel.
Proof.
  exists (msg 4 13 1 (be 4 4294967295 ++ be 4 1 ++ be 2 16 ++ zeros 6 ++ acts_wire [] ++ be 2 25 ++ [0; 0] ++ zeros 12)).
  split; [vm_compute; reflexivity|]. split; [solve_ex|].
  eapply (C47_zero_length_action_refuted _ 0 1 4294967295 1 [] 16 25 (zeros 12)); try solve [solve_ex | left; reflexivity].
  - apply at_whole.
Qed.
Print Assumptions C47_terminates_refuted.

Example C47_example :
  let m := mwire 5 (MPacketOut 4294967295 1 [AcOutput 7 0; AcSetField [128; 0; 0; 4; 0; 0; 0; 9]] [5; 6]) in
  Forall (fun b => 0 <= b < 256) m /\ (length m < 100)%nat /\
  (forall lo o, tlvs_from m 0 lo -> (lo <= o)%nat -> (o + 4 <= length m)%nat ->
     u16_at m o = 25 \/ u16_at m o = 65535 -> u16_at m (o + 2) <> 0) /\
  byte_at m 1 <> 29 /\ byte_at m 1 <> 19.
Proof.
  cbv zeta. split; [solve_ex|]. split; [apply Nat.ltb_lt; vm_compute; reflexivity|].
  split; [|split; vm_compute; discriminate].
  intros lo o T Hlo Ho H. change (length _) with 58%nat in Ho.
  assert (G : (24 <= o)%nat). { destruct T as [[_ ->]|[[T _]|[[T _]|[[T _]|[T _]]]]]; [exact Hlo|vm_compute in T; discriminate..]. }
  clear T Hlo. do 24 (destruct o as [|o]; [lia|]).
  do 31 (destruct o as [|o]; [vm_compute in H; destruct H; try discriminate; vm_compute; discriminate|]). lia.
Qed.

(** ** C55: the cursor *)

(** Parsing any message, wherever it is, takes exactly the bytes of the
    message (missing: the payload of packet-in and packet-out). *)
Theorem C55_cursor_partial : forall n bs off xid m,
  (forall b t r i c mt d, m <> MPacketIn b t r i c mt d) -> (forall b i a d, m <> MPacketOut b i a d) ->
  at_ bs off (mwire xid m) -> msg_ok m -> msg_parsable m -> u32 xid -> (length bs <= n)%nat ->
  exists v, parse n bs off = Ok (v, (off + Z.to_nat (u16_at (mwire xid m) 2))%nat).
Proof.
  intros n bs off xid m H1 H2 Hat Hok Hp Hx Hn. exists (msg_parsed xid m). rewrite (msg_parse n bs off xid m Hat Hok Hp Hx Hn).
  assert (U : u16_at (mwire xid m) 2 = 8 + zlen (body m)).
  { unfold mwire, msg, u16_at. change (skipn 2 ([4; mtype m] ++ ?x)) with x. destruct Hok as (_ & Hl & _).
    change (of_be (firstn 2 (be 2 (8 + zlen (body m)) ++ be 4 xid ++ body m)) = 8 + zlen (body m)).
    rewrite firstn_app_l by apply be_length. apply of_be_be. unfold in_u. change (256 ^ Z.of_nat 2) with 65536. unfold zlen in *. lia. }
  rewrite U, mwire_len. unfold body, zlen. rewrite enc_length.
  replace (Z.to_nat (8 + Z.of_nat (flen (body_fields m)))) with (8 + flen (body_fields m))%nat by lia.
  replace (msg_unread m) with 0%nat; [rewrite Nat.sub_0_r; reflexivity|].
  destruct m; try reflexivity; [destruct (H1 _ _ _ _ _ _ _ eq_refl) | destruct (H2 _ _ _ _ eq_refl)].
Qed.
Print Assumptions C55_cursor_partial.

(** Refuted: it stops before the payload of a packet-in or packet-out. *)
Theorem C55_cursor_refuted : forall n bs off xid m d,
  (exists b t r i c mt, m = MPacketIn b t r i c mt d) \/ (exists b i a, m = MPacketOut b i a d) ->
  at_ bs off (mwire xid m) -> msg_ok m -> msg_parsable m -> u32 xid -> (length bs <= n)%nat ->
  exists v, parse n bs off = Ok (v, (off + length (mwire xid m) - length d)%nat).
Proof.
  intros n bs off xid m d Hm Hat Hok Hp Hx Hn. exists (msg_parsed xid m). rewrite (msg_parse n bs off xid m Hat Hok Hp Hx Hn).
  do 2 f_equal. f_equal. destruct Hm as [(b & t & r & i & c & mt & ->)|(b & i & a & ->)]; reflexivity.
Qed.
Print Assumptions C55_cursor_refuted.

Example C55_example :
  let two := mwire 5 (MTableMod 3 0) ++ mwire 6 (MTableMod 4 1) in
  parse 100 two 0 = Ok (msg_parsed 5 (MTableMod 3 0), 16%nat) /\ parse 100 two 16 = Ok (msg_parsed 6 (MTableMod 4 1), 32%nat) /\
  exists v, parse 100 (mwire 5 (MPacketOut 4294967295 1 [] [5; 6; 7; 8])) 0 = Ok (v, 24%nat).
Proof. cbv zeta. split; [|split]; [vm_compute; reflexivity..|eexists; vm_compute; reflexivity]. Qed.

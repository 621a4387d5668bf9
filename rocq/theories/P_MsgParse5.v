(** Parsing OpenFlow 1.4 messages. *)

From Verif Require Import Py Struct P_Struct S_Hello S_Ports P_Hello P_Ports S_Wire4 S_Msg4 M_Build4 M_Parse4 P_Wire4 P_Act4 P_Stat4 P_Msg4 P_MsgParse4.
From Verif Require Import S_Wire5 S_Msg5 M_Build5 M_Parse5 P_Wire5 P_Act5 P_Stat5 P_Msg5.
Local Open Scope Z_scope.
Local Open Scope list_scope.

(** *** Multipart bodies *)

Lemma flow_request_parse cls m off t p g c k mt :
  at_ m off (enc [U 1 t; P 3; U 4 p; U 4 g; P 4; U 8 c; U 8 k; R (match_wire mt)]) ->
  fits [U 1 t; P 3; U 4 p; U 4 g; P 4; U 8 c; U 8 k; R (match_wire mt)] -> fits (match_fields mt) ->
  flow_request cls m off = Ok (VTup cls (all_z [t; p; g; c; k] ++ [match_view mt]), (off + 32 + length (match_wire mt))%nat).
Proof.
  intros Hat Hf Hm.
  change (at_ m off (enc ([U 1 t; P 3; U 4 p; U 4 g; P 4; U 8 c; U 8 k] ++ [R (match_wire mt)]))) in Hat.
  change (fits ([U 1 t; P 3; U 4 p; U 4 g; P 4; U 8 c; U 8 k] ++ [R (match_wire mt)])) in Hf.
  apply fits_app in Hf. destruct Hf as [F1 _]. apply at_enc_app in Hat. destruct Hat as [A1 A2].
  unfold flow_request.
  rewrite (unp_enc "B3xII4xQQ" [U 1 t; P 3; U 4 p; U 4 g; P 4; U 8 c; U 8 k] m off eq_refl F1 A1). cbn [vals bind flen fld_len] in *.
  rewrite enc_R in A2. rewrite (match_parse m _ mt A2 Hm). cbn [bind]. do 2 f_equal; try lia.
Qed.

Lemma request_parse n m off f r len :
  at_ m off (enc (rq_fields r)) -> rq_ok r -> rq_parsable r -> len = (off + length (enc (rq_fields r)))%nat ->
  (if py_inz (VInt (rq_type r)) [0; 3; 7; 8; 11; 13; 14] then Ok (VBytes [], off)
   else if rq_type r =? 1 then p_flow_stats_request m off
   else if rq_type r =? 2 then p_aggregate_stats_request m off
   else if rq_type r =? 4 then p_port_stats_request m off
   else if rq_type r =? 5 then p_queue_stats_request m off
   else if rq_type r =? 6 then p_group_stats_request m off
   else if py_inz (VInt (rq_type r)) [9; 10] then Err NameError
   else if rq_type r =? 15 then p_queue_desc_request m off
   else if rq_type r =? 16 then p_flow_monitor_request m off
   else if rq_type r =? 12 then
     ' (fs, o) <- while_fetch n (p_table_features n m) len off ;; Ok (VList fs, o)
   else if rq_type r =? 65535 then Ok (VBytes (slice m off len), len)
   else f) = Ok (rq_view r, len).
Proof.
  intros Hat [Hf Hx] Hp ->. rewrite enc_length.
  destruct r as [ty|t p g c k mt|t p g c k mt|p|p q|g|ty k|p q|i p g fl t c mt|b]; cbn [rq_fields rq_type rq_view rq_parsable flen fld_len] in *.
  - rewrite py_inz_In by exact Hx. do 2 f_equal; try lia.
  - change (p_flow_stats_request m off = Ok (VTup "ofp_flow_stats_request" (all_z [t; p; g; c; k] ++ [match_view mt]),
      (off + (1 + (3 + (4 + (4 + (4 + (8 + (8 + (length (match_wire mt) + 0)))))))))%nat)).
    unfold p_flow_stats_request. rewrite (flow_request_parse _ m off t p g c k mt Hat Hf Hx). do 2 f_equal; try lia.
  - change (p_aggregate_stats_request m off = Ok (VTup "ofp_aggregate_stats_request" (all_z [t; p; g; c; k] ++ [match_view mt]),
      (off + (1 + (3 + (4 + (4 + (4 + (8 + (8 + (length (match_wire mt) + 0)))))))))%nat)).
    unfold p_aggregate_stats_request. rewrite (flow_request_parse _ m off t p g c k mt Hat Hf Hx). do 2 f_equal; try lia.
  - exact (fixed_enc "ofp_port_stats_request" "I4x" [U 4 p; P 4] m off eq_refl Hf Hat).
  - exact (fixed_enc "ofp_queue_stats_request" "II" [U 4 p; U 4 q] m off eq_refl Hf Hat).
  - exact (fixed_enc "ofp_group_stats_request" "I4x" [U 4 g; P 4] m off eq_refl Hf Hat).
  - destruct Hp.
  - exact (fixed_enc "ofp_queue_desc_request" "II" [U 4 p; U 4 q] m off eq_refl Hf Hat).
  - change (p_flow_monitor_request m off = Ok (VTup "ofp_flow_monitor_request" (all_z [i; p; g; fl; t; c] ++ [match_view mt]),
      (off + (4 + (4 + (4 + (2 + (1 + (1 + (length (match_wire mt) + 0))))))))%nat)).
    cut_layout [U 4 i; U 4 p; U 4 g; U 2 fl; U 1 t; U 1 c] Hat Hf. unfold p_flow_monitor_request.
    rewrite (unp_enc "IIIHBB" [U 4 i; U 4 p; U 4 g; U 2 fl; U 1 t; U 1 c] m off) by (try assumption; reflexivity). cbn [vals bind flen fld_len] in *.
    rewrite enc_R in Hat. rewrite (match_parse m _ mt Hat Hx). cbn [bind]. do 2 f_equal; try lia.
  - rewrite enc_R in Hat. change (Ok (VBytes (slice m off (off + (length b + 0))), (off + (length b + 0))%nat) = Ok (VBytes b, (off + (length b + 0))%nat)).
    rewrite (slice_at m off b) by (try assumption; lia). reflexivity.
Qed.

Lemma fetch_nil n f off limit : limit = off -> (' (l, o) <- list_fetch n f limit off ;; Ok (VList l, o)) = Ok (VList [], limit).
Proof. intros ->. unfold list_fetch. destruct n; cbn [while_fetch]; rewrite Nat.ltb_irrefl; cbn [bind]; rewrite Nat.eqb_refl; reflexivity. Qed.

Lemma reply_parse n m off f r len :
  at_ m off (enc (rp_fields r)) -> rp_ok r -> rp_parsable r -> len = (off + length (enc (rp_fields r)))%nat -> (length m <= n)%nat ->
  let fetch f := (' (l, o) <- list_fetch n f len off ;; Ok (VList l, o)) in
  (if rp_type r =? 0 then p_desc m off
   else if rp_type r =? 1 then fetch (p_flow_stats n m)
   else if rp_type r =? 2 then fetch (p_aggregate_stats_reply m)
   else if rp_type r =? 3 then fetch (p_table_stats m)
   else if rp_type r =? 4 then fetch (p_port_stats n m)
   else if rp_type r =? 5 then fetch (p_queue_stats n m)
   else if rp_type r =? 6 then fetch (p_group_stats n m)
   else if rp_type r =? 7 then fetch (p_group_desc n m)
   else if rp_type r =? 8 then p_group_features m off
   else if rp_type r =? 9 then fetch (p_meter_stats n m)
   else if rp_type r =? 10 then fetch (p_meter_config n m)
   else if rp_type r =? 11 then p_meter_features m off
   else if rp_type r =? 12 then fetch (p_table_features n m)
   else if rp_type r =? 13 then fetch (p_port m)
   else if rp_type r =? 14 then fetch (p_table_desc m)
   else if rp_type r =? 15 then fetch (p_queue_desc n m)
   else if rp_type r =? 16 then fetch (p_flow_update_header m)
   else if rp_type r =? 65535 then p_experimenter_multipart m off len
   else f) = Ok (rp_parsed r, len).
Proof.
  intros Hat [Hf Hx] Hp Hlen Hn fetch.
  destruct r as [a b c d e|l|pk oc fl|l|l|l|l|l|t c mx a|l|l|mm t c b k|l|e t d]; cbn [rp_fields rp_type rp_parsed rp_parsable] in *;
    try (rewrite enc_R in Hat, Hlen).
  - change (p_desc m off = Ok (VTup "ofp_desc" (vals [R (padded 256 a); R (padded 256 b); R (padded 256 c); R (padded 32 d); R (padded 256 e)]), len)).
    unfold p_desc. rewrite (fixed_enc "ofp_desc" _ [R (padded 256 a); R (padded 256 b); R (padded 256 c); R (padded 32 d); R (padded 256 e)]);
      try assumption; [rewrite Hlen, enc_length; reflexivity|].
    destruct Hx as (La & Lb & Lc & Ld & Le). cbn [map shape]. rewrite !padded_length by assumption. reflexivity.
  - change (fetch (p_flow_stats n m) = Ok (VList (map flow_stat_parsed l), len)).
    apply (fetch_spec flow_stat_wire flow_stat_parsed _ m); try assumption.
    + intros x o Hin Ho. apply flow_stat_parse; [exact Ho | exact (Forall_In _ _ _ Hx Hin) | exact (Forall_In _ _ _ Hp Hin) | exact Hn].
    + intros x. rewrite flow_stat_len. destruct x. lia.
  - change (fetch (p_aggregate_stats_reply m) = Ok (VList [VTup "ofp_aggregate_stats_reply" (vals [U 8 pk; U 8 oc; U 4 fl; P 4])], len)).
    apply (fetch_spec (fun _ : unit => enc [U 8 pk; U 8 oc; U 4 fl; P 4]) (fun _ => VTup "ofp_aggregate_stats_reply" (vals [U 8 pk; U 8 oc; U 4 fl; P 4])) _ m [tt]).
    + intros x o _ Ho. rewrite enc_length. exact (fixed_enc "ofp_aggregate_stats_reply" "QQI4x" [U 8 pk; U 8 oc; U 4 fl; P 4] m o eq_refl Hf Ho).
    + intros x. rewrite enc_length. cbn [flen fld_len]. lia.
    + cbn [map concat]. rewrite app_nil_r. exact Hat.
    + cbn [map concat]. rewrite app_nil_r. exact Hlen.
    + exact Hn.
  - subst l. apply fetch_nil. cbn [map concat length] in Hlen. lia.
  - subst l. apply fetch_nil. cbn [map concat length] in Hlen. lia.
  - subst l. apply fetch_nil. cbn [map concat length] in Hlen. lia.
  - change (fetch (p_group_stats n m) = Ok (VList (map group_stat_view l), len)).
    apply (fetch_spec group_stat_wire _ _ m); try assumption.
    + intros x o Hin Ho. apply group_stat_parse; [exact Ho | exact (Forall_In _ _ _ Hx Hin) | exact Hn].
    + intros x. pose proof (group_stat_len x). lia.
  - change (fetch (p_group_desc n m) = Ok (VList (map group_desc_parsed l), len)).
    apply (fetch_spec group_desc_wire _ _ m); try assumption.
    + intros x o Hin Ho. apply group_desc_parse; [exact Ho | exact (Forall_In _ _ _ Hx Hin) | exact (Forall_In _ _ _ Hp Hin) | exact Hn].
    + intros x. pose proof (group_desc_len x). lia.
  - change (p_group_features m off = Ok (VTup "ofp_group_features" [VInt t; VInt c; VTup "tuple" (all_z mx); VTup "tuple" (all_z a)], len)).
    apply fits_app in Hf. destruct Hf as [F1 F2]. apply fits_app in F2. destruct F2 as [F2 F3].
    apply at_enc_app in Hat. destruct Hat as [A1 A2]. apply at_enc_app in A2. destruct A2 as [A2 A3]. destruct Hx as [Lm La].
    rewrite Hlen, enc_length, !flen_app.
    unfold p_group_features. rewrite (unp_enc "II" [U 4 t; U 4 c] m off eq_refl F1 A1). cbn [bind vals].
    rewrite (unp_enc "4I" (map (U 4) mx)) by (try assumption; rewrite shape_words, Lm; reflexivity). cbn [bind].
    rewrite (unp_enc "4I" (map (U 4) a)) by (try assumption; rewrite shape_words, La; reflexivity). cbn [bind].
    rewrite !vals_words. cbn [Datatypes.app]. unfold all_z. do 2 f_equal; try lia.
  - change (fetch (p_meter_stats n m) = Ok (VList (map meter_stat_view l), len)).
    apply (fetch_spec meter_stat_wire _ _ m); try assumption.
    + intros x o Hin Ho. apply meter_stat_parse; [exact Ho | exact (Forall_In _ _ _ Hx Hin) | exact Hn].
    + intros x. pose proof (meter_stat_len x). lia.
  - change (fetch (p_meter_config n m) = Ok (VList (map meter_conf_view l), len)).
    apply (fetch_spec meter_conf_wire _ _ m); try assumption.
    + intros x o Hin Ho. apply meter_conf_parse; [exact Ho | exact (Forall_In _ _ _ Hx Hin) | exact (Forall_In _ _ _ Hp Hin) | exact Hn].
    + intros x. pose proof (meter_conf_len x). lia.
  - change (p_meter_features m off = Ok (VTup "ofp_meter_features" (vals [U 4 mm; U 4 t; U 4 c; U 1 b; U 1 k; P 2]), len)).
    rewrite Hlen, enc_length.
    exact (fixed_enc "ofp_meter_features" "3IBB2x" [U 4 mm; U 4 t; U 4 c; U 1 b; U 1 k; P 2] m off eq_refl Hf Hat).
  - change (fetch (p_queue_desc n m) = Ok (VList (map queue_desc_view l), len)).
    apply (fetch_spec queue_desc_wire _ _ m); try assumption.
    + intros x o Hin Ho. apply queue_desc_parse; [exact Ho | exact (Forall_In _ _ _ Hx Hin) | exact Hn].
    + intros x. pose proof (queue_desc_len x). lia.
  - change (p_experimenter_multipart m off len = Ok (VTup "ofp_experimenter_multipart_" [VInt e; VInt t; VBytes d], len)).
    rewrite enc_length in Hlen. cbn [flen fld_len] in Hlen.
    cut_layout [U 4 e; U 4 t] Hat Hf. unfold p_experimenter_multipart.
    rewrite (unp_enc "II" [U 4 e; U 4 t] m off) by (try assumption; reflexivity). cbn [vals bind flen fld_len] in *.
    rewrite enc_R in Hat. rewrite (slice_at _ _ d) by (try assumption; lia). reflexivity.
Qed.

(** *** Messages *)

Lemma simple_enc cls f l m off h ty len :
  p_header m off = Ok (h, ty, len, (off + 8)%nat) -> fmt f = Ok (map shape l) -> fits l -> at_ m (off + 8) (enc l) ->
  simple_message cls f m off = Ok (VTup cls (h :: vals l), (off + 8 + flen l)%nat).
Proof. intros Hh Hf Hl Hat. unfold simple_message. rewrite Hh. cbn [bind]. rewrite (unp_enc f l) by assumption. reflexivity. Qed.

Lemma data_enc cls f l d m off h ty len :
  p_header m off = Ok (h, ty, len, (off + 8)%nat) -> fmt f = Ok (map shape l) -> fits l -> at_ m (off + 8) (enc (l ++ [R d])) ->
  len = (8 + flen l + length d)%nat ->
  data_message cls f m off = Ok (VTup cls (h :: vals l ++ [VBytes d]), (off + len)%nat).
Proof.
  intros Hh Hf Hl Hat ->. apply at_enc_app in Hat. destruct Hat as [A1 A2]. unfold data_message. rewrite Hh. cbn [bind].
  rewrite (unp_enc f l) by assumption. cbn [bind]. rewrite enc_R in A2. rewrite (slice_at _ _ d) by (try assumption; lia). reflexivity.
Qed.

Lemma parse_type d n m off h ty len o :
  p_header m off = Ok (h, ty, len, o) ->
  parse (S d) n m off = (if ty =? 0 then p_hello n m off
      else if ty =? 1 then p_error_msg m off
      else if ty =? 6 then p_switch_features m off
      else if py_inz (VInt ty) [9; 8] then p_switch_config m off
      else if ty =? 10 then p_packet_in m off
      else if ty =? 11 then p_flow_removed m off
      else if ty =? 12 then p_port_status m off
      else if ty =? 13 then p_packet_out n m off
      else if ty =? 14 then p_flow_mod n m off
      else if ty =? 15 then p_group_mod n m off
      else if ty =? 16 then p_port_mod n m off
      else if ty =? 17 then p_table_mod n m off
      else if ty =? 18 then p_multipart_request n m off
      else if ty =? 19 then p_multipart_reply n m off
      else if ty =? 4 then p_experimenter_msg m off
      else if py_inz (VInt ty) [28; 27] then p_async_config n m off
      else if ty =? 29 then p_meter_mod n m off
      else if ty =? 30 then p_role_status n m off
      else if ty =? 31 then p_table_status m off
      else if ty =? 32 then p_requestforward (parse d n) m off
      else if ty =? 33 then p_bundle_ctrl_msg n m off
      else if ty =? 34 then p_bundle_add_msg (parse d n) m off
      else p_ofp m off).
Proof. intros H. cbn [parse]. rewrite H. reflexivity. Qed.

Lemma parse_plain d n m off h ty len o : p_header m off = Ok (h, ty, len, o) -> plain_type ty -> parse (S d) n m off = p_ofp m off.
Proof.
  intros Hh [Hu Hn]. rewrite (parse_type _ _ _ _ _ _ _ _ Hh).
  assert (D : forall k, In k [0; 1; 4; 6; 8; 9; 10; 11; 12; 13; 14; 15; 16; 17; 18; 19; 27; 28; 29; 30; 31; 32; 33; 34] -> (ty =? k) = false).
  { intros k Hk. apply Z.eqb_neq. intros ->. contradiction. }
  rewrite !D by (cbn; tauto).
  rewrite !py_inz_not by (intros [<-|[<-|[]]]; apply Hn; cbn; tauto). reflexivity.
Qed.

Ltac by_type Hh := rewrite (parse_type _ _ _ _ _ _ _ _ Hh).

Definition parses (xid : Z) (m : omsg) : Prop := forall d n bs off,
  at_ bs off (mwire xid m) -> msg_ok m -> msg_parsable m -> u32 xid -> (length bs <= n)%nat -> (mdepth m <= d)%nat ->
  parse d n bs off = Ok (msg_parsed xid m, (off + length (mwire xid m))%nat).

Ltac pstart k :=
  let Hok := fresh "Hok" in let Hl := fresh "Hl" in let Hlen := fresh "Hlen" in
  intros d n bs off Hat Hok Hp Hx Hn Hd;
  destruct d as [|d]; [cbn [mdepth] in Hd; lia|];
  pose proof Hok as (Hf & Hlen & Hext); fold body_fields in *; fold msg_ok in *;
  destruct (p_header_ok bs off (mtype k) _ (body k) Hat (mtype_u8 _ Hok) Hx Hlen) as [Hh Hb];
  rewrite mwire_len; pose proof (enc_length (body_fields k)) as Hl; fold (body k) in Hl; rewrite Hl in Hh;
  cbn [msg_parsed];
  match type of Hh with _ = Ok (?hv, _, _, _) => set (h := hv) in *; clearbody h end;
  unfold body in Hb; clear Hat Hlen Hl Hok;
  cbn [mtype body_fields msg_parsable flen fld_len mdepth] in *; unfold body in *.

Theorem msg_parse m : forall xid, parses xid m.
Proof.
  induction m; intros x0.
  - (* hello *) pstart (MHello elems). by_type Hh. change (p_hello n bs off = Ok (VTup "ofp_hello" [h; VList (map hello_parsed elems)],
      (off + (8 + (length (concat (map hello_wire elems)) + 0)))%nat)).
    unfold p_hello. rewrite Hh. cbn [bind]. rewrite enc_R in Hb.
    rewrite (list_fetch_spec hello_wire hello_parsed (p_hello_elem bs) bs elems) with (limit := (off + (8 + (length (concat (map hello_wire elems)) + 0)))%nat);
      [cbn [bind]; do 2 f_equal; try lia| |apply hello_pos|exact Hb|lia|exact Hn].
    intros x o Hin Ho. apply hello_parse; [exact Ho | exact (Forall_In _ _ _ Hext Hin)].
  - (* error *) pstart (MError ty code data). by_type Hh.
    exact (data_enc "ofp_error_msg" "HH" [U 2 ty; U 2 code] data bs off _ _ _ Hh eq_refl (proj1 (proj1 (fits_app [U 2 ty; U 2 code] [R data]) Hf)) Hb ltac:(cbn [flen fld_len]; lia)).
  - (* plain *) pstart (MPlain ty data). rewrite (parse_plain _ _ _ _ _ _ _ _ Hh Hext). unfold p_ofp. rewrite Hh. cbn [bind]. rewrite enc_R in Hb.
    rewrite (slice_at _ _ data) by (try assumption; lia). do 2 f_equal; try lia.
  - (* features *) pstart (MFeatures dpid n_buffers n_tables aux caps). by_type Hh. change (p_switch_features bs off = Ok (VTup "ofp_switch_features" (h :: all_z [dpid; n_buffers; n_tables; aux; caps]), (off + 32)%nat)).
    unfold p_switch_features. rewrite Hh. cbn [bind].
    rewrite (unp_enc "QIBB2xII" [U 8 dpid; U 4 n_buffers; U 1 n_tables; U 1 aux; P 2; U 4 caps; U 4 0] _ _ eq_refl Hf Hb).
    cbn [bind vals flen fld_len]. do 2 f_equal; try lia.
  - (* config *) pstart (MConfig ty flags miss). by_type Hh.
    assert (E : simple_message "ofp_switch_config" "HH" bs off = Ok (VTup "ofp_switch_config" [h; VInt flags; VInt miss], (off + 8 + 4)%nat))
      by exact (simple_enc "ofp_switch_config" "HH" [U 2 flags; U 2 miss] bs off _ _ _ Hh eq_refl Hf Hb).
    replace (off + (8 + (2 + (2 + 0))))%nat with (off + 8 + 4)%nat by lia.
    destruct Hext as [<-|[<-|[]]]; exact E.
  - (* packet_in *) pstart (MPacketIn buffer total reason table cookie m data). by_type Hh. change (p_packet_in bs off = Ok (VTup "ofp_packet_in" (h :: all_z [buffer; total; reason; table; cookie] ++ [match_view m; VBytes data]),
      (off + (8 + (4 + (2 + (1 + (1 + (8 + (length (match_wire m) + (2 + (length data + 0))))))))))%nat)).
    unfold p_packet_in. rewrite Hh. cbn [bind]. cut_layout [U 4 buffer; U 2 total; U 1 reason; U 1 table; U 8 cookie] Hb Hf.
    rewrite (unp_enc "IHBBQ" [U 4 buffer; U 2 total; U 1 reason; U 1 table; U 8 cookie]) by (try assumption; reflexivity). cbn [bind vals flen fld_len] in *.
    rewrite enc_cons in Hb. cbn [enc1] in Hb. apply at_app in Hb. destruct Hb as [B1 B2].
    rewrite (match_parse _ _ m B1 Hext). cbn [bind].
    change (at_ bs (off + 8 + (4 + (2 + (1 + (1 + (8 + 0))))) + length (match_wire m)) (enc ([P 2] ++ [R data]))) in B2.
    apply at_enc_app in B2. destruct B2 as [B2 B3].
    rewrite (unp_enc "2x" [P 2] _ _ eq_refl (Forall_cons _ (I : in_range (P 2)) (Forall_nil _)) B2). cbn [bind vals flen fld_len] in *.
    rewrite enc_R in B3. rewrite (slice_at _ _ data) by (try assumption; lia).
    cbn [Datatypes.app]. do 2 f_equal; try lia.
  - (* flow_removed *) pstart (MFlowRemoved cookie prio reason table dsec dnsec idle hard pkts octets m). by_type Hh.
    change (p_flow_removed bs off = Ok (VTup "ofp_flow_removed" (h :: all_z [cookie; prio; reason; table; dsec; dnsec; idle; hard; pkts; octets] ++ [match_view m]),
      (off + (8 + (40 + (length (match_wire m) + 0))))%nat)).
    unfold p_flow_removed. rewrite Hh. cbn [bind].
    cut_layout [U 8 cookie; U 2 prio; U 1 reason; U 1 table; U 4 dsec; U 4 dnsec; U 2 idle; U 2 hard; U 8 pkts; U 8 octets] Hb Hf.
    rewrite (unp_enc "QHBBIIHHQQ" [U 8 cookie; U 2 prio; U 1 reason; U 1 table; U 4 dsec; U 4 dnsec; U 2 idle; U 2 hard; U 8 pkts; U 8 octets]) by (try assumption; reflexivity).
    cbn [bind vals flen fld_len] in *. rewrite enc_R in Hb. rewrite (match_parse _ _ m Hb Hext). cbn [bind Datatypes.app]. do 2 f_equal; try lia.
  - (* packet_out *) pstart (MPacketOut buffer in_port acts data). by_type Hh. change (p_packet_out n bs off = Ok (VTup "ofp_packet_out" [h; VInt buffer; VInt in_port; VInt (zlen (acts_wire acts)); acts_parsed acts; VBytes data],
      (off + (8 + (16 + (length (acts_wire acts) + (length data + 0)))))%nat)).
    unfold p_packet_out. rewrite Hh. cbn [bind]. cut_layout [U 4 buffer; U 4 in_port; U 2 (zlen (acts_wire acts)); P 6] Hb Hf.
    rewrite (unp_enc "IIH6x" [U 4 buffer; U 4 in_port; U 2 (zlen (acts_wire acts)); P 6]) by (try assumption; reflexivity). cbn [bind vals flen fld_len] in *.
    rewrite enc_R2 in Hb. apply at_app in Hb. destruct Hb as [B1 B2].
    assert (Ez : Z.to_nat (zlen (acts_wire acts)) = length (acts_wire acts)) by (unfold zlen; lia). rewrite Ez.
    rewrite (acts_while bs n _ acts) by (try assumption; reflexivity). cbn [bind].
    rewrite (slice_at _ _ data) by (try assumption; lia).
    unfold acts_parsed. cbn [Datatypes.app]. do 2 f_equal; try lia.
  - (* flow_mod *) pstart (MFlowMod cookie mask table command idle hard prio buffer out_port out_group flags importance m is). by_type Hh.
    change (p_flow_mod n bs off = Ok (VTup "ofp_flow_mod" (h :: all_z [cookie; mask; table; command; idle; hard; prio; buffer; out_port; out_group; flags; importance] ++ [match_view m; insts_parsed is]),
      (off + (8 + (40 + (length (match_wire m) + (length (insts_wire is) + 0)))))%nat)).
    destruct Hext as [Hm Hi].
    unfold p_flow_mod. rewrite Hh. cbn [bind].
    cut_layout [U 8 cookie; U 8 mask; U 1 table; U 1 command; U 2 idle; U 2 hard; U 2 prio; U 4 buffer; U 4 out_port; U 4 out_group; U 2 flags; U 2 importance] Hb Hf.
    rewrite (unp_enc "QQBB3H3IHH" [U 8 cookie; U 8 mask; U 1 table; U 1 command; U 2 idle; U 2 hard; U 2 prio; U 4 buffer; U 4 out_port; U 4 out_group; U 2 flags; U 2 importance])
      by (try assumption; reflexivity).
    cbn [bind vals flen fld_len] in *. rewrite enc_R2 in Hb. apply at_app in Hb. destruct Hb as [B1 B2].
    rewrite (match_parse _ _ m B1 Hm). cbn [bind].
    rewrite (insts_list bs n _ is) by (try assumption; lia). cbn [bind]. unfold insts_parsed. cbn [Datatypes.app].
    do 2 f_equal; try lia.
  - (* group_mod *) rename bs into bs0. pstart (MGroupMod command ty group bs0). by_type Hh. change (p_group_mod n bs off = Ok (VTup "ofp_group_mod" [h; VInt command; VInt ty; VInt group; VList (map bucket_parsed bs0)],
      (off + (8 + (8 + (length (buckets_wire bs0) + 0))))%nat)).
    unfold p_group_mod. rewrite Hh. cbn [bind]. cut_layout [U 2 command; U 1 ty; P 1; U 4 group] Hb Hf.
    rewrite (unp_enc "HBxI" [U 2 command; U 1 ty; P 1; U 4 group]) by (try assumption; reflexivity). cbn [bind vals flen fld_len] in *.
    rewrite enc_R in Hb. rewrite (buckets_while bs n _ bs0) by (try assumption; lia). cbn [bind Datatypes.app]. do 2 f_equal; try lia.
  - (* port_mod *) intros d n bs off _ _ [].
  - (* table_mod *) pstart (MTableMod table config props). by_type Hh.
    change (p_table_mod n bs off = Ok (VTup "ofp_table_mod" [h; VInt table; VInt config; VList (map tprop_view props)],
      (off + (8 + (8 + (length (concat (map tprop_wire props)) + 0))))%nat)).
    unfold p_table_mod. rewrite Hh. cbn [bind]. cut_layout [U 1 table; P 3; U 4 config] Hb Hf.
    rewrite (unp_enc "B3xI" [U 1 table; P 3; U 4 config]) by (try assumption; reflexivity). cbn [bind vals flen fld_len] in *.
    rewrite enc_R in Hb.
    rewrite (while_fetch_spec tprop_wire tprop_view (p_table_mod_prop bs) bs props)
      with (limit := (off + (8 + (1 + (3 + (4 + (length (concat (map tprop_wire props)) + 0))))))%nat);
      [cbn [bind Datatypes.app]; do 2 f_equal; try lia| | |exact Hb|lia|exact Hn].
    + intros x o Hin Ho. apply tprop_parse; [exact Ho | exact (Forall_In _ _ _ Hext Hin)].
    + apply Forall_forall. intros x _. pose proof (tprop_len x). lia.
  - (* meter_mod *) rename bs into bs0. pstart (MMeterMod command flags meter bs0). by_type Hh. change (p_meter_mod n bs off = Ok (VTup "ofp_meter_mod" [h; VInt command; VInt flags; VInt meter; VList (map band_view bs0)],
      (off + (8 + (8 + (length (bands_wire bs0) + 0))))%nat)).
    unfold p_meter_mod. rewrite Hh. cbn [bind]. cut_layout [U 2 command; U 2 flags; U 4 meter] Hb Hf.
    rewrite (unp_enc "HHI" [U 2 command; U 2 flags; U 4 meter]) by (try assumption; reflexivity). cbn [bind vals flen fld_len] in *.
    rewrite enc_R in Hb. rewrite (bands_while bs n _ bs0) by (try assumption; lia). cbn [bind Datatypes.app]. do 2 f_equal; try lia.
  - (* request *) pstart (MRequest flags r). by_type Hh. change (p_multipart_request n bs off = Ok (VTup "ofp_multipart_request" [h; VInt (rq_type r); VInt flags; rq_view r],
      (off + (8 + (8 + (length (enc (rq_fields r)) + 0))))%nat)).
    unfold p_multipart_request. rewrite Hh. cbn [bind]. cut_layout [U 2 (rq_type r); U 2 flags; P 4] Hb Hf.
    rewrite (unp_enc "HH4x" [U 2 (rq_type r); U 2 flags; P 4]) by (try assumption; reflexivity). cbn [bind vals flen fld_len] in *.
    rewrite enc_R in Hb. erewrite (request_parse n bs _ _ r) by (try eassumption; lia). cbn [bind Datatypes.app]. do 2 f_equal; try lia.
  - (* reply *) pstart (MReply flags r). by_type Hh. change (p_multipart_reply n bs off = Ok (VTup "ofp_multipart_reply" [h; VInt (rp_type r); VInt flags; rp_parsed r],
      (off + (8 + (8 + (length (enc (rp_fields r)) + 0))))%nat)).
    unfold p_multipart_reply. rewrite Hh. cbn [bind]. cut_layout [U 2 (rp_type r); U 2 flags; P 4] Hb Hf.
    rewrite (unp_enc "HH4x" [U 2 (rp_type r); U 2 flags; P 4]) by (try assumption; reflexivity). cbn [bind vals flen fld_len] in *.
    rewrite enc_R in Hb. cbv zeta. erewrite (reply_parse n bs _ _ r) by (try eassumption; lia). cbn [bind Datatypes.app]. do 2 f_equal; try lia.
  - (* role *) pstart (MRole ty role generation).
    rewrite (parse_plain _ _ _ _ _ _ _ _ Hh) by
      (destruct Hext as [<-|[<-|[]]]; (split; [unfold u8; lia | cbn; intuition discriminate])).
    unfold p_ofp. rewrite Hh. cbn [bind].
    rewrite (slice_at _ _ (enc [U 4 role; P 4; U 8 generation])) by (try assumption; rewrite enc_length; cbn [flen fld_len]; lia). reflexivity.
  - (* async *) pstart (MAsync ty props). destruct Hext as [Hty Hps]. by_type Hh.
    assert (E : p_async_config n bs off = Ok (VTup "ofp_async_config" [h; VList (map aprop_view props)],
      (off + (8 + (length (concat (map aprop_wire props)) + 0)))%nat)).
    { unfold p_async_config. rewrite Hh. cbn [bind]. rewrite enc_R in Hb.
      rewrite (while_fetch_spec aprop_wire aprop_view (p_async_config_prop bs) bs props)
        with (limit := (off + (8 + (length (concat (map aprop_wire props)) + 0)))%nat);
        [reflexivity| | |exact Hb|lia|exact Hn].
      + intros x o Hin Ho. destruct (Forall_In _ _ _ Hps Hin) as [Fx Rx]. destruct (Forall_In _ _ _ Hp Hin).
        apply aprop_parse; assumption.
      + apply Forall_forall. intros x _. rewrite aprop_len. lia. }
    destruct Hty as [<-|[<-|[]]]; exact E.
  - (* experimenter *) rename d into dt. pstart (MExperimenter e t dt). by_type Hh.
    exact (data_enc "ofp_experimenter_msg" "II" [U 4 e; U 4 t] dt bs off _ _ _ Hh eq_refl (proj1 (proj1 (fits_app [U 4 e; U 4 t] [R dt]) Hf)) Hb ltac:(cbn [flen fld_len]; lia)).
  - (* bundle *) pstart (MBundle bundle ty flags). by_type Hh.
    change (p_bundle_ctrl_msg n bs off = Ok (VTup "ofp_bundle_ctrl_msg" [h; VInt bundle; VInt ty; VInt flags; VList []], (off + (8 + (4 + (2 + (2 + 0)))))%nat)).
    unfold p_bundle_ctrl_msg. rewrite Hh. cbn [bind].
    rewrite (unp_enc "IHH" [U 4 bundle; U 2 ty; U 2 flags] _ _ eq_refl Hf Hb). cbn [bind vals flen fld_len].
    replace (off + 8 + (4 + (2 + (2 + 0))))%nat with (off + (8 + (4 + (2 + (2 + 0)))))%nat by lia.
    destruct n; cbn [while_fetch]; rewrite Nat.ltb_irrefl; reflexivity.
  - (* bundle_add *) pstart (MBundleAdd bundle flags xid m). destruct Hext as [Hux Hok]. by_type Hh.
    change (p_bundle_add_msg (parse d n) bs off = Ok (VTup "ofp_bundle_add_msg" [h; VInt bundle; VInt flags; msg_parsed xid m; VList []],
      (off + (8 + (8 + (length (msg 5 (mtype m) xid (enc (body_fields m))) + 0))))%nat)).
    unfold p_bundle_add_msg. rewrite Hh. cbn [bind]. cut_layout [U 4 bundle; P 2; U 2 flags] Hb Hf.
    rewrite (unp_enc "I2xH" [U 4 bundle; P 2; U 2 flags]) by (try assumption; reflexivity). cbn [bind vals flen fld_len] in *.
    rewrite enc_R in Hb. rewrite (IHm xid d n bs _ Hb Hok Hp Hux Hn) by lia. cbn [bind]. unfold mwire, body.
    match goal with |- context[(?a <? ?b)%nat] => replace b with a by lia end. rewrite Nat.ltb_irrefl. cbn [Datatypes.app]. do 2 f_equal; try lia.
  - (* forward *) pstart (MForward xid m). destruct Hext as [Hux Hok]. by_type Hh.
    change (p_requestforward (parse d n) bs off = Ok (VTup "ofp_requestforward_" [h; msg_parsed xid m],
      (off + (8 + (length (msg 5 (mtype m) xid (enc (body_fields m))) + 0)))%nat)).
    unfold p_requestforward. rewrite Hh. cbn [bind]. rewrite enc_R in Hb.
    rewrite (IHm xid d n bs _ Hb Hok Hp Hux Hn) by lia. cbn [bind]. unfold mwire, body. do 2 f_equal; try lia.
Qed.

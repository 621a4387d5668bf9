(** Parsing OpenFlow 1.3 messages. *)

From Verif Require Import Py Struct P_Struct S_Hello S_Ports P_Hello P_Ports S_Wire4 S_Msg4 M_Build4 M_Parse4 P_Wire4 P_Act4 P_Stat4 P_Msg4.
Local Open Scope Z_scope.
Local Open Scope list_scope.

(** *** Multipart bodies *)

Lemma fetch_spec {A} (wire : A -> bytes) (view : A -> pyval) f m l n off limit :
  (forall x o, In x l -> at_ m o (wire x) -> f o = Ok (view x, (o + length (wire x))%nat)) ->
  (forall x, (0 < length (wire x))%nat) ->
  at_ m off (concat (map wire l)) -> limit = (off + length (concat (map wire l)))%nat -> (length m <= n)%nat ->
  (' (l0, o) <- list_fetch n f limit off ;; Ok (VList l0, o)) = Ok (VList (map view l), limit).
Proof.
  intros Hf Hp Hat Hlim Hn. rewrite (list_fetch_spec wire view f m l); try assumption; [reflexivity|].
  apply Forall_forall. intros x _. apply Hp.
Qed.

Lemma flow_request_parse cls m off t p g c k mt :
  at_ m off (enc [U 1 t; P 3; U 4 p; U 4 g; P 4; U 8 c; U 8 k; R (match_wire mt)]) ->
  fits [U 1 t; P 3; U 4 p; U 4 g; P 4; U 8 c; U 8 k; R (match_wire mt)] -> fits (match_fields mt) ->
  flow_request cls m off = Ok (VTup cls (all_z [t; p; g; c; k] ++ [match_view mt]), (off + 32 + length (match_wire mt))%nat).
Proof.
  intros Hat Hf Hm.
  change (at_ m off (enc ([U 1 t; P 3; U 4 p; U 4 g; P 4; U 8 c; U 8 k] ++ [R (match_wire mt)]))) in Hat.
  change (fits ([U 1 t; P 3; U 4 p; U 4 g; P 4; U 8 c; U 8 k] ++ [R (match_wire mt)])) in Hf.
  apply fits_app in Hf. destruct Hf as [F1 _]. apply at_enc_app in Hat. destruct Hat as [A1 A2].
  unfold flow_request.
  rewrite (unp_enc "B3xII4xQQ" [U 1 t; P 3; U 4 p; U 4 g; P 4; U 8 c; U 8 k] m off eq_refl F1 A1). cbn [vals bind flen fld_len] in *.
  rewrite enc_R in A2. rewrite (match_parse m _ mt A2 Hm). cbn [bind]. do 2 f_equal; try lia.
Qed.

Lemma request_parse n m off f r len :
  at_ m off (enc (rq_fields r)) -> rq_ok r -> len = (off + length (enc (rq_fields r)))%nat ->
  (if py_inz (VInt (rq_type r)) [0; 3; 7; 8; 11; 13] then Ok (VBytes [], off)
   else if rq_type r =? 1 then p_flow_stats_request m off
   else if rq_type r =? 2 then p_aggregate_stats_request m off
   else if rq_type r =? 4 then p_port_stats_request m off
   else if rq_type r =? 5 then p_queue_stats_request m off
   else if rq_type r =? 6 then p_group_stats_request m off
   else if py_inz (VInt (rq_type r)) [9; 10] then p_meter_multipart_request m off
   else if rq_type r =? 12 then
     ' (fs, o) <- while_fetch n (p_table_features m) len off ;; Ok (VList fs, o)
   else if rq_type r =? 65535 then Ok (VBytes (slice m off len), len)
   else f) = Ok (rq_view r, len).
Proof.
  intros Hat [Hf Hx] ->. rewrite enc_length.
  destruct r as [ty|t p g c k mt|t p g c k mt|p|p q|g|ty k|b]; cbn [rq_fields rq_type rq_view flen fld_len] in *.
  - rewrite py_inz_In by exact Hx. do 2 f_equal; try lia.
  - change (p_flow_stats_request m off = Ok (VTup "ofp_flow_stats_request" (all_z [t; p; g; c; k] ++ [match_view mt]),
      (off + (1 + (3 + (4 + (4 + (4 + (8 + (8 + (length (match_wire mt) + 0)))))))))%nat)).
    unfold p_flow_stats_request. rewrite (flow_request_parse _ m off t p g c k mt Hat Hf Hx). do 2 f_equal; try lia.
  - change (p_aggregate_stats_request m off = Ok (VTup "ofp_aggregate_stats_request" (all_z [t; p; g; c; k] ++ [match_view mt]),
      (off + (1 + (3 + (4 + (4 + (4 + (8 + (8 + (length (match_wire mt) + 0)))))))))%nat)).
    unfold p_aggregate_stats_request. rewrite (flow_request_parse _ m off t p g c k mt Hat Hf Hx). do 2 f_equal; try lia.
  - exact (fixed_enc "ofp_port_stats_request" "I4x" [U 4 p; P 4] m off eq_refl Hf Hat).
  - exact (fixed_enc "ofp_queue_stats_request" "II" [U 4 p; U 4 q] m off eq_refl Hf Hat).
  - exact (fixed_enc "ofp_group_stats_request" "I4x" [U 4 g; P 4] m off eq_refl Hf Hat).
  - destruct Hx as [<-|[<-|[]]]; exact (fixed_enc "ofp_meter_multipart_request" "I4x" [U 4 k; P 4] m off eq_refl Hf Hat).
  - rewrite enc_R in Hat. change (Ok (VBytes (slice m off (off + (length b + 0))), (off + (length b + 0))%nat) = Ok (VBytes b, (off + (length b + 0))%nat)).
    rewrite (slice_at m off b) by (try assumption; lia). reflexivity.
Qed.

Lemma padded_length n b : (length b <= n)%nat -> length (padded n b) = n.
Proof. intros H. unfold padded. rewrite app_length, zeros_length. lia. Qed.

Lemma reply_parse n m off f r len :
  at_ m off (enc (rp_fields r)) -> rp_ok r -> rp_parsable r -> len = (off + length (enc (rp_fields r)))%nat -> (length m <= n)%nat ->
  let fetch f := (' (l, o) <- list_fetch n f len off ;; Ok (VList l, o)) in
  (if rp_type r =? 0 then p_desc m off
   else if rp_type r =? 1 then fetch (p_flow_stats n m)
   else if rp_type r =? 2 then fetch (p_aggregate_stats_reply m)
   else if rp_type r =? 3 then fetch (p_table_stats m)
   else if rp_type r =? 4 then fetch (p_port_stats m)
   else if rp_type r =? 5 then fetch (p_queue_stats m)
   else if rp_type r =? 6 then fetch (p_group_stats n m)
   else if rp_type r =? 7 then fetch (p_group_desc n m)
   else if rp_type r =? 8 then p_group_features m off
   else if rp_type r =? 9 then fetch (p_meter_stats n m)
   else if rp_type r =? 10 then fetch (p_meter_config n m)
   else if rp_type r =? 11 then p_meter_features m off
   else if rp_type r =? 12 then fetch (p_table_features m)
   else if rp_type r =? 13 then fetch (p_port m)
   else f) = Ok (rp_parsed r, len).
Proof.
  intros Hat [Hf Hx] Hp Hlen Hn fetch.
  destruct r as [a b c d e|l|l|l|l|l|t c mx a|l|l|mm t c b k|l]; cbn [rp_fields rp_type rp_parsed rp_parsable] in *;
    try (rewrite enc_R in Hat, Hlen).
  - change (p_desc m off = Ok (VTup "ofp_desc" (vals [R (padded 256 a); R (padded 256 b); R (padded 256 c); R (padded 32 d); R (padded 256 e)]), len)).
    unfold p_desc. rewrite (fixed_enc "ofp_desc" _ [R (padded 256 a); R (padded 256 b); R (padded 256 c); R (padded 32 d); R (padded 256 e)]);
      try assumption; [rewrite Hlen, enc_length; reflexivity|].
    destruct Hx as (La & Lb & Lc & Ld & Le). cbn [map shape]. rewrite !padded_length by assumption. reflexivity.
  - change (fetch (p_flow_stats n m) = Ok (VList (map flow_stat_parsed l), len)).
    apply (fetch_spec flow_stat_wire flow_stat_parsed _ m); try assumption.
    + intros x o Hin Ho. apply flow_stat_parse; [exact Ho | exact (Forall_In _ _ _ Hx Hin) | exact (Forall_In _ _ _ Hp Hin) | exact Hn].
    + intros x. rewrite flow_stat_len. destruct x. lia.
  - change (fetch (p_table_stats m) = Ok (VList (map (fun s => VTup "ofp_table_stats" (vals (table_stat_fields s))) l), len)).
    apply (fetch_spec (fun s => enc (table_stat_fields s)) _ _ m); try assumption.
    + intros x o Hin Ho. apply table_stat_parse; [exact Ho | exact (Forall_In _ _ _ Hx Hin)].
    + intros x. rewrite enc_length. destruct x. cbn [table_stat_fields flen fld_len]. lia.
  - change (fetch (p_queue_stats m) = Ok (VList (map (fun s => VTup "ofp_queue_stats" (vals (queue_stat_fields s))) l), len)).
    apply (fetch_spec (fun s => enc (queue_stat_fields s)) _ _ m); try assumption.
    + intros x o Hin Ho. apply queue_stat_parse; [exact Ho | exact (Forall_In _ _ _ Hx Hin)].
    + intros x. rewrite enc_length. destruct x. cbn [queue_stat_fields flen fld_len]. lia.
  - change (fetch (p_group_stats n m) = Ok (VList (map group_stat_view l), len)).
    apply (fetch_spec group_stat_wire _ _ m); try assumption.
    + intros x o Hin Ho. apply group_stat_parse; [exact Ho | exact (Forall_In _ _ _ Hx Hin) | exact Hn].
    + intros x. pose proof (group_stat_len x). lia.
  - change (fetch (p_group_desc n m) = Ok (VList (map group_desc_parsed l), len)).
    apply (fetch_spec group_desc_wire _ _ m); try assumption.
    + intros x o Hin Ho. apply group_desc_parse; [exact Ho | exact (Forall_In _ _ _ Hx Hin) | exact (Forall_In _ _ _ Hp Hin) | exact Hn].
    + intros x. pose proof (group_desc_len x). lia.
  - change (p_group_features m off = Ok (VTup "ofp_group_features" [VInt t; VInt c; VTup "tuple" (all_z mx); VTup "tuple" (all_z a)], len)).
    apply fits_app in Hf. destruct Hf as [F1 F2]. apply fits_app in F2. destruct F2 as [F2 F3].
    apply at_enc_app in Hat. destruct Hat as [A1 A2]. apply at_enc_app in A2. destruct A2 as [A2 A3]. destruct Hx as [Lm La].
    rewrite Hlen, enc_length, !flen_app.
    unfold p_group_features. rewrite (unp_enc "II" [U 4 t; U 4 c] m off eq_refl F1 A1). cbn [bind vals].
    rewrite (unp_enc "4I" (map (U 4) mx)) by (try assumption; rewrite shape_words, Lm; reflexivity). cbn [bind].
    rewrite (unp_enc "4I" (map (U 4) a)) by (try assumption; rewrite shape_words, La; reflexivity). cbn [bind].
    rewrite !vals_words. cbn [Datatypes.app]. unfold all_z. do 2 f_equal; try lia.
  - change (fetch (p_meter_stats n m) = Ok (VList (map meter_stat_view l), len)).
    apply (fetch_spec meter_stat_wire _ _ m); try assumption.
    + intros x o Hin Ho. apply meter_stat_parse; [exact Ho | exact (Forall_In _ _ _ Hx Hin) | exact Hn].
    + intros x. pose proof (meter_stat_len x). lia.
  - change (fetch (p_meter_config n m) = Ok (VList (map meter_conf_view l), len)).
    apply (fetch_spec meter_conf_wire _ _ m); try assumption.
    + intros x o Hin Ho. apply meter_conf_parse; [exact Ho | exact (Forall_In _ _ _ Hx Hin) | exact (Forall_In _ _ _ Hp Hin) | exact Hn].
    + intros x. pose proof (meter_conf_len x). lia.
  - change (p_meter_features m off = Ok (VTup "ofp_meter_features" (vals [U 4 mm; U 4 t; U 4 c; U 1 b; U 1 k; P 2]), len)).
    rewrite Hlen, enc_length.
    exact (fixed_enc "ofp_meter_features" "3IBB2x" [U 4 mm; U 4 t; U 4 c; U 1 b; U 1 k; P 2] m off eq_refl Hf Hat).
  - change (fetch (p_port m) = Ok (VList (map port_parsed l), len)).
    apply (fetch_spec port_wire _ _ m); try assumption.
    + intros x o Hin Ho. apply port_parse; [exact Ho | exact (Forall_In _ _ _ Hx Hin)].
    + intros x. unfold port_wire, port_fields. rewrite enc_length, flen_app. cbn [flen fld_len]. lia.
Qed.

(** *** Messages *)

Lemma queue_parse m off q : at_ m off (enc (queue_fields q)) -> fits (queue_fields q) ->
  p_packet_queue m off = Ok (queue_view q, (off + length (enc (queue_fields q)))%nat).
Proof.
  intros Hat Hf. unfold p_packet_queue, queue_fields in *.
  rewrite (unp_enc "IIH6x" [U 4 (fst q); U 4 (snd q); U 2 16; P 6] m off eq_refl Hf Hat). cbn [vals bind flen fld_len].
  cbv zeta. change (Z.to_nat 16) with 16%nat. cbn [Nat.add]. rewrite Nat.ltb_irrefl, Nat.eqb_refl. cbn [assert_ bind].
  rewrite enc_length. reflexivity.
Qed.

Lemma simple_enc cls f l m off h ty len :
  p_header m off = Ok (h, ty, len, (off + 8)%nat) -> fmt f = Ok (map shape l) -> fits l -> at_ m (off + 8) (enc l) ->
  simple_message cls f m off = Ok (VTup cls (h :: vals l), (off + 8 + flen l)%nat).
Proof. intros Hh Hf Hl Hat. unfold simple_message. rewrite Hh. cbn [bind]. rewrite (unp_enc f l) by assumption. reflexivity. Qed.

Lemma parse_type n m off h ty len o :
  p_header m off = Ok (h, ty, len, o) ->
  parse n m off = (if ty =? 0 then p_hello n m off
  else if ty =? 1 then p_error_msg m off
  else if ty =? 6 then p_switch_features m off
  else if py_inz (VInt ty) [9; 8] then p_switch_config m off
  else if ty =? 10 then p_packet_in m off
  else if ty =? 11 then p_flow_removed m off
  else if ty =? 12 then p_port_status m off
  else if ty =? 13 then p_packet_out n m off
  else if ty =? 14 then p_flow_mod n m off
  else if ty =? 15 then p_group_mod n m off
  else if ty =? 16 then p_port_mod m off
  else if ty =? 17 then p_table_mod m off
  else if ty =? 18 then p_multipart_request n m off
  else if ty =? 19 then p_multipart_reply n m off
  else if ty =? 4 then p_experimenter m off
  else if ty =? 22 then p_queue_get_config_request m off
  else if ty =? 23 then p_queue_get_config_reply n m off
  else if ty =? 24 then p_role_request m off
  else if py_inz (VInt ty) [28; 27] then p_async_config m off
  else if ty =? 29 then p_meter_mod n m off
  else p_ofp m off).
Proof. intros H. unfold parse. rewrite H. reflexivity. Qed.

Lemma py_inz_not z l : ~ In z l -> py_inz (VInt z) l = false.
Proof.
  intros H. unfold py_inz. destruct (existsb _ l) eqn:E; [|reflexivity]. apply existsb_exists in E.
  destruct E as (x & Hx & He). cbn in He. apply Z.eqb_eq in He. subst. contradiction.
Qed.

Lemma parse_plain n m off h ty len o : p_header m off = Ok (h, ty, len, o) -> plain_type ty -> parse n m off = p_ofp m off.
Proof.
  intros Hh [Hu Hn]. rewrite (parse_type _ _ _ _ _ _ _ Hh).
  assert (D : forall k, In k [0; 1; 4; 6; 8; 9; 10; 11; 12; 13; 14; 15; 16; 17; 18; 19; 22; 23; 24; 27; 28; 29] -> (ty =? k) = false).
  { intros k Hk. apply Z.eqb_neq. intros ->. contradiction. }
  rewrite !D by (cbn; tauto).
  rewrite !py_inz_not by (intros [<-|[<-|[]]]; apply Hn; cbn; tauto). reflexivity.
Qed.

Ltac cut_layout pre A F :=
  match type of F with fits ?l =>
    change l with (pre ++ skipn (length pre) l) in A, F; cbn [length skipn] in A, F;
    apply fits_app in F; destruct F as [? _]; apply at_enc_app in A; destruct A as [? A]
  end.

Ltac by_type Hh := rewrite (parse_type _ _ _ _ _ _ _ Hh).

Theorem msg_parse n bs off xid m :
  at_ bs off (mwire xid m) -> msg_ok m -> msg_parsable m -> u32 xid -> (length bs <= n)%nat ->
  parse n bs off = Ok (msg_parsed xid m, (off + length (mwire xid m) - msg_unread m)%nat).
Proof.
  intros Hat Hok Hp Hx Hn. pose proof Hok as (Hf & Hlen & Hext).
  destruct (p_header_ok bs off (mtype m) xid (body m) Hat (mtype_u8 m Hok) Hx Hlen) as [Hh Hb].
  rewrite mwire_len. pose proof (enc_length (body_fields m)) as Hl. fold (body m) in Hl. rewrite Hl in Hh.
  unfold msg_parsed. set (h := hdr_view (mtype m) xid (body m)) in *. clearbody h.
  unfold body in Hb. clear Hat Hlen Hl Hok.
  destruct m; cbn [mtype body_fields msg_parsable msg_unread flen fld_len] in *; unfold body in *.
  - (* hello *) by_type Hh. change (p_hello n bs off = Ok (VTup "ofp_hello" [h; VList (map hello_parsed elems)],
      (off + (8 + (length (concat (map hello_wire elems)) + 0)) - 0)%nat)).
    unfold p_hello. rewrite Hh. cbn [bind]. rewrite enc_R in Hb.
    rewrite (list_fetch_spec hello_wire hello_parsed (p_hello_elem bs) bs elems) with (limit := (off + (8 + (length (concat (map hello_wire elems)) + 0)))%nat);
      [cbn [bind]; do 2 f_equal; try lia| |apply hello_pos|exact Hb|lia|exact Hn].
    intros x o Hin Ho. apply hello_parse; [exact Ho | exact (Forall_In _ _ _ Hext Hin)].
  - (* error *) by_type Hh. change (p_error_msg bs off = Ok (VTup "ofp_error_msg" [h; VInt ty; VInt code; VBytes data],
      (off + (8 + (2 + (2 + (length data + 0)))) - 0)%nat)).
    unfold p_error_msg. rewrite Hh. cbn [bind]. cut_layout [U 2 ty; U 2 code] Hb Hf.
    rewrite (unp_enc "HH" [U 2 ty; U 2 code]) by (try assumption; reflexivity). cbn [bind vals flen fld_len] in *.
    rewrite enc_R in Hb. rewrite (slice_at _ _ data) by (try assumption; lia). cbn [Datatypes.app]. do 2 f_equal; try lia.
  - (* plain *) rewrite (parse_plain _ _ _ _ _ _ _ Hh Hext). unfold p_ofp. rewrite Hh. cbn [bind]. rewrite enc_R in Hb.
    rewrite (slice_at _ _ data) by (try assumption; lia). do 2 f_equal; try lia.
  - (* features *) by_type Hh. change (p_switch_features bs off = Ok (VTup "ofp_switch_features" (h :: all_z [dpid; n_buffers; n_tables; aux; caps]), (off + 32 - 0)%nat)).
    unfold p_switch_features. rewrite Hh. cbn [bind].
    rewrite (unp_enc "QIBB2xII" [U 8 dpid; U 4 n_buffers; U 1 n_tables; U 1 aux; P 2; U 4 caps; U 4 0] _ _ eq_refl Hf Hb).
    cbn [bind vals flen fld_len]. do 2 f_equal; try lia.
  - (* config *) by_type Hh.
    assert (E : simple_message "ofp_switch_config" "HH" bs off = Ok (VTup "ofp_switch_config" [h; VInt flags; VInt miss], (off + 8 + 4)%nat))
      by exact (simple_enc "ofp_switch_config" "HH" [U 2 flags; U 2 miss] bs off _ _ _ Hh eq_refl Hf Hb).
    replace (off + (8 + (2 + (2 + 0))) - 0)%nat with (off + 8 + 4)%nat by lia.
    destruct Hext as [<-|[<-|[]]]; exact E.
  - (* packet_in *) by_type Hh. change (p_packet_in bs off = Ok (VTup "ofp_packet_in" (h :: all_z [buffer; total; reason; table; cookie] ++ [match_view m; VBytes data]),
      (off + (8 + (4 + (2 + (1 + (1 + (8 + (length (match_wire m) + (2 + (length data + 0))))))))) - length data)%nat)).
    unfold p_packet_in. rewrite Hh. cbn [bind]. cut_layout [U 4 buffer; U 2 total; U 1 reason; U 1 table; U 8 cookie] Hb Hf.
    rewrite (unp_enc "IHBBQ" [U 4 buffer; U 2 total; U 1 reason; U 1 table; U 8 cookie]) by (try assumption; reflexivity). cbn [bind vals flen fld_len] in *.
    rewrite enc_cons in Hb. cbn [enc1] in Hb. apply at_app in Hb. destruct Hb as [B1 B2].
    rewrite (match_parse _ _ m B1 Hext). cbn [bind].
    change (at_ bs (off + 8 + (4 + (2 + (1 + (1 + (8 + 0))))) + length (match_wire m)) (enc ([P 2] ++ [R data]))) in B2.
    apply at_enc_app in B2. destruct B2 as [B2 B3].
    rewrite (unp_enc "2x" [P 2] _ _ eq_refl (Forall_cons _ (I : in_range (P 2)) (Forall_nil _)) B2). cbn [bind vals flen fld_len] in *.
    rewrite enc_R in B3. rewrite (slice_at _ _ data) by (try assumption; lia).
    cbn [Datatypes.app]. do 2 f_equal; try lia.
  - (* flow_removed *) by_type Hh.
    change (p_flow_removed bs off = Ok (VTup "ofp_flow_removed" (h :: all_z [cookie; prio; reason; table; dsec; dnsec; idle; hard; pkts; octets] ++ [match_view m]),
      (off + (8 + (40 + (length (match_wire m) + 0))) - 0)%nat)).
    unfold p_flow_removed. rewrite Hh. cbn [bind].
    cut_layout [U 8 cookie; U 2 prio; U 1 reason; U 1 table; U 4 dsec; U 4 dnsec; U 2 idle; U 2 hard; U 8 pkts; U 8 octets] Hb Hf.
    rewrite (unp_enc "QHBBIIHHQQ" [U 8 cookie; U 2 prio; U 1 reason; U 1 table; U 4 dsec; U 4 dnsec; U 2 idle; U 2 hard; U 8 pkts; U 8 octets]) by (try assumption; reflexivity).
    cbn [bind vals flen fld_len] in *. rewrite enc_R in Hb. rewrite (match_parse _ _ m Hb Hext). cbn [bind Datatypes.app]. do 2 f_equal; try lia.
  - (* port_status *) by_type Hh. change (p_port_status bs off = Ok (VTup "ofp_port_status" [h; VInt reason; port_parsed p], (off + (8 + (8 + (length (port_wire p) + 0))) - 0)%nat)).
    unfold p_port_status. rewrite Hh. cbn [bind]. cut_layout [U 1 reason; P 7] Hb Hf.
    rewrite (unp_enc "B7x" [U 1 reason; P 7]) by (try assumption; reflexivity). cbn [bind vals flen fld_len] in *.
    rewrite enc_R in Hb. rewrite (port_parse _ _ p Hb Hext). cbn [bind Datatypes.app]. do 2 f_equal; try lia.
  - (* packet_out *) by_type Hh. change (p_packet_out n bs off = Ok (VTup "ofp_packet_out" [h; VInt buffer; VInt in_port; VInt (zlen (acts_wire acts)); acts_parsed acts; VBytes data],
      (off + (8 + (16 + (length (acts_wire acts) + (length data + 0)))) - length data)%nat)).
    unfold p_packet_out. rewrite Hh. cbn [bind]. cut_layout [U 4 buffer; U 4 in_port; U 2 (zlen (acts_wire acts)); P 6] Hb Hf.
    rewrite (unp_enc "IIH6x" [U 4 buffer; U 4 in_port; U 2 (zlen (acts_wire acts)); P 6]) by (try assumption; reflexivity). cbn [bind vals flen fld_len] in *.
    rewrite enc_R2 in Hb. apply at_app in Hb. destruct Hb as [B1 B2].
    assert (Ez : Z.to_nat (zlen (acts_wire acts)) = length (acts_wire acts)) by (unfold zlen; lia). rewrite Ez.
    rewrite (acts_while bs n _ acts) by (try assumption; reflexivity). cbn [bind].
    rewrite (slice_at _ _ data) by (try assumption; lia).
    unfold acts_parsed. cbn [Datatypes.app]. do 2 f_equal; try lia.
  - (* flow_mod *) by_type Hh.
    change (p_flow_mod n bs off = Ok (VTup "ofp_flow_mod" (h :: all_z [cookie; mask; table; command; idle; hard; prio; buffer; out_port; out_group; flags] ++ [match_view m; insts_parsed is]),
      (off + (8 + (40 + (length (match_wire m) + (length (insts_wire is) + 0)))) - 0)%nat)).
    destruct Hext as [Hm Hi].
    unfold p_flow_mod. rewrite Hh. cbn [bind].
    cut_layout [U 8 cookie; U 8 mask; U 1 table; U 1 command; U 2 idle; U 2 hard; U 2 prio; U 4 buffer; U 4 out_port; U 4 out_group; U 2 flags; P 2] Hb Hf.
    rewrite (unp_enc "QQBB3H3IH2x" [U 8 cookie; U 8 mask; U 1 table; U 1 command; U 2 idle; U 2 hard; U 2 prio; U 4 buffer; U 4 out_port; U 4 out_group; U 2 flags; P 2])
      by (try assumption; reflexivity).
    cbn [bind vals flen fld_len] in *. rewrite enc_R2 in Hb. apply at_app in Hb. destruct Hb as [B1 B2].
    rewrite (match_parse _ _ m B1 Hm). cbn [bind].
    rewrite (insts_list bs n _ is) by (try assumption; lia). cbn [bind]. unfold insts_parsed. cbn [Datatypes.app].
    do 2 f_equal; try lia.
  - (* group_mod *) by_type Hh. change (p_group_mod n bs off = Ok (VTup "ofp_group_mod" [h; VInt command; VInt ty; VInt group; VList (map bucket_parsed bs0)],
      (off + (8 + (8 + (length (buckets_wire bs0) + 0))) - 0)%nat)).
    unfold p_group_mod. rewrite Hh. cbn [bind]. cut_layout [U 2 command; U 1 ty; P 1; U 4 group] Hb Hf.
    rewrite (unp_enc "HBxI" [U 2 command; U 1 ty; P 1; U 4 group]) by (try assumption; reflexivity). cbn [bind vals flen fld_len] in *.
    rewrite enc_R in Hb. rewrite (buckets_while bs n _ bs0) by (try assumption; lia). cbn [bind Datatypes.app]. do 2 f_equal; try lia.
  - destruct Hp.
  - (* table_mod *) by_type Hh.
    replace (off + (8 + (1 + (3 + (4 + 0)))) - 0)%nat with (off + 8 + 8)%nat by lia.
    exact (simple_enc "ofp_table_mod" "B3xI" [U 1 table; P 3; U 4 config] bs off _ _ _ Hh eq_refl Hf Hb).
  - (* meter_mod *) by_type Hh. change (p_meter_mod n bs off = Ok (VTup "ofp_meter_mod" [h; VInt command; VInt flags; VInt meter; VList (map band_view bs0)],
      (off + (8 + (8 + (length (bands_wire bs0) + 0))) - 0)%nat)).
    unfold p_meter_mod. rewrite Hh. cbn [bind]. cut_layout [U 2 command; U 2 flags; U 4 meter] Hb Hf.
    rewrite (unp_enc "HHI" [U 2 command; U 2 flags; U 4 meter]) by (try assumption; reflexivity). cbn [bind vals flen fld_len] in *.
    rewrite enc_R in Hb. rewrite (bands_while bs n _ bs0) by (try assumption; lia). cbn [bind Datatypes.app]. do 2 f_equal; try lia.
  - (* request *) by_type Hh. change (p_multipart_request n bs off = Ok (VTup "ofp_multipart_request" [h; VInt (rq_type r); VInt flags; rq_view r],
      (off + (8 + (8 + (length (enc (rq_fields r)) + 0))) - 0)%nat)).
    unfold p_multipart_request. rewrite Hh. cbn [bind]. cut_layout [U 2 (rq_type r); U 2 flags; P 4] Hb Hf.
    rewrite (unp_enc "HH4x" [U 2 (rq_type r); U 2 flags; P 4]) by (try assumption; reflexivity). cbn [bind vals flen fld_len] in *.
    rewrite enc_R in Hb. erewrite (request_parse n bs _ _ r) by (try eassumption; lia). cbn [bind Datatypes.app]. do 2 f_equal; try lia.
  - (* reply *) by_type Hh. change (p_multipart_reply n bs off = Ok (VTup "ofp_multipart_reply" [h; VInt (rp_type r); VInt flags; rp_parsed r],
      (off + (8 + (8 + (length (enc (rp_fields r)) + 0))) - 0)%nat)).
    unfold p_multipart_reply. rewrite Hh. cbn [bind]. cut_layout [U 2 (rp_type r); U 2 flags; P 4] Hb Hf.
    rewrite (unp_enc "HH4x" [U 2 (rp_type r); U 2 flags; P 4]) by (try assumption; reflexivity). cbn [bind vals flen fld_len] in *.
    rewrite enc_R in Hb. cbv zeta. erewrite (reply_parse n bs _ _ r) by (try eassumption; lia). cbn [bind Datatypes.app]. do 2 f_equal; try lia.
  - (* queue request *) by_type Hh.
    replace (off + (8 + (4 + (4 + 0))) - 0)%nat with (off + 8 + 8)%nat by lia.
    exact (simple_enc "ofp_queue_get_config_request" "I4x" [U 4 port; P 4] bs off _ _ _ Hh eq_refl Hf Hb).
  - (* queue reply *) by_type Hh.
    change (p_queue_get_config_reply n bs off = Ok (VTup "ofp_queue_get_config_reply" [h; VInt port; VList (map queue_view queues)],
      (off + (8 + (8 + (length (concat (map (fun q => enc (queue_fields q)) queues)) + 0))) - 0)%nat)).
    unfold p_queue_get_config_reply. rewrite Hh. cbn [bind]. cut_layout [U 4 port; P 4] Hb Hf.
    rewrite (unp_enc "I4x" [U 4 port; P 4]) by (try assumption; reflexivity). cbn [bind vals flen fld_len] in *.
    rewrite enc_R in Hb.
    rewrite (list_fetch_spec (fun q => enc (queue_fields q)) queue_view (p_packet_queue bs) bs queues)
      with (limit := (off + (8 + (4 + (4 + (length (concat (map (fun q => enc (queue_fields q)) queues)) + 0)))))%nat);
      [cbn [bind Datatypes.app]; do 2 f_equal; try lia| | |exact Hb|lia|exact Hn].
    + intros x o Hin Ho. apply queue_parse; [exact Ho | exact (Forall_In _ _ _ Hext Hin)].
    + apply Forall_forall. intros x _. rewrite enc_length. cbn [queue_fields flen fld_len]. lia.
  - (* role *) subst ty. by_type Hh.
    replace (off + (8 + (4 + (4 + (8 + 0)))) - 0)%nat with (off + 8 + 16)%nat by lia.
    exact (simple_enc "ofp_role_request" "I4xQ" [U 4 role; P 4; U 8 generation] bs off _ _ _ Hh eq_refl Hf Hb).
  - (* async *) by_type Hh.
    assert (E : p_async_config bs off = Ok (VTup "ofp_async_config" [h; VTup "tuple" [VInt (fst pin); VInt (snd pin)];
      VTup "tuple" [VInt (fst pst); VInt (snd pst)]; VTup "tuple" [VInt (fst frm); VInt (snd frm)]], (off + (8 + (4 + (4 + (4 + (4 + (4 + (4 + 0))))))) - 0)%nat)).
    { unfold p_async_config. rewrite Hh. cbn [bind].
      rewrite (unp_enc "6I" [U 4 (fst pin); U 4 (snd pin); U 4 (fst pst); U 4 (snd pst); U 4 (fst frm); U 4 (snd frm)] _ _ eq_refl Hf Hb).
      cbn [bind vals firstn skipn flen fld_len]. do 2 f_equal; try lia. }
    destruct Hext as [<-|[<-|[]]]; exact E.
Qed.

(** Model of twink/ofp5/build.py: the builders of OpenFlow 1.4 structures and
    messages.  The conventions and simplifications are those of M_Build4.v,
    whose auxiliary definitions (joining arguments, [as_bytes], [padding],
    [check_type], [fill_type], [pack_app] ...) are used here for the lines that
    read the same in both files.
    Simplification: [dx] is the transaction id drawn where none is given
    (build.py:9); messages held in one another would draw one each. *)

From Verif Require Export Struct.
From Verif Require Import M_Build4.
Local Open Scope Z_scope.
Local Open Scope list_scope.

(** [_len(x)] (build.py:6): TypeError for None and numbers. *)
Definition len_of (v : pyval) : res nat :=
  match v with
  | VBytes b => Ok (length b)
  | VText t => Ok (length t)
  | VList l | VTup _ l => Ok (length l)
  | VNone | VInt _ => Err TypeError
  end.

(** The common ending of the experimenter properties, e.g. build.py:432-436:
    length = 12 + _len(data);
    return _pack("HHII", type, length, experimenter, exp_type) + data + padding. *)
Definition exp_prop (type_ experimenter exp_type data : pyval) : res bytes :=
  k <- len_of data ;;
  let n := (12 + k)%nat in
  p <- packs "HHII" [type_; VInt (Z.of_nat n); experimenter; exp_type] ;;
  d <- as_bytes data ;;
  Ok (p ++ d ++ padding n).

Section Builders5.
Variable obj : pyval -> res bytes.
Variable dx : Z.

(** build.py:33-44. *)
Definition ofp_header (version type_ length_ xid : pyval) : res bytes :=
  let version := default version 5 in
  assert_ (py_eqz version 5) ;;;
  packs "BBHI" [version; type_; default length_ 8; default xid dx].

(** build.py:48-78: version, type and xid from the header argument. *)
Definition header_fields (header ty : pyval) : res (pyval * pyval * pyval) :=
  match header with
  | VBytes h =>
      vs <- unpacks "BBHI" h 0 ;;
      match vs with
      | [version; oftype; _; xid] => check_type oftype ty ;;; Ok (version, oftype, xid)
      | _ => Err ValueError
      end
  | VTup _ [version; oftype; _; xid] =>
      oftype <- fill_type oftype ty ;; Ok (version, oftype, xid)
  | VTup _ _ => Err ValueError
  | VNone => match ty with VInt z => Ok (VInt 5, VInt z, VInt dx) | _ => Err ValueError end
  | _ => Err ValueError
  end.

(** build.py:47-83 [ofp_]. *)
Definition ofp_ (header data ty : pyval) : res bytes :=
  ' (version, oftype, xid) <- header_fields header ty ;;
  data <- obj data ;;
  h <- ofp_header version oftype (VInt (8 + zlen data)) xid ;;
  Ok (h ++ data).

(** [ofp_(header, <bytes>, type)], the data being evaluated first. *)
Definition message (header ty : pyval) (data : res bytes) : res bytes :=
  data <- data ;; ofp_ header (VBytes data) ty.

(** build.py:87-110: the properties are counted in the length but not appended. *)
Definition ofp_port (port_no length_ hw_addr name config state properties : pyval) : res bytes :=
  assert_ (match hw_addr with VBytes b => (length b =? 6)%nat | _ => false end) ;;;
  assert_ (match name with VBytes b => (length b <=? 16)%nat | _ => false end) ;;;
  props <- seqarg obj properties ;;
  packs "IH2x6s2x16sII" [port_no; VInt (40 + zlen props); hw_addr; name; config; state].

(** build.py:113-115. *)
Definition ofp_port_desc_prop_header (type_ length_ : pyval) : res bytes := packs "HH" [type_; length_].

(** build.py:117-125. *)
Definition ofp_port_desc_prop_ethernet (type_ length_ curr advertised supported peer curr_speed max_speed : pyval) : res bytes :=
  let type_ := default type_ 0 in
  assert_ (py_eqz type_ 0) ;;;
  packs "HH4x6I" [type_; VInt 32; curr; advertised; supported; peer; curr_speed; max_speed].

(** build.py:127-139. *)
Definition ofp_port_desc_prop_optical (type_ length_ supported tx_min_freq_lmda tx_max_freq_lmda tx_grid_freq_lmda
    rx_min_freq_lmda rx_max_freq_lmda rx_grid_freq_lmda tx_pwr_min tx_pwr_max : pyval) : res bytes :=
  let type_ := default type_ 1 in
  assert_ (py_eqz type_ 1) ;;;
  packs "HH4x7I2H" [type_; VInt 40; supported; tx_min_freq_lmda; tx_max_freq_lmda; tx_grid_freq_lmda;
    rx_min_freq_lmda; rx_max_freq_lmda; rx_grid_freq_lmda; tx_pwr_min; tx_pwr_max].

(** build.py:141-152: the name [align] is not defined. *)
Definition ofp_port_desc_prop_experimenter (type_ length_ experimenter exp_type experimenter_data : pyval) : res bytes :=
  let type_ := default type_ 65535 in
  assert_ (py_eqz type_ 65535) ;;;
  let data := dflt_bytes experimenter_data [] in
  k <- len_of data ;;
  packs "HHII" [type_; VInt (12 + Z.of_nat k); experimenter; exp_type] ;;;
  as_bytes data ;;;
  Err NameError.

(** build.py:155-174; line 168 builds a ValueError without raising it, so
    that [_len] fails next. *)
Definition ofp_match (type_ length_ oxm_fields : pyval) : res bytes :=
  let type_ := default type_ 1 in
  oxm <- match oxm_fields with
         | VBytes b => Ok b
         | VList l | VTup _ l => join obj l
         | VNone => Ok []
         | _ => Err TypeError
         end ;;
  let n := (4 + length oxm)%nat in
  p <- packs "HH" [type_; VInt (Z.of_nat n)] ;;
  let msg := p ++ oxm ++ padding n in
  assert_ (length msg mod 8 =? 0)%nat ;;;
  Ok msg.

(** build.py:177-178. *)
Definition ofp_instruction_header (type_ len : pyval) : res bytes := packs "HH" [type_; len].

(** build.py:180-190. *)
Definition ofp_instruction_goto_table (type_ len table_id : pyval) : res bytes :=
  let type_ := default type_ 1 in
  assert_ (py_eqz type_ 1) ;;;
  sized 8 (packs "HHB3x" [type_; VInt 8; table_id]).

(** build.py:192-203. *)
Definition ofp_instruction_write_metadata (type_ len metadata metadata_mask : pyval) : res bytes :=
  let type_ := default type_ 2 in
  assert_ (py_eqz type_ 2) ;;;
  sized 24 (packs "HH4xQQ" [type_; VInt 24; metadata; metadata_mask]).

(** build.py:205-223: the length is rounded up, the bytes are not
    padded. *)
Definition ofp_instruction_actions (type_ len actions : pyval) : res bytes :=
  acts <- seqarg obj actions ;;
  assert_ (py_inz type_ [3; 4; 5]) ;;;
  pack_app "HH4x" [type_; VInt (Z.of_nat (align8 (8 + length acts)))] acts.

(** build.py:225-234. *)
Definition ofp_instruction_meter (type_ len meter_id : pyval) : res bytes :=
  let type_ := default type_ 6 in
  assert_ (py_eqz type_ 6) ;;;
  packs "HHI" [type_; VInt 8; meter_id].

(** build.py:236-249. *)
Definition ofp_instruction_experimenter_ (type_ len experimenter data : pyval) : res bytes :=
  let type_ := default type_ 65535 in
  assert_ (py_eqz type_ 65535) ;;;
  d <- obj data ;;
  pack_app "HHI" [type_; VInt (8 + zlen d); experimenter] d.

(** build.py:252-253. *)
Definition ofp_action_header (type_ len : pyval) : res bytes := packs "HH" [type_; len].

(** build.py:255-270. *)
Definition ofp_action_output (type_ len port max_len : pyval) : res bytes :=
  let type_ := default type_ 0 in
  assert_ (py_eqz type_ 0) ;;;
  sized 16 (packs "HHIH6x" [type_; VInt 16; port; max_len]).

(** build.py:272-284. *)
Definition ofp_action_group (type_ len group_id : pyval) : res bytes :=
  let type_ := default type_ 22 in
  assert_ (py_eqz type_ 22) ;;;
  sized 8 (packs "HHI" [type_; VInt 8; group_id]).

(** build.py:286-298. *)
Definition ofp_action_set_queue (type_ len queue_id : pyval) : res bytes :=
  let type_ := default type_ 21 in
  assert_ (py_eqz type_ 21) ;;;
  sized 8 (packs "HHI" [type_; VInt 8; queue_id]).

(** build.py:300-312. *)
Definition ofp_action_mpls_ttl (type_ len mpls_ttl : pyval) : res bytes :=
  let type_ := default type_ 15 in
  assert_ (py_eqz type_ 15) ;;;
  sized 8 (packs "HHB3x" [type_; VInt 8; mpls_ttl]).

(** build.py:314-318: COPY_TTL_OUT/IN, DEC_MPLS_TTL, DEC_NW_TTL,
    POP_VLAN, POP_PBB. *)
Definition ofp_action_generic (type_ len : pyval) : res bytes :=
  assert_ (py_inz type_ [11; 12; 16; 24; 18; 27]) ;;;
  packs "HH4x" [type_; VInt 8].

(** build.py:320-332. *)
Definition ofp_action_nw_ttl (type_ len nw_ttl : pyval) : res bytes :=
  let type_ := default type_ 23 in
  assert_ (py_eqz type_ 23) ;;;
  sized 8 (packs "HHB3x" [type_; VInt 8; nw_ttl]).

(** build.py:334-346. *)
Definition ofp_action_push (type_ len ethertype : pyval) : res bytes :=
  assert_ (py_inz type_ [17; 19; 26]) ;;;
  sized 8 (packs "3H2x" [type_; VInt 8; ethertype]).

(** build.py:348-360. *)
Definition ofp_action_pop_mpls (type_ len ethertype : pyval) : res bytes :=
  let type_ := default type_ 20 in
  assert_ (py_eqz type_ 20) ;;;
  sized 8 (packs "3H2x" [type_; VInt 8; ethertype]).

(** build.py:362-372. *)
Definition ofp_action_set_field (type_ len field : pyval) : res bytes :=
  let type_ := default type_ 25 in
  assert_ (py_eqz type_ 25) ;;;
  f <- assert_bytes field ;;
  let filled := (4 + length f)%nat in
  p <- packs "HH" [type_; VInt (Z.of_nat (align8 filled))] ;;
  Ok (p ++ f ++ padding filled).

(** build.py:374-375. *)
Definition ofp_action_experimenter_header (type_ len experimenter : pyval) : res bytes :=
  packs "HHI" [type_; len; experimenter].

(** build.py:377-387. *)
Definition ofp_action_experimenter_ (type_ len experimenter data : pyval) : res bytes :=
  let type_ := default type_ 65535 in
  assert_ (py_eqz type_ 65535) ;;;
  d <- assert_bytes data ;;
  let filled := (8 + length d)%nat in
  p <- packs "HHI" [type_; VInt (Z.of_nat (align8 filled)); experimenter] ;;
  Ok (p ++ d ++ padding filled).

(** build.py:390-399. *)
Definition ofp_switch_features (header datapath_id n_buffers n_tables auxiliary_id capabilities : pyval) : res bytes :=
  sized 32 (message header (VInt 6)
    (packs "QIBB2xII" [datapath_id; n_buffers; n_tables; auxiliary_id; capabilities; VInt 0])).

(** build.py:402-409. *)
Definition ofp_switch_config (header flags miss_send_len : pyval) : res bytes :=
  let miss_send_len := default miss_send_len 65535 in
  sized 12 (message header (tup [9; 8]) (packs "HH" [flags; miss_send_len])).

(** build.py:412-416: the properties are concatenated as they are. *)
Definition ofp_table_mod (header table_id config properties : pyval) : res bytes :=
  message header (VInt 17)
    (p <- packs "B3xI" [table_id; config] ;; d <- as_bytes properties ;; Ok (p ++ d)).

(** build.py:418-419. *)
Definition ofp_table_mod_prop_header (type_ length_ : pyval) : res bytes := packs "HH" [type_; length_].

(** build.py:421-423: the length is the caller's. *)
Definition ofp_table_mod_prop_eviction (type_ length_ flags : pyval) : res bytes :=
  packs "HHI" [VInt 2; length_; flags].

(** build.py:425-428. *)
Definition ofp_table_mod_prop_vacancy (type_ length_ vacancy_down vacancy_up vacancy : pyval) : res bytes :=
  packs "HH3Bx" [VInt 3; VInt 8; vacancy_down; vacancy_up; vacancy].

(** build.py:430-436: the length is taken before None is
    replaced. *)
Definition ofp_table_mod_prop_experimenter (type_ length_ experimenter exp_type experimenter_data : pyval) : res bytes :=
  exp_prop (VInt 65535) experimenter exp_type experimenter_data.

(** build.py:439-470. *)
Definition ofp_flow_mod (header cookie cookie_mask table_id command idle_timeout hard_timeout
    priority buffer_id out_port out_group flags importance match_ instructions : pyval) : res bytes :=
  insts <- seqarg obj instructions ;;
  let buffer_id := default buffer_id 4294967295 in
  let out_port := default out_port 4294967295 in
  let out_group := default out_group 4294967295 in
  message header (VInt 14)
    (p <- packs "QQBB3H3IHH" [cookie; cookie_mask; table_id; command; idle_timeout; hard_timeout;
            priority; buffer_id; out_port; out_group; flags; importance] ;;
     m <- obj match_ ;;
     Ok (p ++ m ++ insts)).

(** build.py:473-490. *)
Definition ofp_group_mod (header command type_ group_id buckets : pyval) : res bytes :=
  bs <- seqarg obj buckets ;;
  message header (VInt 15) (pack_app "HBxI" [command; type_; group_id] bs).

(** build.py:492-510. *)
Definition ofp_bucket (len weight watch_port watch_group actions : pyval) : res bytes :=
  acts <- seqarg obj actions ;;
  let filled := (16 + length acts)%nat in
  p <- packs "HHII4x" [VInt (Z.of_nat (align8 filled)); weight; watch_port; watch_group] ;;
  Ok (p ++ acts ++ padding filled).

(** build.py:513-526. *)
Definition ofp_port_mod (header port_no hw_addr config mask properties : pyval) : res bytes :=
  props <- seqarg obj properties ;;
  message header (VInt 16) (pack_app "I4x6s2xII" [port_no; hw_addr; config; mask] props).

(** build.py:528-529. *)
Definition ofp_port_mod_prop_header (type_ length_ : pyval) : res bytes := packs "HH" [type_; length_].

(** build.py:531-534. *)
Definition ofp_port_mod_prop_ethernet (type_ length_ advertise : pyval) : res bytes :=
  packs "HHI" [VInt 0; VInt 8; advertise].

(** build.py:536-539. *)
Definition ofp_port_mod_prop_optical (type_ length_ configure freq_lmda fl_offset grid_span tx_pwr : pyval) : res bytes :=
  packs "HHIIiII" [VInt 1; VInt 24; configure; freq_lmda; fl_offset; grid_span; tx_pwr].

(** build.py:541-547: as the property of table_mod. *)
Definition ofp_port_mod_prop_experimenter (type_ length_ experimenter exp_type experimenter_data : pyval) : res bytes :=
  exp_prop (VInt 65535) experimenter exp_type experimenter_data.

(** build.py:550-565: the header is packed as it is built, without the type
    and the length of this message. *)
Definition ofp_meter_mod (header command flags meter_id bands : pyval) : res bytes :=
  bs <- seqarg obj bands ;;
  h <- obj header ;;
  pack_app "8sHHI" [VBytes h; command; flags; meter_id] bs.

(** build.py:567-570. *)
Definition ofp_meter_band_header (type_ len rate burst_size : pyval) : res bytes :=
  sized 12 (packs "HHII" [type_; len; rate; burst_size]).

(** build.py:572-585. *)
Definition ofp_meter_band_drop (type_ len rate burst_size : pyval) : res bytes :=
  let type_ := default type_ 1 in
  assert_ (py_eqz type_ 1) ;;;
  sized 16 (packs "HHII4x" [type_; VInt 16; rate; burst_size]).

(** build.py:587-601. *)
Definition ofp_meter_band_dscp_remark (type_ len rate burst_size prec_level : pyval) : res bytes :=
  let type_ := default type_ 2 in
  assert_ (py_eqz type_ 2) ;;;
  sized 16 (packs "HHIIB3x" [type_; VInt 16; rate; burst_size; prec_level]).

(** build.py:603-619. *)
Definition ofp_meter_band_experimenter (type_ len rate burst_size experimenter data : pyval) : res bytes :=
  let type_ := default type_ 65535 in
  assert_ (py_eqz type_ 65535) ;;;
  d <- assert_bytes data ;;
  pack_app "HHIII" [type_; VInt (16 + zlen d); rate; burst_size; experimenter] d.

(** build.py:622-643.  Types: 0 DESC, 1 FLOW, 2 AGGREGATE, 3 TABLE,
    4 PORT_STATS, 5 QUEUE_STATS, 6 GROUP, 7 GROUP_DESC, 8 GROUP_FEATURES,
    9 METER, 10 METER_CONFIG, 11 METER_FEATURES, 12 TABLE_FEATURES,
    13 PORT_DESC, 14 TABLE_DESC, 15 QUEUE_DESC, 16 FLOW_MONITOR,
    65535 EXPERIMENTER. *)
Definition ofp_multipart_request (header type_ flags body : pyval) : res bytes :=
  body <- (if py_inz type_ [0; 3; 7; 8; 11; 13] then Ok (VBytes [])
           else if py_inz type_ [1; 2; 4; 5; 6; 9; 10] then
             match body with VNone => Ok (VBytes []) | _ => b <- obj body ;; Ok (VBytes b) end
           else if py_eqz type_ 12 then
             match body with
             | VList l | VTup _ l => b <- join obj l ;; Ok (VBytes b)
             | VNone => Ok (VList [])
             | _ => Ok body
             end
           else Ok body) ;;
  message header (VInt 18)
    (p <- packs "HH4x" [type_; flags] ;; b <- as_bytes body ;; Ok (p ++ b)).

(** build.py:645-674. *)
Definition ofp_multipart_reply (header type_ flags body : pyval) : res bytes :=
  b <- (if py_inz type_ [0; 2; 8; 11] then
          match body with
          | VTup _ _ | VBytes _ => obj body
          | VNone => Ok []
          | _ => Err ValueError
          end
        else if py_inz type_ [1; 3; 4; 5; 6; 7; 9; 10; 12; 13] then
          match body with
          | VList l | VTup _ l => join obj l
          | VNone => Ok []
          | _ => Err ValueError
          end
        else if py_eqz type_ 65535 then
          match body with VBytes b => Ok b | _ => Err ValueError end
        else Err ValueError) ;;
  message header (VInt 19) (pack_app "HH4x" [type_; flags] b).

(** build.py:677-695. *)
Definition ofp_desc (mfr_desc hw_desc sw_desc serial_num dp_desc : pyval) : res bytes :=
  sized 1056 (packs "256s256s256s32s256s"
    [dflt_bytes mfr_desc []; dflt_bytes hw_desc []; dflt_bytes sw_desc [];
     dflt_bytes serial_num []; dflt_bytes dp_desc []]).

(** build.py:698-713. *)
Definition ofp_flow_stats_request (table_id out_port out_group cookie cookie_mask match_ : pyval) : res bytes :=
  m <- match match_ with
       | VNone => b <- ofp_match VNone VNone (VList []) ;; Ok (VBytes b)
       | _ => Ok match_
       end ;;
  desc <- packs "B3xII4xQQ" [default table_id 255; default out_port 4294967295;
            default out_group 4294967295; default cookie 0; default cookie_mask 0] ;;
  assert_ (length desc =? 32)%nat ;;;
  m <- obj m ;;
  Ok (desc ++ m).

(** build.py:715-734. *)
Definition ofp_flow_stats (length_ table_id duration_sec duration_nsec priority idle_timeout
    hard_timeout flags cookie packet_count byte_count match_ instructions : pyval) : res bytes :=
  insts <- seqarg obj instructions ;;
  m <- obj match_ ;;
  let n := (48 + length m + length insts)%nat in
  sized n (pack_app "HBxII4H4x3Q" [VInt (Z.of_nat n); table_id; duration_sec; duration_nsec; priority;
    idle_timeout; hard_timeout; flags; cookie; packet_count; byte_count] (m ++ insts)).

(** build.py:737-750; the assertion compares 32 with 40. *)
Definition ofp_aggregate_stats_request (table_id out_port out_group cookie cookie_mask match_ : pyval) : res bytes :=
  desc <- packs "B3xII4xQQ" [default table_id 255; default out_port 4294967295;
            default out_group 4294967295; default cookie 0; default cookie_mask 0] ;;
  assert_ (length desc =? 40)%nat ;;;
  m <- obj match_ ;;
  Ok (desc ++ m).

(** build.py:752-753. *)
Definition ofp_aggregate_stats_reply (packet_count byte_count flow_count : pyval) : res bytes :=
  packs "QQI4x" [packet_count; byte_count; flow_count].

(** build.py:756-759. *)
Definition ofp_table_stats (table_id active_count lookup_count matched_count : pyval) : res bytes :=
  sized 24 (packs "B3xIQQ" [table_id; active_count; lookup_count; matched_count]).

(** build.py:762-773. *)
Definition ofp_table_desc (length_ table_id config properties : pyval) : res bytes :=
  props <- seqarg obj properties ;;
  pack_app "HBxI" [VInt (8 + zlen props); table_id; config] props.

(** build.py:776-791. *)
Definition ofp_table_features (length_ table_id name metadata_match metadata_write capabilities
    max_entries properties : pyval) : res bytes :=
  props <- seqarg obj properties ;;
  let n := (64 + length props)%nat in
  sized n (pack_app "HB5x32sQQII" [VInt (Z.of_nat n); table_id; name; metadata_match; metadata_write;
    capabilities; max_entries] props).

(** build.py:794-795. *)
Definition ofp_table_feature_prop_header (type_ length_ : pyval) : res bytes :=
  packs "HH" [type_; length_].

(** build.py:797-811. *)
Definition ofp_table_feature_prop_instructions (type_ length_ instruction_ids : pyval) : res bytes :=
  ids <- seqarg obj instruction_ids ;; feature_prop type_ [0; 1] ids.

(** The common part of build.py:813-821 and build.py:856-864: only the
    given types keep the data. *)
Definition id_with_data (exp : list Z) (type_ exp_data : pyval) : res bytes :=
  let data := if py_inz type_ exp then dflt_bytes exp_data [] else VBytes [] in
  k <- len_of data ;;
  p <- packs "HH" [type_; VInt (4 + Z.of_nat k)] ;;
  d <- as_bytes data ;;
  Ok (p ++ d).

(** build.py:813-821. *)
Definition ofp_instruction_id (type_ len exp_data : pyval) : res bytes := id_with_data [65534; 65535] type_ exp_data.

(** build.py:823-837. *)
Definition ofp_table_feature_prop_tables (type_ length_ table_ids : pyval) : res bytes :=
  ids <- seqarg obj table_ids ;; feature_prop type_ [2; 3] ids.

(** build.py:839-854. *)
Definition ofp_table_feature_prop_actions (type_ length_ action_ids : pyval) : res bytes :=
  ids <- seqarg obj action_ids ;; feature_prop type_ [4; 5; 6; 7] ids.

(** build.py:856-864. *)
Definition ofp_action_id (type_ len exp_data : pyval) : res bytes := id_with_data [65535] type_ exp_data.

(** build.py:866-881: MATCH 8, WILDCARDS 9, WRITE_SETFIELD 10,
    WRITE_SETFIELD_MISS 11, APPLY_SETFIELD 12, APPLY_SETFIELD_MISS 13 in
    ofp5/__init__.py:360-373. *)
Definition ofp_table_feature_prop_oxm (type_ length_ oxm_ids : pyval) : res bytes :=
  ids <- match oxm_ids with
         | VList l | VTup _ l => pack (repeat (FU 4) (length l)) l
         | VBytes b => Ok b
         | VNone => Ok []
         | _ => Err ValueError
         end ;;
  feature_prop type_ [8; 9; 10; 11; 12; 13] ids.

(** build.py:883-890: the name [isinsntace] is not
    defined. *)
Definition ofp_table_feature_prop_experimenter (type_ length_ experimenter exp_type data : pyval) : res bytes :=
  Err NameError.

(** build.py:893-896. *)
Definition ofp_port_stats_request (port_no : pyval) : res bytes :=
  packs "I4x" [default port_no 4294967295].

(** build.py:898-913. *)
Definition ofp_port_stats (length_ port_no duration_sec duration_nsec rx_packets tx_packets rx_bytes tx_bytes
    rx_dropped tx_dropped rx_errors tx_errors properties : pyval) : res bytes :=
  props <- seqarg obj properties ;;
  pack_app "H2x3I8Q" [VInt (80 + zlen props); port_no; duration_sec; duration_nsec; rx_packets; tx_packets;
    rx_bytes; tx_bytes; rx_dropped; tx_dropped; rx_errors; tx_errors] props.

(** build.py:915-916. *)
Definition ofp_port_stats_prop_header (type_ length_ : pyval) : res bytes := packs "HH" [type_; length_].

(** build.py:918-922. *)
Definition ofp_port_stats_prop_ethernet (type_ length_ rx_frame_err rx_over_err rx_crc_err collisions : pyval) : res bytes :=
  packs "HH4x4Q" [VInt 0; VInt 40; rx_frame_err; rx_over_err; rx_crc_err; collisions].

(** build.py:924-935. *)
Definition ofp_port_stats_prop_optical (type_ length_ flags tx_freq_lmda tx_offset tx_grid_span rx_freq_lmda
    rx_offset rx_grid_span tx_pwr rx_pwr bias_current temperature : pyval) : res bytes :=
  packs "HH4x7I4H" [VInt 1; VInt 44; flags; tx_freq_lmda; tx_offset; tx_grid_span; rx_freq_lmda;
    rx_offset; rx_grid_span; tx_pwr; rx_pwr; bias_current; temperature].

(** build.py:937-944: no padding. *)
Definition ofp_port_stats_prop_experimenter (type_ length_ experimenter exp_type experimenter_data : pyval) : res bytes :=
  let data := dflt_bytes experimenter_data [] in
  k <- len_of data ;;
  p <- packs "HHII" [VInt 65535; VInt (12 + Z.of_nat k); experimenter; exp_type] ;;
  d <- as_bytes data ;;
  Ok (p ++ d).

(** build.py:947-952: the name OFPQ_ALL is not defined. *)
Definition ofp_queue_stats_request (port_no queue_id : pyval) : res bytes :=
  match queue_id with
  | VNone => Err NameError
  | _ => packs "II" [default port_no 4294967295; queue_id]
  end.

(** build.py:954-966. *)
Definition ofp_queue_stats (length_ port_no queue_id tx_bytes tx_packets tx_errors duration_sec duration_nsec
    properties : pyval) : res bytes :=
  props <- seqarg obj properties ;;
  pack_app "H6x2I3Q2I" [VInt (48 + zlen props); port_no; queue_id; tx_bytes; tx_packets; tx_errors;
    duration_sec; duration_nsec] props.

(** build.py:968-969. *)
Definition ofp_queue_stats_prop_header (type_ length_ : pyval) : res bytes := packs "HH" [type_; length_].

(** build.py:971-974. *)
Definition ofp_queue_stats_prop_experimenter (type_ length_ experimenter exp_type experimenter_data : pyval) : res bytes :=
  exp_prop (VInt 65535) experimenter exp_type experimenter_data.

(** build.py:977-982: OFPQ_ALL again. *)
Definition ofp_queue_desc_request (port_no queue_id : pyval) : res bytes :=
  match queue_id with
  | VNone => Err NameError
  | _ => packs "II" [default port_no 4294967295; queue_id]
  end.

(** build.py:984-1001. *)
Definition ofp_queue_desc (port_no queue_id len properties : pyval) : res bytes :=
  props <- seqarg obj properties ;;
  desc <- packs "IIH6x" [port_no; queue_id; VInt (16 + zlen props)] ;;
  assert_ (length desc =? 16)%nat ;;;
  Ok (desc ++ props).

(** build.py:1003-1005. *)
Definition ofp_queue_desc_prop_header (type_ len : pyval) : res bytes := packs "HH4x" [type_; len].

(** build.py:1007-1010. *)
Definition ofp_queue_desc_prop_min_rate (type_ length_ rate : pyval) : res bytes :=
  packs "HHH2x" [VInt 1; VInt 8; rate].

(** build.py:1012-1015. *)
Definition ofp_queue_desc_prop_max_rate (type_ length_ rate : pyval) : res bytes :=
  packs "HHH2x" [VInt 2; VInt 8; rate].

(** build.py:1017-1021: the name [data] is not defined. *)
Definition ofp_queue_desc_prop_experimenter (type_ length_ experimenter exp_type experimenter_data : pyval) : res bytes :=
  Err NameError.

(** build.py:1024-1027. *)
Definition ofp_group_stats_request (group_id : pyval) : res bytes :=
  packs "I4x" [default group_id 4294967292].

(** build.py:1029-1043. *)
Definition ofp_group_stats (length_ group_id ref_count packet_count byte_count duration_sec
    duration_nsec bucket_stats : pyval) : res bytes :=
  bs <- seqarg obj bucket_stats ;;
  pack_app "H2xII4xQQII" [VInt (40 + zlen bs); group_id; ref_count; packet_count; byte_count;
    duration_sec; duration_nsec] bs.

(** build.py:1045-1046. *)
Definition ofp_bucket_counter (packet_count byte_count : pyval) : res bytes :=
  packs "QQ" [packet_count; byte_count].

(** build.py:1049-1061. *)
Definition ofp_group_desc (length_ type_ group_id buckets : pyval) : res bytes :=
  bs <- seqarg obj buckets ;;
  pack_app "HBxI" [VInt (8 + zlen bs); type_; group_id] bs.

(** build.py:1064-1083. *)
Definition ofp_group_features (types capabilities max_groups actions : pyval) : res bytes :=
  g <- four_words max_groups ;;
  a <- four_words actions ;;
  pack_app "II" [types; capabilities] (g ++ a).

(** build.py:1086-1087. *)
Definition ofp_meter_multipart_request (meter_id : pyval) : res bytes := packs "I4x" [meter_id].

(** build.py:1089-1101: the length is the caller's. *)
Definition ofp_meter_stats (meter_id len flow_count packet_in_count byte_in_count duration_sec
    duration_nsec band_stats : pyval) : res bytes :=
  bs <- seqarg obj band_stats ;;
  pack_app "IH6xIQQII" [meter_id; len; flow_count; packet_in_count; byte_in_count;
    duration_sec; duration_nsec] bs.

(** build.py:1103-1104. *)
Definition ofp_meter_band_stats (packet_band_count byte_band_count : pyval) : res bytes :=
  packs "QQ" [packet_band_count; byte_band_count].

(** build.py:1107-1119. *)
Definition ofp_meter_config (length_ flags meter_id bands : pyval) : res bytes :=
  bs <- seqarg obj bands ;;
  pack_app "HHI" [VInt (8 + zlen bs); flags; meter_id] bs.

(** build.py:1122-1123. *)
Definition ofp_meter_features (max_meter band_types capabilities max_bands max_color : pyval) : res bytes :=
  packs "IIIBB2x" [max_meter; band_types; capabilities; max_bands; max_color].

(** build.py:1126-1129. *)
Definition ofp_flow_monitor_request (monitor_id out_port out_group flags table_id command match_ : pyval) : res bytes :=
  p <- packs "3IHBB" [monitor_id; out_port; out_group; flags; table_id; command] ;;
  m <- obj match_ ;;
  Ok (p ++ m).

(** build.py:1132-1147: 32 is added for a fixed part of 24 bytes. *)
Definition ofp_flow_update_full (length_ event table_id reason idle_timeout hard_timeout priority cookie
    match_ instructions : pyval) : res bytes :=
  insts <- seqarg obj instructions ;;
  m <- obj match_ ;;
  pack_app "HHBB3H4xQ" [VInt (32 + zlen m + zlen insts); event; table_id; reason; idle_timeout; hard_timeout;
    priority; cookie] (m ++ insts).

(** build.py:1149-1152. *)
Definition ofp_flow_update_abbrev (length_ event xid : pyval) : res bytes :=
  packs "HHI" [VInt 8; VInt 4; xid].

(** build.py:1154-1156. *)
Definition ofp_flow_update_paused (length_ event : pyval) : res bytes :=
  packs "HH4x" [VInt 8; event].

(** build.py:1159-1160. *)
Definition ofp_experimenter_multipart_header (experimenter exp_type : pyval) : res bytes :=
  packs "II" [experimenter; exp_type].

(** build.py:1163-1187. *)
Definition ofp_packet_out (header buffer_id in_port actions_len actions data : pyval) : res bytes :=
  acts <- seqarg obj actions ;;
  d <- match data with VBytes b => Ok b | VNone => Ok [] | _ => Err ValueError end ;;
  let buffer_id := default buffer_id 4294967295 in
  message header (VInt 13) (pack_app "IIH6x" [buffer_id; in_port; VInt (zlen acts)] (acts ++ d)).

(** build.py:1190-1193. *)
Definition ofp_role_request (header role generation_id : pyval) : res bytes :=
  message header (tup [24; 25]) (packs "I4xQ" [role; generation_id]).

(** build.py:1196-1208. *)
Definition ofp_bundle_ctrl_msg (header bundle_id type_ flags properties : pyval) : res bytes :=
  props <- seqarg obj properties ;;
  message header (VInt 33) (pack_app "IHH" [bundle_id; type_; flags] props).

(** build.py:1211-1223. *)
Definition ofp_bundle_add_msg (header bundle_id flags message_ properties : pyval) : res bytes :=
  props <- seqarg obj properties ;;
  message header (VInt 34)
    (p <- packs "I2xH" [bundle_id; flags] ;; m <- obj message_ ;; Ok (p ++ m ++ props)).

(** build.py:1226-1227. *)
Definition ofp_bundle_prop_header (type_ length_ : pyval) : res bytes := packs "HH" [type_; length_].

(** build.py:1229-1235. *)
Definition ofp_bundle_prop_experimenter (type_ length_ experimenter exp_type experimenter_data : pyval) : res bytes :=
  exp_prop (VInt 65535) experimenter exp_type experimenter_data.

(** build.py:1238-1250. *)
Definition ofp_async_config (header properties : pyval) : res bytes :=
  props <- seqarg obj properties ;;
  ofp_ header (VBytes props) (tup [27; 28]).

(** build.py:1252-1253. *)
Definition ofp_async_config_prop_header (type_ length_ : pyval) : res bytes := packs "HH" [type_; length_].

(** build.py:1255-1263: the twelve reasons are 0 to 11. *)
Definition ofp_async_config_prop_reasons (type_ length_ mask : pyval) : res bytes :=
  assert_ (py_inz type_ [0; 1; 2; 3; 4; 5; 6; 7; 8; 9; 10; 11]) ;;;
  packs "HHI" [type_; VInt 8; mask].

(** build.py:1265-1270: the name
    OFPACPT_EXPERIIMENTER_SLAVE is not defined. *)
Definition ofp_async_config_prop_experimenter (type_ length_ experimenter exp_type experimenter_data : pyval) : res bytes :=
  Err NameError.

(** build.py:1273-1276. *)
Definition ofp_packet_in (header buffer_id total_len reason table_id cookie match_ data : pyval) : res bytes :=
  message header (VInt 10)
    (p <- packs "IHBBQ" [buffer_id; total_len; reason; table_id; cookie] ;;
     m <- obj match_ ;;
     d <- as_bytes data ;;
     Ok (p ++ m ++ zeros 2 ++ d)).

(** build.py:1279-1286. *)
Definition ofp_flow_removed (header cookie priority reason table_id duration_sec duration_nsec
    idle_timeout hard_timeout packet_count byte_count match_ : pyval) : res bytes :=
  message header (VInt 11)
    (p <- packs "QHBBIIHHQQ" [cookie; priority; reason; table_id; duration_sec; duration_nsec;
            idle_timeout; hard_timeout; packet_count; byte_count] ;;
     m <- obj match_ ;;
     Ok (p ++ m)).

(** build.py:1289-1292: the name OFP_PORT_STATUS is not defined. *)
Definition ofp_port_status (header reason desc : pyval) : res bytes :=
  packs "B7x" [reason] ;;; obj desc ;;; Err NameError.

(** build.py:1295-1307: the types asked for are those of the role messages
    (24, 25), not ROLE_STATUS (30). *)
Definition ofp_role_status (header role reason generation_id properties : pyval) : res bytes :=
  props <- seqarg obj properties ;;
  message header (tup [24; 25]) (pack_app "IB3xQ" [role; reason; generation_id] props).

(** build.py:1309-1310. *)
Definition ofp_role_prop_header (type_ length_ : pyval) : res bytes := packs "HH" [type_; length_].

(** build.py:1312-1318. *)
Definition ofp_role_prop_experimenter (type_ length_ experimenter exp_type experimenter_data : pyval) : res bytes :=
  exp_prop (VInt 65535) experimenter exp_type (dflt_bytes experimenter_data []).

(** build.py:1321-1324. *)
Definition ofp_table_status (header reason table : pyval) : res bytes :=
  message header (VInt 31) (p <- packs "H7x" [reason] ;; t <- obj table ;; Ok (p ++ t)).

(** build.py:1327-1330. *)
Definition ofp_requestforward_header (header request : pyval) : res bytes :=
  message header (VInt 32) (obj request).

(** build.py:1333-1343. *)
Definition ofp_hello (header elements : pyval) : res bytes :=
  es <- seqarg obj elements ;;
  ofp_ header (VBytes es) (VInt 0).

(** build.py:1345-1346. *)
Definition ofp_hello_elem_header (type_ length_ : pyval) : res bytes := packs "HH" [type_; length_].

(** build.py:1348-1364. *)
Definition ofp_hello_elem_versionbitmap (type_ length_ bitmaps : pyval) : res bytes :=
  let type_ := default type_ 1 in
  assert_ (py_eqz type_ 1) ;;;
  bm <- match bitmaps with
        | VBytes b => Ok b
        | VList l | VTup _ l => bs <- mapM (fun e => packs "I" [e]) l ;; Ok (concat bs)
        | VNone => Ok []
        | _ => Err ValueError
        end ;;
  let n := (4 + length bm)%nat in
  p <- packs "!HH" [type_; VInt (Z.of_nat n)] ;;
  Ok (p ++ bm ++ padding n).

(** build.py:1367-1372. *)
Definition ofp_error_msg (header type_ code data : pyval) : res bytes :=
  message header (VInt 1)
    (p <- packs "HH" [type_; code] ;; d <- as_bytes (dflt_bytes data []) ;; Ok (p ++ d)).

(** build.py:1374-1378. *)
Definition ofp_error_experimenter_msg (header type_ exp_code experimenter data : pyval) : res bytes :=
  message header (VInt 1)
    (p <- packs "HHI" [VInt 65535; exp_code; experimenter] ;; d <- as_bytes data ;; Ok (p ++ d)).

(** build.py:1381-1386. *)
Definition ofp_experimenter_msg (header experimenter exp_type experimenter_data : pyval) : res bytes :=
  message header (VInt 4)
    (p <- packs "II" [experimenter; exp_type] ;; d <- as_bytes (dflt_bytes experimenter_data []) ;; Ok (p ++ d)).

(** The builders by name; [ofp_] and [ofp_multipart_request] have a last
    parameter with default None. *)
Definition builders : list (string * (list pyval -> res bytes)) :=
  [ ("ofp_header"%string, arg4 ofp_header);
    ("ofp_"%string, fun l => match l with [a; b] => ofp_ a b VNone | _ => arg3 ofp_ l end);
    ("ofp_port"%string, arg7 ofp_port);
    ("ofp_port_desc_prop_header"%string, arg2 ofp_port_desc_prop_header);
    ("ofp_port_desc_prop_ethernet"%string, arg8 ofp_port_desc_prop_ethernet);
    ("ofp_port_desc_prop_optical"%string, fun l => match l with [a; b; c; d; e; f; g; h; i; j; k] => ofp_port_desc_prop_optical a b c d e f g h i j k | _ => Err TypeError end);
    ("ofp_port_desc_prop_experimenter"%string, arg5 ofp_port_desc_prop_experimenter);
    ("ofp_match"%string, arg3 ofp_match);
    ("ofp_instruction_header"%string, arg2 ofp_instruction_header);
    ("ofp_instruction_goto_table"%string, arg3 ofp_instruction_goto_table);
    ("ofp_instruction_write_metadata"%string, arg4 ofp_instruction_write_metadata);
    ("ofp_instruction_actions"%string, arg3 ofp_instruction_actions);
    ("ofp_instruction_meter"%string, arg3 ofp_instruction_meter);
    ("ofp_instruction_experimenter_"%string, arg4 ofp_instruction_experimenter_);
    ("ofp_action_header"%string, arg2 ofp_action_header);
    ("ofp_action_output"%string, arg4 ofp_action_output);
    ("ofp_action_group"%string, arg3 ofp_action_group);
    ("ofp_action_set_queue"%string, arg3 ofp_action_set_queue);
    ("ofp_action_mpls_ttl"%string, arg3 ofp_action_mpls_ttl);
    ("ofp_action_generic"%string, arg2 ofp_action_generic);
    ("ofp_action_nw_ttl"%string, arg3 ofp_action_nw_ttl);
    ("ofp_action_push"%string, arg3 ofp_action_push);
    ("ofp_action_pop_mpls"%string, arg3 ofp_action_pop_mpls);
    ("ofp_action_set_field"%string, arg3 ofp_action_set_field);
    ("ofp_action_experimenter_header"%string, arg3 ofp_action_experimenter_header);
    ("ofp_action_experimenter_"%string, arg4 ofp_action_experimenter_);
    ("ofp_switch_features"%string, arg6 ofp_switch_features);
    ("ofp_switch_config"%string, arg3 ofp_switch_config);
    ("ofp_table_mod"%string, arg4 ofp_table_mod);
    ("ofp_table_mod_prop_header"%string, arg2 ofp_table_mod_prop_header);
    ("ofp_table_mod_prop_eviction"%string, arg3 ofp_table_mod_prop_eviction);
    ("ofp_table_mod_prop_vacancy"%string, arg5 ofp_table_mod_prop_vacancy);
    ("ofp_table_mod_prop_experimenter"%string, arg5 ofp_table_mod_prop_experimenter);
    ("ofp_flow_mod"%string, fun l => match l with [a; b; c; d; e; f; g; h; i; j; k; m; n; o; p] => ofp_flow_mod a b c d e f g h i j k m n o p | _ => Err TypeError end);
    ("ofp_group_mod"%string, arg5 ofp_group_mod);
    ("ofp_bucket"%string, arg5 ofp_bucket);
    ("ofp_port_mod"%string, arg6 ofp_port_mod);
    ("ofp_port_mod_prop_header"%string, arg2 ofp_port_mod_prop_header);
    ("ofp_port_mod_prop_ethernet"%string, arg3 ofp_port_mod_prop_ethernet);
    ("ofp_port_mod_prop_optical"%string, arg7 ofp_port_mod_prop_optical);
    ("ofp_port_mod_prop_experimenter"%string, arg5 ofp_port_mod_prop_experimenter);
    ("ofp_meter_mod"%string, arg5 ofp_meter_mod);
    ("ofp_meter_band_header"%string, arg4 ofp_meter_band_header);
    ("ofp_meter_band_drop"%string, arg4 ofp_meter_band_drop);
    ("ofp_meter_band_dscp_remark"%string, arg5 ofp_meter_band_dscp_remark);
    ("ofp_meter_band_experimenter"%string, arg6 ofp_meter_band_experimenter);
    ("ofp_multipart_request"%string, fun l => match l with [a; b; c] => ofp_multipart_request a b c VNone | _ => arg4 ofp_multipart_request l end);
    ("ofp_multipart_reply"%string, arg4 ofp_multipart_reply);
    ("ofp_desc"%string, arg5 ofp_desc);
    ("ofp_flow_stats_request"%string, arg6 ofp_flow_stats_request);
    ("ofp_flow_stats"%string, fun l => match l with [a; b; c; d; e; f; g; h; i; j; k; m; n] => ofp_flow_stats a b c d e f g h i j k m n | _ => Err TypeError end);
    ("ofp_aggregate_stats_request"%string, arg6 ofp_aggregate_stats_request);
    ("ofp_aggregate_stats_reply"%string, arg3 ofp_aggregate_stats_reply);
    ("ofp_table_stats"%string, arg4 ofp_table_stats);
    ("ofp_table_desc"%string, arg4 ofp_table_desc);
    ("ofp_table_features"%string, arg8 ofp_table_features);
    ("ofp_table_feature_prop_header"%string, arg2 ofp_table_feature_prop_header);
    ("ofp_table_feature_prop_instructions"%string, arg3 ofp_table_feature_prop_instructions);
    ("ofp_instruction_id"%string, arg3 ofp_instruction_id);
    ("ofp_table_feature_prop_tables"%string, arg3 ofp_table_feature_prop_tables);
    ("ofp_table_feature_prop_actions"%string, arg3 ofp_table_feature_prop_actions);
    ("ofp_action_id"%string, arg3 ofp_action_id);
    ("ofp_table_feature_prop_oxm"%string, arg3 ofp_table_feature_prop_oxm);
    ("ofp_table_feature_prop_experimenter"%string, arg5 ofp_table_feature_prop_experimenter);
    ("ofp_port_stats_request"%string, arg1 ofp_port_stats_request);
    ("ofp_port_stats"%string, fun l => match l with [a; b; c; d; e; f; g; h; i; j; k; m; n] => ofp_port_stats a b c d e f g h i j k m n | _ => Err TypeError end);
    ("ofp_port_stats_prop_header"%string, arg2 ofp_port_stats_prop_header);
    ("ofp_port_stats_prop_ethernet"%string, arg6 ofp_port_stats_prop_ethernet);
    ("ofp_port_stats_prop_optical"%string, fun l => match l with [a; b; c; d; e; f; g; h; i; j; k; m; n] => ofp_port_stats_prop_optical a b c d e f g h i j k m n | _ => Err TypeError end);
    ("ofp_port_stats_prop_experimenter"%string, arg5 ofp_port_stats_prop_experimenter);
    ("ofp_queue_stats_request"%string, arg2 ofp_queue_stats_request);
    ("ofp_queue_stats"%string, fun l => match l with [a; b; c; d; e; f; g; h; i] => ofp_queue_stats a b c d e f g h i | _ => Err TypeError end);
    ("ofp_queue_stats_prop_header"%string, arg2 ofp_queue_stats_prop_header);
    ("ofp_queue_stats_prop_experimenter"%string, arg5 ofp_queue_stats_prop_experimenter);
    ("ofp_queue_desc_request"%string, arg2 ofp_queue_desc_request);
    ("ofp_queue_desc"%string, arg4 ofp_queue_desc);
    ("ofp_queue_desc_prop_header"%string, arg2 ofp_queue_desc_prop_header);
    ("ofp_queue_desc_prop_min_rate"%string, arg3 ofp_queue_desc_prop_min_rate);
    ("ofp_queue_desc_prop_max_rate"%string, arg3 ofp_queue_desc_prop_max_rate);
    ("ofp_queue_desc_prop_experimenter"%string, arg5 ofp_queue_desc_prop_experimenter);
    ("ofp_group_stats_request"%string, arg1 ofp_group_stats_request);
    ("ofp_group_stats"%string, arg8 ofp_group_stats);
    ("ofp_bucket_counter"%string, arg2 ofp_bucket_counter);
    ("ofp_group_desc"%string, arg4 ofp_group_desc);
    ("ofp_group_features"%string, arg4 ofp_group_features);
    ("ofp_meter_multipart_request"%string, arg1 ofp_meter_multipart_request);
    ("ofp_meter_stats"%string, arg8 ofp_meter_stats);
    ("ofp_meter_band_stats"%string, arg2 ofp_meter_band_stats);
    ("ofp_meter_config"%string, arg4 ofp_meter_config);
    ("ofp_meter_features"%string, arg5 ofp_meter_features);
    ("ofp_flow_monitor_request"%string, arg7 ofp_flow_monitor_request);
    ("ofp_flow_update_full"%string, fun l => match l with [a; b; c; d; e; f; g; h; i; j] => ofp_flow_update_full a b c d e f g h i j | _ => Err TypeError end);
    ("ofp_flow_update_abbrev"%string, arg3 ofp_flow_update_abbrev);
    ("ofp_flow_update_paused"%string, arg2 ofp_flow_update_paused);
    ("ofp_experimenter_multipart_header"%string, arg2 ofp_experimenter_multipart_header);
    ("ofp_packet_out"%string, arg6 ofp_packet_out);
    ("ofp_role_request"%string, arg3 ofp_role_request);
    ("ofp_bundle_ctrl_msg"%string, arg5 ofp_bundle_ctrl_msg);
    ("ofp_bundle_add_msg"%string, arg5 ofp_bundle_add_msg);
    ("ofp_bundle_prop_header"%string, arg2 ofp_bundle_prop_header);
    ("ofp_bundle_prop_experimenter"%string, arg5 ofp_bundle_prop_experimenter);
    ("ofp_async_config"%string, arg2 ofp_async_config);
    ("ofp_async_config_prop_header"%string, arg2 ofp_async_config_prop_header);
    ("ofp_async_config_prop_reasons"%string, arg3 ofp_async_config_prop_reasons);
    ("ofp_async_config_prop_experimenter"%string, arg5 ofp_async_config_prop_experimenter);
    ("ofp_packet_in"%string, arg8 ofp_packet_in);
    ("ofp_flow_removed"%string, fun l => match l with [a; b; c; d; e; f; g; h; i; j; k; m] => ofp_flow_removed a b c d e f g h i j k m | _ => Err TypeError end);
    ("ofp_port_status"%string, arg3 ofp_port_status);
    ("ofp_role_status"%string, arg5 ofp_role_status);
    ("ofp_role_prop_header"%string, arg2 ofp_role_prop_header);
    ("ofp_role_prop_experimenter"%string, arg5 ofp_role_prop_experimenter);
    ("ofp_table_status"%string, arg3 ofp_table_status);
    ("ofp_requestforward_header"%string, arg2 ofp_requestforward_header);
    ("ofp_hello"%string, arg2 ofp_hello);
    ("ofp_hello_elem_header"%string, arg2 ofp_hello_elem_header);
    ("ofp_hello_elem_versionbitmap"%string, arg3 ofp_hello_elem_versionbitmap);
    ("ofp_error_msg"%string, arg4 ofp_error_msg);
    ("ofp_error_experimenter_msg"%string, arg5 ofp_error_experimenter_msg);
    ("ofp_experimenter_msg"%string, arg4 ofp_experimenter_msg) ].

(** build.py:15.  Simplification: as in M_Build4.v, a class name that is not
    one of the builders is a NameError, and the builtin tuple a TypeError. *)
Definition call (name : string) (args : list pyval) : res bytes :=
  match lookup name builders with
  | Some f => f args
  | None => if String.eqb name "tuple"%string then Err TypeError else Err NameError
  end.
End Builders5.

(** build.py:11-17 [_obj]; [d] bounds the nesting of namedtuples. *)
Fixpoint obj (dx : Z) (d : nat) (v : pyval) : res bytes :=
  match v with
  | VBytes b => Ok b
  | VTup c l =>
      match d with
      | O => Err OutOfFuel
      | S d' => call (obj dx d') dx c l
      end
  | _ => Err ValueError
  end.

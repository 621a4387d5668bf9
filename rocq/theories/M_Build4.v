(** Model of twink/ofp4/build.py: the builders of OpenFlow 1.3 structures and
    messages.

    Every builder is a function of dynamic values, with the same parameters in
    the same order as in the code.  [obj] is [_obj] (build.py:16-22), which
    calls the builders in turn; the knot is tied at the end of the file.
    [dx] is the value default_xid() (build.py:14) returns in this call.

    Simplifications: of the values that [+] accepts, a unicode object is
    treated like any other non-[bytes] value (TypeError; the code raises
    UnicodeDecodeError, or ValueError in [_obj], or - ofp_match only - returns
    a unicode object).  Ints stand for int and long. *)

From Verif Require Export Struct.
Local Open Scope Z_scope.
Local Open Scope list_scope.

(** [_pack(...) + x] for an arbitrary [x]. *)
Definition as_bytes (v : pyval) : res bytes :=
  match v with VBytes b => Ok b | _ => Err TypeError end.

(** [oftype in type] for a list or tuple [type]; only ints are compared. *)
Definition py_in (v : pyval) (l : list pyval) : bool :=
  existsb (fun x => match x with VInt z => py_eqz v z | _ => false end) l.

Definition is_int (v : pyval) : bool := match v with VInt _ => true | _ => false end.

(** b"\0"*(_align(n)-n) (build.py:34-35). *)
Definition padding (n : nat) : bytes := zeros (align8 n - n).

Section Builders.
Variable obj : pyval -> res bytes.
Variable dx : Z.

(** b"".join([_obj(x) for x in l]). *)
Definition join (l : list pyval) : res bytes :=
  bs <- mapM obj l ;; Ok (concat bs).

(** The treatment of a list-valued argument, the same in most builders (e.g.
    build.py:118-125): bytes are kept, a list or tuple is built and joined,
    None is b"", anything else is a ValueError. *)
Definition seqarg (v : pyval) : res bytes :=
  match v with
  | VBytes b => Ok b
  | VList l | VTup _ l => join l
  | VNone => Ok []
  | _ => Err ValueError
  end.

(** build.py:38-49. *)
Definition ofp_header (version type_ length_ xid : pyval) : res bytes :=
  let version := default version 4 in
  assert_ (py_eqz version 4) ;;;
  packs "BBHI" [version; type_; default length_ 8; default xid dx].

(** build.py:55-62: the type check for a [bytes] header. *)
Definition check_type (oftype ty : pyval) : res unit :=
  match ty with
  | VInt z => assert_ (py_eqz oftype z)
  | VList l | VTup _ l => assert_ (py_in oftype l)
  | VNone => Ok tt
  | _ => Err ValueError
  end.

(** build.py:65-75: the same for a tuple header; returns the type. *)
Definition fill_type (oftype ty : pyval) : res pyval :=
  match ty with
  | VInt z =>
      match oftype with
      | VNone => Ok (VInt z)
      | _ => assert_ (py_eqz oftype z) ;;; Ok oftype
      end
  | VList l | VTup _ l => assert_ (py_in oftype l) ;;; Ok oftype
  | VNone => assert_ (is_int oftype) ;;; Ok oftype
  | _ => Err ValueError
  end.

(** build.py:53-84: version, type and xid from the header argument. *)
Definition header_fields (header ty : pyval) : res (pyval * pyval * pyval) :=
  match header with
  | VBytes h =>
      vs <- unpacks "BBHI" h 0 ;;
      match vs with
      | [version; oftype; _; xid] => check_type oftype ty ;;; Ok (version, oftype, xid)
      | _ => Err ValueError
      end
  | VTup _ [version; oftype; _; xid] =>
      oftype <- fill_type oftype ty ;; Ok (version, oftype, xid)
  | VTup _ _ => Err ValueError
  | VNone => match ty with VInt z => Ok (VInt 4, VInt z, VInt dx) | _ => Err ValueError end
  | _ => Err ValueError
  end.

(** build.py:52-88 [ofp_]. *)
Definition ofp_ (header data ty : pyval) : res bytes :=
  ' (version, oftype, xid) <- header_fields header ty ;;
  data <- obj data ;;
  h <- ofp_header version oftype (VInt (8 + zlen data)) xid ;;
  Ok (h ++ data).

(** [ofp_(header, <bytes>, type)]: the argument order in which the builders
    below evaluate it (the data first, as an argument expression). *)
Definition message (header ty : pyval) (data : res bytes) : res bytes :=
  data <- data ;; ofp_ header (VBytes data) ty.

(** [assert _len(msg) == n; return msg]. *)
Definition sized (n : nat) (r : res bytes) : res bytes :=
  msg <- r ;; assert_ (length msg =? n)%nat ;;; Ok msg.

(** [_pack(fmt, ...) + data]. *)
Definition pack_app (f : string) (vs : list pyval) (data : bytes) : res bytes :=
  p <- packs f vs ;; Ok (p ++ data).

(** build.py:94-95: [name.encode("UTF-8")] on a str first decodes it as ASCII
    (Python 2); other objects are left alone. *)
Definition encode_name (name : pyval) : res pyval :=
  match name with
  | VBytes b => if forallb (fun c => c <? 128) b then Ok name else Err UnicodeError
  | _ => Ok name
  end.

(** build.py:92-114. *)
Definition ofp_port (port_no hw_addr name config state curr advertised supported peer
    curr_speed max_speed : pyval) : res bytes :=
  name <- encode_name name ;;
  assert_ (match hw_addr with VBytes b => (length b =? 6)%nat | _ => false end) ;;;
  assert_ (match name with VBytes b => (length b <=? 16)%nat | _ => false end) ;;;
  sized 64 (packs "I4x6s2x16s8I" [port_no; hw_addr; name; config; state; curr; advertised;
    supported; peer; curr_speed; max_speed]).

(** build.py:117-134. *)
Definition ofp_packet_queue (queue_id port len properties : pyval) : res bytes :=
  props <- seqarg properties ;;
  desc <- packs "IIH6x" [queue_id; port; VInt (16 + zlen props)] ;;
  assert_ (length desc =? 16)%nat ;;;
  Ok (desc ++ props).

(** build.py:136-143. *)
Definition ofp_queue_prop_header (property len : pyval) : res bytes :=
  sized 8 (packs "HH4x" [property; default len 8]).

(** build.py:145-176; unlike [ofp_] it accepts a list as header and leaves the
    property as given in [type] for None. *)
Definition ofp_queue_prop_ (prop_header data ty : pyval) : res bytes :=
  property <-
    match prop_header with
    | VBytes h =>
        vs <- unpacks "HH" h 0 ;;
        match vs with
        | [property; _] => check_type property ty ;;; Ok property
        | _ => Err ValueError
        end
    | VTup _ [property; _] | VList [property; _] => fill_type property ty
    | VTup _ _ | VList _ => Err ValueError
    | VNone => Ok ty
    | _ => Err ValueError
    end ;;
  data <- obj data ;;
  h <- ofp_queue_prop_header property (VInt (zlen data + 8)) ;;
  Ok (h ++ data).

(** build.py:178-183. *)
Definition ofp_queue_prop_min_rate (prop_header rate : pyval) : res bytes :=
  p <- packs "H6x" [rate] ;; sized 16 (ofp_queue_prop_ prop_header (VBytes p) (VInt 1)).

(** build.py:185-190. *)
Definition ofp_queue_prop_max_rate (prop_header rate : pyval) : res bytes :=
  p <- packs "H6x" [rate] ;; sized 16 (ofp_queue_prop_ prop_header (VBytes p) (VInt 2)).

(** build.py:192-196. *)
Definition ofp_queue_prop_experimenter (prop_header experimenter data : pyval) : res bytes :=
  p <- packs "I4x" [experimenter] ;; d <- as_bytes data ;;
  ofp_queue_prop_ prop_header (VBytes (p ++ d)) (VInt 65535).

(** build.py:199-218; line 212 builds a ValueError without raising it, so that
    [_len] fails next. *)
Definition ofp_match (type_ length_ oxm_fields : pyval) : res bytes :=
  let type_ := default type_ 1 in
  oxm <- match oxm_fields with
         | VBytes b => Ok b
         | VList l | VTup _ l => join l
         | VNone => Ok []
         | _ => Err TypeError
         end ;;
  let n := (4 + length oxm)%nat in
  p <- packs "HH" [type_; VInt (Z.of_nat n)] ;;
  let msg := p ++ oxm ++ padding n in
  assert_ (length msg mod 8 =? 0)%nat ;;;
  Ok msg.

(** build.py:221-222. *)
Definition ofp_instruction (type_ len : pyval) : res bytes := packs "HH" [type_; len].

(** build.py:224-234. *)
Definition ofp_instruction_goto_table (type_ len table_id : pyval) : res bytes :=
  let type_ := default type_ 1 in
  assert_ (py_eqz type_ 1) ;;;
  sized 8 (packs "HHB3x" [type_; VInt 8; table_id]).

(** build.py:236-247. *)
Definition ofp_instruction_write_metadata (type_ len metadata metadata_mask : pyval) : res bytes :=
  let type_ := default type_ 2 in
  assert_ (py_eqz type_ 2) ;;;
  sized 24 (packs "HH4xQQ" [type_; VInt 24; metadata; metadata_mask]).

(** build.py:249-267. *)
Definition ofp_instruction_actions (type_ len actions : pyval) : res bytes :=
  acts <- seqarg actions ;;
  assert_ (py_inz type_ [3; 4; 5]) ;;;
  pack_app "HH4x" [type_; VInt (8 + zlen acts)] acts.

(** build.py:269-278. *)
Definition ofp_instruction_meter (type_ len meter_id : pyval) : res bytes :=
  let type_ := default type_ 6 in
  assert_ (py_eqz type_ 6) ;;;
  packs "HHI" [type_; VInt 8; meter_id].

(** build.py:280-293. *)
Definition ofp_instruction_experimenter (type_ len experimenter data : pyval) : res bytes :=
  let type_ := default type_ 65535 in
  assert_ (py_eqz type_ 65535) ;;;
  d <- obj data ;;
  pack_app "HHI" [type_; VInt (8 + zlen d); experimenter] d.

(** build.py:296-297. *)
Definition ofp_action_header (type_ len : pyval) : res bytes := packs "HH4x" [type_; len].

(** build.py:299-314. *)
Definition ofp_action_output (type_ len port max_len : pyval) : res bytes :=
  let type_ := default type_ 0 in
  assert_ (py_eqz type_ 0) ;;;
  sized 16 (packs "HHIH6x" [type_; VInt 16; port; max_len]).

(** build.py:316-328. *)
Definition ofp_action_group (type_ len group_id : pyval) : res bytes :=
  let type_ := default type_ 22 in
  assert_ (py_eqz type_ 22) ;;;
  sized 8 (packs "HHI" [type_; VInt 8; group_id]).

(** build.py:330-342. *)
Definition ofp_action_set_queue (type_ len queue_id : pyval) : res bytes :=
  let type_ := default type_ 21 in
  assert_ (py_eqz type_ 21) ;;;
  sized 8 (packs "HHI" [type_; VInt 8; queue_id]).

(** build.py:344-356. *)
Definition ofp_action_mpls_ttl (type_ len mpls_ttl : pyval) : res bytes :=
  let type_ := default type_ 15 in
  assert_ (py_eqz type_ 15) ;;;
  sized 8 (packs "HHB3x" [type_; VInt 8; mpls_ttl]).

(** build.py:358-370. *)
Definition ofp_action_nw_ttl (type_ len nw_ttl : pyval) : res bytes :=
  let type_ := default type_ 23 in
  assert_ (py_eqz type_ 23) ;;;
  sized 8 (packs "HHB3x" [type_; VInt 8; nw_ttl]).

(** build.py:372-384. *)
Definition ofp_action_push (type_ len ethertype : pyval) : res bytes :=
  assert_ (py_inz type_ [17; 19; 26]) ;;;
  sized 8 (packs "3H2x" [type_; VInt 8; ethertype]).

(** build.py:386-398. *)
Definition ofp_action_pop_mpls (type_ len ethertype : pyval) : res bytes :=
  let type_ := default type_ 20 in
  assert_ (py_eqz type_ 20) ;;;
  sized 8 (packs "3H2x" [type_; VInt 8; ethertype]).

(** [assert isinstance(x, bytes)]. *)
Definition assert_bytes (v : pyval) : res bytes :=
  match v with VBytes b => Ok b | _ => Err AssertionError end.

(** build.py:400-410. *)
Definition ofp_action_set_field (type_ len field : pyval) : res bytes :=
  let type_ := default type_ 25 in
  assert_ (py_eqz type_ 25) ;;;
  f <- assert_bytes field ;;
  let filled := (4 + length f)%nat in
  p <- packs "HH" [type_; VInt (Z.of_nat (align8 filled))] ;;
  Ok (p ++ f ++ padding filled).

(** build.py:412-422. *)
Definition ofp_action_experimenter_ (type_ len experimenter data : pyval) : res bytes :=
  let type_ := default type_ 65535 in
  assert_ (py_eqz type_ 65535) ;;;
  d <- assert_bytes data ;;
  let filled := (8 + length d)%nat in
  p <- packs "HHI" [type_; VInt (Z.of_nat (align8 filled)); experimenter] ;;
  Ok (p ++ d ++ padding filled).

(** build.py:425-434. *)
Definition ofp_switch_features (header datapath_id n_buffers n_tables auxiliary_id capabilities : pyval) : res bytes :=
  sized 32 (message header (VInt 6)
    (packs "QIBB2xII" [datapath_id; n_buffers; n_tables; auxiliary_id; capabilities; VInt 0])).

Definition tup (l : list Z) : pyval := VTup "tuple"%string (map VInt l).

(** build.py:437-444. *)
Definition ofp_switch_config (header flags miss_send_len : pyval) : res bytes :=
  let miss_send_len := default miss_send_len 65535 in
  sized 12 (message header (tup [9; 8]) (packs "HH" [flags; miss_send_len])).

(** build.py:447-452. *)
Definition ofp_table_mod (header table_id config : pyval) : res bytes :=
  sized 16 (message header (VInt 17) (packs "B3xI" [table_id; config])).

(** build.py:455-486. *)
Definition ofp_flow_mod (header cookie cookie_mask table_id command idle_timeout hard_timeout
    priority buffer_id out_port out_group flags match_ instructions : pyval) : res bytes :=
  insts <- seqarg instructions ;;
  let buffer_id := default buffer_id 4294967295 in
  let out_port := default out_port 4294967295 in
  let out_group := default out_group 4294967295 in
  message header (VInt 14)
    (p <- packs "QQBB3H3IH2x" [cookie; cookie_mask; table_id; command; idle_timeout; hard_timeout;
            priority; buffer_id; out_port; out_group; flags] ;;
     m <- obj match_ ;;
     Ok (p ++ m ++ insts)).

(** build.py:489-506. *)
Definition ofp_group_mod (header command type_ group_id buckets : pyval) : res bytes :=
  bs <- seqarg buckets ;;
  message header (VInt 15) (pack_app "HBxI" [command; type_; group_id] bs).

(** build.py:508-526. *)
Definition ofp_bucket (len weight watch_port watch_group actions : pyval) : res bytes :=
  acts <- seqarg actions ;;
  let filled := (16 + length acts)%nat in
  p <- packs "HHII4x" [VInt (Z.of_nat (align8 filled)); weight; watch_port; watch_group] ;;
  Ok (p ++ acts ++ padding filled).

(** build.py:529-534. *)
Definition ofp_port_mod (header port_no hw_addr config mask advertise : pyval) : res bytes :=
  sized 40 (message header (VInt 16) (packs "I4x6s2xIII4x" [port_no; hw_addr; config; mask; advertise])).

(** build.py:538-551. *)
Definition ofp_meter_mod (header command flags meter_id bands : pyval) : res bytes :=
  bs <- seqarg bands ;;
  message header (VInt 29) (pack_app "HHI" [command; flags; meter_id] bs).

(** build.py:553-556. *)
Definition ofp_meter_band_header (type_ len rate burst_size : pyval) : res bytes :=
  sized 12 (packs "HHII" [type_; len; rate; burst_size]).

(** build.py:558-571. *)
Definition ofp_meter_band_drop (type_ len rate burst_size : pyval) : res bytes :=
  let type_ := default type_ 1 in
  assert_ (py_eqz type_ 1) ;;;
  sized 16 (packs "HHII4x" [type_; VInt 16; rate; burst_size]).

(** build.py:573-587. *)
Definition ofp_meter_band_dscp_remark (type_ len rate burst_size prec_level : pyval) : res bytes :=
  let type_ := default type_ 2 in
  assert_ (py_eqz type_ 2) ;;;
  sized 16 (packs "HHIIB3x" [type_; VInt 16; rate; burst_size; prec_level]).

(** build.py:589-605. *)
Definition ofp_meter_band_experimenter (type_ len rate burst_size experimenter data : pyval) : res bytes :=
  let type_ := default type_ 65535 in
  assert_ (py_eqz type_ 65535) ;;;
  d <- assert_bytes data ;;
  pack_app "HHIII" [type_; VInt (16 + zlen d); rate; burst_size; experimenter] d.

(** build.py:608-629.  Types: 0 DESC, 1 FLOW, 2 AGGREGATE, 3 TABLE,
    4 PORT_STATS, 5 QUEUE, 6 GROUP, 7 GROUP_DESC, 8 GROUP_FEATURES, 9 METER,
    10 METER_CONFIG, 11 METER_FEATURES, 12 TABLE_FEATURES, 13 PORT_DESC,
    65535 EXPERIMENTER. *)
Definition ofp_multipart_request (header type_ flags body : pyval) : res bytes :=
  body <- (if py_inz type_ [0; 3; 7; 8; 11; 13] then Ok (VBytes [])
           else if py_inz type_ [1; 2; 4; 5; 6; 9; 10] then
             match body with VNone => Ok (VBytes []) | _ => b <- obj body ;; Ok (VBytes b) end
           else if py_eqz type_ 12 then
             match body with
             | VList l | VTup _ l => b <- join l ;; Ok (VBytes b)
             | VNone => Ok (VList [])
             | _ => Ok body
             end
           else Ok body) ;;
  message header (VInt 18)
    (p <- packs "HH4x" [type_; flags] ;; b <- as_bytes body ;; Ok (p ++ b)).

(** build.py:631-660. *)
Definition ofp_multipart_reply (header type_ flags body : pyval) : res bytes :=
  b <- (if py_inz type_ [0; 2; 8; 11] then
          match body with
          | VTup _ _ | VBytes _ => obj body
          | VNone => Ok []
          | _ => Err ValueError
          end
        else if py_inz type_ [1; 3; 4; 5; 6; 7; 9; 10; 12; 13] then
          match body with
          | VList l | VTup _ l => join l
          | VNone => Ok []
          | _ => Err ValueError
          end
        else if py_eqz type_ 65535 then
          match body with VBytes b => Ok b | _ => Err ValueError end
        else Err ValueError) ;;
  message header (VInt 19) (pack_app "HH4x" [type_; flags] b).

(** build.py:663-681. *)
Definition ofp_desc (mfr_desc hw_desc sw_desc serial_num dp_desc : pyval) : res bytes :=
  sized 1056 (packs "256s256s256s32s256s"
    [dflt_bytes mfr_desc []; dflt_bytes hw_desc []; dflt_bytes sw_desc [];
     dflt_bytes serial_num []; dflt_bytes dp_desc []]).

(** build.py:684-699. *)
Definition ofp_flow_stats_request (table_id out_port out_group cookie cookie_mask match_ : pyval) : res bytes :=
  m <- match match_ with
       | VNone => b <- ofp_match VNone VNone (VList []) ;; Ok (VBytes b)
       | _ => Ok match_
       end ;;
  desc <- packs "B3xII4xQQ" [default table_id 255; default out_port 4294967295;
            default out_group 4294967295; default cookie 0; default cookie_mask 0] ;;
  assert_ (length desc =? 32)%nat ;;;
  m <- obj m ;;
  Ok (desc ++ m).

(** build.py:701-720. *)
Definition ofp_flow_stats (length_ table_id duration_sec duration_nsec priority idle_timeout
    hard_timeout flags cookie packet_count byte_count match_ instructions : pyval) : res bytes :=
  insts <- seqarg instructions ;;
  m <- obj match_ ;;
  let n := (48 + length m + length insts)%nat in
  sized n (pack_app "HBxII4H4x3Q" [VInt (Z.of_nat n); table_id; duration_sec; duration_nsec; priority;
    idle_timeout; hard_timeout; flags; cookie; packet_count; byte_count] (m ++ insts)).

(** build.py:723-736; the assertion compares 32 with 40. *)
Definition ofp_aggregate_stats_request (table_id out_port out_group cookie cookie_mask match_ : pyval) : res bytes :=
  desc <- packs "B3xII4xQQ" [default table_id 255; default out_port 4294967295;
            default out_group 4294967295; default cookie 0; default cookie_mask 0] ;;
  assert_ (length desc =? 40)%nat ;;;
  m <- obj match_ ;;
  Ok (desc ++ m).

(** build.py:738-739. *)
Definition ofp_aggregate_stats_reply (packet_count byte_count flow_count : pyval) : res bytes :=
  packs "QQI4x" [packet_count; byte_count; flow_count].

(** build.py:742-745. *)
Definition ofp_table_stats (table_id active_count lookup_count matched_count : pyval) : res bytes :=
  sized 24 (packs "B3xIQQ" [table_id; active_count; lookup_count; matched_count]).

(** build.py:748-763. *)
Definition ofp_table_features (length_ table_id name metadata_match metadata_write config
    max_entries properties : pyval) : res bytes :=
  props <- seqarg properties ;;
  let n := (64 + length props)%nat in
  sized n (pack_app "HB5x32sQQII" [VInt (Z.of_nat n); table_id; name; metadata_match; metadata_write;
    config; max_entries] props).

(** build.py:766-767. *)
Definition ofp_table_feature_prop_header (type_ length_ : pyval) : res bytes :=
  packs "HH" [type_; length_].

(** The common part of build.py:781-783, 797-799, 814-816, 831-833. *)
Definition feature_prop (type_ : pyval) (types : list Z) (ids : bytes) : res bytes :=
  assert_ (py_inz type_ types) ;;;
  let n := (4 + length ids)%nat in
  p <- packs "HH" [type_; VInt (Z.of_nat n)] ;;
  Ok (p ++ ids ++ padding n).

(** build.py:769-783. *)
Definition ofp_table_feature_prop_instructions (type_ length_ instruction_ids : pyval) : res bytes :=
  ids <- seqarg instruction_ids ;; feature_prop type_ [0; 1] ids.

(** build.py:785-799. *)
Definition ofp_table_feature_prop_next_tables (type_ length_ next_table_ids : pyval) : res bytes :=
  ids <- seqarg next_table_ids ;; feature_prop type_ [2; 3] ids.

(** build.py:801-816. *)
Definition ofp_table_feature_prop_actions (type_ length_ action_ids : pyval) : res bytes :=
  ids <- seqarg action_ids ;; feature_prop type_ [4; 5; 6; 7] ids.

(** build.py:818-833: [_pack("%dI" % len(l), *l)] for a list. *)
Definition ofp_table_feature_prop_oxm (type_ length_ oxm_ids : pyval) : res bytes :=
  ids <- match oxm_ids with
         | VList l | VTup _ l => pack (repeat (FU 4) (length l)) l
         | VBytes b => Ok b
         | VNone => Ok []
         | _ => Err ValueError
         end ;;
  feature_prop type_ [8; 9; 10; 11; 12; 13] ids.

(** build.py:835-842: the name [isinsntace] is not defined. *)
Definition ofp_table_feature_prop_experimenter (type_ length_ experimenter exp_type data : pyval) : res bytes :=
  Err NameError.

(** build.py:845-848. *)
Definition ofp_port_stats_request (port_no : pyval) : res bytes :=
  packs "I4x" [default port_no 4294967295].

(** build.py:850-855. *)
Definition ofp_port_stats (port_no rx_packets tx_packets rx_bytes tx_bytes rx_dropped tx_dropped
    rx_errors tx_errors rx_frame_err rx_over_err rx_crc_err collisions duration_sec duration_nsec : pyval) : res bytes :=
  packs "I4x12Q2I" [port_no; rx_packets; tx_packets; rx_bytes; tx_bytes; rx_dropped; tx_dropped;
    rx_errors; tx_errors; rx_frame_err; rx_over_err; rx_crc_err; collisions; duration_sec; duration_nsec].

(** build.py:858-863: the name OFPQ_ALL is not defined. *)
Definition ofp_queue_stats_request (port_no queue_id : pyval) : res bytes :=
  match queue_id with
  | VNone => Err NameError
  | _ => packs "II" [default port_no 4294967295; queue_id]
  end.

(** build.py:865-866. *)
Definition ofp_queue_stats (port_no queue_id tx_bytes tx_packets tx_errors duration_sec duration_nsec : pyval) : res bytes :=
  packs "2I3Q2I" [port_no; queue_id; tx_bytes; tx_packets; tx_errors; duration_sec; duration_nsec].

(** build.py:869-872. *)
Definition ofp_group_stats_request (group_id : pyval) : res bytes :=
  packs "I4x" [default group_id 4294967292].

(** build.py:874-888. *)
Definition ofp_group_stats (length_ group_id ref_count packet_count byte_count duration_sec
    duration_nsec bucket_stats : pyval) : res bytes :=
  bs <- seqarg bucket_stats ;;
  pack_app "H2xII4xQQII" [VInt (40 + zlen bs); group_id; ref_count; packet_count; byte_count;
    duration_sec; duration_nsec] bs.

(** build.py:890-891. *)
Definition ofp_bucket_counter (packet_count byte_count : pyval) : res bytes :=
  packs "QQ" [packet_count; byte_count].

(** build.py:894-906. *)
Definition ofp_group_desc (length_ type_ group_id buckets : pyval) : res bytes :=
  bs <- seqarg buckets ;;
  pack_app "HBxI" [VInt (8 + zlen bs); type_; group_id] bs.

(** build.py:910-917 and 919-926. *)
Definition four_words (v : pyval) : res bytes :=
  match v with
  | VList l | VTup _ l => packs "4I" l
  | VBytes b => assert_ (length b =? 16)%nat ;;; Ok b
  | VNone => Ok (zeros 16)
  | _ => Err ValueError
  end.

(** build.py:909-928. *)
Definition ofp_group_features (types capabilities max_groups actions : pyval) : res bytes :=
  g <- four_words max_groups ;;
  a <- four_words actions ;;
  pack_app "II" [types; capabilities] (g ++ a).

(** build.py:931-932. *)
Definition ofp_meter_multipart_request (meter_id : pyval) : res bytes := packs "I4x" [meter_id].

(** build.py:934-946: the length is the caller's. *)
Definition ofp_meter_stats (meter_id len flow_count packet_in_count byte_in_count duration_sec
    duration_nsec band_stats : pyval) : res bytes :=
  bs <- seqarg band_stats ;;
  pack_app "IH6xIQQII" [meter_id; len; flow_count; packet_in_count; byte_in_count;
    duration_sec; duration_nsec] bs.

(** build.py:948-949. *)
Definition ofp_meter_band_stats (packet_band_count byte_band_count : pyval) : res bytes :=
  packs "QQ" [packet_band_count; byte_band_count].

(** build.py:952-964. *)
Definition ofp_meter_config (length_ flags meter_id bands : pyval) : res bytes :=
  bs <- seqarg bands ;;
  pack_app "HHI" [VInt (8 + zlen bs); flags; meter_id] bs.

(** build.py:967-968. *)
Definition ofp_meter_features (max_meter band_types capabilities max_bands max_color : pyval) : res bytes :=
  packs "IIIBB2x" [max_meter; band_types; capabilities; max_bands; max_color].

(** build.py:971-972. *)
Definition ofp_experimenter_multipart_header (experimenter exp_type : pyval) : res bytes :=
  packs "II" [experimenter; exp_type].

(** build.py:977-980. *)
Definition ofp_queue_get_config_request (header port : pyval) : res bytes :=
  message header (VInt 22) (packs "I4x" [port]).

(** build.py:982-994. *)
Definition ofp_queue_get_config_reply (header port queues : pyval) : res bytes :=
  qs <- seqarg queues ;;
  message header (VInt 23) (pack_app "I4x" [port] qs).

(** build.py:997-1021. *)
Definition ofp_packet_out (header buffer_id in_port actions_len actions data : pyval) : res bytes :=
  acts <- seqarg actions ;;
  d <- match data with VBytes b => Ok b | VNone => Ok [] | _ => Err ValueError end ;;
  let buffer_id := default buffer_id 4294967295 in
  message header (VInt 13) (pack_app "IIH6x" [buffer_id; in_port; VInt (zlen acts)] (acts ++ d)).

(** build.py:1024-1027. *)
Definition ofp_role_request (header role generation_id : pyval) : res bytes :=
  message header (tup [24; 25]) (packs "I4xQ" [role; generation_id]).

(** [a + b] of two sequences: both tuples or both lists. *)
Definition add_seq (a b : pyval) : res pyval :=
  match a, b with
  | VTup _ x, VTup _ y => Ok (VTup "tuple"%string (x ++ y))
  | VList x, VList y => Ok (VList (x ++ y))
  | VBytes x, VBytes y => Ok (VBytes (x ++ y))
  | VInt x, VInt y => Ok (VInt (x + y))
  | _, _ => Err TypeError
  end.

(** build.py:1030-1033: [*a + b + c] is [*(a + b + c)]; the characters of a
    str are no ints. *)
Definition ofp_async_config (header packet_in_mask port_status_mask flow_removed_mask : pyval) : res bytes :=
  message header (tup [27; 28])
    (s <- add_seq packet_in_mask port_status_mask ;;
     s <- add_seq s flow_removed_mask ;;
     match s with
     | VTup _ l | VList l => packs "6I" l
     | VBytes _ => Err StructError
     | _ => Err TypeError
     end).

(** build.py:1036-1039. *)
Definition ofp_packet_in (header buffer_id total_len reason table_id cookie match_ data : pyval) : res bytes :=
  message header (VInt 10)
    (p <- packs "IHBBQ" [buffer_id; total_len; reason; table_id; cookie] ;;
     m <- obj match_ ;;
     d <- as_bytes data ;;
     Ok (p ++ m ++ zeros 2 ++ d)).

(** build.py:1042-1049. *)
Definition ofp_flow_removed (header cookie priority reason table_id duration_sec duration_nsec
    idle_timeout hard_timeout packet_count byte_count match_ : pyval) : res bytes :=
  message header (VInt 11)
    (p <- packs "QHBBIIHHQQ" [cookie; priority; reason; table_id; duration_sec; duration_nsec;
            idle_timeout; hard_timeout; packet_count; byte_count] ;;
     m <- obj match_ ;;
     Ok (p ++ m)).

(** build.py:1052-1055. *)
Definition ofp_port_status (header reason desc : pyval) : res bytes :=
  message header (VInt 12)
    (p <- packs "B7x" [reason] ;; d <- obj desc ;; Ok (p ++ d)).

(** build.py:1058-1063. *)
Definition ofp_error_msg (header type_ code data : pyval) : res bytes :=
  message header (VInt 1)
    (p <- packs "HH" [type_; code] ;; d <- as_bytes (dflt_bytes data []) ;; Ok (p ++ d)).

(** build.py:1066-1076. *)
Definition ofp_hello (header elements : pyval) : res bytes :=
  es <- seqarg elements ;;
  ofp_ header (VBytes es) (VInt 0).

(** build.py:1078-1079. *)
Definition ofp_hello_elem_header (type_ length_ : pyval) : res bytes := packs "HH" [type_; length_].

(** build.py:1081-1097. *)
Definition ofp_hello_elem_versionbitmap (type_ length_ bitmaps : pyval) : res bytes :=
  let type_ := default type_ 1 in
  assert_ (py_eqz type_ 1) ;;;
  bm <- match bitmaps with
        | VBytes b => Ok b
        | VList l | VTup _ l => bs <- mapM (fun e => packs "I" [e]) l ;; Ok (concat bs)
        | VNone => Ok []
        | _ => Err ValueError
        end ;;
  let n := (4 + length bm)%nat in
  p <- packs "!HH" [type_; VInt (Z.of_nat n)] ;;
  Ok (p ++ bm ++ padding n).

(** build.py:1100-1103. *)
Definition ofp_experimenter_header (header experimenter exp_type data : pyval) : res bytes :=
  message header (VInt 4)
    (p <- packs "II" [experimenter; exp_type] ;; d <- as_bytes data ;; Ok (p ++ d)).

(** *** Calling a builder by name: [eval(name)] followed by the call with
    [*obj] (build.py:20).  TypeError for a wrong number of arguments. *)
Definition arg1 (f : pyval -> res bytes) (l : list pyval) : res bytes :=
  match l with [a] => f a | _ => Err TypeError end.
Definition arg2 (f : pyval -> pyval -> res bytes) (l : list pyval) : res bytes :=
  match l with [a; b] => f a b | _ => Err TypeError end.
Definition arg3 (f : pyval -> pyval -> pyval -> res bytes) (l : list pyval) : res bytes :=
  match l with [a; b; c] => f a b c | _ => Err TypeError end.
Definition arg4 (f : pyval -> pyval -> pyval -> pyval -> res bytes) (l : list pyval) : res bytes :=
  match l with [a; b; c; d] => f a b c d | _ => Err TypeError end.
Definition arg5 (f : pyval -> pyval -> pyval -> pyval -> pyval -> res bytes) (l : list pyval) : res bytes :=
  match l with [a; b; c; d; e] => f a b c d e | _ => Err TypeError end.
Definition arg6 (f : pyval -> pyval -> pyval -> pyval -> pyval -> pyval -> res bytes) (l : list pyval) : res bytes :=
  match l with [a; b; c; d; e; g] => f a b c d e g | _ => Err TypeError end.
Definition arg7 (f : pyval -> pyval -> pyval -> pyval -> pyval -> pyval -> pyval -> res bytes) (l : list pyval) : res bytes :=
  match l with [a; b; c; d; e; g; h] => f a b c d e g h | _ => Err TypeError end.
Definition arg8 (f : pyval -> pyval -> pyval -> pyval -> pyval -> pyval -> pyval -> pyval -> res bytes) (l : list pyval) : res bytes :=
  match l with [a; b; c; d; e; g; h; i] => f a b c d e g h i | _ => Err TypeError end.

(** The builders by name; [ofp_], [ofp_queue_prop_] and
    [ofp_multipart_request] have a last parameter with default None. *)
Definition builders : list (string * (list pyval -> res bytes)) :=
  [ ("ofp_header"%string, arg4 ofp_header);
    ("ofp_"%string, fun l => match l with [a; b] => ofp_ a b VNone | _ => arg3 ofp_ l end);
    ("ofp_port"%string, fun l => match l with [a; b; c; d; e; f; g; h; i; j; k] => ofp_port a b c d e f g h i j k | _ => Err TypeError end);
    ("ofp_packet_queue"%string, arg4 ofp_packet_queue);
    ("ofp_queue_prop_header"%string, arg2 ofp_queue_prop_header);
    ("ofp_queue_prop_"%string, fun l => match l with [a; b] => ofp_queue_prop_ a b VNone | _ => arg3 ofp_queue_prop_ l end);
    ("ofp_queue_prop_min_rate"%string, arg2 ofp_queue_prop_min_rate);
    ("ofp_queue_prop_max_rate"%string, arg2 ofp_queue_prop_max_rate);
    ("ofp_queue_prop_experimenter"%string, arg3 ofp_queue_prop_experimenter);
    ("ofp_match"%string, arg3 ofp_match);
    ("ofp_instruction"%string, arg2 ofp_instruction);
    ("ofp_instruction_goto_table"%string, arg3 ofp_instruction_goto_table);
    ("ofp_instruction_write_metadata"%string, arg4 ofp_instruction_write_metadata);
    ("ofp_instruction_actions"%string, arg3 ofp_instruction_actions);
    ("ofp_instruction_meter"%string, arg3 ofp_instruction_meter);
    ("ofp_instruction_experimenter"%string, arg4 ofp_instruction_experimenter);
    ("ofp_action_header"%string, arg2 ofp_action_header);
    ("ofp_action_output"%string, arg4 ofp_action_output);
    ("ofp_action_group"%string, arg3 ofp_action_group);
    ("ofp_action_set_queue"%string, arg3 ofp_action_set_queue);
    ("ofp_action_mpls_ttl"%string, arg3 ofp_action_mpls_ttl);
    ("ofp_action_nw_ttl"%string, arg3 ofp_action_nw_ttl);
    ("ofp_action_push"%string, arg3 ofp_action_push);
    ("ofp_action_pop_mpls"%string, arg3 ofp_action_pop_mpls);
    ("ofp_action_set_field"%string, arg3 ofp_action_set_field);
    ("ofp_action_experimenter_"%string, arg4 ofp_action_experimenter_);
    ("ofp_switch_features"%string, arg6 ofp_switch_features);
    ("ofp_switch_config"%string, arg3 ofp_switch_config);
    ("ofp_table_mod"%string, arg3 ofp_table_mod);
    ("ofp_flow_mod"%string, fun l => match l with [a; b; c; d; e; f; g; h; i; j; k; m; n; o] => ofp_flow_mod a b c d e f g h i j k m n o | _ => Err TypeError end);
    ("ofp_group_mod"%string, arg5 ofp_group_mod);
    ("ofp_bucket"%string, arg5 ofp_bucket);
    ("ofp_port_mod"%string, arg6 ofp_port_mod);
    ("ofp_meter_mod"%string, arg5 ofp_meter_mod);
    ("ofp_meter_band_header"%string, arg4 ofp_meter_band_header);
    ("ofp_meter_band_drop"%string, arg4 ofp_meter_band_drop);
    ("ofp_meter_band_dscp_remark"%string, arg5 ofp_meter_band_dscp_remark);
    ("ofp_meter_band_experimenter"%string, arg6 ofp_meter_band_experimenter);
    ("ofp_multipart_request"%string, fun l => match l with [a; b; c] => ofp_multipart_request a b c VNone | _ => arg4 ofp_multipart_request l end);
    ("ofp_multipart_reply"%string, arg4 ofp_multipart_reply);
    ("ofp_desc"%string, arg5 ofp_desc);
    ("ofp_flow_stats_request"%string, arg6 ofp_flow_stats_request);
    ("ofp_flow_stats"%string, fun l => match l with [a; b; c; d; e; f; g; h; i; j; k; m; n] => ofp_flow_stats a b c d e f g h i j k m n | _ => Err TypeError end);
    ("ofp_aggregate_stats_request"%string, arg6 ofp_aggregate_stats_request);
    ("ofp_aggregate_stats_reply"%string, arg3 ofp_aggregate_stats_reply);
    ("ofp_table_stats"%string, arg4 ofp_table_stats);
    ("ofp_table_features"%string, arg8 ofp_table_features);
    ("ofp_table_feature_prop_header"%string, arg2 ofp_table_feature_prop_header);
    ("ofp_table_feature_prop_instructions"%string, arg3 ofp_table_feature_prop_instructions);
    ("ofp_table_feature_prop_next_tables"%string, arg3 ofp_table_feature_prop_next_tables);
    ("ofp_table_feature_prop_actions"%string, arg3 ofp_table_feature_prop_actions);
    ("ofp_table_feature_prop_oxm"%string, arg3 ofp_table_feature_prop_oxm);
    ("ofp_table_feature_prop_experimenter"%string, arg5 ofp_table_feature_prop_experimenter);
    ("ofp_port_stats_request"%string, arg1 ofp_port_stats_request);
    ("ofp_port_stats"%string, fun l => match l with [a; b; c; d; e; f; g; h; i; j; k; m; n; o; p] => ofp_port_stats a b c d e f g h i j k m n o p | _ => Err TypeError end);
    ("ofp_queue_stats_request"%string, arg2 ofp_queue_stats_request);
    ("ofp_queue_stats"%string, arg7 ofp_queue_stats);
    ("ofp_group_stats_request"%string, arg1 ofp_group_stats_request);
    ("ofp_group_stats"%string, arg8 ofp_group_stats);
    ("ofp_bucket_counter"%string, arg2 ofp_bucket_counter);
    ("ofp_group_desc"%string, arg4 ofp_group_desc);
    ("ofp_group_features"%string, arg4 ofp_group_features);
    ("ofp_meter_multipart_request"%string, arg1 ofp_meter_multipart_request);
    ("ofp_meter_stats"%string, arg8 ofp_meter_stats);
    ("ofp_meter_band_stats"%string, arg2 ofp_meter_band_stats);
    ("ofp_meter_config"%string, arg4 ofp_meter_config);
    ("ofp_meter_features"%string, arg5 ofp_meter_features);
    ("ofp_experimenter_multipart_header"%string, arg2 ofp_experimenter_multipart_header);
    ("ofp_queue_get_config_request"%string, arg2 ofp_queue_get_config_request);
    ("ofp_queue_get_config_reply"%string, arg3 ofp_queue_get_config_reply);
    ("ofp_packet_out"%string, arg6 ofp_packet_out);
    ("ofp_role_request"%string, arg3 ofp_role_request);
    ("ofp_async_config"%string, arg4 ofp_async_config);
    ("ofp_packet_in"%string, arg8 ofp_packet_in);
    ("ofp_flow_removed"%string, fun l => match l with [a; b; c; d; e; f; g; h; i; j; k; m] => ofp_flow_removed a b c d e f g h i j k m | _ => Err TypeError end);
    ("ofp_port_status"%string, arg3 ofp_port_status);
    ("ofp_error_msg"%string, arg4 ofp_error_msg);
    ("ofp_hello"%string, arg2 ofp_hello);
    ("ofp_hello_elem_header"%string, arg2 ofp_hello_elem_header);
    ("ofp_hello_elem_versionbitmap"%string, arg3 ofp_hello_elem_versionbitmap);
    ("ofp_experimenter_header"%string, arg4 ofp_experimenter_header) ].

Fixpoint lookup {A} (name : string) (l : list (string * A)) : option A :=
  match l with
  | [] => None
  | (k, a) :: l' => if String.eqb k name then Some a else lookup name l'
  end.

(** build.py:20.  Simplification: a class name that is not one of the builders
    is a NameError, and an instance of the builtin tuple (which evaluates to
    the tuple type) is a TypeError in every use of the result. *)
Definition call (name : string) (args : list pyval) : res bytes :=
  match lookup name builders with
  | Some f => f args
  | None => if String.eqb name "tuple"%string then Err TypeError else Err NameError
  end.
End Builders.

(** build.py:16-22 [_obj]; [d] bounds the nesting of namedtuples. *)
Fixpoint obj (dx : Z) (d : nat) (v : pyval) : res bytes :=
  match v with
  | VBytes b => Ok b
  | VTup c l =>
      match d with
      | O => Err OutOfFuel
      | S d' => call (obj dx d') dx c l
      end
  | _ => Err ValueError
  end.

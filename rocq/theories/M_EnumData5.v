(** The enumerations of twink/ofp5/__init__.py and twink/ofp5/oxm.py, taken over
    literally.  A dictionary is listed in the order of the source text; the
    order in which Python walks it is not specified and is treated in
    S_Enum.v. *)

From Verif Require Import M_Enum.
Local Open Scope Z_scope.
Local Open Scope list_scope.
Local Open Scope string_scope.

(** twink/ofp5/__init__.py:83-86. *)
Definition o5_ofp_flow_mod_command : enum :=
  {| prefix := "OFPFC";
     numbers := Some (Words "ADD MODIFY MODIFY_STRICT DELETE DELETE_STRICT");
     bitshifts := None |}.

(** twink/ofp5/__init__.py:88-91. *)
Definition o5_ofp_group_mod_command : enum :=
  {| prefix := "OFPGC";
     numbers := Some (Words "ADD MODIFY DELETE");
     bitshifts := None |}.

(** twink/ofp5/__init__.py:93-96. *)
Definition o5_ofp_meter_mod_command : enum :=
  {| prefix := "OFPMC";
     numbers := Some (Words "ADD MODIFY DELETE");
     bitshifts := None |}.

(** twink/ofp5/__init__.py:98-111. *)
Definition o5_ofp_type : enum :=
  {| prefix := "OFPT";
     numbers := Some (Dict [("HELLO ERROR ECHO_REQUEST ECHO_REPLY EXPERIMENTER
		FEATURES_REQUEST FEATURES_REPLY GET_CONFIG_REQUEST GET_CONFIG_REPLY SET_CONFIG
		PACKET_IN FLOW_REMOVED PORT_STATUS
		PACKET_OUT FLOW_MOD GROUP_MOD PORT_MOD TABLE_MOD
		MULTIPART_REQUEST MULTIPART_REPLY
		BARRIER_REQUEST BARRIER_REPLY", 0); ("ROLE_REQUEST ROLE_REPLY
		GET_ASYNC_REQUEST GET_ASYNC_REPLY SET_ASYNC
		METER_MOD ROLE_STATUS TABLE_STATUS
		REQUESTFORWARD BUNDLE_CONTROL BUNDLE_ADD_MESSAGE", 24)]);
     bitshifts := None |}.

(** twink/ofp5/__init__.py:113-117. *)
Definition o5_ofp_port_config : enum :=
  {| prefix := "OFPPC";
     numbers := None;
     bitshifts := Some (Words "PORT_DOWN NO_STP NO_RECV NO_RECV_STP NO_FLOOD NO_FWD NO_PACKET_IN") |}.

(** twink/ofp5/__init__.py:119-122. *)
Definition o5_ofp_port_state : enum :=
  {| prefix := "OFPPS";
     numbers := None;
     bitshifts := Some (Words "LINK_DOWN BLOCKED LIVE") |}.

(** twink/ofp5/__init__.py:124-136. *)
Definition o5_ofp_port_no : enum :=
  {| prefix := "OFPP";
     numbers := Some (Dict [("MAX", 4294967040); ("IN_PORT", 4294967288); ("TABLE", 4294967289); ("NORMAL", 4294967290); ("FLOOD", 4294967291); ("ALL", 4294967292); ("CONTROLLER", 4294967293); ("LOCAL", 4294967294); ("ANY", 4294967295)]);
     bitshifts := None |}.

(** twink/ofp5/__init__.py:139-142. *)
Definition o5_ofp_port_desc_prop_type : enum :=
  {| prefix := "OFPPDPT";
     numbers := Some (Dict [("ETHERNET OPTICAL", 0); ("EXPERIMENTER", 65535)]);
     bitshifts := None |}.

(** twink/ofp5/__init__.py:144-149. *)
Definition o5_ofp_port_features : enum :=
  {| prefix := "OFPPF";
     numbers := None;
     bitshifts := Some (Words "10MB_HD 10MB_FD 100MB_HD 100MB_FD 1GB_HD 1GB_FD
		10GB_FD 40GB_FD 100GB_FD 1TB_FD OTHER
		COPPER FIBER AUTONEG PAUSE PAUSE_ANY") |}.

(** twink/ofp5/__init__.py:151-154. *)
Definition o5_ofp_optiocal_port_features : enum :=
  {| prefix := "OFPOPF";
     numbers := None;
     bitshifts := Some (Words "RX_TUNE TX_TUNE TX_PWR USE_FREQ") |}.

(** twink/ofp5/__init__.py:156-159. *)
Definition o5_ofp_match_type : enum :=
  {| prefix := "OFPMT";
     numbers := Some (Words "STANDARD OXM");
     bitshifts := None |}.

(** twink/ofp5/__init__.py:161-168. *)
Definition o5_ofp_oxm_class : enum :=
  {| prefix := "OFPXMC";
     numbers := Some (Dict [("NXM_0", 0); ("NXM_1", 1); ("OPENFLOW_BASIC", 32768); ("EXPERIMENTER", 65535)]);
     bitshifts := None |}.

(** twink/ofp5/__init__.py:170-184. *)
Definition o5_ofp_match_fields : enum :=
  {| prefix := "OFPXMT_OFB";
     numbers := Some (Dict [("IN_PORT IN_PHY_PORT METADATA
		ETH_DST ETH_SRC ETH_TYPE VLAN_VID VLAN_PCP
		IP_DSCP IP_ECN IP_PROTO IPV4_SRC IPV4_DST
		TCP_SRC TCP_DST UDP_SRC UDP_DST SCTP_SRC SCTP_DST
		ICMPV4_TYPE ICMPV4_CODE
		ARP_OP ARP_SPA ARP_TPA ARP_SHA ARP_THA
		IPV6_SRC IPV6_DST IPV6_FLABEL
		ICMPV6_TYPE ICMPV6_CODE
		IPV6_ND_TARGET IPV6_ND_SLL IPV6_ND_TLL
		MPLS_LABEL MPLS_TC MPLS_BOS
		PBB_ISID TUNNEL_ID IPV6_EXTHDR", 0); ("PBB_UCA", 41)]);
     bitshifts := None |}.

(** twink/ofp5/__init__.py:186-191. *)
Definition o5_ofp_vlan_id : enum :=
  {| prefix := "OFPVID";
     numbers := Some (Dict [("PRESENT", 4096); ("NONE", 0)]);
     bitshifts := None |}.

(** twink/ofp5/__init__.py:193-196. *)
Definition o5_ofp_ipv6exthdr_flags : enum :=
  {| prefix := "OFPIEH";
     numbers := None;
     bitshifts := Some (Words "NONEXT ESP AUTH DEST FRAG ROUTER HOP UNREP UNSEQ") |}.

(** twink/ofp5/__init__.py:198-208. *)
Definition o5_ofp_instruction_type : enum :=
  {| prefix := "OFPIT";
     numbers := Some (Dict [("GOTO_TABLE
		WRITE_METADATA
		WRITE_ACTIONS
		APPLY_ACTIONS
		CLEAR_ACTIONS
		METER", 1); ("EXPERIMENTER", 65535)]);
     bitshifts := None |}.

(** twink/ofp5/__init__.py:211-220. *)
Definition o5_ofp_action_type : enum :=
  {| prefix := "OFPAT";
     numbers := Some (Dict [("OUTPUT", 0); ("COPY_TTL_OUT COPY_TTL_IN", 11); ("SET_MPLS_TTL DEC_MPLS_TTL PUSH_VLAN POP_VLAN
			PUSH_MPLS POP_MPLS SET_QUEUE GROUP
			SET_NW_TTL DEC_NW_TTL SET_FIELD PUSH_PBB POP_PBB", 15); ("EXPERIMENTER", 65535)]);
     bitshifts := None |}.

(** twink/ofp5/__init__.py:231-236. *)
Definition o5_ofp_controller_max_len : enum :=
  {| prefix := "OFPCML";
     numbers := Some (Dict [("MAX", 65509); ("NO_BUFFER", 65535)]);
     bitshifts := None |}.

(** twink/ofp5/__init__.py:238-248. *)
Definition o5_ofp_capabilities : enum :=
  {| prefix := "OFPC";
     numbers := None;
     bitshifts := Some (Dict [("FLOW_STATS
		TABLE_STATS
		PORT_STATS
		GROUP_STATS", 0); ("IP_REASM
		QUEUE_STATS", 5); ("PORT_BLOCKED", 8)]) |}.

(** twink/ofp5/__init__.py:250-253. *)
Definition o5_ofp_config_flags : enum :=
  {| prefix := "OFPC_FRAG";
     numbers := Some (Words "NORMAL DROP REASM MASK");
     bitshifts := None |}.

(** twink/ofp5/__init__.py:255-260. *)
Definition o5_ofp_table : enum :=
  {| prefix := "OFPTT";
     numbers := Some (Dict [("MAX", 254); ("ALL", 255)]);
     bitshifts := None |}.

(** twink/ofp5/__init__.py:262-268. *)
Definition o5_ofp_table_config : enum :=
  {| prefix := "OFPTC";
     numbers := Some (Dict [("DEPRECATED_MASK", 3); ("EVICTION", 4); ("VACANCY_EVENTS", 8)]);
     bitshifts := None |}.

(** twink/ofp5/__init__.py:270-275. *)
Definition o5_ofp_table_mod_prop_type : enum :=
  {| prefix := "OFPTMPT";
     numbers := Some (Dict [("EVICTION VACANCY", 2); ("EXPERIMENTER", 65535)]);
     bitshifts := None |}.

(** twink/ofp5/__init__.py:277-280. *)
Definition o5_ofp_table_mod_prop_eviction_flag : enum :=
  {| prefix := "OFPTMPEF";
     numbers := None;
     bitshifts := Some (Words "OTHER IMPORTANCE LIFETIME") |}.

(** twink/ofp5/__init__.py:282-285. *)
Definition o5_ofp_flow_mod_flags : enum :=
  {| prefix := "OFPFF";
     numbers := None;
     bitshifts := Some (Words "SEND_FLOW_REM CHECK_OVERLAP RESET_COUNTS NO_PKT_COUNTS BYT_COUNTS") |}.

(** twink/ofp5/__init__.py:287-290. *)
Definition o5_ofp_group_mod_command_again : enum :=
  {| prefix := "OFPGC";
     numbers := Some (Words "ADD MODIFY DELETE");
     bitshifts := None |}.

(** twink/ofp5/__init__.py:292-295. *)
Definition o5_ofp_group_type : enum :=
  {| prefix := "OFPGT";
     numbers := Some (Words "ALL SELECT INDIRECT FF");
     bitshifts := None |}.

(** twink/ofp5/__init__.py:297-303. *)
Definition o5_ofp_group : enum :=
  {| prefix := "OFPG";
     numbers := Some (Dict [("MAX", 4294967040); ("ALL", 4294967292); ("ANY", 4294967295)]);
     bitshifts := None |}.

(** twink/ofp5/__init__.py:306-309. *)
Definition o5_ofp_port_mod_prop_type : enum :=
  {| prefix := "OFPPMPT";
     numbers := Some (Dict [("ETHERNET OPTICAL", 0); ("EXPERIMENTER", 65535)]);
     bitshifts := None |}.

(** twink/ofp5/__init__.py:312-319. *)
Definition o5_ofp_meter : enum :=
  {| prefix := "OFPM";
     numbers := Some (Dict [("MAX", 4294901760); ("SLOWPATH", 4294967293); ("CONTROLLER", 4294967294); ("ALL", 4294967295)]);
     bitshifts := None |}.

(** twink/ofp5/__init__.py:321-324. *)
Definition o5_ofp_meter_mod_command_again : enum :=
  {| prefix := "OFPMC";
     numbers := Some (Words "ADD MODIFY DELETE");
     bitshifts := None |}.

(** twink/ofp5/__init__.py:326-329. *)
Definition o5_ofp_meter_flags : enum :=
  {| prefix := "OFPMF";
     numbers := None;
     bitshifts := Some (Words "KBPS PKTPS BURST STATS") |}.

(** twink/ofp5/__init__.py:331-337. *)
Definition o5_ofp_meter_band_type : enum :=
  {| prefix := "OFPMBT";
     numbers := Some (Dict [("DROP", 1); ("DSCP_REMARK", 2); ("EXPERIMENTER", 65535)]);
     bitshifts := None |}.

(** twink/ofp5/__init__.py:339-342. *)
Definition o5_ofp_multipart_request_flags : enum :=
  {| prefix := "OFPMPF";
     numbers := Some (Dict [("REQ_MORE", 1)]);
     bitshifts := None |}.

(** twink/ofp5/__init__.py:344-347. *)
Definition o5_ofp_multipart_reply_flags : enum :=
  {| prefix := "OFPMPF";
     numbers := Some (Dict [("REPLY_MORE", 1)]);
     bitshifts := None |}.

(** twink/ofp5/__init__.py:349-358. *)
Definition o5_ofp_multipart_type : enum :=
  {| prefix := "OFPMP";
     numbers := Some (Dict [("DESC FLOW AGGREGATE TABLE PORT_STATS QUEUE_STATS
		GROUP GROUP_DESC GROUP_FEATURES
		METER METER_CONFIG METER_FEATURES
		TABLE_FEATURES PORT_DESC
		TABLE_DESC QUEUE_DESC FLOW_MONITOR", 0); ("EXPERIMENTER", 65535)]);
     bitshifts := None |}.

(** twink/ofp5/__init__.py:360-373. *)
Definition o5_ofp_table_feature_prop_type : enum :=
  {| prefix := "OFPTFPT";
     numbers := Some (Dict [("INSTRUCTIONS INSTRUCTIONS_MISS
		NEXT_TABLES NEXT_TABLES_MISS
		WRITE_ACTIONS WRITE_ACTIONS_MISS
		APPLY_ACTIONS APPLY_ACTIONS_MISS
		MATCH
		WILDCARDS
		WRITE_SETFIELD WRITE_SETFIELD_MISS
		APPLY_SETFIELD APPLY_SETFIELD_MISS
		TABLE_SYNC_FROM", 0); ("EXPERIMENTER EXPERIMENTER_MISS", 65534)]);
     bitshifts := None |}.

(** twink/ofp5/__init__.py:376-379. *)
Definition o5_ofp_port_stats_prop_type : enum :=
  {| prefix := "OFPPSPT";
     numbers := Some (Dict [("ETHERNET OPTICAL", 0); ("EXPERIMENTER", 65535)]);
     bitshifts := None |}.

(** twink/ofp5/__init__.py:381-384. *)
Definition o5_ofp_port_stats_optical_flags : enum :=
  {| prefix := "OFPOSF";
     numbers := None;
     bitshifts := Some (Words "RX_TUNE TX_TUNE TX_PWR RX_PWR TX_BIAS TX_TEMP") |}.

(** twink/ofp5/__init__.py:387-390. *)
Definition o5_ofp_queue_stats_prop_type : enum :=
  {| prefix := "OFPQSPT";
     numbers := Some (Dict [("EXPERIMENTER", 65535)]);
     bitshifts := None |}.

(** twink/ofp5/__init__.py:393-396. *)
Definition o5_ofp_queue_desc_prop_type : enum :=
  {| prefix := "OFPQDPT";
     numbers := Some (Dict [("MIN_RATE MAX_RATE", 1); ("EXPERIMENTER", 65535)]);
     bitshifts := None |}.

(** twink/ofp5/__init__.py:399-402. *)
Definition o5_ofp_group_capabilities : enum :=
  {| prefix := "OFPGFC";
     numbers := None;
     bitshifts := Some (Words "SELECT_WEIGHT SELECT_LIVENESS CHAINING CHAINING_CHECKS") |}.

(** twink/ofp5/__init__.py:405-408. *)
Definition o5_ofp_flow_monitor_command : enum :=
  {| prefix := "OFPFMC";
     numbers := Some (Words "ADD MODIFY DELETE");
     bitshifts := None |}.

(** twink/ofp5/__init__.py:410-413. *)
Definition o5_ofp_flow_monitor_flags : enum :=
  {| prefix := "OFPFMF";
     numbers := None;
     bitshifts := Some (Words "INITIAL ADD REMOVED MODIFY INSTRUCTIONS NO_ABBREV ONLY_OWN") |}.

(** twink/ofp5/__init__.py:416-419. *)
Definition o5_ofp_flow_update_event : enum :=
  {| prefix := "OFPFME";
     numbers := Some (Words "INITIAL ADDED REMOVED MODIFIED ABBREV PAUSED RESUMED");
     bitshifts := None |}.

(** twink/ofp5/__init__.py:421-424. *)
Definition o5_ofp_controller_role : enum :=
  {| prefix := "OFPCR_ROLE";
     numbers := Some (Words "NOCHANGE EQUAL MASTER SLAVE");
     bitshifts := None |}.

(** twink/ofp5/__init__.py:427-430. *)
Definition o5_ofp_bundle_ctrl_type : enum :=
  {| prefix := "OFPBCT";
     numbers := Some (Words "OPEN_REQUEST OPEN_REPLY CLOSE_REQUEST CLOSE_REPLY DISCARD_REQUEST DISCARD_REPLY");
     bitshifts := None |}.

(** twink/ofp5/__init__.py:433-436. *)
Definition o5_ofp_bundle_flags : enum :=
  {| prefix := "OFPBF";
     numbers := Some (Dict [("ATOMIC", 1); ("ORDERED", 2)]);
     bitshifts := None |}.

(** twink/ofp5/__init__.py:439-442. *)
Definition o5_ofp_bundle_prop_type : enum :=
  {| prefix := "OFPBPT";
     numbers := Some (Dict [("EXPERIMENTER", 65535)]);
     bitshifts := None |}.

(** twink/ofp5/__init__.py:444-453. *)
Definition o5_ofp_async_config_prop_type : enum :=
  {| prefix := "OFPACPT";
     numbers := Some (Words "PACKET_IN_SLAVE PACKET_IN_MASTER
		PORT_STATUS_SLAVE PORT_STATUS_MASTER
		FLOW_REMOVED_SLAVE FLOW_REMOVED_MASTER
		ROLE_STATUS_SLAVE ROLE_STATUS_MASTER
		TABLE_STATUS_SLAVE TABLE_STATUS_MASTER
		REQUESTFORWARD_SLAVE REQUESTFORWARD_MASTER
		EXPERIMENTER_SLAVE EXPERIMENTER_MASTER");
     bitshifts := None |}.

(** twink/ofp5/__init__.py:455-458. *)
Definition o5_ofp_packet_in_reason : enum :=
  {| prefix := "OFPR";
     numbers := Some (Words "NO_TABLE_MISS APPLY_ACTION INVALID_TTL ACTION_SET GROUP PACKET_OUT");
     bitshifts := None |}.

(** twink/ofp5/__init__.py:460-463. *)
Definition o5_ofp_flow_removed_reason : enum :=
  {| prefix := "OFPRR";
     numbers := Some (Words "IDLE_TIMEOUT HARD_TIMEOUT DELETE GROUP_DELETE METER_DELETE EVICTION");
     bitshifts := None |}.

(** twink/ofp5/__init__.py:465-468. *)
Definition o5_ofp_port_reason : enum :=
  {| prefix := "OFPPR";
     numbers := Some (Words "ADD DELETE MODIFY");
     bitshifts := None |}.

(** twink/ofp5/__init__.py:471-474. *)
Definition o5_ofp_controller_role_reason : enum :=
  {| prefix := "OFPCRR";
     numbers := Some (Words "MASTER_REQUEST CONFIG EXPERIMENTER");
     bitshifts := None |}.

(** twink/ofp5/__init__.py:476-479. *)
Definition o5_ofp_role_prop_type : enum :=
  {| prefix := "OFPRPT";
     numbers := Some (Dict [("EXPERIMENTER", 65535)]);
     bitshifts := None |}.

(** twink/ofp5/__init__.py:482-487. *)
Definition o5_ofp_table_reason : enum :=
  {| prefix := "OFPTR";
     numbers := Some (Dict [("VACANCY_DOWN", 3); ("VACANCY_UP", 4)]);
     bitshifts := None |}.

(** twink/ofp5/__init__.py:490-493. *)
Definition o5_ofp_requestforward_reason : enum :=
  {| prefix := "OFPRFR";
     numbers := Some (Words "GROUP_MOD METER_MOD");
     bitshifts := None |}.

(** twink/ofp5/__init__.py:495-504. *)
Definition o5_ofp_error_type : enum :=
  {| prefix := "OFPET";
     numbers := Some (Dict [("HELLO_FAILED BAD_REQUEST BAD_ACTION BAD_INSTRUCTION BAD_MATCH
		FLOW_MOD_FAILED GROUP_MOD_FAILED PORT_MOD_FAILED
		TABLE_MOD_FAILED SWITCH_CONFIG_FAILWD ROLE_REQUEST_FAILED 
		METER_MOD_FAILED TABLE_FEATURES_FAILED
		ASYNC_CONFIG_FAILED FLOW_MONITOR_FAILED BUNDLE_FAILED", 0); ("EXPERIMENTER", 65535)]);
     bitshifts := None |}.

(** twink/ofp5/__init__.py:506-509. *)
Definition o5_ofp_hello_failed_code : enum :=
  {| prefix := "OFPHFC";
     numbers := Some (Words "INCOMPATIBLE EPERM");
     bitshifts := None |}.

(** twink/ofp5/__init__.py:511-517. *)
Definition o5_ofp_bad_request_code : enum :=
  {| prefix := "OFPBRC";
     numbers := Some (Words "BAD_VERSION BAD_TYPE BAD_MULTIPART BAD_EXPERIMENTER
		BAD_EXP_TYPE EPERM BAD_LEN BUFFER_EMPTY BUFFER_UNKNOWN BAD_TABLE_ID
		IS_SLAVE BAD_PORT BAD_PACKET MULTIPART_BUFFER_OVERFLOW
		MULTIPART_REQUEST_TIMEOUT MULTIPART_REPLY_TIMEOUT");
     bitshifts := None |}.

(** twink/ofp5/__init__.py:519-525. *)
Definition o5_ofp_bad_action_code : enum :=
  {| prefix := "OFPBAC";
     numbers := Some (Words "BAD_TYPE BAD_LEN BAD_EXPERIMENTER BAD_EXP_TYPE BAD_OUT_PORT
		BAD_ARGUMENT EPERM TOO_MANY BAD_QUEUE BAD_OUT_GROUP
		MATCH_INCONSISTENT UNSUPPORTED_ORDER BAD_TAG
		BAD_SET_TYPE BAD_SET_LEN BAD_SET_ARGUMENT");
     bitshifts := None |}.

(** twink/ofp5/__init__.py:527-532. *)
Definition o5_ofp_bad_instruction_code : enum :=
  {| prefix := "OFPBIC";
     numbers := Some (Words "UNKNOWN_INST UNSUP_INST BAD_TABLE_ID
		UNSUP_METADATA UNSUP_METADATA_MASK
		BAD_EXPERIMENTER BAD_EXP_TYPE BAD_LEN EPERM DUP_INST");
     bitshifts := None |}.

(** twink/ofp5/__init__.py:534-540. *)
Definition o5_ofp_bad_match_code : enum :=
  {| prefix := "OFPBMC";
     numbers := Some (Words "BAD_TYPE BAD_LEN BAD_TAG
		BAD_DL_ADDR_MASK BAD_NW_ADDR_MASK BAD_WILDCARDS
		BAD_FIELD BAD_VALUE BAD_MASK BAD_PREREQ
		DUP_FIELD EPERM");
     bitshifts := None |}.

(** twink/ofp5/__init__.py:542-547. *)
Definition o5_ofp_flow_mod_failed_code : enum :=
  {| prefix := "OFPFMFC";
     numbers := Some (Words "UNKNOWN TABLE_FULL BAD_TABLE_ID OVERLAP EPERM
		BAD_TIMEOUT BAD_COMMAND BAD_FLAGS
		CANT_SYNC BAD_PRIORITY");
     bitshifts := None |}.

(** twink/ofp5/__init__.py:549-555. *)
Definition o5_ofp_group_mod_failed_code : enum :=
  {| prefix := "OFPGMFC";
     numbers := Some (Words "GROUP_EXISTS INVALID_GROUP WEIGHT_UNSUPPORTED
		OUT_OF_GROUPS OUT_OF_BUCKETS CHAINING_UNSUPPORTED
		WATCH_UNSUPPORTED LOOP UNKNOWN_GROUP CHAINED_GROUP
		BAD_TYPE BAD_COMMAND BAD_BUCKET BAD_WATCH EPERM");
     bitshifts := None |}.

(** twink/ofp5/__init__.py:557-560. *)
Definition o5_ofp_table_mod_failed_code : enum :=
  {| prefix := "OFPTMFC";
     numbers := Some (Words "BAD_TABLE BAD_CONFIG EPERM");
     bitshifts := None |}.

(** twink/ofp5/__init__.py:562-565. *)
Definition o5_ofp_queue_op_failed_code : enum :=
  {| prefix := "OFPQOFC";
     numbers := Some (Words "BAD_PORT BAD_QUEUE EPERM");
     bitshifts := None |}.

(** twink/ofp5/__init__.py:567-570. *)
Definition o5_ofp_switch_config_failed_code : enum :=
  {| prefix := "OFPSCFC";
     numbers := Some (Words "BAD_FLAGS BAD_LEN EPERM");
     bitshifts := None |}.

(** twink/ofp5/__init__.py:572-575. *)
Definition o5_ofp_role_request_failed_code : enum :=
  {| prefix := "OFPRRFC";
     numbers := Some (Words "STALE UNSUP BAD_ROLE");
     bitshifts := None |}.

(** twink/ofp5/__init__.py:577-582. *)
Definition o5_ofp_meter_mod_failed_code : enum :=
  {| prefix := "OFPMMFC";
     numbers := Some (Words "UNKNOWN METER_EXISTS INVALID_METER UNKNOWN_METER
		BAD_COMMAND BAD_FLAGS BAD_RATE BAD_BURST BAD_BAND BAD_BAND_VALUE
		OUT_OF_METERS OUT_OF_BANDS");
     bitshifts := None |}.

(** twink/ofp5/__init__.py:584-587. *)
Definition o5_ofp_table_features_failed_code : enum :=
  {| prefix := "OFPTFFC";
     numbers := Some (Dict [("BAD_TABLE BAD_METADATA", 0); ("EPERM", 5)]);
     bitshifts := None |}.

(** twink/ofp5/__init__.py:589-592. *)
Definition o5_ofp_bad_property_code : enum :=
  {| prefix := "OFPBPC";
     numbers := Some (Words "BAD_TYPE BAD_LEN BAD_VALUE TOO_MANY DUP_TYPE BAD_EXPERIMENTER BAD_EXP_TYPE BAD_EXP_VALUE EPERM");
     bitshifts := None |}.

(** twink/ofp5/__init__.py:594-597. *)
Definition o5_ofp_async_config_failed_code : enum :=
  {| prefix := "OFPACFC";
     numbers := Some (Words "INVALID UNSUPPORTED EPERM");
     bitshifts := None |}.

(** twink/ofp5/__init__.py:599-602. *)
Definition o5_ofp_flow_monitor_failed_code : enum :=
  {| prefix := "OFPMOFC";
     numbers := Some (Words "UNKNOWN MONITOR_EXISTS INVALID_MONITOR UNKNOWN_MONITOR BAD_COMMAND BAD_FLAGS BAD_TABLE_ID BAD_OUT");
     bitshifts := None |}.

(** twink/ofp5/__init__.py:604-608. *)
Definition o5_ofp_bundle_failed_code : enum :=
  {| prefix := "OFPBFC";
     numbers := Some (Words "UNKNOWN EPERM BAD_ID BUNDLE_EXIST BUNDLE_CLOSED OUT_OF_BUNDLES BAD_TYPE BAD_FLAGS
		MSG_BAD_LEN MSG_BAD_XID MSG_UNSUP MSG_CONFLICT MSG_TOO_MANY MSG_FAILED TIMEOUT BUNDLE_IN_PROGRESS");
     bitshifts := None |}.

(** twink/ofp5/__init__.py:611-614. *)
Definition o5_ofp_hello_enum_type : enum :=
  {| prefix := "OFPHET";
     numbers := Some (Dict [("VERSIONBITMAP", 1)]);
     bitshifts := None |}.

(** twink/ofp5/__init__.py:616-635. *)
Definition o5_ofp_flow_wildcards : enum :=
  {| prefix := "OFPFW";
     numbers := Some (Dict [("IN_PORT", 1); ("DL_VLAN", 2); ("DL_SRC", 4); ("DL_DST", 8); ("DL_TYPE", 16); ("NW_PROTO", 32); ("TP_SRC", 64); ("TP_DST", 128); ("NW_SRC_SHIFT", 8); ("NW_SRC_BITS", 6); ("NW_SRC_MASK", 16128); ("NW_DST_SHIFT", 14); ("NW_DST_BITS", 6); ("NW_DST_MASK", 1032192); ("NW_DST_ALL", 524288); ("ALL", 1048575)]);
     bitshifts := None |}.

(** twink/ofp5/__init__.py:637-640. *)
Definition o5_ofp_flow_expired_readon : enum :=
  {| prefix := "OFPER";
     numbers := Some (Words "IDLE_TIMEOUT HARD_TIMEOUT");
     bitshifts := None |}.

(** twink/ofp5/__init__.py: the enumerations in the order of the file. *)
Definition o5_enums : list enum :=
  [o5_ofp_flow_mod_command;
   o5_ofp_group_mod_command;
   o5_ofp_meter_mod_command;
   o5_ofp_type;
   o5_ofp_port_config;
   o5_ofp_port_state;
   o5_ofp_port_no;
   o5_ofp_port_desc_prop_type;
   o5_ofp_port_features;
   o5_ofp_optiocal_port_features;
   o5_ofp_match_type;
   o5_ofp_oxm_class;
   o5_ofp_match_fields;
   o5_ofp_vlan_id;
   o5_ofp_ipv6exthdr_flags;
   o5_ofp_instruction_type;
   o5_ofp_action_type;
   o5_ofp_controller_max_len;
   o5_ofp_capabilities;
   o5_ofp_config_flags;
   o5_ofp_table;
   o5_ofp_table_config;
   o5_ofp_table_mod_prop_type;
   o5_ofp_table_mod_prop_eviction_flag;
   o5_ofp_flow_mod_flags;
   o5_ofp_group_mod_command_again;
   o5_ofp_group_type;
   o5_ofp_group;
   o5_ofp_port_mod_prop_type;
   o5_ofp_meter;
   o5_ofp_meter_mod_command_again;
   o5_ofp_meter_flags;
   o5_ofp_meter_band_type;
   o5_ofp_multipart_request_flags;
   o5_ofp_multipart_reply_flags;
   o5_ofp_multipart_type;
   o5_ofp_table_feature_prop_type;
   o5_ofp_port_stats_prop_type;
   o5_ofp_port_stats_optical_flags;
   o5_ofp_queue_stats_prop_type;
   o5_ofp_queue_desc_prop_type;
   o5_ofp_group_capabilities;
   o5_ofp_flow_monitor_command;
   o5_ofp_flow_monitor_flags;
   o5_ofp_flow_update_event;
   o5_ofp_controller_role;
   o5_ofp_bundle_ctrl_type;
   o5_ofp_bundle_flags;
   o5_ofp_bundle_prop_type;
   o5_ofp_async_config_prop_type;
   o5_ofp_packet_in_reason;
   o5_ofp_flow_removed_reason;
   o5_ofp_port_reason;
   o5_ofp_controller_role_reason;
   o5_ofp_role_prop_type;
   o5_ofp_table_reason;
   o5_ofp_requestforward_reason;
   o5_ofp_error_type;
   o5_ofp_hello_failed_code;
   o5_ofp_bad_request_code;
   o5_ofp_bad_action_code;
   o5_ofp_bad_instruction_code;
   o5_ofp_bad_match_code;
   o5_ofp_flow_mod_failed_code;
   o5_ofp_group_mod_failed_code;
   o5_ofp_table_mod_failed_code;
   o5_ofp_queue_op_failed_code;
   o5_ofp_switch_config_failed_code;
   o5_ofp_role_request_failed_code;
   o5_ofp_meter_mod_failed_code;
   o5_ofp_table_features_failed_code;
   o5_ofp_bad_property_code;
   o5_ofp_async_config_failed_code;
   o5_ofp_flow_monitor_failed_code;
   o5_ofp_bundle_failed_code;
   o5_ofp_hello_enum_type;
   o5_ofp_flow_wildcards;
   o5_ofp_flow_expired_readon].

(** twink/ofp5/oxm.py:6-13. *)
Definition x5_ofp_oxm_class : enum :=
  {| prefix := "OFPXMC";
     numbers := Some (Dict [("NXM_0", 0); ("NXM_1", 1); ("OPENFLOW_BASIC", 32768); ("EXPERIMENTER", 65535)]);
     bitshifts := None |}.

(** twink/ofp5/oxm.py:15-28. *)
Definition x5_oxm_ofb_match_fields : enum :=
  {| prefix := "OXM_OF";
     numbers := Some (Words "IN_PORT IN_PHY_PORT METADATA
		ETH_DST ETH_SRC ETH_TYPE VLAN_VID VLAN_PCP
		IP_DSCP IP_ECN IP_PROTO IPV4_SRC IPV4_DST
		TCP_SRC TCP_DST UDP_SRC UDP_DST SCTP_SRC SCTP_DST
		ICMPV4_TYPE ICMPV4_CODE
		ARP_OP ARP_SPA ARP_TPA ARP_SHA ARP_THA
		IPV6_SRC IPV6_DST IPV6_FLABEL
		ICMPV6_TYPE ICMPV6_CODE
		IPV6_ND_TARGET IPV6_ND_SLL IPV6_ND_TLL
		MPLS_LABEL MPLS_TC MPLS_BOS
		PBB_ISID TUNNEL_ID IPV6_EXTHDR PBB_UCA");
     bitshifts := None |}.

(** twink/ofp5/oxm.py:30-33. *)
Definition x5_ofp_vlan_id : enum :=
  {| prefix := "OFPVID";
     numbers := None;
     bitshifts := Some (Dict [("PRESENT", 12); ("NONE", (-1))]) |}.

(** twink/ofp5/oxm.py:35-38. *)
Definition x5_ofp_ipv6exthdr_flags : enum :=
  {| prefix := "OFPIEH";
     numbers := None;
     bitshifts := Some (Words "NONEXT ESP AUTH DEST FRAG ROUTER HOP UNREP UNSEQ") |}.

(** twink/ofp5/oxm.py: the enumerations in the order of the file. *)
Definition x5_enums : list enum :=
  [x5_ofp_oxm_class;
   x5_oxm_ofb_match_fields;
   x5_ofp_vlan_id;
   x5_ofp_ipv6exthdr_flags].

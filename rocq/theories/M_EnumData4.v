(** The enumerations of twink/ofp4/__init__.py and twink/ofp4/oxm.py, taken over
    literally.  A dictionary is listed in the order of the source text; the
    order in which Python walks it is not specified and is treated in
    S_Enum.v. *)

From Verif Require Import M_Enum.
Local Open Scope Z_scope.
Local Open Scope list_scope.
Local Open Scope string_scope.

(** twink/ofp4/__init__.py:83-86. *)
Definition o4_ofp_flow_mod_command : enum :=
  {| prefix := "OFPFC";
     numbers := Some (Words "ADD MODIFY MODIFY_STRICT DELETE DELETE_STRICT");
     bitshifts := None |}.

(** twink/ofp4/__init__.py:88-91. *)
Definition o4_ofp_group_mod_command : enum :=
  {| prefix := "OFPGC";
     numbers := Some (Words "ADD MODIFY DELETE");
     bitshifts := None |}.

(** twink/ofp4/__init__.py:93-96. *)
Definition o4_ofp_meter_mod_command : enum :=
  {| prefix := "OFPMC";
     numbers := Some (Words "ADD MODIFY DELETE");
     bitshifts := None |}.

(** twink/ofp4/__init__.py:98-110. *)
Definition o4_ofp_type : enum :=
  {| prefix := "OFPT";
     numbers := Some (Words "HELLO ERROR ECHO_REQUEST ECHO_REPLY EXPERIMENTER
		FEATURES_REQUEST FEATURES_REPLY GET_CONFIG_REQUEST GET_CONFIG_REPLY SET_CONFIG
		PACKET_IN FLOW_REMOVED PORT_STATUS
		PACKET_OUT FLOW_MOD GROUP_MOD PORT_MOD TABLE_MOD
		MULTIPART_REQUEST MULTIPART_REPLY
		BARRIER_REQUEST BARRIER_REPLY
		QUEUE_GET_CONFIG_REQUEST QUEUE_GET_CONFIG_REPLY
		ROLE_REQUEST ROLE_REPLY
		GET_ASYNC_REQUEST GET_ASYNC_REPLY SET_ASYNC
		METER_MOD");
     bitshifts := None |}.

(** twink/ofp4/__init__.py:112-116. *)
Definition o4_ofp_port_config : enum :=
  {| prefix := "OFPPC";
     numbers := None;
     bitshifts := Some (Words "PORT_DOWN NO_STP NO_RECV NO_RECV_STP NO_FLOOD NO_FWD NO_PACKET_IN") |}.

(** twink/ofp4/__init__.py:118-121. *)
Definition o4_ofp_port_state : enum :=
  {| prefix := "OFPPS";
     numbers := None;
     bitshifts := Some (Words "LINK_DOWN BLOCKED LIVE") |}.

(** twink/ofp4/__init__.py:123-135. *)
Definition o4_ofp_port_no : enum :=
  {| prefix := "OFPP";
     numbers := Some (Dict [("MAX", 4294967040); ("IN_PORT", 4294967288); ("TABLE", 4294967289); ("NORMAL", 4294967290); ("FLOOD", 4294967291); ("ALL", 4294967292); ("CONTROLLER", 4294967293); ("LOCAL", 4294967294); ("ANY", 4294967295)]);
     bitshifts := None |}.

(** twink/ofp4/__init__.py:137-142. *)
Definition o4_ofp_port_features : enum :=
  {| prefix := "OFPPF";
     numbers := None;
     bitshifts := Some (Words "10MB_HD 10MB_FD 100MB_HD 100MB_FD 1GB_HD 1GB_FD
		10GB_FD 40GB_FD 100GB_FD 1TB_FD OTHER
		COPPER FIBER AUTONEG PAUSE PAUSE_ANY") |}.

(** twink/ofp4/__init__.py:144-150. *)
Definition o4_ofp_queue_properties : enum :=
  {| prefix := "OFPQT";
     numbers := Some (Dict [("MIN_RATE", 1); ("MAX_RATE", 2); ("EXPERIMENTER", 65535)]);
     bitshifts := None |}.

(** twink/ofp4/__init__.py:152-155. *)
Definition o4_ofp_match_type : enum :=
  {| prefix := "OFPMT";
     numbers := Some (Words "STANDARD OXM");
     bitshifts := None |}.

(** twink/ofp4/__init__.py:157-164. *)
Definition o4_ofp_oxm_class : enum :=
  {| prefix := "OFPXMC";
     numbers := Some (Dict [("NXM_0", 0); ("NXM_1", 1); ("OPENFLOW_BASIC", 32768); ("EXPERIMENTER", 65535)]);
     bitshifts := None |}.

(** twink/ofp4/__init__.py:166-179. *)
Definition o4_ofp_match_fields : enum :=
  {| prefix := "OFPXMT_OFB";
     numbers := Some (Words "IN_PORT IN_PHY_PORT METADATA
		ETH_DST ETH_SRC ETH_TYPE VLAN_VID VLAN_PCP
		IP_DSCP IP_ECN IP_PROTO IPV4_SRC IPV4_DST
		TCP_SRC TCP_DST UDP_SRC UDP_DST SCTP_SRC SCTP_DST
		ICMPV4_TYPE ICMPV4_CODE
		ARP_OP ARP_SPA ARP_TPA ARP_SHA ARP_THA
		IPV6_SRC IPV6_DST IPV6_FLABEL
		ICMPV6_TYPE ICMPV6_CODE
		IPV6_ND_TARGET IPV6_ND_SLL IPV6_ND_TLL
		MPLS_LABEL MPLS_TC MPLS_BOS
		PBB_ISID TUNNEL_ID IPV6_EXTHDR");
     bitshifts := None |}.

(** twink/ofp4/__init__.py:181-186. *)
Definition o4_ofp_vlan_id : enum :=
  {| prefix := "OFPVID";
     numbers := Some (Dict [("PRESENT", 4096); ("NONE", 0)]);
     bitshifts := None |}.

(** twink/ofp4/__init__.py:188-191. *)
Definition o4_ofp_ipv6exthdr_flags : enum :=
  {| prefix := "OFPIEH";
     numbers := None;
     bitshifts := Some (Words "NONEXT ESP AUTH DEST FRAG ROUTER HOP UNREP UNSEQ") |}.

(** twink/ofp4/__init__.py:193-203. *)
Definition o4_ofp_instruction_type : enum :=
  {| prefix := "OFPIT";
     numbers := Some (Dict [("GOTO_TABLE
		WRITE_METADATA
		WRITE_ACTIONS
		APPLY_ACTIONS
		CLEAR_ACTIONS
		METER", 1); ("EXPERIMENTER", 65535)]);
     bitshifts := None |}.

(** twink/ofp4/__init__.py:206-215. *)
Definition o4_ofp_action_type : enum :=
  {| prefix := "OFPAT";
     numbers := Some (Dict [("OUTPUT", 0); ("COPY_TTL_OUT COPY_TTL_IN", 11); ("SET_MPLS_TTL DEC_MPLS_TTL PUSH_VLAN POP_VLAN
			PUSH_MPLS POP_MPLS SET_QUEUE GROUP
			SET_NW_TTL DEC_NW_TTL SET_FIELD PUSH_PBB POP_PBB", 15); ("EXPERIMENTER", 65535)]);
     bitshifts := None |}.

(** twink/ofp4/__init__.py:226-231. *)
Definition o4_ofp_controller_max_len : enum :=
  {| prefix := "OFPCML";
     numbers := Some (Dict [("MAX", 65509); ("NO_BUFFER", 65535)]);
     bitshifts := None |}.

(** twink/ofp4/__init__.py:233-243. *)
Definition o4_ofp_capabilities : enum :=
  {| prefix := "OFPC";
     numbers := None;
     bitshifts := Some (Dict [("FLOW_STATS
		TABLE_STATS
		PORT_STATS
		GROUP_STATS", 0); ("IP_REASM
		QUEUE_STATS", 5); ("PORT_BLOCKED", 8)]) |}.

(** twink/ofp4/__init__.py:245-248. *)
Definition o4_ofp_config_flags : enum :=
  {| prefix := "OFPC_FRAG";
     numbers := Some (Words "NORMAL DROP REASM MASK");
     bitshifts := None |}.

(** twink/ofp4/__init__.py:250-255. *)
Definition o4_ofp_table : enum :=
  {| prefix := "OFPTT";
     numbers := Some (Dict [("MAX", 254); ("ALL", 255)]);
     bitshifts := None |}.

(** twink/ofp4/__init__.py:257-261. *)
Definition o4_ofp_table_config : enum :=
  {| prefix := "OFPTC";
     numbers := Some (Dict [("DEPRECATED_MASK", 3)]);
     bitshifts := None |}.

(** twink/ofp4/__init__.py:263-266. *)
Definition o4_ofp_flow_mod_flags : enum :=
  {| prefix := "OFPFF";
     numbers := None;
     bitshifts := Some (Words "SEND_FLOW_REM CHECK_OVERLAP RESET_COUNTS NO_PKT_COUNTS BYT_COUNTS") |}.

(** twink/ofp4/__init__.py:268-271. *)
Definition o4_ofp_group_mod_command_again : enum :=
  {| prefix := "OFPGC";
     numbers := Some (Words "ADD MODIFY DELETE");
     bitshifts := None |}.

(** twink/ofp4/__init__.py:273-276. *)
Definition o4_ofp_group_type : enum :=
  {| prefix := "OFPGT";
     numbers := Some (Words "ALL SELECT INDIRECT FF");
     bitshifts := None |}.

(** twink/ofp4/__init__.py:278-284. *)
Definition o4_ofp_group : enum :=
  {| prefix := "OFPG";
     numbers := Some (Dict [("MAX", 4294967040); ("ALL", 4294967292); ("ANY", 4294967295)]);
     bitshifts := None |}.

(** twink/ofp4/__init__.py:286-293. *)
Definition o4_ofp_meter : enum :=
  {| prefix := "OFPM";
     numbers := Some (Dict [("MAX", 4294901760); ("SLOWPATH", 4294967293); ("CONTROLLER", 4294967294); ("ALL", 4294967295)]);
     bitshifts := None |}.

(** twink/ofp4/__init__.py:295-298. *)
Definition o4_ofp_meter_mod_command_again : enum :=
  {| prefix := "OFPMC";
     numbers := Some (Words "ADD MODIFY DELETE");
     bitshifts := None |}.

(** twink/ofp4/__init__.py:300-303. *)
Definition o4_ofp_meter_flags : enum :=
  {| prefix := "OFPMF";
     numbers := None;
     bitshifts := Some (Words "KBPS PKTPS BURST STATS") |}.

(** twink/ofp4/__init__.py:305-311. *)
Definition o4_ofp_meter_band_type : enum :=
  {| prefix := "OFPMBT";
     numbers := Some (Dict [("DROP", 1); ("DSCP_REMARK", 2); ("EXPERIMENTER", 65535)]);
     bitshifts := None |}.

(** twink/ofp4/__init__.py:313-316. *)
Definition o4_ofp_multipart_request_flags : enum :=
  {| prefix := "OFPMPF";
     numbers := Some (Dict [("REQ_MORE", 1)]);
     bitshifts := None |}.

(** twink/ofp4/__init__.py:318-321. *)
Definition o4_ofp_multipart_reply_flags : enum :=
  {| prefix := "OFPMPF";
     numbers := Some (Dict [("REPLY_MORE", 1)]);
     bitshifts := None |}.

(** twink/ofp4/__init__.py:323-331. *)
Definition o4_ofp_multipart_type : enum :=
  {| prefix := "OFPMP";
     numbers := Some (Dict [("DESC FLOW AGGREGATE TABLE PORT_STATS QUEUE
		GROUP GROUP_DESC GROUP_FEATURES
		METER METER_CONFIG METER_FEATURES
		TABLE_FEATURES PORT_DESC", 0); ("EXPERIMENTER", 65535)]);
     bitshifts := None |}.

(** twink/ofp4/__init__.py:333-345. *)
Definition o4_ofp_table_feature_prop_type : enum :=
  {| prefix := "OFPTFPT";
     numbers := Some (Dict [("INSTRUCTIONS INSTRUCTIONS_MISS
		NEXT_TABLES NEXT_TABLES_MISS
		WRITE_ACTIONS WRITE_ACTIONS_MISS
		APPLY_ACTIONS APPLY_ACTIONS_MISS
		MATCH
		WILDCARDS
		WRITE_SETFIELD WRITE_SETFIELD_MISS
		APPLY_SETFIELD APPLY_SETFIELD_MISS", 0); ("EXPERIMENTER EXPERIMENTER_MISS", 65534)]);
     bitshifts := None |}.

(** twink/ofp4/__init__.py:347-350. *)
Definition o4_ofp_group_capabilities : enum :=
  {| prefix := "OFPGFC";
     numbers := None;
     bitshifts := Some (Words "SELECT_WEIGHT SELECT_LIVENESS CHAINING CHAINING_CHECKS") |}.

(** twink/ofp4/__init__.py:352-355. *)
Definition o4_ofp_controller_role : enum :=
  {| prefix := "OFPCR_ROLE";
     numbers := Some (Words "NOCHANGE EQUAL MASTER SLAVE");
     bitshifts := None |}.

(** twink/ofp4/__init__.py:357-360. *)
Definition o4_ofp_packet_in_reason : enum :=
  {| prefix := "OFPR";
     numbers := Some (Words "NO_MATCH ACTION INVALID_TTL");
     bitshifts := None |}.

(** twink/ofp4/__init__.py:362-365. *)
Definition o4_ofp_flow_removed_reason : enum :=
  {| prefix := "OFPRR";
     numbers := Some (Words "IDLE_TIMEOUT HARD_TIMEOUT DELETE GROUP_DELETE");
     bitshifts := None |}.

(** twink/ofp4/__init__.py:367-370. *)
Definition o4_ofp_port_reason : enum :=
  {| prefix := "OFPPR";
     numbers := Some (Words "ADD DELETE MODIFY");
     bitshifts := None |}.

(** twink/ofp4/__init__.py:372-380. *)
Definition o4_ofp_error_type : enum :=
  {| prefix := "OFPET";
     numbers := Some (Dict [("HELLO_FAILED BAD_REQUEST BAD_ACTION BAD_INSTRUCTION BAD_MATCH
		FLOW_MOD_FAILED GROUP_MOD_FAILED PORT_MOD_FAILED
		TABLE_MOD_FAILED SWITCH_CONFIG_FAILWD ROLE_REQUEST_FAILED 
		METER_MOD_FAILED TABLE_FEATURES_FAILED", 0); ("EXPERIMENTER", 65535)]);
     bitshifts := None |}.

(** twink/ofp4/__init__.py:382-385. *)
Definition o4_ofp_hello_failed_code : enum :=
  {| prefix := "OFPHFC";
     numbers := Some (Words "INCOMPATIBLE EPERM");
     bitshifts := None |}.

(** twink/ofp4/__init__.py:387-392. *)
Definition o4_ofp_bad_request_code : enum :=
  {| prefix := "OFPBRC";
     numbers := Some (Words "BAD_VERSION BAD_TYPE BAD_MULTIPART BAD_EXPERIMENTER
		BAD_EXP_TYPE EPERM BAD_LEN BUFFER_EMPTY BUFFER_UNKNOWN BAD_TABLE_ID
		IS_SLAVE BAD_PORT BAD_PACKET MULTIPART_BUFFER_OVERFLOW");
     bitshifts := None |}.

(** twink/ofp4/__init__.py:394-400. *)
Definition o4_ofp_bad_action_code : enum :=
  {| prefix := "OFPBAC";
     numbers := Some (Words "BAD_TYPE BAD_LEN BAD_EXPERIMENTER BAD_EXP_TYPE BAD_OUT_PORT
		BAD_ARGUMENT EPERM TOO_MANY BAD_QUEUE BAD_OUT_GROUP
		MATCH_INCONSISTENT UNSUPPORTED_ORDER BAD_TAG
		BAD_SET_TYPE BAD_SET_LEN BAD_SET_ARGUMENT");
     bitshifts := None |}.

(** twink/ofp4/__init__.py:402-407. *)
Definition o4_ofp_bad_instruction_code : enum :=
  {| prefix := "OFPBIC";
     numbers := Some (Words "UNKNOWN_INST UNSUP_INST BAD_TABLE_ID
		UNSUP_METADATA UNSUP_METADATA_MASK
		BAD_EXPERIMENTER BAD_EXP_TYPE BAD_LEN EPERM");
     bitshifts := None |}.

(** twink/ofp4/__init__.py:409-415. *)
Definition o4_ofp_bad_match_code : enum :=
  {| prefix := "OFPBMC";
     numbers := Some (Words "BAD_TYPE BAD_LEN BAD_TAG
		BAD_DL_ADDR_MASK BAD_NW_ADDR_MASK BAD_WILDCARDS
		BAD_FIELD BAD_VALUE BAD_MASK BAD_PREREQ
		DUP_FIELD EPERM");
     bitshifts := None |}.

(** twink/ofp4/__init__.py:417-421. *)
Definition o4_ofp_flow_mod_failed_code : enum :=
  {| prefix := "OFPFMFC";
     numbers := Some (Words "UNKNOWN TABLE_FULL BAD_TABLE_ID OVERLAP EPERM
		BAD_TIMEOUT BAD_COMMAND BAD_FLAGS");
     bitshifts := None |}.

(** twink/ofp4/__init__.py:423-429. *)
Definition o4_ofp_group_mod_failed_code : enum :=
  {| prefix := "OFPGMFC";
     numbers := Some (Words "GROUP_EXISTS INVALID_GROUP WEIGHT_UNSUPPORTED
		OUT_OF_GROUPS OUT_OF_BUCKETS CHAINING_UNSUPPORTED
		WATCH_UNSUPPORTED LOOP UNKNOWN_GROUP CHAINED_GROUP
		BAD_TYPE BAD_COMMAND BAD_BUCKET BAD_WATCH EPERM");
     bitshifts := None |}.

(** twink/ofp4/__init__.py:431-434. *)
Definition o4_ofp_table_mod_failed_code : enum :=
  {| prefix := "OFPTMFC";
     numbers := Some (Words "BAD_TABLE BAD_CONFIG EPERM");
     bitshifts := None |}.

(** twink/ofp4/__init__.py:436-439. *)
Definition o4_ofp_queue_op_failed_code : enum :=
  {| prefix := "OFPQOFC";
     numbers := Some (Words "BAD_PORT BAD_QUEUE EPERM");
     bitshifts := None |}.

(** twink/ofp4/__init__.py:441-444. *)
Definition o4_ofp_switch_config_failed_code : enum :=
  {| prefix := "OFPSCFC";
     numbers := Some (Words "BAD_FLAGS BAD_LEN EPERM");
     bitshifts := None |}.

(** twink/ofp4/__init__.py:446-449. *)
Definition o4_ofp_role_request_failed_code : enum :=
  {| prefix := "OFPRRFC";
     numbers := Some (Words "STALE UNSUP BAD_ROLE");
     bitshifts := None |}.

(** twink/ofp4/__init__.py:451-456. *)
Definition o4_ofp_meter_mod_failed_code : enum :=
  {| prefix := "OFPMMFC";
     numbers := Some (Words "UNKNOWN METER_EXISTS INVALID_METER UNKNOWN_METER
		BAD_COMMAND BAD_FLAGS BAD_RATE BAD_BURST BAD_BAND BAD_BAND_VALUE
		OUT_OF_METERS OUT_OF_BANDS");
     bitshifts := None |}.

(** twink/ofp4/__init__.py:458-461. *)
Definition o4_ofp_table_features_failed_code : enum :=
  {| prefix := "OFPTFFC";
     numbers := Some (Words "BAD_TABLE BAD_METADATA BAD_TYPE BAD_LEN BAD_ARGUMENT EPERM");
     bitshifts := None |}.

(** twink/ofp4/__init__.py:463-466. *)
Definition o4_ofp_hello_enum_type : enum :=
  {| prefix := "OFPHET";
     numbers := Some (Dict [("VERSIONBITMAP", 1)]);
     bitshifts := None |}.

(** twink/ofp4/__init__.py:468-487. *)
Definition o4_ofp_flow_wildcards : enum :=
  {| prefix := "OFPFW";
     numbers := Some (Dict [("IN_PORT", 1); ("DL_VLAN", 2); ("DL_SRC", 4); ("DL_DST", 8); ("DL_TYPE", 16); ("NW_PROTO", 32); ("TP_SRC", 64); ("TP_DST", 128); ("NW_SRC_SHIFT", 8); ("NW_SRC_BITS", 6); ("NW_SRC_MASK", 16128); ("NW_DST_SHIFT", 14); ("NW_DST_BITS", 6); ("NW_DST_MASK", 1032192); ("NW_DST_ALL", 524288); ("ALL", 1048575)]);
     bitshifts := None |}.

(** twink/ofp4/__init__.py:489-492. *)
Definition o4_ofp_flow_expired_readon : enum :=
  {| prefix := "OFPER";
     numbers := Some (Words "IDLE_TIMEOUT HARD_TIMEOUT");
     bitshifts := None |}.

(** twink/ofp4/__init__.py: the enumerations in the order of the file. *)
Definition o4_enums : list enum :=
  [o4_ofp_flow_mod_command;
   o4_ofp_group_mod_command;
   o4_ofp_meter_mod_command;
   o4_ofp_type;
   o4_ofp_port_config;
   o4_ofp_port_state;
   o4_ofp_port_no;
   o4_ofp_port_features;
   o4_ofp_queue_properties;
   o4_ofp_match_type;
   o4_ofp_oxm_class;
   o4_ofp_match_fields;
   o4_ofp_vlan_id;
   o4_ofp_ipv6exthdr_flags;
   o4_ofp_instruction_type;
   o4_ofp_action_type;
   o4_ofp_controller_max_len;
   o4_ofp_capabilities;
   o4_ofp_config_flags;
   o4_ofp_table;
   o4_ofp_table_config;
   o4_ofp_flow_mod_flags;
   o4_ofp_group_mod_command_again;
   o4_ofp_group_type;
   o4_ofp_group;
   o4_ofp_meter;
   o4_ofp_meter_mod_command_again;
   o4_ofp_meter_flags;
   o4_ofp_meter_band_type;
   o4_ofp_multipart_request_flags;
   o4_ofp_multipart_reply_flags;
   o4_ofp_multipart_type;
   o4_ofp_table_feature_prop_type;
   o4_ofp_group_capabilities;
   o4_ofp_controller_role;
   o4_ofp_packet_in_reason;
   o4_ofp_flow_removed_reason;
   o4_ofp_port_reason;
   o4_ofp_error_type;
   o4_ofp_hello_failed_code;
   o4_ofp_bad_request_code;
   o4_ofp_bad_action_code;
   o4_ofp_bad_instruction_code;
   o4_ofp_bad_match_code;
   o4_ofp_flow_mod_failed_code;
   o4_ofp_group_mod_failed_code;
   o4_ofp_table_mod_failed_code;
   o4_ofp_queue_op_failed_code;
   o4_ofp_switch_config_failed_code;
   o4_ofp_role_request_failed_code;
   o4_ofp_meter_mod_failed_code;
   o4_ofp_table_features_failed_code;
   o4_ofp_hello_enum_type;
   o4_ofp_flow_wildcards;
   o4_ofp_flow_expired_readon].

(** twink/ofp4/oxm.py:6-13. *)
Definition x4_ofp_oxm_class : enum :=
  {| prefix := "OFPXMC";
     numbers := Some (Dict [("NXM_0", 0); ("NXM_1", 1); ("OPENFLOW_BASIC", 32768); ("EXPERIMENTER", 65535)]);
     bitshifts := None |}.

(** twink/ofp4/oxm.py:15-28. *)
Definition x4_oxm_ofb_match_fields : enum :=
  {| prefix := "OXM_OF";
     numbers := Some (Words "IN_PORT IN_PHY_PORT METADATA
		ETH_DST ETH_SRC ETH_TYPE VLAN_VID VLAN_PCP
		IP_DSCP IP_ECN IP_PROTO IPV4_SRC IPV4_DST
		TCP_SRC TCP_DST UDP_SRC UDP_DST SCTP_SRC SCTP_DST
		ICMPV4_TYPE ICMPV4_CODE
		ARP_OP ARP_SPA ARP_TPA ARP_SHA ARP_THA
		IPV6_SRC IPV6_DST IPV6_FLABEL
		ICMPV6_TYPE ICMPV6_CODE
		IPV6_ND_TARGET IPV6_ND_SLL IPV6_ND_TLL
		MPLS_LABEL MPLS_TC MPLS_BOS
		PBB_ISID TUNNEL_ID IPV6_EXTHDR");
     bitshifts := None |}.

(** twink/ofp4/oxm.py:30-33. *)
Definition x4_ofp_vlan_id : enum :=
  {| prefix := "OFPVID";
     numbers := None;
     bitshifts := Some (Dict [("PRESENT", 12); ("NONE", (-1))]) |}.

(** twink/ofp4/oxm.py:35-38. *)
Definition x4_ofp_ipv6exthdr_flags : enum :=
  {| prefix := "OFPIEH";
     numbers := None;
     bitshifts := Some (Words "NONEXT ESP AUTH DEST FRAG ROUTER HOP UNREP UNSEQ") |}.

(** twink/ofp4/oxm.py:40-45. *)
Definition x4_nxm_match_fields : enum :=
  {| prefix := "NXM_NX";
     numbers := Some (Dict [("TUN_IPV4_DST", 32)]);
     bitshifts := None |}.

(** twink/ofp4/oxm.py:50-52. *)
Definition x4_stratos_oxm_fields : enum :=
  {| prefix := "STRATOS_OXM_FIELD";
     numbers := Some (Words "BASIC RADIOTAP");
     bitshifts := None |}.

(** twink/ofp4/oxm.py:54-68. *)
Definition x4_stratos_basic_exp : enum :=
  {| prefix := "STROXM_BASIC";
     numbers := Some (Words "UNKNOWN
		DOT11
		DOT11_FRAME_CTRL
		DOT11_ADDR1
		DOT11_ADDR2
		DOT11_ADDR3
		DOT11_ADDR4
		DOT11_SSID
		DOT11_ACTION_CATEGORY
		DOT11_PUBLIC_ACTION
		DOT11_TAG
		DOT11_TAG_VENDOR");
     bitshifts := None |}.

(** twink/ofp4/oxm.py:70-91. *)
Definition x4_stratos_radiotap_exp : enum :=
  {| prefix := "STROXM_RADIOTAP";
     numbers := Some (Dict [("TSFT
			FLAGS
			RATE
			CHANNEL
			FHSS
			DBM_ANTSIGNAL
			DBM_ANTNOISE
			LOCK_QUALITY
			TX_ATTENUATION
			DB_TX_ATTENUATION
			DBM_TX_POWER
			ANTENNA
			DB_ANTSIGNAL
			DB_ANTNOISE
			RX_FLAGS
			TX_FLAGS
			RTS_RETRIES
			DATA_RETRIES
		", 0); ("MCS AMPDU_STATUS", 19)]);
     bitshifts := None |}.

(** twink/ofp4/oxm.py: the enumerations in the order of the file. *)
Definition x4_enums : list enum :=
  [x4_ofp_oxm_class;
   x4_oxm_ofb_match_fields;
   x4_ofp_vlan_id;
   x4_ofp_ipv6exthdr_flags;
   x4_nxm_match_fields;
   x4_stratos_oxm_fields;
   x4_stratos_basic_exp;
   x4_stratos_radiotap_exp].

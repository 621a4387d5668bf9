(** What enumerations should do, stated without the functions of M_Enum.v:
    words of a str, the constants a declaration stands for, flags, and the
    numbers of the OpenFlow 1.3 and 1.4 specifications. *)

From Coq Require Import Permutation.
From Verif Require Import M_Enum.
Local Open Scope Z_scope.
Local Open Scope list_scope.

(** *** Words *)

Definition blank (a : ascii) : Prop :=
  In (nat_of_ascii a) [9; 10; 11; 12; 13; 32]%nat.

Fixpoint all (P : ascii -> Prop) (s : string) : Prop :=
  match s with EmptyString => True | String a s' => P a /\ all P s' end.

(** The words of a text: maximal runs of non-blank characters. *)
Inductive spells : string -> list string -> Prop :=
| spells_end s : all blank s -> spells s []
| spells_word bs w rest ws :
    all blank bs -> w <> EmptyString -> all (fun a => ~ blank a) w ->
    (rest = EmptyString \/ exists a r, rest = String a r /\ blank a) ->
    spells rest ws -> spells (bs ++ w ++ rest) (w :: ws).

(** [w] is word number [i] (from 0) of [s]. *)
Definition nth_word (s : string) (i : nat) (w : string) : Prop :=
  exists ws, spells s ws /\ nth_error ws i = Some w.

(** *** Constants of a declaration *)

(** The key [k] stands for the number [v]: position of the word, counted from
    the value given. *)
Inductive stands : src -> string -> Z -> Prop :=
| stands_words s i k : nth_word s i k -> stands (Words s) k (Z.of_nat i)
| stands_dict l ws v i k : In (ws, v) l -> nth_word ws i k -> stands (Dict l) k (v + Z.of_nat i).

(** The value of a flag given by its bit; a negative bit means no bit. *)
Definition flag_value (z : Z) : Z := if Z_lt_dec z 0 then 0 else 2 ^ z.

Inductive constant (e : enum) : string -> Z -> Prop :=
| constant_number s k v : numbers e = Some s -> stands s k v ->
    constant e (prefix e ++ "_" ++ k) v
| constant_flag s k z : bitshifts e = Some s -> stands s k z ->
    constant e (prefix e ++ "_" ++ k) (flag_value z).

(** No two names for one value. *)
Definition unambiguous (e : enum) : Prop :=
  forall n m v, constant e n v -> constant e m v -> n = m.

(** No two values for one name. *)
Definition consistent (es : list enum) : Prop :=
  forall e e' n v w, In e es -> In e' es -> constant e n v -> constant e' n w -> v = w.

(** *** Order of dictionaries: Python may walk them in any order. *)

Inductive src_walked : src -> src -> Prop :=
| walked_words s : src_walked (Words s) (Words s)
| walked_dict l l' : Permutation l l' -> src_walked (Dict l) (Dict l').

Inductive opt_walked : option src -> option src -> Prop :=
| walked_none : opt_walked None None
| walked_some s s' : src_walked s s' -> opt_walked (Some s) (Some s').

Definition walked (e e' : enum) : Prop :=
  prefix e = prefix e' /\ opt_walked (numbers e) (numbers e') /\ opt_walked (bitshifts e) (bitshifts e').

(** *** Flags *)

(** Keys that name a field of several bits, by the convention "..._MASK". *)
Definition mask_key (k : string) : Prop := exists k', k = (k' ++ "_MASK")%string.

(** [n] is the name of bit [z] of the enumeration. *)
Definition names_bit (e : enum) (n : string) (z : Z) : Prop :=
  exists s k, bitshifts e = Some s /\ stands s k z /\ ~ mask_key k /\ n = (prefix e ++ "_" ++ k)%string.

(** *** Tables of a specification: rows of consecutive numbers or bits. *)

Fixpoint row (p : string) (v : Z) (ns : list string) : list (string * Z) :=
  match ns with [] => [] | n :: ns' => ((p ++ n)%string, v) :: row p (v + 1) ns' end.

Fixpoint bits (p : string) (v : Z) (ns : list string) : list (string * Z) :=
  match ns with [] => [] | n :: ns' => ((p ++ n)%string, 2 ^ v) :: bits p (v + 1) ns' end.

Local Open Scope string_scope.

(** OpenFlow 1.3 and 1.4 alike. *)
Definition spec_common : list (string * Z) :=
  [("OFP_NO_BUFFER", 4294967295)] ++
  row "OFPFC_" 0 ["ADD"; "MODIFY"; "MODIFY_STRICT"; "DELETE"; "DELETE_STRICT"] ++
  row "OFPGC_" 0 ["ADD"; "MODIFY"; "DELETE"] ++
  row "OFPMC_" 0 ["ADD"; "MODIFY"; "DELETE"] ++
  row "OFPT_" 0 ["HELLO"; "ERROR"; "ECHO_REQUEST"; "ECHO_REPLY"; "EXPERIMENTER"] ++
  row "OFPT_" 5 ["FEATURES_REQUEST"; "FEATURES_REPLY"; "GET_CONFIG_REQUEST"; "GET_CONFIG_REPLY"; "SET_CONFIG"] ++
  row "OFPT_" 10 ["PACKET_IN"; "FLOW_REMOVED"; "PORT_STATUS"] ++
  row "OFPT_" 13 ["PACKET_OUT"; "FLOW_MOD"; "GROUP_MOD"; "PORT_MOD"; "TABLE_MOD"] ++
  row "OFPT_" 18 ["MULTIPART_REQUEST"; "MULTIPART_REPLY"] ++
  row "OFPT_" 20 ["BARRIER_REQUEST"; "BARRIER_REPLY"] ++
  row "OFPT_" 24 ["ROLE_REQUEST"; "ROLE_REPLY"; "GET_ASYNC_REQUEST"; "GET_ASYNC_REPLY"; "SET_ASYNC"; "METER_MOD"] ++
  bits "OFPPC_" 0 ["PORT_DOWN"] ++ bits "OFPPC_" 2 ["NO_RECV"] ++ bits "OFPPC_" 5 ["NO_FWD"; "NO_PACKET_IN"] ++
  bits "OFPPS_" 0 ["LINK_DOWN"; "BLOCKED"; "LIVE"] ++
  row "OFPP_" 4294967040 ["MAX"] ++
  row "OFPP_" 4294967288 ["IN_PORT"; "TABLE"; "NORMAL"; "FLOOD"; "ALL"; "CONTROLLER"; "LOCAL"; "ANY"] ++
  bits "OFPPF_" 0 ["10MB_HD"; "10MB_FD"; "100MB_HD"; "100MB_FD"; "1GB_HD"; "1GB_FD"; "10GB_FD"; "40GB_FD"; "100GB_FD"; "1TB_FD"; "OTHER"] ++
  bits "OFPPF_" 11 ["COPPER"; "FIBER"; "AUTONEG"; "PAUSE"; "PAUSE_ASYM"] ++
  row "OFPMT_" 0 ["STANDARD"; "OXM"] ++
  row "OFPXMC_" 0 ["NXM_0"; "NXM_1"] ++ row "OFPXMC_" 32768 ["OPENFLOW_BASIC"] ++ row "OFPXMC_" 65535 ["EXPERIMENTER"] ++
  row "OFPXMT_OFB_" 0 ["IN_PORT"; "IN_PHY_PORT"; "METADATA"] ++
  row "OFPXMT_OFB_" 3 ["ETH_DST"; "ETH_SRC"; "ETH_TYPE"; "VLAN_VID"; "VLAN_PCP"] ++
  row "OFPXMT_OFB_" 8 ["IP_DSCP"; "IP_ECN"; "IP_PROTO"; "IPV4_SRC"; "IPV4_DST"] ++
  row "OFPXMT_OFB_" 13 ["TCP_SRC"; "TCP_DST"; "UDP_SRC"; "UDP_DST"; "SCTP_SRC"; "SCTP_DST"; "ICMPV4_TYPE"; "ICMPV4_CODE"] ++
  row "OFPXMT_OFB_" 21 ["ARP_OP"; "ARP_SPA"; "ARP_TPA"; "ARP_SHA"; "ARP_THA"] ++
  row "OFPXMT_OFB_" 26 ["IPV6_SRC"; "IPV6_DST"; "IPV6_FLABEL"; "ICMPV6_TYPE"; "ICMPV6_CODE"; "IPV6_ND_TARGET"; "IPV6_ND_SLL"; "IPV6_ND_TLL"] ++
  row "OFPXMT_OFB_" 34 ["MPLS_LABEL"; "MPLS_TC"; "MPLS_BOS"; "PBB_ISID"; "TUNNEL_ID"; "IPV6_EXTHDR"] ++
  row "OFPVID_" 4096 ["PRESENT"] ++ row "OFPVID_" 0 ["NONE"] ++
  bits "OFPIEH_" 0 ["NONEXT"; "ESP"; "AUTH"; "DEST"; "FRAG"; "ROUTER"; "HOP"; "UNREP"; "UNSEQ"] ++
  row "OFPIT_" 1 ["GOTO_TABLE"; "WRITE_METADATA"; "WRITE_ACTIONS"; "APPLY_ACTIONS"; "CLEAR_ACTIONS"; "METER"] ++
  row "OFPIT_" 65535 ["EXPERIMENTER"] ++
  row "OFPAT_" 0 ["OUTPUT"] ++ row "OFPAT_" 11 ["COPY_TTL_OUT"; "COPY_TTL_IN"] ++
  row "OFPAT_" 15 ["SET_MPLS_TTL"; "DEC_MPLS_TTL"; "PUSH_VLAN"; "POP_VLAN"; "PUSH_MPLS"; "POP_MPLS"; "SET_QUEUE"; "GROUP";
                   "SET_NW_TTL"; "DEC_NW_TTL"; "SET_FIELD"; "PUSH_PBB"; "POP_PBB"] ++
  row "OFPAT_" 65535 ["EXPERIMENTER"] ++
  row "OFPCML_" 65509 ["MAX"] ++ row "OFPCML_" 65535 ["NO_BUFFER"] ++
  bits "OFPC_" 0 ["FLOW_STATS"; "TABLE_STATS"; "PORT_STATS"; "GROUP_STATS"] ++
  bits "OFPC_" 5 ["IP_REASM"; "QUEUE_STATS"] ++ bits "OFPC_" 8 ["PORT_BLOCKED"] ++
  row "OFPC_FRAG_" 0 ["NORMAL"; "DROP"; "REASM"; "MASK"] ++
  row "OFPTT_" 254 ["MAX"; "ALL"] ++
  row "OFPTC_" 3 ["DEPRECATED_MASK"] ++
  bits "OFPFF_" 0 ["SEND_FLOW_REM"; "CHECK_OVERLAP"; "RESET_COUNTS"; "NO_PKT_COUNTS"; "NO_BYT_COUNTS"] ++
  row "OFPGT_" 0 ["ALL"; "SELECT"; "INDIRECT"; "FF"] ++
  row "OFPG_" 4294967040 ["MAX"] ++ row "OFPG_" 4294967292 ["ALL"] ++ row "OFPG_" 4294967295 ["ANY"] ++
  row "OFPM_" 4294901760 ["MAX"] ++ row "OFPM_" 4294967293 ["SLOWPATH"; "CONTROLLER"; "ALL"] ++
  bits "OFPMF_" 0 ["KBPS"; "PKTPS"; "BURST"; "STATS"] ++
  row "OFPMBT_" 1 ["DROP"; "DSCP_REMARK"] ++ row "OFPMBT_" 65535 ["EXPERIMENTER"] ++
  row "OFPMPF_" 1 ["REQ_MORE"] ++ row "OFPMPF_" 1 ["REPLY_MORE"] ++
  row "OFPMP_" 0 ["DESC"; "FLOW"; "AGGREGATE"; "TABLE"; "PORT_STATS"] ++
  row "OFPMP_" 6 ["GROUP"; "GROUP_DESC"; "GROUP_FEATURES"; "METER"; "METER_CONFIG"; "METER_FEATURES"; "TABLE_FEATURES"; "PORT_DESC"] ++
  row "OFPMP_" 65535 ["EXPERIMENTER"] ++
  row "OFPTFPT_" 0 ["INSTRUCTIONS"; "INSTRUCTIONS_MISS"; "NEXT_TABLES"; "NEXT_TABLES_MISS"; "WRITE_ACTIONS"; "WRITE_ACTIONS_MISS";
                    "APPLY_ACTIONS"; "APPLY_ACTIONS_MISS"; "MATCH"] ++
  row "OFPTFPT_" 10 ["WILDCARDS"] ++
  row "OFPTFPT_" 12 ["WRITE_SETFIELD"; "WRITE_SETFIELD_MISS"; "APPLY_SETFIELD"; "APPLY_SETFIELD_MISS"] ++
  row "OFPTFPT_" 65534 ["EXPERIMENTER"; "EXPERIMENTER_MISS"] ++
  bits "OFPGFC_" 0 ["SELECT_WEIGHT"; "SELECT_LIVENESS"; "CHAINING"; "CHAINING_CHECKS"] ++
  row "OFPCR_ROLE_" 0 ["NOCHANGE"; "EQUAL"; "MASTER"; "SLAVE"] ++
  row "OFPRR_" 0 ["IDLE_TIMEOUT"; "HARD_TIMEOUT"; "DELETE"; "GROUP_DELETE"] ++
  row "OFPPR_" 0 ["ADD"; "DELETE"; "MODIFY"] ++
  row "OFPET_" 0 ["HELLO_FAILED"; "BAD_REQUEST"; "BAD_ACTION"; "BAD_INSTRUCTION"; "BAD_MATCH"; "FLOW_MOD_FAILED"; "GROUP_MOD_FAILED";
                  "PORT_MOD_FAILED"; "TABLE_MOD_FAILED"; "QUEUE_OP_FAILED"; "SWITCH_CONFIG_FAILED"; "ROLE_REQUEST_FAILED";
                  "METER_MOD_FAILED"; "TABLE_FEATURES_FAILED"] ++
  row "OFPET_" 65535 ["EXPERIMENTER"] ++
  row "OFPHFC_" 0 ["INCOMPATIBLE"; "EPERM"] ++
  row "OFPBRC_" 0 ["BAD_VERSION"; "BAD_TYPE"; "BAD_MULTIPART"; "BAD_EXPERIMENTER"; "BAD_EXP_TYPE"; "EPERM"; "BAD_LEN"; "BUFFER_EMPTY";
                   "BUFFER_UNKNOWN"; "BAD_TABLE_ID"; "IS_SLAVE"; "BAD_PORT"; "BAD_PACKET"; "MULTIPART_BUFFER_OVERFLOW"] ++
  row "OFPBAC_" 0 ["BAD_TYPE"; "BAD_LEN"; "BAD_EXPERIMENTER"; "BAD_EXP_TYPE"; "BAD_OUT_PORT"; "BAD_ARGUMENT"; "EPERM"; "TOO_MANY";
                   "BAD_QUEUE"; "BAD_OUT_GROUP"; "MATCH_INCONSISTENT"; "UNSUPPORTED_ORDER"; "BAD_TAG"; "BAD_SET_TYPE"; "BAD_SET_LEN"; "BAD_SET_ARGUMENT"] ++
  row "OFPBIC_" 0 ["UNKNOWN_INST"; "UNSUP_INST"; "BAD_TABLE_ID"; "UNSUP_METADATA"; "UNSUP_METADATA_MASK"; "BAD_EXPERIMENTER"; "BAD_EXP_TYPE"; "BAD_LEN"; "EPERM"] ++
  row "OFPBMC_" 0 ["BAD_TYPE"; "BAD_LEN"; "BAD_TAG"; "BAD_DL_ADDR_MASK"; "BAD_NW_ADDR_MASK"; "BAD_WILDCARDS"; "BAD_FIELD"; "BAD_VALUE";
                   "BAD_MASK"; "BAD_PREREQ"; "DUP_FIELD"; "EPERM"] ++
  row "OFPFMFC_" 0 ["UNKNOWN"; "TABLE_FULL"; "BAD_TABLE_ID"; "OVERLAP"; "EPERM"; "BAD_TIMEOUT"; "BAD_COMMAND"; "BAD_FLAGS"] ++
  row "OFPGMFC_" 0 ["GROUP_EXISTS"; "INVALID_GROUP"; "WEIGHT_UNSUPPORTED"; "OUT_OF_GROUPS"; "OUT_OF_BUCKETS"; "CHAINING_UNSUPPORTED";
                    "WATCH_UNSUPPORTED"; "LOOP"; "UNKNOWN_GROUP"; "CHAINED_GROUP"; "BAD_TYPE"; "BAD_COMMAND"; "BAD_BUCKET"; "BAD_WATCH"; "EPERM"] ++
  row "OFPPMFC_" 0 ["BAD_PORT"; "BAD_HW_ADDR"; "BAD_CONFIG"; "BAD_ADVERTISE"; "EPERM"] ++
  row "OFPTMFC_" 0 ["BAD_TABLE"; "BAD_CONFIG"; "EPERM"] ++
  row "OFPQOFC_" 0 ["BAD_PORT"; "BAD_QUEUE"; "EPERM"] ++
  row "OFPSCFC_" 0 ["BAD_FLAGS"; "BAD_LEN"; "EPERM"] ++
  row "OFPRRFC_" 0 ["STALE"; "UNSUP"; "BAD_ROLE"] ++
  row "OFPMMFC_" 0 ["UNKNOWN"; "METER_EXISTS"; "INVALID_METER"; "UNKNOWN_METER"; "BAD_COMMAND"; "BAD_FLAGS"; "BAD_RATE"; "BAD_BURST";
                    "BAD_BAND"; "BAD_BAND_VALUE"; "OUT_OF_METERS"; "OUT_OF_BANDS"] ++
  row "OFPHET_" 1 ["VERSIONBITMAP"].

(** OpenFlow 1.3 only. *)
Definition spec13 : list (string * Z) := spec_common ++
  row "OFPT_" 22 ["QUEUE_GET_CONFIG_REQUEST"; "QUEUE_GET_CONFIG_REPLY"] ++
  row "OFPQT_" 1 ["MIN_RATE"; "MAX_RATE"] ++ row "OFPQT_" 65535 ["EXPERIMENTER"] ++
  row "OFPMP_" 5 ["QUEUE"] ++
  row "OFPR_" 0 ["NO_MATCH"; "ACTION"; "INVALID_TTL"] ++
  row "OFPTFFC_" 0 ["BAD_TABLE"; "BAD_METADATA"; "BAD_TYPE"; "BAD_LEN"; "BAD_ARGUMENT"; "EPERM"].

(** OpenFlow 1.4 only. *)
Definition spec14 : list (string * Z) := spec_common ++
  row "OFPT_" 30 ["ROLE_STATUS"; "TABLE_STATUS"; "REQUESTFORWARD"; "BUNDLE_CONTROL"; "BUNDLE_ADD_MESSAGE"] ++
  row "OFPPDPT_" 0 ["ETHERNET"; "OPTICAL"] ++ row "OFPPDPT_" 65535 ["EXPERIMENTER"] ++
  bits "OFPOPF_" 0 ["RX_TUNE"; "TX_TUNE"; "TX_PWR"; "USE_FREQ"] ++
  row "OFPXMT_OFB_" 41 ["PBB_UCA"] ++
  bits "OFPTC_" 2 ["EVICTION"; "VACANCY_EVENTS"] ++
  row "OFPTMPT_" 2 ["EVICTION"; "VACANCY"] ++ row "OFPTMPT_" 65535 ["EXPERIMENTER"] ++
  bits "OFPTMPEF_" 0 ["OTHER"; "IMPORTANCE"; "LIFETIME"] ++
  row "OFPPMPT_" 0 ["ETHERNET"; "OPTICAL"] ++ row "OFPPMPT_" 65535 ["EXPERIMENTER"] ++
  row "OFPMP_" 5 ["QUEUE_STATS"] ++ row "OFPMP_" 14 ["TABLE_DESC"; "QUEUE_DESC"; "FLOW_MONITOR"] ++
  row "OFPTFPT_" 16 ["TABLE_SYNC_FROM"] ++
  row "OFPPSPT_" 0 ["ETHERNET"; "OPTICAL"] ++ row "OFPPSPT_" 65535 ["EXPERIMENTER"] ++
  bits "OFPOSF_" 0 ["RX_TUNE"; "TX_TUNE"; "TX_PWR"] ++ bits "OFPOSF_" 4 ["RX_PWR"; "TX_BIAS"; "TX_TEMP"] ++
  row "OFPQSPT_" 65535 ["EXPERIMENTER"] ++
  row "OFPQDPT_" 1 ["MIN_RATE"; "MAX_RATE"] ++ row "OFPQDPT_" 65535 ["EXPERIMENTER"] ++
  row "OFPFMC_" 0 ["ADD"; "MODIFY"; "DELETE"] ++
  bits "OFPFMF_" 0 ["INITIAL"; "ADD"; "REMOVED"; "MODIFY"; "INSTRUCTIONS"; "NO_ABBREV"; "ONLY_OWN"] ++
  row "OFPFME_" 0 ["INITIAL"; "ADDED"; "REMOVED"; "MODIFIED"; "ABBREV"; "PAUSED"; "RESUMED"] ++
  row "OFPBCT_" 0 ["OPEN_REQUEST"; "OPEN_REPLY"; "CLOSE_REQUEST"; "CLOSE_REPLY"; "COMMIT_REQUEST"; "COMMIT_REPLY"; "DISCARD_REQUEST"; "DISCARD_REPLY"] ++
  bits "OFPBF_" 0 ["ATOMIC"; "ORDERED"] ++
  row "OFPBPT_" 65535 ["EXPERIMENTER"] ++
  row "OFPACPT_" 0 ["PACKET_IN_SLAVE"; "PACKET_IN_MASTER"; "PORT_STATUS_SLAVE"; "PORT_STATUS_MASTER"; "FLOW_REMOVED_SLAVE"; "FLOW_REMOVED_MASTER";
                    "ROLE_STATUS_SLAVE"; "ROLE_STATUS_MASTER"; "TABLE_STATUS_SLAVE"; "TABLE_STATUS_MASTER"; "REQUESTFORWARD_SLAVE"; "REQUESTFORWARD_MASTER"] ++
  row "OFPACPT_" 65534 ["EXPERIMENTER_SLAVE"; "EXPERIMENTER_MASTER"] ++
  row "OFPR_" 0 ["TABLE_MISS"; "APPLY_ACTION"; "INVALID_TTL"; "ACTION_SET"; "GROUP"; "PACKET_OUT"] ++
  row "OFPRR_" 4 ["METER_DELETE"; "EVICTION"] ++
  row "OFPCRR_" 0 ["MASTER_REQUEST"; "CONFIG"; "EXPERIMENTER"] ++
  row "OFPRPT_" 65535 ["EXPERIMENTER"] ++
  row "OFPTR_" 3 ["VACANCY_DOWN"; "VACANCY_UP"] ++
  row "OFPRFR_" 0 ["GROUP_MOD"; "METER_MOD"] ++
  row "OFPET_" 14 ["BAD_PROPERTY"; "ASYNC_CONFIG_FAILED"; "FLOW_MONITOR_FAILED"; "BUNDLE_FAILED"] ++
  row "OFPBRC_" 14 ["MULTIPART_REQUEST_TIMEOUT"; "MULTIPART_REPLY_TIMEOUT"] ++
  row "OFPBIC_" 9 ["DUP_INST"] ++
  row "OFPFMFC_" 8 ["CANT_SYNC"; "BAD_PRIORITY"] ++
  row "OFPTFFC_" 0 ["BAD_TABLE"; "BAD_METADATA"] ++ row "OFPTFFC_" 5 ["EPERM"] ++
  row "OFPBPC_" 0 ["BAD_TYPE"; "BAD_LEN"; "BAD_VALUE"; "TOO_MANY"; "DUP_TYPE"; "BAD_EXPERIMENTER"; "BAD_EXP_TYPE"; "BAD_EXP_VALUE"; "EPERM"] ++
  row "OFPACFC_" 0 ["INVALID"; "UNSUPPORTED"; "EPERM"] ++
  row "OFPMOFC_" 0 ["UNKNOWN"; "MONITOR_EXISTS"; "INVALID_MONITOR"; "UNKNOWN_MONITOR"; "BAD_COMMAND"; "BAD_FLAGS"; "BAD_TABLE_ID"; "BAD_OUT"] ++
  row "OFPBFC_" 0 ["UNKNOWN"; "EPERM"; "BAD_ID"; "BUNDLE_EXIST"; "BUNDLE_CLOSED"; "OUT_OF_BUNDLES"; "BAD_TYPE"; "BAD_FLAGS";
                   "MSG_BAD_LEN"; "MSG_BAD_XID"; "MSG_UNSUP"; "MSG_CONFLICT"; "MSG_TOO_MANY"; "MSG_FAILED"; "TIMEOUT"; "BUNDLE_IN_PROGRESS"].

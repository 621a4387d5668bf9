{
 "claims": [
  {
   "property": "C01",
   "status": "proved",
   "theorems": [
    "C01_framing_recv",
    "C01_framing_iter"
   ],
   "note": "Message framing is independent of TCP chunking"
  },
  {
   "property": "C02",
   "status": "proved",
   "theorems": [
    "C02_conservation",
    "C02_no_truncated_message",
    "C02_cut_message"
   ],
   "note": "The receive path neither loses, duplicates nor invents bytes"
  },
  {
   "property": "C03",
   "status": "partial",
   "theorems": [
    "C03_end_of_stream_refuted",
    "C03_zero_length_stuck_refuted",
    "C03_end_of_stream_partial"
   ],
   "note": "False as stated: a header announcing 1..7 yields a message shorter than a header, one announcing 0 makes recv() return b'' for ever though nothing ended (refuted theorems give the streams). The partial theorem proves the statement for streams whose next header announces at least 8."
  },
  {
   "property": "C04",
   "status": "proved",
   "theorems": [
    "C04_closed_never_reads",
    "C04_closed_recv",
    "C04_logging_close_once",
    "C04_close_again"
   ],
   "note": "A closed channel never touches the transport again"
  },
  {
   "property": "C05",
   "status": "proved",
   "theorems": [
    "C05_delays_invisible",
    "C05_errors_surface",
    "C05_end_outcomes"
   ],
   "note": "Transport conditions are classified consistently"
  },
  {
   "property": "C06",
   "status": "proved",
   "theorems": [
    "C06_hello_roundtrip"
   ],
   "note": "HELLO round trip"
  },
  {
   "property": "C07",
   "status": "partial",
   "theorems": [
    "C07_hello_wire_partial",
    "C07_multiple_of_8_refuted"
   ],
   "note": "Everything but the last clause holds; the length is a multiple of 8 exactly when max < 4 or (max/32) is even (proved as an equivalence), a set reaching 32 is the counterexample."
  },
  {
   "property": "C08",
   "status": "partial",
   "theorems": [
    "C08_negotiation_partial",
    "C08_common_version_found",
    "C08_no_common_version",
    "C08_other_messages",
    "C08_malformed_hello",
    "C08_refusal_refuted"
   ],
   "note": "Proved for accept lists up to wire version 5. For larger versions a common version is still found (C08_common_version_found), but without one the refusal itself raises IndexError (C08_refusal_refuted)."
  },
  {
   "property": "C09",
   "status": "partial",
   "theorems": [
    "C09_both_agree_partial",
    "C09_agree_exactly",
    "C09_both_agree_refuted"
   ],
   "note": "Exact: the two ends agree if and only if the lists have nothing in common, or reach version 4, or what each advertises picks the same version. Refuted otherwise: {1,3} against {1,4}."
  },
  {
   "property": "C10",
   "status": "proved",
   "theorems": [
    "C10_xids_increasing",
    "C10_xids_fit_32_bits"
   ],
   "note": "Generated transaction ids are distinct, increasing and fit 32 bits"
  },
  {
   "property": "C11",
   "status": "partial",
   "theorems": [
    "C11_atomic_calls_partial",
    "C11_two_threads_refuted",
    "C11_own_ids_repeat_refuted"
   ],
   "note": "Refuted by two schedules; the partial theorem covers calls that do not interleave. Thread scheduling granularity (attribute accesses) is modelled, not observed."
  },
  {
   "property": "C12",
   "status": "proved",
   "theorems": [
    "C12_hello_once",
    "C12_hello_first"
   ],
   "note": "The HELLO is sent exactly once per channel"
  },
  {
   "property": "C13",
   "status": "partial",
   "theorems": [
    "C13_echo_stream_partial",
    "C13_echo_step_partial",
    "C13_before_hello_refuted"
   ],
   "note": "Proved for every stream once a version is negotiated (C13_echo_*_partial). Refuted before: an ECHO_REQUEST that precedes the peer's HELLO raises struct.error in the handler and is not answered."
  },
  {
   "property": "C14",
   "status": "partial",
   "theorems": [
    "C14_echo_first_partial",
    "C14_controller_first_refuted",
    "C14_controller_first_general_refuted",
    "C14_controller_first_partial"
   ],
   "note": "Proved for AutoEchoChannel first; refuted for ControllerChannel first, the order used by twink/__main__.py and test/test_basic.py: the echo request goes to the outstanding callback."
  },
  {
   "property": "C15",
   "status": "proved",
   "theorems": [
    "C15_loop_serves",
    "C15_delivers_prefix",
    "C15_delivers_all"
   ],
   "note": "The server loop delivers messages in order until the stream ends"
  },
  {
   "property": "C16",
   "status": "proved",
   "theorems": [
    "C16_no_multiple_chunks"
   ],
   "note": "'seq element must be Chunk or Barrier' cannot be expressed as a failure: the model's seq is typed."
  },
  {
   "property": "C17",
   "status": "proved",
   "theorems": [
    "C17_reply_to_its_callback",
    "C17_exactly_once"
   ],
   "note": "Callbacks are compared by identity; what a callback does when called is a later operation of the history."
  },
  {
   "property": "C18",
   "status": "partial",
   "theorems": [
    "C18_plain_requests_refuted",
    "C18_plain_requests_partial"
   ],
   "note": "Refuted when the queue is empty at send time; the partial theorem shows this is the only way to misroute."
  },
  {
   "property": "C19",
   "status": "proved",
   "theorems": [
    "C19_separation",
    "C19_transparent"
   ],
   "note": "Controller sends are transparent except for separating barriers"
  },
  {
   "property": "C20",
   "status": "proved",
   "theorems": [
    "C20_barrier_replies",
    "C20_never_fails"
   ],
   "note": "Barrier replies of a conforming switch are always accepted"
  },
  {
   "property": "C21",
   "status": "partial",
   "theorems": [
    "C21_failed_send_refuted",
    "C21_failed_separator_refuted",
    "C21_early_failure_partial",
    "C21_same_batch_partial"
   ],
   "note": "Refuted for transport failures of barriers and separators: after such a failure, whatever follows, every barrier reply trips the assertion unless it answers the request that was never sent; proved for failures before the transport and for messages of the open batch."
  },
  {
   "property": "C22",
   "status": "proved",
   "theorems": [
    "C22_features",
    "C22_identity_frame"
   ],
   "note": "FEATURES_REPLY sets the datapath identity"
  },
  {
   "property": "C23",
   "status": "partial",
   "theorems": [
    "C23_own_replies_only_partial",
    "C23_none_without_reply",
    "C23_returns",
    "C23_duplicate_xid_refuted",
    "C23_reader_killed_by_timeout_refuted"
   ],
   "note": "Proved for calls whose transaction ids differ from those of concurrent calls (which C11 does not guarantee). Refuted for equal ids (KeyError), and for a time-out that falls between the reader's test and lookup: the reader dies with KeyError."
  },
  {
   "property": "C24",
   "status": "proved",
   "theorems": [
    "C24_multipart_complete",
    "C24_not_woken_early",
    "C24_woken"
   ],
   "note": "Multipart replies are reassembled completely"
  },
  {
   "property": "C25",
   "status": "partial",
   "theorems": [
    "C25_multi_partial",
    "C25_single",
    "C25_duplicate_xid_refuted"
   ],
   "note": "Proved for distinct transaction ids; refuted for repeated ones. Test, read and pop of one entry after the barrier are one step of the model."
  },
  {
   "property": "C26",
   "status": "partial",
   "theorems": [
    "C26_close_releases",
    "C26_close_result_partial",
    "C26_late_registration_refuted"
   ],
   "note": "Every registered call is released. The empty result is proved unless the reader is just storing a reply; a call registered after the loop of close() is not released (refuted)."
  },
  {
   "property": "C27",
   "status": "partial",
   "theorems": [
    "C27_simple_call_partial",
    "C27_reply_returned",
    "C27_request",
    "C27_error_reply_refuted"
   ],
   "note": "The OpenflowError clause is false: NameError. The rest is proved for every schedule, closes included."
  },
  {
   "property": "C28",
   "status": "partial",
   "theorems": [
    "C28_port_status",
    "C28_history_partial",
    "C28_event_between_parts_refuted"
   ],
   "note": "Proved for versions 1.0-1.3 while nobody waits for a port (see C29, C30). Refuted for events that fall between the parts of the initial list."
  },
  {
   "property": "C29",
   "status": "partial",
   "theorems": [
    "C29_features",
    "C29_port_desc_partial",
    "C29_request",
    "C29_openflow14_refuted",
    "C29_openflow14_features_refuted",
    "C29_openflow14_status_refuted",
    "C29_openflow14_name_refuted"
   ],
   "note": "Proved for 1.0-1.3; refuted for 1.4 for every port list (30-byte format against at least 40 bytes per port), and a 1.4 FEATURES_REPLY empties the table."
  },
  {
   "property": "C30",
   "status": "partial",
   "theorems": [
    "C30_attach_waiter_refuted",
    "C30_detach_waiter_refuted",
    "C30_initial_waiter_refuted",
    "C30_initial_waiter13_refuted",
    "C30_list_exactly_refuted",
    "C30_already_there_partial"
   ],
   "note": "Refuted for every state with a waiter: Event.set() is called with an argument, so the table keeps missing the port that came, keeps the one that left, and loses the initial list. Only the immediate answers are proved."
  },
  {
   "property": "C31",
   "status": "partial",
   "theorems": [
    "C31_limit_refuted",
    "C31_exactly_once_refuted",
    "C31_nothing_left_partial",
    "C31_only_submitted_partial",
    "C31_worker_goes_on_refuted"
   ],
   "note": "Both clauses refuted, the first for every limit and every list of calls. Proved instead: nothing is left behind, one thread per submission, as many calls as submissions, only submitted calls. Submissions are assumed to be distinct values."
  },
  {
   "property": "C32",
   "status": "proved",
   "theorems": [
    "C32_failure_closes",
    "C32_success_keeps_open",
    "C32_loop_unharmed",
    "C32_called_once",
    "C32_nothing_dropped",
    "C32_all_routed"
   ],
   "note": "A failing handler closes its channel and nothing else"
  },
  {
   "property": "C33",
   "status": "partial",
   "theorems": [
    "C33_no_new_connection_partial",
    "C33_no_new_read_partial",
    "C33_loops_end_partial",
    "C33_all_closed_partial",
    "C33_closed_refuted"
   ],
   "note": "Proved: at most the connection being accepted is added, nothing is read any more, every thread outside a read ends within a bound, threads over without exception have closed and deregistered. Refuted: a connection whose HELLO failed stays open; a handler exception leaves a channel registered (C34)."
  },
  {
   "property": "C34",
   "status": "partial",
   "theorems": [
    "C34_ended_closed_partial",
    "C34_handler_exception_refuted",
    "C34_next_message",
    "C34_no_message",
    "C34_channel_close",
    "C34_before_start"
   ],
   "note": "Refuted for every exception but ChannelClose raised by a handler: the channel stays open and registered for ever. Proved for loops that end any other way."
  },
  {
   "property": "C35",
   "status": "partial",
   "theorems": [
    "C35_monitors_partial",
    "C35_failing_monitor_refuted",
    "C35_second_hello_refuted",
    "C35_replaced_monitors_refuted"
   ],
   "note": "Proved for one HELLO and successful sends. Refuted: a failing monitor keeps the message from the others and from the handler and ends the connection; a second HELLO fails with EADDRINUSE or replaces the monitors."
  },
  {
   "property": "C36",
   "status": "partial",
   "theorems": [
    "C36_forwarded_partial",
    "C36_echo_not_forwarded_refuted",
    "C36_reply_to_its_client",
    "C36_barrier_reply_to_its_client",
    "C36_exactly_once",
    "C36_foreign_reply_refuted",
    "C36_failing_client_refuted"
   ],
   "note": "Replies: proved for requests with a callback and for barriers, for every history. Refuted: ECHO_REQUEST is not forwarded; replies to the parent's own plain requests can reach a client; a failing client ends the switch's connection. Forwarding is proved for a working transport and a negotiated version."
  },
  {
   "property": "C37",
   "status": "partial",
   "theorems": [
    "C37_sequential_gets_partial",
    "C37_second_get_refuted",
    "C37_overlapping_none_refuted",
    "C37_overlapping_error_refuted",
    "C37_overlapping_hangs_refuted"
   ],
   "note": "Refuted: a second get() returns None or hangs, overlapping get() calls return None, raise or hang. Proved for one get() at a time."
  },
  {
   "property": "C38",
   "status": "proved",
   "theorems": [
    "C38_format",
    "C38_format_unknown",
    "C38_pack_succeeds_iff",
    "C38_pack_fails",
    "C38_length",
    "C38_big_endian",
    "C38_padding_zero",
    "C38_unpack_pack",
    "C38_unpack_succeeds_iff",
    "C38_pack_unpack"
   ],
   "note": "struct packing is faithful"
  },
  {
   "property": "C39",
   "status": "proved",
   "theorems": [
    "C39_length_true",
    "C39_too_long_raises"
   ],
   "note": "Every built OpenFlow 1.3 message announces its true length"
  },
  {
   "property": "C40",
   "status": "partial",
   "theorems": [
    "C40_actions_built",
    "C40_actions_parsed_partial",
    "C40_round_trip_partial",
    "C40_rebuild",
    "C40_padding_refuted",
    "C40_experimenter_padding_refuted",
    "C40_mpls_ttl_refuted",
    "C40_mpls_ttl_list_refuted"
   ],
   "note": "Built layouts and parsing proved for all actions, except: SET_MPLS_TTL cannot be parsed (NameError), set-field and experimenter payloads come back with their padding (both refuted); the round trip is proved for the rest, and rebuilding what was parsed gives the same bytes in every case."
  },
  {
   "property": "C41",
   "status": "partial",
   "theorems": [
    "C41_instructions_built",
    "C41_instructions_parsed_partial",
    "C41_round_trip_partial",
    "C41_rebuild",
    "C41_mpls_ttl_refuted",
    "C41_unknown_type"
   ],
   "note": "As C40 for the actions inside."
  },
  {
   "property": "C42",
   "status": "proved",
   "theorems": [
    "C42_match_built",
    "C42_match_too_long",
    "C42_match_parsed",
    "C42_rebuild"
   ],
   "note": "Match fields are preserved byte for byte"
  },
  {
   "property": "C43",
   "status": "partial",
   "theorems": [
    "C43_flow_mod_round_trip_partial",
    "C43_flow_mod_rebuild",
    "C43_mpls_ttl_refuted",
    "C43_padding_refuted"
   ],
   "note": "Round trip proved for every flow-mod without SET_MPLS_TTL, with action payloads coming back padded (both refuted); what was parsed builds the identical bytes."
  },
  {
   "property": "C44",
   "status": "partial",
   "theorems": [
    "C44_round_trip_partial",
    "C44_rebuild_partial",
    "C44_port_mod_refuted",
    "C44_role_reply_refuted",
    "C44_port_rebuild_refuted",
    "C44_port_name_refuted",
    "C44_mpls_ttl_refuted"
   ],
   "note": "Round trip proved for hello, error, echo and other plain messages, features, switch-config, packet-in, flow-removed, port-status, packet-out, table-mod, queue-get-config (queues without properties), role requests, async. Refuted: port-mod is never parsed, role replies come back raw, a parsed port cannot be built again, names with NUL or non-ASCII bytes."
  },
  {
   "property": "C45",
   "status": "partial",
   "theorems": [
    "C45_round_trip_partial",
    "C45_rebuild",
    "C45_experimenter_band_refuted",
    "C45_mpls_ttl_refuted"
   ],
   "note": "Proved without experimenter bands and SET_MPLS_TTL; refuted for every meter-mod with an experimenter band (the parser loops for ever)."
  },
  {
   "property": "C46",
   "status": "partial",
   "theorems": [
    "C46_round_trip_partial",
    "C46_rebuild_partial",
    "C46_aggregate_request_refuted",
    "C46_table_features_refuted",
    "C46_port_stats_refuted",
    "C46_aggregate_reply_refuted",
    "C46_experimenter_refuted",
    "C46_defaults_refuted",
    "C46_desc_refuted",
    "C46_meter_length_refuted"
   ],
   "note": "Proved for all request bodies and for desc, flow, table, queue, group, group-desc, group-features, meter, meter-config, meter-features and port-desc replies with any number of entries. Refuted: port statistics, aggregate requests and replies, table features, experimenter replies, omitted bodies, default queue id, padded strings, length of meter statistics."
  },
  {
   "property": "C47",
   "status": "partial",
   "theorems": [
    "C47_fuel_is_enough",
    "C47_terminates_partial",
    "C47_zero_length_action_refuted",
    "C47_terminates_refuted"
   ],
   "note": "Refuted (every packet-out with a zero-length set-field or experimenter action; every meter-mod with an experimenter band). Proved for all byte strings without such items in the place where actions, instructions or bands are; and fuel above the length of the buffer never matters."
  },
  {
   "property": "C48",
   "status": "proved",
   "theorems": [
    "C48_build",
    "C48_round_trip",
    "C48_list_round_trip",
    "C48_rebuild",
    "C48_rebuild_list",
    "C48_list_terminates"
   ],
   "note": "Proved for all fields of the basic class, masked or not, of any length list; parse_list terminates on every byte string."
  },
  {
   "property": "C49",
   "status": "partial",
   "theorems": [
    "C49_sizes_partial",
    "C49_labels_refuted"
   ],
   "note": "Proved for the fields of the basic class; the labels of the module's tables disagree with the specification in the cases of C49_labels_refuted."
  },
  {
   "property": "C50",
   "status": "proved",
   "theorems": [
    "C50_released_once",
    "C50_one_message"
   ],
   "note": "For a negotiated version and a working transport. Proved over any history of the channel, with requests and barriers outstanding."
  },
  {
   "property": "C51",
   "status": "partial",
   "theorems": [
    "C51_numbers",
    "C51_any_number_refuted",
    "C51_table_partial",
    "C51_bridge_socket",
    "C51_failed_add_refuted"
   ],
   "note": "Numbers: proved for every history; the reserved range above OFPP_MAX is not avoided (refuted). Table: proved unless an announcement fails, when the port stays though the caller was told of a failure (refuted)."
  },
  {
   "property": "C52",
   "status": "partial",
   "theorems": [
    "C52_listed_partial",
    "C52_same_cookie_refuted",
    "C52_delete_refuted",
    "C52_too_many_refuted"
   ],
   "note": "Proved for the first FLOW_MOD of each cookie while the reply fits one message. Refuted: a known cookie raises TypeError, deletions are recorded as flows, more than 1169 flows cannot be listed."
  },
  {
   "property": "C53",
   "status": "partial",
   "theorems": [
    "C53_answered_partial",
    "C53_ports_partial",
    "C53_unanswered_refuted",
    "C53_not_understood_refuted"
   ],
   "note": "Proved for FEATURES, GET_CONFIG, ROLE and DESC over any history, for PORT_DESC up to 1023 ports, for FLOW in C52. Refuted: BARRIER and other multipart requests are not answered, other types fail an assertion."
  },
  {
   "property": "C54",
   "status": "partial",
   "theorems": [
    "C54_reset_client_refuted",
    "C54_accept_error_refuted",
    "C54_keeps_accepting_partial"
   ],
   "note": "Refuted: a client whose HELLO cannot be sent ends the accepting thread. Proved: nothing that happens on established connections does."
  },
  {
   "property": "C55",
   "status": "partial",
   "theorems": [
    "C55_cursor_partial",
    "C55_cursor_refuted"
   ],
   "note": "Proved for every message but packet-in and packet-out, for which it is refuted: the cursor stops before the payload."
  },
  {
   "property": "C56",
   "status": "partial",
   "theorems": [
    "C56_wrong_refused_partial",
    "C56_string_refuted",
    "C56_flag_only_refuted"
   ],
   "note": "Refuted for strings of another length than the field's (padded or cut) and for the flag without mask. Proved: integers and addresses out of range are refused."
  },
  {
   "property": "C57",
   "status": "partial",
   "theorems": [
    "C57_build_stratos_refuted",
    "C57_nxm_list_refuted",
    "C57_stratos_length_refuted",
    "C57_stratos_rest_partial"
   ],
   "note": "Refuted: experimenter fields cannot be built, a list with an NXM field fails, the announced length of an experimenter field is ignored. Proved: fields whose announced length is right."
  },
  {
   "property": "C58",
   "status": "partial",
   "theorems": [
    "C58_async_hidden_refuted",
    "C58_others_partial"
   ],
   "note": "Refuted: PACKET_IN, FLOW_REMOVED and PORT_STATUS no longer reach the application. All other messages are routed as before."
  },
  {
   "property": "C59",
   "status": "partial",
   "theorems": [
    "C59_options_partial",
    "C59_unknown_partial",
    "C59_false_flag_refuted"
   ],
   "note": "Refuted for flags given as False. Everything else proved."
  },
  {
   "property": "C60",
   "status": "partial",
   "theorems": [
    "C60_run_partial",
    "C60_stopped_partial",
    "C60_of14_refuted",
    "C60_alone_refuted"
   ],
   "note": "Refuted for OpenFlow 1.4 and for OvsChannel without ParentChannel. The command runner and the temporary server are parameters."
  },
  {
   "property": "C61",
   "status": "proved",
   "theorems": [
    "C61_rules"
   ],
   "note": "Messages as the channel hands them over: at least a header (C02)."
  },
  {
   "property": "C62",
   "status": "partial",
   "theorems": [
    "C62_monitor_agrees_partial",
    "C62_failed_delete_refuted"
   ],
   "note": "Proved, through the model of PortMonitorChannel, when nothing fails; refuted when destroying the port fails."
  },
  {
   "property": "C63",
   "status": "partial",
   "theorems": [
    "C63_deleted_partial",
    "C63_same_name_refuted"
   ],
   "note": "Proved for distinct names; refuted for a name given twice."
  },
  {
   "property": "C64",
   "status": "partial",
   "theorems": [
    "C64_sent_partial",
    "C64_failures_refuted"
   ],
   "note": "Proved for a first output to a port of the table, with partial socket writes not modelled. Refuted: reserved ports, other first actions, no actions; later outputs are ignored."
  },
  {
   "property": "C65",
   "status": "partial",
   "theorems": [
    "C65_failed_add_partial",
    "C65_bad_name_refuted"
   ],
   "note": "Refuted for every name too long or not ASCII: PORT_DESC fails for ever. Proved for additions that fail in BESS, at the socket or on the MAC address."
  },
  {
   "property": "C66",
   "status": "partial",
   "theorems": [
    "C66_of13_partial",
    "C66_of14_partial",
    "C66_of13_refuted",
    "C66_of14_refuted",
    "C66_discard_commits_refuted",
    "C66_no_other_names",
    "C66_match_fields_partial",
    "C66_oxm_constants",
    "C66_older_names_partial"
   ],
   "note": "Proved for every order of every dictionary except for the names listed in the theorems, which are missing or shifted (refuted). The tables of the specifications are in S_Enum.v."
  },
  {
   "property": "C67",
   "status": "partial",
   "theorems": [
    "C67_name_sound",
    "C67_name_inverse",
    "C67_modules_partial",
    "C67_wildcards_refuted"
   ],
   "note": "Proved for arbitrary declarations with distinct values, hence for all enumerations of both modules but OFPFW (refuted: result depends on the order of a dictionary)."
  },
  {
   "property": "C68",
   "status": "partial",
   "theorems": [
    "C68_bits",
    "C68_number_flags_refuted"
   ],
   "note": "Proved for arbitrary declarations of flags; refuted for the flags that the modules declare as numbers."
  },
  {
   "property": "C69",
   "status": "partial",
   "theorems": [
    "C69_ports_partial",
    "C69_icmp_partial",
    "C69_other_protocol_partial",
    "C69_arp",
    "C69_other_type_partial",
    "C69_options_refuted",
    "C69_snap_refuted",
    "C69_fragment_refuted"
   ],
   "note": "Proved for IPv4 without options, ARP and other types, tagged or not. Refuted: IP options, later fragments, LLC/SNAP. nw_tos carries the whole byte."
  },
  {
   "property": "C70",
   "status": "partial",
   "theorems": [
    "C70_long_frames",
    "C70_bound",
    "C70_short_refuted"
   ],
   "note": "Proved from 46 bytes on (exact bound); refuted below."
  },
  {
   "property": "C71",
   "status": "partial",
   "theorems": [
    "C71_length_true_partial",
    "C71_too_long_raises",
    "C71_meter_mod_refuted"
   ],
   "note": "Proved for all builders that return messages but ofp_meter_mod (refuted)."
  },
  {
   "property": "C72",
   "status": "partial",
   "theorems": [
    "C72_actions_built",
    "C72_actions_parsed_partial",
    "C72_round_trip_partial",
    "C72_rebuild",
    "C72_padding_refuted",
    "C72_experimenter_padding_refuted",
    "C72_mpls_ttl_refuted",
    "C72_mpls_ttl_list_refuted"
   ],
   "note": "Proved but for SET_MPLS_TTL, which is not parsed, and payloads that come back padded (both refuted)."
  },
  {
   "property": "C73",
   "status": "partial",
   "theorems": [
    "C73_instructions_built",
    "C73_instructions_parsed_partial",
    "C73_round_trip_partial",
    "C73_rebuild",
    "C73_mpls_ttl_refuted",
    "C73_unknown_type"
   ],
   "note": "Proved but for SET_MPLS_TTL inside (refuted)."
  },
  {
   "property": "C74",
   "status": "proved",
   "theorems": [
    "C74_match_built",
    "C74_match_too_long",
    "C74_match_parsed",
    "C74_rebuild"
   ],
   "note": "OpenFlow 1.4 matches round-trip"
  },
  {
   "property": "C75",
   "status": "partial",
   "theorems": [
    "C75_round_trip_partial",
    "C75_flow_mod_round_trip_partial",
    "C75_mpls_ttl_refuted"
   ],
   "note": "Proved for all messages of S_Msg5.v but those of C77-C79 and those that carry a SET_MPLS_TTL action, none of which parses (C75_mpls_ttl_refuted)."
  },
  {
   "property": "C76",
   "status": "partial",
   "theorems": [
    "C76_nested_partial",
    "C76_bundle_properties_refuted",
    "C76_bundle_add_properties_refuted"
   ],
   "note": "Proved to any depth without properties; refuted with properties."
  },
  {
   "property": "C77",
   "status": "partial",
   "theorems": [
    "C77_port_mod_built",
    "C77_port_mod_refuted",
    "C77_port_mod_loops_refuted",
    "C77_meter_mod_partial",
    "C77_meter_mod_parsed_partial",
    "C77_meter_mod_header_refuted",
    "C77_experimenter_band_refuted"
   ],
   "note": "Refuted for PORT_MOD (parsing) and for METER_MOD without a full header; the rest proved."
  },
  {
   "property": "C78",
   "status": "partial",
   "theorems": [
    "C78_port_status_refuted",
    "C78_port_lost_refuted",
    "C78_port_status_build_refuted",
    "C78_port_properties_refuted",
    "C78_role_status_refuted",
    "C78_role_status_build_refuted",
    "C78_table_status_refuted",
    "C78_table_status_build_refuted"
   ],
   "note": "Refuted: none of the three is both built and parsed."
  },
  {
   "property": "C79",
   "status": "partial",
   "theorems": [
    "C79_round_trip_partial",
    "C79_queue_desc_parsed",
    "C79_table_reply_refuted",
    "C79_port_reply_refuted",
    "C79_queue_reply_refuted",
    "C79_table_desc_refuted",
    "C79_port_desc_refuted",
    "C79_meter_request_refuted",
    "C79_replies_refused_refuted",
    "C79_request_objects_refuted",
    "C79_aggregate_request_refuted",
    "C79_queue_default_refuted",
    "C79_flow_update_refuted",
    "C79_stats_property_refuted",
    "C79_importance_refuted",
    "C79_table_features_refuted"
   ],
   "note": "Proved for the requests and replies listed in msg_args; refuted for the others, one theorem each."
  },
  {
   "property": "C80",
   "status": "partial",
   "theorems": [
    "C80_fuel_is_enough",
    "C80_terminates_partial",
    "C80_zero_length_action_refuted",
    "C80_zero_length_property_refuted",
    "C80_port_mod_refuted",
    "C80_terminates_refuted"
   ],
   "note": "Proved for byte strings without the listed elements; refuted with them, for all such packet-outs, table-mods and port-mods."
  },
  {
   "property": "C81",
   "status": "partial",
   "theorems": [
    "C81_rebuild_iff_partial",
    "C81_table_mod_refuted",
    "C81_forward_refuted"
   ],
   "note": "Exact: an equivalence over all messages that are parsed; the full claim is refuted by the messages left out."
  },
  {
   "property": "C82",
   "status": "partial",
   "theorems": [
    "C82_named_partial",
    "C82_removed_partial",
    "C82_left_behind_refuted"
   ],
   "note": "Proved for histories whose FEATURES_REPLYs tell one datapath; refuted otherwise: files are left behind."
  },
  {
   "property": "C83",
   "status": "partial",
   "theorems": [
    "C83_build",
    "C83_round_trip",
    "C83_list_round_trip",
    "C83_rebuild",
    "C83_rebuild_list",
    "C83_list_terminates",
    "C83_other_class_refuted"
   ],
   "note": "Proved for class OPENFLOW_BASIC without exception; refuted for the other classes."
  },
  {
   "property": "C84",
   "status": "partial",
   "theorems": [
    "C84_sizes_partial",
    "C84_labels_refuted",
    "C84_uca_refuted"
   ],
   "note": "Proved for 39 of the 41 fields by their number; refuted for the two labels and for the constant of PBB_UCA."
  },
  {
   "property": "C85",
   "status": "partial",
   "theorems": [
    "C85_one_channel_per_remote_partial",
    "C85_receives_nothing_refuted",
    "C85_handles_nothing_refuted",
    "C85_one_sender_stops_all_refuted",
    "C85_stop_partial"
   ],
   "note": "Bookkeeping proved assuming a receive call that returns datagram and sender; refuted for the code as written: it receives nothing, and would handle nothing."
  },
  {
   "property": "C86",
   "status": "partial",
   "theorems": [
    "C86_names",
    "C86_use_gevent_refuted"
   ],
   "note": "Names proved; the effect of use_gevent refuted for every program."
  },
  {
   "property": "C87",
   "status": "partial",
   "theorems": [
    "C87_all_stopped_partial",
    "C87_gevent_all_stopped_partial",
    "C87_failed_start_refuted",
    "C87_failed_stop_refuted"
   ],
   "note": "Proved when start() (and, with threads, stop()) return; refuted otherwise."
  },
  {
   "property": "C88",
   "status": "partial",
   "theorems": [
    "C88_transparent",
    "C88_log_faithful",
    "C88_channel_lines",
    "C88_logged_means_sent_refuted"
   ],
   "note": "Transparency and exactness proved; refuted that a logged message was sent."
  },
  {
   "property": "C89",
   "status": "partial",
   "theorems": [
    "C89_peer_receives_partial",
    "C89_datagrams",
    "C89_closed_raises",
    "C89_short_write_refuted",
    "C89_received_exactly",
    "C89_statement_refuted"
   ],
   "note": "Proved for whole writes, datagrams and closed channels; refuted for short writes; the peer receives exactly the messages if and only if every write took everything."
  },
  {
   "property": "C90",
   "status": "partial",
   "theorems": [
    "C90_restored_partial",
    "C90_reentered_refuted"
   ],
   "note": "Proved when no ReadWrapper is entered inside its own block; refuted otherwise."
  },
  {
   "property": "C91",
   "status": "partial",
   "theorems": [
    "C91_async_handler",
    "C91_no_callbacks_partial",
    "C91_callback_takes_all_refuted",
    "C91_statement_refuted",
    "C91_own_barrier_refuted"
   ],
   "note": "Proved with handle_async, and without it for applications that give no callbacks; refuted in general otherwise: one callback takes every later message."
  },
  {
   "property": "C92",
   "status": "partial",
   "theorems": [
    "C92_ends",
    "C92_every_sink_refuted"
   ],
   "note": "Ending proved for every packet; refuted that it is at a sink: table 4 has no sink for what matches nothing."
  },
  {
   "property": "C93",
   "status": "partial",
   "theorems": [
    "C93_tables_partial",
    "C93_tables_script_partial",
    "C93_address_refuted",
    "C93_tag_refuted",
    "C93_default_gate_refuted",
    "C93_port3_refuted",
    "C93_other_types_refuted"
   ],
   "note": "Proved, up to the hardware addresses written, for IPv4, ARP, controller and tagged frames with the drop eligible bit; refuted for the addresses, other tagged frames, an unset default gate, port 3 in the script, and some other types."
  },
  {
   "property": "C94",
   "status": "partial",
   "theorems": [
    "C94_same_partial",
    "C94_port3_refuted"
   ],
   "note": "Proved except for port 3, where it is refuted."
  },
  {
   "property": "C95",
   "status": "partial",
   "theorems": [
    "C95_aton_mac",
    "C95_aton_mac_capitals",
    "C95_update_refuted"
   ],
   "note": "aton_mac proved; refuted for every constant of the Update modules."
  },
  {
   "property": "C96",
   "status": "proved",
   "theorems": [
    "C96_atomic",
    "C96_program_order"
   ],
   "note": "Proved for both kinds of lock. What a callback does with the channel other than sending is not modelled."
  },
  {
   "property": "C97",
   "status": "partial",
   "theorems": [
    "C97_released_partial",
    "C97_no_deadlock_partial",
    "C97_semaphore_refuted",
    "C97_semaphore_witness_refuted"
   ],
   "note": "Proved with threads (RLock), whatever the callbacks send; refuted with gevent's Semaphore, which use_gevent() would select if it worked (C86)."
  },
  {
   "property": "C98",
   "status": "partial",
   "theorems": [
    "C98_callable_partial",
    "C98_collected_between_refuted"
   ],
   "note": "Proved when nothing is collected while the lock is held; refuted otherwise: the call is made on None and the message reaches nobody."
  },
  {
   "property": "C99",
   "status": "partial",
   "theorems": [
    "C99_answers",
    "C99_flow_padded",
    "C99_requests_refuted",
    "C99_script_refuted"
   ],
   "note": "Proved for every well formed message; refuted that all requests are answered and that the script starts (twink has no serve_forever)."
  },
  {
   "property": "C100",
   "status": "proved",
   "theorems": [
    "C100_hello",
    "C100_learns",
    "C100_nothing_else"
   ],
   "note": "Proved. ovs-ofctl is represented by the reader of rules in S_Hub; that it and the sends succeed is assumed."
  },
  {
   "property": "C101",
   "status": "partial",
   "theorems": [
    "C101_delivery",
    "C101_reached",
    "C101_prompt_exact",
    "C101_progress",
    "C101_last_port_refuted",
    "C101_relearned_refuted"
   ],
   "note": "Delivery, reaching of stations that stay, progress and the exact behaviour of prompt runs proved; refuted for stations that come back to a port and for expiry of the destination flow alone."
  },
  {
   "property": "C102",
   "status": "proved",
   "theorems": [
    "C102_linear",
    "C102_super_found",
    "C102_switched_on",
    "C102_children"
   ],
   "note": "Proved. The class statements were read from the text with a syntax-tree reader; the resolution order follows typeobject.c."
  },
  {
   "property": "C103",
   "status": "partial",
   "theorems": [
    "C103_in_order",
    "C103_once",
    "C103_attach_refuted",
    "C103_recv_refuted",
    "C103_init_refuted"
   ],
   "note": "Proved for __init__, send, recv, close, handle_proxy; refuted for attach (OpenflowChannel.attach goes past the classes between), for _recv (overrides in front are never used) and for __init__ behind Channel."
  },
  {
   "property": "C104",
   "status": "partial",
   "theorems": [
    "C104_attributes_partial",
    "C104_attributes_refuted",
    "C104_mended"
   ],
   "note": "Proved but for four attributes; of these datapath and temp_server are refuted for ParallelChannel and OvsChannel alone, and there with ControllerChannel and ParentChannel. handle_async is tested with hasattr, cbref assigned before it is read."
  },
  {
   "property": "C105",
   "status": "partial",
   "theorems": [
    "C105_handle",
    "C105_async_partial",
    "C105_async_refuted",
    "C105_callbacks",
    "C105_sequential",
    "C105_echo_partial",
    "C105_echo_refuted"
   ],
   "note": "handle, callbacks and the sequential case proved for every combination; handle_async and echo proved for one order of the bases and refuted for the other."
  },
  {
   "property": "C106",
   "status": "partial",
   "theorems": [
    "C106_log_partial",
    "C106_log_application",
    "C106_log_refuted"
   ],
   "note": "Proved unless LoggingChannel comes before ControllerChannel; then the log is what the application sent, without the barriers."
  },
  {
   "property": "C107",
   "status": "partial",
   "theorems": [
    "C107_serves",
    "C107_session",
    "C107_writes_only",
    "C107_early_echo_refuted"
   ],
   "note": "What is written, handled and how the connection ends proved exactly, with all layers of the class composed as C102 says; refuted for an echo request before HELLO. Sends succeed; the accepting thread and other connections are those of C33, C34, C54."
  },
  {
   "property": "C108",
   "status": "partial",
   "theorems": [
    "C108_header4",
    "C108_header5_partial",
    "C108_refused4",
    "C108_refused5_partial",
    "C108_general4",
    "C108_general5",
    "C108_role_status_refuted",
    "C108_meter_mod_refuted"
   ],
   "note": "Proved for every message builder of OpenFlow 1.3; for OpenFlow 1.4 two builders are missing from the list because the claim is refuted for them: ofp_role_status never returns type 30, ofp_meter_mod takes any eight bytes as its header."
  },
  {
   "property": "C109",
   "status": "partial",
   "theorems": [
    "C109_built",
    "C109_property_parsed",
    "C109_parse_refuted"
   ],
   "note": "Building proved whole, and the parsers of the single properties; parsing refuted for every reply in which a queue has a property (NameError)."
  },
  {
   "property": "C110",
   "status": "partial",
   "theorems": [
    "C110_property_built_partial",
    "C110_request_built_partial",
    "C110_reply_built_partial",
    "C110_wrong_type",
    "C110_oxm_types_refuted",
    "C110_experimenter_refuted",
    "C110_table_ids_refuted",
    "C110_action_ids_refuted",
    "C110_query_refuted",
    "C110_oxm_parsed",
    "C110_instructions_parse_refuted",
    "C110_tables_parse_refuted",
    "C110_actions_parse_refuted",
    "C110_experimenter_parse_refuted"
   ],
   "note": "Building proved for all properties in the forms the builders accept; refuted: types 14 and 15 (9 and 11, which do not exist, are built instead), experimenter properties, table ids as numbers, action ids as header objects, a request without body. Parsing proved for match fields; refuted for instructions (TypeError), next tables (wrong ids), actions (endless loop), experimenters (cursor)."
  },
  {
   "property": "C111",
   "status": "partial",
   "theorems": [
    "C111_built4",
    "C111_built5",
    "C111_parsed4",
    "C111_parsed5",
    "C111_round_trip4",
    "C111_round_trip5",
    "C111_every_parser",
    "C111_queue_desc_header_refuted",
    "C111_eviction_length_refuted"
   ],
   "note": "Building and parsing proved exactly (iff) for all structures in the lists of S_Fixed.v; refuted for the header of a queue description property (four bytes too many) and the length of an eviction property (the caller's). Structures with a list, data or text are C109, C110 and the message theorems."
  },
  {
   "property": "C112",
   "status": "partial",
   "theorems": [
    "C112_built",
    "C112_role_built",
    "C112_no_data_refuted",
    "C112_port_stats_refuted",
    "C112_unbuildable_refuted",
    "C112_parsed",
    "C112_round_trip",
    "C112_port_stats_name_refuted",
    "C112_exact_refuted",
    "C112_whole_as_data_refuted",
    "C112_async_refuted",
    "C112_table_feature_refuted"
   ],
   "note": "Building proved exactly (iff) for table and port modification, queue statistics, bundles and role status; refuted for port statistics (no padding), data left out (TypeError) and the builders of ports, table features, queue descriptions and asynchronous configuration (NameError). Parsing proved for table modification, queue statistics and queue descriptions; refuted for port statistics (class name), ports and bundles (cursor before the padding), port modification and role status (the property as its own data), asynchronous configuration (NameError), table features (cursor)."
  },
  {
   "property": "C113",
   "status": "partial",
   "theorems": [
    "C113_id_built",
    "C113_property_built_partial",
    "C113_request_built_partial",
    "C113_reply_built_partial",
    "C113_wrong_type",
    "C113_types_refuted",
    "C113_table_ids_refuted",
    "C113_query_refuted",
    "C113_property_parsed_partial",
    "C113_table_parsed_partial",
    "C113_instructions_refuted",
    "C113_tables_refuted",
    "C113_actions_refuted",
    "C113_parsed_types_refuted"
   ],
   "note": "Building proved for all properties in the forms the builders accept, the names of instructions and actions exactly (iff); refuted: types 14, 15 and 16 (9 and 11, which do not exist, are built instead), table ids as numbers, a request without body; experimenter properties are C112. Parsing proved for match fields and instructions without data and for tables with such properties only, under a wrong class name (C79); refuted for instructions with data (read as more instructions), tables (wrong ids), actions (TypeError), types 14 to 16."
  },
  {
   "property": "C114",
   "status": "partial",
   "theorems": [
    "C114_number",
    "C114_number_short",
    "C114_bytes",
    "C114_masked_bytes_refuted",
    "C114_others_refused",
    "C114_tunnel",
    "C114_list",
    "C114_build_refuted"
   ],
   "note": "Reading proved for all fields that hold a number (with and without mask, whatever the declared length), for byte fields without mask, for the Nicira field, and for lists of OpenFlow and unmasked Stratos fields; refused: cut-short fields, other experimenters, classes and Nicira fields. Refuted: masked byte fields (TypeError), and the builder, with the exception for each kind of argument. The declared length of a number is not checked (C57)."
  },
  {
   "property": "C115",
   "status": "partial",
   "theorems": [
    "C115_messages4",
    "C115_messages5",
    "C115_structures4",
    "C115_structures5",
    "C115_padded",
    "C115_flow_update_refuted",
    "C115_table_status_refuted",
    "C115_instruction_actions_refuted"
   ],
   "note": "Proved (iff) for every message and structure in the tables of S_Exact.v, which follow the specification but for the marked places: refuted are the length of a flow update (eight more), the length of actions in 1.4 (rounded up, not padded) and the place of the table in a table status. Not in the tables: multipart messages, ports, asynchronous configuration (1.3) and ofp_meter_mod (1.4), see C71, C75, C77, C79, C108, fixed-size structures (C111), experimenter properties (C112), match field properties (C110, C113)."
  },
  {
   "property": "C116",
   "status": "partial",
   "theorems": [
    "C116_request4",
    "C116_request5",
    "C116_reply4",
    "C116_reply5",
    "C116_versions",
    "C116_field_ids",
    "C116_flow_request4",
    "C116_flow_request5",
    "C116_group_features",
    "C116_header",
    "C116_async4",
    "C116_async_refuted",
    "C116_meter5_refuted",
    "C116_other_types_refuted"
   ],
   "note": "Proved (iff) for every builder named, in both versions; refuted: types that do not exist, the division of the masks, the header of a meter modification (1.4). With C111, C112 and C115 every builder that can succeed has an exact theorem, but for ports (C108, C78), queue properties (C109) and ids (C113)."
  },
  {
   "property": "C117",
   "status": "partial",
   "theorems": [
    "C117_call_refuted",
    "C117_simple_refuted",
    "C117_multi_refuted",
    "C117_released",
    "C117_multi_released",
    "C117_failed_send_refuted",
    "C117_failed_barrier_refuted"
   ],
   "note": "Proved for calls and multi() that return; refuted: a failed send and a failed barrier leave their entries, and calls without a reader get no answer."
  },
  {
   "property": "C118",
   "status": "partial",
   "theorems": [
    "C118_utf8",
    "C118_port",
    "C118_status",
    "C118_one_name_refuted",
    "C118_cut_name_refuted",
    "C118_build4",
    "C118_build5"
   ],
   "note": "Proved (iff) for reading and building; refuted: one name that is not UTF-8 loses the whole list, names cut in the middle of a character are such names."
  },
  {
   "property": "C119",
   "status": "partial",
   "theorems": [
    "C119_message",
    "C119_unambiguous",
    "C119_length_refuted",
    "C119_cut_refuted",
    "C119_refused",
    "C119_port_mod_errors"
   ],
   "note": "Proved (iff, for all byte strings and offsets); refuted: lengths are not checked in messages of fixed size, cut messages are returned with what there is."
  },
  {
   "property": "C120",
   "status": "partial",
   "theorems": [
    "C120_message",
    "C120_unambiguous",
    "C120_port_refuted",
    "C120_forward_refuted",
    "C120_refused"
   ],
   "note": "Proved (iff, for all byte strings, offsets and depths); refuted: a port is returned as its first property; the length of a message that forwards another is not looked at."
  },
  {
   "property": "C121",
   "status": "partial",
   "theorems": [
    "C121_of13",
    "C121_of14",
    "C121_role",
    "C121_update_refuted",
    "C121_actions_refuted",
    "C121_raise",
    "C121_statistics",
    "C121_message13"
   ],
   "note": "Proved (iff for every function nothing calls; exact exceptions for those that never return); refuted: a flow monitor's update is named a request; the loop over the actions of a 1.3 property never ends."
  },
  {
   "property": "C122",
   "status": "proved",
   "theorems": [
    "C122_endless",
    "C122_outcome",
    "C122_still",
    "C122_types"
   ],
   "note": "Proved (iff, for all byte strings and offsets); with C119 every byte string is taken, refused or endless, and which of the three is decided by two grammars."
  },
  {
   "property": "C123",
   "status": "proved",
   "theorems": [
    "C123_endless",
    "C123_outcome",
    "C123_still",
    "C123_types"
   ],
   "note": "Proved (iff, for all byte strings and offsets, messages held in messages included); with C120 every byte string is taken, refused or endless. The recursion limit of the interpreter is not modelled."
  }
 ]
}
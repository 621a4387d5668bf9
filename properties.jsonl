{"id": "C01", "title": "Message framing is independent of TCP chunking", "statement": "If the peer writes a concatenation of messages, each at least 8 bytes long and with its true length in the header, then successive recv() calls (equivalently iterating the channel) return exactly those messages, in order, each once, no matter how the transport cuts the bytes into reads and how many timeouts or interrupted reads occur in between.", "quantifier": "every list of messages, every split of the byte stream into non-empty reads, every placement of timeouts/EINTR between reads", "why_tests_cant": "The number of ways to split a stream into reads is exponential and any single split can hide a boundary bug.", "anchors": ["twink/base.py:OpenflowBaseChannel.recv", "twink/base.py:OpenflowBaseChannel.__iter__", "twink/base.py:default_wrapper"]}
{"id": "C02", "title": "The receive path neither loses, duplicates nor invents bytes", "statement": "After any number of recv() calls on any byte stream (well formed or not), the concatenation of the returned messages followed by the bytes still held back equals the bytes read from the transport; a truncated last message is never delivered and ends iteration with b''.", "quantifier": "every byte stream, every split, every number of recv() calls, every end-of-stream point", "why_tests_cant": "Malformed streams and end-of-stream points form an unbounded set.", "anchors": ["twink/base.py:OpenflowBaseChannel.recv", "twink/base.py:OpenflowBaseChannel.__iter__"]}
{"id": "C03", "title": "recv() reports end of stream only when the stream ended, and otherwise returns at least a header", "statement": "A recv() that returns b'' does so because the transport reported end of stream (or the channel was closed), and every non-empty message returned is at least 8 bytes, so header decoding above it cannot fail. (Believed false for headers announcing a length below 8: the model decides.)", "quantifier": "every byte stream and every split", "why_tests_cant": "Depends on attacker-chosen header bytes at arbitrary positions of an arbitrary stream.", "anchors": ["twink/base.py:OpenflowBaseChannel.recv", "twink/base.py:parse_ofp_header"]}
{"id": "C04", "title": "A closed channel never touches the transport again", "statement": "Once close() has run, no later recv() reads from the socket: it returns a message that was already completely buffered, or b''. close() is idempotent, and the LoggingChannel closes the socket at most once.", "quantifier": "every history of reads, receives and closes", "why_tests_cant": "Ordering of close against any receive history.", "anchors": ["twink/base.py:Channel.close", "twink/base.py:Channel.closed", "twink/base.py:ReadWrapper.__call__", "twink/base.py:LoggingChannel.close", "twink/base.py:OpenflowBaseChannel.recv"]}
{"id": "C05", "title": "Transport conditions are classified consistently", "statement": "A socket timeout and EINTR make recv() try again without any visible effect; EAGAIN, ECONNRESET, EBADF and KeyboardInterrupt make it report end of stream; every other socket error reaches the caller unchanged and no buffered byte is lost by it.", "quantifier": "every sequence of read outcomes", "why_tests_cant": "Error interleavings with partial reads are unbounded.", "anchors": ["twink/base.py:default_wrapper", "twink/base.py:OpenflowBaseChannel.recv"]}
{"id": "C06", "title": "HELLO round trip", "statement": "parse_hello(hello(versions)) returns exactly the normalised version set when its maximum is at least 4 (OpenFlow 1.3), and exactly the singleton of the maximum when it is below 4.", "quantifier": "every non-empty set of wire versions 0..255 (and the float spellings 1.0..1.4), every xid", "why_tests_cant": "2^256 version sets.", "anchors": ["twink/base.py:hello", "twink/base.py:parse_hello", "twink/base.py:ofp_version_normalize"]}
{"id": "C07", "title": "HELLO messages are well formed on the wire", "statement": "hello(versions) carries its own byte length in the header, the given xid and type 0, its version bitmap element announces 4+4*units bytes, and the whole message length is a multiple of 8. (The last clause is believed false for version sets reaching 32..63 and other even unit counts.)", "quantifier": "every non-empty version set 0..255, every xid", "why_tests_cant": "2^256 version sets.", "anchors": ["twink/base.py:hello"]}
{"id": "C08", "title": "Version negotiation picks the highest common version or refuses", "statement": "On receiving a HELLO a channel sets its version to the maximum of the intersection of the peer's advertised versions with its accepted versions; if the intersection is empty it sends exactly one HELLO_FAILED/INCOMPATIBLE error carrying its own highest version, leaves the version unset and raises ChannelClose. No other message changes the version or sends anything.", "quantifier": "every accept list, every received message", "why_tests_cant": "All pairs of version sets.", "anchors": ["twink/base.py:OpenflowChannel.recv", "twink/base.py:parse_hello", "twink/base.py:ofp_version_normalize"]}
{"id": "C09", "title": "Both ends of a connection negotiate the same version", "statement": "If two twink channels exchange their HELLOs, then either both refuse or both select the same version. (True when both support at least OpenFlow 1.3; believed false otherwise since HELLO then advertises only the highest version.)", "quantifier": "every pair of accept lists", "why_tests_cant": "All pairs of version sets.", "anchors": ["twink/base.py:OpenflowChannel.start", "twink/base.py:OpenflowChannel.recv", "twink/base.py:hello", "twink/base.py:parse_hello"]}
{"id": "C10", "title": "Generated transaction ids are distinct, increasing and fit 32 bits", "statement": "Successive sequential calls of hms_xid() return strictly increasing integers whatever the wall clock does (backwards, midnight, same tick), and at least the first 1.9e9 calls fit in an unsigned 32-bit field.", "quantifier": "every sequence of clock readings, every number of calls", "why_tests_cant": "Clock histories (including jumps backwards) are unbounded.", "anchors": ["twink/base.py:hms_xid", "twink/base.py:ofp_header_only"]}
{"id": "C11", "title": "Transaction ids are unique across threads", "statement": "Two hms_xid() calls made by different threads never return the same id. (Believed false: the check and the store are not atomic.)", "quantifier": "every interleaving of two or more threads", "why_tests_cant": "Thread schedules cannot be enumerated by tests.", "anchors": ["twink/base.py:hms_xid"]}
{"id": "C12", "title": "The HELLO is sent exactly once per channel", "statement": "However often start() and attach(autostart) are called, exactly one HELLO for the accepted versions is written, and it is the first message written by the channel if start() comes first.", "quantifier": "every sequence of start/attach calls", "why_tests_cant": "Call histories are unbounded.", "anchors": ["twink/base.py:OpenflowChannel.start", "twink/base.py:OpenflowChannel.attach"]}
{"id": "C13", "title": "Echo requests are answered exactly once and never reach the handler", "statement": "With AutoEchoChannel, for every received message stream, each ECHO_REQUEST produces exactly one ECHO_REPLY with the same xid, length and payload and the negotiated version, in order; every other message reaches the handler exactly once and produces no reply from this layer.", "quantifier": "every sequence of messages", "why_tests_cant": "Arbitrary payloads and arbitrary message mixes.", "anchors": ["twink/base.py:AutoEchoChannel.handle_proxy", "twink/base.py:OpenflowServerChannel.loop"]}
{"id": "C14", "title": "Echo requests are answered also while a request callback is outstanding", "statement": "On a channel combining ControllerChannel and AutoEchoChannel each ECHO_REQUEST from the switch is answered. (Believed false with ControllerChannel first in the MRO: the message goes to the outstanding callback.)", "quantifier": "every history of sends and receptions, both mixin orders", "why_tests_cant": "Depends on the interleaving of sends with the peer's keep-alives.", "anchors": ["twink/base.py:ControllerChannel.handle_proxy", "twink/base.py:AutoEchoChannel.handle_proxy"]}
{"id": "C15", "title": "The server loop delivers messages in order until the stream ends", "statement": "loop() hands every message of the stream to the handler in order, each exactly once, stops at the end of the stream, closes the channel when the handler or negotiation raises ChannelClose, and delivers nothing after that.", "quantifier": "every message stream, every handler behaviour", "why_tests_cant": "Handlers and streams are arbitrary.", "anchors": ["twink/base.py:OpenflowServerChannel.loop", "twink/base.py:OpenflowBaseChannel.__iter__"]}
{"id": "C16", "title": "The controller's pending queue never holds two adjacent chunks", "statement": "For every history of sends, receptions and callback deaths on a ControllerChannel, handling a message never fails with 'dropping multiple chunks at a time' nor with 'seq element must be Chunk or Barrier'.", "quantifier": "every history of sends, receptions, callback garbage collections", "why_tests_cant": "Histories are unbounded.", "anchors": ["twink/base.py:ControllerChannel.locked_send", "twink/base.py:ControllerChannel.handle_proxy"]}
{"id": "C17", "title": "Replies reach the callback of the request they answer", "statement": "With a switch that obeys barriers, every reply to a request sent with callback=f is passed to f (as long as f is alive), exactly once, and to no other callback, for any interleaving of requests of any number of callers and any reordering of replies the barriers permit.", "quantifier": "every history of sends with arbitrary callbacks and every barrier-respecting reply order", "why_tests_cant": "Reorderings and interleavings are unbounded.", "anchors": ["twink/base.py:ControllerChannel.locked_send", "twink/base.py:ControllerChannel.handle_proxy", "twink/base.py:Chunk", "twink/base.py:Barrier"]}
{"id": "C18", "title": "Replies to requests sent without a callback reach the default handler", "statement": "With a switch that obeys barriers, every reply to a request sent without callback is passed to the channel's default handler, never to somebody else's callback. (Believed false when the pending queue is empty at send time.)", "quantifier": "every history of sends and every barrier-respecting reply order", "why_tests_cant": "Needs a history in which a callback send follows an unanswered plain send.", "anchors": ["twink/base.py:ControllerChannel.locked_send", "twink/base.py:ControllerChannel.handle_proxy"]}
{"id": "C19", "title": "Controller sends are transparent except for separating barriers", "statement": "The bytes written by a ControllerChannel are exactly the messages the caller sent, in order, each once, plus 8-byte barrier requests in the negotiated version's encoding; such a barrier is inserted exactly when a message's callback differs from that of the currently open, callback-tracked batch, and immediately before that message.", "quantifier": "every history of sends", "why_tests_cant": "Histories are unbounded.", "anchors": ["twink/base.py:ControllerChannel.send", "twink/base.py:ControllerChannel.locked_send"]}
{"id": "C20", "title": "Barrier replies of a conforming switch are always accepted", "statement": "If the switch answers barrier requests in order, no barrier reply ever trips an assertion; each is consumed by its own barrier entry, is passed to that barrier's callback exactly once, and auto-inserted barriers' replies are invisible to the application.", "quantifier": "every history of sends with in-order barrier replies", "why_tests_cant": "Histories are unbounded.", "anchors": ["twink/base.py:ControllerChannel.handle_proxy", "twink/base.py:ControllerChannel.locked_send"]}
{"id": "C21", "title": "A failed send leaves the pending queue consistent with the wire", "statement": "If send() raises (socket error, or version not negotiated yet), later traffic is handled as if the failed message had not been sent. (Believed false: the barrier entry stays queued and later barrier replies are rejected.)", "quantifier": "every failure point in a send", "why_tests_cant": "Failure points inside send are not reachable by ordinary tests.", "anchors": ["twink/base.py:ControllerChannel.locked_send", "twink/base.py:ofp_header_only"]}
{"id": "C22", "title": "FEATURES_REPLY sets the datapath identity", "statement": "After reception of a FEATURES_REPLY the channel's datapath (and, from OpenFlow 1.3, auxiliary id) equal the big-endian fields of the message, and no other message changes them.", "quantifier": "every message, every negotiated version", "why_tests_cant": "2^64 datapath ids and arbitrary other messages.", "anchors": ["twink/base.py:ControllerChannel.recv"]}
{"id": "C23", "title": "A synchronous call returns the reply carrying its own transaction id", "statement": "send_sync() returns only data received in messages whose xid equals the request's xid while the call was outstanding; replies to other transactions, in any number and order, do not affect its result; without a reply it returns None.", "quantifier": "every interleaving of any number of outstanding calls and received messages", "why_tests_cant": "Interleavings of concurrent callers with arbitrary traffic.", "anchors": ["twink/base.py:SyncChannel.recv", "twink/base.py:SyncChannel.send_sync"]}
{"id": "C24", "title": "Multipart replies are reassembled completely", "statement": "For a request answered by a multipart reply in n parts interleaved with arbitrary other traffic, the caller wakes exactly after the part without the MORE flag and obtains the concatenation of all n parts in order.", "quantifier": "every number of parts, every interleaving, both encodings (v1.0 stats, v1.1+ multipart)", "why_tests_cant": "Unbounded part counts and interleavings.", "anchors": ["twink/base.py:SyncChannel.recv", "twink/base.py:SyncChannel.send_sync"]}
{"id": "C25", "title": "multi() returns one result per message, in order", "statement": "multi(messages) sends the messages in order followed by a barrier and returns a list of the same length in which entry i is the data received for the i-th message's xid before the barrier reply, or None. single() returns that entry. (Believed to need distinct xids.)", "quantifier": "every list of messages, every reply history", "why_tests_cant": "Arbitrary lists and reply subsets.", "anchors": ["twink/base.py:SyncChannel.multi", "twink/base.py:SyncChannel.single", "twink/base.py:SyncChannel.barrier"]}
{"id": "C26", "title": "Closing the channel releases every synchronous caller", "statement": "After close() every outstanding synchronous call is released, with an empty (false) result, so that the simple calls raise ChannelClose; no outstanding call stays blocked.", "quantifier": "every set of outstanding calls, every history before close", "why_tests_cant": "Unbounded sets of outstanding calls.", "anchors": ["twink/base.py:SyncChannel.close", "twink/base.py:SyncChannel._sync_simple"]}
{"id": "C27", "title": "Simple synchronous calls return only the expected reply type", "statement": "echo(), feature(), get_config() and barrier() return a message of the expected type with the request's xid, or raise ChannelClose when there is none and OpenflowError when the switch answered with something else. (The last clause is believed false: the exception class does not exist.)", "quantifier": "every reply", "why_tests_cant": "Arbitrary replies.", "anchors": ["twink/base.py:SyncChannel._sync_simple", "twink/base.py:SyncChannel.echo", "twink/base.py:SyncChannel.feature", "twink/base.py:SyncChannel.get_config", "twink/base.py:SyncChannel.barrier"]}
{"id": "C28", "title": "The port table follows the switch", "statement": "After the initial port list, the exposed ports equal the map obtained by applying the PORT_STATUS events (add, delete, modify) in order, with one entry per port number and modifications keeping the position; an event inconsistent with that map is rejected and leaves the table unchanged.", "quantifier": "every initial list with distinct numbers, every sequence of PORT_STATUS events without waiters", "why_tests_cant": "Event histories are unbounded.", "anchors": ["twink/base.py:PortMonitorChannel._update_port", "twink/base.py:PortMonitorChannel._ports_replace", "twink/base.py:PortMonitorChannel.ports"]}
{"id": "C29", "title": "Port descriptions are decoded as the switch encoded them", "statement": "For each negotiated version, a port list sent by the switch in the encoding of that OpenFlow version (FEATURES_REPLY up to 1.2, multipart PORT_DESC from 1.3, possibly in several parts) is exposed with the numbers, MAC addresses, names and state words that were encoded. (Believed false for OpenFlow 1.4.)", "quantifier": "every list of ports, every split into parts, every version", "why_tests_cant": "Arbitrary field contents and list lengths.", "anchors": ["twink/base.py:PortMonitorChannel.recv"]}
{"id": "C30", "title": "wait_attach()/wait_detach() callers are woken by the port event", "statement": "If a caller waits for a port and the PORT_STATUS event for it arrives, the caller is released and the table is updated. (Believed false: the notification code raises and the update is lost.)", "quantifier": "every waiter set and every event", "why_tests_cant": "Requires every combination of waiter keys and event contents.", "anchors": ["twink/base.py:PortMonitorChannel._update_port", "twink/base.py:PortMonitorChannel._ports_replace", "twink/base.py:PortMonitorChannel.wait_attach", "twink/base.py:PortMonitorChannel.wait_detach"]}
{"id": "C31", "title": "An async rate limit bounds concurrency and loses no work", "statement": "RateLimit(size): at most `size` submitted calls are running at any time, and each submitted call is executed exactly once with its own arguments. (Both are believed false: late-bound closure variables, 0.5 s join, misspelled name.)", "quantifier": "every schedule of submitters, loop threads and workers", "why_tests_cant": "Thread schedules.", "anchors": ["twink/base.py:RateLimit.spawn", "twink/base.py:RateLimit.loop"]}
{"id": "C32", "title": "A failing handler closes its channel and nothing else", "statement": "With ParallelChannel, an exception in a handler call closes the channel, and does not propagate into the receive loop; a handler that returns normally does not close it.", "quantifier": "every handler outcome, every message", "why_tests_cant": "Arbitrary handlers.", "anchors": ["twink/base.py:ParallelChannel.handle_proxy"]}
{"id": "C33", "title": "Stopping a server ends all its connections", "statement": "After StreamServer.stop() no new connection is accepted for service beyond the one being accepted, every channel whose loop is still running sees end of stream at its next read, and once all loops have ended every channel is closed and deregistered.", "quantifier": "every interleaving of accepts, loop starts, reads and stop", "why_tests_cant": "Thread schedules around stop().", "anchors": ["twink/base.py:StreamServer.start", "twink/base.py:StreamServer.run", "twink/base.py:StreamServer._loop_runner", "twink/base.py:StreamServer.read_wrap", "twink/base.py:StreamServer.stop"]}
{"id": "C34", "title": "A connection whose loop ended is closed and deregistered", "statement": "Whatever a channel's handler does, when its loop ends the server closes the channel and removes it from the set of channels. (Believed false if the handler raises anything but ChannelClose.)", "quantifier": "every handler outcome", "why_tests_cant": "Arbitrary handler failures.", "anchors": ["twink/base.py:StreamServer._loop_runner", "twink/base.py:OpenflowServerChannel.loop"]}
{"id": "C35", "title": "Monitors see the whole conversation", "statement": "Each monitor connected to a MonitorChannel receives, in order and unmodified, every non-HELLO message received from the switch while it is connected; HELLOs are not forwarded; the message is still delivered to the channel's own handler.", "quantifier": "every message stream, every set of monitors", "why_tests_cant": "Arbitrary streams and membership histories.", "anchors": ["twink/base.py:ParentChannel.recv"]}
{"id": "C36", "title": "Jack-in clients talk to the switch through the parent without seeing each other's replies", "statement": "Every non-HELLO message of a jack-in client is forwarded to the switch exactly once and unmodified, and with a barrier-respecting switch each reply is sent back to exactly the client that sent the request.", "quantifier": "every number of clients, every interleaving", "why_tests_cant": "Interleavings.", "anchors": ["twink/base.py:JackinChildChannel.handle", "twink/base.py:WeakCallback.__call__", "twink/base.py:ControllerChannel.locked_send"]}
{"id": "C37", "title": "Threadlet.get() reports the outcome of its function", "statement": "get() returns the function's value on every call once it is finished and re-raises its exception. (Believed false for the second get() after an exception.)", "quantifier": "every outcome, every number of get() calls", "why_tests_cant": "Call histories.", "anchors": ["twink/sched_basic.py:Threadlet"]}
{"id": "C38", "title": "struct packing is faithful", "statement": "For every format used by the codecs: packing succeeds exactly when each value is in the range of its field, yields exactly calcsize bytes in big-endian order, and unpacking the result at any offset of a larger buffer returns the packed values.", "quantifier": "every format, every value tuple, every surrounding buffer", "why_tests_cant": "Value space is astronomically large.", "anchors": ["twink/ofp4/build.py:_pack", "twink/ofp4/build.py:_unpack", "twink/ofp4/parse.py:_unpack"]}
{"id": "C39", "title": "Every built OpenFlow 1.3 message announces its true length", "statement": "Whenever a message builder of ofp4.build returns, the length field of the header equals the number of bytes returned, whatever length the caller put into the header; if the message would exceed 65535 bytes the builder raises instead.", "quantifier": "every argument tuple of every message builder", "why_tests_cant": "Arbitrary bodies.", "anchors": ["twink/ofp4/build.py:ofp_", "twink/ofp4/build.py:ofp_header"]}
{"id": "C40", "title": "Actions round trip", "statement": "For every list of well-formed actions, the bytes built from it are a sequence of 8-byte aligned TLVs laid out as OpenFlow 1.3 prescribes, and parsing them yields the same actions. (Believed false for SET_MPLS_TTL, and set-field/experimenter payloads come back with their padding.)", "quantifier": "every list of actions with arbitrary in-range fields", "why_tests_cant": "Value and list spaces are unbounded.", "anchors": ["twink/ofp4/build.py:ofp_action_output", "twink/ofp4/build.py:ofp_action_group", "twink/ofp4/build.py:ofp_action_set_field", "twink/ofp4/parse.py:ofp_action_", "twink/ofp4/parse.py:ofp_action_mpls_ttl", "twink/ofp4/parse.py:ofp_action_set_field"]}
{"id": "C41", "title": "Instructions round trip", "statement": "For every list of well-formed instructions (goto, metadata, actions, meter, experimenter) the built bytes parse back to the same instructions.", "quantifier": "every list of instructions with arbitrary action lists", "why_tests_cant": "Unbounded nesting and values.", "anchors": ["twink/ofp4/build.py:ofp_instruction_actions", "twink/ofp4/build.py:ofp_instruction_goto_table", "twink/ofp4/parse.py:ofp_instruction_", "twink/ofp4/parse.py:ofp_instruction_actions"]}
{"id": "C42", "title": "Match fields are preserved byte for byte", "statement": "ofp_match built from any OXM byte string is padded to a multiple of 8 with a length that excludes the padding, and parsing returns exactly the original OXM bytes, wherever the match sits in a message.", "quantifier": "every OXM byte string that fits", "why_tests_cant": "Arbitrary strings.", "anchors": ["twink/ofp4/build.py:ofp_match", "twink/ofp4/parse.py:ofp_match"]}
{"id": "C43", "title": "FLOW_MOD round trip", "statement": "parse(build(flow_mod)) returns all fields, the match bytes and the instruction list that were built, and rebuilding the parsed object gives the identical bytes.", "quantifier": "every field value, match and instruction list", "why_tests_cant": "Unbounded space.", "anchors": ["twink/ofp4/build.py:ofp_flow_mod", "twink/ofp4/parse.py:ofp_flow_mod", "twink/ofp4/parse.py:parse"]}
{"id": "C44", "title": "Controller/switch message round trips", "statement": "For packet-in, packet-out, flow-removed, port-status, port, table-mod, switch-features, switch-config, error, hello, echo and async/role messages, whenever the builder returns bytes, parse() of these bytes returns the fields that were given. (Believed false for port-mod.)", "quantifier": "every field value and payload", "why_tests_cant": "Unbounded space.", "anchors": ["twink/ofp4/build.py:ofp_packet_in", "twink/ofp4/build.py:ofp_packet_out", "twink/ofp4/build.py:ofp_flow_removed", "twink/ofp4/build.py:ofp_port_status", "twink/ofp4/build.py:ofp_port_mod", "twink/ofp4/parse.py:parse", "twink/ofp4/parse.py:ofp_packet_in", "twink/ofp4/parse.py:ofp_packet_out", "twink/ofp4/parse.py:ofp_port_mod"]}
{"id": "C45", "title": "Group and meter modification round trips", "statement": "Groups with any buckets and meters with any bands are parsed back as they were built. (Believed false for experimenter bands: parsing does not terminate.)", "quantifier": "every list of buckets/bands", "why_tests_cant": "Unbounded lists.", "anchors": ["twink/ofp4/build.py:ofp_group_mod", "twink/ofp4/build.py:ofp_bucket", "twink/ofp4/build.py:ofp_meter_mod", "twink/ofp4/parse.py:ofp_group_mod", "twink/ofp4/parse.py:ofp_bucket", "twink/ofp4/parse.py:ofp_meter_mod", "twink/ofp4/parse.py:ofp_meter_band_experimenter"]}
{"id": "C46", "title": "Statistics (multipart) round trips", "statement": "For each multipart type, request and reply bodies are parsed back as built, for any number of entries. (Believed false for port statistics, aggregate requests, table features, experimenters.)", "quantifier": "every entry list", "why_tests_cant": "Unbounded lists.", "anchors": ["twink/ofp4/build.py:ofp_multipart_request", "twink/ofp4/build.py:ofp_multipart_reply", "twink/ofp4/build.py:ofp_port_stats", "twink/ofp4/build.py:ofp_aggregate_stats_request", "twink/ofp4/parse.py:ofp_multipart_request", "twink/ofp4/parse.py:ofp_multipart_reply", "twink/ofp4/parse.py:ofp_port_stats"]}
{"id": "C47", "title": "The message parser terminates on every input", "statement": "ofp4.parse.parse() returns or raises for every byte string. (Believed false: zero-length set-field/experimenter TLVs and experimenter meter bands loop forever.)", "quantifier": "every byte string", "why_tests_cant": "Halting on all inputs.", "anchors": ["twink/ofp4/parse.py:parse", "twink/ofp4/parse.py:_list_fetch", "twink/ofp4/parse.py:ofp_action_set_field", "twink/ofp4/parse.py:ofp_action_experimenter_", "twink/ofp4/parse.py:ofp_instruction_experimenter", "twink/ofp4/parse.py:ofp_meter_band_experimenter"]}
{"id": "C48", "title": "OXM fields round trip", "statement": "For every OXM basic field with an in-range value (and mask), oxm.parse(oxm.build(...)) returns class, field, mask flag, length, value and mask unchanged, and parse_list of a concatenation returns all of them in order.", "quantifier": "every field, value, mask and list", "why_tests_cant": "Unbounded space.", "anchors": ["twink/ofp4/oxm.py:build", "twink/ofp4/oxm.py:parse", "twink/ofp4/oxm.py:parse_list"]}
{"id": "C49", "title": "OXM payload sizes agree with the OpenFlow 1.3 specification", "statement": "For every OXM field the payload size used by build and parse equals the size in the OpenFlow 1.3 specification. (Believed false for IPV6_FLABEL and MPLS_LABEL.)", "quantifier": "every field number 0..39", "why_tests_cant": "Needs the complete table, not a sample.", "anchors": ["twink/ofp4/oxm.py:_bits"]}
{"id": "C50", "title": "Buffered packets are released exactly once", "statement": "AutoPacketOut answers each PACKET_IN carrying a switch buffer with exactly one PACKET_OUT with the same buffer id and xid, no actions, in the version's encoding, and sends nothing for unbuffered packets or other messages.", "quantifier": "every message stream, every version", "why_tests_cant": "Arbitrary messages.", "anchors": ["twink/ovs.py:AutoPacketOut"]}
{"id": "C51", "title": "The BESS agent numbers ports uniquely", "statement": "Over any history of port additions and deletions the agent never assigns a port number twice, never assigns a reserved number, and the port table holds exactly the ports added and not deleted.", "quantifier": "every history of add/delete requests", "why_tests_cant": "Unbounded histories.", "anchors": ["bess_of_agent.py:PortManager"]}
{"id": "C52", "title": "The BESS agent's flow table reflects the flows installed", "statement": "Every FLOW_MOD accepted is listed by a later flow-stats reply with its own fields; a second FLOW_MOD with the same cookie is handled without failure. (The last clause is believed false.)", "quantifier": "every history of FLOW_MOD messages", "why_tests_cant": "Unbounded histories.", "anchors": ["bess_of_agent.py:switch_proc"]}
{"id": "C53", "title": "The BESS agent answers every request with the request's transaction id", "statement": "Each FEATURES, CONFIG, ROLE, MULTIPART and BARRIER request is answered exactly once with the same xid. (Believed false for BARRIER.)", "quantifier": "every history of requests", "why_tests_cant": "Unbounded histories.", "anchors": ["bess_of_agent.py:switch_proc"]}
{"id": "C54", "title": "No client can stop the server", "statement": "While the server has not been told to stop, whatever its clients do it goes on accepting connections. (Believed false: a client that resets the connection before the server's HELLO is sent.)", "quantifier": "every history of clients, messages and handler results", "why_tests_cant": "Unbounded histories and failure points.", "anchors": ["twink/base.py:StreamServer.run"]}
{"id": "C55", "title": "Parsing a message consumes exactly the message", "statement": "After ofp4.parse.parse() the cursor has advanced by the length the message announces, so that messages in one buffer can be parsed one after the other. (Believed false for PACKET_IN and PACKET_OUT.)", "quantifier": "every message, every buffer and position", "why_tests_cant": "All messages of unbounded size at all positions.", "anchors": ["twink/ofp4/parse.py:parse", "twink/ofp4/parse.py:ofp_packet_in", "twink/ofp4/parse.py:ofp_packet_out"]}
{"id": "C56", "title": "Building a match field fails or carries exactly the caller's value", "statement": "oxm.build either raises or returns a TLV that carries exactly the value and mask given: no value is cut or padded, and the has-mask flag is set exactly if a mask follows. (Believed false.)", "quantifier": "every field, every value and mask of any Python type", "why_tests_cant": "Arbitrary values.", "anchors": ["twink/ofp4/oxm.py:build"]}
{"id": "C57", "title": "Experimenter and NXM match fields can be built, parsed and listed", "statement": "Every match field of the experimenter classes the module names can be built, and lists that contain such fields can be parsed, each field ending where its announced length says. (Believed false.)", "quantifier": "every experimenter field, every value, every list", "why_tests_cant": "Arbitrary lists and values.", "anchors": ["twink/ofp4/oxm.py:build", "twink/ofp4/oxm.py:parse_list"]}
{"id": "C58", "title": "AutoPacketOut is transparent for the application", "statement": "Adding AutoPacketOut to a channel's classes changes nothing in what the application's callbacks and handler receive. (Believed false for asynchronous messages.)", "quantifier": "every state, every message", "why_tests_cant": "Arbitrary messages and states.", "anchors": ["twink/ovs.py:AutoPacketOut", "twink/base.py:ControllerChannel.handle_proxy"]}
{"id": "C59", "title": "ovs-ofctl options are translated faithfully", "statement": "Each option given to ofctl() becomes exactly the words the ovs-ofctl manual gives for it; an option switched off is not passed; unknown options are refused.", "quantifier": "every list of options and values", "why_tests_cant": "Arbitrary option lists.", "anchors": ["twink/ovs.py:OvsChannel._make_ofctl_options"]}
{"id": "C60", "title": "ofctl runs one command against one temporary server", "statement": "ofctl() starts the temporary server, runs ovs-ofctl exactly once against its address with the negotiated protocol, and stops the server, whatever fails, for every negotiated version. (Believed false for OpenFlow 1.4.)", "quantifier": "every version, option list, command result", "why_tests_cant": "Arbitrary option lists and failures.", "anchors": ["twink/ovs.py:OvsChannel.ofctl"]}
{"id": "C61", "title": "rule2ofp collects exactly the flow-mods", "statement": "Whatever ovs-ofctl sends, rule2ofp's server answers each barrier request once with its transaction id and collects all FLOW_MOD messages, unchanged and in order.", "quantifier": "every message sequence", "why_tests_cant": "Unbounded sequences.", "anchors": ["twink/ovs.py:rule2ofp"]}
{"id": "C62", "title": "A controller following PORT_STATUS agrees with the agent's ports", "statement": "A controller that knows the BESS agent's initial ports and applies every PORT_STATUS message the agent sends has the agent's port table after any history, whatever fails. (Believed false when a BESS call fails after the message was sent.)", "quantifier": "every history of add/delete requests and messages, every failure", "why_tests_cant": "Unbounded histories; failures of external systems.", "anchors": ["bess_of_agent.py:PortManager.add_port", "bess_of_agent.py:PortManager.del_port", "twink/base.py:PortMonitorChannel"]}
{"id": "C63", "title": "Deleting a device removes that device and no other", "statement": "After a deletion reported as successful no port of that name is in the table and all others are. (Believed false for names given twice.)", "quantifier": "every history, every name", "why_tests_cant": "Unbounded histories.", "anchors": ["bess_of_agent.py:PortManager.del_port"]}
{"id": "C64", "title": "PACKET_OUT payloads go to the ports named by their output actions", "statement": "The payload of every PACKET_OUT is written whole and once to the socket of every port named by its output actions, and to no other; no PACKET_OUT raises an exception. (Believed false for reserved ports and other actions.)", "quantifier": "every state, every PACKET_OUT", "why_tests_cant": "Arbitrary action lists and port tables.", "anchors": ["bess_of_agent.py:switch_proc"]}
{"id": "C65", "title": "A failed request does not spoil later ones", "statement": "A port request that is refused or fails leaves the agent able to answer every later request. (Believed false for names that cannot be described.)", "quantifier": "every history", "why_tests_cant": "The failure shows in later requests, after any number of steps.", "anchors": ["bess_of_agent.py:PortManager.add_port", "bess_of_agent.py:switch_proc"]}
{"id": "C66", "title": "Protocol constants have the specification's numbers", "statement": "Whatever the order in which Python walks the dictionaries of an enumeration, the constants the OpenFlow 1.3 and 1.4 modules define equal the numbers of those specifications, and every constant of the specification's enumerations is defined. (Believed false from the queue error type and the wildcards table property on.)", "quantifier": "every order of every dictionary, every name", "why_tests_cant": "Tests use the library's own constants on both sides, so a shifted number is not seen; the order of a dict is not under a test's control.", "anchors": ["twink/ofp4/__init__.py:_enum_base", "twink/ofp5/__init__.py:_enum_base", "twink/ofp4/oxm.py:oxm_ofb_match_fields", "twink/ofp5/oxm.py:oxm_ofb_match_fields"]}
{"id": "C67", "title": "name() is the inverse of the constants", "statement": "For every enumeration, name(v) returns a constant of that enumeration with value v, the only one when no two share it, and None exactly when there is none. (Believed false for the wildcards of OpenFlow 1.0.)", "quantifier": "every enumeration that can be declared, every value, every order of every dictionary", "why_tests_cant": "Declarations and values are unbounded.", "anchors": ["twink/ofp4/__init__.py:_enum_base.name", "twink/ofp5/__init__.py:_enum_base.name"]}
{"id": "C68", "title": "bitnames() lists exactly the set flags", "statement": "For every enumeration of flags and every value, bitnames(v) lists exactly the names of the bits set in v; if no set bit has a name, it gives the name for no bit, if there is one. (Believed false for flags declared as numbers.)", "quantifier": "every enumeration that can be declared, every value", "why_tests_cant": "Values are unbounded integers.", "anchors": ["twink/ofp4/__init__.py:_enum_base.bitnames", "twink/ofp5/__init__.py:_enum_base.bitnames"]}
{"id": "C69", "title": "The OpenFlow 1.0 match of a frame", "statement": "For every Ethernet frame, tagged or not, ofptuple returns the fields of its Ethernet, IPv4, ARP, TCP, UDP and ICMP headers. (Believed false behind LLC/SNAP, with IP options and for fragments.)", "quantifier": "every frame", "why_tests_cant": "The fields are taken at fixed offsets; the frames for which these are right are infinitely many, and so are those for which they are not.", "anchors": ["twink/ofp4/__init__.py:ofptuple", "twink/ofp5/__init__.py:ofptuple"]}
{"id": "C70", "title": "Looking at a frame does not fail", "statement": "ofptuple returns for every frame that has an Ethernet header. (Believed false for frames of less than 46 bytes.)", "quantifier": "every byte string", "why_tests_cant": "All byte strings.", "anchors": ["twink/ofp4/__init__.py:ofptuple", "twink/ofp5/__init__.py:ofptuple"]}
{"id": "C71", "title": "OpenFlow 1.4 messages announce their length", "statement": "Every message a builder of the OpenFlow 1.4 module returns starts with version 5 and announces its own size in bytes. (Believed false for ofp_meter_mod.)", "quantifier": "every builder, every argument list of whatever types", "why_tests_cant": "Arguments are nested lists and objects of unbounded size and arbitrary type.", "anchors": ["twink/ofp5/build.py:_obj", "twink/ofp5/build.py:ofp_header", "twink/ofp5/build.py:ofp_meter_mod"]}
{"id": "C72", "title": "OpenFlow 1.4 actions round-trip", "statement": "Any list of OpenFlow 1.4 actions is built to the layout of the specification, aligned to eight bytes, and parsed back to the same actions wherever it stands; built again it gives the same bytes. (Believed false for SET_MPLS_TTL and for unaligned payloads.)", "quantifier": "every list of actions of every kind, every field value, every surrounding bytes", "why_tests_cant": "Lists and payloads are unbounded.", "anchors": ["twink/ofp5/build.py:ofp_action_header", "twink/ofp5/build.py:ofp_action_set_field", "twink/ofp5/parse.py:ofp_action_"]}
{"id": "C73", "title": "OpenFlow 1.4 instructions and bundles of actions round-trip", "statement": "Any list of OpenFlow 1.4 instructions, with any actions inside, is built to the layout of the specification and parsed back; unknown types are rejected.", "quantifier": "every list of instructions, every list of actions in them", "why_tests_cant": "Lists are unbounded and nested.", "anchors": ["twink/ofp5/build.py:ofp_instruction_actions", "twink/ofp5/parse.py:ofp_instruction_"]}
{"id": "C74", "title": "OpenFlow 1.4 matches round-trip", "statement": "Any match is built padded to eight bytes with the length that excludes the padding, and parsed back wherever it stands with the cursor behind the padding.", "quantifier": "every sequence of OXM fields", "why_tests_cant": "The fields are an unbounded byte sequence; the padding depends on its length.", "anchors": ["twink/ofp5/build.py:ofp_match", "twink/ofp5/parse.py:ofp_match"]}
{"id": "C75", "title": "OpenFlow 1.4 messages round-trip", "statement": "Every OpenFlow 1.4 message (hello, errors, configuration, packet-in and -out, flow, group and table modification, role, asynchronous configuration, bundles, ...) built from any form of its arguments is parsed, wherever it stands, to the same contents, with the cursor at its end.", "quantifier": "every message, every way of giving its arguments, every surrounding bytes", "why_tests_cant": "Messages nest lists of unbounded length.", "anchors": ["twink/ofp5/build.py:ofp_flow_mod", "twink/ofp5/build.py:ofp_packet_out", "twink/ofp5/build.py:ofp_async_config", "twink/ofp5/parse.py:parse", "twink/ofp5/parse.py:ofp_flow_mod"]}
{"id": "C76", "title": "Messages held by OpenFlow 1.4 messages", "statement": "Bundles and request-forward messages hold whole messages, to any depth; building and parsing keeps every layer and the message at the bottom. (Believed false when a bundle message has properties.)", "quantifier": "every depth of nesting, every message inside", "why_tests_cant": "The depth of nesting is unbounded.", "anchors": ["twink/ofp5/build.py:ofp_bundle_add_msg", "twink/ofp5/build.py:ofp_requestforward_header", "twink/ofp5/parse.py:ofp_bundle_add_msg", "twink/ofp5/parse.py:ofp_bundle_ctrl_msg"]}
{"id": "C77", "title": "OpenFlow 1.4 port and meter modification", "statement": "PORT_MOD and METER_MOD are built to the layout of the specification and parsed back. (Believed false: the port modification is read from the start of the message, the meter modification is sent with the caller's header.)", "quantifier": "every port, every list of properties, every list of bands", "why_tests_cant": "For most ports the parser does not end, which no test can observe.", "anchors": ["twink/ofp5/build.py:ofp_port_mod", "twink/ofp5/build.py:ofp_meter_mod", "twink/ofp5/parse.py:ofp_port_mod", "twink/ofp5/parse.py:ofp_meter_mod"]}
{"id": "C78", "title": "OpenFlow 1.4 status messages", "statement": "PORT_STATUS, ROLE_STATUS and TABLE_STATUS are built and parsed. (Believed false for all three.)", "quantifier": "every port, role and table with any properties", "why_tests_cant": "That none of infinitely many messages is parsed is no result of a test.", "anchors": ["twink/ofp5/build.py:ofp_port_status", "twink/ofp5/build.py:ofp_role_status", "twink/ofp5/build.py:ofp_table_status", "twink/ofp5/parse.py:ofp_port_status", "twink/ofp5/parse.py:ofp_role_status", "twink/ofp5/parse.py:ofp_table_status"]}
{"id": "C79", "title": "OpenFlow 1.4 statistics round-trip", "statement": "Multipart requests and replies with any number of entries are built and parsed to the same contents. (Believed false for table, port and queue statistics and descriptions, meter requests, and the importance of flows.)", "quantifier": "every number of entries, every field value", "why_tests_cant": "Entries are unbounded in number and nested.", "anchors": ["twink/ofp5/build.py:ofp_multipart_request", "twink/ofp5/build.py:ofp_multipart_reply", "twink/ofp5/parse.py:ofp_multipart_request", "twink/ofp5/parse.py:ofp_multipart_reply"]}
{"id": "C80", "title": "The OpenFlow 1.4 parser comes back", "statement": "parse() returns or raises for every byte string at every offset. (Believed false: zero-length elements and port modifications hold it up.)", "quantifier": "every byte string, every offset, every depth of nesting", "why_tests_cant": "Non-termination cannot be observed, and byte strings are unbounded.", "anchors": ["twink/ofp5/parse.py:parse", "twink/ofp5/parse.py:_list_fetch", "twink/ofp5/parse.py:ofp_action_"]}
{"id": "C81", "title": "Parsed OpenFlow 1.4 messages build to the same bytes", "statement": "Parsing a message and building the resulting object gives the bytes it was parsed from. (Believed false for table modification, forwarded requests and some statistics.)", "quantifier": "every message that is parsed", "why_tests_cant": "Which of infinitely many messages come back is an equivalence, not an example.", "anchors": ["twink/ofp5/build.py:_obj", "twink/ofp5/parse.py:parse"]}
{"id": "C82", "title": "Helper sockets are named after the switch and removed", "statement": "After the switch's HELLO a ParentChannel has one socket for each helper wanted, named after the datapath once FEATURES_REPLY has told it, and close() removes them all. (Believed false when a second FEATURES_REPLY tells another datapath.)", "quantifier": "every history of messages, clients joining and leaving, and failures", "why_tests_cant": "Histories are unbounded, and a file left behind depends on the order of renames, failures and close.", "anchors": ["twink/base.py:helper_path", "twink/base.py:ParentChannel.recv", "twink/base.py:ParentChannel.close"]}
{"id": "C83", "title": "OpenFlow 1.4 match fields round-trip", "statement": "Every match field built by ofp5.oxm.build is parsed back to the same field, value and mask; lists likewise; whatever is parsed builds the bytes it was parsed from; parse_list comes to an end on every input. (Believed false for classes other than OPENFLOW_BASIC.)", "quantifier": "every field number, value and mask; lists of any length; every byte string and offset", "why_tests_cant": "128 fields with 2^128 values each and lists of them; termination on every input.", "anchors": ["twink/ofp5/oxm.py:build", "twink/ofp5/oxm.py:parse", "twink/ofp5/oxm.py:parse_list"]}
{"id": "C84", "title": "OpenFlow 1.4 match fields have the specification's sizes and numbers", "statement": "For each match field of OpenFlow 1.4, what is built has the payload size of the specification, a TLV of that size is parsed and one of another size refused, and the constant of oxm.py is the specification's number. (Believed false for IPV6_FLABEL, MPLS_LABEL and PBB_UCA.)", "quantifier": "every field, value, mask, payload and position", "why_tests_cant": "The sizes must hold for every value and every surrounding bytes.", "anchors": ["twink/ofp5/oxm.py:_bits", "twink/ofp5/oxm.py:oxm_ofb_match_fields"]}
{"id": "C85", "title": "The datagram server gives each datagram to the channel of its sender", "statement": "While a DgramServer runs, one channel is made and started for each remote address, and every datagram is handled by the channel of its sender. (Believed false: recv() is called without its argument and StringIO is not imported.)", "quantifier": "every sequence of datagrams, timeouts, failures and stops, every number of senders", "why_tests_cant": "Sequences of datagrams and senders are unbounded.", "anchors": ["twink/base.py:DgramServer.run", "twink/base.py:DgramServer.locked_loop", "twink/base.py:DgramServer.stop"]}
{"id": "C86", "title": "use_gevent() selects the gevent scheduler", "statement": "After use_gevent() every name taken from twink.sched is the gevent scheduler's; before, the thread scheduler's; only the seven names of a scheduler are found. (Believed false: the function assigns a local variable.)", "quantifier": "every program of calls and look-ups, every name", "why_tests_cant": "The claim is about every program, and the failure is silent: the threads scheduler works as well.", "anchors": ["twink/base.py:use_gevent", "twink/base.py:_sched_proxy.__getattr__"]}
{"id": "C87", "title": "serve_forever stops the servers it started", "statement": "serve_forever starts the servers in order and, however it is left, every server that was started has been stopped; none is stopped before the event. (Believed false when a start() or a stop() raises.)", "quantifier": "every list of servers, every outcome of start(), stop() and the wait, both schedulers", "why_tests_cant": "Any combination of failing servers and any number of them.", "anchors": ["twink/sched_basic.py:serve_forever", "twink/sched_gevent.py:serve_forever"]}
{"id": "C88", "title": "Logging is transparent and exact", "statement": "Putting LoggingChannel under a channel changes no result and no byte on the wire, and decoding its log gives the messages sent and received, in order.", "quantifier": "every history of sends, receives and closes, every message, every behaviour of the transport", "why_tests_cant": "Histories and messages are unbounded, and transparency compares two programs.", "anchors": ["twink/base.py:LoggingChannel.send", "twink/base.py:LoggingChannel.recv", "twink/base.py:LoggingChannel.close"]}
{"id": "C89", "title": "Messages sent are received whole", "statement": "If every send() returns, the peer's recv() returns exactly the messages sent, whatever the chunking; on a closed channel every send() raises. (Believed false: a short write goes unnoticed.)", "quantifier": "every list of messages, every outcome of the write calls, every chunking", "why_tests_cant": "Short writes happen only under load; chunkings are unbounded in number.", "anchors": ["twink/base.py:Channel.send", "twink/base.py:OpenflowBaseChannel.recv"]}
{"id": "C90", "title": "A read wrapper is in force inside its block only", "statement": "After any use of ReadWrapper in with statements, left normally or by an exception, the channel has its former wrapper, and each read inside uses the innermost one. (Believed false when a ReadWrapper is entered again inside its own block.)", "quantifier": "every nesting of blocks, reads and exceptions", "why_tests_cant": "Nestings are unbounded.", "anchors": ["twink/base.py:ReadWrapper.__enter__", "twink/base.py:ReadWrapper.__exit__"]}
{"id": "C91", "title": "Messages the switch sends of its own accord reach the application", "statement": "PACKET_IN, FLOW_REMOVED and PORT_STATUS go to the application's handle_async if it has one, or else to its handler, never to the callback of a request. (Believed false without handle_async: an outstanding callback takes everything.)", "quantifier": "every history of sends, callbacks, received messages and failures", "why_tests_cant": "Which callback is installed depends on the whole history.", "anchors": ["twink/base.py:ControllerChannel.handle_proxy", "twink/base.py:ControllerChannel.locked_send"]}
{"id": "C92", "title": "Every packet's way through the CORD pipeline ends", "statement": "In the pipelines of cord_softswitch_pipeline and cord_softswitch_pipeline.bess every packet comes to a sink or is dropped at a match that has no rule for it, after at most thirteen modules. (That it comes to a sink is believed false.)", "quantifier": "every packet, whatever its bytes and metadata; every choice of the group; every default gate; every reading of constants by BESS", "why_tests_cant": "Packets are unbounded, and a cycle of modules shows only for packets that follow it.", "anchors": ["cord_softswitch_pipeline:connect_bess", "cord_softswitch_pipeline.bess:t0_start", "cord_softswitch_pipeline.bess:t4_start"]}
{"id": "C93", "title": "The CORD pipeline forwards as the OpenFlow tables in its comments", "statement": "A frame leaves the pipeline where an OpenFlow switch with the tables written in the comments sends it, with the same bytes and tunnel. (Believed false for the addresses written, tagged frames, port 3 in the script, and frames that are not IPv4.)", "quantifier": "every well formed Ethernet frame (VLAN, IPv4 with options and fragments, ARP, others), every port, every tunnel, every choice of the group", "why_tests_cant": "Compares two programs on all frames; the project has no test of the pipeline.", "anchors": ["cord_softswitch_pipeline:connect_bess", "cord_softswitch_pipeline.bess:t0_start", "cord_softswitch_pipeline.bess:t3_start", "cord_softswitch_pipeline.bess:t4_start"]}
{"id": "C94", "title": "The two forms of the CORD pipeline are the same switch", "statement": "cord_softswitch_pipeline and cord_softswitch_pipeline.bess send every packet to the same sink with the same bytes and metadata, or both drop it. (Believed false for port 3.)", "quantifier": "every packet, every default gate, every choice of the group", "why_tests_cant": "The files build their modules and rules in different order and with different names; only behaviour on all packets can be compared.", "anchors": ["cord_softswitch_pipeline:connect_bess", "cord_softswitch_pipeline.bess:t0_inport", "cord_softswitch_pipeline.bess:t3_start"]}
{"id": "C95", "title": "Constants of the CORD pipeline fit their fields", "statement": "aton_mac gives the bytes of every address in colon notation and fails on other numbers of bytes; every constant written into a field has the size of the field. (Believed false for the hardware addresses of Update, which are not converted.)", "quantifier": "every list of bytes, every constant of both files", "why_tests_cant": "aton_mac is claimed for all addresses.", "anchors": ["cord_softswitch_pipeline:aton_mac", "cord_softswitch_pipeline:set_val", "cord_softswitch_pipeline.bess:aton_mac"]}
{"id": "C96", "title": "Sends and messages of several threads happen one after the other", "statement": "However the threads that send, receive and run callbacks on a ControllerChannel are interleaved, the results of all sends and routings, and the messages handed to the transport, are those of some order in which each happens in one step; and each thread does its own jobs in order.", "quantifier": "every number of threads, every list of sends and received messages of each, every callback's own sends, every interleaving, collection of callbacks and change of version at any time, every failure of the transport", "why_tests_cant": "Interleavings are unbounded in number and the bad ones show only under load.", "anchors": ["twink/base.py:ControllerChannel.send", "twink/base.py:ControllerChannel.locked_send", "twink/base.py:ControllerChannel.handle_proxy"]}
{"id": "C97", "title": "A callback may send on its channel", "statement": "A callback called by ControllerChannel with the lock held may itself send, and the lock is then released; no thread waits for ever. (Believed false with the gevent scheduler, whose lock cannot be taken twice by its holder.)", "quantifier": "every number of threads, every interleaving, every callback", "why_tests_cant": "Deadlock is about all continuations of all reachable states.", "anchors": ["twink/base.py:ControllerChannel.handle_proxy", "twink/sched_basic.py:Lock", "twink/sched_gevent.py:Lock"]}
{"id": "C98", "title": "A callback that is gone is not called", "statement": "handle_proxy never calls a callback that has been collected: the message goes to the default handler. (Believed false: the weak reference is read twice.)", "quantifier": "every number of threads, every interleaving, collection at any time", "why_tests_cant": "The collection has to fall between two readings in one line.", "anchors": ["twink/base.py:WeakCallbackCaller.callback", "twink/base.py:ControllerChannel.handle_proxy"]}
{"id": "C99", "title": "The example switch answers requests with their transaction id", "statement": "test/example_switch.py answers FEATURES, GET_CONFIG and flow MULTIPART requests with its fixed descriptions under the request's transaction id, says nothing else, and never fails on a well formed message. (Believed false that every request is answered, and that the script starts.)", "quantifier": "every well formed OpenFlow 1.3 message and transaction id, every outcome of the transport", "why_tests_cant": "The program is never run by the tests; requests are unbounded in number and size.", "anchors": ["test/example_switch.py:switch_proc"]}
{"id": "C100", "title": "The hub's rules say what a learning bridge needs", "statement": "test/example_controller_switchinghub.py, told of a frame from a station, adds flows that ovs-ofctl reads as exactly the station's source and destination flows and releases the buffer; told HELLO, it adds a group of all ports and the base flows; it asks nothing else of the switch.", "quantifier": "every frame (addresses, port, payload), every match with the port among its fields, every list of ports, every other message", "why_tests_cant": "The rules are texts made by formatting; the claim is about reading back all of them.", "anchors": ["test/example_controller_switchinghub.py:TestChannel.handle_async", "test/example_controller_switchinghub.py:TestChannel.handle", "twink/ovs.py:OvsChannel.add_flow"]}
{"id": "C101", "title": "The hub delivers frames", "statement": "A switch under the hub never sends a frame back to its port, sends frames for group addresses to every other port and every other frame to every other port or to one where its destination has been seen; a station that stays at one port is reached; frames go to the port where the station was seen last. (The last part is believed false for stations that come back to a port or whose destination flow expires.)", "quantifier": "every number of ports and stations, every sequence of frames, every order of handling PACKET_INs, every expiry of learned flows", "why_tests_cant": "Histories of frames, handling and expiry are unbounded.", "anchors": ["test/example_controller_switchinghub.py:TestChannel.handle_async", "test/example_controller_switchinghub.py:TestChannel.handle"]}
{"id": "C102", "title": "super() reaches a method in every combination of the channel classes", "statement": "In every class that Python accepts on top of twink the resolution order has the class first and each ancestor once and keeps the order of the bases; every super() call in twink then finds its method, in the next class that has one.", "quantifier": "every list of further class statements that Python accepts, with any bases, methods and super() calls; every class; every super() call in base.py and ovs.py", "why_tests_cant": "The classes are made to be combined by applications; the combinations are unbounded in number.", "anchors": ["twink/base.py:ControllerChannel", "twink/base.py:ParentChannel", "twink/base.py:LoggingChannel", "twink/ovs.py:OvsChannel", "twink/ovs.py:AutoPacketOut"]}
{"id": "C103", "title": "Every class of a combination does its part once", "statement": "A call of __init__, send, recv, close, handle_proxy, attach or _recv on an object runs the method of each of its classes exactly once, in resolution order, if the overrides of the application call on. (Believed false for attach and _recv, and for __init__ of classes behind Channel.)", "quantifier": "every list of further class statements that Python accepts whose overrides call super(), every class", "why_tests_cant": "Which class is skipped depends on the combination.", "anchors": ["twink/base.py:OpenflowChannel.attach", "twink/base.py:OpenflowBaseChannel.recv", "twink/base.py:Channel.__init__", "twink/base.py:LoggingChannel.send", "twink/base.py:ParentChannel.close"]}
{"id": "C104", "title": "What the methods read from self exists", "statement": "In every combination of the classes, each attribute that a method of twink reads from self is there once the object has been made. (Believed false for ParallelChannel.datapath and OvsChannel.temp_server.)", "quantifier": "every list of further class statements that Python accepts whose __init__ call super(), every class, every attribute read", "why_tests_cant": "A missing attribute shows only in the combination without the class that has it.", "anchors": ["twink/base.py:ParallelChannel.helper_path", "twink/ovs.py:OvsChannel.ofctl", "twink/base.py:ParentChannel.__init__"]}
{"id": "C105", "title": "Who handles a message, in which thread, for every combination", "statement": "With ParallelChannel among its classes an object never runs handle() or handle_async() in the thread that reads; callbacks always run there; without it everything does; echo requests are answered. (Believed false for handle_async() when ParallelChannel comes before ControllerChannel, and for echo requests when ControllerChannel comes before AutoEchoChannel.)", "quantifier": "every combination that leaves handle_proxy alone, every state of the queue of callbacks, every message, every async_rate", "why_tests_cant": "The order of the bases decides, and all orders are legal.", "anchors": ["twink/base.py:ParallelChannel.handle_proxy", "twink/base.py:ControllerChannel.handle_proxy", "twink/base.py:AutoEchoChannel.handle_proxy", "twink/__main__.py:TcpChannel"]}
{"id": "C106", "title": "The log of a combination is what goes over the wire", "statement": "With LoggingChannel among its classes the messages an object logs as sent are those it writes, in the same order, the barriers it adds itself included. (Believed false when LoggingChannel comes before ControllerChannel.)", "quantifier": "every combination that leaves send alone, every sequence of sends with and without callbacks", "why_tests_cant": "Barriers are added depending on all sends before.", "anchors": ["twink/base.py:LoggingChannel.send", "twink/base.py:ControllerChannel.locked_send"]}
{"id": "C107", "title": "The standalone controller, from bytes to bytes", "statement": "python -m twink writes to each switch its HELLO for OpenFlow 1.3, one reply for each echo request in order, a refusal to a switch without 1.3, and nothing else, whatever it receives; a switch that speaks 1.3 is served for as long as it sends well formed messages. (The last part is believed false for an echo request before HELLO.)", "quantifier": "every sequence of messages, every way the bytes are cut into reads and delayed, whether the stream ends or stays open", "why_tests_cant": "All layers take part: framing, negotiation, callbacks, echo, server loop; the streams are unbounded.", "anchors": ["twink/__main__.py:TcpChannel", "twink/base.py:StreamServer._loop_runner", "twink/base.py:OpenflowServerChannel.loop", "twink/base.py:ControllerChannel.recv", "twink/base.py:AutoEchoChannel.handle_proxy"]}
{"id": "C108", "title": "A built message has the header it was asked for", "statement": "Every message builder returns messages of its own version and of a type that is its own - the one its header argument names, which may be left open where there is only one - with the transaction id of the header argument, or the one drawn if it names none; any other header is refused whatever the other arguments are. (Believed false for ofp_role_status and ofp_meter_mod of OpenFlow 1.4.)", "quantifier": "every message builder of OpenFlow 1.3 and 1.4, every header argument in every form, whatever the other arguments", "why_tests_cant": "A message with the wrong type would be accepted by the peer as something else; the other arguments are unbounded and each may be built on its own path.", "anchors": ["twink/ofp4/build.py:ofp_", "twink/ofp4/build.py:ofp_header", "twink/ofp5/build.py:ofp_", "twink/ofp5/build.py:ofp_meter_mod", "twink/ofp5/build.py:ofp_role_status"]}
{"id": "C109", "title": "Queues with properties", "statement": "The OpenFlow 1.3 builders lay out queue configuration replies with any queues, each with any minimum rate, maximum rate and experimenter properties, as the specification says, however headers, properties and queues are written; the parser returns the same queues. (The parser is believed to fail with NameError as soon as a queue has a property.)", "quantifier": "every list of queues, every list of properties of each, every way of writing them, every position in the input", "why_tests_cant": "Lengths are nested three levels deep and computed from the contents.", "anchors": ["twink/ofp4/build.py:ofp_packet_queue", "twink/ofp4/build.py:ofp_queue_prop_header", "twink/ofp4/build.py:ofp_queue_prop_min_rate", "twink/ofp4/build.py:ofp_queue_prop_experimenter", "twink/ofp4/parse.py:ofp_packet_queue", "twink/ofp4/parse.py:ofp_queue_prop_min_rate"]}
{"id": "C110", "title": "Table features", "statement": "The OpenFlow 1.3 builders lay out table features requests and replies with any tables and any instruction, next table, action, match field and experimenter properties, of the types the specification gives them, as the specification says, and refuse other types; the parsers of the properties return what was built and leave the cursor behind it. (Believed false for two types and for experimenter properties, for table and action ids given as objects, for a request without a body, and for all parsers but the one of match fields.)", "quantifier": "every list of tables, every list of properties of each, every list of ids, every way of writing them, every position in the input", "why_tests_cant": "Five kinds of properties with lists of ids of any length, padded each, nested in tables nested in messages.", "anchors": ["twink/ofp4/build.py:ofp_table_features", "twink/ofp4/build.py:ofp_table_feature_prop_instructions", "twink/ofp4/build.py:ofp_table_feature_prop_next_tables", "twink/ofp4/build.py:ofp_table_feature_prop_actions", "twink/ofp4/build.py:ofp_table_feature_prop_oxm", "twink/ofp4/build.py:ofp_table_feature_prop_experimenter", "twink/ofp4/build.py:ofp_multipart_request", "twink/ofp4/parse.py:ofp_table_feature_prop_next_tables", "twink/ofp4/parse.py:ofp_table_feature_prop_actions"]}
{"id": "C111", "title": "Structures of fixed size", "statement": "Each builder of a fixed-size structure of OpenFlow 1.3 and 1.4 (instructions, actions, meter bands, statistics bodies, property headers and properties) accepts exactly the arguments that say numbers its fields can hold and lays them out in exactly the order and widths of the specification; each parser returns exactly the numbers that are there wherever the structure stands and whatever the padding holds, raises struct.error when it is cut short, and building what was parsed gives the same bytes. (Believed false for the header of a queue description property, and for the length of an eviction property.)", "quantifier": "every structure of the list, every argument list of any values, every nesting depth, every message and offset", "why_tests_cant": "Eighty builders and parsers with up to fifteen fields; the refusals are over all values of all types.", "anchors": ["twink/ofp4/build.py:ofp_meter_features", "twink/ofp4/parse.py:ofp_meter_features", "twink/ofp5/build.py:ofp_port_mod_prop_optical", "twink/ofp5/parse.py:ofp_port_mod_prop_optical", "twink/ofp5/build.py:ofp_queue_desc_prop_header", "twink/ofp5/build.py:ofp_table_mod_prop_eviction"]}
{"id": "C112", "title": "Experimenter properties, OpenFlow 1.4", "statement": "Each OpenFlow 1.4 builder of an experimenter property (ports, table modifications and features, port modifications and statistics, queue statistics and descriptions, bundles, asynchronous configuration, role status) accepts exactly two 32-bit numbers and data that leave the length in 16 bits, and returns type 65535, the length without padding, both numbers, the data and padding to eight bytes; each parser returns what was built and goes on behind the padding. (Believed false for the padding in port statistics, for data left out, for four builders and for all parsers but three.)", "quantifier": "every argument list of any values, every nesting depth, all data, every message and offset", "why_tests_cant": "Ten builders and ten parsers, each over data of every length modulo eight.", "anchors": ["twink/ofp5/build.py:ofp_table_mod_prop_experimenter", "twink/ofp5/build.py:ofp_port_stats_prop_experimenter", "twink/ofp5/build.py:ofp_port_desc_prop_experimenter", "twink/ofp5/build.py:ofp_role_prop_experimenter", "twink/ofp5/build.py:ofp_bundle_prop_experimenter", "twink/ofp5/parse.py:ofp_table_mod_prop_experimenter", "twink/ofp5/parse.py:ofp_port_mod_prop_experimenter", "twink/ofp5/parse.py:ofp_bundle_prop_experimenter", "twink/ofp5/parse.py:ofp_table_feature_prop_experimenter"]}
{"id": "C113", "title": "Table features, OpenFlow 1.4", "statement": "The OpenFlow 1.4 builders lay out table features requests and replies with any tables and any instruction, table, action and match field properties, and the names of instructions and actions with an experimenter's data, as the specification says, and refuse other types; the parsers return what was built. (Believed false for the types 14, 15 and 16, for table ids given as numbers, for a request without a body, and for the parsers of tables, actions and instructions with data.)", "quantifier": "every list of tables, every list of properties of each, every list of ids, every way of writing them, every position in the input", "why_tests_cant": "Four kinds of properties with lists of ids of any length, padded each, nested in tables nested in messages.", "anchors": ["twink/ofp5/build.py:ofp_table_features", "twink/ofp5/build.py:ofp_table_feature_prop_instructions", "twink/ofp5/build.py:ofp_instruction_id", "twink/ofp5/build.py:ofp_table_feature_prop_tables", "twink/ofp5/build.py:ofp_table_feature_prop_actions", "twink/ofp5/build.py:ofp_action_id", "twink/ofp5/build.py:ofp_table_feature_prop_oxm", "twink/ofp5/parse.py:ofp_table_features", "twink/ofp5/parse.py:ofp_table_feature_prop_instructions", "twink/ofp5/parse.py:ofp_table_feature_prop_tables"]}
{"id": "C114", "title": "Match fields of other organisations", "statement": "The OpenFlow 1.3 parser of match fields reads every Stratos field that holds a number (802.11 and radiotap fields) as that number, with the size, sign and byte order radiotap gives it, and its mask; every other Stratos field as the bytes its length announces, and its mask; the Nicira tunnel address; it refuses fields cut short and all other organisations' fields; lists of OpenFlow and Stratos fields in any order read back, and the builder builds what the parser reads. (Believed false for masked fields that hold no number, for the declared length of a number, which nothing checks, and for the builder altogether.)", "quantifier": "every field, type, value, mask, declared length, position and list", "why_tests_cant": "Values of up to 64 bits under masks, 128 fields of 65536 types each, lists of any length.", "anchors": ["twink/ofp4/oxm.py:parse", "twink/ofp4/oxm.py:_stratos_basic_bits", "twink/ofp4/oxm.py:_stratos_radiotap_bits", "twink/ofp4/oxm.py:_nxm_basic_bits", "twink/ofp4/oxm.py:parse_list", "twink/ofp4/oxm.py:build_stratos"]}
{"id": "C115", "title": "Exactly what builders accept", "statement": "Each builder of a message and of a structure that holds others, of OpenFlow 1.3 and 1.4, accepts exactly the arguments its layout takes - a header that asks for its version and type or leaves them open, numbers that fit their fields, bytes or lists of buildable structures where structures stand - and returns exactly the bytes of that layout, with the lengths and padding counted from the contents, whatever the caller writes for a length; everything else is refused. The layouts are those of the specification. (Believed false, as to the layout, for flow updates and instructions with actions of 1.4, whose stated length is another, and for table status messages, where the table is one byte late.)", "quantifier": "every message and structure of the lists, every argument list of any values, every nesting depth, every default transaction id", "why_tests_cant": "Seventy builders, each over all values of all types in every position.", "anchors": ["twink/ofp4/build.py:ofp_flow_mod", "twink/ofp4/build.py:ofp_match", "twink/ofp4/build.py:ofp_bucket", "twink/ofp4/build.py:ofp_packet_out", "twink/ofp4/build.py:ofp_flow_stats", "twink/ofp5/build.py:ofp_flow_mod", "twink/ofp5/build.py:ofp_instruction_actions", "twink/ofp5/build.py:ofp_flow_update_full", "twink/ofp5/build.py:ofp_table_status", "twink/ofp5/build.py:ofp_bundle_add_msg"]}
{"id": "C116", "title": "Multipart messages and the other builders, exactly", "statement": "The builders of multipart requests and replies accept exactly a header, a type and flags of 16 bits and the body that type has, and return exactly header, type, flags, four zeros and body; so do the builders of version bitmaps, match field ids, flow statistics requests, group features, headers and asynchronous configurations with their arguments and layouts. (Believed false: requests of types that do not exist are built; the three masks of an asynchronous configuration are not kept apart; a meter modification of 1.4 begins with whatever is given for its header.)", "quantifier": "every argument list of any values, every nesting depth, every default transaction id, both versions", "why_tests_cant": "All values of all types in every position; sixteen multipart types with three kinds of bodies.", "anchors": ["twink/ofp4/build.py:ofp_multipart_request", "twink/ofp4/build.py:ofp_multipart_reply", "twink/ofp5/build.py:ofp_multipart_request", "twink/ofp5/build.py:ofp_multipart_reply", "twink/ofp4/build.py:ofp_hello_elem_versionbitmap", "twink/ofp4/build.py:ofp_table_feature_prop_oxm", "twink/ofp4/build.py:ofp_flow_stats_request", "twink/ofp4/build.py:ofp_group_features", "twink/ofp4/build.py:ofp_async_config", "twink/ofp4/build.py:ofp_header", "twink/ofp5/build.py:ofp_meter_mod"]}
{"id": "C117", "title": "Synchronous calls without a reader, and what calls leave behind", "statement": "A synchronous call that returns, in any schedule, with or without an answer, leaves no entry in the channel's table of pending transactions; multi() that returns leaves none for any of its messages. (Believed false: when sending fails, the entry stays for good; when the barrier of multi() fails, the entries of all its messages stay; and a call during which nobody receives - one made by the reading thread itself, in a callback, or while loop() does not run - never gets its answer: it waits for its whole time-out and reports a closed channel, whatever other threads do.)", "quantifier": "every state of the channel, every message, every schedule of the reader and other threads, every version, every number of messages of multi()", "why_tests_cant": "Leaks appear only after failures at particular moments; the schedules are unbounded.", "anchors": ["twink/base.py:SyncChannel.send_sync", "twink/base.py:SyncChannel._sync_simple", "twink/base.py:SyncChannel.multi", "twink/base.py:SyncChannel.recv", "twink/base.py:SyncChannel.close"]}
{"id": "C118", "title": "The names of ports", "statement": "A port description of OpenFlow 1.3, in a port status message or a list of ports, is read exactly if its name, up to the first zero byte, is a UTF-8 text, and the name returned is that text, whatever its characters; the decoder accepts exactly the UTF-8 texts. The builders of ports accept exactly six bytes of address, a name of at most sixteen bytes (ASCII in 1.3) and numbers of 32 bits, and return exactly the layout. (Believed false: the specification asks for no encoding, yet one name that is not UTF-8 - such as one cut in the middle of a character by the sixteen bytes - makes the list of all ports unreadable; the builder of 1.4 counts the properties and leaves them out.)", "quantifier": "every sequence of bytes as a name, every sequence of code points, every number of ports, every argument list", "why_tests_cant": "1.1 million code points in sequences of up to sixteen bytes; 2^128 names.", "anchors": ["twink/ofp4/parse.py:ofp_port", "twink/ofp4/parse.py:ofp_port_status", "twink/ofp4/parse.py:ofp_multipart_reply", "twink/ofp4/build.py:ofp_port", "twink/ofp5/build.py:ofp_port"]}
{"id": "C119", "title": "Exactly what the parser accepts", "statement": "The parser of OpenFlow 1.3 messages returns a value for a string of bytes at an offset exactly if a message of the grammar stands there - header, then by its type the fields, matches, lists of actions, instructions, buckets, bands, ports, queues or statistics, each list filled to its announced end - and then returns exactly the values the grammar reads off, and the end; it returns nothing for any other string, whatever bytes it holds. The grammar is unambiguous. (Believed false: that the length in the header or of an action is checked against what is there: for messages of fixed size any length is taken, cut messages are returned with what there is; and that every message of the specification is taken: no PORT_MOD and no EXPERIMENTER is.)", "quantifier": "every string of bytes, every offset, every amount of fuel of the loops beyond the length of the message", "why_tests_cant": "The claim is about all malformed inputs, of which there are infinitely many; the tests parse a handful of well-formed messages.", "anchors": ["twink/ofp4/parse.py:parse", "twink/ofp4/parse.py:ofp_header", "twink/ofp4/parse.py:ofp_action_", "twink/ofp4/parse.py:ofp_instruction_", "twink/ofp4/parse.py:ofp_bucket", "twink/ofp4/parse.py:ofp_multipart_request", "twink/ofp4/parse.py:ofp_multipart_reply", "twink/ofp4/parse.py:ofp_hello"]}
{"id": "C120", "title": "Exactly what the parser of OpenFlow 1.4 accepts", "statement": "The parser of OpenFlow 1.4 messages returns a value for a string of bytes at an offset exactly if a message of the grammar stands there, given by tables from types to layouts for messages, multipart bodies, actions, instructions, bands and the properties of ports, tables and queues, with messages in messages to any depth (forwarded requests, additions to bundles), and then returns exactly the values the grammar reads off, and the end; it returns nothing for any other string. The grammar is unambiguous. (Believed false: that a port is returned: what is returned for one is its first property; that a forwarded request must fit into its message; that every message of the specification is taken: TABLE_STATUS, requests about meters, non-empty replies with statistics of tables, ports and queues, and status and bundle messages with properties never are.)", "quantifier": "every string of bytes, every offset, every depth of nesting, every amount of fuel of the loops beyond the length of the message", "why_tests_cant": "The claim is about all malformed inputs, of which there are infinitely many, and nesting is unbounded; there are no tests of the 1.4 parser.", "anchors": ["twink/ofp5/parse.py:parse", "twink/ofp5/parse.py:ofp_header", "twink/ofp5/parse.py:ofp_action_", "twink/ofp5/parse.py:ofp_instruction_", "twink/ofp5/parse.py:ofp_port", "twink/ofp5/parse.py:ofp_table_features", "twink/ofp5/parse.py:ofp_multipart_request", "twink/ofp5/parse.py:ofp_multipart_reply", "twink/ofp5/parse.py:ofp_requestforward_", "twink/ofp5/parse.py:ofp_bundle_add_msg"]}
{"id": "C121", "title": "What the parsers take that nothing calls, and what those raise that never return", "statement": "Each of the thirty-three functions of the two parsers that no other function of the library calls (properties of queues and of features of tables in 1.3; headers of properties, updates of flow monitors, role requests, headers of forwarded requests, experimenters' errors and others in 1.4), and each property of statistics of ports and queues in 1.4, returns a value exactly for the byte strings of a stated layout, and then the stated value and end. Each of the parsers that can never return raises one stated exception whenever enough bytes are there and struct.error otherwise; statistics of ports and queues raise a TypeError exactly if they could be read with all their properties. (Believed false: that the update of a flow monitor is returned under its own name: it comes back as a request; that parsing ends: the property with a list of actions in 1.3 loops forever if the first action could be read.)", "quantifier": "every string of bytes, every offset, every amount of fuel of the loops", "why_tests_cant": "None of these functions is called by any test or by the library; that a loop never ends cannot be tested.", "anchors": ["twink/ofp4/parse.py:ofp_queue_prop_min_rate", "twink/ofp4/parse.py:ofp_queue_prop_experimenter", "twink/ofp4/parse.py:ofp_table_feature_prop_actions", "twink/ofp4/parse.py:ofp_table_feature_prop_next_tables", "twink/ofp4/parse.py:ofp_port_mod", "twink/ofp5/parse.py:ofp_flow_update_full", "twink/ofp5/parse.py:ofp_flow_update_paused", "twink/ofp5/parse.py:ofp_role_request", "twink/ofp5/parse.py:ofp_requestforward_header", "twink/ofp5/parse.py:ofp_error_experimenter_msg", "twink/ofp5/parse.py:ofp_port_stats", "twink/ofp5/parse.py:ofp_queue_stats", "twink/ofp5/parse.py:ofp_table_desc"]}
{"id": "C122", "title": "Exactly where the parser never comes back", "statement": "The parser of OpenFlow 1.3 messages runs forever on a string of bytes at an offset exactly if a packet-out, a flow-mod, a group-mod, a meter-mod or a multipart reply with flow statistics, group descriptions or meter configurations stands there that has a list with no end: a list in which, after elements that can all be read and still before the list's announced end, comes an element that ends where it begins, or one that itself holds such a list. The elements that end where they begin are exactly the set-field and experimenter's actions of length zero, the experimenter's instructions of length zero, and the experimenter's bands. Every string is either taken (C119), or refused by an exception, or endless, and no string is two of these.", "quantifier": "every string of bytes, every offset, every nesting of lists, every amount of fuel of the loops beyond the length of the message", "why_tests_cant": "That a loop never ends cannot be seen by a test, and that it always ends elsewhere is a claim about all inputs.", "anchors": ["twink/ofp4/parse.py:parse", "twink/ofp4/parse.py:_list_fetch", "twink/ofp4/parse.py:ofp_action_", "twink/ofp4/parse.py:ofp_action_set_field", "twink/ofp4/parse.py:ofp_action_experimenter_", "twink/ofp4/parse.py:ofp_instruction_", "twink/ofp4/parse.py:ofp_bucket", "twink/ofp4/parse.py:ofp_meter_band_experimenter", "twink/ofp4/parse.py:ofp_packet_out", "twink/ofp4/parse.py:ofp_flow_mod", "twink/ofp4/parse.py:ofp_group_mod", "twink/ofp4/parse.py:ofp_meter_mod", "twink/ofp4/parse.py:ofp_multipart_reply"]}
{"id": "C123", "title": "Exactly where the 1.4 parser never comes back", "statement": "The parser of OpenFlow 1.4 messages runs forever on a string of bytes at an offset exactly if one of these stands there: a packet-out, flow-mod, group-mod, table-mod, meter-mod or a multipart reply with flow, port or queue statistics or descriptions of groups, meters or queues that has a list with no end (after elements that can all be read, and before the list's announced end, one that ends where it begins or holds such a list); a port-mod whose properties, read so far, lead to one of a type that is not known or to one that ends where it begins; a role status whose length says that anything follows the header and where an experimenter's type follows; or a forwarded request or a bundle's message that holds an endless message. The elements that end where they begin are exactly the set-field actions and the experimenter's actions, instructions and properties of length zero, and all the experimenter's bands. Every string is either taken (C120), or refused by an exception, or endless, and no string is two of these.", "quantifier": "every string of bytes, every offset, every nesting of lists and of messages, every amount of fuel beyond the length of the message", "why_tests_cant": "That a loop never ends cannot be seen by a test, and that it always ends elsewhere is a claim about all inputs.", "anchors": ["twink/ofp5/parse.py:parse", "twink/ofp5/parse.py:ofp_header", "twink/ofp5/parse.py:_list_fetch", "twink/ofp5/parse.py:ofp_action_", "twink/ofp5/parse.py:ofp_action_set_field", "twink/ofp5/parse.py:ofp_action_experimenter_", "twink/ofp5/parse.py:ofp_instruction_", "twink/ofp5/parse.py:ofp_bucket", "twink/ofp5/parse.py:ofp_port_mod", "twink/ofp5/parse.py:ofp_port_mod_prop_experimenter", "twink/ofp5/parse.py:ofp_table_mod", "twink/ofp5/parse.py:ofp_table_mod_prop_experimenter", "twink/ofp5/parse.py:ofp_meter_band_experimenter", "twink/ofp5/parse.py:ofp_packet_out", "twink/ofp5/parse.py:ofp_flow_mod", "twink/ofp5/parse.py:ofp_group_mod", "twink/ofp5/parse.py:ofp_meter_mod", "twink/ofp5/parse.py:ofp_multipart_reply", "twink/ofp5/parse.py:ofp_port_stats", "twink/ofp5/parse.py:ofp_queue_stats", "twink/ofp5/parse.py:ofp_queue_desc", "twink/ofp5/parse.py:ofp_role_status", "twink/ofp5/parse.py:ofp_requestforward_", "twink/ofp5/parse.py:ofp_bundle_add_msg"]}

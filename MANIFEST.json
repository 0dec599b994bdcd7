{
 "claims": [
  {
   "property": "C01",
   "status": "proved",
   "theorems": [
    "C01_dmx_encoding_exact",
    "C01_dmx_stale_header_irrelevant"
   ],
   "note": "Bytes of MarshalBinary spelled out literally for every ArtDMXPacket; stale header/Length irrelevant."
  },
  {
   "property": "C02",
   "status": "proved",
   "theorems": [
    "C02_dmx_round_trip"
   ],
   "note": "Full statement, every ArtDMXPacket."
  },
  {
   "property": "C03",
   "status": "proved",
   "theorems": [
    "C03_dmx_accepts_iff"
   ],
   "note": "Full iff with every field of the result given as a byte of the datagram."
  },
  {
   "property": "C04",
   "status": "partial",
   "theorems": [
    "C04_reuse_overwrites_refuted",
    "C04_reuse_overwrites_partial",
    "C04_dmx_reuse_partial"
   ],
   "note": "False for ArtDmx (data beyond Length survives from the previous use): C04_reuse_overwrites_refuted gives the witness. True for the other eleven types (C04_reuse_overwrites_partial) and, for ArtDmx, for every field and the first Length data bytes (C04_dmx_reuse_partial)."
  },
  {
   "property": "C05",
   "status": "proved",
   "theorems": [
    "C05_poll_encoding_and_round_trip"
   ],
   "note": "Full statement."
  },
  {
   "property": "C06",
   "status": "proved",
   "theorems": [
    "C06_pollreply_encoding_exact"
   ],
   "note": "Full statement; pollreply_bytes is the documented layout as literal bytes."
  },
  {
   "property": "C07",
   "status": "proved",
   "theorems": [
    "C07_pollreply_round_trip"
   ],
   "note": "Full statement."
  },
  {
   "property": "C08",
   "status": "proved",
   "theorems": [
    "C08_pollreply_accepts_iff",
    "C08_pollreply_port_reported",
    "C08_version_gate_never_applies"
   ],
   "note": "Full statement."
  },
  {
   "property": "C09",
   "status": "proved",
   "theorems": [
    "C09_other_types_round_trip"
   ],
   "note": "Full statement for all nine types."
  },
  {
   "property": "C10",
   "status": "partial",
   "theorems": [
    "C10_constructor_opcode_refuted",
    "C10_constructor_opcode_refuted_all",
    "C10_constructor_opcode_partial"
   ],
   "note": "False for nine of the twelve constructors: finish never sets OpCode (C10_constructor_opcode_refuted, for every field setting). Holds for ArtPoll, ArtDmx and (given port and style) ArtPollReply."
  },
  {
   "property": "C11",
   "status": "partial",
   "theorems": [
    "C11_marshal_repeatable_refuted",
    "C11_marshal_repeatable_partial",
    "C11_marshal_period_two_partial"
   ],
   "note": "False: every encodable packet other than ArtPoll/ArtDmx yields different bytes the second time (opcode or port swapped in place). Holds for ArtPoll/ArtDmx for any number of calls; all types have period two."
  },
  {
   "property": "C12",
   "status": "partial",
   "theorems": [
    "C12_marshal_disturbs_refuted",
    "C12_marshal_disturbs_port_refuted",
    "C12_marshal_keeps_payload_partial",
    "C12_dmx_fields_kept_partial"
   ],
   "note": "False: after MarshalBinary GetOpCode returns the byte-swapped opcode for every type (and Port is swapped for ArtPollReply). All payload fields are kept."
  },
  {
   "property": "C13",
   "status": "proved",
   "theorems": [
    "C13_unmarshal_binary_total",
    "C13_unmarshal_total"
   ],
   "note": "Full statement: Unmarshal and all twelve UnmarshalBinary methods, any prior packet of Go type."
  },
  {
   "property": "C14",
   "status": "proved",
   "theorems": [
    "C14_unmarshal_accepts_iff",
    "C14_unmarshal_rejects_iff",
    "C14_spec_is_a_partition"
   ],
   "note": "Full statement, plus the exact error for every rejected datagram and the fact that the specification is a partition."
  },
  {
   "property": "C15",
   "status": "proved",
   "theorems": [
    "C15_foreign_traffic_rejected"
   ],
   "note": "Full statement, with the kind of error and a nil packet."
  },
  {
   "property": "C16",
   "status": "proved",
   "theorems": [
    "C16_opcode_classification",
    "C16_counts"
   ],
   "note": "Full statement. Opcode 0x0021 (byte-swapped ArtPollReply) never has a valid header: the library reports it as version 0, see WE_swapped."
  },
  {
   "property": "C17",
   "status": "proved",
   "theorems": [
    "C17_type_opcode_agree"
   ],
   "note": "Full statement."
  },
  {
   "property": "C18",
   "status": "proved",
   "theorems": [
    "C18_trailing_ignored"
   ],
   "note": "Full statement."
  },
  {
   "property": "C19",
   "status": "proved",
   "theorems": [
    "C19_truncated_rejected",
    "C19_accepted_is_complete"
   ],
   "note": "Full statement."
  },
  {
   "property": "C20",
   "status": "proved",
   "theorems": [
    "C20_reencoding_canonical"
   ],
   "note": "Full statement."
  },
  {
   "property": "C21",
   "status": "partial",
   "theorems": [
    "C21_length_bounded_refuted",
    "C21_dmx_length_bounded_partial",
    "C21_length_is_senders_partial"
   ],
   "note": "False for ArtNzs, ArtDiagData and ArtCommand (65535 accepted); holds for ArtDmx."
  },
  {
   "property": "C22",
   "status": "partial",
   "theorems": [
    "C22_own_packets_only_refuted",
    "C22_own_packets_only_partial"
   ],
   "note": "False for ArtDmx (no opcode check) and ArtPollReply (no magic check); holds for the ten other types."
  },
  {
   "property": "C23",
   "status": "partial",
   "theorems": [
    "C23_nil_on_error_refuted",
    "C23_nil_on_error_partial"
   ],
   "note": "False: a truncated packet returns a non-nil packet with the error; exact condition for nil proved."
  },
  {
   "property": "C24",
   "status": "partial",
   "theorems": [
    "C24_variable_length_refuted",
    "C24_full_length_partial"
   ],
   "note": "False: every frame with fewer than 512 data bytes is rejected; accepted with 512."
  },
  {
   "property": "C25",
   "status": "proved",
   "theorems": [
    "C25_flags_set_exactly_one_bit"
   ],
   "note": "Full statement for all 45 flags, any register value."
  },
  {
   "property": "C26",
   "status": "partial",
   "theorems": [
    "C26_flags_clear_refuted",
    "C26_flags_clear_partial"
   ],
   "note": "False for every flag: With(false) never clears. Proved: With(false) is the identity on the register."
  },
  {
   "property": "C27",
   "status": "partial",
   "theorems": [
    "C27_status1_enums_refuted",
    "C27_status1_enums_always_refuted",
    "C27_status1_enums_partial",
    "C27_status1_bits_partial"
   ],
   "note": "False for PortAddr net/unused and Indicator mute/normal (wrong read masks), for every register with clear fields; the other two values of each enumeration round-trip, and the bits written are the documented ones."
  },
  {
   "property": "C28",
   "status": "proved",
   "theorems": [
    "C28_porttype_round_trip",
    "C28_porttype_flags_keep_type"
   ],
   "note": "Full statement."
  },
  {
   "property": "C29",
   "status": "proved",
   "theorems": [
    "C29_opcode_string",
    "C29_style_string",
    "C29_report_string",
    "C29_priority_string",
    "C29_codes_unambiguous",
    "C29_constants_named",
    "C29_valid_iff_named"
   ],
   "note": "Full statement: exact String for every value of the four code types, injectivity, ValidOp/ValidStyle exactly the named codes."
  },
  {
   "property": "C30",
   "status": "partial",
   "theorems": [
    "C30_strings_truthful",
    "C30_status1_string_refuted",
    "C30_status1_string_partial"
   ],
   "note": "Full for seven registers; false for Status1 (two enumerations); exact condition under which Status1 is truthful proved."
  },
  {
   "property": "C31",
   "status": "proved",
   "theorems": [
    "C31_address_integer",
    "C31_address_integer_injective",
    "C31_address_string_injective"
   ],
   "note": "Full statement."
  },
  {
   "property": "C32",
   "status": "proved",
   "theorems": [
    "C32_validate_exact"
   ],
   "note": "Full statement for validate."
  },
  {
   "property": "C33",
   "status": "partial",
   "theorems": [
    "C33_announced_ports_refuted",
    "C33_announced_ports_partial"
   ],
   "note": "False for port types with one of the 26 unnamed protocol numbers (announced as DMX512). Proved: counts, flags, order, protocol of every named type, zero elsewhere."
  },
  {
   "property": "C34",
   "status": "proved",
   "theorems": [
    "C34_identity_survives"
   ],
   "note": "Full statement (IPs compared as IPv4, i.e. through To4)."
  },
  {
   "property": "C35",
   "status": "partial",
   "theorems": [
    "C35_names_refuted",
    "C35_names_partial"
   ],
   "note": "False for non-ASCII strings (each byte re-encoded as UTF-8) and embedded NULs. Proved: the truncated string survives iff it is NUL-free ASCII."
  },
  {
   "property": "C36",
   "status": "partial",
   "theorems": [
    "C36_ports_seen_partial",
    "C36_ports_survive_partial",
    "C36_ports_survive_refuted",
    "C36_ports_exact_partial"
   ],
   "note": "False: universe addresses and statuses are not announced; all ports are discovered at the base address with status 0. Proved: exactly what is discovered, that number/order/named protocol survive, and exactly when the input and the output ports survive unchanged."
  },
  {
   "property": "C37",
   "status": "proved",
   "theorems": [
    "C37_reply_ports_exact",
    "C37_reply_other_fields"
   ],
   "note": "Full statement, plus all other fields of the resulting configuration."
  },
  {
   "property": "C38",
   "status": "partial",
   "theorems": [
    "C38_universe_refuted",
    "C38_universe_partial",
    "C38_universe_ports_partial"
   ],
   "note": "False whenever SubSwitch is a non-zero nibble (it is OR-ed unshifted into the low nibble). Proved: for documented field values the universe is right iff SubSwitch is 0."
  },
  {
   "property": "C39",
   "status": "partial",
   "theorems": [
    "C39_announcement_decodable_partial",
    "C39_announcement_decodable_refuted"
   ],
   "note": "False for styles above 6, which Start does not check. Proved: the announcement of a well-typed configuration is accepted iff its style is documented."
  },
  {
   "property": "C40",
   "status": "proved",
   "theorems": [
    "C40_events_never_panic",
    "C40_each_ip_once",
    "C40_listed_nodes_exist"
   ],
   "note": "Over every history of replies, garbage collections, sends, ticks and (re)starts; also no event crashes."
  },
  {
   "property": "C41",
   "status": "proved",
   "theorems": [
    "C41_routing_never_dangles"
   ],
   "note": "Over every history, including address collisions and restarts."
  },
  {
   "property": "C42",
   "status": "partial",
   "theorems": [
    "C42_routable_refuted",
    "C42_routable_move_refuted",
    "C42_routable_partial"
   ],
   "note": "False: with two nodes announcing one universe, expiry or a change of the one unroutes the other although it is listed. Partial: holds in histories without collisions and without a restart while nodes are listed."
  },
  {
   "property": "C43",
   "status": "proved",
   "theorems": [
    "C43_send_unrouted",
    "C43_send_routed",
    "C43_send_without_buffer",
    "C43_send_never_panics"
   ],
   "note": "Per state; no crash in every reachable state."
  },
  {
   "property": "C44",
   "status": "proved",
   "theorems": [
    "C44_tick_sends_exactly_the_due",
    "C44_at_most_once",
    "C44_tick_effect"
   ],
   "note": "Frames of a tick = one per due entry in iteration order, with the exact state left behind."
  },
  {
   "property": "C45",
   "status": "proved",
   "theorems": [
    "C45_frames_are_right"
   ],
   "note": "Every frame of a tick in a reachable state, decoded by Unmarshal."
  },
  {
   "property": "C46",
   "status": "proved",
   "theorems": [
    "C46_last_write_wins"
   ],
   "note": "Trace level: data of every frame ever sent = last accepted write for that universe on that node, else zeros."
  },
  {
   "property": "C47",
   "status": "partial",
   "theorems": [
    "C47_sequence_zero_refuted",
    "C47_sequence_partial",
    "C47_served_are_sent_partial"
   ],
   "note": "False: the sequence counter wraps to 0 (256th frame). Partial: the k-th frame to a node carries k modulo 256."
  },
  {
   "property": "C48",
   "status": "proved",
   "theorems": [
    "C48_keep_alive",
    "C48_new_data_goes_out"
   ],
   "note": "Trace level keep-alive plus timely transmission of new data; clock readings later than 250 ms after the zero time."
  },
  {
   "property": "C49",
   "status": "proved",
   "theorems": [
    "C49_gc",
    "C49_gc_instant"
   ],
   "note": "Every non-decreasing clock; exact filter when the clock is constant during the call."
  },
  {
   "property": "C50",
   "status": "partial",
   "theorems": [
    "C50_delete_panics_refuted",
    "C50_delete_always_fails_refuted",
    "C50_delete_partial"
   ],
   "note": "False: deleteNode always returns an error, and panics unless the node is the last one listed. Partial: exact outcome in each case."
  },
  {
   "property": "C51",
   "status": "proved",
   "theorems": [
    "C51_ignored_reply",
    "C51_tracked_reply",
    "C51_tracked_reply_routes"
   ],
   "note": "Exact filter and exact effect of a reply on nodes and routes."
  },
  {
   "property": "C52",
   "status": "partial",
   "theorems": [
    "C52_crash_refuted",
    "C52_rate_refuted",
    "C52_no_crash_partial",
    "C52_spacing_partial",
    "C52_punctual_partial"
   ],
   "note": "False: MaxFPS <= 0 or > 10^9 crashes; the guard compares nanoseconds with MaxFPS so late ticks give frames closer than 1/MaxFPS. Partial: no crash for 1..10^9, spacing above min(MaxFPS ns, 250 ms), punctual ticks give punctual frames."
  },
  {
   "property": "C53",
   "status": "partial",
   "theorems": [
    "C53_restart_refuted",
    "C53_restart_unroutes_refuted",
    "C53_reply_restores_partial"
   ],
   "note": "False: Start empties the routing maps but keeps Nodes. Partial: the next reply of a node restores its routes."
  },
  {
   "property": "C54",
   "status": "partial",
   "theorems": [
    "C54_broadcast_refuted",
    "C54_broadcast_partial",
    "C54_node_broadcast_partial"
   ],
   "note": "False of the code: BroadcastAddr only changes the controller's own ArtPoll broadcasts; the replies of its private node still go to the default 2.255.255.255 (witness run). Partial: exact destination and opcode of everything a controller (polls: last BroadcastAddr option; replies: default) and a plain node (last NodeBroadcastAddress) transmit in every run."
  },
  {
   "property": "C55",
   "status": "partial",
   "theorems": [
    "C55_write_lost_refuted",
    "C55_write_stored_partial",
    "C55_new_node_partial"
   ],
   "note": "False: after a known node announces a new port, writes to it are dropped until the next tick. Partial: stored after a tick with no reply since, and right after discovery of a node."
  },
  {
   "property": "C56",
   "status": "proved",
   "theorems": [
    "C56_registry"
   ],
   "note": "Every run with any number of starts, stops and registrations: the callback table is determined by the last registration made while the node was stopped, built-in callbacks otherwise; the rule determines the table uniquely. Each call is one step here; C89 splits it in two."
  },
  {
   "property": "C57",
   "status": "proved",
   "theorems": [
    "C57_callbacks"
   ],
   "note": "Every run: datagrams of other hosts = parsed + discarded after Stop + in transit (as multisets); accepted ones = invoked + ignored + waiting; each invocation uses the callback registered at that moment; a waiting handler is never blocked."
  },
  {
   "property": "C58",
   "status": "proved",
   "theorems": [
    "C58_own_ignored"
   ],
   "note": "Every run; own = same IP in 4-byte or 16-byte form."
  },
  {
   "property": "C59",
   "status": "proved",
   "theorems": [
    "C59_replies"
   ],
   "note": "Every run, any number of starts and stops: exact balance of polls handled and replies transmitted, dropped or on their way; content and destination of each transmitted reply."
  },
  {
   "property": "C60",
   "status": "proved",
   "theorems": [
    "C60_poll_replies"
   ],
   "note": "Every run: other styles never queue; controllers queue each handled reply exactly once and apply each queued reply to the tables exactly once."
  },
  {
   "property": "C61",
   "status": "partial",
   "theorems": [
    "C61_stop_first_refuted",
    "C61_stop_twice_refuted",
    "C61_controller_stop_first_refuted",
    "C61_calls_in_turn_partial"
   ],
   "note": "False of the code: Stop before Start, Stop twice, and Controller.Stop before Start crash (close of a closed or nil channel, nil ticker): the three _refuted theorems, each with a run containing only those calls and no socket error. C61_calls_in_turn_partial is what remains: when Start and Stop are used in turn and do not overlap, in every interleaving the only crash is the reader's (read error while running, C63) or the DMX ticker's (frame rate outside 1..10^9); with no socket error and a sane rate nothing ever crashes. Missing: arbitrary call sequences, which are refuted."
  },
  {
   "property": "C62",
   "status": "partial",
   "theorems": [
    "C62_listen_failure_refuted",
    "C62_stale_error_refuted",
    "C62_invalid_partial"
   ],
   "note": "False of the code: when the socket cannot be opened Start returns an error but the node counts as running and registrations are ignored (C62_listen_failure_refuted); and Controller.Start returns the stale error of an earlier Start although it now runs and transmits (C62_stale_error_refuted). C62_invalid_partial: a configuration that Start rejects leaves the node stopped in every run, nothing is opened or transmitted, registrations take effect. Missing: the failure of the socket, which is refuted."
  },
  {
   "property": "C63",
   "status": "partial",
   "theorems": [
    "C63_read_error_refuted",
    "C63_reader_partial"
   ],
   "note": "False of the code: a read error while running crashes (C63_read_error_refuted). C63_reader_partial: in every run the reader crashes exactly when its read failed and the shutdown flag is not set; and in every careful life (Start only once the old goroutines have ended, reads fail only on a closed socket) it never crashes, so stopping never crashes it. Missing: survival of read errors, which is refuted."
  },
  {
   "property": "C64",
   "status": "partial",
   "theorems": [
    "C64_order_life_partial",
    "C64_order_refuted",
    "C64_intact_partial",
    "C64_order_partial"
   ],
   "note": "Order is false across a restart: a recvLoop of the previous run can parse its datagram after the new one parsed later ones (witness run). Partial: intact and at most once in every run; in order from any state without goroutines as long as the node is started at most once; in order over whole lives when a node is restarted only after its goroutines ended."
  },
  {
   "property": "C65",
   "status": "partial",
   "theorems": [
    "C65_callback_order_refuted",
    "C65_handlers_created_in_order_partial"
   ],
   "note": "False of the code: each packet is handled in its own goroutine, which may run in any order (witness run). Partial: handler goroutines are created in the order of arrival."
  },
  {
   "property": "C66",
   "status": "proved",
   "theorems": [
    "C66_silent_after_stop",
    "C66_silent_in_turn"
   ],
   "note": "For every run and every later execution without Start: after OStop (Stop returned) no OTx (datagram written). Starting points are states in which no Start or Stop call is in progress; C66_silent_in_turn is the instance for alternating calls."
  },
  {
   "property": "C67",
   "status": "proved",
   "theorems": [
    "C67_bounded"
   ],
   "note": "Every run; a producer with a full queue is blocked for every choice, and can proceed as soon as there is room."
  },
  {
   "property": "C68",
   "status": "partial",
   "theorems": [
    "C68_settles_partial",
    "C68_node_of_controller_style_refuted"
   ],
   "note": "Refuted for a plain Node created with controller style: nobody takes from pollReplyCh, so after ten ArtPollReply packets every further handler is stuck for ever. Partial: in every state of a running node or controller of a careful life (Start/Stop used in turn, restarted only after all goroutines ended, no read errors while running, 0 < maxFPS <= 10^9, no plain node of controller style) steps the goroutines take by themselves drain all queues and complete every pending SendDMXToAddress. Existence of a schedule, not fairness."
  },
  {
   "property": "C69",
   "status": "partial",
   "theorems": [
    "C69_send_after_stop_refuted",
    "C69_returns_partial"
   ],
   "note": "Refuted: Stop ends sendLoop while dmxUpdateLoop is blocked on the full send queue holding the lock; a later SendDMXToAddress never returns. Partial: in every run the call returns without outside help whenever the queues have room for the frames still to be queued."
  },
  {
   "property": "C70",
   "status": "partial",
   "theorems": [
    "C70_handler_refuted",
    "C70_can_stop_partial"
   ],
   "note": "Refuted: a handler blocked on the full poll queue when Stop ends pollReplyLoop never terminates. Partial: from every state of a running node there is a continuation that calls Stop once and ends every goroutine (same conditions as C68)."
  },
  {
   "property": "C71",
   "status": "proved",
   "theorems": [
    "C71_transmits_artnet",
    "C71_controller"
   ],
   "note": "Every run, history and schedule; every controller, every node with one of the 7 documented styles."
  },
  {
   "property": "C72",
   "status": "partial",
   "theorems": [
    "C72_old_reader_refuted",
    "C72_two_loops_refuted",
    "C72_one_set_partial"
   ],
   "note": "False of the code when Start follows Stop at once: the old reader, whose read fails because its own socket was closed, crashes (C72_old_reader_refuted, no other socket error in the run); or two sendLoops take from the same channel (C72_two_loops_refuted). C72_one_set_partial: if Start waits for the old goroutines to end, every running state has exactly one goroutine of each kind, all of them on the current channels and the current open socket, and the reader does not crash. Missing: the immediate restart, which is refuted."
  },
  {
   "property": "C73",
   "status": "proved",
   "theorems": [
    "C73_frames_once",
    "C73_wire_data"
   ],
   "note": "Every run: transmitted ArtDmx datagrams are, as a multiset, part of the frames of the ticks; the bytes of each are the frame of a tick at which the routed node held the data last written."
  },
  {
   "property": "C74",
   "status": "partial",
   "theorems": [
    "C74_order_refuted",
    "C74_order_partial",
    "C74_running_partial"
   ],
   "note": "Refuted across an immediate restart: the old sendLoop still holds a payload and writes it to the new socket after later payloads. Partial: in order in all lives where a node is restarted only after its goroutines ended; and until Stop, without network errors, what was transmitted is exactly a beginning of what was queued, at most eleven payloads behind."
  },
  {
   "property": "C75",
   "status": "partial",
   "theorems": [
    "C75_message_refuted",
    "C75_message_partial"
   ],
   "note": "Refuted: the message for too many output ports gives the number of input ports. Partial: exact message in every other case, and the precedence of the three reasons."
  },
  {
   "property": "C76",
   "status": "partial",
   "theorems": [
    "C76_second_start_refuted",
    "C76_starts_partial"
   ],
   "note": "Refuted: Start on a running node fails with the port in use but has already replaced the channels; from then on, in every continuation, nothing is parsed or transmitted and the three loops never end, not even after Stop. Partial: any number of Starts without Stop and without network errors never crash."
  },
  {
   "property": "C77",
   "status": "proved",
   "theorems": [
    "C77_polls"
   ],
   "note": "Every run of every controller, exact count including the polls about to be queued."
  },
  {
   "property": "C78",
   "status": "proved",
   "theorems": [
    "C78_nothing_lost"
   ],
   "note": "Every running state of a careful life of a node or controller (0 < maxFPS <= 10^9, no plain node of controller style), for everything since its last Start, first run or later, if no socket error occurred since then; existence of a schedule of internal steps, not fairness (for that see C79)."
  },
  {
   "property": "C79",
   "status": "proved",
   "theorems": [
    "C79_finishes"
   ],
   "note": "Every schedule of the steps goroutines take by themselves (well-founded measure), from every running state of a careful life; the final conclusions of C78 for everything since the last Start, without network errors since then."
  },
  {
   "property": "C80",
   "status": "proved",
   "theorems": [
    "C80_stopped"
   ],
   "note": "Every schedule, from every state after Stop in a life in which a node is restarted only after its goroutines ended and reads fail only on closed sockets; ticks after Stop count as new input."
  },
  {
   "property": "C81",
   "status": "partial",
   "theorems": [
    "C81_accesses",
    "C81_call_accesses",
    "C81_lock",
    "C81_orderly_partial",
    "C81_careful_partial",
    "C81_callbacks_refuted",
    "C81_send_while_starting_refuted",
    "C81_restart_refuted"
   ],
   "note": "True of orderly use: restarts and registrations wait for the goroutines of the previous run, SendDMXToAddress waits for Start. False otherwise: RegisterCallback after Stop races with a pending handler on the map, SendDMXToAddress races with Start on the tables, a restart at once races with the old goroutines. With restarts alone disciplined, only the tables, loggers, callbacks and the flag can race. The table of accesses per step is read off the source by hand; C81_accesses, C81_call_accesses and C81_lock prove it complete for the model: no step changes or depends on a variable it is not listed with, and locked accesses wait for the lock."
  },
  {
   "property": "C82",
   "status": "proved",
   "theorems": [
    "C82_delivered_data"
   ],
   "note": "Network model of Net.v: every host runs Sys.v; a transmitted datagram may arrive any number of times at every host that hears its destination; outside devices may send anything but ArtDmx."
  },
  {
   "property": "C83",
   "status": "proved",
   "theorems": [
    "C83_discovered",
    "C83_routes"
   ],
   "note": "Network model of Net.v; outside devices may send anything but ArtPollReply. The base address restriction is the defect of C36 seen end to end."
  },
  {
   "property": "C84",
   "status": "proved",
   "theorems": [
    "C84_own_universe"
   ],
   "note": "Network model of Net.v; outside devices may send anything but ArtDmx and ArtPollReply; every configured IP is an IPv4 address heard by its host only."
  },
  {
   "property": "C85",
   "status": "proved",
   "theorems": [
    "C85_flow",
    "C85_called"
   ],
   "note": "Generalises C74 and C78 from whole runs to any segment of a run. The segment starts in any state of a careful life (no overlapping Start, no socket error) in which the node is up."
  },
  {
   "property": "C86",
   "status": "proved",
   "theorems": [
    "C86_discovery"
   ],
   "note": "Network model of Net.v. Fair-lossy link as hypothesis: of the polls (answers) transmitted in the segment at least one arrives. The node's callback for ArtPoll must be the built-in one. Only what C36/C37 let through is learnt of the node."
  },
  {
   "property": "C87",
   "status": "proved",
   "theorems": [
    "C87_delivery",
    "C87_written"
   ],
   "note": "Network model of Net.v. Hypothesis on the link: the frame of the universe in question arrives at least once."
  },
  {
   "property": "C88",
   "status": "proved",
   "theorems": [
    "C88_can_discover",
    "C88_can_deliver"
   ],
   "note": "Possibility, by constructing the continuation with C68; only steps of the two hosts are used. C79 says that goroutines do come to rest."
  },
  {
   "property": "C89",
   "status": "partial",
   "theorems": [
    "C89_atomic_partial",
    "C89_table_partial",
    "C89_race_refuted"
   ],
   "note": "False: the test and the change are two steps, and a call racing with Start changes the callbacks of a running node (C89_race_refuted, with a frame then given to the new callback). True: if no call is between its two steps when the flag is cleared, the two-step program does what the one-step calls of Sys.v do, same state and same events (C89_atomic_partial), so C56 and everything else proved for Sys.v holds; in every execution the table is given by the changes made, each preceded by a test that found the node stopped (C89_table_partial). Concurrent changes of the Go map itself are data races, see C81."
  },
  {
   "property": "C90",
   "status": "proved",
   "theorems": [
    "C90_known",
    "C90_frames_to_known",
    "C90_wire",
    "C90_run"
   ],
   "note": "Extends C49 and C51 from single events to whole histories, restarts included (the list of nodes survives Start), and to the wire. No assumption on the clocks; if the readings of a clean-up lie on both sides of t + 7 s the node is either kept as it was or gone."
  },
  {
   "property": "C91",
   "status": "partial",
   "theorems": [
    "C91_poll_kills_refuted",
    "C91_own_poll_kills_refuted",
    "C91_survives_partial"
   ],
   "note": "False: the type assertion in line 69 panics on every accepted packet that is not an ArtPollReply, so an ArtPoll from any other host ends the program; its own poll, which it receives too, does so when it overwrites an answer in the shared buffer before it is decoded. True if everything received starts like an ArtPollReply."
  },
  {
   "property": "C92",
   "status": "partial",
   "theorems": [
    "C92_mixture_refuted",
    "C92_shown_partial",
    "C92_spaced_partial"
   ],
   "note": "False: the slice handed over shares the buffer with the next read, so what is decoded can mix several datagrams; the witness shows a node that does not exist. True in general: byte k decoded is byte k of the latest datagram that has one (C92_shown_partial); and the full claim if nothing arrives between an answer and its decoding (C92_spaced_partial). Decoding is one step in the model; real decoding can see even more mixtures."
  },
  {
   "property": "C93",
   "status": "proved",
   "theorems": [
    "C93_host",
    "C93_network"
   ],
   "note": "The network bound assumes (no_copies) that each host receives no more polls than were transmitted in all; duplicated polls are answered again, which C93_host counts."
  },
  {
   "property": "C94",
   "status": "proved",
   "theorems": [
    "C94_code",
    "C94_atomic",
    "C94_transfer",
    "C94_no_panic",
    "C94_closes",
    "C94_tick_waits",
    "C94_complete"
   ],
   "note": "Start of a controller while a section is open is excluded: it replaces the maps without the lock (the race of C81)."
  },
  {
   "property": "C95",
   "status": "partial",
   "theorems": [
    "C95_announces_partial",
    "C95_last",
    "C95_announces_refuted",
    "C95_merged_refuted"
   ],
   "note": "Holds when the machine has an address in 2.0.0.0/8. Otherwise the last address is taken, whatever it is; an IPv4 one is announced as it is, any other as 0.0.0.0 (C95_last): with ::1 last, 0.0.0.0 is announced although there is an IPv4 address (C95_announces_refuted), and a controller takes two such machines for one node (C95_merged_refuted)."
  },
  {
   "property": "C96",
   "status": "proved",
   "theorems": [
    "C96_goes_on",
    "C96_delivered"
   ],
   "note": "Fairness is a hypothesis on the schedule (every goroutine that can go on again and again does so again and again, and likewise for receiving in its select). C96_ex builds such an execution of a busy controller, with input that never ends."
  },
  {
   "property": "C97",
   "status": "proved",
   "theorems": [
    "C97_discovered"
   ],
   "note": "Fairness of both schedulers, both hosts staying up and the link hypothesis (if datagrams with some property are sent again and again, such datagrams arrive again and again) are hypotheses; C97_ex builds an execution that satisfies them, by repeating a round that leaves finished goroutines behind."
  },
  {
   "property": "C98",
   "status": "proved",
   "theorems": [
    "C98_often",
    "C98_arrives"
   ],
   "note": "C98_arrives needs a link on which every datagram arrives at least once; C98_often only one that does not lose all of them. C97_ex and C98_ex build executions that satisfy the hypotheses; in C98_ex a round is 256 ticks, after which the sequence number is the same again and the clock 256 s later."
  },
  {
   "property": "C99",
   "status": "partial",
   "theorems": [
    "C99_addresses_only",
    "C99_transmits_artnet",
    "C99_addresses_set",
    "C99_takes_effect",
    "C99_maxfps_ignored_refuted",
    "C99_maxfps_no_other",
    "C99_maxfps_next_start",
    "C99_bad_maxfps",
    "C99_before_start",
    "C99_at_once_refuted",
    "C99_race_refuted"
   ],
   "note": "False as stated: a poll being sent keeps the old address (C99_at_once_refuted), MaxFPS set on a running controller is ignored until the next Start, where MaxFPS(0) then crashes (C99_maxfps_ignored_refuted, C99_bad_maxfps), and the unsynchronised write races with pollLoop (C99_race_refuted). Proved: apart from the destinations of polls and replies every run with SetOption is a run without (as long as no dmxUpdateLoop starts with another frame rate), only addresses that were set are used, a new one from the next poll or reply on, a new frame rate from the next Start on, and options set before Start equal constructor options."
  },
  {
   "property": "C100",
   "status": "partial",
   "theorems": [
    "C100_in_order",
    "C100_no_crash",
    "C100_frames",
    "C100_shown_in_order",
    "C100_node",
    "C100_deaf",
    "C100_all_shown_refuted"
   ],
   "note": "False in one part: a node that is discovered after the calls is shown zeros only, the program neither waits nor repeats (C100_all_shown_refuted). Everything else is proved for every execution of the two programs: no crash without a read error, calls in order and once each, the frames carry zeros or a value whose call has been made, to one node never an earlier one after a later one, the node transmits only its reply, and after a failed Start nothing is received or transmitted."
  },
  {
   "property": "C101",
   "status": "partial",
   "theorems": [
    "C101_says_partial",
    "C101_messages_distinct",
    "C101_port_refuted",
    "C101_opcode_refuted",
    "C101_defects_merged_refuted"
   ],
   "note": "False in two places: the port in the message is the port of the reply with its bytes exchanged (C101_port_refuted), and a datagram of the current version with opcode 0x0021 is reported as version 0 (C101_opcode_refuted); also three different defects share one message (C101_defects_merged_refuted). Everything else is proved: every other message says what is wrong with the right value, and no two errors have the same text."
  },
  {
   "property": "C102",
   "status": "proved",
   "theorems": [
    "C102_sizes",
    "C102_unfragmented"
   ],
   "note": "Proved for every execution; the hypothesis `wf_config` only says that the fields of the configuration are in the ranges of their Go types."
  },
  {
   "property": "C103",
   "status": "proved",
   "theorems": [
    "C103_cut",
    "C103_unmarshal",
    "C103_bound_tight",
    "C103_called_whole",
    "C103_long_handled"
   ],
   "note": "Proved; that the callback is invoked is subject to the conditions of C85 (running node, no API call and no socket error meanwhile, all goroutines waiting at the end). 530 bytes is the smallest buffer with this property (C103_bound_tight)."
  },
  {
   "property": "C104",
   "status": "partial",
   "theorems": [
    "C104_five_missed_refuted",
    "C104_one_missed_partial",
    "C104_run_partial"
   ],
   "note": "False: the code forgets a node after 7 s, that is after two missed polls (C104_five_missed_refuted). Proved: a node that never misses two polls in a row stays known, with its last configuration."
  },
  {
   "property": "C105",
   "status": "partial",
   "theorems": [
    "C105_ports_refuted",
    "C105_switches_refuted",
    "C105_identity_partial",
    "C105_names_partial",
    "C105_uniform_ports_partial"
   ],
   "note": "False: an input port followed by an output port is announced again as one port in both directions (C105_ports_refuted), universes, port states, video, macro and remote switches are never announced (C105_switches_refuted). Proved: identity and status fields survive for every reply, names if they are zero-padded ASCII, port types if all ports have the same directions and documented protocols."
  },
  {
   "property": "C106",
   "status": "partial",
   "theorems": [
    "C106_one_of_them",
    "C106_next_start",
    "C106_validated",
    "C106_until_restart",
    "C106_only_announcements",
    "C106_up_to_date_refuted",
    "C106_validated_refuted",
    "C106_race_refuted"
   ],
   "note": "False in three ways: a running node goes on announcing the old configuration (C106_up_to_date_refuted), a configuration assigned right after Start has returned is announced without validation (C106_validated_refuted), and this assignment is a data race with pollReplyLoop (C106_race_refuted). Proved for every run: each reply announces one of the configurations Config had; it was validated if Config is not assigned between validate and the beginning of pollReplyLoop; an assignment has no effect before the next Start (unless the style changes to or from controller) and full effect from it on; with configurations equally valid, encodable and of the same role, the run is apart from the contents of replies a run of `Sys.v` with the first configuration. Missing: assignments that are not atomic."
  },
  {
   "property": "C107",
   "status": "partial",
   "theorems": [
    "C107_transparent",
    "C107_accounted",
    "C107_unhindered",
    "C107_one_at_a_time_refuted",
    "C107_stop",
    "C107_after_stop_refuted"
   ],
   "note": "False: from every running state, any number of invocations of one callback can come to run at the same time (C107_one_at_a_time_refuted), and a callback can be invoked after Stop has returned (C107_after_stop_refuted). True: whether and when callbacks return changes nothing else; a running node gets everything done while none of them returns; Stop returns and the goroutines end while they run, so it can be called from a callback. Missing: what callbacks compute, and panics in them, which end the process."
  },
  {
   "property": "C108",
   "status": "partial",
   "theorems": [
    "C108_sound",
    "C108_idle",
    "C108_flicker_refuted",
    "C108_race_refuted",
    "C108_stopped",
    "C108_who"
   ],
   "note": "The soundness holds at every instant (C108_sound). False as far as it goes beyond that: the entry of a node that is announced again unchanged is missing for a moment, though the node was there all the time (C108_flicker_refuted), and reading is a data race while the controller runs, since the program cannot take the lock (C108_race_refuted, C108_who; not when all goroutines have ended: C108_stopped). Not modelled: what a read returns that overlaps a write in the sense of the Go memory model (maps: the process ends), and Start while a section is open."
  },
  {
   "property": "C109",
   "status": "partial",
   "theorems": [
    "C109_log",
    "C109_sent",
    "C109_ignored",
    "C109_refused",
    "C109_calls",
    "C109_send",
    "C109_nodes",
    "C109_alarms",
    "C109_received",
    "C109_received_all",
    "C109_started",
    "C109_listen",
    "C109_registrations",
    "C109_replying",
    "C109_write_errors",
    "C109_close",
    "C109_kinds",
    "C109_ip_text",
    "C109_deregistration_refuted",
    "C109_close_refuted",
    "C109_type_refuted"
   ],
   "note": "Holds, except: an ignored call of DeregisterCallback is logged as a registration (C109_deregistration_refuted, node.go:325); the message about a socket that cannot be closed lacks the error, an operand of Printf is missing (C109_close_refuted, node.go:104); the field `type` does not tell the node of a controller from the controller in \"node started\" and is missing before Start (C109_type_refuted). Not modelled: the layout of a line, the field `src` of a warning, level filters of the user's logger, and the mixing of lines written at the same time (logger.go:45 switches the lock off)."
  },
  {
   "property": "C110",
   "status": "partial",
   "theorems": [
    "C110_default",
    "C110_ip",
    "C110_address",
    "C110_blind",
    "C110_mute",
    "C110_listen_ip_refuted"
   ],
   "note": "Holds for the default, the wildcard and IPv6 (C110_default, C110_ip; C110_address for any port, multicast and malformed IPs). Refuted for an address of the host: a socket bound to it gets no broadcasts, so a controller with ListenIP knows no node and sends no frame, and a node with NodeListenIP never transmits anything, in every execution of every network whose other hosts use the default broadcast address (C110_listen_ip_refuted, from C110_blind and C110_mute, which hold for any listen and broadcast addresses). Trusted: how the net package reads the address back and which datagrams Linux and BSD give to a bound socket (Listen.v)."
  },
  {
   "property": "C111",
   "status": "partial",
   "theorems": [
    "C111_source",
    "C111_redirect_refuted",
    "C111_silence_refuted"
   ],
   "note": "Refuted in the strongest form: in every running state, for every IP v, every universe a and every foreign host, one ArtPollReply from that host makes the controller send universe a to v (C111_redirect_refuted), and one makes it send nothing to v any more (C111_silence_refuted), without any other datagram, API call or error. The exact truth is C111_source: in every execution the senders of the datagrams can be replaced by any others (foreign by foreign, own by own) without changing the state or anything observable but the sender."
  },
  {
   "property": "C112",
   "status": "partial",
   "theorems": [
    "C112_tables",
    "C112_order",
    "C112_set",
    "C112_datagrams",
    "C112_order_refuted"
   ],
   "note": "Holds for nodes that share no universe (C112_tables: the tables as a function of the last answers; C112_order and C112_set for two histories; C112_datagrams for two executions that received the same datagrams from nodes that always announce the same). Refuted for nodes that announce the same universe: it is sent to the one that answered last (C112_order_refuted)."
  },
  {
   "property": "C113",
   "status": "partial",
   "theorems": [
    "C113_frame_gap",
    "C113_written_next_tick_partial",
    "C113_written_next_tick_refuted",
    "C113_forgotten",
    "C113_run",
    "C113_run_forgotten"
   ],
   "note": "Frame gap and forgetting hold in full. 'Leaves with the next tick' holds up to MaxFPS(31622) and is refuted for MaxFPS(31623): the guard compares with MaxFPS nanoseconds, which is then longer than the period."
  },
  {
   "property": "C114",
   "status": "partial",
   "theorems": [
    "C114_nodes",
    "C114_routes",
    "C114_frames",
    "C114_buffers_partial",
    "C114_buffers_refuted",
    "C114_flood_refuted",
    "C114_run"
   ],
   "note": "The bounds on nodes, routes and frames hold. Refuted: buffers of universes a node no longer announces are kept as long as the node is listed (true: only universes it once announced); and answers with k addresses make k nodes, for every k up to 2^32."
  },
  {
   "property": "C115",
   "status": "partial",
   "theorems": [
    "C115_count",
    "C115_handlers",
    "C115_settles",
    "C115_bounded_refuted",
    "C115_left_behind_refuted"
   ],
   "note": "Counts at rest, the bound by datagrams received and the return to rest hold. Refuted: handlePacket is started in a goroutine of its own without limit, so from every state n polls lead to more than n goroutines; and after ten more Stop can leave any number of them blocked on pollCh for ever, whatever is started later."
  },
  {
   "property": "C116",
   "status": "partial",
   "theorems": [
    "C116_elsewhere_partial",
    "C116_readers",
    "C116_content_partial",
    "C116_own_ip_refuted",
    "C116_announced_refuted",
    "C116_destination_refuted"
   ],
   "note": "False: net.IP is a slice and is not copied. A byte written to the array of the address makes the node answer its own polls and ignore another host, or announce another address; one written to the array of a broadcast address redirects even payloads already queued. True: writes elsewhere never matter; only the named steps read these bytes; replies always announce the configuration with some address of the same length and polls are always the usual ones."
  },
  {
   "property": "C117",
   "status": "proved",
   "theorems": [
    "C117_sends",
    "C117_prints",
    "C117_received",
    "C117_can_receive",
    "C117_unregistered"
   ],
   "note": "The program is modelled with the outcomes of ListenUDP and WriteTo as parameters; the two literal addresses are written out."
  },
  {
   "property": "C118",
   "status": "partial",
   "theorems": [
    "C118_connection",
    "C118_transparent_partial",
    "C118_cut_off",
    "C118_close_refuted",
    "C118_close_any_time_refuted"
   ],
   "note": "False for Close: the read that fails returns a nil address, which the reader dereferences before it looks at the error. After a close on a node at rest the process can die at any time until Stop is called. The rest is proved: what Connection returns, that reads and writes do not affect the node, and that nothing arrives or leaves after Close until a socket is opened."
  },
  {
   "property": "C119",
   "status": "proved",
   "theorems": [
    "C119_read_back",
    "C119_unambiguous",
    "C119_malformed",
    "C119_binds"
   ],
   "note": "About the model of net.UDPAddr.String and of the address parsing of net.ListenPacket for udp4, both Go standard library. The text of IPv6 addresses is not modelled."
  },
  {
   "property": "C120",
   "status": "proved",
   "theorems": [
    "C120_step",
    "C120_order",
    "C120_run"
   ],
   "note": "Addresses are compared as byte sequences, as bytes.Equal does. deleteNode is called by nothing in the package and is not an event."
  },
  {
   "property": "C121",
   "status": "proved",
   "theorems": [
    "C121_step",
    "C121_owner",
    "C121_run",
    "C121_frames",
    "C121_wire"
   ],
   "note": "That the last announcer can lose the universe although it still announces it is the defect of C42; C121_step says exactly when."
  },
  {
   "property": "C122",
   "status": "proved",
   "theorems": [
    "C122_step",
    "C122_owner",
    "C122_run"
   ],
   "note": "As C121, for InputAddress. A node that still announces an input can lose its entry, as in C42; C122_step says exactly when."
  },
  {
   "property": "C123",
   "status": "proved",
   "theorems": [
    "C123_comes_back",
    "C123_exact",
    "C123_run"
   ],
   "note": "About the tables. That a routed universe is sent is C44 and C45."
  }
 ]
}

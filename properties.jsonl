{"id": "C01", "title": "ArtDmx encoding is exact", "statement": "Marshalling any ArtDMXPacket succeeds and yields exactly 530 bytes: 'Art-Net\\0', opcode 0x5000 low byte first, version 0,14, Sequence, Physical, SubUni, Net, the length 512 high byte first, then the 512 data bytes; nothing previously stored in the packet's header or Length fields can influence the bytes.", "quantifier": "every ArtDMXPacket value (all field values, any stale header contents)", "why_tests_cant": "2^4000+ data/header combinations; unit tests fix two.", "anchors": ["packet/artdmx.go: MarshalBinary, finish", "packet/header.go: marshalPacket, finish"]}
{"id": "C02", "title": "ArtDmx round trip", "statement": "Unmarshal of the bytes produced by marshalling an ArtDMXPacket returns, without error, an ArtDMXPacket with the same Sequence, Physical, SubUni, Net and Data, Length 512 and opcode OpDMX.", "quantifier": "every ArtDMXPacket value", "why_tests_cant": "round-trip must hold for every payload", "anchors": ["packet/artdmx.go", "packet/packet.go: Unmarshal"]}
{"id": "C03", "title": "ArtDmx decoding accepts exactly the well-formed frames", "statement": "A datagram with the ArtDmx opcode is accepted iff it has the magic, version >= 14, at least 18 bytes, a length field that is even and within 2..512, and at least that many data bytes; then the packet's fields are the corresponding bytes, Data is the declared number of bytes followed by zeros, and trailing bytes are ignored.", "quantifier": "every byte string", "why_tests_cant": "all byte strings of all lengths", "anchors": ["packet/artdmx.go: UnmarshalBinary", "packet/packet.go: Unmarshal"]}
{"id": "C04", "title": "Decoding overwrites the whole packet", "statement": "The result of UnmarshalBinary depends only on the input bytes, not on what the packet object held before (e.g. when a packet object is reused for the next datagram).", "quantifier": "every byte string and every prior packet value", "why_tests_cant": "depends on the history of the object, tests use fresh objects", "anchors": ["packet/artdmx.go: UnmarshalBinary (copy into p.Data[0:l])", "packet/header.go: unmarshalPacket"]}
{"id": "C05", "title": "ArtPoll encoding and round trip", "statement": "Marshalling any ArtPollPacket yields exactly the 14 bytes magic, 0x2000 low byte first, 0, 14, TalkToMe, Priority, and Unmarshal returns the same TalkToMe and Priority.", "quantifier": "every ArtPollPacket value", "why_tests_cant": "all values of all fields", "anchors": ["packet/artpoll.go", "packet/header.go"]}
{"id": "C06", "title": "ArtPollReply encoding is exact", "statement": "Marshalling any ArtPollReplyPacket yields exactly 239 bytes in the documented field order with the opcode and Port low byte first, multi-byte words high byte first and all spare bytes zero.", "quantifier": "every ArtPollReplyPacket value", "why_tests_cant": "~2^1700 field combinations", "anchors": ["packet/artpollreply.go", "packet/header.go: marshalPacket"]}
{"id": "C07", "title": "ArtPollReply round trip", "statement": "If an ArtPollReplyPacket has Port 6454 and a known Style, Unmarshal of its encoding returns the same packet in every field.", "quantifier": "every ArtPollReplyPacket value with Port 6454 and Style <= StVisual", "why_tests_cant": "all field combinations", "anchors": ["packet/artpollreply.go", "packet/packet.go"]}
{"id": "C08", "title": "ArtPollReply decoding accepts exactly the well-formed replies", "statement": "A datagram with the ArtPollReply opcode is accepted iff it has the magic, at least 239 bytes, port 6454 in either byte order and a known style code; the version gate never applies to it; Port is always reported as 6454.", "quantifier": "every byte string", "why_tests_cant": "all byte strings", "anchors": ["packet/artpollreply.go: validate", "packet/header.go: validate"]}
{"id": "C09", "title": "Round trip of the remaining packet types", "statement": "For ArtSync, ArtNzs, ArtAddress, ArtTimeCode, ArtTrigger, ArtIPProg, ArtIPProgReply, ArtDiagData and ArtCommand packets whose OpCode field holds their opcode, the encoding has the documented layout and Unmarshal returns the same fields.", "quantifier": "every packet value with its own opcode", "why_tests_cant": "all field combinations of nine types", "anchors": ["packet/artsync.go", "packet/artnzs.go", "packet/artaddress.go", "packet/arttimecode.go", "packet/arttrigger.go", "packet/artipprog.go", "packet/artipprogreply.go", "packet/artdiagdata.go", "packet/artcommand.go"]}
{"id": "C10", "title": "Constructors yield packets with the correct OpCode", "statement": "A packet obtained from New<Type>Packet() and marshalled decodes as a packet of that type (the constructors promise 'the correct OpCode').", "quantifier": "every packet type, every setting of the remaining fields", "why_tests_cant": "untested for nine of the twelve types; all field settings", "anchors": ["packet/art*.go: New*Packet, finish"]}
{"id": "C11", "title": "Marshalling is repeatable", "statement": "Marshalling the same packet object twice in a row produces the same bytes.", "quantifier": "every packet value of every type, any number of repetitions", "why_tests_cant": "depends on object history; tests marshal once", "anchors": ["packet/header.go: finish, swapOpCode", "packet/artpollreply.go: finish"]}
{"id": "C12", "title": "Marshalling does not disturb the packet", "statement": "After MarshalBinary the packet still reports its opcode through GetOpCode and its Port unchanged.", "quantifier": "every packet value", "why_tests_cant": "mutation through the receiver is not visible to byte-comparison tests", "anchors": ["packet/header.go: finish", "packet/artpollreply.go: finish"]}
{"id": "C13", "title": "Unmarshal never crashes", "statement": "Unmarshal and each type's UnmarshalBinary return (with a packet or an error) on every byte string; no index or slice goes out of range.", "quantifier": "every byte string of every length, every prior packet value", "why_tests_cant": "inputs come from the network; infinite input space", "anchors": ["packet/packet.go: Unmarshal", "packet/header.go: unmarshal", "packet/artdmx.go: UnmarshalBinary"]}
{"id": "C14", "title": "Unmarshal accepts exactly the documented wire formats", "statement": "For every byte string, Unmarshal returns packet p without error iff the bytes are a serialisation of p in the documented layout of its type (any filler values, any trailing bytes, any version >= 14).", "quantifier": "every byte string, every packet value of the twelve types", "why_tests_cant": "two-way characterisation over all byte strings", "anchors": ["packet/packet.go: Unmarshal", "packet/art*.go: UnmarshalBinary, validate"]}
{"id": "C15", "title": "Foreign and old-version traffic is rejected", "statement": "Unmarshal returns an error for every datagram shorter than 12 bytes, without the 8-byte magic, or with version byte < 14 (other than ArtPollReply).", "quantifier": "every byte string", "why_tests_cant": "all byte strings", "anchors": ["packet/header.go: unmarshal, validate"]}
{"id": "C16", "title": "Opcode classification", "statement": "For datagrams with a valid header, Unmarshal reports 'invalid opcode' iff ValidOp is false, 'not implemented' for exactly the 23 known but unsupported opcodes, and otherwise dispatches to the packet type of that opcode.", "quantifier": "every 16-bit opcode, every datagram", "why_tests_cant": "65536 opcodes x payloads", "anchors": ["packet/packet.go: Unmarshal", "packet/code/opcode.go: ValidOp", "packet/code/opcode_string.go"]}
{"id": "C17", "title": "Dynamic type, GetOpCode and the wire agree", "statement": "If Unmarshal succeeds, GetOpCode of the result equals the little-endian opcode in bytes 8-9 and the concrete packet type is the one of that opcode, so the built-in poll handlers' type assertions never fail.", "quantifier": "every byte string", "why_tests_cant": "all byte strings", "anchors": ["packet/packet.go: Unmarshal", "node.go: handlePacketPoll, handlePacketPollReply"]}
{"id": "C18", "title": "Trailing bytes are ignored", "statement": "If a datagram is accepted then the same datagram followed by any further bytes is accepted with the same packet.", "quantifier": "every accepted byte string and every suffix", "why_tests_cant": "all byte strings x all suffixes", "anchors": ["packet/header.go: unmarshalPacket", "packet/artdmx.go: UnmarshalBinary"]}
{"id": "C19", "title": "Truncated datagrams are rejected", "statement": "A datagram of any fixed-size packet type that is shorter than that type's size is rejected, so no packet with unset fields is ever accepted.", "quantifier": "every byte string", "why_tests_cant": "all lengths and contents", "anchors": ["packet/header.go: unmarshalPacket"]}
{"id": "C20", "title": "Re-encoding is canonical", "statement": "Decoding an accepted datagram, marshalling the result and decoding again gives the same packet except that the version becomes 14 (and an ArtDmx Length becomes 512).", "quantifier": "every accepted byte string", "why_tests_cant": "all byte strings", "anchors": ["packet/packet.go", "packet/header.go"]}
{"id": "C21", "title": "Decoded Length never exceeds Data", "statement": "In a successfully decoded packet that has a Length field, Length is at most 512, so p.Data[:p.Length] is safe.", "quantifier": "every accepted byte string", "why_tests_cant": "all byte strings", "anchors": ["packet/artdmx.go", "packet/artnzs.go", "packet/artdiagdata.go", "packet/artcommand.go"]}
{"id": "C22", "title": "A type's UnmarshalBinary only accepts its own packets", "statement": "<Type>.UnmarshalBinary called directly succeeds only on datagrams carrying the Art-Net magic and that type's opcode.", "quantifier": "every byte string, every packet type", "why_tests_cant": "all byte strings", "anchors": ["packet/artdmx.go: UnmarshalBinary", "packet/artpollreply.go: validate"]}
{"id": "C23", "title": "No packet is returned with an error", "statement": "When Unmarshal returns an error the returned packet is nil.", "quantifier": "every byte string", "why_tests_cant": "all rejected byte strings", "anchors": ["packet/packet.go: Unmarshal"]}
{"id": "C24", "title": "Variable-length data packets are accepted at their declared length", "statement": "An ArtNzs, ArtCommand or ArtDiagData datagram carrying exactly Length data bytes (1..512) is accepted.", "quantifier": "every Length and payload", "why_tests_cant": "all lengths", "anchors": ["packet/artnzs.go", "packet/artcommand.go", "packet/artdiagdata.go", "packet/header.go: unmarshalPacket"]}
{"id": "C25", "title": "Status flags set exactly one bit", "statement": "For every flag of TalkToMe, PortType, GoodInput, GoodOutput, Status1, Status2, SwMacro and SwRemote: With<Flag>(true) sets its documented bit and changes no other bit, and <Flag>() reads exactly that bit.", "quantifier": "every register value, every flag", "why_tests_cant": "256 values x 40 flags, and independence between flags", "anchors": ["packet/code/talktome.go", "packet/code/porttype.go", "packet/code/goodinput.go", "packet/code/goodoutput.go", "packet/code/status1.go", "packet/code/status2.go", "packet/code/swmacro.go", "packet/code/swremote.go"]}
{"id": "C26", "title": "Status flags can be cleared", "statement": "For every flag, With<Flag>(false).<Flag>() is false.", "quantifier": "every register value, every flag", "why_tests_cant": "needs values with the flag already set", "anchors": ["packet/code/*.go: With*"]}
{"id": "C27", "title": "Status1 enumerations round-trip", "statement": "WithPortAddr(v).PortAddr() = v and WithIndicator(v).Indicator() = v for each documented v, starting from a register with those bits clear.", "quantifier": "every documented value, every other bit setting", "why_tests_cant": "cross-product of values and other bits", "anchors": ["packet/code/status1.go: WithPortAddr, PortAddr, WithIndicator, Indicator"]}
{"id": "C28", "title": "PortType protocol round-trips", "statement": "From a port type with protocol bits clear, WithType(t).Type() = t for the six documented protocols and the Input/Output flags are unaffected; setting the flags never changes Type().", "quantifier": "every PortType value, every protocol", "why_tests_cant": "all combinations", "anchors": ["packet/code/porttype.go: WithType, Type, WithInput, WithOutput"]}
{"id": "C29", "title": "Code names are total, in range and unambiguous", "statement": "String() of OpCode, StyleCode, NodeReportCode and PriorityCode never crashes, returns the documented constant name for each known code, and distinct codes have distinct strings; ValidOp/ValidStyle hold exactly for the named codes.", "quantifier": "every 8/16-bit code value", "why_tests_cant": "65536 + 3*256 values", "anchors": ["packet/code/opcode_string.go", "packet/code/stylecode.go", "packet/code/nodereportcode_string.go", "packet/code/prioritycode_string.go"]}
{"id": "C30", "title": "Register String() reports every flag truthfully", "statement": "The String() of each status register says yes/on for a flag iff its bit is set, and the named enumerations it prints are the documented ones.", "quantifier": "every register value", "why_tests_cant": "256 values x 8 registers", "anchors": ["packet/code/*.go: String"]}
{"id": "C31", "title": "Universe addresses are identified faithfully", "statement": "Address.Integer is Net*256+SubUni, and both Integer and String distinguish any two different addresses.", "quantifier": "every pair of addresses", "why_tests_cant": "2^32 pairs", "anchors": ["config.go: Address.Integer, Address.String"]}
{"id": "C32", "title": "Configuration validation is exact", "statement": "Node.Start rejects the configuration iff it has more than 4 input ports, more than 4 output ports, or an input and an output port of the same index with different protocol names.", "quantifier": "every NodeConfig", "why_tests_cant": "port lists of any length", "anchors": ["config.go: validate", "node.go: Start"]}
{"id": "C33", "title": "Announced port count and port types", "statement": "For a valid configuration NumberOfPorts is the larger of the two port counts, and PortTypes[i] has the input (output) flag iff there is an input (output) port i and carries that port's protocol.", "quantifier": "every valid NodeConfig", "why_tests_cant": "all port combinations", "anchors": ["config.go: NumberOfPorts, PortTypes"]}
{"id": "C34", "title": "Announced identity survives discovery", "statement": "A node's OEM, Version, BiosVersion, Type, BindIndex, Status1, Status2, BaseAddress, IPv4 address, BindIP and 6-byte MAC, announced by ArtPollReplyFromConfig, marshalled, unmarshalled and read by ConfigFromArtPollReply, are unchanged.", "quantifier": "every valid NodeConfig with a known Type", "why_tests_cant": "composition of four functions over all configurations", "anchors": ["config.go: ArtPollReplyFromConfig, ConfigFromArtPollReply"]}
{"id": "C35", "title": "Announced names survive discovery", "statement": "Name, Description and Manufacturer of a node are discovered exactly as configured (up to the field sizes 18, 64, 2).", "quantifier": "every string", "why_tests_cant": "all byte contents including non-ASCII and embedded NUL", "anchors": ["config.go: decodeString, ArtPollReplyFromConfig"]}
{"id": "C36", "title": "Announced ports survive discovery", "statement": "The input and output ports of a valid node configuration (number, protocol, universe address, status) are discovered as configured.", "quantifier": "every valid NodeConfig", "why_tests_cant": "all port lists", "anchors": ["config.go: ArtPollReplyFromConfig, ConfigFromArtPollReply, PortTypes"]}
{"id": "C37", "title": "Ports read from a reply", "statement": "ConfigFromArtPollReply yields exactly one output (input) port for each of the first min(NumPorts,4) port-type entries with the output (input) flag, in order, with Net = NetSwitch, SubUni = SubSwitch OR the port's switch value, and that entry's type and status; it never crashes for any NumPorts.", "quantifier": "every ArtPollReplyPacket value", "why_tests_cant": "NumPorts up to 65535, all flag patterns", "anchors": ["config.go: ConfigFromArtPollReply"]}
{"id": "C38", "title": "Universe address of a discovered port follows the documentation", "statement": "The universe of a discovered port is NetSwitch in bits 14-8, SubSwitch in bits 7-4 and the port's switch nibble in bits 3-0, as the field comments state.", "quantifier": "every ArtPollReplyPacket value", "why_tests_cant": "all SubSwitch/Sw values", "anchors": ["config.go: ConfigFromArtPollReply", "packet/artpollreply.go: SubSwitch, SwIn, SwOut comments"]}
{"id": "C39", "title": "A started node's announcement is always decodable", "statement": "The ArtPollReply a started node sends is accepted by Unmarshal, i.e. peers using this library will discover it.", "quantifier": "every NodeConfig that Start accepts", "why_tests_cant": "all configurations", "anchors": ["node.go: pollReplyLoop", "config.go: ArtPollReplyFromConfig, validate"]}
{"id": "C40", "title": "A controller lists each IP once", "statement": "After any sequence of poll replies, garbage collections, sends and ticks, no two entries of Controller.Nodes have the same IP.", "quantifier": "every history of controller events", "why_tests_cant": "unbounded histories", "anchors": ["controller.go: updateNode, gcNode"]}
{"id": "C41", "title": "Routing never dangles", "statement": "Every entry of OutputAddress/InputAddress refers to a node that is currently in Nodes and whose current configuration announces that address.", "quantifier": "every history", "why_tests_cant": "unbounded histories incl. address collisions and port changes", "anchors": ["controller.go: updateNode, gcNode"]}
{"id": "C42", "title": "Every announced output address is routable", "statement": "An address announced as an output port by a listed node is present in OutputAddress (so SendDMXToAddress reaches it).", "quantifier": "every history", "why_tests_cant": "needs interleaved updates, collisions, expiry", "anchors": ["controller.go: updateNode, gcNode"]}
{"id": "C43", "title": "SendDMXToAddress affects only its universe", "statement": "SendDMXToAddress to a routed address stores the data for exactly that node and universe and marks it for transmission; to an unrouted address it changes nothing and does not crash.", "quantifier": "every controller state, address and frame", "why_tests_cant": "all states", "anchors": ["controller.go: SendDMXToAddress, setDMXBuffer"]}
{"id": "C44", "title": "Each tick sends a universe at most once, exactly when due", "statement": "In one update tick at most one ArtDmx frame is sent per routed universe, and one is sent exactly when the universe has unsent data (older than the guard interval) or was last sent more than 250 ms ago; no other traffic is sent.", "quantifier": "every reachable state, clock value, map iteration order", "why_tests_cant": "all states, clocks and iteration orders", "anchors": ["controller.go: dmxUpdateLoop"]}
{"id": "C45", "title": "Frames carry the right data to the right node", "statement": "Every frame sent in a tick is addressed to UDP port 6454 of the IP of the node routed for that universe and, decoded by Unmarshal, carries that universe's Net/SubUni and the buffered 512 bytes.", "quantifier": "every reachable state, clock, iteration order", "why_tests_cant": "all states", "anchors": ["controller.go: dmxUpdateLoop, dmxUpdate"]}
{"id": "C46", "title": "Last write wins", "statement": "Every frame ever sent for a universe to a node carries the data of the most recent accepted SendDMXToAddress for that universe on that node, or all zeros (blackout) if there was none since the node was discovered.", "quantifier": "every history of events", "why_tests_cant": "unbounded histories and interleavings", "anchors": ["controller.go: SendDMXToAddress, setDMXBuffer, dmxUpdate, updateNode"]}
{"id": "C47", "title": "Sequence numbers follow the Art-Net rule", "statement": "Successive frames sent to a node carry successive sequence numbers that stay within 1..255 (0 would disable re-sequencing at the receiver).", "quantifier": "every history", "why_tests_cant": "needs >255 frames", "anchors": ["controller.go: dmxUpdate", "packet/artdmx.go: Sequence comment"]}
{"id": "C48", "title": "Keep-alive", "statement": "After every tick each routed universe has been transmitted within the last 250 ms, even when nobody writes to it; a newly discovered universe is transmitted (blackout) on the first tick.", "quantifier": "every reachable state and clock", "why_tests_cant": "all states", "anchors": ["controller.go: dmxUpdateLoop"]}
{"id": "C49", "title": "Garbage collection removes exactly the silent nodes", "statement": "gcNode terminates, removes every node not seen for more than 7 s (and its addresses), keeps every other node, its order and its data.", "quantifier": "every state, every non-decreasing clock", "why_tests_cant": "any number of stale nodes at any positions", "anchors": ["controller.go: gcNode"]}
{"id": "C50", "title": "Deleting a node is safe", "statement": "deleteNode removes the node with the given IP and its addresses, returns no error when it found one, and does not crash.", "quantifier": "every state and IP", "why_tests_cant": "position-dependent", "anchors": ["controller.go: deleteNode"]}
{"id": "C51", "title": "Only nodes and controllers with outputs are tracked", "statement": "A poll reply adds or refreshes an entry iff its style is Node, or Controller with at least one output port; any other reply leaves the controller unchanged.", "quantifier": "every poll reply and state", "why_tests_cant": "all replies", "anchors": ["controller.go: pollLoop"]}
{"id": "C52", "title": "MaxFPS is honoured", "statement": "For every configured MaxFPS the controller runs without crashing and two frames for one universe are never sent less than 1/MaxFPS apart.", "quantifier": "every MaxFPS value, every tick schedule", "why_tests_cant": "all ints, all schedules", "anchors": ["controller.go: dmxUpdateLoop", "options.go: MaxFPS"]}
{"id": "C53", "title": "A restarted controller can reach the nodes it lists", "statement": "After Stop and Start, every node still in Nodes can be addressed.", "quantifier": "every history ending in a restart", "why_tests_cant": "needs restart histories", "anchors": ["controller.go: Start"]}
{"id": "C54", "title": "BroadcastAddr applies to everything the controller broadcasts", "statement": "With option BroadcastAddr(a), the controller's ArtPoll and ArtPollReply broadcasts all go to a.", "quantifier": "every address", "why_tests_cant": "option interplay", "anchors": ["options.go: BroadcastAddr", "controller.go: NewController", "node.go: pollReplyLoop"]}
{"id": "C55", "title": "Data written right after a port appears is not lost", "statement": "If SendDMXToAddress is called for an address present in OutputAddress, the data is stored.", "quantifier": "every history", "why_tests_cant": "needs a port to appear on a known node before the next tick", "anchors": ["controller.go: updateNode, setDMXBuffer"]}
{"id": "C56", "title": "Callback registry", "statement": "RegisterCallback/DeregisterCallback take effect iff the node is stopped; the last registration for an opcode wins; other opcodes are unaffected.", "quantifier": "every sequence of registrations, starts and stops", "why_tests_cant": "all call sequences", "anchors": ["node.go: RegisterCallback, DeregisterCallback"]}
{"id": "C57", "title": "Each accepted packet triggers its callback exactly once", "statement": "For every run, each datagram that is not from the node itself and that Unmarshal accepts leads to at most one callback invocation, with that packet, of the callback registered for its opcode; rejected datagrams and unregistered opcodes lead to none.", "quantifier": "every schedule of the node's goroutines and every datagram sequence", "why_tests_cant": "all interleavings", "anchors": ["node.go: recvLoop, handlePacket"]}
{"id": "C58", "title": "Own broadcasts are ignored", "statement": "Datagrams whose source IP equals the node's IP never reach the parser or callbacks.", "quantifier": "every schedule and datagram sequence", "why_tests_cant": "all interleavings; IPv4/IPv4-in-6 forms", "anchors": ["node.go: recvLoop"]}
{"id": "C59", "title": "One reply per poll", "statement": "The number of ArtPollReply broadcasts never exceeds the number of ArtPoll packets handled, nothing is lost (each handled poll is replied, queued or in progress), and every reply is the encoding of the node's configuration at Start sent to the broadcast address.", "quantifier": "every schedule", "why_tests_cant": "all interleavings", "anchors": ["node.go: pollReplyLoop, handlePacketPoll"]}
{"id": "C60", "title": "Plain nodes ignore poll replies", "statement": "A node whose style is not Controller never queues poll replies; a controller queues each exactly once.", "quantifier": "every packet and configuration", "why_tests_cant": "all packets", "anchors": ["node.go: handlePacketPollReply"]}
{"id": "C61", "title": "Stop and Start can be called in any order without crashing", "statement": "Any sequence of Start and Stop calls on a node runs without panic.", "quantifier": "every call sequence", "why_tests_cant": "all call sequences", "anchors": ["node.go: Start, Stop", "controller.go: Stop"]}
{"id": "C62", "title": "A failed Start leaves the node stopped", "statement": "If Start returns an error the node still counts as stopped (callbacks can be registered).", "quantifier": "every failure point of Start", "why_tests_cant": "depends on environment failures", "anchors": ["node.go: Start"]}
{"id": "C63", "title": "The receive goroutine survives socket errors", "statement": "A failed socket read while the node is running is logged and the node continues; stopping the node never crashes the receive goroutine.", "quantifier": "every schedule, every read error", "why_tests_cant": "needs error injection at every interleaving", "anchors": ["node.go: recvLoop, Stop"]}
{"id": "C64", "title": "Datagrams are parsed intact and in order", "statement": "The byte strings handed to Unmarshal are, in order, the datagrams received from other hosts (up to 4096 bytes each), unaffected by later reads into the same buffer.", "quantifier": "every schedule and datagram sequence", "why_tests_cant": "buffer reuse races", "anchors": ["node.go: recvLoop"]}
{"id": "C65", "title": "Callbacks run in arrival order", "statement": "Callbacks for successive datagrams are invoked in the order of arrival.", "quantifier": "every schedule", "why_tests_cant": "scheduler-dependent", "anchors": ["node.go: recvLoop (go n.handlePacket)"]}
{"id": "C66", "title": "Nothing is transmitted after Stop", "statement": "Once Stop has returned no further datagram is transmitted.", "quantifier": "every schedule", "why_tests_cant": "all interleavings", "anchors": ["node.go: Stop, sendLoop"]}
{"id": "C67", "title": "Queues are bounded", "statement": "None of the four internal queues ever holds more than 10 elements; producers block instead.", "quantifier": "every schedule", "why_tests_cant": "all interleavings", "anchors": ["node.go: Start"]}
{"id": "C68", "title": "No deadlock while running", "statement": "In every state reachable before Stop, a pending SendDMXToAddress call can complete and every blocked goroutine's queue can be drained.", "quantifier": "every schedule", "why_tests_cant": "all interleavings", "anchors": ["controller.go: pollLoop, dmxUpdateLoop, SendDMXToAddress", "node.go: sendLoop, pollReplyLoop"]}
{"id": "C69", "title": "SendDMXToAddress returns even after Stop", "statement": "A SendDMXToAddress call made during or after Stop returns.", "quantifier": "every schedule", "why_tests_cant": "needs a specific interleaving of Stop with a tick", "anchors": ["controller.go: Stop, dmxUpdateLoop"]}
{"id": "C70", "title": "Stop ends all goroutines", "statement": "After Stop every goroutine started by the node and the controller can terminate.", "quantifier": "every schedule", "why_tests_cant": "needs specific interleavings", "anchors": ["node.go: Stop, sendLoop, recvLoop, pollReplyLoop", "controller.go: Stop"]}
{"id": "C71", "title": "Everything transmitted is valid Art-Net", "statement": "Every datagram a controller or node transmits is accepted by Unmarshal (for a known style code).", "quantifier": "every schedule and history", "why_tests_cant": "all histories", "anchors": ["node.go: sendLoop", "controller.go: pollLoop, dmxUpdateLoop"]}
{"id": "C72", "title": "Restart is clean", "statement": "Stop followed by Start leaves exactly one set of goroutines and does not crash the receive goroutine of the previous run.", "quantifier": "every schedule", "why_tests_cant": "race between the old reader and the new Start", "anchors": ["node.go: Start, Stop, recvLoop"]}
{"id": "C73", "title": "The frames on the wire are the frames of the ticks", "statement": "Every ArtDmx datagram a controller transmits was made by a tick of dmxUpdateLoop, each frame of a tick is transmitted at most once, and its data is that of the last SendDMXToAddress for its universe.", "quantifier": "every schedule and history", "why_tests_cant": "all histories and interleavings", "anchors": ["controller.go: dmxUpdateLoop, SendDMXToAddress", "node.go: sendLoop"]}
{"id": "C74", "title": "Payloads are transmitted in the order they were queued", "statement": "The sequence of datagrams transmitted is a subsequence of the sequence of payloads queued, and ArtDmx frames are transmitted in the order of the ticks.", "quantifier": "every schedule", "why_tests_cant": "needs a specific interleaving with a restart", "anchors": ["node.go: sendLoop, Start, Stop"]}
{"id": "C75", "title": "The validation error names the actual problem", "statement": "When Start refuses a configuration, the message gives the number of ports of the kind there are too many of, or the first pair of ports of different types.", "quantifier": "every configuration", "why_tests_cant": "infinitely many configurations", "anchors": ["config.go: validate"]}
{"id": "C76", "title": "Start on a running node", "statement": "Calling Start on a running node does not disturb it.", "quantifier": "every schedule", "why_tests_cant": "needs statements about all continuations", "anchors": ["node.go: Start"]}
{"id": "C77", "title": "Polls of a controller", "statement": "A controller queues one ArtPoll per successful listen and per tick of the poll ticker, and every ArtPoll it transmits is the same 14 bytes sent to its broadcast address.", "quantifier": "every schedule", "why_tests_cant": "all interleavings", "anchors": ["controller.go: pollLoop, Start"]}
{"id": "C78", "title": "Nothing is lost while running", "statement": "From every state of a running node without network errors the node can reach, without new input, a state in which every datagram received from another host was parsed in order, every accepted packet handled, everything queued transmitted in order, every frame sent, every poll answered and every ArtPollReply applied.", "quantifier": "every schedule", "why_tests_cant": "all interleavings; existence of continuations from every state", "anchors": ["node.go: recvLoop, sendLoop, pollReplyLoop, handlePacket", "controller.go: pollLoop, dmxUpdateLoop"]}
{"id": "C79", "title": "A running node finishes its work under every schedule", "statement": "If no datagram arrives, no ticker fires, no socket operation fails and no call is made, then whatever the scheduler does a running node takes only finitely many steps, and when it can take no more, every pending SendDMXToAddress has returned and everything received, queued, routed and called so far is dealt with.", "quantifier": "every reachable running state and every schedule from it", "why_tests_cant": "all schedules, including infinite ones", "anchors": ["node.go: recvLoop, sendLoop, pollReplyLoop, handlePacket", "controller.go: pollLoop, dmxUpdateLoop, SendDMXToAddress"]}
{"id": "C80", "title": "What a stopped node leaves behind", "statement": "After Stop has returned, without new input, every schedule takes only finitely many steps; at the end every goroutine has ended or is blocked for ever on a queue of ten entries nobody reads any more, or on the lock held by a goroutine blocked that way. If everything was settled when Stop returned, all goroutines end.", "quantifier": "every reachable stopped state and every schedule from it", "why_tests_cant": "all schedules, including infinite ones; hanging for ever cannot be observed", "anchors": ["node.go: Stop, recvLoop, sendLoop, pollReplyLoop, handlePacket", "controller.go: Stop, pollLoop, dmxUpdateLoop, SendDMXToAddress"]}
{"id": "C81", "title": "No data races", "statement": "Two goroutines or calls are never about to access the same variable, at least one of them writing, without both holding the lock meant for it.", "quantifier": "every reachable state of every run, every variable shared by goroutines", "why_tests_cant": "the race detector sees only the schedules it is run on", "anchors": ["node.go: Start, Stop, sendLoop, recvLoop, handlePacket, RegisterCallback, DeregisterCallback", "controller.go: Start, Stop, pollLoop, dmxUpdateLoop, SendDMXToAddress"]}
{"id": "C82", "title": "End to end: the data a node gets", "statement": "On a network whose ArtDmx traffic comes from hosts running this library, every ArtDmx packet given to a callback carries the data that the user of another host had written last for this universe when an earlier tick of that host found it routed to an address the receiver hears (zeros if nothing was written).", "quantifier": "any number of hosts, all interleavings, any loss, duplication and reordering of datagrams", "why_tests_cant": "all networks and schedules", "anchors": ["controller.go: SendDMXToAddress, dmxUpdateLoop", "node.go: sendLoop, recvLoop, handlePacket", "packet/artdmx.go"]}
{"id": "C83", "title": "End to end: what a controller knows", "statement": "On a network whose ArtPollReply traffic comes from hosts running this library, every entry of a controller's tables is the configuration learnt from the announcement another host with a valid configuration transmitted before; universes are routed only to hosts with outputs, and only the base address they announced.", "quantifier": "any number of hosts, all interleavings, any loss, duplication and reordering of datagrams", "why_tests_cant": "all networks and schedules", "anchors": ["controller.go: pollLoop, updateNode", "node.go: pollReplyLoop, sendLoop, recvLoop, handlePacket", "config.go: ArtPollReplyFromConfig, ConfigFromArtPollReply"]}
{"id": "C84", "title": "End to end: nodes get only their own universe", "statement": "On a closed network in which unicast addresses reach one host, an ArtDmx packet given to a callback is for the universe the receiving host announced itself, and that host has outputs.", "quantifier": "any number of hosts, all interleavings, any loss, duplication and reordering of datagrams", "why_tests_cant": "all networks and schedules", "anchors": ["controller.go: dmxUpdateLoop, updateNode", "node.go: pollReplyLoop, recvLoop, handlePacket", "config.go"]}
{"id": "C85", "title": "From any moment on, everything that happens is dealt with", "statement": "Take any running node or controller in any state and any further steps without Start, Stop and socket errors after which its goroutines rest: everything received from other hosts in between was parsed in order, everything queued was transmitted in order, every accepted packet was given to the registered callback, every poll was answered and every ArtPollReply was applied to the controller's tables.", "quantifier": "all running states (any past with any number of runs), all interleavings", "why_tests_cant": "all states and all schedules", "anchors": ["node.go:146-304", "controller.go:152-290"]}
{"id": "C86", "title": "End to end: a controller discovers a node", "statement": "A controller and a node run on a network, hear each other's broadcasts and have different addresses; the poll ticker fires; the network delivers the poll and the answer at least once. Then, once both are at rest, the controller's tables got an entry with what the node's configuration announces, and the node's base address is routed to it if it has outputs.", "quantifier": "any number of other hosts, any past, all interleavings, any loss, duplication and reordering of other datagrams", "why_tests_cant": "all networks and schedules", "anchors": ["controller.go:152-211", "controller.go:295-350", "node.go:146-180", "node.go:210-304"]}
{"id": "C87", "title": "End to end: what the user writes reaches the node's callback", "statement": "A controller and a node run on a network; at a tick a universe is due whose node address the receiver hears; the network delivers that frame at least once. Then, once both are at rest, the receiver's callback for ArtDmx was given the universe with the data most recently written to it; in particular the data of the last accepted SendDMXToAddress.", "quantifier": "any number of other hosts, any past, all interleavings, any loss, duplication and reordering of other datagrams", "why_tests_cant": "all networks and schedules", "anchors": ["controller.go:214-290", "node.go:182-304"]}
{"id": "C88", "title": "End to end: discovery and delivery stay possible", "statement": "From every reachable state of a network, whatever is queued, pending or in flight, a running controller and a running node that hear each other can take steps after which the controller has discovered the node; and from every state in which a controller rests with a universe routed to a node, any data the user writes can reach the node's callback at the next tick.", "quantifier": "all reachable network states", "why_tests_cant": "all reachable states of any number of hosts", "anchors": ["controller.go:152-290", "node.go:146-304"]}
{"id": "C89", "title": "Callbacks of a running node cannot be changed", "statement": "RegisterCallback and DeregisterCallback change a node's callbacks only while it is stopped, whenever other goroutines run between the test of the shutdown flag and the change of the map: once Start has returned, the callbacks stay as they are until Stop.", "quantifier": "all executions of a node with calls of RegisterCallback and DeregisterCallback from other goroutines, all interleavings of their two steps with Start, Stop and the node's goroutines", "why_tests_cant": "a race between two calls; the window is a few instructions", "anchors": ["node.go:307-330", "node.go:116-142", "node.go:97-114"]}
{"id": "C90", "title": "A controller knows exactly the nodes that answered lately", "statement": "Over every history of a controller: a node that never answered is not listed. After its last answer at time t a node is listed with the configuration it announced as long as every clean-up reads clocks up to t + 7 s; it is no longer listed, until it answers again, once a clean-up has read later clocks only. Every ArtDmx datagram on the wire goes to a node that had answered before the tick that made it, announcing that universe in its last answer, and had not expired.", "quantifier": "all histories of any length with any number of nodes, arbitrary clocks, all interleavings of the controller's goroutines", "why_tests_cant": "unbounded histories and clock readings", "anchors": ["controller.go:293-350", "controller.go:373-405", "controller.go:152-211", "controller.go:235-290"]}
{"id": "C91", "title": "The polling example survives whatever is on the network", "statement": "example/poll does not die of a panic, whatever datagrams arrive from whom while it waits for answers.", "quantifier": "all interleavings of its two goroutines, all datagrams", "why_tests_cant": "depends on foreign traffic and timing", "anchors": ["example/poll/main.go:39-78"]}
{"id": "C92", "title": "The polling example shows only nodes that answered", "statement": "Every node shown by example/poll is what some single datagram from another host announces.", "quantifier": "all interleavings of its two goroutines, all datagrams", "why_tests_cant": "the receive buffer is shared between two goroutines; the mixture needs a datagram arriving between receive and decode", "anchors": ["example/poll/main.go:39-78"]}
{"id": "C93", "title": "No packet storms", "statement": "A host transmits at most one datagram per ArtPoll received from others, plus, for a controller, two per opened socket and per poll tick and the frames its ticks make. A network of such hosts, in which no poll is delivered twice to the same host, never transmits more than (number of hosts + 2) per socket and poll tick plus the frames: answers do not cause further traffic.", "quantifier": "all networks of any number of hosts, all executions", "why_tests_cant": "the bound ranges over all hosts, schedules and losses", "anchors": ["node.go:284-291", "node.go:146-178", "controller.go:152-210", "controller.go:235-290"]}
{"id": "C94", "title": "Critical sections behave atomically", "statement": "Let the work under c.nodeLock (gcNode, updateNode, SendDMXToAddress, a tick of dmxUpdateLoop) be done access by access, with the other goroutines running in between, and with frames sent from inside the tick's section. As long as no Start of the controller runs inside such a section, every execution is observably one in which each section happens at once; no section panics; one without sends waits for nobody and a tick only for room in sendCh. Conversely every execution of the atomic model is one of the finer model.", "quantifier": "all executions, all interleavings inside the sections, all ways of splitting a section into accesses", "why_tests_cant": "a test sees a few interleavings; the claim is about every point of every section", "anchors": ["controller.go:214-232", "controller.go:235-290", "controller.go:295-349", "controller.go:375-401", "controller.go:40-79"]}
{"id": "C95", "title": "The example programs announce a usable address", "statement": "example/node and example/controller announce, in every reply they transmit, an IPv4 address of the machine: the first one in 2.0.0.0/8 if there is one.", "quantifier": "all lists of interface addresses, all executions", "why_tests_cant": "the choice depends on the interfaces of the machine the test runs on", "anchors": ["example/node/main.go:12-34", "example/controller/main.go:11-32", "node.go:55-89", "config.go:68-94"]}
{"id": "C96", "title": "A fair scheduler gets everything done, however much keeps coming", "statement": "In every infinite execution of a running node or controller in which datagrams, ticks and calls of SendDMXToAddress keep coming and the scheduler is fair, no goroutine and no call is blocked for ever: every loop comes back to its select, every handler ends, every call returns. Whatever has happened by any moment has had its effect from some later moment on: datagrams of other hosts are parsed in order and the accepted ones handed to their callbacks, queued payloads and frames are transmitted in order, polls are answered, poll replies reach the tables.", "quantifier": "all infinite executions without Start, Stop and failing socket operations, all fair schedules", "why_tests_cant": "liveness under unbounded input cannot be observed in a finite run", "anchors": ["node.go:146-305", "controller.go:152-290", "controller.go:214-232"]}
{"id": "C97", "title": "A node is eventually discovered over a lossy network", "statement": "A controller and a node run for ever with fair schedulers on a network that may lose, repeat, delay and reorder datagrams, but not lose all polls or all replies for good. If the controller's poll ticker keeps ticking, then again and again its tables contain the node with exactly what its configuration announces, its base address being routed to it.", "quantifier": "all infinite executions of all networks, all fair schedules, all losses that are not permanent", "why_tests_cant": "liveness over an unreliable network: no finite run observes it", "anchors": ["controller.go:152-210", "controller.go:293-346", "node.go:146-203", "node.go:210-305"]}
{"id": "C98", "title": "A written universe eventually reaches the lamp", "statement": "The user of a controller wrote data to a universe that is routed to a node. Over a link on which every datagram arrives at least once, the data of the next due tick is given to the node's ArtDmx callback later. Over a link that may lose any datagram but not all, if ticks that find the universe due keep coming, the callback is given the data again and again.", "quantifier": "all infinite executions of all networks, all fair schedules, all non-permanent losses, all universes and data", "why_tests_cant": "liveness over an unreliable network: no finite run observes it", "anchors": ["controller.go:214-290", "controller.go:40-79", "node.go:182-305"]}
{"id": "C99", "title": "Options set on an existing node or controller", "statement": "SetOption may be called at any time, also while the goroutines run. From the call on the new broadcast address and frame rate are used, nothing else about the behaviour changes, and options set before Start are the same as options given to the constructor.", "quantifier": "all executions with SetOption calls between any two steps, all options and values", "why_tests_cant": "the result depends on what each goroutine has already read when the option is set", "anchors": ["options.go:12-78", "node.go:168-171", "controller.go:166-180", "controller.go:236-237"]}
{"id": "C100", "title": "The example programs as a whole", "statement": "The programs example/node and example/controller keep running whatever they receive, unless reading from the socket fails. The node program transmits nothing but its own ArtPollReply. The calls of the controller program take effect once each and in the order of the program; its frames carry, for universe 0/0, the four values in that order and otherwise zeros, and every node on universe 0/0 is shown all four. If Start fails the programs transmit nothing.", "quantifier": "all interface addresses, all executions of the two programs, with every interleaving of their calls with the goroutines and all received datagrams", "why_tests_cant": "the programs never end and their output depends on when nodes are discovered and on the interleaving of five goroutines with the calls", "anchors": ["example/controller/main.go:11-52", "example/node/main.go:12-40", "controller.go:120-136", "controller.go:214-232", "node.go:116-142"]}
{"id": "C101", "title": "Errors say what is wrong with a datagram", "statement": "The message of the error with which Unmarshal rejects a datagram names its defect, with the offending value of the datagram: the version, the opcode in hexadecimal, the port of an ArtPollReply. Different errors have different messages.", "quantifier": "all byte strings", "why_tests_cant": "2^16 opcodes, 2^16 ports, 256 versions in every combination with every other defect; tests look at err != nil", "anchors": ["packet/header.go:17-21", "packet/header.go:86", "packet/packet.go:17", "packet/packet.go:70-72", "packet/artpollreply.go:166-175"]}
{"id": "C102", "title": "Sizes of transmitted datagrams", "statement": "Every datagram that a node or controller transmits has 14 bytes (ArtPoll), 239 bytes (ArtPollReply) or 530 bytes (ArtDmx), so none is fragmented on Ethernet.", "quantifier": "all configurations whose fields fit their Go types, all environments, all executions, all transmitted datagrams", "why_tests_cant": "names, reports and port lists of any length and every execution of five goroutines", "anchors": ["node.go:146-203", "controller.go:152-180", "controller.go:234-289", "config.go:68-94"]}
{"id": "C103", "title": "Datagrams longer than the receive buffer", "statement": "A datagram of any length is accepted or rejected like its first 4096 bytes, as the same packet or with the same error. Every packet given to a callback is that of a whole datagram received from another host, and if a callback is registered for a packet received by a running node, it is invoked however long the datagram is, once the node has come to rest without further API calls and socket errors.", "quantifier": "all byte strings, all executions", "why_tests_cant": "datagrams up to 64 KiB with every content; truncation is invisible to a test that uses well-formed packets", "anchors": ["node.go:213-244", "packet/packet.go:10-77"]}
{"id": "C104", "title": "Missed polls", "statement": "As the comment in gcNode says, a node is forgotten only after it has left five ArtPolls unanswered: a node that leaves fewer polls in a row unanswered stays known to the controller.", "quantifier": "all event histories with polls and clean-ups every 3 s, all nodes", "why_tests_cant": "time: needs real or simulated seconds and every pattern of answered and missed polls", "anchors": ["controller.go:19-20", "controller.go:130-131", "controller.go:373-400"]}
{"id": "C105", "title": "Announcing a discovered node again", "statement": "A configuration read from an ArtPollReply with ConfigFromArtPollReply and announced again with ArtPollReplyFromConfig gives the same announcement.", "quantifier": "all ArtPollReply packets", "why_tests_cant": "28 fields in every combination; the interesting cases mix port directions and character sets", "anchors": ["config.go:68-94", "config.go:98-121", "config.go:155-214"]}
{"id": "C106", "title": "Assigning Config of an existing node", "statement": "Whenever a program assigns the exported field Config of a node, the node announces in every ArtPollReply one configuration as a whole, valid, and up to date; nothing but the announcement changes.", "quantifier": "all nodes, all sequences of configurations, assigned between any two steps of the goroutines, all executions", "why_tests_cant": "the effect depends on where the goroutines are when the field is assigned; a test cannot place the assignment between two statements of Start and pollReplyLoop", "anchors": ["node.go:18-20", "node.go:116-142", "node.go:146-179", "node.go:294-305", "config.go:68-94"]}
{"id": "C107", "title": "Callbacks that take their time", "statement": "Callbacks of the user are invoked one at a time and never after Stop has returned; a callback that runs long or never returns holds up nothing else, and may call Stop.", "quantifier": "all nodes, all callbacks returning at any time or never, all datagram sequences and schedules", "why_tests_cant": "how invocations overlap is up to the scheduler, and the duration of a callback is unbounded", "anchors": ["node.go:264", "node.go:274-282", "node.go:97-114"]}
{"id": "C108", "title": "Reading the tables of a running controller", "statement": "Controller.Nodes, OutputAddress and InputAddress are exported, the lock that protects them (nodeLock) is not. Whatever instant a program looks at them, also while gcNode, updateNode, SendDMXToAddress or a tick of dmxUpdateLoop is between two of its assignments, the nodes of Nodes exist and have different IPs, and each entry of the maps leads to a node of Nodes with a port of that direction and address. When nobody holds the lock the tables are those of an execution with atomic operations.", "quantifier": "all executions with the accesses of every critical section as separate steps (any number of goroutines, calls, datagrams, clock readings), every instant", "why_tests_cant": "The states between two assignments of a critical section last for nanoseconds; a test that reads the tables at such an instant cannot be written without changing the program, and reading them is a data race.", "anchors": ["controller.go:82-106", "controller.go:121-122", "controller.go:214-232", "controller.go:234-291", "controller.go:295-349", "controller.go:378-403"]}
{"id": "C109", "title": "What the log says is what happens", "statement": "For every execution: the entries \"packet sent\" are the datagrams given to the network, in order, with destination and size; \"ignoring unhandled packet\" the packets without a callback, in order; the warnings are the refused datagrams, in order, each with its bytes and a text that says what is wrong with it; \"received packet\" is written for the datagrams of other hosts, with sender and size, once each, apart from those dropped because the node stops and those still to be handled; \"node started\" once per successful Start, with the configured address; \"sending ArtPollReply\" once per reply; \"error writing packet\" for each datagram a running node fails to write; replaying \"added node\", \"updated node\" and \"remove stale node\" gives the nodes of the controller with IP and name at any time. SendDMXToAddress returns nothing: it logs an error exactly when the channels were not taken, and then changes nothing. Nothing else is logged above the level Debug than these, a socket that cannot be opened and a socket that is closed twice.", "quantifier": "all executions (any number of goroutines, calls, datagrams, clock readings, socket errors), for a node and a controller", "why_tests_cant": "The log is not examined by any test (the tests use a logger and ignore its output), and whether it agrees with what happens depends on the interleaving of goroutines.", "anchors": ["logger.go:9-57", "node.go:65", "node.go:102-106", "node.go:120", "node.go:132", "node.go:153", "node.go:166", "node.go:196-199", "node.go:221-236", "node.go:253-256", "node.go:277", "node.go:287", "node.go:299", "node.go:312-315", "node.go:324-327", "controller.go:124-125", "controller.go:161", "controller.go:203", "controller.go:215-231", "controller.go:271-281", "controller.go:302", "controller.go:330", "controller.go:387"]}
{"id": "C110", "title": "Hearing through the listen address", "statement": "A node or controller made without options about listening hears every datagram for its host on port 6454. With ListenIP (NodeListenIP) and an IPv4 address of the host it still takes part in discovery; without an IP, with 0.0.0.0 or :: it hears everything; with another IPv6 address Start returns an error.", "quantifier": "all option lists, all networks of hosts of this library (any number, any interleaving, datagrams lost, repeated, reordered), all IPs of any length", "why_tests_cant": "The tests never open a socket, and that a socket bound to one address does not get broadcasts shows only between several machines.", "anchors": ["options.go:33-46", "options.go:64-78", "node.go:61", "node.go:129-134", "controller.go:14-17", "controller.go:104-117"]}
{"id": "C111", "title": "A node's entry changes only by what the node sent", "statement": "What a controller knows about a node - that it exists, its ports, the IP its frames go to - changes only because of datagrams from that node. No other host can redirect a universe or silence a node, whatever it sends.", "quantifier": "all running states of all controllers, all IPs, all universes, all foreign senders; all executions and all ways to replace the senders of the datagrams", "why_tests_cant": "Tests use one well-behaved sender. That the sender never matters, and that every running state can be hijacked by one datagram, are statements about all states.", "anchors": ["node.go:211-245", "node.go:248-272", "controller.go:152-211", "controller.go:295-350"]}
{"id": "C112", "title": "Order and repetition of answers", "statement": "What a controller knows (the nodes with their configurations, the IP every universe is sent to) is determined by the last answer of every node. It does not depend on the order in which nodes answered, on repeated answers, on times, on the schedule or on what else the controller did: two controllers that received the same datagrams, in any order and any number of times, know the same.", "quantifier": "all histories and all pairs of executions of all controllers without restarts and expiries", "why_tests_cant": "A test fixes one order; the claim compares all orders, repetitions and schedules.", "anchors": ["controller.go:152-211", "controller.go:295-350", "node.go:211-285"]}
{"id": "C113", "title": "Deadlines", "statement": "If successive ticks are at most d apart, two frames for a universe of the same node are at most 250 ms + d apart. If ticks keep the period of MaxFPS, the data of an accepted SendDMXToAddress leave with the next tick, addressed to the node that has the universe. If the controller cleans up every g, a node that stopped answering is forgotten, and gets no more frames, at the latest 7 s + g after its last answer, and not before 7 s.", "quantifier": "all histories of events and all executions; all d, g, all MaxFPS from 1 to 31622", "why_tests_cant": "A worst-case bound over all interleavings of ticks, answers, calls and clean-ups; a test measures one run on one machine.", "anchors": ["controller.go:127-133", "controller.go:236-288", "controller.go:368-400"]}
{"id": "C114", "title": "What a controller keeps", "statement": "The tables of a controller stay small: it lists at most one node per address that answered, has at most four output and four input routes per listed node (and never more than 65536), makes at most one frame per route and tick, keeps DMX buffers only for the universes its nodes announce, and does not let the network fill its tables without limit.", "quantifier": "all histories of events and all executions", "why_tests_cant": "Bounds on the size of tables after histories of any length, with any answers; a test sees one history.", "anchors": ["controller.go:264-283", "controller.go:295-350", "config.go:155-207"]}
{"id": "C115", "title": "How many goroutines there are", "statement": "A running node has four goroutines when it has nothing to do, a controller six, and from every state it can get back to that by itself; besides these there is at most one goroutine per datagram received from another host and one per pending call. Neither their number while the node runs nor the number left behind by Stop grows with the traffic.", "quantifier": "all executions, all states of a running node or controller, all n", "why_tests_cant": "Counts goroutines in every interleaving, and shows for every n a schedule that exceeds it; a test sees one schedule and one count.", "anchors": ["node.go:137-139", "node.go:213", "node.go:265", "node.go:284-292", "controller.go:133-134"]}
{"id": "C116", "title": "Slices given to a node", "statement": "What the program does with its own memory after NewNode, NewController or an option has returned does not affect the node: neither which datagrams it takes for its own, nor the address it announces, nor where its datagrams go.", "quantifier": "all executions in which the program writes single bytes to its arrays at any time, all nodes and controllers", "why_tests_cant": "Quantifies over every moment at which a byte may be written relative to every step of every goroutine; a test does not even look at the caller's array.", "anchors": ["node.go:82-87", "node.go:168-171", "node.go:194", "node.go:221", "config.go:85", "options.go:26-31", "options.go:57-62"]}
{"id": "C117", "title": "The simpledmx example", "statement": "The simpledmx program sends exactly one datagram if its socket can be opened and none otherwise: 530 bytes to 2.231.20.36:6454, which the library decodes as ArtDmx for universe 0 with sequence 1, channels 1 and 4 at full level and the other 510 off. It prints one line, saying how that went. A running node of another address that gets the datagram calls the callback registered for ArtDmx with that packet; it can get it at any time; without such a callback nothing is called.", "quantifier": "all outcomes of opening and writing the socket; all running nodes and controllers, all executions without further calls of the program or socket errors", "why_tests_cant": "Ranges over every state of a running node and every interleaving of its goroutines in which the datagram arrives; the example itself needs a socket bound to a fixed address.", "anchors": ["example/simpledmx/main.go:10-43", "packet/artdmx.go:74", "node.go:274-282"]}
{"id": "C118", "title": "The connection of a node", "statement": "Connection returns nil until a socket has been opened, an open socket while the node runs, and a closed one after Stop. A program may read from, write to and close it: reading and writing do not affect the node, and closing it cuts the node off the network until the next Start without further harm.", "quantifier": "all executions in which the program reads, writes or closes the socket at any time, all running nodes", "why_tests_cant": "The moment of the close relative to the blocked read and to Stop is up to the scheduler; every state of a running node is covered.", "anchors": ["node.go:92-94", "node.go:102-106", "node.go:129-135", "node.go:190", "node.go:216-231"]}
{"id": "C119", "title": "The listen address as text", "statement": "Start hands the listen address to the network as text. Read back, the text is that address (same IP up to its 4 or 16 byte form, same port) for every IPv4 address and for no address at all; ports above 65535 and IPs of another length are refused; different addresses have different texts. So the socket is bound to the address the options say.", "quantifier": "all IPv4 addresses in 4 or 16 bytes, the empty address, all byte sequences of other lengths than 16, all ports", "why_tests_cant": "2^48 addresses and arbitrarily long byte sequences.", "anchors": ["node.go:129", "options.go:33-46", "options.go:64-78"]}
{"id": "C120", "title": "Nodes are listed in order of discovery", "statement": "Controller.Nodes is in order of discovery. Each listed IP has one moment at which its ArtPollReply put it at the end of the list; it has been on the list at every moment since; these moments increase along the list. One event leaves the list of IPs alone, appends the sender of the reply that was handled, or (clean-up only) removes some and keeps the order of the rest. A node that expired and answers again is listed last.", "quantifier": "all event histories of the tables and all interleavings of the controller's goroutines, any number of nodes", "why_tests_cant": "Unbounded histories of replies, clean-ups, sends and ticks.", "anchors": ["controller.go:295-349", "controller.go:375-401"]}
{"id": "C121", "title": "A universe goes to the node that announced it last", "statement": "When several nodes announce the same output universe, OutputAddress routes it to the node whose ArtPollReply announced it last, or to none. If a universe is routed to an IP, then the last reply that announced the universe came from this IP, and it has been routed to it at every moment since. A universe nobody announced is routed nowhere. Every ArtDmx frame on the wire was made for the node that had announced its universe last when the tick came. One event changes the routing of a universe only as follows: a reply that announces it routes it to the sender; a reply of a node that had announced it and does not any more, the expiry of such a node, and Start make it unrouted.", "quantifier": "all universes, all event histories of the tables and all interleavings of the controller's goroutines, any number of nodes that share universes", "why_tests_cant": "Unbounded histories of replies, clean-ups, sends, ticks and restarts with any overlap of universes.", "anchors": ["controller.go:295-349", "controller.go:375-401", "controller.go:120-122"]}
{"id": "C122", "title": "An input universe is listed under the node that announced it last", "statement": "InputAddress, the exported table of input universes, has for a universe the node whose ArtPollReply announced it as an input last, or none. If a universe is listed under an IP, then the last reply that announced it as an input came from this IP, and it has been listed under it at every moment since. One event changes the entry only as follows: a reply that announces the input sets it to the sender; a reply of a node that had announced it and does not any more, the expiry of such a node, and Start clear it.", "quantifier": "all universes, all event histories of the tables and all interleavings of the controller's goroutines, any number of nodes that share universes", "why_tests_cant": "Unbounded histories of replies, clean-ups, sends, ticks and restarts with any overlap of universes.", "anchors": ["controller.go:295-349", "controller.go:375-401", "controller.go:120-122"]}
{"id": "C123", "title": "A lost route comes back with the next answer", "statement": "The route of a universe that a node announces can be lost although the node is known (C42). It comes back when the node answers the next time, whatever happened before: from that answer on SendDMXToAddress for the universe goes to the node, until one of the following happens: the node answers without the universe, another node announces it, another node that had announced it answers without it, a node that had announced it expires, or the controller is started again. For answers this is exact: each of the answers listed takes the universe away, no other answer does.", "quantifier": "all universes, all event histories of the tables before the answer, all event histories after it without the events listed, all interleavings of the controller's goroutines", "why_tests_cant": "Unbounded histories before and after the answer, any number of nodes with any overlap of universes.", "anchors": ["controller.go:295-349", "controller.go:375-401", "controller.go:120-122"]}

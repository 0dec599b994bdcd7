# Formal model of jsimonetti/go-artnet in Rocq (Coq 8.16.1)

## Trusted base

* Coq's kernel. No plugin, no native code, no `-type-in-type`, no kernel check switched off. `vm_compute` is used
  in examples and refutations (it belongs to the kernel).
* Axioms: none. Every `P_*.v` file ends with one tuple of all its property theorems and `Print Assumptions` of that
  tuple; the answer is "Closed under the global context" for all of them. The libraries used are Coq's standard library
  and std++ (`gmap`, lists), both without axioms here. (A listing of everything in the loaded environment also shows
  `Coq.ssr.ssrunder.Under_rel.*`, seven parameters of a module type in Coq's own ssreflect files that std++ loads. No theorem depends on them.)
* The reading of the Go source: every definition of the model cites the file and lines in /repo it stands for, and notes
  where it simplifies.
* The meaning given to Go and its standard library, written as definitions: `Go.v` (integers, panics, slices, `copy`),
  `Binary.v` (`encoding/binary`), the decimal and hexadecimal printing in `Codes.v` and `Config.v`, `net.IP.To4` in
  `Config.v`, `net.IP.Equal`, channels, `select`, `close`, goroutines, mutexes and sockets in `Sys.v`.
* The specifications in the theorem statements. They are separate from the model: `WireSpec.v` (wire formats as literal
  byte strings), the spec sections at the top of the `P_*.v` files, and the observations `obs` for the goroutines.

## Layers

| file | content |
|---|---|
| `Go.v` | wrap-around integers, panics, slices, `copy`, errors |
| `Binary.v`, `BinaryFacts.v` | `encoding/binary` `Read`/`Write` on fixed-size structs, big endian |
| `Codes.v` | `packet/code/*.go`, `version/version.go` |
| `Packets.v` | `packet/*.go`: structs, `finish`, `validate`, `MarshalBinary`, `UnmarshalBinary`, `Unmarshal`, constructors |
| `WireSpec.v` | independent wire format specification |
| `PacketFacts.v`, `UnmarshalFacts.v`, `DispatchFacts.v`, `EncodeFacts.v` | model against specification |
| `Config.v` | `config.go` |
| `Controller.v`, `ControllerFacts.v` | `controller.go`: tables, `updateNode`, `gcNode`, `deleteNode`, `setDMXBuffer`, `dmxUpdate`, `SendDMXToAddress`, one tick of `dmxUpdateLoop`, as atomic operations |
| `Sys.v` | `node.go`, `controller.go`, `options.go`: every goroutine and call as a program counter machine, interleaved |
| `SysTrans.v` | the same transitions as a relation (for case analysis), proved equivalent to `Sys.tstep` |
| `SysFacts.v`, `SysLaws.v`, `SysRun.v`, `SysOrder.v` | invariants, conservation laws, single runs, FIFO order |
| `Net.v` | several hosts, each running `Sys.v`, on one UDP network |
| `Vectors.v` | the inputs and expected outputs of the project's unit tests (`packet/*_test.go`, `version/version_test.go`), evaluated in the model: tests of the model, not proofs |
| `Fine.v` | the critical sections of `c.nodeLock` access by access, interleaved with everything else (C94) |
| `Options.v` | `options.go`: `SetOption` between any two steps of the goroutines of `Sys.v` |
| `Changes.v` | `Config` of a node assigned between any two steps of the goroutines of `Sys.v` |
| `Invoked.v` | callbacks that take time to return (C107) |
| `Log.v` | `logger.go` and every use of the log: the entries written by each step of `Sys.v` (C109) |
| `Listen.v` | the address a socket is bound to and the destinations it hears (`options.go`, `node.go:129`; C110) |
| `SysScript.v` | playing concrete schedules by computation (examples and refutations) |
| `P_*.v` | the property theorems, with a non-trivial example beside each and `Print Assumptions` |

## What is modelled

* Package `packet`: all twelve packet types that `Unmarshal` can produce (ArtPoll, ArtPollReply, ArtDmx, ArtCommand,
  ArtDiagData, ArtNzs, ArtSync, ArtAddress, ArtTimeCode, ArtTrigger, ArtIpProg, ArtIpProgReply) with their constructors.
* Package `code`: all constants, all flag registers and enumerations with their `String` methods, the generated name tables.
* `config.go` completely.
* The texts of the errors that `Unmarshal` returns (`P_Errors.v`).
* `controller.go`, `node.go` and `options.go` completely (`Connection()` in `P_Conn.v`).
* `example/poll/main.go` and the datagram of `example/simpledmx/main.go` (`P_Example.v`), which is modelled whole in `P_Simple.v`; how `example/node/main.go` and
  `example/controller/main.go` choose their address (`P_Address.v`) and these two programs as sequences of calls, without
  the pauses between the calls (`P_Programs.v`).

## What is not modelled

* The layout of a log line, its formatting cost and the level filter of `logrus` (the entries themselves are in `Log.v`, C109; a nil logger is
  excluded).
* Packet files without code (ArtInput, ArtRdm, ArtRdmSub, ArtTod*, ArtFirmware*, ArtVlc: three lines each). That `Unmarshal`
  refuses their opcodes is part of C14-C16.
* The operating system: the UDP stack is a source of arbitrary datagrams from arbitrary senders and of arbitrary errors.
  Writing a datagram is an observation. `Net.v` connects hosts: datagrams can be lost, duplicated and reordered, but not
  changed, and carry the address of their sender.
* Real time: `time.Now()` returns arbitrary values (where a theorem needs a monotone clock it says so); tickers fire at
  any time, except where their distance is a hypothesis (C52, C104, C113).
* The Go memory model: memory is sequentially consistent, one step is one access to a shared variable, channel, lock or
  socket; a section under `c.nodeLock` is one step, which C94 justifies. C81 justifies this for orderly use: no state has two conflicting unsynchronised accesses, and the memory model
  promises interleaving semantics to such programs. Where C81 is refuted, real executions can do more than the model. The
  table `accesses` in `P_Race.v` is written down from the source; `P_Access.v` proves that no step of the model changes or
  depends on a variable it is not listed with.
* What user callbacks do: invoking one is an observation (that it takes time, and what happens meanwhile, is in `Invoked.v`,
  C107). Assigning to `Node.Config` is in `Changes.v` (C106), reading the tables of a controller in C108; the other
  exported fields are not changed behind the library's back.
* Fairness: C68-C70 say that from every state in question there is a continuation in which the call completes, and the
  refutations that there is none. C79 and C80 say for every schedule that the steps come to an end, and where; they assume
  that the scheduler goes on as long as some goroutine can, and that no input arrives meanwhile. C96 allows input without end and
  assumes strong fairness, per goroutine and per select, as a hypothesis; that Go's scheduler has it is not proved.
* Name resolution and the text form of IPv6 addresses (`net.ListenPacket` gets `n.listenAddr.String()`; `Listen.v`, C110, works with the address itself, which C119 justifies for IPv4). `SetOption` on an existing node or controller is modelled in `Options.v` only: all other theorems are about options given to the constructor, C99 says how far they carry over.
* Integer sizes: `int` is 64 bits. Sequence and counter wrap-around is modelled.

## Errors found in the code (refuted properties)

Each has a `_refuted` theorem with a concrete witness, and a `_partial` theorem with the part that is true.

| | what goes wrong |
|---|---|
| C04 | decoding ArtDmx into a used packet keeps old data beyond `Length` |
| C10 | nine constructors leave OpCode 0: the encoded packet is not of its type |
| C11, C12 | `MarshalBinary` swaps OpCode (and Port) in place: a second call yields different bytes |
| C21 | ArtNzs, ArtDiagData, ArtCommand accept `Length` up to 65535 with 512 data bytes |
| C22 | ArtDmx does not check the opcode, ArtPollReply not the magic string |
| C23 | `Unmarshal` returns a non-nil packet together with an error |
| C24 | variable-length packets with fewer than 512 bytes of data are rejected |
| C26 | `With...(false)` never clears a flag |
| C27, C30 | wrong read masks for two enumerations of Status1 |
| C33 | port types with unnamed protocol numbers are announced as DMX512 |
| C35 | names with bytes above 127 are changed by discovery |
| C36 | universe addresses and statuses of ports are not announced |
| C38 | SubSwitch is OR-ed into the universe nibble unshifted |
| C39 | a style above 6 passes validation, its announcement cannot be decoded |
| C42 | with two nodes on one universe, expiry of one unroutes the other |
| C47 | the sequence number wraps to 0, which disables sequencing |
| C50 | `deleteNode` panics or returns an error |
| C52 | MaxFPS outside 1..10^9 crashes; the rate limit compares nanoseconds with a count |
| C53 | `Start` forgets the routes but keeps the nodes |
| C54 | `BroadcastAddr` does not reach the private node of the controller |
| C55 | data for a newly announced port of a known node is dropped |
| C61 | `Stop` before `Start` and `Stop` twice crash |
| C62 | a failed listen leaves the node marked as running; `Controller.Start` returns an old error |
| C63 | a read error while running crashes the process |
| C64 | after a restart an old receive loop can parse datagrams late |
| C65 | callbacks run in any order |
| C68 | a plain node of controller style gets stuck after ten poll replies |
| C69 | `SendDMXToAddress` can hang for ever after `Stop` |
| C70 | a handler blocked on a full queue outlives `Stop` |
| C72 | restarting at once crashes the old reader, or runs two send loops on one channel |
| C74 | after an immediate restart the old send loop can transmit a payload late, on the new socket |
| C75 | the error for too many output ports gives the number of input ports |
| C76 | a second `Start` makes a running node deaf for ever and leaves loops that `Stop` does not end |
| C81 | `RegisterCallback` after `Stop` races with a pending handler on the map; `SendDMXToAddress` races with `Start`; an immediate restart races with the old goroutines |
| C89 | `RegisterCallback` racing with `Start` changes the callbacks of a running node |
| C91 | example/poll dies of a panic when another host polls |
| C92 | example/poll can show a node that does not exist, mixed from several datagrams |
| C95 | without a 2.x.y.z address the examples use the machine's last address; if that is IPv6 they announce 0.0.0.0 |
| C99 | MaxFPS set on a running controller is ignored until the next `Start`; `SetOption` writes without a lock what running goroutines read |
| C100 | a node that example/controller discovers after its calls is shown zeros only; a failed `Start` goes unnoticed |
| C101 | the error for a wrong port shows the port with its bytes exchanged; opcode 0x0021 is reported as an old version |
| C104 | a node is forgotten after two missed polls, the comment says five |
| C105 | a discovered input port and output port are announced again as one port in both directions |
| C106 | a configuration assigned to a running node is not announced; assigned right after Start it is announced unchecked |
| C107 | callbacks overlap without bound and can start after Stop has returned |
| C108 | reading the tables of a running controller is a data race, and the entries of a node that announces itself again are missing for a moment |
| C109 | an ignored deregistration is logged as a registration; the error is missing when closing the socket fails; `type` is ambiguous in the log |
| C110 | with `ListenIP` and the address of the host a controller discovers nobody; a node with `NodeListenIP` is never discovered |
| C111 | one ArtPollReply from any host redirects any universe to any IP, and one silences any node: the sender of a datagram is never compared with the IP it announces |
| C112 | two nodes on one universe: only the one that answered last gets its frames, so the order of the answers to every poll decides |
| C113 | from MaxFPS(31623) on written data can miss the next tick: the guard waits MaxFPS nanoseconds, which is longer than the period |
| C114 | buffers of universes that a node no longer announces are kept; whoever sends answers with many addresses fills the tables without limit |
| C115 | `go n.handlePacket(p)` (node.go:265) has no limit: any number of goroutines can be waiting, and Stop can leave any number of them blocked for ever on `pollCh` |
| C116 | NewNode and the options keep the caller's `net.IP` slice: writing to it later changes which datagrams count as own, the announced address and the destination of queued datagrams |
| C118 | a program that closes the socket it got from `Connection` kills the process: the reader dereferences the nil address of the failed read |

## Testing the model and the theorems

`Vectors.v` runs the model on all 44 byte-level test vectors of the project's own unit tests; the results agree.

`seeded/LOG.jsonl` records every seeded fault: in a scratch copy one definition of the model is changed like a realistic
bug, the failing proofs are replaced by `Admitted` one by one until everything compiles, and `Print Assumptions` tells which property
theorems depend on one of them. A fault that breaks no theorem of the property it violates means the theorem is too weak
and is tightened. Faults in `Sys.tstep` are seeded in `SysTrans.trans` as well, since otherwise only the equivalence of the two fails. Repairs of
refuted properties are seeded too: the refutation must fail.

## Per property

"Modelled" names the definitions the statement is about, "how" the proof method, "result" what was proved; the exact theorem names are in `MANIFEST.json`.

* **C01 ArtDmx encoding is exact** (proved). Modelled: `DMX_MarshalBinary`. How: layout computed symbolically, equated with literal bytes. Result: Bytes of MarshalBinary spelled out literally for every ArtDMXPacket; stale header/Length irrelevant.
* **C02 ArtDmx round trip** (proved). Modelled: `DMX_MarshalBinary`, `Unmarshal`. How: composition of C01 and the acceptance characterisation. Result: Full statement, every ArtDMXPacket.
* **C03 ArtDmx decoding accepts exactly the well-formed frames** (proved). Modelled: `DMX_UnmarshalBinary`, `Unmarshal`. How: two-way characterisation by case analysis on the datagram. Result: Full iff with every field of the result given as a byte of the datagram.
* **C04 Decoding overwrites the whole packet** (partial). Modelled: all twelve `UnmarshalBinary`. How: result independent of the prior packet; witness by computation. Result: False for ArtDmx (data beyond Length survives from the previous use): C04_reuse_overwrites_refuted gives the witness. True for the other eleven types (C04_reuse_overwrites_partial) and, for ArtDmx, for every field and the first Length data bytes (C04_dmx_reuse_partial).
* **C05 ArtPoll encoding and round trip** (proved). Modelled: `Poll_MarshalBinary`, `Unmarshal`. How: as C01, C02. Result: Full statement.
* **C06 ArtPollReply encoding is exact** (proved). Modelled: `PollReply_MarshalBinary`. How: as C01. Result: Full statement; pollreply_bytes is the documented layout as literal bytes.
* **C07 ArtPollReply round trip** (proved). Modelled: `PollReply_MarshalBinary`, `Unmarshal`. How: composition of C06 and C08. Result: Full statement.
* **C08 ArtPollReply decoding accepts exactly the well-formed replies** (proved). Modelled: `PollReply_UnmarshalBinary`, `Unmarshal`. How: as C03. Result: Full statement.
* **C09 Round trip of the remaining packet types** (proved). Modelled: `MarshalBinary`, `UnmarshalBinary` of nine types. How: per type, via `WireSpec.packet_bytes`. Result: Full statement for all nine types.
* **C10 Constructors yield packets with the correct OpCode** (partial). Modelled: the constructors and `finish`. How: unfolding for every field setting; witness. Result: False for nine of the twelve constructors: finish never sets OpCode (C10_constructor_opcode_refuted, for every field setting). Holds for ArtPoll, ArtDmx and (given port and style) ArtPollReply.
* **C11 Marshalling is repeatable** (partial). Modelled: `MarshalBinary` as a state transformer of its receiver. How: induction over the number of calls; byte swap is an involution. Result: False: every encodable packet other than ArtPoll/ArtDmx yields different bytes the second time (opcode or port swapped in place). Holds for ArtPoll/ArtDmx for any number of calls; all types have period two.
* **C12 Marshalling does not disturb the packet** (partial). Modelled: `MarshalBinary` as a state transformer of its receiver. How: induction over the number of calls; byte swap is an involution. Result: False: after MarshalBinary GetOpCode returns the byte-swapped opcode for every type (and Port is swapped for ArtPollReply). All payload fields are kept.
* **C13 Unmarshal never crashes** (proved). Modelled: `Unmarshal`, all `UnmarshalBinary`. How: every indexing shown in range; result is `Ret`. Result: Full statement: Unmarshal and all twelve UnmarshalBinary methods, any prior packet of Go type.
* **C14 Unmarshal accepts exactly the documented wire formats** (proved). Modelled: `Unmarshal`, `Header_unmarshal`, opcode dispatch. How: against the inductive `wire_accepts` and `wire_error` of `WireSpec.v`. Result: Full statement, plus the exact error for every rejected datagram and the fact that the specification is a partition.
* **C15 Foreign and old-version traffic is rejected** (proved). Modelled: `Unmarshal`, `Header_unmarshal`, opcode dispatch. How: against the inductive `wire_accepts` and `wire_error` of `WireSpec.v`. Result: Full statement, with the kind of error and a nil packet.
* **C16 Opcode classification** (proved). Modelled: `Unmarshal`, `Header_unmarshal`, opcode dispatch. How: against the inductive `wire_accepts` and `wire_error` of `WireSpec.v`. Result: Full statement. Opcode 0x0021 (byte-swapped ArtPollReply) never has a valid header: the library reports it as version 0, see WE_swapped.
* **C17 Dynamic type, GetOpCode and the wire agree** (proved). Modelled: `Unmarshal`, `Header_unmarshal`, opcode dispatch. How: against the inductive `wire_accepts` and `wire_error` of `WireSpec.v`. Result: Full statement.
* **C18 Trailing bytes are ignored** (proved). Modelled: `Unmarshal`. How: acceptance is stable under appending. Result: Full statement.
* **C19 Truncated datagrams are rejected** (proved). Modelled: `Unmarshal`, `Header_unmarshal`, opcode dispatch. How: against the inductive `wire_accepts` and `wire_error` of `WireSpec.v`. Result: Full statement.
* **C20 Re-encoding is canonical** (proved). Modelled: `Unmarshal`, `MarshalBinary`. How: re-encoding of an accepted datagram is its canonical prefix. Result: Full statement.
* **C21 Decoded Length never exceeds Data** (partial). Modelled: `Unmarshal`, `UnmarshalBinary`. How: characterisation of C14; witnesses by computation. Result: False for ArtNzs, ArtDiagData and ArtCommand (65535 accepted); holds for ArtDmx.
* **C22 A type's UnmarshalBinary only accepts its own packets** (partial). Modelled: `Unmarshal`, `UnmarshalBinary`. How: characterisation of C14; witnesses by computation. Result: False for ArtDmx (no opcode check) and ArtPollReply (no magic check); holds for the ten other types.
* **C23 No packet is returned with an error** (partial). Modelled: `Unmarshal`, `UnmarshalBinary`. How: characterisation of C14; witnesses by computation. Result: False: a truncated packet returns a non-nil packet with the error; exact condition for nil proved.
* **C24 Variable-length data packets are accepted at their declared length** (partial). Modelled: `Unmarshal`, `UnmarshalBinary`. How: characterisation of C14; witnesses by computation. Result: False: every frame with fewer than 512 data bytes is rejected; accepted with 512.
* **C25 Status flags set exactly one bit** (proved). Modelled: the 45 `With` methods and readers of the registers. How: `N.testbit` for every register value; table of (flag, bit) written in the spec. Result: Full statement for all 45 flags, any register value.
* **C26 Status flags can be cleared** (partial). Modelled: the 45 `With` methods and readers of the registers. How: `N.testbit` for every register value; table of (flag, bit) written in the spec. Result: False for every flag: With(false) never clears. Proved: With(false) is the identity on the register.
* **C27 Status1 enumerations round-trip** (partial). Modelled: `Status1`, `PortType` enumerations. How: all register values (256, exhaustively inside the proof) and all enumeration values. Result: False for PortAddr net/unused and Indicator mute/normal (wrong read masks), for every register with clear fields; the other two values of each enumeration round-trip, and the bits written are the documented ones.
* **C28 PortType protocol round-trips** (proved). Modelled: `Status1`, `PortType` enumerations. How: all register values (256, exhaustively inside the proof) and all enumeration values. Result: Full statement.
* **C29 Code names are total, in range and unambiguous** (proved). Modelled: `String`, `ValidOp`, `ValidStyle` of the code types. How: name tables by case analysis, symbolic outside the tables; injectivity of decimal printing. Result: Full statement: exact String for every value of the four code types, injectivity, ValidOp/ValidStyle exactly the named codes.
* **C30 Register String() reports every flag truthfully** (partial). Modelled: `String` of the registers. How: membership of each phrase iff the bit is set, all register values. Result: Full for seven registers; false for Status1 (two enumerations); exact condition under which Status1 is truthful proved.
* **C31 Universe addresses are identified faithfully** (proved). Modelled: `Address_String`, `Address_Integer`. How: arithmetic; injectivity of hexadecimal printing. Result: Full statement.
* **C32 Configuration validation is exact** (proved). Modelled: `validate`. How: case analysis against the documented rules. Result: Full statement for validate.
* **C33 Announced port count and port types** (partial). Modelled: `NumberOfPorts`, `PortTypes`, `ArtPollReplyFromConfig`. How: per port slot. Result: False for port types with one of the 26 unnamed protocol numbers (announced as DMX512). Proved: counts, flags, order, protocol of every named type, zero elsewhere.
* **C34 Announced identity survives discovery** (proved). Modelled: `ArtPollReplyFromConfig`, codec, `ConfigFromArtPollReply`. How: composition with C07; string truncation and UTF-8 by induction. Result: Full statement (IPs compared as IPv4, i.e. through To4).
* **C35 Announced names survive discovery** (partial). Modelled: `ArtPollReplyFromConfig`, codec, `ConfigFromArtPollReply`. How: composition with C07; string truncation and UTF-8 by induction. Result: False for non-ASCII strings (each byte re-encoded as UTF-8) and embedded NULs. Proved: the truncated string survives iff it is NUL-free ASCII.
* **C36 Announced ports survive discovery** (partial). Modelled: `ArtPollReplyFromConfig`, codec, `ConfigFromArtPollReply`. How: composition with C07; string truncation and UTF-8 by induction. Result: False: universe addresses and statuses are not announced; all ports are discovered at the base address with status 0. Proved: exactly what is discovered, that number/order/named protocol survive, and exactly when the input and the output ports survive unchanged.
* **C37 Ports read from a reply** (proved). Modelled: `ConfigFromArtPollReply`. How: loop unrolled against a list comprehension; bit arithmetic. Result: Full statement, plus all other fields of the resulting configuration.
* **C38 Universe address of a discovered port follows the documentation** (partial). Modelled: `ConfigFromArtPollReply`. How: loop unrolled against a list comprehension; bit arithmetic. Result: False whenever SubSwitch is a non-zero nibble (it is OR-ed unshifted into the low nibble). Proved: for documented field values the universe is right iff SubSwitch is 0.
* **C39 A started node's announcement is always decodable** (partial). Modelled: `ArtPollReplyFromConfig`, codec, `ConfigFromArtPollReply`. How: composition with C07; string truncation and UTF-8 by induction. Result: False for styles above 6, which Start does not check. Proved: the announcement of a well-typed configuration is accepted iff its style is documented.
* **C40 A controller lists each IP once** (proved). Modelled: `Controller.v`, all events. How: invariant by induction over event histories. Result: Over every history of replies, garbage collections, sends, ticks and (re)starts; also no event crashes.
* **C41 Routing never dangles** (proved). Modelled: `Controller.v`, all events. How: invariant by induction over event histories. Result: Over every history, including address collisions and restarts.
* **C42 Every announced output address is routable** (partial). Modelled: `Controller.v`, all events. How: invariant over collision-free histories; witness histories. Result: False: with two nodes announcing one universe, expiry or a change of the one unroutes the other although it is listed. Partial: holds in histories without collisions and without a restart while nodes are listed.
* **C43 SendDMXToAddress affects only its universe** (proved). Modelled: `SendDMXToAddress`, `setDMXBuffer`. How: unfolding in every state satisfying the invariant. Result: Per state; no crash in every reachable state.
* **C44 Each tick sends a universe at most once, exactly when due** (proved). Modelled: `tick_loop`, `tick_body`, `dmxUpdate`. How: induction over the iteration order; frames decoded with C14. Result: Frames of a tick = one per due entry in iteration order, with the exact state left behind.
* **C45 Frames carry the right data to the right node** (proved). Modelled: `tick_loop`, `tick_body`, `dmxUpdate`. How: induction over the iteration order; frames decoded with C14. Result: Every frame of a tick in a reachable state, decoded by Unmarshal.
* **C46 Last write wins** (proved). Modelled: `tick_loop`, `SendDMXToAddress`, all events. How: trace-level invariant relating tables to the history of frames and writes. Result: Trace level: data of every frame ever sent = last accepted write for that universe on that node, else zeros.
* **C47 Sequence numbers follow the Art-Net rule** (partial). Modelled: `tick_loop`, `SendDMXToAddress`, all events. How: trace-level invariant relating tables to the history of frames and writes. Result: False: the sequence counter wraps to 0 (256th frame). Partial: the k-th frame to a node carries k modulo 256.
* **C48 Keep-alive** (proved). Modelled: `tick_loop`, `SendDMXToAddress`, all events. How: trace-level invariant relating tables to the history of frames and writes. Result: Trace level keep-alive plus timely transmission of new data; clock readings later than 250 ms after the zero time.
* **C49 Garbage collection removes exactly the silent nodes** (proved). Modelled: `gcNode`. How: induction with termination measure; exact filter. Result: Every non-decreasing clock; exact filter when the clock is constant during the call.
* **C50 Deleting a node is safe** (partial). Modelled: `deleteNode`. How: exact outcome by case; witnesses. Result: False: deleteNode always returns an error, and panics unless the node is the last one listed. Partial: exact outcome in each case.
* **C51 Only nodes and controllers with outputs are tracked** (proved). Modelled: `updateNode`, the poll reply case of `pollLoop`. How: exact effect on lists and maps. Result: Exact filter and exact effect of a reply on nodes and routes.
* **C52 MaxFPS is honoured** (partial). Modelled: `ticker_period`, `tick_body`, `tick_loop`. How: arithmetic on nanoseconds; trace invariant; witnesses. Result: False: MaxFPS <= 0 or > 10^9 crashes; the guard compares nanoseconds with MaxFPS so late ticks give frames closer than 1/MaxFPS. Partial: no crash for 1..10^9, spacing above min(MaxFPS ns, 250 ms), punctual ticks give punctual frames.
* **C53 A restarted controller can reach the nodes it lists** (partial). Modelled: `start_tables`, `updateNode`. How: witness history; effect of the next reply. Result: False: Start empties the routing maps but keeps Nodes. Partial: the next reply of a node restores its routes.
* **C54 BroadcastAddr applies to everything the controller broadcasts** (partial). Modelled: `options.go`, transmissions of `Sys.v`. How: invariant on queued payloads; witness run. Result: False of the code: BroadcastAddr only changes the controller's own ArtPoll broadcasts; the replies of its private node still go to the default 2.255.255.255 (witness run). Partial: exact destination and opcode of everything a controller (polls: last BroadcastAddr option; replies: default) and a plain node (last NodeBroadcastAddress) transmit in every run.
* **C55 Data written right after a port appears is not lost** (partial). Modelled: `updateNode`, `SendDMXToAddress`. How: witness history; effect lemmas. Result: False: after a known node announces a new port, writes to it are dropped until the next tick. Partial: stored after a tick with no reply since, and right after discovery of a node.
* **C56 Callback registry** (proved). Modelled: `RegisterCallback`, `DeregisterCallback`, `init` of `Sys.v`. How: induction over runs. Result: Every run with any number of starts, stops and registrations: the callback table is determined by the last registration made while the node was stopped, built-in callbacks otherwise; the rule determines the table uniquely. Each call is one step here; C89 splits it in two.
* **C57 Each accepted packet triggers its callback exactly once** (proved). Modelled: reader, `recvLoop`, handlers, `pollReplyLoop`, `sendLoop`, `pollLoop` of `Sys.v`. How: conservation laws (multiset balances) by induction over runs. Result: Every run: datagrams of other hosts = parsed + discarded after Stop + in transit (as multisets); accepted ones = invoked + ignored + waiting; each invocation uses the callback registered at that moment; a waiting handler is never blocked.
* **C58 Own broadcasts are ignored** (proved). Modelled: reader, `recvLoop`, handlers, `pollReplyLoop`, `sendLoop`, `pollLoop` of `Sys.v`. How: conservation laws (multiset balances) by induction over runs. Result: Every run; own = same IP in 4-byte or 16-byte form.
* **C59 One reply per poll** (proved). Modelled: reader, `recvLoop`, handlers, `pollReplyLoop`, `sendLoop`, `pollLoop` of `Sys.v`. How: conservation laws (multiset balances) by induction over runs. Result: Every run, any number of starts and stops: exact balance of polls handled and replies transmitted, dropped or on their way; content and destination of each transmitted reply.
* **C60 Plain nodes ignore poll replies** (proved). Modelled: reader, `recvLoop`, handlers, `pollReplyLoop`, `sendLoop`, `pollLoop` of `Sys.v`. How: conservation laws (multiset balances) by induction over runs. Result: Every run: other styles never queue; controllers queue each handled reply exactly once and apply each queued reply to the tables exactly once.
* **C61 Stop and Start can be called in any order without crashing** (partial). Modelled: `Start`, `Stop` of node and controller in `Sys.v`. How: phase invariants over lives (alternating calls), all interleavings; witness runs. Result: False of the code: Stop before Start, Stop twice, and Controller.Stop before Start crash (close of a closed or nil channel, nil ticker): the three _refuted theorems, each with a run containing only those calls and no socket error. C61_calls_in_turn_partial is what remains: when Start and Stop are used in turn and do not overlap, in every interleaving the only crash is the reader's (read error while running, C63) or the DMX ticker's (frame rate outside 1..10^9); with no socket error and a sane rate nothing ever crashes. Missing: arbitrary call sequences, which are refuted.
* **C62 A failed Start leaves the node stopped** (partial). Modelled: `Start`, `Stop` of node and controller in `Sys.v`. How: phase invariants over lives (alternating calls), all interleavings; witness runs. Result: False of the code: when the socket cannot be opened Start returns an error but the node counts as running and registrations are ignored (C62_listen_failure_refuted); and Controller.Start returns the stale error of an earlier Start although it now runs and transmits (C62_stale_error_refuted). C62_invalid_partial: a configuration that Start rejects leaves the node stopped in every run, nothing is opened or transmitted, registrations take effect. Missing: the failure of the socket, which is refuted.
* **C63 The receive goroutine survives socket errors** (partial). Modelled: `Start`, `Stop` of node and controller in `Sys.v`. How: phase invariants over lives (alternating calls), all interleavings; witness runs. Result: False of the code: a read error while running crashes (C63_read_error_refuted). C63_reader_partial: in every run the reader crashes exactly when its read failed and the shutdown flag is not set; and in every careful life (Start only once the old goroutines have ended, reads fail only on a closed socket) it never crashes, so stopping never crashes it. Missing: survival of read errors, which is refuted.
* **C64 Datagrams are parsed intact and in order** (partial). Modelled: reader, `recvLoop` in `Sys.v`. How: FIFO invariant; witness runs. Result: Order is false across a restart: a recvLoop of the previous run can parse its datagram after the new one parsed later ones (witness run). Partial: intact and at most once in every run; in order from any state without goroutines as long as the node is started at most once; in order over whole lives when a node is restarted only after its goroutines ended.
* **C65 Callbacks run in arrival order** (partial). Modelled: reader, `recvLoop` in `Sys.v`. How: FIFO invariant; witness runs. Result: False of the code: each packet is handled in its own goroutine, which may run in any order (witness run). Partial: handler goroutines are created in the order of arrival.
* **C66 Nothing is transmitted after Stop** (proved). Modelled: `Stop`, `sendLoop` in `Sys.v`. How: invariant: the socket stays closed. Result: For every run and every later execution without Start: after OStop (Stop returned) no OTx (datagram written). Starting points are states in which no Start or Stop call is in progress; C66_silent_in_turn is the instance for alternating calls.
* **C67 Queues are bounded** (proved). Modelled: channels of `Sys.v`. How: invariant on queue lengths, blocking of full queues. Result: Every run; a producer with a full queue is blocked for every choice, and can proceed as soon as there is room.
* **C68 No deadlock while running** (partial). Modelled: all goroutines of `Sys.v`. How: constructed schedules with a decreasing measure; for the refutations an invariant of the stuck state. Result: Refuted for a plain Node created with controller style: nobody takes from pollReplyCh, so after ten ArtPollReply packets every further handler is stuck for ever. Partial: in every state of a running node or controller of a careful life (Start/Stop used in turn, restarted only after all goroutines ended, no read errors while running, 0 < maxFPS <= 10^9, no plain node of controller style) steps the goroutines take by themselves drain all queues and complete every pending SendDMXToAddress. Existence of a schedule, not fairness.
* **C69 SendDMXToAddress returns even after Stop** (partial). Modelled: all goroutines of `Sys.v`. How: constructed schedules with a decreasing measure; for the refutations an invariant of the stuck state. Result: Refuted: Stop ends sendLoop while dmxUpdateLoop is blocked on the full send queue holding the lock; a later SendDMXToAddress never returns. Partial: in every run the call returns without outside help whenever the queues have room for the frames still to be queued.
* **C70 Stop ends all goroutines** (partial). Modelled: all goroutines of `Sys.v`. How: constructed schedules with a decreasing measure; for the refutations an invariant of the stuck state. Result: Refuted: a handler blocked on the full poll queue when Stop ends pollReplyLoop never terminates. Partial: from every state of a running node there is a continuation that calls Stop once and ends every goroutine (same conditions as C68).
* **C71 Everything transmitted is valid Art-Net** (proved). Modelled: everything written to the socket in `Sys.v`. How: invariant on payloads, decoded with C14. Result: Every run, history and schedule; every controller, every node with one of the 7 documented styles.
* **C72 Restart is clean** (partial). Modelled: `Start`, `Stop` of node and controller in `Sys.v`. How: phase invariants over lives (alternating calls), all interleavings; witness runs. Result: False of the code when Start follows Stop at once: the old reader, whose read fails because its own socket was closed, crashes (C72_old_reader_refuted, no other socket error in the run); or two sendLoops take from the same channel (C72_two_loops_refuted). C72_one_set_partial: if Start waits for the old goroutines to end, every running state has exactly one goroutine of each kind, all of them on the current channels and the current open socket, and the reader does not crash. Missing: the immediate restart, which is refuted.
* **C73 The frames on the wire are the frames of the ticks** (proved). Modelled: `dmxUpdateLoop`, `sendLoop` in `Sys.v`. How: conservation laws of frames and payloads; table history. Result: Every run: transmitted ArtDmx datagrams are, as a multiset, part of the frames of the ticks; the bytes of each are the frame of a tick at which the routed node held the data last written.
* **C74 Payloads are transmitted in the order they were queued** (partial). Modelled: `sendLoop`, `sendCh`, restarts in `Sys.v`. How: FIFO invariant carried over lives; invariant that nothing is dropped before Stop; witness run. Result: Refuted across an immediate restart: the old sendLoop still holds a payload and writes it to the new socket after later payloads. Partial: in order in all lives where a node is restarted only after its goroutines ended; and until Stop, without network errors, what was transmitted is exactly a beginning of what was queued, at most eleven payloads behind.
* **C75 The validation error names the actual problem** (partial). Modelled: `validate`, `cfgerr_Error`. How: induction over the loop; witness. Result: Refuted: the message for too many output ports gives the number of input ports. Partial: exact message in every other case, and the precedence of the three reasons.
* **C76 Start on a running node** (partial). Modelled: `Start` in `Sys.v`. How: witness run plus an invariant of all its continuations; crash analysis. Result: Refuted: Start on a running node fails with the port in use but has already replaced the channels; from then on, in every continuation, nothing is parsed or transmitted and the three loops never end, not even after Stop. Partial: any number of Starts without Stop and without network errors never crash.
* **C77 Polls of a controller** (proved). Modelled: `pollLoop`, `Controller.Start` in `Sys.v`. How: counting invariant. Result: Every run of every controller, exact count including the polls about to be queued.
* **C78 Nothing is lost while running** (proved). Modelled: all goroutines in `Sys.v`. How: settling (C68) composed with the order and conservation laws. Result: Every running state of a careful life of a node or controller (0 < maxFPS <= 10^9, no plain node of controller style), for everything since its last Start, first run or later, if no socket error occurred since then; existence of a schedule of internal steps, not fairness (for that see C79).
* **C79 A running node finishes its work under every schedule** (proved). Modelled: all goroutines in `Sys.v`. How: well-founded measure (lexicographic: locks to take, work left) for every internal step; final states are those of C78. Result: Every schedule of the steps goroutines take by themselves (well-founded measure), from every running state of a careful life; the final conclusions of C78 for everything since the last Start, without network errors since then.
* **C80 What a stopped node leaves behind** (proved). Modelled: `Stop` and all goroutines in `Sys.v`. How: invariant of what Stop leaves closed; well-founded measure; classification of final states; invariant that blocked goroutines stay blocked in all continuations. Result: Every schedule, from every state after Stop in a life in which a node is restarted only after its goroutines ended and reads fail only on closed sockets; ticks after Stop count as new input.
* **C81 No data races** (partial). Modelled: accesses of every step of `Sys.v` (`accesses` in `P_Race.v`, `P_Access.v`). How: invariant that Start is alone before its goroutines exist; case analysis of conflicting steps; witness runs. Result: True of orderly use: restarts and registrations wait for the goroutines of the previous run, SendDMXToAddress waits for Start. False otherwise: RegisterCallback after Stop races with a pending handler on the map, SendDMXToAddress races with Start on the tables, a restart at once races with the old goroutines. With restarts alone disciplined, only the tables, loggers, callbacks and the flag can race. The table of accesses per step is read off the source by hand; C81_accesses, C81_call_accesses and C81_lock prove it complete for the model: no step changes or depends on a variable it is not listed with, and locked accesses wait for the lock.
* **C82 End to end: the data a node gets** (proved). Modelled: network of `Sys.v` hosts in `Net.v`. How: projection of network runs on each host; provenance of received datagrams; composition of C58, C73 and the codec. Result: Network model of Net.v: every host runs Sys.v; a transmitted datagram may arrive any number of times at every host that hears its destination; outside devices may send anything but ArtDmx.
* **C83 End to end: what a controller knows** (proved). Modelled: network of `Sys.v` hosts in `Net.v`. How: provenance of table entries (invariant over table events), C60, C39, C36. Result: Network model of Net.v; outside devices may send anything but ArtPollReply. The base address restriction is the defect of C36 seen end to end.
* **C84 End to end: nodes get only their own universe** (proved). Modelled: network of `Sys.v` hosts in `Net.v`. How: composition of C82 and C83. Result: Network model of Net.v; outside devices may send anything but ArtDmx and ArtPollReply; every configured IP is an IPv4 address heard by its host only.
* **C85 From any moment on, everything that happens is dealt with** (proved). Modelled: `Sys.v`, any segment of a careful life. How: difference of the conservation laws of C57, C59, C60, C73 at both ends; no drops or discards without errors. Result: Generalises C74 and C78 from whole runs to any segment of a run. The segment starts in any state of a careful life (no overlapping Start, no socket error) in which the node is up.
* **C86 End to end: a controller discovers a node** (proved). Modelled: network of `Sys.v` hosts in `Net.v`. How: C85 on both hosts, C77, C59, the codec, C51 and C53 on the tables. Result: Network model of Net.v. Fair-lossy link as hypothesis: of the polls (answers) transmitted in the segment at least one arrives. The node's callback for ArtPoll must be the built-in one. Only what C36/C37 let through is learnt of the node.
* **C87 End to end: what the user writes reaches the node's callback** (proved). Modelled: network of `Sys.v` hosts in `Net.v`. How: C85 on both hosts, C44, C45, C46. Result: Network model of Net.v. Hypothesis on the link: the frame of the universe in question arrives at least once.
* **C88 End to end: discovery and delivery stay possible** (proved). Modelled: network of `Sys.v` hosts in `Net.v`. How: construction of the continuation by C68, then C86; C43, C44, C87 for delivery. Result: Possibility, by constructing the continuation with C68; only steps of the two hosts are used. C79 says that goroutines do come to rest.
* **C89 Callbacks of a running node cannot be changed** (partial). Modelled: `P_Register.v`: `Sys.v` with calls of RegisterCallback and DeregisterCallback split in test and change. How: concrete racing execution; simulation by `Sys.v` when undisturbed; invariants over all executions otherwise. Result: False: the test and the change are two steps, and a call racing with Start changes the callbacks of a running node (C89_race_refuted, with a frame then given to the new callback). True: if no call is between its two steps when the flag is cleared, the two-step program does what the one-step calls of Sys.v do, same state and same events (C89_atomic_partial), so C56 and everything else proved for Sys.v holds; in every execution the table is given by the changes made, each preceded by a test that found the node stopped (C89_table_partial). Concurrent changes of the Go map itself are data races, see C81.
* **C90 A controller knows exactly the nodes that answered lately** (proved). Modelled: `Controller.v` histories; `Sys.v` for the wire. How: invariant over histories from the exact effect of each event; C41, C45 for frames; C73 for the wire. Result: Extends C49 and C51 from single events to whole histories, restarts included (the list of nodes survives Start), and to the wire. No assumption on the clocks; if the readings of a clean-up lie on both sides of t + 7 s the node is either kept as it was or gone.
* **C91 The polling example survives whatever is on the network** (partial). Modelled: `P_Example.v`: the two goroutines of example/poll with their shared buffer. How: concrete executions; invariant on the start of the buffer. Result: False: the type assertion in line 69 panics on every accepted packet that is not an ArtPollReply, so an ArtPoll from any other host ends the program; its own poll, which it receives too, does so when it overwrites an answer in the shared buffer before it is decoded. True if everything received starts like an ArtPollReply.
* **C92 The polling example shows only nodes that answered** (partial). Modelled: `P_Example.v`: the two goroutines of example/poll with their shared buffer. How: concrete execution; buffer as overlay of everything received; invariant on the pending slice. Result: False: the slice handed over shares the buffer with the next read, so what is decoded can mix several datagrams; the witness shows a node that does not exist. True in general: byte k decoded is byte k of the latest datagram that has one (C92_shown_partial); and the full claim if nothing arrives between an answer and its decoding (C92_spaced_partial). Decoding is one step in the model; real decoding can see even more mixtures.
* **C93 No packet storms** (proved). Modelled: `P_Traffic.v`: counts over runs of `Sys.v` and the network of `Net.v`. How: counting with C57, C59, C73, C77; summation over hosts. Result: The network bound assumes (no_copies) that each host receives no more polls than were transmitted in all; duplicated polls are answered again, which C93_host counts.
* **C94 Critical sections behave atomically** (proved). Modelled: `Fine.v`: sections as programs of single accesses, interleaved with the steps of `Sys.v`. How: simulation in both directions (`P_Atomic.v`); the sections of the code are shown equal to the atomic operations of `Controller.v`. Result: Start of a controller while a section is open is excluded: it replaces the maps without the lock (the race of C81).
* **C95 The example programs announce a usable address** (partial). Modelled: `P_Address.v`: the loop over the interfaces, `net.IPNet.Contains`, then `Sys.v` with the resulting node. How: induction over the addresses, C59; witnesses by computation. Result: Holds when the machine has an address in 2.0.0.0/8. Otherwise the loop ends with the last address, whatever it is: with ::1 last, 0.0.0.0 is announced although there is an IPv4 address (C95_announces_refuted), and a controller takes two such machines for one node (C95_merged_refuted).
* **C96 A fair scheduler gets everything done, however much keeps coming** (proved). Modelled: `P_Fair.v`: infinite sequences of states of `Sys.v` with a fairness hypothesis. How: channel by channel (sendCh, pollCh, recvCh, the node lock, pollReplyCh) the receiver comes back and takes an entry, so there is room again and again; the conservation and order laws of C57-C60, C71, C73 then give delivery; a periodic fair execution by computation. Result: Fairness is a hypothesis on the schedule (every goroutine that can go on again and again does so again and again, and likewise for receiving in its select). C96_ex builds such an execution of a busy controller, with input that never ends.
* **C97 A node is eventually discovered over a lossy network** (proved). Modelled: `P_Eventual.v`: infinite executions of networks (`Net.v`) with fairness and link hypotheses. How: an infinite execution of the network is projected to each host (constructive search for its next step), where the liveness of C96 applies; the links carry the poll and the reply; the table part is that of C86. Result: Fairness of both schedulers, both hosts staying up and the link hypothesis (if datagrams with some property are sent again and again, such datagrams arrive again and again) are hypotheses; C97_ex builds an execution that satisfies them, by repeating a round that leaves finished goroutines behind.
* **C98 A written universe eventually reaches the lamp** (proved). Modelled: `P_Eventual.v`: as C97. How: C96 from the tick to the transmission and from reception to the callback, C73/C46 for the data of the buffer; the witness uses that the machine commutes with moving all buffer times. Result: C98_arrives needs a link on which every datagram arrives at least once; C98_often only one that does not lose all of them. C97_ex and C98_ex build executions that satisfy the hypotheses; in C98_ex a round is 256 ticks, after which the sequence number is the same again and the clock 256 s later.
* **C99 Options set on an existing node or controller** (partial). Modelled: `Options.v`: SetOption as a step of its own on top of `Sys.v`, with what each goroutine has already read. How: forward simulation onto the runs of Sys.v that changes destinations only; invariants on queued payloads; bisimulation of runs with and without MaxFPS; witness runs. Result: False as stated: a poll being sent keeps the old address (C99_at_once_refuted), MaxFPS set on a running controller is ignored until the next Start, where MaxFPS(0) then crashes (C99_maxfps_ignored_refuted, C99_bad_maxfps), and the unsynchronised write races with pollLoop (C99_race_refuted). Proved: apart from the destinations of polls and replies every run with SetOption is a run without (as long as no dmxUpdateLoop starts with another frame rate), only addresses that were set are used, a new one from the next poll or reply on, a new frame rate from the next Start on, and options set before Start equal constructor options.
* **C100 The example programs as a whole** (partial). Modelled: `P_Programs.v`: the main functions as sequences of calls on the system of `Sys.v`, with the constructor arguments of `P_Address.v`. How: counting invariant (one thread per call not yet returned) that ties the writes to the program text; C73 for the wire; invariant for a failed Start; witness runs. Result: False in one part: a node that is discovered after the calls is shown zeros only, the program neither waits nor repeats (C100_all_shown_refuted). Everything else is proved for every execution of the two programs: no crash without a read error, calls in order and once each, the frames carry zeros or a value whose call has been made, to one node never an earlier one after a later one, the node transmits only its reply, and after a failed Start nothing is received or transmitted.
* **C101 Errors say what is wrong with a datagram** (partial). Modelled: `P_Errors.v`: `goerr_Error`, the texts of all errors, with %d and %#v. How: the wire specification of rejections (C14) case by case; numerals by a complete check of the 65536 values of a uint16. Result: False in two places: the port in the message is the port of the reply with its bytes exchanged (C101_port_refuted), and a datagram of the current version with opcode 0x0021 is reported as version 0 (C101_opcode_refuted); also three different defects share one message (C101_defects_merged_refuted). Everything else is proved: every other message says what is wrong with the right value, and no two errors have the same text.
* **C102 Sizes of transmitted datagrams** (proved). Modelled: `Sys.v`, `Config.v`, `Packets.v`. How: every transmitted datagram was built by one of the three senders (`tx_item` in `P_Node.v`, from the invariant of `SysFacts.v`); then the wire format of each. Result: Proved for every execution; the hypothesis `wf_config` only says that the fields of the configuration are in the ranges of their Go types.
* **C103 Datagrams longer than the receive buffer** (proved). Modelled: `WireSpec.v`, `Unmarshal`, the reader of `Sys.v` with its 4096-byte buffer. How: the wire specification depends on the first 530 bytes only, case by case; C58 and C85 for the node. Result: Proved; that the callback is invoked is subject to the conditions of C85 (running node, no API call and no socket error meanwhile, all goroutines waiting at the end). 530 bytes is the smallest buffer with this property (C103_bound_tight).
* **C104 Missed polls** (partial). Modelled: `Controller.v` (gcNode, updateNode with the clock readings), poll times as multiples of 3 s. How: C90 (who is known after which history); witness history by computation. Result: False: the code forgets a node after 7 s, that is after two missed polls (C104_five_missed_refuted). Proved: a node that never misses two polls in a row stays known, with its last configuration.
* **C105 Announcing a discovered node again** (partial). Modelled: `ConfigFromArtPollReply`, `ArtPollReplyFromConfig` in `Config.v`. How: symbolic evaluation with the exact port lists of C37; case analysis over the number of ports. Result: False: an input port followed by an output port is announced again as one port in both directions (C105_ports_refuted), universes, port states, video, macro and remote switches are never announced (C105_switches_refuted). Proved: identity and status fields survive for every reply, names if they are zero-padded ASCII, port types if all ports have the same directions and documented protocols.
* **C106 Assigning Config of an existing node** (partial). Modelled: `Changes.v`: the goroutines of `Sys.v` with Config as a variable, assigned in one step at any time. How: invariants over the executions of `Changes.v` for what pollReplyLoop has encoded and what is on its way; a simulation that replaces the announcements and gives a run of `Sys.v`; witnesses by computation. Result: False in three ways: a running node goes on announcing the old configuration (C106_up_to_date_refuted), a configuration assigned right after Start has returned is announced without validation (C106_validated_refuted), and this assignment is a data race with pollReplyLoop (C106_race_refuted). Proved for every run: each reply announces one of the configurations Config had; it was validated if Config is not assigned between validate and the beginning of pollReplyLoop; an assignment has no effect before the next Start (unless the style changes to or from controller) and full effect from it on; with configurations equally valid, encodable and of the same role, the run is apart from the contents of replies a run of `Sys.v` with the first configuration. Missing: assignments that are not atomic.
* **C107 Callbacks that take their time** (partial). Modelled: `Invoked.v`: the goroutines of `Sys.v` with the invocations of callbacks as things that last until they return. How: simulation by `Sys.v` in both directions; with it the liveness theorems C70 and C85; induction for any number of overlapping invocations; witness by computation for Stop. Result: False: from every running state, any number of invocations of one callback can come to run at the same time (C107_one_at_a_time_refuted), and a callback can be invoked after Stop has returned (C107_after_stop_refuted). True: whether and when callbacks return changes nothing else; a running node gets everything done while none of them returns; Stop returns and the goroutines end while they run, so it can be called from a callback. Missing: what callbacks compute, and panics in them, which end the process.
* **C108 Reading the tables of a running controller** (partial). Modelled: `Fine.v` (every access of a critical section is a step), restricted to sections that run the program's code (`own_code` in `P_Tables.v`). How: an invariant (`sound`) shown to hold before, between and after all the accesses of each section (`through_code`), carried through the executions with C94; witnesses by computation. Result: The soundness holds at every instant (C108_sound). False as far as it goes beyond that: the entry of a node that is announced again unchanged is missing for a moment, though the node was there all the time (C108_flicker_refuted), and reading is a data race while the controller runs, since the program cannot take the lock (C108_race_refuted, C108_who; not when all goroutines have ended: C108_stopped). Not modelled: what a read returns that overlaps a write in the sense of the Go memory model (maps: the process ends), and Start while a section is open.
* **C109 What the log says is what happens** (partial). Modelled: `Log.v`: the entries (level, message, fields) written by each step of `Sys.v`, one per call of the log in the source. How: induction over executions, step by step; for the nodes a replay of the log proved equal to the tables under the invariant of `ControllerFacts.v`; the levels by showing the other error branches unreachable; witnesses by computation. `P_LogMore.v` adds the remaining messages: counting laws over the goroutines (`log_law`) for "received packet", "sending ArtPollReply" and "error writing packet", and one table (`kind`) of every level, message and `type` that can occur. Result: Holds, except: an ignored call of DeregisterCallback is logged as a registration (C109_deregistration_refuted, node.go:325); the message about a socket that cannot be closed lacks the error, an operand of Printf is missing (C109_close_refuted, node.go:104); the field `type` does not tell the node of a controller from the controller in "node started" and is missing before Start (C109_type_refuted). Not modelled: the layout of a line, the field `src` of a warning, level filters of the user's logger, and the mixing of lines written at the same time (logger.go:45 switches the lock off).
* **C110 Hearing through the listen address** (partial). Modelled: `Listen.v`: the address that `net.ListenPacket("udp4", n.listenAddr.String())` binds and the destinations such a socket gets; which datagrams reach a host is Z_hears of `Net.v`, restricted to what its socket accepts (`sockets`). How: C83_discovered says that whoever is in the tables transmitted a reply to an address heard, item_ok that replies go to the broadcast address of the sender, C93_host that a plain node transmits at most once per poll received. Result: default and wildcard hear everything on port 6454; with an address of the host neither polls nor replies arrive (C110_listen_ip_refuted).
* **C111 A node's entry changes only by what the node sent** (partial). Modelled: `Sys.v`; nothing new. How: a simulation between two runs whose datagrams differ in the sender only (`same_sys`); for the forgeries receive_round (a running controller can take in a datagram and come to rest), reply_applied and reply_entry, the run cut where the reply is applied. Result: refuted for every running state (C111_redirect_refuted, C111_silence_refuted); the sender has no influence at all beyond own or foreign (C111_source).
* **C112 Order and repetition of answers** (partial). Modelled: `Controller.v` and `Sys.v`; nothing new. How: every listed node is what it announced last (C90_known), collisions excluded C42 gives its routes; for executions: what is applied was received (C58) and what was received is applied when the controller is at rest (C85). Result: holds for nodes without a universe in common (C112_tables, C112_order, C112_set, C112_datagrams), refuted otherwise (C112_order_refuted).
* **C113 Deadlines** (partial). Modelled: nothing new (`Controller.v`); distances of ticks and clean-ups are hypotheses on the times in the history. How: the last tick before the second frame had sent the universe within 250 ms (C48); an accepted call leaves the buffer stale until a tick (`stale_until_tick`), and the time of the last frame is at least a period ago; a clean-up that starts more than 7 s after the last answer exists in every interval of length g (C90). Result: holds; 'with the next tick' is refuted from MaxFPS(31623) on, because `LastUpdate.Before(now.Add(-fpsInterval))` (controller.go:269) compares with MaxFPS nanoseconds.
* **C114 What a controller keeps** (partial). Modelled: nothing new (`Controller.v`). How: one invariant over histories (`kept_inv`): configuration and buffers of every node come from answers of its address, with at most four ports of a kind; different nodes have different addresses (C40), routes belong to listed nodes (C41). Result: the bounds hold; refuted for buffers (`updateNode` replaces the configuration but keeps `DMXBuffer`) and for the number of nodes (no limit in `updateNode`).
* **C115 How many goroutines there are** (partial). Modelled: nothing new (`Sys.v`). How: the loops are counted by C72, handlers against the datagrams parsed by induction over steps; the counterexamples are built by induction from any running state: one round of reader and receive loop per poll (`flood_once`), then Stop with the poll queue full and pollReplyLoop gone (`leak_once`, `fill_once`, `poll_stuck_forever` of C70). Result: exact counts at rest; no bound while running or after Stop.
* **C116 Slices given to a node** (partial). Modelled: `Shared.v`: the bytes of Config.IP/localAddr.IP and of both broadcast addresses in a memory that the program writes byte by byte; a payload's destination is read when it is written to the socket. How: simulation by `Sys.v` while the memory is unchanged; the goroutine steps that differ listed by case analysis; invariants on queues and goroutines (as C106) for the contents; three concrete executions. Result: refuted with three witnesses, exact remainder proved.
* **C117 The simpledmx example** (proved). Modelled: `P_Simple.v`: example/simpledmx/main.go as the list of what it does, given the outcomes of net.ListenUDP and conn.WriteTo; the frame is that of `P_Example.v`, made by the modelled MarshalBinary. How: computation for the frame, then C85 (every arriving packet reaches its callback) and C88 (a running node can receive at any time) for the node; the callback table is constant while nothing is registered. Result: proved.
* **C118 The connection of a node** (partial). Modelled: `P_Conn.v`: `Connection` and, between any two steps of `Sys.v`, Close, WriteTo and ReadFrom on the socket it returns. How: projection for reads and writes; invariant (every socket the goroutines use is closed) for the cut-off; invariant on the reader's goroutine for the crash; C66 for the closed socket after Stop. Result: refuted for every node at rest, remainder proved. Simplification: the program uses the socket that is current at that moment, not one it kept from an earlier Start.
* **C119 The listen address as text** (proved). Modelled: `P_AddrText.v`: net.UDPAddr.String (dotted decimal, the ?hex form of malformed IPs, host:port) and what net.ListenPacket reads (SplitHostPort, decimal port, ParseIPv4 without leading zeros). How: decimal round trip for all numbers by induction on the digits; splitting at separators that do not occur in the parts; octets by computation. C119_binds discharges the simplification of `Listen.v` that text is read back as the address it was made of, apart from IPv6. Result: proved.
* **C120 Nodes are listed in order of discovery** (proved). Modelled: `Controller.v` updateNode, gcNode, and the events of the tables. How: per event, what happens to the IPs along c.Nodes; induction over the history with the moment of discovery of each entry; sublists keep sortedness.
* **C121 A universe goes to the node that announced it last** (proved). Modelled: `Controller.v` updateNode, gcNode, the maps made by Start, and the events of the tables. How: per event, the IP of the node a universe is routed to (insert_ports and delete_ports looked up); induction over the history; uniqueness of the last announcement by splitting the history at two places.
* **C122 An input universe is listed under the node that announced it last** (proved). Modelled: as C121. How: as C121, with InputAddress and the input ports of replies.
* **C123 A lost route comes back with the next answer** (proved). Modelled: as C121. How: induction over the history after the answer with C121_step; a node that a clean-up removes was stale at one of its clock readings.

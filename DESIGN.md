# Design

A Coq 8.16.1 model of dronecan/pydronecan (source in `/repo`, read as text) and
machine-checked proofs of the properties in `properties.jsonl`.

## Layout

* `rocq/theories/Base/` - Python semantics shared by all models: results with
  exceptions as values (`res`), Python slices, ordered dictionaries as
  association lists, bit strings as `list bool`, list lemmas and tactics.
* `rocq/theories/Model/` - one file per modelled module. Total computable
  Gallina functions that mirror the Python functions branch by branch. Every
  definition cites the file and lines of `/repo` it models and states its
  simplifications. No proofs.
* `rocq/theories/Spec/` - small specifications, written without the model's
  helpers (arithmetic formulas, polynomial division, history predicates, ...).
* `rocq/theories/Proofs/` - lemmas.
* `rocq/theories/Properties/` - one file per area: the property theorems
  (`Theorem Cxx_... . Proof. exact lemma. Qed.`), `Print Assumptions` beneath,
  and an `Example` beside each that meets its hypotheses with a non-trivial
  case.

A property that is false of the faithful model is stated as
`Cxx_..._refuted` (a witness) together with the strongest true variant,
`Cxx_..._partial`, whose comment keeps the full statement in view.

## Modelling conventions

* Python `int` is `Z` or `N` (unbounded). Bit strings (`'0101'`) are
  `list bool`, first character first. `bytes`/`bytearray` are `list N` (or
  `list Z`) with an explicit `< 256` hypothesis where it matters.
* An operation that can raise returns `Ok v | Err e`, where `e` names the
  Python exception class.
* Dictionaries are association lists in insertion order, which is the order
  Python iterates in.
* Callbacks, hooks and handlers are modelled by their effect on the observable
  trace: the state carries a log of invocations, and whether a callback raises
  or unregisters something is part of the input.
* Time is an integer number of ticks handed to each operation (the Python code
  reads a monotonic clock); floating point rounding of times is not modelled.
* float16 conversion is modelled on integer bit patterns, including the
  round-to-nearest-even step of `struct.pack('f')`; no reals are used.
* `math.ceil(math.log(n, 2))` is modelled as exact ceil(log2 n). Float error
  makes CPython differ from this for some n >= 2^29 only; array capacities and
  union sizes are assumed smaller.
* Logging, repr and timing side effects are not modelled.
* The timestamp estimator is modelled in exact arithmetic (rationals over a
  common denominator), so rounding of the Python floats is left out.
* Hooks may add and remove hooks, but do not call the driver or the node themselves.
* The IO process of the SLCAN driver is an interleaving of single steps
  (`SlcanIo`) with atomic bounded queues. Its receiving thread is modelled
  apart, with an unbounded queue. In the command line
  mode all expiry checks of one reading see one time, the queue to the main
  process is kept by kind of element (frames, answers, errors), and the limit of
  1000 consecutive errors is left out.
* Message objects: primitive values are stored in place (the API never hands
  them out), values of constants are integers, iterating over an array reads it at once, a deep copy copies
  unreachable objects too. Private names, `remove`
  and reading slices are left out.
* The definition parser works on lists of code points; white space, line ends
  and digits are the ASCII ones. The file system is a function from paths to
  contents with a function listing directories, `eval` is a function on
  expressions. Types nested deeper than Python's stack allows are refused, as a
  depth argument. Bit lengths that are only logged are left out.

## Trusted base

* The Coq kernel (and coqchk), and the standard library axioms that
  `Print Assumptions` lists under each property theorem (the aim is none:
  "Closed under the global context").
* coqchk also lists library axioms of `Coq.ssr.ssrunder` (module `Under_rel`),
  which the standard library loads with `lia`; no theorem depends on them.
* The correspondence between the Gallina models and the Python text, which is
  by inspection: the comments cite file and lines.
* Modelled: `transport.py`, `dsdl/common.py` (CRC), `dsdl/signature.py`,
  `dsdl/type_limits.py`, `dsdl/parser.py` (bit lengths, definition parsing and
  signature source text), `__init__.py` (type registration), `node.py`
  (scheduler, dispatcher, requests, spin, own status), `app/dynamic_node_id.py`,
  `app/node_monitor.py`, `app/log_message_monitor.py`, `app/message_collector.py`, `app/file_server.py`,
  `utility.py`, `introspect.py` (parts), `driver/common.py`, `driver/file.py`,
  `driver/mcast.py` (with its I/O process and queues), `driver/socketcan.py`, `driver/python_can.py` (writer
  threads and frames), `driver/slcan.py` (codec, receive
  loop, command line, opening and reopening, the IO process and its queues), `driver/mavcan.py`, `driver/timestamp_estimator.py`,
  `tools/dronecan_bridge.py`, `tools/dronecan_tcplink.py`,
  `tools/dronecan_msgid_decode.py`, `examples/esc_enumeration.py`,
  `examples/firmware_update.py`, `examples/mavlink_tunnel.py`,
  `examples/canlog2gps.py`, `examples/rtcm_dump.py`, `examples/fix2_gap.py`.
* Not modelled: threads, processes and OS queues of the other drivers, sockets
  and serial ports themselves (their results are inputs), pymavlink, python-can
  and PCAN libraries, SQLite itself (a table keyed
  by node id is modelled), file system (an oracle from path to content), eval()
  of constant expressions (an oracle), regular expressions beyond those spelled
  out, logging; how Python prints floats and quotes strings (parameters of the
  YAML model).

## Properties

| id | model | how it is proved |
|----|-------|------------------|
| C01-C03 | `Model/Prim`: value setter/getter, cast, type limits | arithmetic on `Z`; two's complement by `Z.mod`; signed range modelled with the float division, whose value is swept for the 64 bit lengths; C02 is expected to be refuted for signed types over 53 bits |
| C04 | `Model/Float` on bit patterns | decoding is exact (pattern values as integers), encoding rounds to nearest, so the pattern comes back; refuted for infinities in saturated fields |
| C05 | same | integer inequalities over the scaled significand, case split on exponent; nearest pattern between midpoints |
| C06, C09 | `Model/Types`, `Model/Codec` | mutual induction over nested types; specification: a data denotation of values; TAO and padding generalised in the induction hypothesis |
| C07 | bit-length functions of the parser's type classes | induction over types |
| C08 | codec on arbitrary input | expected to be refuted: witness payloads with and without TAO |
| C10 | codec on arbitrary input | induction over types, inverse direction of C06 |
| C11 | bits of primitives | index formula: stream bit j against `Z.testbit` |
| C12, C13 | `Model/MsgId` | bit-field arithmetic with `lia` after turning shifts and masks into div/mod |
| C14, C16 | `Model/Frames` | induction on the chunk loop; round trip composed with C06 and C12 |
| C15 | same | refuted; the exact set of payload lengths with an illegal frame is proved (62, and 60 mod 63 from 123 on) |
| C17, C18 | `Model/TransferManager` | invariant over `fold_left` of received frames; projection of the run to one key |
| C19 | frames + manager | case analysis on fault position against SOT/EOT/toggle checks |
| C20, C21 | `Model/Crc` | linearity of the shift register over xor; injectivity on 16-bit windows; spec: polynomial remainder over GF(2) |
| C22 | manager table | expected to be refuted (iteration over a live view) |
| C23 | `Model/Crc` | same technique as CRC-16 with 64 bits |
| C24-C28, C33, C74 | `Model/Node`, `Proofs/NodeFacts`, `RequestFacts`, `NodeRequests`, `NodeTop`, `NodeNet` | log of what happened; invariants by induction over histories of operations, transfers, frames and polls, with callbacks, driver and clock as arbitrary functions of the log |
| C29 | `Model/Node` `call_handlers`, `Proofs/NodeDispatch` | index loop over a list object that callbacks mutate; refuted with self-removal |
| C30, C31 | `Model/Sched` (Python `sched` queue) | sortedness invariant; induction over polls |
| C32 | `Model/Node` | invariant over the same histories |
| C34-C36, C75, C76 | `Model/Allocator`, `Spec/AllocatorSpec`, `Proofs/AllocatorFacts` | invariant on the table and on the query in progress over histories; C35, C36 and C76 refuted by witness histories, proved under the condition that excludes them |
| C37-C39 | `Model/Monitor`, `Spec/MonitorSpec`, `Proofs/MonitorFacts` | invariants over histories of statuses, info, expiry and lookups; C37 and C38 refuted by overheard traffic |
| C40, C77 | `Model/Collector`, `Spec/CollectorSpec`, `Proofs/CollectorFacts` | refinement to "last matching element of the history"; C77 refuted with a timeout |
| C41, C42, C89, C90 | `Model/FileServer`, `Spec/FileSpec`, `Proofs/FileFacts` | induction on the file length; C42 refuted by a path witness, C90 by a path that is not UTF-8 |
| C43 | `Model/Serial`, `Spec/SerialSpec` | stream invariant over operation histories |
| C44-C46 | `Base/Pack`, `Model/CanFrame`, `Model/FileLog`, `Spec/LogSpec` | byte codec round trip; prefix induction; C45 and C46 refuted in part |
| C47, C48, C81 | `Model/Slcan`, `Spec/SlcanSpec`, `Spec/LineSpec`, `Proofs/LineFacts` | hex codec lemmas; chunk invariance of split by induction; all three refuted in part; C81: the accepted lines are characterised exactly (loose numbers, cut data, time taken from the last four characters) |
| C99-C101 | `Model/SlcanCli`, `Spec/SlcanCliSpec`, `Proofs/SlcanCliFacts`, `SlcanCliTop`, `SlcanCliExact`, `SlcanCalls` | the adapter's stream as a sequence of frame and text items; the receiver's data is always cut at item boundaries up to a lead of one line feed, by induction over the readings; C99 and C100 refuted in part |
| C102-C104 | `Model/SlcanInit`, `Spec/SlcanInitSpec`, `Proofs/SlcanInitFacts` | the port is a state machine given from outside; calls recorded by a wrapper; adapters whose replies are a function of the whole history; C103 and C104 refuted in part |
| C105-C108 | `Model/Mavcan`, `Spec/MavcanSpec`, `Proofs/MavcanFacts` | what one event sends as a function of the state, then induction from the end of the history; C106, C107 and C108 refuted in part |
| C109 | `Model/MsgIdTool` | corollary of C12; refuted for anonymous messages |
| C49, C78 | `Model/Packets`, `Spec/PacketSpec` | codec round trip plus C20; history of connections and datagrams (C78 refuted in part) |
| C50, C51, C79 | `Model/Packets`, `Model/CanFrame` | codec round trips; case analysis on lengths |
| C52, C53, C80 | `Model/TsEst`, `Spec/TsSpec`; rationals scaled to `Z` | invariants over sample sequences; C52 refuted with a positive fixed delay, C80 with clocks that go back |
| C54-C57, C82-C84 | `Model/ObjectApi`, `Spec/ObjectSpec` (objects in a heap, for aliasing) | a relation `evolves` that every operation is in (sizes, active fields, frames, reachability), then induction over the program; C55, C56 and C82 refuted |
| C58 | `Model/Utf8`, `Model/ObjectApi` | code point range case analysis; refuted for int8 arrays |
| C59-C61, C86-C88 | `Model/Parser`, `Spec/ParserSpec`, `Proofs/ParserFacts`, `ParserMeaning`, `ParserLoad` | invariant over the lines of a definition and over nested definitions; two runs of the parser on texts with the same words; C59, C61, C86, C87 and C88 refuted in part |
| C93 | same, `Spec/GrammarSpec`, `Proofs/GrammarNumbers`, `GrammarTypes`, `GrammarLines`, `GrammarFacts` | a relational grammar of numbers, types, lines and files; the parser is sound and complete for it; refuted in part |
| C94–C96 | same, `Spec/PathSpec`, `Proofs/PathFacts` | the naming convention of files as a relation; name, version and id are read by it (both ways), nested types are looked for and found where it puts them; refuted for directories with dots |
| C97, C98 | same, `Spec/SignatureSpec`, `Proofs/SignatureText`, `SignatureHash`, `SignatureMix` | normalised text and hash as relations (CRC-64/WE by polynomial remainder, the signatures of nested types chained in); the computed signature is the one value in that relation; the changes of one nested signature that the outer one does not show, from the kernel of the mixing map |
| C85 | same, `Proofs/ParserNorm` | unique reading of the normalised text: lines, then words and decimal numbers |
| C62, C92 | `Model/Introspect`, `Spec/IntrospectSpec`, `Proofs/IntrospectNames` | names are split at the underscore of the prefix; bits by `Z.testbit`; C92 refuted by two prefixes of one field |
| C63, C91 | same, `Proofs/IntrospectFacts` | induction over types; what is found on every way into a message against what is found in the JSON object; both refuted, with the exact set of failing messages |
| C64 | `Model/Bridge`, `Spec/BridgeSpec` | threads as program counters, invariant over every interleaving; refuted where an exception ends a thread |
| C110, C111 | `Spec/CallSpec`, `Proofs/NodeCall`, `NodeCallTop` | two nodes with any histories; invariants on the open requests and their callbacks, composed with C20 and the round trips of frames and values; C111 refuted by 33 open requests |
| C112-C116 | `Model/Writer`, `Spec/WriterSpec`, `Proofs/WriterFacts` | writer thread as a program counter, steps of both threads in any order, results of the system as data of the steps; invariant relating accepted, written and reported frames |
| C117 | `Spec/NoiseSpec`, `Proofs/NodeNoise` | every operation of a node commutes with replacing its reassembly state; simulation by states that agree on the identifiers that can be decoded |
| C118 | `Spec/StatusSpec`, `Proofs/NodeStatus` | invariant: exactly one status event is queued, at start + (k+1) * interval after k broadcasts; counting at the end of a poll |
| C119 | `Model/Namespaces`, `Spec/NamespaceSpec`, `Proofs/NamespaceFacts` | invariant: lower-case entries are namespaces and are listed, others are types; lookup in the tree equals lookup in the table of names |
| C120 | `Spec/LinkSpec`, `Proofs/LinkFacts` | a hop is one link or bridge, a route a chain of hops; induction over the route, then the reassembly and dispatch theorems |
| C121, C122 | `Model/SlcanIo`, `Spec/SlcanIoSpec`, `Proofs/SlcanIoFacts` | an invariant over where the worker is splits what was accepted into done, current and queued; `served` relates what was done to the bytes and the exceptions; a measure for the end; induction over the queue for `receive` |
| C123 | `Model/Drivers`, `Spec/DriverSpec`, `Proofs/DriverFacts` | case analysis over the tests in their order; numbers via the grammar of C93 |
| C124 | `Model/Writer`, `Model/Slcan`, `Spec/StampSpec`, `Proofs/StampFacts` | invariant on reports and writes over interleavings; the two estimators as runs over the samples |
| C125 | `Model/McastIo`, `Spec/McastSpec`, `Proofs/McastFacts` | invariant over interleavings of program and process; measure for progress; composition of two drivers |
| C126 | `Model/TcpLink`, `Spec/TcpSpec`, `Proofs/TcpFacts` | invariant over the turns of the loop, on top of the serial port (C43) |
| C127 | `Model/EscEnum`, `Spec/EnumSpec`, `Proofs/EnumFacts` | invariant over callbacks and turns of the program, relating the log to the rounds finished and the present one |
| C128 | `Model/FileNode`, `Spec/DownloadSpec`, `Proofs/DownloadFacts` | C110 with the handler of C41; values with the same content are read alike; induction over the requests |
| C129 | `Model/FwUpdate`, `Spec/FwSpec`, `Proofs/FwFacts` | invariant over the events: where the exchange of requests stands, and which statuses of the target were seen |
| C130 | `Model/OwnStatus`, `Spec/OwnStatusSpec`, `Proofs/OwnStatusFacts` | rounding and clamping per field, then the reception theorem C74 and the call theorem C110 |
| C131 | `Spec/StreamSpec`, `Proofs/StreamFacts`, `Proofs/TypedStream`, `Proofs/RouteFacts` | induction over the frames heard: what the receiver keeps for the node is a prefix of the transfer in progress |
| C132, C133 | `Model/MavTunnel`, `Spec/TunnelSpec`, on C43 and C131 | the message read back field by field; C131 for one type; the port's streams of C43 |
| C134 | `Model/Canlog`, `Spec/CanlogSpec`, on C44, C65 and C131 | the reader's position and the frames heard advance together; C131 for the type |
| C135 | `Model/Watchers`, `Spec/WatchersSpec`, on C37-C39 | relation closed under the small steps of the monitor, lifted to whole events; simulation by the plain monitor |
| C136 | `Model/AllocSystem`, `Spec/AllocSystemSpec`, on C34-C39 | the run of both as a run of the server on what the monitor reports; invariant of the monitor on the retries left |
| C137 | `Model/RtcmDump`, `Spec/RtcmSpec` | invariant on the stream left and the dictionaries within a stretch; the reports as what is still to come |
| C138 | `Model/FixGap`, `Spec/FixGapSpec` | the dictionaries as functions of the past fixes |
| C139 | `Model/LogMonitor`, `Spec/LogMonitorSpec`, on C131 and C58 | the broadcasts of the type as calls of the handler, content to text |
| C140, C141 | `Spec/RegistrySpec`, `Proofs/RegistryFacts`, `Proofs/TaskErrors` | invariant that all code paths of the node except the three operations keep the handlers; induction over the scheduler run |
| C110, C128, C130 over routes | `Spec/RouteSpec`, `Proofs/RouteCallFacts` | the frames that a route of links and worker threads hands over, in place of the assumption that they arrive |
| C142 to C145 | `Model/MavDriver`, `Spec/MavDriverSpec`, `Proofs/MavDriverFacts` | invariant: what the queue still holds, applied to the state of the process, gives what was told |
| C146 | `Model/SockStamp`, `Spec/SockStampSpec`, `Proofs/SockStampFacts` | one update in terms of the anchor; invariants on the anchor over the sequence of frames |
| C147 | `Model/LogProgress`, `Spec/LogProgressSpec`, `Proofs/LogProgressFacts` | where the reader stands (from `LogFacts`) determines position, end and what was delivered; the position only grows |
| C148 | `Model/Node`, `Spec/SpinSpec`, `Proofs/SpinFacts` | the queue is sorted in every reachable state, so the first event bounds all |
| C149 | `Model/TransferHooks`, `Spec/TransferHookSpec` | what a hook is shown against the flow of transfers computed without hooks; two nodes by C16 |
| C150 | `Model/ObjectEq`, `Spec/ObjectEqSpec` | equality of what the arrays read as; the text whose UTF-8 form the array holds |
| C151 | `Model/ObjectApi`, `Spec/SendableSpec` | programs over a set of types; the content after decoding; floats of C84: the nearest number the field can hold |
| C152 | `Model/ObjectUnpack`, `Spec/ReceiveSpec` | `_unpack` into objects; histories of operations and arrivals; reading along paths |
| C153 | `Model/ObjectApi`, `Spec/ConstructSpec` | the constructor with keyword arguments |
| C154 | `Model/Hobbywing`, `Spec/HobbywingSpec` | the commands of examples/hobbywing_esc.py |
| C155 | `Spec/NumberSpec` | numbers written to fields and arrays, and read by the receiver |
| C156 | `Model/Parser` | exceptions of the definition parser |
| C157 | `Model/Publishers` | what the example programs broadcast |
| C158 | `Model/Waiting` | examples that wait for nodes |
| C159 | `Model/NodePoll` | requests for node info at a rate |
| C160 | `Model/Detect` | detecting the ESC nodes |
| C161 | `Model/FindAll` | looking for entries of the node monitor |
| C162 | `Model/FrameText` | the text of a frame |
| C65, C73 | `Model/Node` `spin`, `Proofs/NodeTop` | loop with a driver oracle; a run is shown to be a history of polls and receptions |
| C66 | `Model/Hooks`, `Spec/HookSpec` | index loop over a list that hooks change; what one hook sees of a history |
| C67 | codec on prefixes | monotonicity of decoding in the stream; a reader of a short stream lacks only void bits (`lax`, Proofs/CutFacts.v) and conversely; refuted for trailing voids and for union tags cut short |
| C68 | codec | refinement to `Spec/CodecSpec.wire` by induction over types |
| C69 | codec on oversized values | `clip` specification; induction over types |
| C70 | `Model/Crc` | parity of the register; order of x modulo the polynomial by computation |
| C71 | `Model/Frames` | idempotence of padding, arithmetic on lengths |
| C72 | same as C04 | generic rounding lemma for any precision; values as multiples of 2^-1074 |

{"id": "C01", "title": "In-range integers survive assignment and read-back", "statement": "Assigning to an integer field of any DSDL type (signed or unsigned, saturated or truncated, any bit length 1..64; 2..64 for signed) a value that is representable in that type, and reading the field, yields the assigned value; after serialisation and deserialisation of the field it still does.", "quantifier": "every integer kind, every legal bit length, every cast mode, every representable value", "why_tests_cant": "There are 2^64 values for one 64-bit type alone, times all bit lengths and modes; tests pick a handful.", "anchors": ["dronecan/transport.py:PrimitiveValue.value", "dronecan/transport.py:cast", "dronecan/transport.py:le_from_be_bits", "dronecan/transport.py:be_from_le_bits", "dronecan/dsdl/type_limits.py"]}
{"id": "C02", "title": "Saturated integers clamp to the nearest representable value", "statement": "Assigning an out-of-range integer to a saturated integer field stores the nearest representable bound: the type's minimum for values below it and its maximum for values above it.", "quantifier": "every saturated integer type and every integer of any magnitude", "why_tests_cant": "Needs all bit lengths 1..64 and unbounded integers; the existing tests look at 8/16-bit types and at range tables only.", "anchors": ["dronecan/transport.py:cast", "dronecan/dsdl/type_limits.py:get_signed_integer_range", "dronecan/dsdl/type_limits.py:get_unsigned_integer_range"]}
{"id": "C03", "title": "Truncated integers wrap modulo 2^bits", "statement": "Assigning any integer to a truncated integer field stores it modulo 2^n: an unsigned field reads back the residue in [0,2^n), a signed field the residue in [-2^(n-1),2^(n-1)).", "quantifier": "every truncated integer type and every integer of any magnitude", "why_tests_cant": "Unbounded input domain and 64 bit lengths.", "anchors": ["dronecan/transport.py:cast", "dronecan/transport.py:PrimitiveValue.value"]}
{"id": "C04", "title": "Every float16 bit pattern survives decode and re-encode", "statement": "Reading a float16 field and writing the value back leaves the 16 wire bits unchanged for every pattern that is not a NaN, and maps every NaN to a NaN.", "quantifier": "all 65536 float16 bit patterns", "why_tests_cant": "The repository tests ten values; exponent-boundary and subnormal patterns are where such code breaks.", "anchors": ["dronecan/transport.py:f16_from_f32", "dronecan/transport.py:f32_from_f16"]}
{"id": "C05", "title": "float16 encoding error is at most about half a unit in the last place and preserves sign and order", "statement": "For every finite float32 value inside the float16 range, the stored float16 differs from it by at most half a float16 ulp plus 1/4096 ulp, has the same sign, and larger inputs never produce smaller outputs; values too large become infinity, infinities stay infinities, NaN stays NaN.", "quantifier": "all 2^32 float32 bit patterns", "why_tests_cant": "2^32 inputs with rounding edge cases (subnormals, ties, carry into the exponent).", "anchors": ["dronecan/transport.py:f16_from_f32"]}
{"id": "C06", "title": "Serialisation round trip for every DSDL type", "statement": "For every well-formed DSDL type (arbitrarily nested primitives, voids, static and dynamic arrays, structs and unions) and every value of it, deserialising the serialised bits, in either tail-array-optimisation mode and with the zero padding added to reach a whole byte, yields a value that shows the user the same content.", "quantifier": "every well-formed type, every value, both TAO modes, every amount of trailing padding below one byte (any amount without TAO)", "why_tests_cant": "Types nest without bound and TAO changes the layout depending on position; tests cover a few message types.", "anchors": ["dronecan/transport.py:CompoundValue._pack", "dronecan/transport.py:CompoundValue._unpack", "dronecan/transport.py:ArrayValue._pack", "dronecan/transport.py:ArrayValue._unpack", "dronecan/transport.py:BaseValue"]}
{"id": "C07", "title": "Serialised size stays within the declared bit-length bounds", "statement": "The serialised length of any value of a type is at least get_min_bitlen() and at most get_max_bitlen() of that type, in either TAO mode.", "quantifier": "every well-formed type, every value, both TAO modes", "why_tests_cant": "Unbounded type nesting; code that sizes buffers from get_max_bitlen relies on every case.", "anchors": ["dronecan/dsdl/parser.py:get_max_bitlen", "dronecan/dsdl/parser.py:get_min_bitlen", "dronecan/transport.py:_pack"]}
{"id": "C08", "title": "Decoded arrays respect the declared maximum size", "statement": "After decoding a transfer, no dynamic array field holds more elements than its declared maximum size.", "quantifier": "every type and every received bit string", "why_tests_cant": "Only hostile or corrupted payloads exhibit it; tests decode what the library itself encoded.", "anchors": ["dronecan/transport.py:ArrayValue._unpack"]}
{"id": "C09", "title": "Decoding without TAO ignores trailing bytes and consumes exactly what encoding produced", "statement": "In CAN FD mode (no tail array optimisation), decoding an encoded value followed by any other bits returns the value and exactly those other bits.", "quantifier": "every type, every value, every trailing bit string", "why_tests_cant": "Unbounded types and suffixes.", "anchors": ["dronecan/transport.py:_unpack", "dronecan/transport.py:_pack"]}
{"id": "C10", "title": "Decoding is faithful: re-encoding a decoded message reproduces the received bits", "statement": "If a received bit string decodes without error in non-TAO mode, is not shorter than the decoded message's encoding, and no decoded array exceeds its maximum size, then re-encoding the decoded message gives exactly the bits consumed, with void positions zeroed; hence two different payloads never decode to the same message.", "quantifier": "every type and every received bit string", "why_tests_cant": "Quantifies over all inputs of the decoder, including ones no encoder produced.", "anchors": ["dronecan/transport.py:_unpack", "dronecan/transport.py:_pack"]}
{"id": "C11", "title": "Wire layout of integers is the DSDL one", "statement": "The serialised form of an n-bit integer is its bytes least significant first, each byte most significant bit first, the last partial byte holding the remaining most significant bits, for every n and value.", "quantifier": "every bit length and value", "why_tests_cant": "A layout error symmetric in encode and decode passes any round-trip test yet breaks interoperability.", "anchors": ["dronecan/transport.py:le_from_be_bits", "dronecan/transport.py:PrimitiveValue"]}
{"id": "C12", "title": "CAN identifier encode and decode are inverse", "statement": "For every legal transfer (message, anonymous or service; any priority, data type, source, destination, discriminator), decoding the 29-bit CAN identifier computed for it yields the same fields, and every 29-bit identifier that decodes to a legal transfer re-encodes to itself.", "quantifier": "all legal header field combinations and all 2^29 identifiers", "why_tests_cant": "2^29 identifiers and three layouts sharing bit positions.", "anchors": ["dronecan/transport.py:Transfer.message_id"]}
{"id": "C13", "title": "Different transfers never share a CAN identifier", "statement": "Two legal transfers with different priority, kind, data type, source, destination, direction or discriminator get different CAN identifiers, each below 2^29.", "quantifier": "all pairs of legal headers", "why_tests_cant": "Pairs of 2^29-sized header spaces.", "anchors": ["dronecan/transport.py:Transfer.message_id"]}
{"id": "C14", "title": "Frame splitting is well formed", "statement": "Splitting any payload gives a non-empty frame list in which every frame holds at most 8 (64 for CAN FD) bytes and at least the tail byte, only the first has start-of-transfer, only the last has end-of-transfer, the toggle bit alternates starting from 0, all carry the same transfer id and CAN id, all but the last are full, and a single frame is used exactly when the payload (after padding) fits.", "quantifier": "every payload of any length, every transfer id, both bus modes", "why_tests_cant": "Unbounded payload length with off-by-one boundaries at every multiple of 7 or 63.", "anchors": ["dronecan/transport.py:Transfer.to_frames"]}
{"id": "C15", "title": "CAN FD frames always have a legal CAN FD length", "statement": "Every frame produced for a CAN FD transfer has a data length the CAN FD DLC can express (0..8, 12, 16, 20, 24, 32, 48, 64).", "quantifier": "every payload length", "why_tests_cant": "Only particular residues of the payload length fail.", "anchors": ["dronecan/transport.py:Transfer.to_frames", "dronecan/transport.py:datalength_roundup", "dronecan/driver/common.py:CANFrame.datalength_to_dlc"]}
{"id": "C16", "title": "Frame splitting and reassembly are inverse", "statement": "Feeding the frames of any legal transfer to reassembly yields a transfer with the same priority, source, destination, kind, direction, transfer id, data type and a message equal to the one sent, on classic CAN and CAN FD.", "quantifier": "every data type, every message value, every legal header, both bus modes", "why_tests_cant": "Unbounded payload and type space, single- and multi-frame boundary, CRC and padding interplay.", "anchors": ["dronecan/transport.py:Transfer.to_frames", "dronecan/transport.py:Transfer.from_frames"]}
{"id": "C17", "title": "Concurrent transfers reassemble independently", "statement": "If the frames of any number of transfers with pairwise different (CAN id, transfer id) arrive interleaved in any order that keeps each transfer's own frames in order, possibly mixed with foreign frames of other keys, each transfer is delivered exactly once, at its own last frame, with exactly its own frames.", "quantifier": "every number of transfers, every interleaving", "why_tests_cant": "Exponentially many interleavings.", "anchors": ["dronecan/transport.py:TransferManager.receive_frame"]}
{"id": "C18", "title": "Reassembly only ever delivers what one sender sent contiguously", "statement": "Whatever frames arrive, each delivered transfer consists of frames received, in order, with one common (CAN id, transfer id): it starts with the most recent start-of-transfer frame of that key and contains every frame of that key since, up to the end-of-transfer frame; nothing is delivered twice.", "quantifier": "every received frame sequence, including loss, duplication, reordering and garbage", "why_tests_cant": "Quantifies over all histories.", "anchors": ["dronecan/transport.py:TransferManager.receive_frame"]}
{"id": "C19", "title": "Loss, duplication or reordering inside a multi-frame transfer is never accepted unnoticed", "statement": "From the frames of one multi-frame transfer, dropping any single frame, duplicating any single frame, or swapping two neighbouring frames makes reassembly either deliver nothing or raise a transfer error for that transfer; it never yields a successfully decoded transfer other than the original.", "quantifier": "every transfer, every position of the fault", "why_tests_cant": "All payloads and fault positions; toggle and flag logic interact.", "anchors": ["dronecan/transport.py:Transfer.from_frames", "dronecan/transport.py:TransferManager.receive_frame"]}
{"id": "C20", "title": "The transfer CRC catches every burst error of up to 16 bits", "statement": "Changing a multi-frame payload within any window of 16 consecutive bits (in particular any one or two adjacent bytes) always makes the receiver report a CRC mismatch.", "quantifier": "every payload of any length, every data type, every burst position and pattern", "why_tests_cant": "Exhaustive over all payloads and error patterns; algebraic property of the polynomial and of the byte loop.", "anchors": ["dronecan/dsdl/common.py:crc16_from_bytes", "dronecan/transport.py:Transfer.from_frames"]}
{"id": "C21", "title": "CRC-16 is incremental", "statement": "The CRC of a concatenation equals the CRC of the second part started from the CRC of the first, and the result always fits 16 bits; it equals the remainder of polynomial division by x^16+x^12+x^5+1.", "quantifier": "every pair of byte strings and initial values below 2^16", "why_tests_cant": "Unbounded byte strings.", "anchors": ["dronecan/dsdl/common.py:crc16_from_bytes"]}
{"id": "C22", "title": "Abandoned transfers are cleaned up", "statement": "remove_inactive_transfers(timeout) removes exactly the partially received transfers that saw no frame for longer than the timeout, keeps all others, and does not fail.", "quantifier": "every reassembly state, clock value and timeout", "why_tests_cant": "Depends on the number and position of stale entries; a test with an empty table passes.", "anchors": ["dronecan/transport.py:TransferManager.remove_inactive_transfers"]}
{"id": "C23", "title": "DSDL signature hashing is incremental and order-faithful", "statement": "Feeding a byte string to a signature object in any chunking, or resuming from a previously obtained signature value, gives the same 64-bit value; changing any up to 64 consecutive bits of the input changes the signature.", "quantifier": "every byte string, every chunking, every resume point, every burst", "why_tests_cant": "Unbounded inputs and chunkings.", "anchors": ["dronecan/dsdl/signature.py:Signature"]}
{"id": "C24", "title": "Transfer ids count modulo 32 per destination without gaps", "statement": "The k-th transfer sent for one session (one message type, or one service type and destination) carries transfer id k mod 32, independently of all other sessions and of the interleaving between them.", "quantifier": "every sequence of broadcasts and requests", "why_tests_cant": "All interleavings of sessions and all lengths past the wrap.", "anchors": ["dronecan/node.py:Node._next_transfer_id", "dronecan/node.py:Node.request", "dronecan/node.py:Node.broadcast"]}
{"id": "C25", "title": "Every service call's callback runs exactly once", "statement": "For any history of requests, received transfers and clock advances, each request's callback is invoked at most once, and exactly once by the time its timeout has been processed, provided callbacks return normally.", "quantifier": "every history of requests, responses (including duplicates and unsolicited ones) and timer runs, up to any number of outstanding requests", "why_tests_cant": "All schedules of responses versus timeouts, including transfer-id wrap-around.", "anchors": ["dronecan/node.py:Node.request", "dronecan/node.py:Node._recv_frame"]}
{"id": "C26", "title": "A callback that raises does not disturb later calls", "statement": "If a response callback raises an exception, that request is still finished: no later response or timeout invokes its callback again.", "quantifier": "every history and every position of the raising callback", "why_tests_cant": "Needs the combination of an exception and a later duplicate response.", "anchors": ["dronecan/node.py:Node._recv_frame", "dronecan/node.py:Node.request"]}
{"id": "C27", "title": "A response is delivered to the matching call only", "statement": "A callback invoked with a response gets a transfer that is a response, addressed to this node, coming from the node the request was sent to, with the request's data type and transfer id, and received after the request and before its timeout.", "quantifier": "every history", "why_tests_cant": "All schedules and all foreign traffic.", "anchors": ["dronecan/node.py:Node._recv_frame", "dronecan/transport.py:Transfer.is_response_to"]}
{"id": "C28", "title": "Request handlers see only requests addressed to this node, and answer the right peer", "statement": "A transfer handler for a service is invoked only for transfers of that service addressed to this node (or, if registered for sniffing, for overheard responses); the reply it returns is sent to the requester with the request's transfer id, service type and priority, exactly once.", "quantifier": "every handler set and every received transfer", "why_tests_cant": "Depends on the combination of registered sniffing and plain handlers and on traffic between third parties.", "anchors": ["dronecan/node.py:HandlerDispatcher", "dronecan/node.py:Node._recv_frame", "dronecan/node.py:Node.respond"]}
{"id": "C29", "title": "Every registered handler sees every matching transfer", "statement": "When a transfer is dispatched, each handler registered for its type (or for all types) at that moment is called exactly once with it, in registration order, even if handlers raise or unregister themselves or others while being called.", "quantifier": "every handler list, every pattern of raising and unregistering", "why_tests_cant": "The effect depends on list mutation during iteration.", "anchors": ["dronecan/node.py:HandlerDispatcher.call_handlers", "dronecan/node.py:HandleRemover"]}
{"id": "C30", "title": "Deferred work never runs early and runs in deadline order", "statement": "An event scheduled for time t is run by no poll before t, is run by the first poll at or after t that is not ended by an exception from another callback (unless cancelled before), is run once, and events run by the same poll are ordered by deadline, then priority, then scheduling order.", "quantifier": "every set of scheduled events and every sequence of polls", "why_tests_cant": "All schedules.", "anchors": ["dronecan/node.py:Scheduler"]}
{"id": "C31", "title": "Periodic work has zero phase drift", "statement": "The k-th run of a periodic task is scheduled for exactly start + k*period however late the polls are, and removing the task's handle stops it for good, also from inside its own callback.", "quantifier": "every period, every sequence of poll times, every removal point", "why_tests_cant": "All poll schedules.", "anchors": ["dronecan/node.py:Scheduler.periodic", "dronecan/node.py:Scheduler.PeriodicEventHandle"]}
{"id": "C32", "title": "A node identity cannot change once set", "statement": "The node id of an anonymous node can be assigned at most once, only to an integer in 1..127, and afterwards stays the same; while it has no id the node puts no frame on the bus and every send attempt is reported as an error.", "quantifier": "every sequence of assignments and send attempts", "why_tests_cant": "All call sequences.", "anchors": ["dronecan/node.py:Node.node_id", "dronecan/node.py:Node._throw_if_anonymous", "dronecan/node.py:Node.broadcast"]}
{"id": "C33", "title": "Requested priority and timeout are honoured", "statement": "broadcast and request send with exactly the priority given, including the highest priority 0, and request waits exactly the timeout given.", "quantifier": "every priority 0..31 and every timeout", "why_tests_cant": "The failing value is a single boundary constant of each parameter.", "anchors": ["dronecan/node.py:Node.request", "dronecan/node.py:Node.broadcast", "dronecan/node.py:Node._next_transfer_id"]}
{"id": "C34", "title": "The allocator never gives one node id to two devices", "statement": "For any history of allocation messages and node-monitor events, an id broadcast as an allocation for a unique id was not recorded for a different unique id, so two devices with different non-zero unique ids never hold the same allocated node id.", "quantifier": "every history of allocation and monitor events", "why_tests_cant": "All interleavings of concurrent allocatees, timeouts and restarts.", "anchors": ["dronecan/app/dynamic_node_id.py:CentralizedServer"]}
{"id": "C35", "title": "Allocation is stable", "statement": "A device that was given a node id and asks again, in the same session or after any other allocations, gets the same node id.", "quantifier": "every history between the two requests", "why_tests_cant": "All histories.", "anchors": ["dronecan/app/dynamic_node_id.py:CentralizedServer", "dronecan/app/dynamic_node_id.py:AllocationTable"]}
{"id": "C36", "title": "Allocated ids come from the configured range and the whole range is usable", "statement": "Every newly allocated id lies in the configured dynamic range, and allocation fails only when every id of the range is taken.", "quantifier": "every range, every requested id, every table content", "why_tests_cant": "Boundary behaviour of both search loops for all ranges.", "anchors": ["dronecan/app/dynamic_node_id.py:CentralizedServer._on_allocation_message"]}
{"id": "C37", "title": "The node monitor reports only nodes heard recently", "statement": "A node id listed after stale removal had a status message or info response within the timeout, and every node heard within the timeout is listed.", "quantifier": "every history of status messages, info responses and clock advances", "why_tests_cant": "All timing histories.", "anchors": ["dronecan/app/node_monitor.py:NodeMonitor"]}
{"id": "C38", "title": "Node monitor events tell a consistent story", "statement": "For each node the reported events alternate: a node is reported new before any info update, and is reported new again only after having been reported offline.", "quantifier": "every history", "why_tests_cant": "All interleavings of status, info, sniffed traffic and expiry.", "anchors": ["dronecan/app/node_monitor.py:NodeMonitor"]}
{"id": "C39", "title": "Info retrieval is rate limited and bounded", "statement": "Between two restarts of a node the monitor sends it at most ten GetNodeInfo requests without receiving an answer, never two within the minimum interval, and its internal retry assertion never fails.", "quantifier": "every history of status messages and responses", "why_tests_cant": "All timing histories.", "anchors": ["dronecan/app/node_monitor.py:NodeMonitor._on_node_status", "dronecan/app/node_monitor.py:NodeMonitor.Entry"]}
{"id": "C40", "title": "The message collector returns the latest message per key and nothing stale", "statement": "collector[key] returns the most recently received message of that type and key if it is not older than the timeout, and raises KeyError otherwise; iteration lists exactly the keys for which this succeeds.", "quantifier": "every history of receptions and clock values", "why_tests_cant": "All histories.", "anchors": ["dronecan/app/message_collector.py:MessageCollector"]}
{"id": "C41", "title": "Reading a served file in a loop reproduces it", "statement": "A client that issues Read requests at offsets 0, n, 2n, ... until it gets a short chunk obtains exactly the file's bytes, for any file.", "quantifier": "every file content and size", "why_tests_cant": "Unbounded file sizes with a boundary at every multiple of the chunk size.", "anchors": ["dronecan/app/file_server.py:FileServer._read"]}
{"id": "C42", "title": "The file server serves only what it was told to serve", "statement": "A file is served only if it is one of the listed files or lies under one of the listed directories.", "quantifier": "every request path and every lookup path list", "why_tests_cant": "Adversarial path strings.", "anchors": ["dronecan/app/file_server.py:FileServer._resolve_path"]}
{"id": "C43", "title": "The serial tunnel is a faithful byte stream", "statement": "The bytes handed to write() are sent in order, without loss, in chunks of at most 120 bytes; the bytes returned by successive read() calls are, in order, those received from the target node's device, each exactly once.", "quantifier": "every sequence of writes, reads and received chunks", "why_tests_cant": "All chunkings and interleavings.", "anchors": ["dronecan/utility.py:DroneCANSerial"]}
{"id": "C44", "title": "A recorded log reads back what was written", "statement": "Reading a log written through the file driver yields the same frames in the same order with the same identifiers, extended and CAN FD flags, data and microsecond timestamps.", "quantifier": "every frame sequence", "why_tests_cant": "Unbounded sequences and payloads.", "anchors": ["dronecan/driver/file.py"]}
{"id": "C45", "title": "A log cut off at any byte still yields its complete records", "statement": "If the log file is truncated at an arbitrary byte (crash while recording), opening it and reading yields all records that were completely written.", "quantifier": "every frame sequence and every truncation point", "why_tests_cant": "Every crash point.", "anchors": ["dronecan/driver/file.py"]}
{"id": "C46", "title": "Log playback knows the time of the last record", "statement": "After opening a log for reading, get_last_timestamp() is the timestamp of its last record.", "quantifier": "every log", "why_tests_cant": "Depends on end-of-file handling.", "anchors": ["dronecan/driver/file.py:file.set_first_and_last_timestamp"]}
{"id": "C47", "title": "SLCAN lines round trip", "statement": "Encoding any CAN or CAN FD frame for an SLCAN adapter and parsing the line gives the same identifier, frame format, CAN FD flag and data; with an adapter timestamp appended the same holds and the timestamp is recovered.", "quantifier": "every frame with legal id and data length", "why_tests_cant": "All identifiers and payloads, DLC boundaries, optional timestamp suffix.", "anchors": ["dronecan/driver/slcan.py:TxWorker._send_frame", "dronecan/driver/slcan.py:RxWorker._process_slcan_line"]}
{"id": "C48", "title": "SLCAN reception does not depend on how the serial data is chunked", "statement": "The sequence of frames delivered for a byte stream is the same for every way of splitting the stream into reads, and a malformed line affects no other line.", "quantifier": "every byte stream and every chunking", "why_tests_cant": "Exponentially many chunkings.", "anchors": ["dronecan/driver/slcan.py:RxWorker.run"]}
{"id": "C49", "title": "Multicast packets round trip and corrupted ones are dropped", "statement": "Decoding an encoded multicast packet gives the same frame; a packet with a wrong magic, shorter than the header, or corrupted within any 16-bit window of its checked part is dropped without effect.", "quantifier": "every frame and every corruption", "why_tests_cant": "All payloads and error patterns.", "anchors": ["dronecan/driver/mcast.py"]}
{"id": "C50", "title": "SocketCAN frame codec round trips", "statement": "Packing a CAN or CAN FD frame into the kernel structure and parsing it gives the same identifier, format and data.", "quantifier": "every frame with legal id and data length", "why_tests_cant": "All identifiers and payloads.", "anchors": ["dronecan/driver/socketcan.py"]}
{"id": "C51", "title": "DLC conversion is exact on legal lengths", "statement": "dlc_to_datalength and datalength_to_dlc are inverse on the 16 legal codes and lengths, and converting any other length up to 64 and back gives the smallest legal length that is not smaller.", "quantifier": "all DLC codes and all lengths 0..64", "why_tests_cant": "Finite but never enumerated by the tests.", "anchors": ["dronecan/driver/common.py:CANFrame"]}
{"id": "C52", "title": "Timestamp estimates are never later than arrival", "statement": "The estimated local time of a received event is never later than the local time it was received, and is at most the accumulated drift allowance away from the best observed delay.", "quantifier": "every sequence of (source time, arrival time) samples", "why_tests_cant": "All sample sequences.", "anchors": ["dronecan/driver/timestamp_estimator.py:TimestampEstimator"]}
{"id": "C53", "title": "Overflowing source clocks are unwrapped correctly", "statement": "If the adapter clock wraps with a known period and transport jitter between two samples stays below half a period, the resolved source time increments equal the true source time increments over any number of samples and wraps.", "quantifier": "every sample sequence meeting the jitter bound", "why_tests_cant": "All sequences and wrap patterns.", "anchors": ["dronecan/driver/timestamp_estimator.py:SourceTimeResolver"]}
{"id": "C54", "title": "Array fields never exceed their maximum size through the API", "statement": "Whatever sequence of append, insert, extend, item assignment, deletion, clear, from_bytes, encode and whole-array assignment is applied to an array field, its length never exceeds the declared maximum, and a rejected operation on a single element leaves the array unchanged.", "quantifier": "every array type and every sequence of operations and arguments", "why_tests_cant": "All operation sequences.", "anchors": ["dronecan/transport.py:ArrayValue", "dronecan/transport.py:CompoundValue.__setattr__"]}
{"id": "C55", "title": "Assigning an array field to itself keeps its content", "statement": "msg.field = value makes the field equal to the value also when the value is the field itself.", "quantifier": "every array value", "why_tests_cant": "An aliasing case tests do not write.", "anchors": ["dronecan/transport.py:CompoundValue.__setattr__"]}
{"id": "C56", "title": "Assigning a nested message copies it", "statement": "After outer.field = inner, later changes to inner do not change outer.", "quantifier": "every message value and later modification", "why_tests_cant": "An aliasing property over all later mutations.", "anchors": ["dronecan/transport.py:CompoundValue.__setattr__", "dronecan/transport.py:CompoundValue.__copy__"]}
{"id": "C57", "title": "Only one union field is ever active", "statement": "Once a union field was read or written, every other field of that union object raises AttributeError on access and the serialised form carries the tag and value of the active field; constants can never be assigned.", "quantifier": "every union type and every sequence of attribute accesses", "why_tests_cant": "All access sequences.", "anchors": ["dronecan/transport.py:CompoundValue.__getattr__", "dronecan/transport.py:CompoundValue.__setattr__", "dronecan/transport.py:CompoundValue._pack"]}
{"id": "C58", "title": "Text stored in a string field reads back", "statement": "Assigning a string to a string-like array field whose UTF-8 form fits and reading it back as text gives the same string.", "quantifier": "every Unicode string that fits", "why_tests_cant": "All code points and lengths.", "anchors": ["dronecan/transport.py:ArrayValue.encode", "dronecan/transport.py:ArrayValue.decode"]}
{"id": "C59", "title": "Type definitions accepted by the parser are well formed", "statement": "Every definition the DSDL parser accepts has unique attribute names, legal bit lengths, positive array capacities, no arrays of arrays, no nested service types, unions with at least two non-void fields, and a data type id in the legal range, so that the codec properties apply to it.", "quantifier": "every definition text", "why_tests_cant": "All definition texts.", "anchors": ["dronecan/dsdl/parser.py"]}
{"id": "C60", "title": "Signatures depend only on the meaning of a definition", "statement": "Comments, blank lines, spacing and constants of a definition do not influence its DSDL signature.", "quantifier": "every definition text and every such edit", "why_tests_cant": "All texts and edits.", "anchors": ["dronecan/dsdl/parser.py:CompoundType.get_dsdl_signature_source_definition", "dronecan/dsdl/parser.py:Parser._tokenize"]}
{"id": "C61", "title": "Data type ids are unambiguous after loading", "statement": "After loading succeeded, all types of one kind sharing a data type id have the same signature, and every type with a data type id can be found by that id, including id 0.", "quantifier": "every set of definitions", "why_tests_cant": "All sets and orders of definitions; boundary id 0.", "anchors": ["dronecan/dsdl/parser.py:ensure_unique_dtid", "dronecan/__init__.py:load_dsdl"]}
{"id": "C62", "title": "Constant-name lookup is faithful", "statement": "value_to_constant_name returns either the decimal value itself or names of constants of the type whose values combine exactly to the value.", "quantifier": "every type and value", "why_tests_cant": "All values and constant sets.", "anchors": ["dronecan/introspect.py:value_to_constant_name"]}
{"id": "C63", "title": "Any message converts to a JSON-compatible object", "statement": "to_json_compatible_object succeeds for every message value and keeps every field's content.", "quantifier": "every type and value", "why_tests_cant": "Fails only on particular value shapes.", "anchors": ["dronecan/introspect.py:to_json_compatible_object"]}
{"id": "C64", "title": "The bridge forwards each frame to every other bus and never back", "statement": "Each received frame that passes the filter is sent exactly once on each bus other than the one it came from, unchanged.", "quantifier": "every set of buses and every frame sequence", "why_tests_cant": "All topologies and sequences.", "anchors": ["tools/dronecan_bridge.py"]}
{"id": "C65", "title": "Spinning a node with a timeout processes everything received", "statement": "Node.spin(timeout) dispatches every frame the driver delivers within the timeout in order of arrival and returns after the timeout, not earlier.", "quantifier": "every driver schedule", "why_tests_cant": "All schedules.", "anchors": ["dronecan/node.py:Node.spin"]}
{"id": "C66", "title": "Driver hooks observe every frame in order and cannot break I/O", "statement": "Every frame received or transmitted is passed to every registered I/O hook in order, and a hook that raises neither stops other hooks nor the frame.", "quantifier": "every hook list and frame sequence", "why_tests_cant": "All patterns of raising hooks.", "anchors": ["dronecan/driver/common.py:AbstractDriver"]}
{"id": "C67", "title": "A payload cut short is rejected, not silently completed", "statement": "Decoding (without tail array optimisation) any proper prefix of a message's serialised form raises; no field is silently filled in.", "quantifier": "every type, every value, every cut position", "why_tests_cant": "All types, values and cut positions.", "anchors": ["dronecan/transport.py:_unpack", "dronecan/transport.py:be_from_le_bits"]}
{"id": "C68", "title": "The serialised form is the DSDL wire format", "statement": "For every type and value the bits produced are those of the DSDL format: fields in declaration order, little-endian integers, a length prefix of just enough bits for the maximum size before each dynamic array except an optimised tail array, a union tag of just enough bits followed by the active field only, zeros for voids.", "quantifier": "every well-formed type, every value, both TAO modes", "why_tests_cant": "An encoder and decoder that deviate in the same way pass every round-trip test but do not interoperate.", "anchors": ["dronecan/transport.py:_pack"]}
{"id": "C69", "title": "Whatever was received can be sent on", "statement": "Serialising a message whose arrays hold more elements than allowed (which decoding can produce) sends the first max_size elements with a matching count; the result has at most the type's maximum bit length and decodes to the message cut in this way.", "quantifier": "every type, every message obtained by decoding any bit stream", "why_tests_cant": "The message comes from arbitrary bus input; the property relates it to what another node then decodes.", "anchors": ["dronecan/transport.py:ArrayValue._pack", "dronecan/transport.py:ArrayValue._unpack"]}
{"id": "C70", "title": "The transfer CRC catches up to three changed bits anywhere, and every odd number", "statement": "Changing one, two or three bits anywhere in a payload of up to 4095 bytes, or an odd number of bits in a payload of any length, changes its CRC.", "quantifier": "every payload of up to 4095 bytes and every placement of the bits; every payload length for odd numbers", "why_tests_cant": "Billions of placements per payload, all payloads.", "anchors": ["dronecan/dsdl/common.py:crc16_from_bytes"]}
{"id": "C71", "title": "Sending a transfer object again sends the same frames", "statement": "Calling to_frames() a second time on the same transfer object returns the same frames, although the first call may have extended the payload with padding.", "quantifier": "every transfer, both bus modes", "why_tests_cant": "The padding is applied to the object's own payload; whether padding is idempotent depends on the length, for all lengths.", "anchors": ["dronecan/transport.py:Transfer.to_frames"]}
{"id": "C72", "title": "float32 and float64 fields store the nearest value and never fail", "statement": "Assigning any Python float to a float64 field and reading it gives the same number with the same sign; a float32 field gives the nearest float32 (the number itself if it is one). Numbers out of range, and infinities, give the largest number in saturated fields and an infinity in truncated fields; NaN gives NaN. No assignment raises.", "quantifier": "every double, both widths and cast modes", "why_tests_cant": "2^64 doubles; struct.pack raises OverflowError near the range limit, which the clamp must prevent exactly.", "anchors": ["dronecan/transport.py:PrimitiveValue.value", "dronecan/transport.py:cast", "dronecan/dsdl/type_limits.py:get_float_range"]}
{"id": "C73", "title": "spin returns the number of received frames", "statement": "Node.spin returns the number of frames it received, as its docstring says, for every timeout.", "quantifier": "every driver schedule and timeout", "why_tests_cant": "The result is only wrong when more than one frame arrives.", "anchors": ["dronecan/node.py:Node.spin"]}
{"id": "C74", "title": "What one node sends, the handlers of another get", "statement": "If all frames of a message, or of a request addressed to this node, are received in order (with any other traffic, polls and operations in between), each registered handler for the type is called exactly once, in registration order, with exactly the content, sender, priority and transfer id that were sent.", "quantifier": "every valid message value, bus mode, handler list without handlers that change it, and history of the receiving node", "why_tests_cant": "Combines serialization, framing, reassembly and dispatch over all histories and interleavings.", "anchors": ["dronecan/node.py:Node._recv_frame", "dronecan/node.py:HandlerDispatcher.call_handlers", "dronecan/transport.py:Transfer.from_frames", "dronecan/transport.py:TransferManager.receive_frame"]}
{"id": "C75", "title": "An allocated unique id was received in order and in time", "statement": "Every allocation is for a 16 byte unique id whose parts were received from anonymous nodes in order: a first part, its continuation, and a last part of four bytes, each within the follow-up timeout of the one before, with no other first part in between and no part used for two allocations.", "quantifier": "every history of allocation messages and monitor events", "why_tests_cant": "All interleavings of several allocatees with timeouts and lost answers.", "anchors": ["dronecan/app/dynamic_node_id.py:CentralizedServer._on_allocation_message"]}
{"id": "C76", "title": "Allocations survive a restart of the allocator", "statement": "After a restart on the same database, a device on record gets its node id again, and no other device is given that id.", "quantifier": "every database, every list of nodes known to the monitor at the restart, every later history", "why_tests_cant": "Needs the interplay of the stored table, the monitor's registry at start and later events.", "anchors": ["dronecan/app/dynamic_node_id.py:CentralizedServer.__init__", "dronecan/app/dynamic_node_id.py:AllocationTable.set"]}
{"id": "C77", "title": "The length of a collector is the number of keys it lists", "statement": "len(collector) equals the number of keys that iterating over the collector yields.", "quantifier": "every history and clock value", "why_tests_cant": "Differs only when an entry has expired and was not asked for since.", "anchors": ["dronecan/app/message_collector.py:MessageCollector.__len__", "dronecan/app/message_collector.py:MessageCollector.__iter__"]}
{"id": "C78", "title": "The multicast driver reports the frames of all others and never its own", "statement": "A valid multicast datagram is reported by the driver exactly if it was not sent by the driver itself.", "quantifier": "every sequence of connections and datagrams, every sender address and port", "why_tests_cant": "Needs a second machine whose socket happens to have the same port number, or a reconnection, which no test arranges.", "anchors": ["dronecan/driver/mcast.py:io_process"]}
{"id": "C79", "title": "Frames survive MAVLink encapsulation", "statement": "The CAN_FRAME or CANFD_FRAME message made for a frame has the fixed data length of its kind and the selected bus, and reading it gives the same identifier, formats and data.", "quantifier": "every frame with legal id and data length, both kinds", "why_tests_cant": "All identifiers, lengths and payloads, including trailing zeros and padding.", "anchors": ["dronecan/driver/mavcan.py:io_process"]}
{"id": "C80", "title": "Timestamp estimation never fails", "statement": "Updating the estimator with a sample never raises, whatever the samples.", "quantifier": "every sequence of (source time, arrival time) samples", "why_tests_cant": "All sample sequences; fails only when a clock steps back by a small amount.", "anchors": ["dronecan/driver/timestamp_estimator.py:TimestampEstimator.update", "dronecan/driver/timestamp_estimator.py:SourceTimeResolver.update"]}
{"id": "C81", "title": "Only well-formed SLCAN lines are read as frames", "statement": "A line is read as a frame only if it consists of the type, exactly the number of identifier digits of the format, a length code, exactly the data bytes for that code, and optionally the four digits of a timestamp.", "quantifier": "every line of bytes", "why_tests_cant": "All byte strings; int() and a2b_hex() accept more than digits of fixed number.", "anchors": ["dronecan/driver/slcan.py:RxWorker._process_slcan_line"]}
{"id": "C82", "title": "Assigning an unknown field name is refused", "statement": "Assigning to an attribute of a message whose name is neither a field nor a constant of its type raises.", "quantifier": "every message type, every name that is not in it, every value", "why_tests_cant": "All types and names; a misspelt field name passes silently and only the sent content shows it.", "anchors": ["dronecan/transport.py:CompoundValue.__setattr__", "dronecan/transport.py:CompoundValue.__getattr__"]}
{"id": "C83", "title": "A deep copy of a message is equal and independent", "statement": "copy.deepcopy of a message has the same content, and later changes to either do not change the other.", "quantifier": "every message value, with any nesting and sharing, and every later sequence of operations", "why_tests_cant": "All object graphs and all later mutations.", "anchors": ["dronecan/transport.py:CompoundValue.__deepcopy__"]}
{"id": "C84", "title": "A new message is blank and unshared", "statement": "A newly constructed message holds zeros and empty dynamic arrays, shares nothing with existing messages, and an integer assigned to a field in its range reads back.", "quantifier": "every message type and every earlier state", "why_tests_cant": "All types; all values of a field.", "anchors": ["dronecan/transport.py:CompoundValue.__init__", "dronecan/transport.py:PrimitiveValue", "dronecan/transport.py:ArrayValue.__init__"]}
{"id": "C85", "title": "The normalised definition determines the layout", "statement": "If the normalised texts of two accepted definitions are equal, the definitions have the same full name, the same kind, the same union flags, and the same fields: names, order, bit lengths, cast modes, array kinds and capacities, and full names of nested types.", "quantifier": "every pair of accepted definitions", "why_tests_cant": "All pairs of definitions: a collision of normalised texts gives incompatible types one signature.", "anchors": ["dronecan/dsdl/parser.py:CompoundType.get_dsdl_signature_source_definition", "dronecan/dsdl/parser.py:PrimitiveType.get_normalized_definition", "dronecan/dsdl/parser.py:ArrayType.get_normalized_definition"]}
{"id": "C86", "title": "A full type name denotes one type", "statement": "After loading, each loaded type is the one found by its full name.", "quantifier": "every set of definition files", "why_tests_cant": "All sets of files; fails only when two file names give one full name.", "anchors": ["dronecan/__init__.py:load_dsdl", "dronecan/dsdl/parser.py:Parser._full_typename_version_and_dtid_from_filename"]}
{"id": "C87", "title": "Constants fit their type", "statement": "The value of every constant of an accepted definition is one its type can represent.", "quantifier": "every accepted definition and every constant", "why_tests_cant": "All types and values; the limits of long signed types are computed in floating point.", "anchors": ["dronecan/dsdl/parser.py:Parser._make_constant", "dronecan/dsdl/parser.py:PrimitiveType.validate_value_range", "dronecan/dsdl/type_limits.py"]}
{"id": "C88", "title": "No type contains itself", "statement": "No accepted definition has a field whose type is, or contains at any depth, the defined type itself.", "quantifier": "every set of files and every definition", "why_tests_cant": "Unbounded nesting across files.", "anchors": ["dronecan/dsdl/parser.py:Parser._locate_compound_type_definition", "dronecan/dsdl/parser.py:Parser._parse_compound_type"]}
{"id": "C89", "title": "File information agrees with file contents", "statement": "The size reported by GetInfo is the number of bytes a client obtains by reading the file, and GetInfo reports an error exactly if reading does.", "quantifier": "every path, lookup list, path map and file", "why_tests_cant": "All file sizes and path strings.", "anchors": ["dronecan/app/file_server.py:FileServer._get_info", "dronecan/app/file_server.py:FileServer._read"]}
{"id": "C90", "title": "Every file request is answered", "statement": "The file server answers every GetInfo and Read request, if need be with an error code.", "quantifier": "every request path, as bytes", "why_tests_cant": "All byte strings; an answer is missing only for particular ones.", "anchors": ["dronecan/app/file_server.py:FileServer._get_info", "dronecan/app/file_server.py:FileServer._read"]}
{"id": "C91", "title": "Any message converts to YAML", "statement": "to_yaml succeeds for every message value.", "quantifier": "every type and value", "why_tests_cant": "Fails only on particular element values in particular arrays.", "anchors": ["dronecan/introspect.py:_to_yaml_impl"]}
{"id": "C92", "title": "Different values get different constant names", "statement": "If value_to_constant_name shows names for two different values of one field, the shown texts differ.", "quantifier": "every set of constants with distinct names and values, every field and pair of values", "why_tests_cant": "All sets of constants and pairs of values.", "anchors": ["dronecan/introspect.py:value_to_constant_name"]}
{"id": "C93", "title": "A definition means what its lines say", "statement": "In an accepted definition the fields, constants, union marks and signature overrides are those that the lines of the file say, in order, each with the kind, width, cast mode, array bound, name and value written there; and a file whose lines are all of these forms, with distinct names, is accepted.", "quantifier": "every source text, file name and set of other definitions", "why_tests_cant": "All texts: line forms, number notations and nested types combine without bound.", "anchors": ["dronecan/dsdl/parser.py:Parser._parse_line", "dronecan/dsdl/parser.py:Parser._parse_type", "dronecan/dsdl/parser.py:Parser._make_constant", "dronecan/dsdl/parser.py:Parser.parse_source"]}
{"id": "C94", "title": "The path of a file tells name, version and id of its type", "statement": "A file [id.]Short[.major.minor].uavcan in subdirectories a, b, ... of a root directory r (no directory name containing a dot) defines the type r.a.b...Short with that id and version, if that is a legal full name of at most 80 characters; any other file name is refused.", "quantifier": "every set of root directories none of which begins with another, every chain of subdirectories, every file name", "why_tests_cant": "All paths and spellings of the numbers in them.", "anchors": ["dronecan/dsdl/parser.py:Parser._namespace_from_filename", "dronecan/dsdl/parser.py:Parser._full_typename_version_and_dtid_from_filename", "dronecan/dsdl/parser.py:validate_compound_type_full_name"]}
{"id": "C95", "title": "A nested type is looked for in its place, and found there", "statement": "The file in which a type named in a definition is looked up is a readable file which the naming convention gives to the full name meant; and if there is such a file, the search succeeds.", "quantifier": "every set of root directories, directory tree, referring file and type name", "why_tests_cant": "All directory trees and names.", "anchors": ["dronecan/dsdl/parser.py:Parser._locate_compound_type_definition"]}
{"id": "C96", "title": "Files of different directories define different types", "statement": "Two accepted files define types of the same full name only if they lie in the same subdirectories of roots of the same name and have the same short name.", "quantifier": "every set of root directories, every two paths", "why_tests_cant": "All pairs of paths.", "anchors": ["dronecan/dsdl/parser.py:Parser._namespace_from_filename"]}
{"id": "C97", "title": "The data type signature is the specified hash", "statement": "The signature of an accepted definition is the CRC-64/WE of its normalised text (or the value given by OVERRIDE_SIGNATURE, modulo 2^64), into which for each field of a compound type, in order, and in arrays of these, the eight bytes of that type's signature and the eight bytes of the value so far are hashed; the normalised text is the full name and, one per line, union mark, fields with cast mode, width, array bound and name, and the service separator.", "quantifier": "every accepted definition, with types nested to any depth", "why_tests_cant": "All definitions; a slip in one line form or one nesting depth changes only signatures of types that use it.", "anchors": ["dronecan/dsdl/parser.py:CompoundType.get_data_type_signature", "dronecan/dsdl/parser.py:CompoundType.get_dsdl_signature_source_definition", "dronecan/dsdl/signature.py:Signature"]}
{"id": "C98", "title": "A change of a nested type shows in the signature", "statement": "If one nested type of a definition is replaced by one of the same name with another signature, the data type signature of the definition changes.", "quantifier": "every definition, field and pair of signatures", "why_tests_cant": "All pairs of 64-bit signatures; the exceptions are three of 2^64 differences.", "anchors": ["dronecan/dsdl/parser.py:CompoundType.get_data_type_signature", "dronecan/dsdl/signature.py:Signature"]}
{"id": "C99", "title": "Adapter commands do not disturb the frames", "statement": "While commands are executed on the adapter's command line, exactly the CAN frames that the adapter sent are delivered, in order, each once and as soon as something after it has been read, whatever the output of the commands is and whichever commands expire.", "quantifier": "every stream of frames and text lines, every splitting of it into readings, every sequence of commands and times", "why_tests_cant": "All interleavings of frames, output lines, commands and read boundaries.", "anchors": ["dronecan/driver/slcan.py:RxWorker.run", "dronecan/driver/slcan.py:RxWorker._process_many_slcan_lines"]}
{"id": "C100", "title": "The answer to an adapter command is its output", "statement": "The response to a command holds exactly the lines that the adapter sent between the echo of the command and the end-of-text mark; and if an adapter answers the commands in order and in time, every command gets its own output.", "quantifier": "every stream of frames and text lines, every splitting, every sequence of commands", "why_tests_cant": "All interleavings of frames, output lines, commands and read boundaries; leftovers of earlier traffic.", "anchors": ["dronecan/driver/slcan.py:RxWorker.run", "dronecan/driver/slcan.py:IPCCommandLineExecutionResponse"]}
{"id": "C101", "title": "Each callback of an adapter command is called once, with its own answer", "statement": "Callbacks of execute_cli_command are called in the order of the commands, each at most once and with the response to its own command; a response says that the command expired only if its deadline had passed at a reading; and when all deadlines have passed and the queue has been emptied, all callbacks have been called.", "quantifier": "every sequence of commands, readings, receptions and received bytes", "why_tests_cant": "All histories: equal commands, expired ones and late output.", "anchors": ["dronecan/driver/slcan.py:SLCAN.receive", "dronecan/driver/slcan.py:SLCAN.execute_cli_command", "dronecan/driver/slcan.py:TxWorker._execute_command"]}
{"id": "C102", "title": "Opening an adapter sends the right commands and looks at the replies", "statement": "_init_adapter makes at most four attempts, each sending the empty command, C, S with the code of the bit rate, O and F in this order; it returns only if in the last attempt S and O were each followed by an acknowledgement before the next command was sent; with an unsupported bit rate it raises and sends nothing.", "quantifier": "every port, including ones that raise, and every bit rate", "why_tests_cant": "All sequences of received bytes, timeouts and exceptions.", "anchors": ["dronecan/driver/slcan.py:_init_adapter"]}
{"id": "C103", "title": "An initialised adapter has its channel open at the right speed", "statement": "If _init_adapter returns, the adapter has accepted the speed and the opening of the channel, so the channel is open at the speed asked for; and it returns if the adapter accepts them in one of four attempts.", "quantifier": "every adapter: its replies may depend on everything before, and it may send other bytes before them", "why_tests_cant": "All adapters, timings and traffic.", "anchors": ["dronecan/driver/slcan.py:_init_adapter"]}
{"id": "C104", "title": "After the port was lost the channel is opened again", "statement": "When reading goes on after the port of an SLCAN adapter was lost for any time, the channel of the adapter is open at the speed asked for.", "quantifier": "every adapter, every length of the outage", "why_tests_cant": "All adapters and outages.", "anchors": ["dronecan/driver/slcan.py:RetrySerial.retry", "dronecan/driver/slcan.py:RetrySerial.read"]}
{"id": "C105", "title": "Frames given to the MAVLink link are sent in order on the selected bus", "statement": "Every frame given to the MAVLink driver is sent exactly once and in order, to the system addressed and with the bus selected at that time (set_bus takes effect between the frames queued before and after it), and is read at the other end as the same frame.", "quantifier": "every sequence of frames, bus and filter changes, received messages, idle times and lost links", "why_tests_cant": "All histories of queue elements and receptions.", "anchors": ["dronecan/driver/mavcan.py:io_process"]}
{"id": "C106", "title": "Forwarding over MAVLink is requested every second", "statement": "Forwarding of the selected bus is requested from the autopilot at least once a second and not more often, for the bus selected at the time and addressed to the system known at the time.", "quantifier": "every sequence of events and times", "why_tests_cant": "Needs uninterrupted traffic for more than a second with nothing to send.", "anchors": ["dronecan/driver/mavcan.py:io_process"]}
{"id": "C107", "title": "Frames received over MAVLink come from the selected bus of the addressed system", "statement": "The MAVLink driver reports exactly the frames that the addressed system forwards from the selected bus, in order and once.", "quantifier": "every sequence of messages, senders and bus changes", "why_tests_cant": "Needs a second autopilot or traffic of two buses on one link.", "anchors": ["dronecan/driver/mavcan.py:io_process"]}
{"id": "C108", "title": "The filter asked for is the filter in force", "statement": "After set_filter_list the next request for forwarding gives the autopilot a filter of exactly these identifiers, or none if None was asked for.", "quantifier": "every list of identifiers and history", "why_tests_cant": "All lists, in particular long ones, and all orders of changes.", "anchors": ["dronecan/driver/mavcan.py:io_process", "dronecan/driver/mavcan.py:MAVCAN.set_filter_list"]}
{"id": "C109", "title": "The identifier decoding tool tells the truth", "statement": "For the CAN identifier of any transfer tools/dronecan_msgid_decode.py prints its source, priority and data type id, and for services the destination and whether it is a request.", "quantifier": "every legal transfer header", "why_tests_cant": "All 2^29 identifiers.", "anchors": ["tools/dronecan_msgid_decode.py"]}
{"id": "C110", "title": "A service call works end to end", "statement": "If the frames of a request reach the called node in order and the frames of its reply reach the caller in order before the timeout, the handler registered at the called node is called exactly once with the content that was sent, and the callback of the request exactly once with the content of the answer, whatever else both nodes hear, send or do in between.", "quantifier": "every pair of nodes, histories of both, data types, values, answers, priorities and interleavings of other traffic", "why_tests_cant": "Needs two nodes with arbitrary histories and interleavings of multi-frame traffic.", "anchors": ["dronecan/node.py:Node.request", "dronecan/node.py:Node.respond", "dronecan/node.py:Node._recv_frame", "dronecan/transport.py:TransferManager.receive_frame"]}
{"id": "C111", "title": "A reply goes to the request it answers", "statement": "A reply that is heard before the timeout of its request calls the callback of that request and of no other.", "quantifier": "every history of requests, replies and timeouts", "why_tests_cant": "Needs more unanswered requests of one service than there are transfer ids.", "anchors": ["dronecan/node.py:Node.request", "dronecan/node.py:Node._recv_frame", "dronecan/node.py:Node._next_transfer_id"]}
{"id": "C112", "title": "SocketCAN puts every accepted frame on the bus once and in order", "statement": "Every frame that send_frame of the SocketCAN driver accepts is written to the socket exactly once, in the order of acceptance and readable at the other end, and is handed to the transmit hooks, unless the system reports an error, which is then raised; buffers that are full only delay it.", "quantifier": "every interleaving of the caller with the writer thread, every sequence of frames and of results of the system calls", "why_tests_cant": "Interleavings of two threads and the system running out of buffers at any point.", "anchors": ["dronecan/driver/socketcan.py:SocketCAN._writer_thread_loop", "dronecan/driver/socketcan.py:SocketCAN._check_write_feedback", "dronecan/driver/socketcan.py:SocketCAN.send_frame"]}
{"id": "C113", "title": "python-can puts every accepted frame on the bus once and in order", "statement": "Every frame that send_frame of the python-can driver accepts is given to the bus exactly once, in order, and is handed to the transmit hooks.", "quantifier": "every interleaving of the caller with the writer thread, every sequence of frames and of results of the bus", "why_tests_cant": "Needs the buffers to be full at the moment of the flush.", "anchors": ["dronecan/driver/python_can.py:PythonCAN._writer_thread_loop", "dronecan/driver/python_can.py:PythonCAN.send_frame"]}
{"id": "C114", "title": "What becomes of a frame is reported", "statement": "Once per accepted frame and in order the SocketCAN driver calls the transmit hook or raises the error of writing it; an exception of send_frame is about the frame it was called with.", "quantifier": "every interleaving, every sequence of frames and results", "why_tests_cant": "Reports arrive in later calls, depending on the interleaving.", "anchors": ["dronecan/driver/socketcan.py:SocketCAN._check_write_feedback", "dronecan/driver/socketcan.py:SocketCAN.send_frame"]}
{"id": "C115", "title": "Closing a driver ends its writer and loses nothing", "statement": "After close the writer thread ends whatever the system does, and the frames accepted before are on the bus.", "quantifier": "every interleaving of close with the writer thread", "why_tests_cant": "Needs close at every point of the writer and frames that still wait.", "anchors": ["dronecan/driver/socketcan.py:SocketCAN.close", "dronecan/driver/python_can.py:PythonCAN.close"]}
{"id": "C116", "title": "Only extended data frames reach the node", "statement": "A frame that is reported to the node as an extended one was an extended data frame on the bus.", "quantifier": "every frame on the bus", "why_tests_cant": "Needs foreign equipment on the bus that uses standard or remote frames.", "anchors": ["dronecan/driver/python_can.py:PythonCAN.receive", "dronecan/driver/socketcan.py:SocketCAN._parse_can_frame", "dronecan/node.py:Node._recv_frame"]}
{"id": "C117", "title": "A transfer that cannot be decoded does not disturb the node", "statement": "Frames of transfers that a node cannot decode, because their data type is unknown or their content does not fit, change nothing of what the node does before, between and after them, and spinning goes on.", "quantifier": "every history of a node, every set of identifiers used by such transfers, any interleaving", "why_tests_cant": "All traffic of foreign equipment, interleaved with all uses of the node.", "anchors": ["dronecan/node.py:Node._recv_frame", "dronecan/node.py:Node.spin", "dronecan/transport.py:Transfer.from_frames", "dronecan/transport.py:TransferManager.receive_frame"]}
{"id": "C118", "title": "A node announces itself once per interval", "statement": "A node with an id that is polled broadcasts one NodeStatus per interval, at fixed multiples of the interval after its start, whatever its callbacks do, whatever it receives and whatever the driver raises.", "quantifier": "every history of a node, every clock, behaviour of callbacks and of the driver", "why_tests_cant": "Unbounded running times and arbitrary interference of tasks, timeouts and driver errors.", "anchors": ["dronecan/node.py:Node._send_node_status", "dronecan/node.py:Scheduler.periodic", "dronecan/node.py:Node.__init__"]}
{"id": "C119", "title": "A loaded type is an attribute of the package under its name", "statement": "After load_dsdl a type of full name a.b...Name is found as dronecan.a.b...Name, and whatever is found under a name is the type of that name.", "quantifier": "every set of definition files, every state of the package before, every name", "why_tests_cant": "All trees of namespaces and all sequences of loads; tests only use the distributed types.", "anchors": ["dronecan/__init__.py:load_dsdl", "dronecan/__init__.py:Namespace._path"]}
{"id": "C120", "title": "A transfer survives every chain of links and bridges", "statement": "Whatever drivers, serial adapters, log files and bridges are chained between two nodes, the frames of a transfer come out in order and unchanged, so the handlers at the far end are called with the content that was sent.", "quantifier": "every transfer, every mixture of other traffic, every chain of SocketCAN, multicast, MAVLink, SLCAN, log file and bridge hops, every way a serial stream is cut into reads", "why_tests_cant": "All chains of links and all interleavings; tests only use one driver at a time.", "anchors": ["dronecan/transport.py:Transfer.to_frames", "dronecan/driver/slcan.py:TxWorker._send_frame", "dronecan/driver/mcast.py", "dronecan/driver/mavcan.py", "dronecan/driver/socketcan.py", "dronecan/driver/file.py", "tools/dronecan_bridge.py", "dronecan/node.py:Node._recv_frame"]}
{"id": "C121", "title": "SLCAN writes every accepted frame once and in order, also when it is closed", "statement": "What send_frame and execute_cli_command accept is written to the serial port once each and in order, whatever the interleaving of the two processes; close loses nothing that was accepted before; and the other side reads the same frames.", "quantifier": "every interleaving of the main process, the worker and the receiving thread, every behaviour of the port, all queue capacities", "why_tests_cant": "All interleavings of two processes and all failures of a serial port; tests run without an adapter.", "anchors": ["dronecan/driver/slcan.py:TxWorker", "dronecan/driver/slcan.py:SLCAN.send_frame", "dronecan/driver/slcan.py:SLCAN.close", "dronecan/driver/slcan.py:RetrySerial"]}
{"id": "C122", "title": "What the SLCAN process delivers reaches the program once, in order and in time", "statement": "Over any calls of receive, frames are returned and errors raised once each in the order of arrival; a frame that arrives before the deadline is returned when it arrives; a call ends at most a millisecond after its timeout, and without a frame not before it.", "quantifier": "every sequence of objects and arrival times, every sequence of calls with any timeouts", "why_tests_cant": "All arrival times relative to all deadlines; tests run without an adapter.", "anchors": ["dronecan/driver/slcan.py:SLCAN.receive", "dronecan/driver/slcan.py:SLCAN._check_alive"]}
{"id": "C123", "title": "A device name reaches the driver it is meant for", "statement": "A prefix (slcan:, mcast:, mavcan:, filein:, fileout:) selects that driver with the rest of the name and the caller's arguments; serial ports reach the SLCAN or MAVLink driver; every other name reaches the CAN interface driver and opens that interface; multicast buses with different numbers are different.", "quantifier": "all device names, all keyword arguments, all installed packages and platforms", "why_tests_cant": "All names and arguments, and platforms and packages that are not installed where the tests run.", "anchors": ["dronecan/driver/__init__.py:make_driver", "dronecan/driver/__init__.py:is_mavlink_port", "dronecan/driver/python_can.py:PythonCAN.__init__", "dronecan/driver/mcast.py:io_process"]}
{"id": "C124", "title": "Frames carry the right times", "statement": "A frame that a writer thread reports as transmitted carries the time read after its message was written; a frame received by SLCAN carries the local times of the reading that completed its line, or, if the adapter tells its time, the estimates made for each of the two local clocks; and never a time later than that reading plus the fixed delay.", "quantifier": "all interleavings of caller and writer, all streams, all splittings into readings, all clocks", "why_tests_cant": "The tests run no writer thread and no receiving thread, and the two clocks differ only in the long run.", "anchors": ["dronecan/driver/socketcan.py:_writer_thread_loop", "dronecan/driver/python_can.py:_writer_thread_loop", "dronecan/driver/slcan.py:RxWorker"]}
{"id": "C125", "title": "Multicast sends every accepted frame once and in order", "statement": "Each frame that send_frame of the multicast driver takes goes out as one datagram, in order, whatever the interleaving of the program and the I/O process; the programs of other machines get the frames in the same order, and nothing for damaged datagrams or for what they sent themselves.", "quantifier": "all interleavings of program and process, all answers of the operating system, all numbers of connections", "why_tests_cant": "There are no tests of the driver; failures of the network at particular moments cannot be arranged by a test.", "anchors": ["dronecan/driver/mcast.py:io_process", "dronecan/driver/mcast.py:mcast.send_frame", "dronecan/driver/mcast.py:mcast.receive"]}
{"id": "C126", "title": "The TCP link passes the bytes of both directions unchanged", "statement": "The bytes that the TCP link reads from the socket are sent to the serial device in order and complete, and the bytes from the device are given to the socket in order and complete, each turn of the loop passing on all that waits up to 1024 bytes; the log file holds both streams.", "quantifier": "all answers of the socket, all messages and failures of the node at every turn, all numbers of turns", "why_tests_cant": "There are no tests of the tool; short sends and full sockets depend on the peer and the operating system.", "anchors": ["tools/dronecan_tcplink.py"]}
{"id": "C127", "title": "Motor controllers each get their own index", "statement": "When enumerate_all_esc returns, the nodes of the list are exactly the motor controllers, each once, and the k-th of them was told to set the parameter it indicated to k and to save it, and has confirmed both; indices are given in order and to one node each whatever happens; the function ends when a request stays unanswered or the deadline passes, and returns when all controllers do what they are asked.", "quantifier": "all sets of nodes, all histories of answers, indications and exceptions, in any grouping into calls of spin", "why_tests_cant": "The example has no tests; it depends on the order in which people touch motors and nodes answer.", "anchors": ["examples/esc_enumeration.py"]}
{"id": "C128", "title": "A file read over the bus is the served file", "statement": "A node that asks a file server on another node for the bytes from 0, 256, 512, ... of a file gets, over the real encoding, frames, reassembly and dispatch of both nodes, exactly the bytes of the file in order; when the last chunk is short it has the whole file. A path that leads to no readable file is answered with an error code. Each callback is called once.", "quantifier": "all files up to 2^40 bytes, all paths up to 200 bytes, all numbers of requests, all histories of both nodes before and between, all foreign frames", "why_tests_cant": "A transfer of 258 bytes takes 38 frames and passes a dozen layers; the tests do not connect two nodes.", "anchors": ["dronecan/app/file_server.py", "dronecan/node.py", "dronecan/transport.py"]}
{"id": "C129", "title": "The firmware updater asks until the update begins and ends with it", "statement": "The update program leaves its loop just when the target has been seen in update mode and then in another, and prints the time between; it asks again four seconds after an answer other than 'in progress', never has two requests unanswered, and asks no more once the update has begun; it goes on asking until then.", "quantifier": "all sequences of statuses, answers, timeouts, deferred calls and exceptions", "why_tests_cant": "The example has no tests and needs hardware; what matters is what happens after a frame is lost, which nobody tries.", "anchors": ["examples/firmware_update.py"]}
{"id": "C130", "title": "A node tells the truth about itself", "statement": "The status that a node broadcasts, as the handlers of any other node get it, gives the time since its start to the half second (or the longest that fits) and its health, mode and code, or the nearest that the fields hold; its uptime never goes back; who asks the node for its information gets such a status of that time, with the rest of the information unchanged, and it is the same status as the broadcast one.", "quantifier": "all clocks, times, values of the attributes, node infos and response types; all histories of both nodes before and during the exchange", "why_tests_cant": "Tests look at a status object once; rounding, saturation after long uptimes and what arrives elsewhere after serialisation are not looked at.", "anchors": ["dronecan/node.py"]}
{"id": "C131", "title": "Everything a node sends in sequence is heard once and in order", "statement": "Whatever messages one node broadcasts one after another, of one frame or many, and whatever services it sends and other nodes send in between, if the frames of that node arrive in order then every message reaches every handler for its type at another node, with the content it was broadcast with, once and in the order of the calls, and the handlers get no other message from that node, whatever was heard of it before.", "quantifier": "all data types and values, all priorities and formats, all numbers of broadcasts (transfer ids wrap), all histories of both nodes, all traffic of other nodes between the frames", "why_tests_cant": "Tests receive single transfers into a fresh node; wrapping transfer ids, leftovers of cut transfers and interleaving of long sequences are out of reach.", "anchors": ["dronecan/node.py", "dronecan/transport.py"]}
{"id": "C132", "title": "The MAVLink tunnel carries the client's bytes both ways", "statement": "What the TCP client of the tunnel example sends is broadcast in the fewest Targetted messages of 1 to 120 bytes, in order and complete, and arrives, field for field, at a node across the bus, where a serial port for the tunnel's node reads exactly those bytes; what a port of the node talked to writes is given to the client, in order and complete; after a client has gone the next one is served.", "quantifier": "all byte streams and ways [recv] cuts them, all interleavings of client, messages and failures, all histories and other traffic of both nodes, all widths of the integer fields that hold the numbers", "why_tests_cant": "The example has no tests, and needs a TCP client, two nodes and a bus; the definition of the message is not in the repository.", "anchors": ["examples/mavlink_tunnel.py", "dronecan/transport.py", "dronecan/node.py"]}
{"id": "C133", "title": "Two serial ports over DroneCAN form a serial line", "statement": "If the node of one DroneCANSerial broadcasts the messages of its port, and their frames arrive in order at the node of another DroneCANSerial for it, then the bytes that the second port has read, followed by those in its buffer, are the bytes written to the first, in order, none lost, added or repeated, whatever other traffic there is.", "quantifier": "all sequences of writes that return, reads, speed changes and keep-alive messages, all traffic of other nodes and types, all field widths that hold the numbers", "why_tests_cant": "Tests need two nodes and a bus; chunking, keep-alive messages, transfer ids and interleaving combine without bound.", "anchors": ["dronecan/utility.py", "dronecan/transport.py", "dronecan/node.py"]}
{"id": "C134", "title": "Converting a recorded log writes what was broadcast", "statement": "The program that writes the messages of one type in a recorded log to a file ends, has then given every frame of the log to its node, in order and once, and has written the data of exactly the messages of that type that were broadcast, in order, whatever else is in the log and however the record at the end was cut off.", "quantifier": "all logs, all data types with a byte array, all histories of the node that broadcast and refusals of its driver, all clocks", "why_tests_cant": "There is no log and no test of the example in the repository; the driver, the node's loop, reassembly and decoding have to be taken together over a whole log.", "anchors": ["examples/canlog2gps.py", "dronecan/driver/file.py", "dronecan/node.py", "dronecan/transport.py"]}
{"id": "C135", "title": "The handlers of the node monitor are told every event", "statement": "An update handler registered with the node monitor is called with every new-node, info-update and offline event from its registration to its removal, once and in order, whatever other handlers do; handlers do not change what the monitor lists; a removed handler is not called again; and a closed monitor is silent and keeps its registry.", "quantifier": "all histories of messages, timer ticks, registrations and removals, all behaviours of handlers (functions of all their calls so far) including registering and removing handlers and raising", "why_tests_cant": "The handlers run inside the monitor's own loops over the list they may change and the registry; the repository has no test of them.", "anchors": ["dronecan/app/node_monitor.py:75-112", "dronecan/app/node_monitor.py:121-160"]}
{"id": "C136", "title": "An id that is in use on the bus is not given to another device", "statement": "The dynamic node id server gives an id of a node that is on the bus (listed by the node monitor when the server starts, or heard since) only to the device that has that id: one named by the database, by the node's own info response, or by an earlier allocation of the same id; and it allocates nothing as long as a listed node has neither told who it is nor been asked ten times.", "quantifier": "all databases, all histories of status messages, info responses, requests, timer ticks and allocation messages, in any interleaving", "why_tests_cant": "Tests use the monitor or the server alone; the property is about what the monitor tells the server over the whole history of both.", "anchors": ["dronecan/app/dynamic_node_id.py:83-128", "dronecan/app/dynamic_node_id.py:137-224", "dronecan/app/node_monitor.py:110-160", "dronecan/app/node_monitor.py:162-224"]}
{"id": "C137", "title": "The RTCM dump writes and counts what it hears", "statement": "The file written by the RTCM dump is the data of all messages heard, in order; without --stats one line is printed for each packet in that stream, in order and independent of how the stream was divided into messages; with --stats a report is printed whenever two seconds are over, and the number it gives for a kind of packet is the number of such packets since the last report.", "quantifier": "all decoders that do not raise, all sequences of messages, all clock readings", "why_tests_cant": "The counts depend on the whole history of packets, on where messages cut packets, and on the readings of the clock.", "anchors": ["examples/rtcm_dump.py:34-84"]}
{"id": "C138", "title": "Every gap between the fixes of a GPS is printed", "statement": "The gap detector prints a line for a fix exactly if it comes more than the threshold after the previous fix of the same node (if only one node is wanted, of that node), and the line tells the node, the gap and the average interval of that node.", "quantifier": "all sequences of fixes of all nodes, all time stamps, all thresholds", "why_tests_cant": "The fixes of several nodes interleave arbitrarily, and the average depends on the whole history.", "anchors": ["examples/fix2_gap.py:25-38"]}
{"id": "C139", "title": "Log messages sent over the bus are logged", "statement": "Every log message (level, source, text in UTF-8) that a node broadcast is given to the logger by the log message monitor of another node, once and in order, at its level, in a line that tells the sender, source and text; nothing else is logged for that sender.", "quantifier": "all log messages, all other traffic and activity of both nodes, all refusals by the driver of the sender", "why_tests_cant": "The claim composes encoding, splitting, reassembly, dispatch and decoding of text over all histories.", "anchors": ["dronecan/app/log_message_monitor.py:17-27", "dronecan/transport.py:470-473"]}
{"id": "C140", "title": "The handlers of a node are those added and not removed", "statement": "After any history the handlers registered with a node are exactly those that were added and not removed since, by their remover or by type, in the order of addition; removing one that is gone raises ValueError and leaves the others alone.", "quantifier": "all histories of operations, polls, incoming frames and clock readings; for the effect of a single operation also all behaviours of user code", "why_tests_cant": "Tests add and remove a few handlers; the claim is an equivalence over all interleavings of additions, removals, traffic and polls.", "anchors": ["dronecan/node.py:128-203", "dronecan/node.py:386-407"]}
{"id": "C141", "title": "An exception of a task ends its poll and loses no other task", "statement": "When a task or timeout callback raises during a poll, the poll raises and calls nothing after it; every task and pending timeout that the poll has not called is still in the queue for the next poll.", "quantifier": "all histories before the poll, all behaviours of user code (for the second part: those that remove no task), all drivers and clocks", "why_tests_cant": "Tests let at most one callback raise; the claim ranges over all queues, histories and callbacks that act on the node.", "anchors": ["dronecan/node.py:33-107", "dronecan/node.py:409-450"]}
{"id": "C142", "title": "Frames over MAVLink go out as they were given", "statement": "Frames given to the driver are written to the link in order and once, save those still in the queue; each on the bus, and signed with the key, that was set when the frame was given, whatever is set later and however often the link is lost.", "quantifier": "all sequences of calls of user code, steps of the I/O process, receptions and reconnections, all hash functions", "why_tests_cant": "Needs a statement about every interleaving of two processes and a queue between them.", "anchors": ["dronecan/driver/mavcan.py:38-171", "dronecan/driver/mavcan.py:247-297"]}
{"id": "C143", "title": "With a passphrase in the environment MAVLink traffic is signed", "statement": "If DRONECAN_SIGNING_KEY is set when the driver is created, every message written to the link is signed; and after a passphrase is set signing goes on over new connections, with the key of a passphrase that was set.", "quantifier": "all passphrases, histories of calls, steps of the I/O process and losses of the link", "why_tests_cant": "The unsigned message is written by another process before the key can arrive; tests do not look at signatures.", "anchors": ["dronecan/driver/mavcan.py:49-62", "dronecan/driver/mavcan.py:107-122", "dronecan/driver/mavcan.py:219-222"]}
{"id": "C144", "title": "The MAVLink driver reports the bus and filter in use", "statement": "get_bus and get_filter_list return what was set last by a call that returned.", "quantifier": "all histories", "why_tests_cant": "The queue of 1000 elements has to be full at the moment of the call.", "anchors": ["dronecan/driver/mavcan.py:261-283"]}
{"id": "C145", "title": "Closing the MAVLink driver", "statement": "close ends the I/O process, frames given before it are written first, and it can be called again.", "quantifier": "all histories", "why_tests_cant": "Depends on how two processes interleave.", "anchors": ["dronecan/driver/mavcan.py:124-137", "dronecan/driver/mavcan.py:224-230"]}
{"id": "C146", "title": "Frames from a socket carry the time of their reception", "statement": "The monotonic time stamp of a frame from a socket is the time at which the kernel received it: it is never in the future, keeps the order of the kernel's stamps, and is not moved by setting the system clock.", "quantifier": "all sequences of frames and readings of the two clocks, with a monotonic clock that does not go back", "why_tests_cant": "Needs clocks that are set, drift and are read with arbitrary delays between the two readings.", "anchors": ["dronecan/driver/socketcan.py:203-220", "dronecan/driver/socketcan.py:272-306", "dronecan/driver/timestamp_estimator.py:80-188"]}
{"id": "C147", "title": "Playback of a log tells how far it is", "statement": "The end of a log being played back is reported once all frames were delivered and not before; the progress is a percentage that never falls, tells the share delivered, and is 100 only when everything was delivered.", "quantifier": "all logs, also cut off in a header; all sequences of calls with any times and timeouts; for range and monotonicity all files", "why_tests_cant": "Depends on the content of the file and on every pattern of calls and waiting times.", "anchors": ["dronecan/driver/file.py:67-93", "dronecan/driver/file.py:123-160"]}
{"id": "C148", "title": "A spinning node wakes up for its next task", "statement": "Whenever a spinning node waits for a frame, the wait ends no later than the next scheduled event and the end of spinning, and it does not end before one of them, or a second, or a frame.", "quantifier": "all reachable states of a node, all clocks, user code, drivers and deadlines", "why_tests_cant": "The timeout depends on the queue after arbitrary tasks have run and on the times of three readings of the clock.", "anchors": ["dronecan/node.py:103-110", "dronecan/node.py:409-449"]}
{"id": "C149", "title": "A transfer hook sees every transfer of a node and cannot disturb it", "statement": "Every hook is called with every transfer that the node sends or receives from its registration on, once, in order and before the transfer is sent or handled; a hook that raises stops neither other hooks nor the transfer; and what a hook at one end is shown as sent, a hook at the other end is shown as received.", "quantifier": "all behaviours of hooks (registering, removing, raising), all histories of transfers and frames, all drivers", "why_tests_cant": "All patterns of hooks that raise and change the list of hooks, at all points of multi-frame transfers.", "anchors": ["dronecan/node.py:TransferHookDispatcher", "dronecan/node.py:327-332", "dronecan/node.py:454-473", "dronecan/node.py:507-521", "dronecan/node.py:532-543"]}
{"id": "C150", "title": "Comparing an array with a list, a text or an array compares the contents", "statement": "`==` on an array of a message never raises; it holds between an array and a list or another array iff their contents are equal, and between an array of bytes and a text iff the array holds the UTF-8 form of the text; equal arrays of one type encode to the same bits.", "quantifier": "all arrays, lists, texts and objects, all element types and contents", "why_tests_cant": "All contents of all arrays, in particular all byte sequences that are not UTF-8 and all floating point bit patterns.", "anchors": ["dronecan/transport.py:385-389", "dronecan/transport.py:363-367"]}
{"id": "C151", "title": "Every message that a program builds can be sent", "statement": "Whatever a program does with messages through their API, whichever operations raise, the resulting message can be encoded, fits the declared maximum length, and the receiver decodes exactly its content.", "quantifier": "all sets of types, all programs (sequences of API operations with any arguments, exceptions caught), all objects they build", "why_tests_cant": "All programs over all types: every field keeps its exact number of bits through every operation, also those that fail half way.", "anchors": ["dronecan/transport.py:285-345", "dronecan/transport.py:363-470", "dronecan/transport.py:489-640"]}
{"id": "C152", "title": "Handlers read from received messages what senders wrote", "statement": "A received message becomes a new object that holds exactly what decoding the payload gives and shares nothing with other objects; reading it along any path of fields, constants and items gives the handler what the same path gives the sender: the same numbers, texts, lengths and exceptions; received messages can be changed and sent on.", "quantifier": "all sets of types, all histories of sender and receiver (API operations mixed with received messages, exceptions caught), all message objects, all paths of attributes and indices", "why_tests_cant": "Ranges over all types, all programs on both sides and all access paths; sharing between objects and union states depend on the whole history.", "anchors": ["dronecan/transport.py:254-270", "dronecan/transport.py:413-436", "dronecan/transport.py:489-613", "dronecan/transport.py:868-869"]}
{"id": "C153", "title": "Keyword arguments of the constructor are assignments", "statement": "Making a message with keyword arguments is the same as making it and assigning the fields one after the other: what is accepted is in the message, the first refusal is raised, names with an underscore in front raise NameError, a union takes one field only.", "quantifier": "all types, all lists of keyword arguments, all heaps", "why_tests_cant": "All types and argument lists of any length; the order and the point of failure matter.", "anchors": ["dronecan/transport.py:477-519"]}
{"id": "C154", "title": "The ESC control program sends what the command line says", "statement": "Each command of examples/hobbywing_esc.py, given as many numbers as it asks for, sends a message of its type whose fields hold these numbers (for bit rates and report rates, the constants that stand for them), and all other fields their defaults; with fewer arguments or a bit rate or report rate that is not offered it prints what is valid and sends nothing; nothing is sent if an argument is no number.", "quantifier": "all commands, all argument lists, all definitions of the message types, all heaps", "why_tests_cant": "Every argument list of every length, and any definition of the vendor types, which are not in the repository.", "anchors": ["examples/hobbywing_esc.py:30-246"]}
{"id": "C155", "title": "Numbers written to fields and arrays read as what the type can hold", "statement": "A number assigned to a field, inserted in, appended to or assigned to an index of an array, or given in a list assigned to an array field, reads as what the type can hold of it: the nearest number of a saturated type, the number modulo the width of a truncated integer type, the correctly rounded number of a float type (the largest or infinity beyond it), and whether it is zero for booleans; a float given to an integer type becomes the end of the range when it is beyond the range of a saturated type, and is refused otherwise; other fields, items and objects stay as they are; and the receiver of the message reads the same number.", "quantifier": "all numbers, field types, cast modes, objects, arrays, indices, and programs before it on both sides", "why_tests_cant": "Every number of every width and cast mode at every place of every object.", "anchors": ["dronecan/transport.py:276-333", "dronecan/transport.py:363-409", "dronecan/transport.py:547-603"]}
{"id": "C156", "title": "Loading definitions raises nothing but DsdlException", "statement": "Whatever files there are and whatever they contain, parse_namespaces, parse and parse_source raise no exception other than DsdlException.", "quantifier": "all files, contents, search directories, depths of nesting", "why_tests_cant": "Every text that is no definition, every file name that is malformed.", "anchors": ["dronecan/dsdl/parser.py:432-459", "dronecan/dsdl/parser.py:638-734", "dronecan/dsdl/parser.py:818-888"]}
{"id": "C157", "title": "The example programs broadcast what they say", "statement": "Every call of a publisher of the examples broadcasts messages that hold the numbers it writes, in the fields it names, with defaults in all other fields: the servo and range finder simulators, the battery simulator with a voltage for each of the cells, the servo control with the actuator given on the command line, and the ESC control with four set points, after the safety message if asked for, and the CAN FD example with three pairs of texts, and the MAVLink tunnel with its status.", "quantifier": "all definitions of the message types that have the fields, all numbers for them, all heaps", "why_tests_cant": "Every number and every number of cells, and definitions that have other widths or capacities.", "anchors": ["examples/sim_servo.py:17-34", "examples/sim_rangefinder.py:23-44", "examples/sim_battery.py:20-45", "examples/servo_control.py:15-51", "examples/esc_control.py:17-32", "examples/canfd_msg.py:27-39", "examples/mavlink_tunnel.py:38-48"]}
{"id": "C158", "title": "The examples go on when another node is online", "statement": "The example programs that wait for at least one other node go on after the first call of spin at whose end another node is listed, and not before; the nodes counted are different ones that have been heard, and the firmware example updates the node given on the command line or one of those heard.", "quantifier": "all sequences of calls of spin, with all that the node monitor can see during each", "why_tests_cant": "Every order of statuses, replies, timers and nodes going stale, over any number of calls.", "anchors": ["examples/esc_control.py:43-49", "examples/esc_enumeration.py:145-151", "examples/hobbywing_esc.py:19-27", "examples/firmware_update.py:51-64", "dronecan/app/node_monitor.py:133-135"]}
{"id": "C159", "title": "The node info is asked for at the rate given", "statement": "The example that asks a node for its info again and again asks once each time the period given by the rate has passed, and not more often, whatever else the node does meanwhile and whatever exceptions are raised and printed.", "quantifier": "all executions of a node (frames, timers, handlers, failures of the driver), all steady clocks, all readings of the time of day, all numbers of turns", "why_tests_cant": "Every interleaving of replies, exceptions and changes of the time of day; last_req is never updated, so that the rate depends on spin alone.", "anchors": ["examples/get_nodeinfo.py:23-38", "dronecan/node.py:409-499"]}
{"id": "C160", "title": "The ESC nodes found are those that send the status", "statement": "detect_esc_nodes of the ESC enumeration example returns exactly the nodes that send a status message while it spins, whatever else they and other nodes send, and its handler is gone afterwards, also if spin raises.", "quantifier": "all nodes in all reachable states, all frames received and failures of the driver, all times and clocks, all transfers of the sending nodes and all interleavings with those of others", "why_tests_cant": "Every interleaving of multi-frame transfers from several nodes, and every way in which spin can fail between adding and removing the handler.", "anchors": ["examples/esc_enumeration.py:15-28", "dronecan/node.py:131-203"]}
{"id": "C161", "title": "find_all of the node monitor finds all entries", "statement": "find_all of the node monitor produces every listed entry for which the predicate holds, once and in order, also if the monitor goes on while the entries are taken one by one; so are_all_nodes_discovered tells whether each listed node has told its info or has no attempt left.", "quantifier": "all executions of the monitor, all predicates, all events that come in between two entries", "why_tests_cant": "Every interleaving of the consumer of the generator with changes of the registry.", "anchors": ["dronecan/app/node_monitor.py:137-149"]}
{"id": "C162", "title": "The text of a frame tells what is in it", "statement": "Frames that are printed in the same way have the same identifier, format and data; whatever the data, the text is one line of printable characters and ends with the data as characters, with dots for those that cannot be printed.", "quantifier": "all frames that can be on a bus, all data (for the line and the characters: all frames)", "why_tests_cant": "All identifiers, lengths and bytes, of both formats; padding and separators must not make two frames look the same.", "anchors": ["dronecan/driver/common.py:42-54"]}

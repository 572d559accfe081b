{"id": "C01", "title": "Fixed-width integers and booleans survive the wire", "statement": "For every int8, int16, int32, int64 and bool value, writing it with the Encoder emits exactly 1, 2, 4, 8 and 1 bytes, big-endian two's complement, and a Decoder positioned on those bytes returns the same value and advances by exactly that many bytes, whatever follows in the buffer.", "quantifier": "all values of each integer type (including the minimum), both booleans, all buffers and positions", "why_tests_cant": "2^64 values times all buffer positions; the unit tests try two values per type", "anchors": [{"file": "message/encoder.go", "symbols": ["PutBool", "PutInt8", "PutInt16", "PutInt32", "PutInt64"]}, {"file": "message/decoder.go", "symbols": ["Bool", "Int8", "Int16", "Int32", "Int64"]}]}
{"id": "C02", "title": "Strings, byte arrays and primitive arrays survive the wire", "statement": "For every string of at most 32767 bytes, every []byte, []int32, []int64 and []string of at most 2^31-1 elements, decoding what was encoded returns the same contents, consumes exactly the emitted bytes, and preserves the nil/empty distinction for []int32, []int64 and []string (for []byte nil comes back as empty).", "quantifier": "all lengths and contents within the limits, nil and empty slices, all buffer contexts", "why_tests_cant": "unbounded lengths and contents", "anchors": [{"file": "message/encoder.go", "symbols": ["PutString", "PutBytes", "PutInt32Array", "PutInt64Array", "PutStringArray"]}, {"file": "message/decoder.go", "symbols": ["String", "Bytes", "Int32Array", "Int64Array", "StringArray"]}]}
{"id": "C03", "title": "Variable-length integers survive the wire", "statement": "For every int64, PutVarInt emits between 1 and 10 bytes (never more than the 16-byte scratch buffer) which VarInt reads back as the same int64, advancing by exactly the emitted length; small magnitudes are short: a value v with -2^(7k-1) <= v < 2^(7k-1) takes at most k bytes.", "quantifier": "all 2^64 int64 values, all buffer contexts", "why_tests_cant": "2^64 values; boundaries at every power of 128", "anchors": [{"file": "message/encoder.go", "symbols": ["PutVarInt"]}, {"file": "message/decoder.go", "symbols": ["VarInt"]}, {"file": "message/sizeof/sizeof.go", "symbols": ["VarInt"]}]}
{"id": "C04", "title": "Length-prefixed var strings, var bytes and record headers survive the wire", "statement": "For every valid UTF-8 string (and every byte slice) what PutVarString / PutVarBytes / PutRecordHeader emit is read back identically by VarString / VarBytes, consuming exactly the emitted bytes. For a string that is not valid UTF-8 the bytes emitted differ from the announced length, so the stream is corrupt.", "quantifier": "all valid UTF-8 strings of any length and all byte slices; the failure direction: every invalid string", "why_tests_cant": "unbounded strings over all code points", "anchors": [{"file": "message/encoder.go", "symbols": ["PutVarString", "PutVarBytes", "PutRecordHeader"]}, {"file": "message/decoder.go", "symbols": ["VarString", "VarBytes"]}]}
{"id": "C05", "title": "sizeof functions report the exact encoded length", "statement": "For every value, sizeof.Bool/Int8/Int16/Int32/Int64/Bytes/String/Int32Array/Int64Array/StringArray/VarInt/VarBytes/VarString equals (as an int32) the number of bytes the matching Encoder method emits (VarString: for valid UTF-8).", "quantifier": "all values of all supported field types, all lengths (int32 wrap-around included)", "why_tests_cant": "unbounded values; a frame is mis-delimited if any single one is off by one", "anchors": [{"file": "message/sizeof/sizeof.go", "symbols": ["Bytes", "Int32Array", "Int64Array", "String", "StringArray", "VarBytes", "VarInt", "VarString"]}, {"file": "message/encoder.go", "symbols": ["Encoder"]}]}
{"id": "C06", "title": "Nullable strings keep null distinct from empty", "statement": "PutNullableString of nil followed by NullableString returns nil, and of a pointer to s returns a pointer to s.", "quantifier": "nil and all strings of at most 32767 bytes", "why_tests_cant": "must hold for every string and for nil in every buffer context", "anchors": [{"file": "message/encoder.go", "symbols": ["PutNullableString"]}, {"file": "message/decoder.go", "symbols": ["NullableString"]}]}
{"id": "C07", "title": "No silent length corruption", "statement": "Encoding never silently emits a length prefix that disagrees with the data that follows: either the encoded string/array decodes to itself or the encoder reports an error.", "quantifier": "all strings and arrays of every length, including beyond 32767 bytes", "why_tests_cant": "needs arbitrarily long inputs", "anchors": [{"file": "message/encoder.go", "symbols": ["PutString", "PutArrayLength", "Flush"]}]}
{"id": "C08", "title": "Write errors are sticky", "statement": "Once a write to the underlying writer has failed, no Put method writes anything more to it, and Flush returns that first error, for every later sequence of Put calls.", "quantifier": "every writer behaviour (any failure point), every sequence of Put calls with any arguments", "why_tests_cant": "failure may strike at any write of any call sequence", "anchors": [{"file": "message/encoder.go", "symbols": ["Encoder", "Flush", "PutBytes", "PutVarBytes", "PutVarString"]}]}
{"id": "C09", "title": "Encoded output is independent of the history of the encoder", "statement": "With a writer that does not fail, the bytes a Put call or a message Encode emits depend only on its arguments, are appended after everything written before, and leave earlier output unchanged.", "quantifier": "all messages, versions, and all prior call sequences", "why_tests_cant": "all histories", "anchors": [{"file": "message/encoder.go", "symbols": ["Encoder"]}, {"file": "message/messages.gen.go", "symbols": ["Encode"]}]}
{"id": "C10", "title": "Decoder never consumes past its length, and says so", "statement": "On a Decoder whose length lies inside its buffer, every fixed-width read, String, Bytes, Discard and array read either succeeds within the first length bytes or returns an error satisfying IsInsufficientDataError (with negative length prefixes the only other outcome); a failed fixed-width read leaves the position unchanged.", "quantifier": "all buffers, lengths, positions and byte contents", "why_tests_cant": "all byte strings at all offsets", "anchors": [{"file": "message/decoder.go", "symbols": ["remains", "Int8", "Int16", "Int32", "Int64", "Bool", "Bytes", "String", "Discard", "IsInsufficientDataError"]}]}
{"id": "C11", "title": "Varint overflow is detected", "statement": "VarInt on a byte sequence that encodes more than 64 bits reports an overflow error and makes no further reads possible.", "quantifier": "all byte sequences", "why_tests_cant": "overlong encodings at every position", "anchors": [{"file": "message/decoder.go", "symbols": ["VarInt", "errVarIntOverflow"]}]}
{"id": "C12", "title": "Decoding depends only on the frame", "statement": "The outcome of decoding depends only on the bytes between the position and the length of the Decoder: stale bytes before the position or past the length of the reused buffer (left by an earlier, longer response) never influence any result.", "quantifier": "all primitive decoders and all generated message decoders, all versions, all pairs of buffers agreeing on the frame", "why_tests_cant": "quantifies over pairs of buffers", "anchors": [{"file": "message/decoder.go", "symbols": ["Decoder", "Reset"]}, {"file": "message/messages.gen.go", "symbols": ["Decode"]}, {"file": "gen.conn.go", "symbols": ["messageLoop"]}]}
{"id": "C13", "title": "Decoding never panics on hostile bytes", "statement": "No byte sequence received from a broker makes a decode method panic.", "quantifier": "all byte sequences, all message types and versions", "why_tests_cant": "adversarial inputs of any length", "anchors": [{"file": "message/decoder.go", "symbols": ["Bytes", "String", "Int32Array", "Int64Array", "StringArray", "VarBytes", "VarString"]}, {"file": "message/messages.gen.go", "symbols": ["Decode"]}]}
{"id": "C14", "title": "Announced size equals encoded size for every message", "statement": "For each of the 218 generated message types, every value and every version, Size(version) equals (as int32) the number of bytes Encode(version) emits.", "quantifier": "all 218 message types, all int16 versions, all field values, all nesting and array lengths", "why_tests_cant": "product of 218 types, 2^16 versions and unbounded values; one missed version guard corrupts the stream", "anchors": [{"file": "message/messages.gen.go", "symbols": ["Size", "Encode"]}, {"file": "message/sizeof/sizeof.go", "symbols": ["sizeof"]}]}
{"id": "C15", "title": "Every message round-trips at every version", "statement": "For each of the 218 generated message types, every version and every value whose strings/arrays fit their length prefix, Decode of Encode succeeds, returns exactly the fields carried at that version (others stay zero), and consumes exactly the emitted bytes whatever follows.", "quantifier": "all 218 message types, all int16 versions, all values within the length limits, any trailing bytes", "why_tests_cant": "product space is unbounded; the repo has no test of any message", "anchors": [{"file": "message/messages.gen.go", "symbols": ["Encode", "Decode"]}]}
{"id": "C16", "title": "Truncated messages are reported as insufficient data", "statement": "Decoding any proper prefix of an encoded message returns an error satisfying IsInsufficientDataError; it neither panics nor returns a message.", "quantifier": "all 218 message types, all versions, all values within limits, every truncation point", "why_tests_cant": "every cut point of every encoding", "anchors": [{"file": "message/messages.gen.go", "symbols": ["Decode"]}, {"file": "message/decoder.go", "symbols": ["IsInsufficientDataError"]}]}
{"id": "C17", "title": "Encodings are self-delimiting and injective", "statement": "Two messages of one type whose encodings at a version are equal, or one a prefix of the other, carry the same fields; a concatenation of encoded messages decodes into exactly that sequence.", "quantifier": "all pairs and all finite sequences of messages of each type and version", "why_tests_cant": "quantifies over pairs and sequences of unbounded messages", "anchors": [{"file": "message/messages.gen.go", "symbols": ["Encode", "Decode"]}]}
{"id": "C18", "title": "Wire layout follows the declared schema", "statement": "At every version, Encode emits exactly the fields whose version range contains the version, in declaration order, each in its protocol representation (array = int32 count followed by elements), and nothing else.", "quantifier": "all 218 types, all versions, all values", "why_tests_cant": "any field/version combination could be missing, duplicated or swapped", "anchors": [{"file": "message/messages.gen.go", "symbols": ["Encode"]}]}
{"id": "C19", "title": "A failing connection receives only a prefix of the message", "statement": "If the writer fails in the middle of encoding a message, the data handed to the writer is a prefix of the message's encoding ending with the failed write, nothing follows, and Flush reports the failure.", "quantifier": "all message types, values, versions, and all failure points of the writer", "why_tests_cant": "every write index may fail", "anchors": [{"file": "message/messages.gen.go", "symbols": ["Encode"]}, {"file": "message/encoder.go", "symbols": ["Encoder", "Flush"]}]}
{"id": "C20", "title": "Every request frame is correctly delimited", "statement": "For each of the 48 Broker methods the bytes written are a 4-byte size, then exactly that many bytes: request header (api key of the method, negotiated version, correlation id, client id) followed by the request encoded at the negotiated version.", "quantifier": "all 48 API methods, all requests whose total size fits int32, all negotiated versions, all correlation ids", "why_tests_cant": "a wrong size desynchronises the connection; unbounded requests", "anchors": [{"file": "gen.broker.go", "symbols": ["Produce", "Fetch", "Metadata", "OffsetDelete"]}, {"file": "message/messages.gen.go", "symbols": ["RequestHeader"]}]}
{"id": "C21", "title": "A request is answered at the version it was sent", "statement": "For each of the 48 Broker methods the response is decoded with the response type of the same API and with the same version that was put in the request header, so that a broker answering at that version is understood for every response value.", "quantifier": "all 48 API methods, versions and responses", "why_tests_cant": "48 methods times all versions and responses", "anchors": [{"file": "gen.broker.go", "symbols": ["Broker"]}, {"file": "message/messages.gen.go", "symbols": ["Decode"]}]}
{"id": "C22", "title": "A negotiated version is supported by both sides", "statement": "When NewBroker's negotiation succeeds, for every API the broker advertised the version in use lies within the broker's advertised range and within the range this library supports.", "quantifier": "all advertised lists (any length, order, duplicates), all int16 min/max", "why_tests_cant": "all lists of ranges", "anchors": [{"file": "gen.broker.go", "symbols": ["negotiateApiVersions", "matchVersion"]}]}
{"id": "C23", "title": "Negotiation succeeds whenever versions overlap", "statement": "If for every advertised API the broker's range and the library's range intersect, negotiation succeeds, and picks the highest common version.", "quantifier": "all advertised lists", "why_tests_cant": "all ranges", "anchors": [{"file": "gen.broker.go", "symbols": ["negotiateApiVersions", "matchVersion"]}]}
{"id": "C24", "title": "Negotiation terminates", "statement": "Version negotiation returns for every broker answer.", "quantifier": "all int16 min/max pairs advertised", "why_tests_cant": "a looping input is a single point among 2^32 pairs", "anchors": [{"file": "gen.broker.go", "symbols": ["matchVersion"]}]}
{"id": "C25", "title": "Only advertised APIs are used; later entries win", "statement": "After successful negotiation an API the broker did not advertise is left at version 0, unknown API keys are ignored, the result for an API depends only on the last entry for its key, and reordering entries with distinct keys does not change the result.", "quantifier": "all advertised lists and permutations", "why_tests_cant": "all permutations of all lists", "anchors": [{"file": "gen.broker.go", "symbols": ["negotiateApiVersions", "apiVersion"]}]}
{"id": "C26", "title": "API keys are consistent", "statement": "The 48 API keys are pairwise distinct and 0..47, each Broker method sends its own key, each key negotiates the version used by the method sending that key, and negotiates it within the version range its messages declare.", "quantifier": "all 48 APIs", "why_tests_cant": "cross-table consistency that no unit test enumerates", "anchors": [{"file": "message/keys.go", "symbols": ["KeyProduce", "KeyOffsetDelete"]}, {"file": "gen.broker.go", "symbols": ["negotiateApiVersions", "Broker"]}]}
{"id": "C27", "title": "Ring buffer delivers bytes first-in first-out", "statement": "For one writer and one reader running concurrently, the concatenation of the bytes returned by ReadN calls is always a prefix of the concatenation of the bytes passed to WriteN: nothing is lost, duplicated, reordered, invented or overwritten.", "quantifier": "all buffer sizes, all sequences of WriteN/ReadN calls, all interleavings of their atomic steps", "why_tests_cant": "depends on the schedule; the stress test sees a handful of interleavings", "anchors": [{"file": "ring/buffer.go", "symbols": ["WriteN", "ReadN", "mutex"]}]}
{"id": "C28", "title": "Ring buffer used sequentially is a bounded queue", "statement": "When calls do not overlap, WriteN of n bytes with occupancy + n <= size-2 and ReadN of n bytes with n <= occupancy never block and behave exactly like append/take on a FIFO queue, for every sequence of calls, including wrap-around.", "quantifier": "all sizes from 2 to 2^31-1, all call sequences within the occupancy bounds", "why_tests_cant": "all sequences and wrap-around offsets", "anchors": [{"file": "ring/buffer.go", "symbols": ["New", "WriteN", "ReadN", "incr"]}]}
{"id": "C29", "title": "Ring buffer never deadlocks", "statement": "While the ring is open, reader and writer are never both blocked, and a reader blocked on an empty ring is woken by any later write.", "quantifier": "all interleavings of all call sequences", "why_tests_cant": "a lost wake-up needs one precise interleaving", "anchors": [{"file": "ring/buffer.go", "symbols": ["Wait", "Release", "WriteN", "ReadN"]}]}
{"id": "C30", "title": "Closing the ring unblocks everyone", "statement": "After Close no WriteN or ReadN call stays blocked: every call in progress and every later call returns after finitely many of its own steps.", "quantifier": "all states reachable by any interleaving at the moment of Close, all later schedules", "why_tests_cant": "Close may hit any intermediate state", "anchors": [{"file": "ring/buffer.go", "symbols": ["Close", "Wait", "Release"]}]}
{"id": "C31", "title": "Ring positions stay in range", "statement": "start and next always index inside the buffer and no access is out of bounds, for every schedule, even after Close, as long as callers pass n no larger than their slice and 1 <= size < 2^31.", "quantifier": "all sizes from 1 to 2^31-1, all schedules", "why_tests_cant": "all interleavings", "anchors": [{"file": "ring/buffer.go", "symbols": ["incr", "WriteN", "ReadN"]}]}
{"id": "C32", "title": "Correlation ids are unique among outstanding calls", "statement": "Concurrent Do calls on one connection get pairwise distinct correlation ids as long as fewer than 2^32 calls have been issued; the ids wrap around int32 after that.", "quantifier": "all interleavings of any number of callers", "why_tests_cant": "needs 2^32 calls / all interleavings", "anchors": [{"file": "gen.conn.go", "symbols": ["Do"]}]}
{"id": "C33", "title": "A reply reaches exactly the call that asked", "statement": "A Do call returns only after a frame carrying its own correlation id was received, its result is the decoding of that very frame, and each call receives at most one reply; frames with unknown, repeated or already answered ids disturb no call.", "quantifier": "all interleavings of callers, message loop and broker; all frame contents and orders, including hostile ones", "why_tests_cant": "all interleavings and all response orders", "anchors": [{"file": "gen.conn.go", "symbols": ["Do", "messageLoop", "request"]}]}
{"id": "C34", "title": "A response can never overtake its registration", "statement": "If the broker answers a request only after having received it, the call is already registered when its response is processed, so no solicited response is ever dropped, and once the response has been processed the call can complete.", "quantifier": "all interleavings, all broker answer orders", "why_tests_cant": "race between registration and reply", "anchors": [{"file": "gen.conn.go", "symbols": ["Do", "messageLoop"]}]}
{"id": "C35", "title": "Concurrent requests are not interleaved on the wire", "statement": "For any number of concurrent Do calls the bytes sent are a concatenation of whole request frames, in the order the calls obtained the write lock, each call's frame at most once.", "quantifier": "all interleavings, all numbers of callers", "why_tests_cant": "interleavings of byte-level writes", "anchors": [{"file": "gen.conn.go", "symbols": ["Do", "writeLock"]}]}
{"id": "C36", "title": "Responses are framed independently of TCP segmentation", "statement": "The sequence of responses seen by callers depends only on the byte stream sent by the broker, not on how the network splits it into reads.", "quantifier": "all streams of frames and all ways of cutting them into chunks", "why_tests_cant": "all segmentations and schedules", "anchors": [{"file": "gen.conn.go", "symbols": ["readLoop", "messageLoop"]}, {"file": "ring/buffer.go", "symbols": ["WriteN", "ReadN"]}]}
{"id": "C37", "title": "Malformed frames do not take the connection down", "statement": "A frame with any size field (negative, zero, short, or larger than the receive buffer) and any content is skipped or reported to its caller; the client keeps running and later frames are still delivered.", "quantifier": "all size fields and contents", "why_tests_cant": "adversarial sizes", "anchors": [{"file": "gen.conn.go", "symbols": ["messageLoop"]}, {"file": "message/decoder.go", "symbols": ["Reset"]}]}
{"id": "C38", "title": "Calls fail when the connection is lost or closed", "statement": "After the connection breaks or Close is called, every outstanding Do call returns with an error.", "quantifier": "all schedules and all points at which the connection is lost", "why_tests_cant": "crash point may be anywhere", "anchors": [{"file": "gen.conn.go", "symbols": ["Do", "readLoop", "Close"]}]}
{"id": "C39", "title": "After a write failure the connection is fail-stop", "statement": "Once a request could not be written, every later Do on the connection returns that error without sending anything.", "quantifier": "all writer failure points, all later calls", "why_tests_cant": "all failure points", "anchors": [{"file": "gen.conn.go", "symbols": ["Do"]}, {"file": "message/encoder.go", "symbols": ["Flush", "Encoder"]}]}
{"id": "C40", "title": "A returned response is never altered later", "statement": "Byte fields of a response returned to a caller keep their contents forever, whatever traffic follows on the connection.", "quantifier": "all responses and all later traffic", "why_tests_cant": "needs later traffic of arbitrary content", "anchors": [{"file": "message/decoder.go", "symbols": ["Bytes"]}, {"file": "gen.conn.go", "symbols": ["messageLoop"]}]}
{"id": "C41", "title": "DialLeader connects to the partition's leader", "statement": "DialLeader(topic, partition) dials exactly host:port of the broker whose node id is the leader id of that partition of that topic in the metadata answer, and fails with an error when topic, partition or node is absent.", "quantifier": "all metadata answers (any topics, partitions, brokers, order), all topic names and partitions", "why_tests_cant": "all metadata shapes", "anchors": [{"file": "client.go", "symbols": ["DialLeader", "findTopic", "findPartition", "dialNode"]}]}
{"id": "C42", "title": "Bootstrap tries servers in order", "statement": "Metadata and the Dial methods use the first bootstrap server that can be connected to, return the last connect error if none can, and do not contact any server after the first usable one.", "quantifier": "all bootstrap lists and all patterns of unreachable servers", "why_tests_cant": "all reachability patterns", "anchors": [{"file": "client.go", "symbols": ["dialBootstrap", "Metadata"]}]}
{"id": "C43", "title": "No usable bootstrap server is an error", "statement": "Whenever no bootstrap server could be contacted (including an empty list) the operation returns an error rather than an empty result.", "quantifier": "all bootstrap lists", "why_tests_cant": "all lists", "anchors": [{"file": "client.go", "symbols": ["dialBootstrap", "Metadata", "dialCoordinator"]}]}
{"id": "C44", "title": "No connection is leaked", "statement": "When a Client operation returns, the only connection left open is the one inside the Broker it returned, if any.", "quantifier": "all environments (reachability, broker answers, failures)", "why_tests_cant": "all failure combinations", "anchors": [{"file": "client.go", "symbols": ["dialBootstrap", "DialController", "Metadata"]}, {"file": "gen.broker.go", "symbols": ["NewBroker"]}]}
{"id": "C45", "title": "Broker-reported errors are surfaced", "statement": "If the broker answers a coordinator lookup or metadata query with a non-zero error code, the Dial method returns an error instead of dialing.", "quantifier": "all error codes and answers", "why_tests_cant": "all answers", "anchors": [{"file": "client.go", "symbols": ["dialCoordinator", "DialLeader"]}]}
{"id": "C46", "title": "Dial addresses are host:port in decimal", "statement": "The address dialed for a node is its host, a colon and its port in decimal, from which host and port can be recovered unambiguously for every int32 port.", "quantifier": "all hosts and all int32 ports", "why_tests_cant": "2^32 ports, all host strings", "anchors": [{"file": "client.go", "symbols": ["dialNode", "dialCoordinator"]}]}
{"id": "C47", "title": "RecordBatch size equals its encoding", "statement": "RecordBatch.Size equals the number of bytes RecordBatch.Encode emits.", "quantifier": "all batches, all header iteration orders", "why_tests_cant": "unbounded batches", "anchors": [{"file": "gen.record_batch.go", "symbols": ["RecordBatch", "sizeofMessage", "encodeMessage"]}]}
{"id": "C48", "title": "Record length prefix delimits the record", "statement": "The length prefix of each encoded record is the number of bytes of the record that follow it, so that a reader can skip from record to record.", "quantifier": "all messages", "why_tests_cant": "all messages", "anchors": [{"file": "gen.record_batch.go", "symbols": ["encodeMessage", "Message"]}]}
{"id": "C49", "title": "RecordBatch fixed header layout", "statement": "Encode emits the twelve fixed header fields in protocol order with magic always 2, and they can be read back for every batch; offsets and sizes of all fixed fields are constant.", "quantifier": "all field values", "why_tests_cant": "all values", "anchors": [{"file": "gen.record_batch.go", "symbols": ["RecordBatch", "Encode"]}]}
{"id": "C50", "title": "Encoding a message without headers is safe", "statement": "A Message whose Header is nil can be encoded.", "quantifier": "all messages with nil header", "why_tests_cant": "all messages", "anchors": [{"file": "gen.record_batch.go", "symbols": ["encodeMessage", "Message"]}]}
{"id": "C51", "title": "Record contents can be read back", "statement": "Key, value, timestamp delta and headers of an encoded record can be recovered from the bytes for every header iteration order; the offset delta cannot (it is always written as zero).", "quantifier": "all messages and header orders", "why_tests_cant": "unbounded contents and orders", "anchors": [{"file": "gen.record_batch.go", "symbols": ["encodeMessage"]}, {"file": "message/decoder.go", "symbols": ["VarBytes", "VarString", "VarInt"]}]}
{"id": "C52", "title": "Options: the last one wins", "statement": "For every option list the dialer and TLS settings used are those of the last corresponding option (a nil dialer meaning the default dialer), the client id is always the library default, and unrelated options do not interfere.", "quantifier": "all option lists", "why_tests_cant": "all lists", "anchors": [{"file": "gen.option.go", "symbols": ["buildConfig", "WithDialer", "WithTLS"]}, {"file": "gen.conn.go", "symbols": ["Connect", "dial"]}]}
{"id": "C53", "title": "Close stops the connection's goroutines and returns", "statement": "A call of Close on a connection returns: the read loop and the message loop stop, whatever they are doing when Close is called, and the process keeps running.", "quantifier": "all schedules and all points at which Close is called", "why_tests_cant": "Close may come at any point of reading a frame", "anchors": [{"file": "gen.conn.go", "symbols": ["Close", "readLoop", "messageLoop"]}, {"file": "ring/buffer.go", "symbols": ["Close", "ReadN", "WriteN"]}]}
{"id": "C54", "title": "Go's dialer reads node addresses back as host and port", "statement": "net.SplitHostPort, which Go's dialer applies to the address, returns exactly the host and port of the node for the address the client dials.", "quantifier": "all hosts and ports", "why_tests_cant": "hosts come from the cluster, including IPv6 literals", "anchors": [{"file": "client.go", "symbols": ["dialNode", "dialCoordinator"]}]}
{"id": "C55", "title": "A broker that answers ApiVersions with an error is not used", "statement": "If the answer to ApiVersions carries a non-zero error code, NewBroker returns an error.", "quantifier": "all answers and error codes", "why_tests_cant": "all answers, including empty ones with an error code", "anchors": [{"file": "gen.broker.go", "symbols": ["NewBroker", "negotiateApiVersions"]}]}
{"id": "C56", "title": "Header lookup and iteration agree", "statement": "For a MapHeader, Get finds exactly the key/value pairs that Range visits, whatever order Range uses, and Range visits each key once.", "quantifier": "all maps, keys and iteration orders", "why_tests_cant": "Go's map iteration order is random and the maps are unbounded", "anchors": [{"file": "gen.record_batch.go", "symbols": ["MapHeader", "Get", "Range"]}]}
{"id": "C57", "title": "Decoders accept exactly the wire grammar", "statement": "On every frame of bytes, at every version and for every receiver, a generated Decode succeeds exactly when the frame begins with bytes of the message's wire grammar, yields the value those bytes denote and has consumed exactly them; it panics exactly when the frame begins with a negative length the grammar has no reading for; in every other case the error is the short buffer one.", "quantifier": "all 218 types, versions, receivers and frames of bytes", "why_tests_cant": "all byte sequences, including those no encoder produces", "anchors": [{"file": "message/messages.gen.go", "symbols": ["Decode"]}, {"file": "message/decoder.go", "symbols": ["Bool", "Int8", "Int16", "Int32", "Int64", "String", "Bytes", "Int32Array", "Int64Array", "StringArray"]}]}
{"id": "C58", "title": "A decoded message encodes to the bytes it came from", "statement": "Encoding a message just decoded, at the same version, writes the bytes that were consumed; in any case as many bytes, which is what Size reports.", "quantifier": "all 218 types, versions and frames of bytes", "why_tests_cant": "all byte sequences, including those no encoder produces", "anchors": [{"file": "message/messages.gen.go", "symbols": ["Size", "Encode", "Decode"]}]}
{"id": "C59", "title": "Requests have the form Kafka defines for the negotiated version", "statement": "Whatever version negotiation settles on, a request frame is the header and body that the Kafka protocol defines for that API at that version, including the compact lengths and tagged fields of flexible versions (KIP-482).", "quantifier": "all 48 requests, brokers, versions and request values", "why_tests_cant": "the version depends on the broker; the defect shows only against brokers whose highest version is the flexible one", "anchors": [{"file": "gen.broker.go", "symbols": ["negotiateApiVersions", "matchVersion"]}, {"file": "message/messages.gen.go", "symbols": ["Encode"]}]}
{"id": "C60", "title": "Messages have the layout Kafka defines", "statement": "At every version before the flexible ones, a request, response or header consists of the fields the Kafka protocol defines for that API and version, in that order and of those types; API keys and highest versions are Kafka's.", "quantifier": "all listed messages, versions and values", "why_tests_cant": "encoder and decoder agree with each other, so round-trip tests pass on a layout no broker understands", "anchors": [{"file": "message/messages.gen.go", "symbols": ["Size", "Encode", "Decode", "OffsetCommitRequestPartition8"]}, {"file": "message/keys.go", "symbols": ["KeyProduce"]}]}
{"id": "C61", "title": "Null can be sent where Kafka gives it a meaning", "statement": "In a field for which the Kafka protocol distinguishes null from empty (all topics, no transactional id, no group instance id, any resource), a caller can send null.", "quantifier": "all listed fields, versions and message values", "why_tests_cant": "shows that no value at all of the Go type produces the null encoding", "anchors": [{"file": "message/messages.gen.go", "symbols": ["MetadataRequest", "OffsetFetchRequest", "ProduceRequest", "JoinGroupRequest"]}, {"file": "message/encoder.go", "symbols": ["PutString", "PutArrayLength"]}]}
{"id": "C62", "title": "A call that has returned is forgotten", "statement": "Once Conn.Do has returned, the connection holds no entry for the call in its table of outstanding requests, and the call's decode function does not run any more.", "quantifier": "all schedules, any number of callers, any connection and responses", "why_tests_cant": "leaks and late writes depend on failing writes and on the interleaving of callers with the message loop", "anchors": [{"file": "gen.conn.go", "symbols": ["Do", "messageLoop", "requests"]}]}
{"id": "C63", "title": "Bytes that come with a read error are processed", "statement": "The bytes raw.Read returns are handed on to the message loop, also when Read returns an error with them, as package io asks of callers; every complete frame among the bytes read is processed.", "quantifier": "all schedules, segmentations, stream contents and ring sizes", "why_tests_cant": "most connections return the last bytes and the error in separate calls, so tests do not see the loss", "anchors": [{"file": "gen.conn.go", "symbols": ["readLoop"]}, {"file": "ring/buffer.go", "symbols": ["Write"]}]}
{"id": "C64", "title": "Fields go over the wire by name in Kafka's order", "statement": "Encode writes the struct's fields in the order in which Kafka lists the fields of these names, and Decode puts what it reads into the fields of the same names; two fields of one type are not exchanged.", "quantifier": "all 218 types, versions and values", "why_tests_cant": "an exchange made alike in Encode and Decode passes every round-trip test", "anchors": [{"file": "message/messages.gen.go", "symbols": ["Encode", "Decode"]}]}
{"id": "C65", "title": "Every field of a message can be set", "statement": "A program that uses the package can set every field of every message type.", "quantifier": "all 218 types", "why_tests_cant": "tests inside the package can set unexported fields", "anchors": [{"file": "message/messages.gen.go", "symbols": ["CreateTopicsRequest"]}]}
{"id": "C66", "title": "A broker method returns what the broker sent", "statement": "If the frames that arrive with the correlation id of a method call carry a response of the method's type at the version negotiated, the call returns that response and nothing else, whatever else is in flight; once the response has arrived and been read, the call has returned it.", "quantifier": "all methods, negotiated versions, requests, responses, schedules, segmentations, numbers of concurrent callers and ring and buffer sizes", "why_tests_cant": "tests exercise a method over one connection with one response at a time", "anchors": [{"file": "gen.broker.go", "symbols": ["Heartbeat", "FindCoordinator", "Metadata"]}, {"file": "gen.conn.go", "symbols": ["Do", "messageLoop", "readLoop"]}, {"file": "ring/buffer.go", "symbols": ["ReadN", "Write"]}]}
{"id": "C67", "title": "The memory a decoder asks for is bounded by the frame it is given", "statement": "While it decodes a frame, Decode asks for arrays of no more elements in all than the frame has bytes, so a short frame cannot make the client allocate without bound.", "quantifier": "all message types, versions, receivers and frames, well formed or not", "why_tests_cant": "tests decode frames whose array counts are right; the counts a peer could send are all int32 values", "anchors": [{"file": "message/decoder.go", "symbols": ["Int32Array", "Int64Array", "StringArray", "ArrayLength"]}, {"file": "message/messages.gen.go", "symbols": ["Decode"]}]}
{"id": "C68", "title": "Responses are read in the form Kafka sends them", "statement": "For every API and negotiated version, when the broker sends a response in the form Kafka defines for that version, the method's decoder reads exactly that response.", "quantifier": "all API methods, negotiated versions, responses and following bytes", "why_tests_cant": "a broker with flexible versions is needed to see them, and an all-zero response can be read right by chance", "anchors": [{"file": "gen.broker.go", "symbols": ["Heartbeat", "FindCoordinator", "Metadata"]}, {"file": "gen.conn.go", "symbols": ["messageLoop"]}, {"file": "message/messages.gen.go", "symbols": ["Decode"]}]}
{"id": "C69", "title": "A record batch is encoded in Kafka's format", "statement": "RecordBatch.Encode writes a batch in Kafka's record batch format (magic 2): the fixed fields, the number of records, and each record with its length, offset and timestamp differences, key, value and headers.", "quantifier": "all batches, records, headers in any iteration order, and versions", "why_tests_cant": "there is no test of the encoding, and one would have to compare with Kafka's own encoder for all shapes of records", "anchors": [{"file": "gen.record_batch.go", "symbols": ["RecordBatch.Encode", "encodeMessage"]}]}
{"id": "C70", "title": "The Dial methods connect to the node the broker named", "statement": "The node that DialLeader, DialGroupCoordinator or DialController connects to is the partition's leader, the group's coordinator or the controller as named in the response the broker sent, whatever version was negotiated.", "quantifier": "all clients, brokers, negotiated versions, responses and histories", "why_tests_cant": "a test runs against one broker version; the field that names the controller is missing at another", "anchors": [{"file": "client.go", "symbols": ["DialController", "DialLeader", "DialGroupCoordinator", "dialNode"]}, {"file": "message/messages.gen.go", "symbols": ["MetadataResponse.Decode"]}]}
{"id": "C71", "title": "One reader and one writer use the ring without a data race", "statement": "When one goroutine calls WriteN and another calls ReadN on a ring buffer, every two accesses to the same byte of the buffer, one by each, are ordered by the atomic variables and channels of the ring: there is no data race in the sense of Go's memory model.", "quantifier": "all ring sizes, all calls, all interleavings", "why_tests_cant": "the race detector sees only the interleavings of its run, and the racing ones need a wake-up to arrive late", "anchors": [{"file": "ring/buffer.go", "symbols": ["ReadN", "WriteN", "Close"]}]}
{"id": "C72", "title": "Decoding gives the same result on every platform", "statement": "For the same bytes every method of the Decoder, and Decode of every message, gives the same result whatever the width of int (32 or 64 bits) and the release of Go.", "quantifier": "all 218 message types, versions, bytes, decoder states; 32- and 64-bit platforms, earlier and later encoding/binary", "why_tests_cant": "tests run on one platform with one release, and the lengths that differ are above 2^31", "anchors": [{"file": "message/decoder.go", "symbols": ["VarBytes", "VarString", "VarInt", "remains", "ArrayLength"]}, {"file": "message/messages.gen.go", "symbols": ["Decode"]}]}
{"id": "C73", "title": "A caller contract under which the ring buffer is a FIFO without data races", "statement": "If every WriteN brings at least what the current ReadN still lacks and fits beside what ReadN has not returned yet (two cells to spare), every ReadN asks for what returned WriteNs have brought or is made while no WriteN runs, and nobody calls Close, then in every schedule ReadN delivers the bytes in the order written, none is lost, there is no data race and WriteN never blocks; and none of the four rules can be dropped. If ReadN only ever asks for what returned WriteNs have brought, nobody blocks.", "quantifier": "all ring sizes, all sequences of calls and data obeying the rules, all schedules of reader and writer", "why_tests_cant": "a test runs a few of the interleavings; which of the call patterns are safe in all of them is a statement about all schedules", "anchors": [{"file": "ring/buffer.go", "symbols": ["WriteN", "ReadN", "New", "Close"]}]}
{"id": "C74", "title": "A connection has no data races", "statement": "However many goroutines call a connection, they and its message loop never access the encoder, a response or the receive buffer at the same time with one of them writing. (False in two ways: a call whose write fails returns its response while the message loop may be decoding into it, and a returned response with byte fields is read by its holder while the loop overwrites the buffer. There is no other race: two calls never race with each other, and the encoder is never used twice at once.)", "quantifier": "all numbers of calls, all requests, all network behaviour and frames, all schedules", "why_tests_cant": "the race detector only sees the schedules a test happens to run; that there are exactly these races is a statement about all of them", "anchors": [{"file": "gen.conn.go", "symbols": ["Do", "messageLoop", "Connect"]}, {"file": "gen.broker.go", "symbols": ["SyncGroup"]}, {"file": "message/decoder.go", "symbols": ["Bytes"]}]}
{"id": "C75", "title": "A context that is done ends the operation", "statement": "Metadata and the Dial methods of Client, called with a context that is done, contact nobody and return an error; if the context becomes done while they run, they return. (False: the contexts are ignored, so an operation with a cancelled context connects as usual, and one that waits for a silent broker never returns.)", "quantifier": "all clients, contexts and environments", "why_tests_cant": "all contexts and all environments; that an operation never returns cannot be observed", "anchors": [{"file": "client.go", "symbols": ["Metadata", "DialController", "DialGroupCoordinator", "DialLeader", "dialCoordinator"]}]}
{"id": "C76", "title": "Subscribe without an error gives a subscription", "statement": "When Broker.Subscribe returns a nil error it returns a subscription through which the handler gets the topics' messages. (False for every call: it returns nil and nil, contacts nobody and never calls the handler.)", "quantifier": "all brokers, topics, handlers and environments", "why_tests_cant": "all handlers and environments", "anchors": [{"file": "gen.broker.go", "symbols": ["Subscribe"]}]}
{"id": "C77", "title": "Larger buffers change nothing until the ring wraps", "statement": "The sizes of the ring and of the receive buffers have no effect on what a connection does as long as the positions in the ring stay short of its end: the same schedule with larger buffers produces the same requests on the wire, the same frames and the same results of every call, and leaves every goroutine where it was.", "quantifier": "all connections, buffer sizes, callers, schedules and network behaviours", "why_tests_cant": "the sizes are constants of the library; all sizes and all interleavings", "anchors": [{"file": "gen.conn.go", "symbols": ["Connect", "readLoop", "messageLoop", "Do", "Close"]}, {"file": "ring/buffer.go", "symbols": ["New", "WriteN", "ReadN"]}]}
{"id": "C78", "title": "A request reaches the broker whole or not at all", "statement": "If a Write of the network connection that fails has sent nothing, then of every request either all bytes or none are on the wire once its Flush has ended, so a failed call leaves no half request behind. (False for requests longer than 4096 bytes, the buffer of the bufio.Writer: the first Write can succeed and the next fail. True for all others, which are sent with a single Write.)", "quantifier": "all connections, callers, schedules, requests and failures", "why_tests_cant": "the failing Write must be the second of one request; all requests of all 48 methods and all interleavings", "anchors": [{"file": "gen.conn.go", "symbols": ["Do", "Connect"]}, {"file": "message/encoder.go", "symbols": ["Flush"]}]}
{"id": "C79", "title": "Every call returns if the broker answers", "statement": "In every endless execution in which the goroutines get their turns, ReadN returns as long as a call waits and the broker answers every request it was sent, every call to Do returns: no call starves at the mutex, no reply is lost and no goroutine waits in a circle. A call's Flush always ends, and a call whose Flush failed returns, without any help from the broker.", "quantifier": "all endless executions: any number of callers, interleavings, brokers and failures of the network connection, without crash or Close and with at most 2^32 calls", "why_tests_cant": "it speaks about infinite executions and all schedules; a test that does not end proves nothing, one that ends is one schedule", "anchors": [{"file": "gen.conn.go", "symbols": ["Do", "messageLoop"]}]}
{"id": "C80", "title": "A method call is a remote procedure call", "statement": "However many goroutines use a connection, a broker that takes the byte stream apart frame by frame finds in the n-th frame exactly the request of the call that sent as the n-th one: its method, version, correlation id, client name and request. If it answers what it has read, in any order, every call that returns without an error returns an answer to its own request.", "quantifier": "all methods, versions, requests and client names, any number of concurrent calls, all interleavings, connections and brokers; up to 2^32 calls, requests below 2 GB, ReadN delivering what the broker sent", "why_tests_cant": "48 methods and all versions, any number of concurrent calls in any interleaving and any order of the answers", "anchors": [{"file": "gen.broker.go", "symbols": ["Produce", "Fetch", "Heartbeat"]}, {"file": "gen.conn.go", "symbols": ["Do", "messageLoop"]}, {"file": "message/messages.gen.go", "symbols": ["RequestHeader", "ResponseHeader"]}]}
{"id": "C81", "title": "What the client returns is what the cluster said", "statement": "For a client whose requests go over connections to brokers that answer what they read: Metadata returns what a bootstrap server answered to a request for just these topics, at the version negotiated with that server; DialLeader, DialController and DialGroupCoordinator return a broker connected to the host and port that a bootstrap server's answer names for this partition, this controller or this group, with versions negotiated with that very node.", "quantifier": "all clusters and all answers their brokers may give, all bootstrap lists, options, topics, partitions and groups, all earlier histories of the client, all interleavings on every connection; client name and names below 2^15 bytes, up to 2^32 events", "why_tests_cant": "every possible cluster answer, failing server and shuffle; the value returned has gone through encoder, connection, decoder and lookup", "anchors": [{"file": "client.go", "symbols": ["Metadata", "DialLeader", "DialController", "DialGroupCoordinator"]}, {"file": "gen.broker.go", "symbols": ["NewBroker", "Metadata", "FindCoordinator"]}, {"file": "gen.conn.go", "symbols": ["Do"]}]}
{"id": "C82", "title": "Every connection of a client follows its options", "statement": "Every connection that a client ever tries to open, to bootstrap servers and to nodes found in answers alike, is dialed with the dialer and TLS configuration of the options given to NewClient; with a TLS configuration it never opens a plain connection.", "quantifier": "all options, bootstrap lists, sequences of operations, all behaviours of network and brokers", "why_tests_cant": "a plain connection on one path (a node named by a hostile or odd answer, a retry after a failure) would expose data; no test visits every path for every answer", "anchors": [{"file": "client.go", "symbols": ["dialBootstrap", "dialNode", "dialCoordinator", "DialController", "DialGroupCoordinator", "DialLeader", "Metadata"]}, {"file": "gen.broker.go", "symbols": ["NewBroker"]}, {"file": "gen.conn.go", "symbols": ["dial", "Connect"]}, {"file": "gen.option.go", "symbols": ["WithTLS", "WithDialer", "buildConfig"]}]}
{"id": "C83", "title": "A client dials only addresses it was told", "statement": "Every address dialed by Metadata, DialController, DialLeader and DialGroupCoordinator is a bootstrap server of the client, or the host and port of a node in an answer received earlier in the same operation.", "quantifier": "all clients, operations, histories, and behaviours of network and brokers", "why_tests_cant": "an address made of zero values or left over from an earlier answer shows up only for particular failures", "anchors": [{"file": "client.go", "symbols": ["dialBootstrap", "dialNode", "dialCoordinator", "DialController", "DialGroupCoordinator", "DialLeader", "Metadata"]}, {"file": "gen.broker.go", "symbols": ["NewBroker"]}, {"file": "gen.conn.go", "symbols": ["dial", "Connect"]}]}
{"id": "C84", "title": "An operation of the client retries nothing", "statement": "One operation dials each bootstrap server at most once and at most one node besides, sends at most one request apart from ApiVersions, and sends ApiVersions exactly once on every connection it opens.", "quantifier": "all clients, operations, histories, and behaviours of network and brokers", "why_tests_cant": "load put on a failing cluster depends on the failures; all combinations are too many to try", "anchors": [{"file": "client.go", "symbols": ["dialBootstrap", "dialNode", "dialCoordinator", "DialController", "DialGroupCoordinator", "DialLeader", "Metadata"]}, {"file": "gen.broker.go", "symbols": ["NewBroker"]}, {"file": "gen.conn.go", "symbols": ["dial", "Connect"]}]}
{"id": "C85", "title": "A connection treated with courtesy delivers every response", "statement": "If every read of the socket returns whole responses that fit into the ring, the message loop does not run while they are stored there, they come while the message loop is outside the ring or waits in it, and nobody calls Close, then the message loop sees exactly the responses that came, in order, none is left behind, both goroutines come to rest after a number of moves linear in the bytes received, and every call whose response came has returned it. Each of the five conditions is needed.", "quantifier": "all ring and buffer sizes, connections, numbers of callers, requests, responses and interleavings", "why_tests_cant": "the failures of C27, C36 and C66 depend on the interleaving; that none remains under the conditions is a statement about all interleavings", "anchors": [{"file": "gen.conn.go", "symbols": ["readLoop", "messageLoop", "Do", "Connect"]}, {"file": "ring/buffer.go", "symbols": ["ReadN", "WriteN", "Wait", "Release"]}]}
{"id": "C86", "title": "Every answered call over a connection treated with courtesy returns", "statement": "While calls are made and responses come for ever, if the network, the scheduler and the program heed the five conditions of C85 and no goroutine that can go on is passed over for ever, then every response that comes is seen, and every call returns whose request could not be written or is answered. Without the answer, or if the goroutines of the connection are passed over, the call waits for ever.", "quantifier": "all endless executions, ring and buffer sizes, connections, numbers of callers, requests and responses", "why_tests_cant": "that something happens eventually in an execution without end cannot be observed in a test", "anchors": [{"file": "gen.conn.go", "symbols": ["readLoop", "messageLoop", "Do", "Connect"]}, {"file": "ring/buffer.go", "symbols": ["ReadN", "WriteN", "Wait", "Release"]}]}
{"id": "C87", "title": "The text of the primitives does what is proved of them", "statement": "Executed statement by statement, the text of every function of message/encoder.go, message/decoder.go and message/sizeof/sizeof.go does, for every argument, every buffer, every writer and every platform, exactly what its description in the model says, and never anything Go leaves without a meaning. In particular a value put by the text of the Encoder is returned by the text of the Decoder.", "quantifier": "all arguments, buffers, decoder states, writers (also failing ones and ones that overwrite the array they are given), widths of int and releases of Go", "why_tests_cant": "a test executes the code on some inputs; here the text is compared with its specification on all of them", "anchors": [{"file": "message/encoder.go", "symbols": ["NewEncoder", "Flush", "PutInt8", "PutInt16", "PutInt32", "PutInt64", "PutString", "PutVarInt", "PutVarString", "PutRecordHeader"]}, {"file": "message/decoder.go", "symbols": ["NewDecoder", "Reset", "remains", "Discard", "Int32", "String", "StringArray", "VarInt", "VarString"]}, {"file": "message/sizeof/sizeof.go", "symbols": ["Bytes", "String", "StringArray", "VarInt", "VarString"]}]}
{"id": "C88", "title": "The text of all messages does what is proved of them", "statement": "Executed statement by statement, the text of Size, Encode and Decode of each of the 218 structures of message/messages.gen.go does, for every value, version, writer, buffer and previous content of the receiver, exactly what its description in the model says. In particular Encode writes the layout of the structure for that version and nothing else, Size is the number of bytes written, Decode of these bytes followed by anything gives back the structure and stops after them, and Decode of less than all of them returns io.ErrShortBuffer.", "quantifier": "all 218 structures, all values of them, versions, writers, buffers, decoder states, widths of int and releases of Go", "why_tests_cant": "654 methods, each with a version and nested arrays of any length; a test executes some of them on some inputs, here the text itself is compared with its specification on all of them", "anchors": [{"file": "message/messages.gen.go", "symbols": ["Size", "Encode", "Decode", "ProduceRequest", "FetchResponse", "MetadataResponse", "ListOffsetTopic2", "OffsetDeleteResponsePartition47"]}]}
{"id": "C89", "title": "The text of the ring does what is proved of the ring", "statement": "Executed by a writing and a reading goroutine, one shared access or communication at a time, the text of New, WriteN, ReadN, Close, Wait, Release and incr in ring/buffer.go shows, under every interleaving and for every size and every sequence of calls, exactly the calls, returns, bytes and memory of the ring of C27 to C31; and every execution of that ring with slices of sufficient length is one of the text. In particular the text never panics for such calls, and the executions that break FIFO or deadlock are executions of the text.", "quantifier": "all sizes, sequences of calls, slices, interleavings, widths of int from 32 bits", "why_tests_cant": "the interleavings of two goroutines over atomic accesses, plain accesses and channels cannot be enumerated by tests; here the text itself is compared with the state machine under all of them", "anchors": [{"file": "ring/buffer.go", "symbols": ["New", "WriteN", "ReadN", "Close", "Wait", "Release", "newMutex", "incr"]}]}
{"id": "C90", "title": "The text of the connection does what is proved of the connection", "statement": "Executed by any number of callers of Do and Close, by readLoop and by messageLoop, one shared access, lock, communication, write or read at a time, the text of dial, Connect, Do, Close, readLoop and messageLoop in gen.conn.go shows, under every interleaving, for every behaviour of the network and all EncodeFuncs and DecodeFuncs, the events, results and crashes of the connection of C32 to C39; and every execution of that connection with the sizes of Connect is one of the text. Until the process crashes the text never unlocks a mutex it does not hold, closes a channel twice or uses a nil. Connect returns the error of dialling, or a connection whose two loops run.", "quantifier": "all interleavings, numbers of calls, EncodeFuncs, DecodeFuncs, networks, widths of int from 32 bits", "why_tests_cant": "the interleavings of callers and two loops over two mutexes, a map, channels, the ring and the socket cannot be enumerated by tests; here the text itself is compared with the state machine under all of them", "anchors": [{"file": "gen.conn.go", "symbols": ["dial", "Connect", "Do", "Close", "readLoop", "messageLoop"]}]}
{"id": "C91", "title": "The text of the client does what is proved of the client", "statement": "Executed in a memory of variables shared by pointers and closures, the text of NewClient, Metadata, DialLeader, DialController, DialGroupCoordinator and of all they call (dialBootstrap, dialNode, dialCoordinator, findTopic, findPartition, NewBroker, Close, negotiateApiVersions, matchVersion, WithDialer, WithTLS, buildConfig, dial, Connect) has, for every behaviour of the network and of the brokers and every list of options (nil ones too), the dials, requests and closes of the client of C40 to C45 in the same order, the same results, errors with the format and arguments of the failure, and panics or waits where that client does; and it changes nothing that was in memory before.", "quantifier": "all bootstrap lists, options, answers and failures of the network and the brokers, histories, memories, widths of int from 32 bits", "why_tests_cant": "the callbacks write to variables of their callers through closures, and every combination of failing dials, versions and answers takes another path; here the text itself is compared with the model for all of them", "anchors": [{"file": "client.go", "symbols": ["NewClient", "Metadata", "DialLeader", "DialController", "DialGroupCoordinator", "dialBootstrap", "dialNode", "dialCoordinator", "findTopic", "findPartition"]}, {"file": "gen.broker.go", "symbols": ["NewBroker", "Close", "negotiateApiVersions", "matchVersion"]}, {"file": "gen.option.go", "symbols": ["WithDialer", "WithTLS", "buildConfig"]}, {"file": "gen.conn.go", "symbols": ["dial", "Connect"]}]}
{"id": "C92", "title": "The text of the request methods does what is proved of requests and responses", "statement": "For each of the 48 request methods of Broker: its text calls Conn.Do of the connection of its broker once, with its two closures, and returns the response variable, new and zero when Do is called, as Do has left it, with the error of Do. The first closure has the encoder write, in this order, the sum of the sizes of header and request, the header (api key, version in use, correlation id, client id) at its version and the request at the version in use, as in C20. The second decodes the response variable with the decoder it is given at the version in use and returns that error, as in C21. Neither changes anything else.", "quantifier": "all 48 methods, brokers, requests, correlation ids, encoders, memories, widths of int", "why_tests_cant": "48 methods with three functions each and a version, a key and two types that must agree in all of them; tests call few of them and none at every version", "anchors": [{"file": "gen.broker.go", "symbols": ["Produce", "Fetch", "Metadata", "FindCoordinator", "ApiVersions"]}]}
{"id": "C93", "title": "The text of the record batch does what is proved of record batches", "statement": "The text of RecordBatch.Size, RecordBatch.Encode, MapHeader.Get and MapHeader.Range, with the functions they call, does what the model does: Size returns the size of the model; Encode has the encoder make the same writes in the same order, or panics when the model does; Get gives the entry of the key or (\"\", false); Range calls its function once per entry, in the order in which the map is visited. None of them changes a variable of its caller.", "quantifier": "all batches, records, headers, orders of visiting the maps, versions, encoders, memories, widths of int; for Range all functions", "why_tests_cant": "the repository has no test of this file; sizes differ with every record and header and the order of a map differs from run to run", "anchors": [{"file": "gen.record_batch.go", "symbols": ["RecordBatch", "MapHeader", "sizeofMessage", "encodeMessage"]}]}

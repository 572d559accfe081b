{
 "C04": "Both directions: valid UTF-8 is read back, invalid UTF-8 always emits more bytes than announced.",
 "C06": "False of the code for nil: the refutation is proved, the non-nil case is proved.",
 "C07": "False of the code beyond the length limits (every value there is corrupted without an error); proved within them.",
 "C08": "False of the code for PutVarBytes, PutVarString, PutRecordHeader over a writer that recovers; proved for the other methods over any writer, and for all methods over writers that keep their error.",
 "C11": "False of the code for every overlong sequence; proved that all others are read as the number they denote.",
 "C12": "False of the code for VarInt (reads past the frame); proved for all other primitive decoders and all 218 messages.",
 "C13": "False of the code: exact characterisation of the message types that can be made to panic and of those that cannot.",
 "C20": "Frames of 2^31 bytes or more cannot be announced by the protocol's int32 size; the size field is then the length modulo 2^32.",
 "C23": "False of the code: a broker with a newer version than the library's is refused although ranges overlap. Exact success condition proved.",
 "C24": "False of the code: exact characterisation of the answers that loop forever; terminates for all others.",
 "C27": "False of the code: four kinds of executions, three of them proved for every ring size, deliver bytes nobody wrote. FIFO and completeness proved for all executions in which Wait returns only when the call can go on.",
 "C29": "False of the code: two deadlocks and a lost wake-up are reachable. Proved: the only blocking place is Wait, writes of two or more bytes and all reads wake the other side.",
 "C30": "For callers that pass n no larger than their slice; otherwise the call panics (C31).",
 "C34": "Within 2^32 calls per connection (ids then repeat).",
 "C38": "False of the code: a call waiting for its reply when the connection is closed or lost waits for ever (shown for the message loop and for the whole connection with ring, socket and Close). Proved: calls that come later fail. The counterexamples hold at all larger buffer sizes, the library's included (C77).",
 "C36": "False of the code: two ways of cutting the same response give different frames, because a Wait of the ring may return early (C27); even a whole response in one piece can lead to a frame nobody sent (C36_own_piece_refuted). Proved: for executions in which no Wait returns early the frames are those of the stream; the message loop alone frames correctly always. The counterexamples hold at all larger buffer sizes, the library's included (C77). C85 gives conditions on network, scheduler and program under which no Wait returns early.",
 "C37": "False of the code: a size beyond the 2e6-byte receive buffer, or a response whose decoder panics, takes the process down. Proved: every other frame is processed and answered, and nothing else crashes. The panicking response is carried over to all larger receive buffers (C77).",
 "C40": "False of the code: byte fields are windows of the connection's receive buffer and the next frame overwrites them. Proved: responses without byte fields never change, and exactly when the others change.",
 "C53": "False of the code: Close while part of a frame header has been read can crash the process. Proved: otherwise the goroutines stop within boundedly many moves, never block, and Close returns. The counterexamples hold at all larger buffer sizes, the library's included (C77).",
 "C43": "False of the code for the empty bootstrap list (Metadata returns an empty result, DialGroupCoordinator dials ':0'). Proved for non-empty lists, and for DialController and DialLeader on the empty list.",
 "C44": "False of the code: no operation closes a connection; the number of connections leaked is characterised exactly. Proved: NewBroker leaves exactly the connection of the Broker it returns, and none if it cannot connect.",
 "C45": "False of the code: error codes in answers are never looked at. Proved: errors of the request itself are returned and nothing more is dialed.",
 "C54": "False of the code for hosts with colons (IPv6). Proved: it holds exactly for hosts without colon and square brackets.",
 "C55": "False of the code: the error code is not looked at. Proved: errors of the request itself are returned.",
 "C47": "False of the code: the difference is characterised exactly, and is never zero for batches with records at versions from 2. Proved: batches without records.",
 "C48": "False of the code: the prefix is always 0, and two records can be taken for one with headers.",
 "C50": "False of the code: a nil Header panics whatever the encoder. Proved: with a Header (a nil map included) encoding never panics.",
 "C51": "Nil keys and values are written like empty ones and header strings that are not UTF-8 are lost. Proved: everything else can be read back, of one record and of a whole batch, if the number of headers or the end of the record is known (the code writes neither).",
 "C58": "Refuted: null lists of structures, null strings, other negative counts and boolean bytes above 1 are read but written differently (a null topic list, all topics, becomes the empty one). Proved: exactly the bytes without these come back; length and Size proved for all bytes read into a zero value.",
 "C59": "Refuted: 24 APIs are declared up to their first flexible version, and at that version no request is in Kafka's compact form. Proved for all other versions. The table of first flexible versions and the compact form are statements about Kafka 2.4, written down in FlexSpec.v. They were written from memory, without Kafka's sources at hand.",
 "C60": "Refuted for OffsetCommit requests of version 1, which lack Kafka's commit timestamp. Proved for the 181 other layouts, which cover every request and response at every version that is not flexible, and for all keys and highest versions. The layouts in KafkaSpec.v were typed from memory of the protocol guide, after the code had been read and without Kafka's sources at hand: they are a second reading, not an authority. They give types and order, not field names.",
 "C61": "Refuted: none of 16 fields listed as nullable can be sent as null (Go strings and slices of structures have no null on the wire). Proved to work for two nullable arrays of strings or numbers. Which fields are nullable was written from memory.",
 "C62": "Refuted for a call whose write fails: its entry stays, the table grows by one with each such call, and its decode function may run after Do returned. Proved for calls that return a reply; the table is characterised exactly (up to 2^32 calls). The counterexamples hold at all larger buffer sizes, the library's included (C77).",
 "C63": "Refuted: bytes returned together with an error are dropped, and the call they answer never returns. Proved: what came without an error is processed, also after the connection is lost (with the ring waking correctly, see C27). The counterexamples hold at all larger buffer sizes, the library's included (C77).",
 "C64": "Proved for all types against a list of field names. The list was typed from memory, not copied from Kafka.",
 "C65": "Refuted for CreateTopicsRequest (timeoutMs and validateOnly are unexported; outside the package they are always 0 and false, short of decoding a request). Proved for all other types.",
 "C66": "Refuted by the early wake of the ring (C27): the response to a Heartbeat call arrives in two pieces and the call never returns. Proved for all executions without such a wake: a call returns the response sent to it, and has returned it once everything that arrived has been read, unless writing failed; calls get the broker's answers to their own requests (C66_call_partial, the answers half of C80 for the whole client). The counterexamples hold at all larger buffer sizes, the library's included (C77). C85 gives conditions on network, scheduler and program under which no such wake happens.",
 "C67": "Refuted: the count in front of an array is given to make before the array is read, so in every message with an array any count up to 2^31-1 is asked for by a frame no longer than an all-zero message. Proved: a decoding that succeeds has asked for at most as many elements as the frame has bytes; one that returns an error for at most three times 2^31-1 more (one array per level of nesting). That the decoders with the log are the Decode methods is proved.",
 "C68": "Refuted for the 24 APIs with a flexible version: if a method reads what Kafka sent there, only zeros were sent; a response with a string or an array is never read right; all Heartbeat error codes up to 255 are read as success from version 4 on. Proved for all non-flexible versions. What Kafka sends was written down from memory.",
 "C69": "Refuted for every batch, even an empty one: Kafka's form is longer by at least 4 bytes (the number of records is not written) and one more per record (nor is the number of headers). Where Kafka has the number of records it finds 0 if the first record has the batch's timestamp. Proved: the 57 bytes of fixed fields are in their place. Kafka's format was written down from memory.",
 "C70": "Refuted for DialController at version 0 of Metadata, which carries no controller: node 0 is connected to. Proved for DialController from version 1 on, and for DialLeader and DialGroupCoordinator at all versions.",
 "C71": "Refuted at every size from 8 on: a Read woken by the Release of a Write it already consumed, or by Close, reads the cell the next Write writes. Proved for open rings when nobody waiting is woken early (the hypothesis of C27). Happens-before counts only store-then-load of next/start and channel meetings, a subset of Go's edges; the refuting races have no step of the reader in between, so no edge could order them.",
 "C72": "Refuted for VarBytes and VarString on 32 bits (of a length that is too long the low 32 bits count) and for VarInt with later releases of Go (a number cut off after more than ten bytes is 0 without error). Proved for all 218 messages, for all methods without Var in their names, for VarInt on every input in which no byte follows ten that continue a number (with Go up to 1.15: on every input), for VarBytes and VarString likewise on 64 bits, and on 32 bits for lengths that fit. Where make gives less, messages read elsewhere are still read, and the only other outcome is a panic. The later binary.Uvarint was written down from memory.",
 "C73": "The condition is on calls and returns only. The positive halves of C27 and C71 follow from it without their condition on wake-ups. The rules do not make a waiting ReadN return: it can miss its wake-up (C73_wait_hangs, C29).",
 "C74": "The full statement is false (C74_response_refuted, C74_buffer_refuted). Proved: these two are all the races there are on the three places. A race is two goroutines whose next steps access one place, one writing; the model's steps for the table of requests are the critical sections of readLock. The counterexamples hold at all larger buffer sizes, the library's included (C77).",
 "C75": "The full statement is false: no operation looks at its context (C75_ignored_refuted, C75_done_refuted, C75_hangs_refuted). Proved: with a context that is never done the operations are the ones of C41-C46.",
 "C76": "The full statement is false for every call (C76_subscribe_refuted): Subscribe is a stub. Proved: it has no effect.",
 "C77": "Proved for DecodeFuncs that look only at the frame, as the library's do (C12). With it the counterexamples of C36, C38, C53, C62, C63, C66 and C74, written in buffers of 64 and 16 bytes, are carried over to all larger sizes (theorems ..._any_size_refuted), among them the library's.",
 "C78": "Requests of up to 4096 bytes are sent with one Write and arrive whole or not at all; a Flush without error has sent the whole request, of any length. Refuted for longer ones: every request of every method longer than 4096 bytes can be torn after 4096 bytes.",
 "C79": "Liveness under stated fairness (strong for callers at the mutex, weak for the message loop). The broker and ReadN are hypotheses; at most 2^32 calls, no crash, no Close. C79_sends and C79_failed need only the fairness of the callers.",
 "C80": "Composition of C20, C32, C33 and C35 over the connection machine; what ReadN returns is the broker's stream by hypothesis (the ring buffer can break it: C36, C66; C66_call_partial is C80_call for the whole client). C80_broker_reads and C80_client_reads need nothing from the broker.",
 "C81": "The three models composed: the client's requests and answers (C41, C46, C70) are those of runs of the connection machine against brokers (C80). At version 0 of Metadata the controller is not carried and taken for node 0 (C70), which C81_controller says. ReadN delivering what the broker sent is assumed as in C80.",
 "C82": "The client of Client.v over any environment; the settings are those the caller wrote (C52).",
 "C83": "Refuted by DialGroupCoordinator without bootstrap servers, which dials \":0\". Proved for every other operation, and for every client with a bootstrap server.",
 "C84": "Counted over the events of one operation in any environment.",
 "C09": "For every Put method, message and record batch; also with the encoder's scratch array in the state, whatever it holds and whatever a writer does to it.",
 "C85": "The conditions are on what the network, the scheduler and the program do, not on the inside of the ring; C85_needed has a failing execution for each of them left out. A response that makes its decoder panic (C13) still ends the process: the delivery theorems assume that none did.",
 "C86": "C79 for the whole connection: where C79 assumes that ReadN returns, here it follows from the conditions on network, scheduler and program. What the call returns is the subject of C66 and C85. As in C85 no response may make its decoder panic (C13), and as in C79 at most 2^32 calls are made.",
 "C87": "The text is Source.v, translated by tools/go_source.py; its meaning is the interpreter of GoLang.v. The claims that mention functions of the model show that the hand-written model is the text; C87_round_trip mentions the text alone. Slices nobody changes are values, so sharing of their memory is not seen here (C68 and C69 are about that); a nil buffer given to NewDecoder is left out.",
 "C88": "The text is SourceMessages.v, translated by tools/go_source.py; its meaning is the interpreter of GoLang.v. C88_size, C88_encode and C88_decode show that the generated model of the methods is the text; C88_round_trip mentions the text and the layouts alone, and C88_text says that the layouts are what the file declares. A slice of structures is a value here, so sharing of its memory is not seen. The statements are for every sufficiently large bound on nested calls and rounds of loops, that is, for executions that are not cut off.",
 "C89": "The text is SourceRing.v, translated by tools/go_source.py --ring; its meaning is the interpreter of GoConc.v, which turns a call into a tree of shared accesses, communications and expiries. C89_text_to_model holds for all calls, C89_model_to_text and C89_same_moves for calls with slices of at least n bytes: for others the text panics where the model does so one step later. Plain accesses to fields nobody writes after New are not steps of their own, and the caller's slices are the caller's. C27, C28, C29, C30 and C31 have theorems about the text as well (C27_text_fifo_refuted and others).",
 "C90": "The text is SourceConn.v, translated by tools/go_source.py --conn; its meaning is the interpreter of GoFlow.v, which turns a function into a tree of questions, and the machine of SourceConnSpec.v, which answers them. Other packages (ring, encoder, decoder, bufio, ResponseHeader) are in the machine as they are in the model; for ring, encoder, decoder and messages C87 to C89 compare these with their text. C90_text_to_model holds for all executions of the text, C90_model_to_text for those of the model in which Read returns at most as many bytes as its buffer holds. A message loop that ends and an error of readLoop take two moves of the text where the model has one, a locked section up to four. C32, C33, C35, C39 and C80 have theorems about the text as well (C32_text, C33_text_own and others).",
 "C91": "The text is SourceClient.v and, for dial and Connect, SourceConn.v, translated by tools/go_source.py --client and --conn; its meaning is the interpreter of GoShare.v, and [machine] (SourceClientSpec.v) answers what is not in the program: the dialler, tls, fmt, strconv.Itoa and the three request methods of Broker, which C04 to C07 and C32 to C39 are about. What Connect starts is the subject of C90. The theorems for the three Dial methods assume that ports are int32 (ports_ok), as their Go type is. Fuel is any number from enough + 7 = 65545 on. C41, C43, C44 and C45 have theorems about the text as well (C41_text_leader and others).",
 "C92": "The text is SourceClient.v (tools/go_source.py --client), its meaning the interpreter of GoShare.v. Size, Encode and PutInt32 are answered by the model ([encoding], SourceBrokerSpec.v); C87 and C88 compare these with their text. Do itself is the subject of C90, which is for all EncodeFuncs and DecodeFuncs. C92_decode says which call of Decode is made; what it does is C21, C88. C20 has a theorem about the text as well (C20_text_frame).",
 "C93": "The text is SourceRecords.v (tools/go_source.py --records), its meaning the interpreter of GoShare.v. Put methods, sizeof functions and Timestamp.Unix() are answered by the model ([recording], SourceRecordsSpec.v); C87 compares the first two with their text. A map is a number, and `orders` has its entries in the order of a visit; a Header is nil or a MapHeader. C47, C48, C49 and C50 have a theorem about the text as well."
}
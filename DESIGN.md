# Formal model of savaki/kafka in Rocq (Coq 8.16.1) — design

Source: `/repo` (Go). Model and proofs: `/verif/rocq/theories`.
Property list: `/verif/properties.jsonl`. Status per property: `/verif/MANIFEST.json`.

## 1. Approach

The code has four layers, modelled separately and joined by theorems:

1. **Primitive codec** (`message/encoder.go`, `message/decoder.go`, `message/sizeof`):
   executable Gallina. The encoder is a state transformer over an arbitrary `io.Writer`
   (an oracle that may fail at any write); the decoder is a state transformer
   over `(raw, length, offset)` whose result is `Ok`, `Err` or `Panic`.
2. **Generated messages** (`message/messages.gen.go`, 218 types x Size/Encode/Decode):
   translated mechanically, function by function, by `tools/gen_messages.py`
   into Gallina records and functions; each Go statement becomes one Gallina
   combinator. Proved type by type with a fixed tactic, then collected in a
   list of all codecs so that a property is *one* theorem over all types.
3. **Broker / negotiation / client / record batch / options**: ordinary
   functions; the network is an explicit environment argument.
4. **Concurrency** (`ring/buffer.go`, `gen.conn.go`): state machines with one step per
   shared-memory access; a schedule is a list of labels; theorems quantify over
   all schedules.

Where the code violates a property, the violating execution is a theorem
`..._refuted` (concrete witness evaluated in the model) and the strongest
positive statement found is proved beside it, named `..._partial`.

## 2. Plan per property

| id | modelled | proof |
|----|----------|-------|
| C01-C02 | `Put*`/`Decoder.*` | big-endian arithmetic lemmas, induction on lists |
| C03 | `binary.PutVarint/Varint` (Go 1.13 source) | induction on the 7-bit groups |
| C04 | + `utf8.EncodeRune/DecodeRune`, `range string`, `string([]rune)` | case analysis on rune length classes, induction on runes |
| C05 | `sizeof` | arithmetic mod 2^32 |
| C06 | Put/NullableString | refuted for nil, proved for non-nil |
| C07 | PutString with len > 32767 | refuted by witness, partial: within limits |
| C08 | encoder over arbitrary writer | invariant over op sequences; refuted for PutVarBytes/PutVarString on a non-sticky writer, full for sticky writers |
| C09, C19 | encoder actions are "chunk runs"; the scratch array (`Scratch.v`) | one lemma per primitive, closed under sequencing, all 218 types |
| C10-C13 | decoder | locality relation closed under bind, all 218 types; refutations for varint overflow, varint past the frame, negative lengths |
| C14-C18 | 218 types | per type tactic, collected over the list of all codecs; C18 against a schema table and a generic wire grammar |
| C20-C21, C26 | 48 broker methods (generated table) | corollaries of C14/C15 |
| C22-C25 | `negotiateApiVersions`, `matchVersion` | induction over the advertised list |
| C27-C31 | ring state machine | inductive invariant over all schedules; refutations by explicit schedules |
| C32-C35, C39 | Conn state machine (any number of Do callers) | inductive invariant |
| C36-C38 | ring + message loop | frame parser over FIFO stream proved segmentation independent; composed machine refuted |
| C40 | slices as (offset,len) views of the receive buffer | refuted by witness; partial: views are stable until the buffer is overwritten |
| C41-C46 | client over an environment of brokers | case analysis, induction over lists; decimal printing inverse |
| C47-C51 | record batch | arithmetic; refutations by witness |
| C52 | options | induction over the option list |
| C53 | whole connection (ring, socket, callers, Close) | progress measure; refuted by an explicit schedule |
| C54 | `Address`, Go's `net.SplitHostPort` | case analysis on the characters of the host; refuted for colons |
| C55 | `NewBroker` | case analysis; refuted by witness |
| C56 | record header map | lookup and iteration over an association list |
| C57-C58 | every generated Decode against a grammar of bytes (`GrammarSpec.v`) | an exactness relation closed under bind, then induction on schemas |
| C59 | requests against Kafka's flexible versions (`FlexSpec.v`) | first differing byte; refuted for all flexible versions |
| C60-C61 | messages against Kafka's layouts and nullable fields (`KafkaSpec.v`) | table comparison by computation, byte-level reading by induction on schemas |
| C62-C63 | table of outstanding requests; bytes that come with a read error | table characterised by the events, induction over executions; refutations by explicit schedules and by induction on the number of calls |
| C64-C65 | field names (`KafkaNames.v`), exported identifiers | every type's tuple of fields by name equals what is encoded, type by type by conversion; refuted by the literal of CreateTopicsRequest |
| C66 | `Broker.v` over `Conn.v` over `ConnRing.v` (`EndSpec.v`) | request bytes, framing, reply routing and decoding composed into one statement about the value a method returns; refuted by a computed schedule of a Heartbeat call |
| C67 | `Memory.v` (decoders with a log of the lengths given to make), `MemorySpec.v` | the log is proved not to change results; on success paid for in bytes, because no array has elements of no bytes at any version; refuted for failing decodings, with a bound by nesting depth |
| C68 | responses against Kafka's flexible versions (`FlexRespSpec.v`, over `FlexSpec.v`) | by the grammar of C57: the byte of tagged fields shifts every number, and no compact length is a plain one; refuted for all flexible versions |
| C69 | record batches against Kafka's format (`KafkaRecordSpec.v`) | by comparing lengths; refuted for every batch |
| C70 | `Client.v` with responses as sent (`SentSpec.v`) | the fields the Dial methods use, traced through what a version carries; refuted for DialController at version 0 |
| C71 | `Ring.v`, accesses and synchronisation (`RaceSpec.v`) | two accesses of a cell by the two sides are ordered unless someone was woken early or Close was called; races shown at every size from 8 on |
| C72 | `Platform.v`: the decoder with int width, Go release and make as parameters, all int arithmetic wrapping | equality with the decoder of the rest of the model, structure by structure, with the log of C67 to say which makes matter; refuted for the Var methods |
| C73 | `Ring.v`, totals of calls and returns (`CallerSpec.v`) | an invariant relating the totals to the positions gives the wake-up condition of C27 and C71; one counterexample per dropped rule |
| C74 | `Conn.v`, next accesses (`ConnRaceSpec.v`) | invariants of the connection (one lock holder, at most one reply) exclude every other pair of accesses; two counterexamples |
| C75 | `Context.v`, `Client.v`; a context is the result of Err after a history | by computation; the hanging operations by unfolding the bootstrap loop |
| C76 | `Context.v` | by computation |
| C77 | the machines of `Ring.v`, `Conn.v`, `ConnRing.v` at two sizes (`SizesSpec.v`) | step-by-step simulation under the invariants of the connection; the counterexamples of C36-C38, C53, C62, C63, C66, C74 are instances |
| C78 | `writes_of`, `atomic` (`WholeSpec.v`) over the connection machine and `BufIO.v` | invariant on what a call has sent and still has to send; the refutation is for every long request, by induction over the chunks |
| C79 | `history`, `happens`, `callers_move`, `loop_moves`, `bytes_come`, `answers` (`LiveSpec.v`) over the connection machine | endless executions; each position of a call is left by fairness, the lock by induction on what its holder still sends, the reply by counting frames |
| C80 | `order`, `sendable`, `makes`, `read_frame`, `service`, `served` (`ServeSpec.v`) over the connection machine and the method table | the wire as a concatenation of frames (C35, C20), parsed back; ids link the answer to the call (C32, C33) |
| C81 | `cluster`, `happened`, `carried`, `says_*`, `connected_to` (`ClusterSpec.v`): the client's history linked to runs of the connection machine | C80 for every request in the history, then the lookups of C41 and C70 transported from the response received to the response sent |
| C82-C84 | `operation`, `after` (`DialSpec.v`) over the client of `Client.v` and any environment | one Hoare-style rule per combinator of the client's monad: what may be dialed given what has been answered, and how many events; C83 refuted by witness |
| C85 | `courtesy`, `heeds`, `stream`, `at_rest` (`OrderlySpec.v`) over `nexecutes` | the invariant of C73 for the ring carried through the whole connection, with the totals of the ring tied to the frames seen; a second invariant for lost wake-ups; a measure for the bound; five computed executions for the converse |
| C86 | `story`, `told`, `courteous`, `loops_turn`, `answer_comes` (`EndlessSpec.v`) over the steps of `nexecutes` | an endless execution of the whole connection is one of the connection machine of C79; that ReadN returns follows from the measure of C85, room left first |
| C87 | `GoLang.v`: syntax and meaning of a part of Go; `Source.v`: the text, as terms; `effect`, `outcome`, `survives` (`SourceSpec.v`) | symbolic execution of each function, loops by induction; the round trip from C01 to C03 and C72 |
| C88 | `SourceMessages.v`: the text of the 654 methods, as terms; `go_fields`, `decoded`, `message_survives` (`SourceMsgSpec.v`) | the patterns of `SourceLayout.v` give all of the text (by computation, `SourceTable.v`); execution of the patterns for any layout by induction on it, loops by induction; the round trip from C14 to C16 and C72 |
| C89 | `GoConc.v`: what a goroutine running a text does; `SourceRing.v`: the text, as terms; `tstep`, `truns`, `shows` (`SourceRingSpec.v`) | simulation in both directions between what is left of the text and the model's program counters; loops by induction on what remains of n |
| C90 | `GoFlow.v`: what a function asks of the rest of the program; `SourceConn.v`: the text, as terms; `tstep`, `texecutes`, `shows` (`SourceConnSpec.v`) | simulation with stuttering in both directions; for every question a predicate that says what is left of the text, one lemma for each move |
| C91 | `GoShare.v`: what a function with pointers and closures does; `SourceClient.v`: the text, as terms; `machine`, `follows`, `client_at`, `broker_at` (`SourceClientSpec.v`) | symbolic execution of the text in continuation-passing style, one lemma for each function: its outcome is that of its continuation with the result of the model in a larger memory |
| C92 | `sees`, `encoding` (`SourceBrokerSpec.v`); the text in `SourceClient.v` | the 48 methods and 96 closures are shown to be of one form by computation; that form is executed symbolically once |
| C93 | `batch_val`, `recording` (`SourceRecordsSpec.v`); the text in `SourceRecords.v` | symbolic execution; the loops by induction with the places in memory that the body keeps |

## 3. Trusted base

* Coq 8.16.1 kernel. No axioms of our own. `Print Assumptions` output per theorem is reported in section 5.
* The reading of the Go code: every definition cites file and lines.
* Go semantics assumed: 64-bit `int` (C72 compares with 32 bits); two's complement wrap-around; slices/strings as lists
  (a byte is a `Z` in 0..255, Go typing invariants are stated as hypotheses where needed);
  `encoding/binary`, `unicode/utf8` as in Go 1.13; `sync/atomic` sequentially consistent.

* **Facts about Kafka.** `FlexSpec.v` and `FlexRespSpec.v` (first flexible versions, compact form, response headers) and `KafkaSpec.v`
  (keys, versions, layouts, nullable fields) say what Kafka 2.4 wants. There was no network and no
  copy of Kafka: they were typed from memory, after the code had been read. C59 to C61, C68 and C69 (`KafkaRecordSpec.v`) are only as
  good as these tables. A first version of the layout table had been printed by a script from the
  model's own schemas; comparing the code with that would have been circular, and it was thrown
  away. The table typed instead disagreed with the code in one place (OffsetCommit version 1).
  `tools/kafka_names.txt` (field names in order, for C64) was typed in the same way, late, after hours of
  work with the code: it would show a field out of place, but it is no independent copy of Kafka's files.
* The schemas in `Msg01.v` to `Msg10.v` are read off the code by `tools/gen_messages.py`
  (struct declaration, version ranges as in Size). C14 to C18, C57 and C58 are about these schemas:
  by themselves they cannot show a mistake made alike in Size, Encode and Decode. That is what C60
  is for, and it sees types and order; two fields of one type are told apart by C64.
* `tools/gen_messages.py` and `tools/gen_broker.py` wrote `Msg*.v` and `BrokerTable.v`. Their output, with line
  references, is in the repository and is what has to be trusted. Two programs that share no code with them
  compare it with the Go. `tools/check_messages.py` compares field names, order, version guards and primitives
  of all 218 types and three methods by regular expressions. `tools/back_to_go.py` goes the other way: it prints
  Go from the Coq files and finds the result equal, word by word, to `messages.gen.go`, `keys.go`, the 48 request
  methods, `apiVersion` and `negotiateApiVersions`, with element types, zero values and control flow. What is left
  to trust is that each combinator means the Go statements this program prints for it.
* For `encoder.go`, `decoder.go`, `sizeof.go` and `messages.gen.go` even less is left: C87 and C88 prove that the
  functions of the model do what the text does. There the trusted parts are `GoLang.v`, which says what a
  statement of Go does, and `tools/go_source.py`, a parser that knows Go's grammar and nothing of the model; its
  output, `Source.v` and `SourceMessages.v`, can be read beside the Go. `tools/gen_layouts.py` need not be trusted:
  that its layouts give the text is proved (C88).
* The same for `ring/buffer.go`: C89 proves that the model does what the text (`SourceRing.v`) does, in both
  directions and under every interleaving. Trusted there is `GoConc.v`, which says where a goroutine gives way.
* The same for `gen.conn.go`: C90, in both directions and under every interleaving. Trusted there are `GoFlow.v`,
  which has the control flow and the local variables, and the machine of `SourceConnSpec.v`, which says what locks,
  channels, the map, the context, `go` and the functions of other packages do, and when others are let in.
* The same for `client.go`, `gen.option.go` and, in `gen.broker.go`, `NewBroker`, `Close`, `negotiateApiVersions` and
  `matchVersion`: C91. Trusted there are `GoShare.v`, which has memory, pointers and closures, and the machine of
  `SourceClientSpec.v`, which turns the calls of dialler, `tls`, `fmt` and the request methods of Broker into the
  questions of `Client.v`. C92 does the same for the 48 request methods; there `encoding` (`SourceBrokerSpec.v`) gives
  the calls of package message to the model.
* The same for `gen.record_batch.go`: C93, also with `GoShare.v`. There `recording` (`SourceRecordsSpec.v`) gives the
  calls of the encoder, of package sizeof and of `Timestamp.Unix()` to the model, and a range over a map visits its
  entries in any order given. With this every function of the Go files listed below is compared as text, but for
  the constants of `keys.go`, which C92 uses as values.

## 4. What is and is not modelled

Modelled, all functions: `client.go`, `gen.option.go`, `gen.broker.go`, `gen.conn.go`, `gen.record_batch.go`,
`ring/buffer.go`, `message/keys.go`, `message/encoder.go`, `message/decoder.go`, `message/sizeof/sizeof.go`,
`message/messages.gen.go`. Unit tests that need no network are replayed on the model in `RepoTests.v`; these are
tests, not proofs.

Where to find it (all under `rocq/theories`; `*Spec.v` is the vocabulary of the statements, `*Proofs.v` and
`*Props.v` are the proofs, `P_*.v` the statements with their examples and `Print Assumptions`):

| Go | model | statements |
|---|---|---|
| numbers, slices, panics of Go | `GoBase.v`, `Binary.v` (`encoding/binary`), `Utf8.v`, `BufIO.v` (`bufio.Writer`) | |
| `message/encoder.go`, `decoder.go`, `sizeof/` | `Encoder.v`, `Decoder.v`, `Sizeof.v`; with wrapping sums `Platform.v`; with memory `Memory.v`; with the scratch array `Scratch.v`; the text itself `Source.v`, what it means `GoLang.v` | `P_Codec.v`, `P_Scratch.v`, `P_Platform.v`, `P_Memory.v`, `P_Source.v` |
| `message/messages.gen.go` | `Msg01.v` to `Msg10.v`, `AllMessages.v`; once for all `SchemaSpec.v`, `Schema.v`, `Link.v`; the text itself `SourceMessages.v` | `P_Messages.v`, `P_SourceMsg.v`, `P_Grammar.v`, `P_Kafka.v`, `P_Names.v`, `P_Flexible.v`, `P_FlexResponse.v` |
| `message/keys.go`, `gen.broker.go` | `BrokerTable.v`, `Broker.v`; the text itself `SourceClient.v` | `P_Broker.v`, `P_SourceBroker.v`, `P_SourceClient.v` |
| `ring/buffer.go` | `Ring.v`; the text itself `SourceRing.v`, what it means `GoConc.v` | `P_Ring.v`, `P_Race.v`, `P_Caller.v`, `P_SourceRing.v` |
| `gen.conn.go` | `Conn.v` (callers and message loop); with readLoop, ring and Close `ConnRing.v`; shared memory `Alias.v`; the text itself `SourceConn.v`, what it means `GoFlow.v` and `SourceConnSpec.v` | `P_Conn.v`, `P_Table.v`, `P_Whole.v`, `P_Live.v`, `P_Serve.v`; `P_Framing.v`, `P_ConnLife.v`, `P_ConnRace.v`, `P_End.v`, `P_Sizes.v`, `P_Orderly.v`, `P_Endless.v`, `P_SourceConn.v` |
| `gen.option.go`, `client.go` | `Options.v`, `Client.v`, `Context.v`; the text itself, with `NewBroker`, `SourceClient.v`, what it means `GoShare.v` and `SourceClientSpec.v` | `P_Client.v`, `P_SourceClient.v`, `P_Sent.v`, `P_Context.v`, `P_Dial.v`; over connections `P_Cluster.v` |
| `gen.record_batch.go` | `RecordBatch.v`; the text itself `SourceRecords.v`, what it means `GoShare.v` and `SourceRecordsSpec.v` | `P_Record.v`, `P_KafkaRecord.v`, `P_SourceRecords.v` |

Simplifications:

* Encoder: the byte counts `Write` returns are ignored, as in the code. `Encoder.v` leaves out the scratch array; `Scratch.v`
  has it, and C09 shows that it makes no difference, even if a writer changes it.
* Decoder: allocation always succeeds, also for a huge count. Sums of offsets and lengths do not wrap; by C72
  (`Platform.v`, where they do) this is the same for every decoder whose offset lies in its buffer. A negative
  length read by VarString, or Discard of a negative number, can move the offset out of it.
* `GoLang.v`: types are carried by values and checked as the text runs, so text that a compiler rejects is stuck,
  and C87 and C88 show that the text of the package never is. Slices whose elements nobody changes are lists, without
  capacity and without sharing (Decode assigns to the elements of a slice it has just made and nobody else has); arrays and structures behind pointers are in a heap. `encoding/binary`, `unicode/utf8`,
  `io.WriteString` and `errors.Is` are the functions of `Binary.v`, `Utf8.v` and `Platform.v`.
* `GoConc.v`: a goroutine gives way at every access to `sync/atomic`, every access to an element of the ring, every
  communication and every expiry of the context. Fields that nobody writes after New are read together with the
  access before; the caller's slices are seen by the caller alone. Memory is sequentially consistent (see Ring below).
* `SourceConnSpec.v`: a goroutine gives way at every lock and unlock, access to the map, atomic addition, communication,
  look at the context, write of the buffered writer and call of the ring or the socket. Making things and reading fields that
  nobody changes after Connect is done together with the move before. Pointers to structures whose fields nobody
  assigns are the structures. Whether the socket is closed is looked at when a request starts to be encoded (as in
  `Conn.v`), and `WriteN` is given the bytes that came (as in `ConnRing.v`). `buildConfig` is an answer of the machine.
* `bufio.Writer` (`BufIO.v`): the connection obeys the contract of `io.Writer`.
* Contexts (`Context.v`) matter only through `Err`; `Subscribe` is the stub it is in the code.
* Connection races (C74): one step per critical section of `readLock`; the use of the encoder is one state.
* Ring: one reader, one writer, sequentially consistent memory, one step per shared access.
  Go promises sequential consistency for executions without data races: that is the case under the contract of
  C73 and exactly where C71 and C74 say. Counterexamples (`_refuted`) stand in any case, since a sequentially
  consistent execution is one Go allows; positive theorems about executions with races rest on this simplification.
* Connection: one step per shared access, locked sections of readLock are single steps; what the socket delivers
  is a parameter of the steps. readLoop's buffer is cut to the bytes read.
* Client: brokers and the network are an arbitrary environment; the texts of wrapped errors are left out.
* Map iteration order (record headers) is arbitrary where it matters.

Not modelled: memory exhaustion, scheduling fairness (a hypothesis of C79 and C86), TLS, DNS, timeouts, printed output,
the integration test, anything inside Kafka.

## 5. Axioms

Every theorem of a `P_*.v` file named in `MANIFEST.json` is followed by `Print Assumptions`, and every one prints
"Closed under the global context": no axiom is used, neither ours nor the standard library's.
vcheck lists seven axioms `Coq.ssr.ssrunder.Under_rel.*`; they come with libraries that Lia loads, and no theorem
depends on them.

## 6. Seeded bugs

`seeded/LOG.jsonl` has one line per wrong program: the edit, the claim aimed at, the theorems that failed, and
theorems tightened because it first survived. The first lines are edits made by hand with a claim in mind, each built
to the end with broken proofs skipped, so that `theorems_failed` is the list of stated theorems that lost their proof.
The others are edits made by a program: in definitions of the model, one token (a number, an operator, a name exchanged
for another) or a part (arguments exchanged or dropped, a branch or an equation taken from its neighbour) where the
result still type-checks; and in a copy of the Go, a token changed or a line dropped or exchanged with the next, the
copy translated by `tools/go_source.py` and put in the place of the text of C87 to C91 and C93. They were built up to
the first proof that fails (`first_failure`), and `theorems_failed` are the stated theorems that use it. A proof can also fail for an edit that changes nothing. Survivors have an empty
`theorems_failed`, and a `note` or `theorems_tightened` says what became of them.

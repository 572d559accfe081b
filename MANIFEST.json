{
 "claims": [
  {
   "property": "C01",
   "status": "proved",
   "theorems": [
    "C01_fixed_width_round_trip"
   ],
   "note": ""
  },
  {
   "property": "C02",
   "status": "proved",
   "theorems": [
    "C02_strings_bytes_arrays_round_trip"
   ],
   "note": ""
  },
  {
   "property": "C03",
   "status": "proved",
   "theorems": [
    "C03_varint_round_trip"
   ],
   "note": ""
  },
  {
   "property": "C04",
   "status": "proved",
   "theorems": [
    "C04_var_strings_round_trip"
   ],
   "note": "Both directions: valid UTF-8 is read back, invalid UTF-8 always emits more bytes than announced."
  },
  {
   "property": "C05",
   "status": "proved",
   "theorems": [
    "C05_sizeof_exact"
   ],
   "note": ""
  },
  {
   "property": "C06",
   "status": "partial",
   "theorems": [
    "C06_nullable_string_refuted",
    "C06_never_null_refuted",
    "C06_nullable_string_partial"
   ],
   "note": "False of the code for nil: the refutation is proved, the non-nil case is proved."
  },
  {
   "property": "C07",
   "status": "partial",
   "theorems": [
    "C07_length_corruption_refuted",
    "C07_long_string_witness_refuted",
    "C07_no_length_corruption_partial"
   ],
   "note": "False of the code beyond the length limits (every value there is corrupted without an error); proved within them."
  },
  {
   "property": "C08",
   "status": "partial",
   "theorems": [
    "C08_sticky_errors_refuted",
    "C08_sticky_errors_partial",
    "C08_sticky_writer_partial",
    "C08_after_error"
   ],
   "note": "False of the code for PutVarBytes, PutVarString, PutRecordHeader over a writer that recovers; proved for the other methods over any writer, and for all methods over writers that keep their error."
  },
  {
   "property": "C09",
   "status": "proved",
   "theorems": [
    "C09_put_output",
    "C09_message_output",
    "C09_put_scratch",
    "C09_new_scratch",
    "C09_message_scratch",
    "C09_batch_scratch"
   ],
   "note": "For every Put method, message and record batch; also with the encoder's scratch array in the state, whatever it holds and whatever a writer does to it."
  },
  {
   "property": "C10",
   "status": "proved",
   "theorems": [
    "C10_decoder_bounds",
    "C10_fixed_width_reads",
    "C10_panics_exactly_on_negative_length",
    "C10_messages_bounded"
   ],
   "note": ""
  },
  {
   "property": "C11",
   "status": "partial",
   "theorems": [
    "C11_varint_overflow_refuted",
    "C11_no_overflow_error_refuted",
    "C11_varint_value_partial"
   ],
   "note": "False of the code for every overlong sequence; proved that all others are read as the number they denote."
  },
  {
   "property": "C12",
   "status": "partial",
   "theorems": [
    "C12_varint_local_refuted",
    "C12_primitives_local_partial",
    "C12_varint_local_partial",
    "C12_messages_local"
   ],
   "note": "False of the code for VarInt (reads past the frame); proved for all other primitive decoders and all 218 messages."
  },
  {
   "property": "C13",
   "status": "partial",
   "theorems": [
    "C13_panic_refuted",
    "C13_null_records_refuted",
    "C13_no_panic_partial"
   ],
   "note": "False of the code: exact characterisation of the message types that can be made to panic and of those that cannot."
  },
  {
   "property": "C14",
   "status": "proved",
   "theorems": [
    "C14_size_is_encoded_length"
   ],
   "note": ""
  },
  {
   "property": "C15",
   "status": "proved",
   "theorems": [
    "C15_round_trip",
    "C15_round_trip_same"
   ],
   "note": ""
  },
  {
   "property": "C16",
   "status": "proved",
   "theorems": [
    "C16_truncation"
   ],
   "note": ""
  },
  {
   "property": "C17",
   "status": "proved",
   "theorems": [
    "C17_injective",
    "C17_sequence"
   ],
   "note": ""
  },
  {
   "property": "C18",
   "status": "proved",
   "theorems": [
    "C18_layout"
   ],
   "note": ""
  },
  {
   "property": "C19",
   "status": "proved",
   "theorems": [
    "C19_failing_writer"
   ],
   "note": ""
  },
  {
   "property": "C20",
   "status": "proved",
   "theorems": [
    "C20_request_frame",
    "C20_request_readable",
    "C20_text_frame"
   ],
   "note": "Frames of 2^31 bytes or more cannot be announced by the protocol's int32 size; the size field is then the length modulo 2^32."
  },
  {
   "property": "C21",
   "status": "proved",
   "theorems": [
    "C21_response_version"
   ],
   "note": ""
  },
  {
   "property": "C22",
   "status": "proved",
   "theorems": [
    "C22_negotiated_supported"
   ],
   "note": ""
  },
  {
   "property": "C23",
   "status": "partial",
   "theorems": [
    "C23_overlap_refuted",
    "C23_overlap_partial",
    "C23_success_iff",
    "C23_highest_common"
   ],
   "note": "False of the code: a broker with a newer version than the library's is refused although ranges overlap. Exact success condition proved."
  },
  {
   "property": "C24",
   "status": "partial",
   "theorems": [
    "C24_loops_refuted",
    "C24_diverges_iff",
    "C24_terminates_partial",
    "C24_deterministic"
   ],
   "note": "False of the code: exact characterisation of the answers that loop forever; terminates for all others."
  },
  {
   "property": "C25",
   "status": "proved",
   "theorems": [
    "C25_unadvertised_zero",
    "C25_unknown_ignored",
    "C25_last_wins",
    "C25_order_irrelevant"
   ],
   "note": ""
  },
  {
   "property": "C26",
   "status": "proved",
   "theorems": [
    "C26_keys_consistent",
    "C26_negotiates_own_field"
   ],
   "note": ""
  },
  {
   "property": "C27",
   "status": "partial",
   "theorems": [
    "C27_fifo_refuted",
    "C27_fifo_any_size_refuted",
    "C27_fifo_partial",
    "C27_nothing_lost_partial",
    "C27_text_fifo_refuted"
   ],
   "note": "False of the code: four kinds of executions, three of them proved for every ring size, deliver bytes nobody wrote. FIFO and completeness proved for all executions in which Wait returns only when the call can go on."
  },
  {
   "property": "C28",
   "status": "proved",
   "theorems": [
    "C28_sequential_queue",
    "C28_text_queue"
   ],
   "note": ""
  },
  {
   "property": "C29",
   "status": "partial",
   "theorems": [
    "C29_deadlock_refuted",
    "C29_deadlock_full_refuted",
    "C29_lost_wakeup_refuted",
    "C29_deadlock_final",
    "C29_blocked_only_in_wait_partial",
    "C29_write_wakes_partial",
    "C29_read_wakes_partial",
    "C29_text_deadlock_refuted"
   ],
   "note": "False of the code: two deadlocks and a lost wake-up are reachable. Proved: the only blocking place is Wait, writes of two or more bytes and all reads wake the other side."
  },
  {
   "property": "C30",
   "status": "proved",
   "theorems": [
    "C30_close_unblocks",
    "C30_calls_finite",
    "C30_later_calls_finite",
    "C30_text_close_unblocks"
   ],
   "note": "For callers that pass n no larger than their slice; otherwise the call panics (C31)."
  },
  {
   "property": "C31",
   "status": "proved",
   "theorems": [
    "C31_positions",
    "C31_text_never_panics"
   ],
   "note": ""
  },
  {
   "property": "C32",
   "status": "proved",
   "theorems": [
    "C32_ids",
    "C32_distinct",
    "C32_calls_distinct",
    "C32_text"
   ],
   "note": ""
  },
  {
   "property": "C33",
   "status": "proved",
   "theorems": [
    "C33_reply_is_own",
    "C33_decodes_the_frame",
    "C33_at_most_one",
    "C33_replies_le_frames",
    "C33_unknown_ignored",
    "C33_others_untouched",
    "C33_text_once",
    "C33_text_own"
   ],
   "note": ""
  },
  {
   "property": "C34",
   "status": "proved",
   "theorems": [
    "C34_none_dropped",
    "C34_completes"
   ],
   "note": "Within 2^32 calls per connection (ids then repeat)."
  },
  {
   "property": "C35",
   "status": "proved",
   "theorems": [
    "C35_wire",
    "C35_by_call",
    "C35_text"
   ],
   "note": ""
  },
  {
   "property": "C36",
   "status": "partial",
   "theorems": [
    "C36_segmentation_refuted",
    "C36_own_piece_refuted",
    "C36_frames_partial",
    "C36_all_frames_partial",
    "C36_segmentation_partial",
    "C36_loop",
    "C36_parse_unique",
    "C36_any_size_refuted",
    "C36_own_piece_any_size_refuted"
   ],
   "note": "False of the code: two ways of cutting the same response give different frames, because a Wait of the ring may return early (C27); even a whole response in one piece can lead to a frame nobody sent (C36_own_piece_refuted). Proved: for executions in which no Wait returns early the frames are those of the stream; the message loop alone frames correctly always. The counterexamples hold at all larger buffer sizes, the library's included (C77). C85 gives conditions on network, scheduler and program under which no Wait returns early."
  },
  {
   "property": "C37",
   "status": "partial",
   "theorems": [
    "C37_big_size_refuted",
    "C37_stuck_refuted",
    "C37_dies_refuted",
    "C37_panic_refuted",
    "C37_fetch_refuted",
    "C37_processed_partial",
    "C37_only_partial",
    "C37_fetch_any_size_refuted"
   ],
   "note": "False of the code: a size beyond the 2e6-byte receive buffer, or a response whose decoder panics, takes the process down. Proved: every other frame is processed and answered, and nothing else crashes. The panicking response is carried over to all larger receive buffers (C77)."
  },
  {
   "property": "C38",
   "status": "partial",
   "theorems": [
    "C38_close_refuted",
    "C38_lost_refuted",
    "C38_later_calls_partial",
    "C38_connection_lost_refuted",
    "C38_cut_off_refuted",
    "C38_after_Close_refuted",
    "C38_lost_any_size_refuted",
    "C38_closed_any_size_refuted"
   ],
   "note": "False of the code: a call waiting for its reply when the connection is closed or lost waits for ever (shown for the message loop and for the whole connection with ring, socket and Close). Proved: calls that come later fail. The counterexamples hold at all larger buffer sizes, the library's included (C77)."
  },
  {
   "property": "C39",
   "status": "proved",
   "theorems": [
    "C39_fail_stop",
    "C39_returns",
    "C39_text"
   ],
   "note": ""
  },
  {
   "property": "C40",
   "status": "partial",
   "theorems": [
    "C40_next_frame_refuted",
    "C40_SyncGroup_refuted",
    "C40_never_altered_partial",
    "C40_changes_partial",
    "C40_Decode"
   ],
   "note": "False of the code: byte fields are windows of the connection's receive buffer and the next frame overwrites them. Proved: responses without byte fields never change, and exactly when the others change."
  },
  {
   "property": "C41",
   "status": "proved",
   "theorems": [
    "C41_leader",
    "C41_leader_address",
    "C41_controller",
    "C41_text_leader"
   ],
   "note": ""
  },
  {
   "property": "C42",
   "status": "proved",
   "theorems": [
    "C42_bootstrap",
    "C42_coordinator",
    "C42_servers_dialed",
    "C42_first_usable"
   ],
   "note": ""
  },
  {
   "property": "C43",
   "status": "partial",
   "theorems": [
    "C43_empty_list_refuted",
    "C43_coordinator_empty_list_refuted",
    "C43_metadata_partial",
    "C43_none_usable_partial",
    "C43_empty_list_partial",
    "C43_text_empty_list_refuted"
   ],
   "note": "False of the code for the empty bootstrap list (Metadata returns an empty result, DialGroupCoordinator dials ':0'). Proved for non-empty lists, and for DialController and DialLeader on the empty list."
  },
  {
   "property": "C44",
   "status": "partial",
   "theorems": [
    "C44_nothing_closed_refuted",
    "C44_metadata_refuted",
    "C44_dial_refuted",
    "C44_new_broker_refuted",
    "C44_new_broker_partial",
    "C44_close_partial",
    "C44_text_nothing_closed_refuted"
   ],
   "note": "False of the code: no operation closes a connection; the number of connections leaked is characterised exactly. Proved: NewBroker leaves exactly the connection of the Broker it returns, and none if it cannot connect."
  },
  {
   "property": "C45",
   "status": "partial",
   "theorems": [
    "C45_error_code_ignored_refuted",
    "C45_metadata_codes_refuted",
    "C45_request_errors_partial",
    "C45_text_error_code_ignored_refuted"
   ],
   "note": "False of the code: error codes in answers are never looked at. Proved: errors of the request itself are returned and nothing more is dialed."
  },
  {
   "property": "C46",
   "status": "proved",
   "theorems": [
    "C46_address",
    "C46_decimal",
    "C46_recover",
    "C46_injective"
   ],
   "note": ""
  },
  {
   "property": "C47",
   "status": "partial",
   "theorems": [
    "C47_size_exact",
    "C47_size_refuted",
    "C47_size_partial",
    "C47_text_size_refuted"
   ],
   "note": "False of the code: the difference is characterised exactly, and is never zero for batches with records at versions from 2. Proved: batches without records."
  },
  {
   "property": "C48",
   "status": "partial",
   "theorems": [
    "C48_length_prefix_refuted",
    "C48_records_ambiguous_refuted",
    "C48_text_records_ambiguous_refuted"
   ],
   "note": "False of the code: the prefix is always 0, and two records can be taken for one with headers."
  },
  {
   "property": "C49",
   "status": "proved",
   "theorems": [
    "C49_fixed_header",
    "C49_fixed_header_read_back",
    "C49_text_fixed_header"
   ],
   "note": ""
  },
  {
   "property": "C50",
   "status": "partial",
   "theorems": [
    "C50_nil_header_refuted",
    "C50_no_panic_partial",
    "C50_text_nil_header_refuted"
   ],
   "note": "False of the code: a nil Header panics whatever the encoder. Proved: with a Header (a nil map included) encoding never panics."
  },
  {
   "property": "C51",
   "status": "partial",
   "theorems": [
    "C51_record_read_back_partial",
    "C51_batch_read_back_partial",
    "C51_record_injective_partial",
    "C51_offset_not_written",
    "C51_nil_refuted",
    "C51_invalid_header_refuted"
   ],
   "note": "Nil keys and values are written like empty ones and header strings that are not UTF-8 are lost. Proved: everything else can be read back, of one record and of a whole batch, if the number of headers or the end of the record is known (the code writes neither)."
  },
  {
   "property": "C52",
   "status": "proved",
   "theorems": [
    "C52_last_option_wins",
    "C52_dialed_with",
    "C52_independent",
    "C52_nil_option"
   ],
   "note": ""
  },
  {
   "property": "C53",
   "status": "partial",
   "theorems": [
    "C53_crash_refuted",
    "C53_bounded_partial",
    "C53_progress_partial",
    "C53_returns_partial",
    "C53_any_size_refuted"
   ],
   "note": "False of the code: Close while part of a frame header has been read can crash the process. Proved: otherwise the goroutines stop within boundedly many moves, never block, and Close returns. The counterexamples hold at all larger buffer sizes, the library's included (C77)."
  },
  {
   "property": "C54",
   "status": "partial",
   "theorems": [
    "C54_plain_hosts_partial",
    "C54_colon_refuted"
   ],
   "note": "False of the code for hosts with colons (IPv6). Proved: it holds exactly for hosts without colon and square brackets."
  },
  {
   "property": "C55",
   "status": "partial",
   "theorems": [
    "C55_error_code_ignored_refuted",
    "C55_request_error_partial"
   ],
   "note": "False of the code: the error code is not looked at. Proved: errors of the request itself are returned."
  },
  {
   "property": "C56",
   "status": "proved",
   "theorems": [
    "C56_get_range",
    "C56_get_absent",
    "C56_range_calls"
   ],
   "note": ""
  },
  {
   "property": "C57",
   "status": "proved",
   "theorems": [
    "C57_grammar",
    "C57_encodings"
   ],
   "note": ""
  },
  {
   "property": "C58",
   "status": "partial",
   "theorems": [
    "C58_null_topics_refuted",
    "C58_forward_partial",
    "C58_exactly_partial",
    "C58_length",
    "C58_size"
   ],
   "note": "Refuted: null lists of structures, null strings, other negative counts and boolean bytes above 1 are read but written differently (a null topic list, all topics, becomes the empty one). Proved: exactly the bytes without these come back; length and Size proved for all bytes read into a zero value."
  },
  {
   "property": "C59",
   "status": "partial",
   "theorems": [
    "C59_flexible_refuted",
    "C59_reached_refuted",
    "C59_compact_exists",
    "C59_plain_partial"
   ],
   "note": "Refuted: 24 APIs are declared up to their first flexible version, and at that version no request is in Kafka's compact form. Proved for all other versions. The table of first flexible versions and the compact form are statements about Kafka 2.4, written down in FlexSpec.v. They were written from memory, without Kafka's sources at hand."
  },
  {
   "property": "C60",
   "status": "partial",
   "theorems": [
    "C60_offset_commit_refuted",
    "C60_layout_partial",
    "C60_coverage",
    "C60_keys"
   ],
   "note": "Refuted for OffsetCommit requests of version 1, which lack Kafka's commit timestamp. Proved for the 181 other layouts, which cover every request and response at every version that is not flexible, and for all keys and highest versions. The layouts in KafkaSpec.v were typed from memory of the protocol guide, after the code had been read and without Kafka's sources at hand: they are a second reading, not an authority. They give types and order, not field names."
  },
  {
   "property": "C61",
   "status": "partial",
   "theorems": [
    "C61_no_null_refuted",
    "C61_null_exists",
    "C61_keys_partial",
    "C61_replicas_partial"
   ],
   "note": "Refuted: none of 16 fields listed as nullable can be sent as null (Go strings and slices of structures have no null on the wire). Proved to work for two nullable arrays of strings or numbers. Which fields are nullable was written from memory."
  },
  {
   "property": "C62",
   "status": "partial",
   "theorems": [
    "C62_any_size_refuted",
    "C62_entry_stays_refuted",
    "C62_table_grows_refuted",
    "C62_decode_after_return_refuted",
    "C62_answered_partial",
    "C62_entries_partial",
    "C62_table_partial"
   ],
   "note": "Refuted for a call whose write fails: its entry stays, the table grows by one with each such call, and its decode function may run after Do returned. Proved for calls that return a reply; the table is characterised exactly (up to 2^32 calls). The counterexamples hold at all larger buffer sizes, the library's included (C77)."
  },
  {
   "property": "C63",
   "status": "partial",
   "theorems": [
    "C63_any_size_refuted",
    "C63_bytes_ignored_refuted",
    "C63_response_lost_refuted",
    "C63_before_error_partial"
   ],
   "note": "Refuted: bytes returned together with an error are dropped, and the call they answer never returns. Proved: what came without an error is processed, also after the connection is lost (with the ring waking correctly, see C27). The counterexamples hold at all larger buffer sizes, the library's included (C77)."
  },
  {
   "property": "C64",
   "status": "proved",
   "theorems": [
    "C64_all",
    "C64_fields",
    "C64_written",
    "C64_read"
   ],
   "note": "Proved for all types against a list of field names. The list was typed from memory, not copied from Kafka."
  },
  {
   "property": "C65",
   "status": "partial",
   "theorems": [
    "C65_not_exported_refuted",
    "C65_literal_refuted",
    "C65_exported_partial"
   ],
   "note": "Refuted for CreateTopicsRequest (timeoutMs and validateOnly are unexported; outside the package they are always 0 and false, short of decoding a request). Proved for all other types."
  },
  {
   "property": "C66",
   "status": "partial",
   "theorems": [
    "C66_returned_refuted",
    "C66_returns_partial",
    "C66_returned_partial",
    "C66_call_partial",
    "C66_any_size_refuted"
   ],
   "note": "Refuted by the early wake of the ring (C27): the response to a Heartbeat call arrives in two pieces and the call never returns. Proved for all executions without such a wake: a call returns the response sent to it, and has returned it once everything that arrived has been read, unless writing failed; calls get the broker's answers to their own requests (C66_call_partial, the answers half of C80 for the whole client). The counterexamples hold at all larger buffer sizes, the library's included (C77). C85 gives conditions on network, scheduler and program under which no such wake happens."
  },
  {
   "property": "C67",
   "status": "partial",
   "theorems": [
    "C67_log",
    "C67_count_refuted",
    "C67_memory_partial",
    "C67_failed_partial"
   ],
   "note": "Refuted: the count in front of an array is given to make before the array is read, so in every message with an array any count up to 2^31-1 is asked for by a frame no longer than an all-zero message. Proved: a decoding that succeeds has asked for at most as many elements as the frame has bytes; one that returns an error for at most three times 2^31-1 more (one array per level of nesting). That the decoders with the log are the Decode methods is proved."
  },
  {
   "property": "C68",
   "status": "partial",
   "theorems": [
    "C68_misread_refuted",
    "C68_never_refuted",
    "C68_heartbeat_refuted",
    "C68_plain_partial"
   ],
   "note": "Refuted for the 24 APIs with a flexible version: if a method reads what Kafka sent there, only zeros were sent; a response with a string or an array is never read right; all Heartbeat error codes up to 255 are read as success from version 4 on. Proved for all non-flexible versions. What Kafka sends was written down from memory."
  },
  {
   "property": "C69",
   "status": "partial",
   "theorems": [
    "C69_format_refuted",
    "C69_kafka_exists",
    "C69_no_records_refuted",
    "C69_fixed_fields_partial"
   ],
   "note": "Refuted for every batch, even an empty one: Kafka's form is longer by at least 4 bytes (the number of records is not written) and one more per record (nor is the number of headers). Where Kafka has the number of records it finds 0 if the first record has the batch's timestamp. Proved: the 57 bytes of fixed fields are in their place. Kafka's format was written down from memory."
  },
  {
   "property": "C70",
   "status": "partial",
   "theorems": [
    "C70_leader",
    "C70_coordinator",
    "C70_controller_partial",
    "C70_version0_refuted"
   ],
   "note": "Refuted for DialController at version 0 of Metadata, which carries no controller: node 0 is connected to. Proved for DialController from version 1 on, and for DialLeader and DialGroupCoordinator at all versions."
  },
  {
   "property": "C71",
   "status": "partial",
   "theorems": [
    "C71_race_free_partial",
    "C71_race_refuted",
    "C71_plain_race_is_race"
   ],
   "note": "Refuted at every size from 8 on: a Read woken by the Release of a Write it already consumed, or by Close, reads the cell the next Write writes. Proved for open rings when nobody waiting is woken early (the hypothesis of C27). Happens-before counts only store-then-load of next/start and channel meetings, a subset of Go's edges; the refuting races have no step of the reader in between, so no edge could order them."
  },
  {
   "property": "C72",
   "status": "partial",
   "theorems": [
    "C72_messages",
    "C72_messages_read",
    "C72_messages_otherwise",
    "C72_methods",
    "C72_narrow_refuted",
    "C72_late_refuted",
    "C72_varint_partial",
    "C72_wide_partial",
    "C72_var_partial"
   ],
   "note": "Refuted for VarBytes and VarString on 32 bits (of a length that is too long the low 32 bits count) and for VarInt with later releases of Go (a number cut off after more than ten bytes is 0 without error). Proved for all 218 messages, for all methods without Var in their names, for VarInt on every input in which no byte follows ten that continue a number (with Go up to 1.15: on every input), for VarBytes and VarString likewise on 64 bits, and on 32 bits for lengths that fit. Where make gives less, messages read elsewhere are still read, and the only other outcome is a panic. The later binary.Uvarint was written down from memory."
  },
  {
   "property": "C73",
   "status": "proved",
   "theorems": [
    "C73_contract",
    "C73_rules_needed",
    "C73_wait_hangs",
    "C73_ready"
   ],
   "note": "The condition is on calls and returns only. The positive halves of C27 and C71 follow from it without their condition on wake-ups. The rules do not make a waiting ReadN return: it can miss its wake-up (C73_wait_hangs, C29)."
  },
  {
   "property": "C74",
   "status": "partial",
   "theorems": [
    "C74_response_refuted",
    "C74_buffer_refuted",
    "C74_races_partial",
    "C74_calls_partial",
    "C74_encoder_partial",
    "C74_none_partial",
    "C74_network_partial",
    "C74_any_size_refuted"
   ],
   "note": "The full statement is false (C74_response_refuted, C74_buffer_refuted). Proved: these two are all the races there are on the three places. A race is two goroutines whose next steps access one place, one writing; the model's steps for the table of requests are the critical sections of readLock. The counterexamples hold at all larger buffer sizes, the library's included (C77)."
  },
  {
   "property": "C75",
   "status": "partial",
   "theorems": [
    "C75_ignored_refuted",
    "C75_done_refuted",
    "C75_hangs_refuted",
    "C75_never_done_partial"
   ],
   "note": "The full statement is false: no operation looks at its context (C75_ignored_refuted, C75_done_refuted, C75_hangs_refuted). Proved: with a context that is never done the operations are the ones of C41-C46."
  },
  {
   "property": "C76",
   "status": "partial",
   "theorems": [
    "C76_subscribe_refuted",
    "C76_harmless_partial"
   ],
   "note": "The full statement is false for every call (C76_subscribe_refuted): Subscribe is a stub. Proved: it has no effect."
  },
  {
   "property": "C77",
   "status": "proved",
   "theorems": [
    "C77_larger",
    "C77_seen",
    "C77_callers"
   ],
   "note": "Proved for DecodeFuncs that look only at the frame, as the library's do (C12). With it the counterexamples of C36, C38, C53, C62, C63, C66 and C74, written in buffers of 64 and 16 bytes, are carried over to all larger sizes (theorems ..._any_size_refuted), among them the library's."
  },
  {
   "property": "C78",
   "status": "partial",
   "theorems": [
    "C78_whole_partial",
    "C78_one_write_partial",
    "C78_exactly_partial",
    "C78_flushed",
    "C78_torn_refuted"
   ],
   "note": "Requests of up to 4096 bytes are sent with one Write and arrive whole or not at all; a Flush without error has sent the whole request, of any length. Refuted for longer ones: every request of every method longer than 4096 bytes can be torn after 4096 bytes."
  },
  {
   "property": "C79",
   "status": "proved",
   "theorems": [
    "C79_returns",
    "C79_sends",
    "C79_failed"
   ],
   "note": "Liveness under stated fairness (strong for callers at the mutex, weak for the message loop). The broker and ReadN are hypotheses; at most 2^32 calls, no crash, no Close. C79_sends and C79_failed need only the fairness of the callers."
  },
  {
   "property": "C80",
   "status": "proved",
   "theorems": [
    "C80_broker_reads",
    "C80_call",
    "C80_client_reads",
    "C80_text"
   ],
   "note": "Composition of C20, C32, C33 and C35 over the connection machine; what ReadN returns is the broker's stream by hypothesis (the ring buffer can break it: C36, C66; C66_call_partial is C80_call for the whole client). C80_broker_reads and C80_client_reads need nothing from the broker."
  },
  {
   "property": "C81",
   "status": "proved",
   "theorems": [
    "C81_metadata",
    "C81_leader",
    "C81_controller",
    "C81_coordinator"
   ],
   "note": "The three models composed: the client's requests and answers (C41, C46, C70) are those of runs of the connection machine against brokers (C80). At version 0 of Metadata the controller is not carried and taken for node 0 (C70), which C81_controller says. ReadN delivering what the broker sent is assumed as in C80."
  },
  {
   "property": "C82",
   "status": "proved",
   "theorems": [
    "C82_as_told",
    "C82_never_plain"
   ],
   "note": "The client of Client.v over any environment; the settings are those the caller wrote (C52)."
  },
  {
   "property": "C83",
   "status": "partial",
   "theorems": [
    "C83_named_partial",
    "C83_others_partial",
    "C83_nobody_named_refuted"
   ],
   "note": "Refuted by DialGroupCoordinator without bootstrap servers, which dials \":0\". Proved for every other operation, and for every client with a bootstrap server."
  },
  {
   "property": "C84",
   "status": "proved",
   "theorems": [
    "C84_no_retries"
   ],
   "note": "Counted over the events of one operation in any environment."
  },
  {
   "property": "C85",
   "status": "proved",
   "theorems": [
    "C85_frames",
    "C85_bounded",
    "C85_delivered",
    "C85_call",
    "C85_needed"
   ],
   "note": "The conditions are on what the network, the scheduler and the program do, not on the inside of the ring; C85_needed has a failing execution for each of them left out. A response that makes its decoder panic (C13) still ends the process: the delivery theorems assume that none did."
  },
  {
   "property": "C86",
   "status": "proved",
   "theorems": [
    "C86_seen",
    "C86_returns",
    "C86_needed"
   ],
   "note": "C79 for the whole connection: where C79 assumes that ReadN returns, here it follows from the conditions on network, scheduler and program. What the call returns is the subject of C66 and C85. As in C85 no response may make its decoder panic (C13), and as in C79 at most 2^32 calls are made."
  },
  {
   "property": "C87",
   "status": "proved",
   "theorems": [
    "C87_encoder",
    "C87_encoder_ends",
    "C87_decoder",
    "C87_decoder_rest",
    "C87_sizeof",
    "C87_round_trip"
   ],
   "note": "The text is Source.v, translated by tools/go_source.py; its meaning is the interpreter of GoLang.v. The claims that mention functions of the model show that the hand-written model is the text; C87_round_trip mentions the text alone. Slices nobody changes are values, so sharing of their memory is not seen here (C68 and C69 are about that); a nil buffer given to NewDecoder is left out."
  },
  {
   "property": "C88",
   "status": "proved",
   "theorems": [
    "C88_size",
    "C88_encode",
    "C88_decode",
    "C88_layouts",
    "C88_text",
    "C88_round_trip"
   ],
   "note": "The text is SourceMessages.v, translated by tools/go_source.py; its meaning is the interpreter of GoLang.v. C88_size, C88_encode and C88_decode show that the generated model of the methods is the text; C88_round_trip mentions the text and the layouts alone, and C88_text says that the layouts are what the file declares. A slice of structures is a value here, so sharing of its memory is not seen. The statements are for every sufficiently large bound on nested calls and rounds of loops, that is, for executions that are not cut off."
  },
  {
   "property": "C89",
   "status": "proved",
   "theorems": [
    "C89_new",
    "C89_text_to_model",
    "C89_model_to_text",
    "C89_same_moves",
    "C89_every_schedule"
   ],
   "note": "The text is SourceRing.v, translated by tools/go_source.py --ring; its meaning is the interpreter of GoConc.v, which turns a call into a tree of shared accesses, communications and expiries. C89_text_to_model holds for all calls, C89_model_to_text and C89_same_moves for calls with slices of at least n bytes: for others the text panics where the model does so one step later. Plain accesses to fields nobody writes after New are not steps of their own, and the caller's slices are the caller's. C27, C28, C29, C30 and C31 have theorems about the text as well (C27_text_fifo_refuted and others)."
  },
  {
   "property": "C90",
   "status": "proved",
   "theorems": [
    "C90_connect",
    "C90_dial_error",
    "C90_text_to_model",
    "C90_model_to_text",
    "C90_sensible",
    "C90_results"
   ],
   "note": "The text is SourceConn.v, translated by tools/go_source.py --conn; its meaning is the interpreter of GoFlow.v, which turns a function into a tree of questions, and the machine of SourceConnSpec.v, which answers them. Other packages (ring, encoder, decoder, bufio, ResponseHeader) are in the machine as they are in the model; for ring, encoder, decoder and messages C87 to C89 compare these with their text. C90_text_to_model holds for all executions of the text, C90_model_to_text for those of the model in which Read returns at most as many bytes as its buffer holds. A message loop that ends and an error of readLoop take two moves of the text where the model has one, a locked section up to four. C32, C33, C35, C39 and C80 have theorems about the text as well (C32_text, C33_text_own and others)."
  },
  {
   "property": "C91",
   "status": "proved",
   "theorems": [
    "C91_dial_leader",
    "C91_dial_controller",
    "C91_dial_group_coordinator",
    "C91_metadata",
    "C91_new_broker",
    "C91_close",
    "C91_new_client",
    "C91_with_dialer",
    "C91_with_tls"
   ],
   "note": "The text is SourceClient.v and, for dial and Connect, SourceConn.v, translated by tools/go_source.py --client and --conn; its meaning is the interpreter of GoShare.v, and [machine] (SourceClientSpec.v) answers what is not in the program: the dialler, tls, fmt, strconv.Itoa and the three request methods of Broker, which C04 to C07 and C32 to C39 are about. What Connect starts is the subject of C90. The theorems for the three Dial methods assume that ports are int32 (ports_ok), as their Go type is. Fuel is any number from enough + 7 = 65545 on. C41, C43, C44 and C45 have theorems about the text as well (C41_text_leader and others)."
  },
  {
   "property": "C92",
   "status": "proved",
   "theorems": [
    "C92_method",
    "C92_encode",
    "C92_decode"
   ],
   "note": "The text is SourceClient.v (tools/go_source.py --client), its meaning the interpreter of GoShare.v. Size, Encode and PutInt32 are answered by the model ([encoding], SourceBrokerSpec.v); C87 and C88 compare these with their text. Do itself is the subject of C90, which is for all EncodeFuncs and DecodeFuncs. C92_decode says which call of Decode is made; what it does is C21, C88. C20 has a theorem about the text as well (C20_text_frame)."
  },
  {
   "property": "C93",
   "status": "proved",
   "theorems": [
    "C93_size",
    "C93_encode",
    "C93_get",
    "C93_range",
    "C93_text_encode"
   ],
   "note": "The text is SourceRecords.v (tools/go_source.py --records), its meaning the interpreter of GoShare.v. Put methods, sizeof functions and Timestamp.Unix() are answered by the model ([recording], SourceRecordsSpec.v); C87 compares the first two with their text. A map is a number, and `orders` has its entries in the order of a visit; a Header is nil or a MapHeader. C47, C48, C49 and C50 have a theorem about the text as well."
  }
 ]
}
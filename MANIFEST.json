{
 "claims": [
  {
   "property": "C01",
   "status": "proved",
   "theorems": [
    "C01_scalar_constructors_round_trip"
   ],
   "note": ""
  },
  {
   "property": "C02",
   "status": "partial",
   "theorems": [
    "C02_decimal_refuted",
    "C02_decimal_partial"
   ],
   "note": "False as stated: Value.Decimal128 exchanges the two halves. The partial theorem gives what the getter returns and that the bytes are right."
  },
  {
   "property": "C03",
   "status": "proved",
   "theorems": [
    "C03_validate_size_is_bytes_written"
   ],
   "note": ""
  },
  {
   "property": "C04",
   "status": "proved",
   "theorems": [
    "C04_marshal_is_the_bson_encoding"
   ],
   "note": ""
  },
  {
   "property": "C05",
   "status": "partial",
   "theorems": [
    "C05_marshal_read_round_trip_partial"
   ],
   "note": "The walk of the read document equals the walk of the built one for all trees; it is the tree itself when the tree has no Decimal128, because of C02."
  },
  {
   "property": "C06",
   "status": "proved",
   "theorems": [
    "C06_read_marshal_byte_fidelity"
   ],
   "note": ""
  },
  {
   "property": "C07",
   "status": "proved",
   "theorems": [
    "C07_encoding_injective_and_self_delimiting"
   ],
   "note": ""
  },
  {
   "property": "C08",
   "status": "proved",
   "theorems": [
    "C08_arrays_use_index_keys",
    "C08_array_keys"
   ],
   "note": ""
  },
  {
   "property": "C09",
   "status": "proved",
   "theorems": [
    "C09_reader_validate_accepts_well_formed"
   ],
   "note": ""
  },
  {
   "property": "C10",
   "status": "partial",
   "theorems": [
    "C10_reading_refuted",
    "C10_read_document_partial",
    "C10_reader_validate_partial"
   ],
   "note": "False as stated (three kinds of inputs loop or panic). Proved for all other byte strings below 2^31-16 bytes."
  },
  {
   "property": "C100",
   "status": "partial",
   "theorems": [
    "C100_forwards",
    "C100_refuted"
   ],
   "note": "False: the methods that start and stop the timer are called Begin and End and are not those of the interface, so the timer is never started or stopped. Proved: all calls are passed on and Reset resets the timer."
  },
  {
   "property": "C101",
   "status": "partial",
   "theorems": [
    "C101_model",
    "C101_update_flags",
    "C101_names_refuted",
    "C101_reply_flags_refuted",
    "C101_msg_flags_refuted",
    "C101_kinds_refuted",
    "C101_empty_body_refuted"
   ],
   "note": "False: the flags of OP_MSG and of replies are decoded by value and not by bit, and wrongly; the database, collection and operation of an OP_MSG are always empty; get-more, kill-cursors and command-reply messages have no structure; an OP_MSG with an empty body panics. Proved: all other content of every other message."
  },
  {
   "property": "C102",
   "status": "partial",
   "theorems": [
    "C102_has_response",
    "C102_msg_refuted"
   ],
   "note": "False for OP_MSG: wrong for every message without optional flags. Proved for all other kinds."
  },
  {
   "property": "C103",
   "status": "partial",
   "theorems": [
    "C103_validate_partial",
    "C103_stops",
    "C103_value_partial",
    "C103_key",
    "C103_length_refuted",
    "C103_string_refuted",
    "C103_scope_refuted"
   ],
   "note": "Validate accepts exactly the grammar, proved for strings in which no length field is negative (a negative one can make it loop, C10). Value.Validate is proved to imply the deeper checks when no length inside is negative and, for code with scope, when the length of the code is not negative. Refuted as a check of well-formedness: a document with its terminator before its declared end, a string of bytes without terminator, and code with scope of any contents all pass Reader.Validate."
  },
  {
   "property": "C104",
   "status": "partial",
   "theorems": [
    "C104_chunks",
    "C104_ends",
    "C104_errors_partial",
    "C104_sequential",
    "C104_missed_refuted",
    "C104_canceled_refuted",
    "C104_metadata_refuted"
   ],
   "note": "False for Close: the channels are closed before the errors are stored, so Close after the loop may return nil for any corrupt stream, and ReadMetrics and the others then never report the error; a loop left early may leave context.Canceled; Metadata may run ahead of the chunk at hand. Proved: the chunks, the end, and that the errors are all there once the goroutines are gone."
  },
  {
   "property": "C105",
   "status": "partial",
   "theorems": [
    "C105_range",
    "C105_leave",
    "C105_again_refuted",
    "C105_error_refuted"
   ],
   "note": "False for a second loop over the same sequence: it goes on where the first stopped, and after an error it can panic when left, because the stored error is yielded to a body that has left. Proved for the first loop over any bytes."
  },
  {
   "property": "C106",
   "status": "partial",
   "theorems": [
    "C106_all",
    "C106_ends",
    "C106_children",
    "C106_cycle_refuted"
   ],
   "note": "Proved for all schedules, and for all tables in which chains of children end. False otherwise: the recursion does not remember processes it has seen and does not return. The table is taken not to change during the calls."
  },
  {
   "property": "C107",
   "status": "partial",
   "theorems": [
    "C107_makes",
    "C107_made",
    "C107_own",
    "C107_edit",
    "C107_nowhere_else",
    "C107_edited",
    "C107_value_set",
    "C107_isolated",
    "C107_value_copy",
    "C107_copy_shared",
    "C107_copy_refuted",
    "C107_value_copy_refuted",
    "C107_set_value_refuted",
    "C107_itself_refuted"
   ],
   "note": "Sharing and isolation proved for all histories. False: the copies are independent only of what has not been looked into; Element.SetValue also replaces the key; a document appended to itself makes every writer that reaches it run for ever. Code with scope is taken as bytes and nil elements are left out."
  },
  {
   "property": "C108",
   "status": "partial",
   "theorems": [
    "C108_count",
    "C108_effects",
    "C108_adds",
    "C108_sets",
    "C108_delete_from_copy",
    "C108_delete_refuted",
    "C108_reset_refuted",
    "C108_capacity_refuted"
   ],
   "note": "Count, added, replaced and the copy idiom proved for all bodies. False: deleting what is yielded skips the second element of every document of three or more; Reset makes the rest of the loop yield nil; after an append, whether a replacement is yielded depends on the capacity. irt.Slice by contract."
  },
  {
   "property": "C109",
   "status": "proved",
   "theorems": [
    "C109_values",
    "C109_runs"
   ],
   "note": "Refinement: memory shared through the pools behaves as independent values. The pools (adt.DefaultBufferPool) and Slice.Grow by contract; slices of the results handed on are not followed further (C107 does)."
  },
  {
   "property": "C11",
   "status": "partial",
   "theorems": [
    "C11_validated_element_refuted",
    "C11_validated_element_partial",
    "C11_validated_document_is_read"
   ],
   "note": "False for a string of length 0. Proved for all types under explicit conditions on the length fields that validation does not check."
  },
  {
   "property": "C110",
   "status": "partial",
   "theorems": [
    "C110_returns_partial",
    "C110_scope_refuted",
    "C110_string_refuted"
   ],
   "note": "False: code with scope of four to six bytes at the end, or with a negative length of code, and strings, code and symbols with a length that points before the data make it panic, the first two in documents Reader.Validate accepts. Proved for all bytes without such lengths. Slices are taken to have no capacity beyond their length."
  },
  {
   "property": "C111",
   "status": "partial",
   "theorems": [
    "C111_document",
    "C111_reports",
    "C111_errors",
    "C111_isolated",
    "C111_usage",
    "C111_devices",
    "C111_series_refuted",
    "C111_failure_refuted",
    "C111_percent_refuted",
    "C111_returns_partial"
   ],
   "note": "False for series: devices are listed in the order of a Go map loop, so two reports of an unchanged machine can put two devices under one name; a failed source cannot be told from zeros in the document; an empty list of percentages panics. The document, the independence of sources and the usages are proved for all machines. What gopsutil returns is a parameter."
  },
  {
   "property": "C112",
   "status": "partial",
   "theorems": [
    "C112_documents_partial",
    "C112_read_from_partial",
    "C112_streaming",
    "C112_noticed_refuted",
    "C112_lost_chunks_refuted",
    "C112_appended_refuted"
   ],
   "note": "Proved for every cut: no whole document or chunk is lost and nothing is made up. False for being told: a cut four bytes into a document or chunk looks like the end of a complete file. False for appending: what follows a part of a document is taken for its rest."
  },
  {
   "property": "C113",
   "status": "partial",
   "theorems": [
    "C113_document",
    "C113_reports",
    "C113_errors",
    "C113_series_partial",
    "C113_series_refuted",
    "C113_failure_refuted",
    "C113_gone_refuted"
   ],
   "note": "The document and what is in it are proved for all processes. The series are the same for reports with the same number of interfaces; a failing NetIOCounters takes series away, so the schema changes. A failed source cannot be told from zeros in the document, and a report on a process that is gone has pid 0. What gopsutil returns is a parameter."
  },
  {
   "property": "C114",
   "status": "partial",
   "theorems": [
    "C114_document",
    "C114_reader",
    "C114_alike",
    "C114_array",
    "C114_no_panic",
    "C114_keys_refuted",
    "C114_subtype_refuted",
    "C114_order_refuted",
    "C114_cut_refuted"
   ],
   "note": "What is printed is proved for all documents, arrays and readers. Different documents can print alike: keys are not quoted, the subtype of binary data and the order of the fields of embedded documents are not printed. A Reader whose bytes end early prints as an empty one. fmt and strconv.Quote are parameters; that fmt prints a map by its entries is a hypothesis where it is used."
  },
  {
   "property": "C115",
   "status": "partial",
   "theorems": [
    "C115_document",
    "C115_code",
    "C115_array_partial",
    "C115_array_refuted",
    "C115_reader_refuted",
    "C115_string_refuted",
    "C115_code_refuted"
   ],
   "note": "Proved for embedded documents and scopes however they were obtained, and for arrays that were read. False for arrays that were built, whose bytes have empty keys, and for Reader on other types: it panics on null, undefined, min and max keys, booleans and most 32-bit integers, drops four bytes of a string, and gives different bytes for a code with scope that was built and one that was read."
  },
  {
   "property": "C116",
   "status": "partial",
   "theorems": [
    "C116_errors",
    "C116_accepts",
    "C116_default",
    "C116_order",
    "C116_same_samples",
    "C116_names_refuted",
    "C116_listing_refuted",
    "C116_text_refuted",
    "C116_parallel_refuted"
   ],
   "note": "What is accepted and reported is proved for all options, and that samples do not depend on the order of listing when names are distinct. Names may repeat or be runtime, which gives samples with two fields of one key whose order is that of listing; intervals of exactly a millisecond and equal intervals are accepted against the texts; accepted parallel options never give a sample (C46). How the errors are joined is outside /repo."
  },
  {
   "property": "C117",
   "status": "proved",
   "theorems": [
    "C117_present",
    "C117_absent",
    "C117_null"
   ],
   "note": "Documents whose elements are nil pointers are outside the theorems; Key panics on those."
  },
  {
   "property": "C118",
   "status": "partial",
   "theorems": [
    "C118_document",
    "C118_array",
    "C118_not_object",
    "C118_not_array",
    "C118_error_refuted"
   ],
   "note": "The last part is false: an error in a later member leaves the members before it in the document, so reading again after an error repeats them."
  },
  {
   "property": "C119",
   "status": "partial",
   "theorems": [
    "C119_document",
    "C119_array",
    "C119_original",
    "C119_original_array",
    "C119_nested_refuted",
    "C119_nil_refuted"
   ],
   "note": "The part on documents inside is false: Value.Copy keeps the pointer, so a nested document is shared. Copy panics on a nil element or value. Edits of the original are proved for Append to the document or array itself only."
  },
  {
   "property": "C12",
   "status": "proved",
   "theorems": [
    "C12_encoders_stay_in_their_window"
   ],
   "note": ""
  },
  {
   "property": "C13",
   "status": "proved",
   "theorems": [
    "C13_ok_getters"
   ],
   "note": ""
  },
  {
   "property": "C14",
   "status": "proved",
   "theorems": [
    "C14_equal_is_equality"
   ],
   "note": ""
  },
  {
   "property": "C15",
   "status": "proved",
   "theorems": [
    "C15_operations_refine_lists",
    "C15_each_operation"
   ],
   "note": ""
  },
  {
   "property": "C16",
   "status": "partial",
   "theorems": [
    "C16_map_refuted",
    "C16_map_partial",
    "C16_map_returns"
   ],
   "note": "False as stated: Map is stale after a Map followed by a replacing Set. Proved for the first Map of a document and for a Map right after an Append, after any history."
  },
  {
   "property": "C17",
   "status": "proved",
   "theorems": [
    "C17_search_follows_the_path",
    "C17_path_is_functional"
   ],
   "note": ""
  },
  {
   "property": "C18",
   "status": "partial",
   "theorems": [
    "C18_less_refuted",
    "C18_sorted_partial",
    "C18_sorted_is_unique",
    "C18_keys_in_order"
   ],
   "note": "Relative to the contract of sort.Stable, for all documents without NaN doubles; with NaNs the comparison is not an order."
  },
  {
   "property": "C19",
   "status": "proved",
   "theorems": [
    "C19_copies_are_independent"
   ],
   "note": ""
  },
  {
   "property": "C20",
   "status": "proved",
   "theorems": [
    "C20_array_operations_are_list_operations"
   ],
   "note": ""
  },
  {
   "property": "C21",
   "status": "proved",
   "theorems": [
    "C21_one_document",
    "C21_document_sequence",
    "C21_count_is_bytes_consumed",
    "C21_cut_stream"
   ],
   "note": ""
  },
  {
   "property": "C22",
   "status": "proved",
   "theorems": [
    "C22_from_hex",
    "C22_from_hex_exact",
    "C22_from_hex_error",
    "C22_json_round_trip",
    "C22_json_object"
   ],
   "note": "The JSON theorems hold for any json.Unmarshal that decodes a quoted string of hexadecimal digits to that string."
  },
  {
   "property": "C23",
   "status": "partial",
   "theorems": [
    "C23_unique_refuted",
    "C23_unique_partial",
    "C23_equal_ids",
    "C23_carries_the_second"
   ],
   "note": "False as stated: a call held up between reading the clock and adding to the counter can repeat an id. Proved: two calls get equal ids exactly when they read the same second and are a multiple of 2^24 calls apart, so ids are distinct for up to 2^24 calls in all, and for up to 2^24 calls per second when no call is held up across a second."
  },
  {
   "property": "C24",
   "status": "proved",
   "theorems": [
    "C24_round_trip",
    "C24_special"
   ],
   "note": ""
  },
  {
   "property": "C25",
   "status": "partial",
   "theorems": [
    "C25_division",
    "C25_multiply_refuted",
    "C25_multiply_partial"
   ],
   "note": "The multiply-add does not report every overflow; its value is right modulo 2^128 and what it reports is an overflow."
  },
  {
   "property": "C26",
   "status": "proved",
   "theorems": [
    "C26_string",
    "C26_round_trip"
   ],
   "note": "For every byte string; that it need not be UTF-8 makes it stronger."
  },
  {
   "property": "C27",
   "status": "partial",
   "theorems": [
    "C27_partial",
    "C27_float_text",
    "C27_document_partial",
    "C27_array_partial",
    "C27_keys_refuted",
    "C27_quote_refuted",
    "C27_infinite_refuted",
    "C27_floats_refuted",
    "C27_nil_refuted"
   ],
   "note": "False: keys are not escaped, NaN and the infinities are not JSON, integral floats come back as ints, nil documents panic. Proved: valid JSON standing for the document for all others, and the round trip up to the width of integers when every float is one that six decimals suffice for and is not an integer."
  },
  {
   "property": "C28",
   "status": "proved",
   "theorems": [
    "C28_wire_round_trip",
    "C28_serialize_content"
   ],
   "note": ""
  },
  {
   "property": "C29",
   "status": "proved",
   "theorems": [
    "C29_header_size",
    "C29_header_size_reached"
   ],
   "note": ""
  },
  {
   "property": "C30",
   "status": "partial",
   "theorems": [
    "C30_parse_panics_refuted_string",
    "C30_parse_panics_refuted_cursors",
    "C30_parse_panics_refuted_command",
    "C30_parse_panics_refuted_section",
    "C30_get_more_total_partial",
    "C30_unknown_op_total_partial",
    "C30_truncated_total_partial",
    "C30_total_partial",
    "C30_msg_total_partial",
    "C30_cursors_refuted",
    "C30_section_refuted",
    "C30_loop_refuted"
   ],
   "note": "False as stated: hostile bodies panic, and one makes an insert or reply parse loop for ever. Proved: for every body without negative string or code lengths, the only causes are a negative cursor count, an empty command query, a document with a negative length, one that is read but does not validate, or (OP_MSG) a length field that does not fit the body; get-more bodies, unknown op codes and truncations of valid messages are always parsed or rejected."
  },
  {
   "property": "C31",
   "status": "partial",
   "theorems": [
    "C31_read_last_partial",
    "C31_read_next_partial",
    "C31_read_message_refuted_overread",
    "C31_read_message_refuted_short",
    "C31_read_message_refuted_eof"
   ],
   "note": "False as stated: a first read that reaches into the next message, or is shorter than four bytes, or comes with io.EOF loses bytes. Proved for all other chunkings."
  },
  {
   "property": "C32",
   "status": "proved",
   "theorems": [
    "C32_send_writes_message",
    "C32_send_no_panic",
    "C32_send_completes"
   ],
   "note": ""
  },
  {
   "property": "C33",
   "status": "partial",
   "theorems": [
    "C33_namespace_splits",
    "C33_namespace_no_dot",
    "C33_namespace_rejoins",
    "C33_is_command_refuted"
   ],
   "note": "The splitting is proved; the command test also accepts every collection whose name contains a dollar sign."
  },
  {
   "property": "C34",
   "status": "proved",
   "theorems": [
    "C34_registry",
    "C34_handlers_stay"
   ],
   "note": "For registries made by NewService or the package; Get with a nil scope panics, which the theorem states."
  },
  {
   "property": "C35",
   "status": "partial",
   "theorems": [
    "C35_integers_restored_partial",
    "C35_timestamp_refuted",
    "C35_date_refuted"
   ],
   "note": "Proved for every codec that decompresses what it compressed, all booleans, int32, int64, timestamp increments and dates within 64-bit nanoseconds, with wrap-around deltas; what becomes of seconds of timestamps and of other dates is proved too, and shown to be wrong."
  },
  {
   "property": "C36",
   "status": "partial",
   "theorems": [
    "C36_doubles_partial",
    "C36_refuted"
   ],
   "note": "False: from the second sample on the differences are restored, not the values. Proved for the first sample, and what the others are."
  },
  {
   "property": "C37",
   "status": "partial",
   "theorems": [
    "C37_structured_partial",
    "C37_refuted"
   ],
   "note": "False for doubles and timestamps. Proved for samples of the same shape whose metrics are exact."
  },
  {
   "property": "C38",
   "status": "proved",
   "theorems": [
    "C38_batch",
    "C38_metadata_any_time"
   ],
   "note": "For maxSamples of at least 1; for 0 or less every Resolve fails because the first chunk stays empty."
  },
  {
   "property": "C39",
   "status": "partial",
   "theorems": [
    "C39_dynamic_partial",
    "C39_metadata_any_time",
    "C39_refuted"
   ],
   "note": "False: the hash of the keys is never updated. Proved: accepted samples are kept once and in order in chunks of one schema (types and number of metrics), answers, Info and reading back."
  },
  {
   "property": "C40",
   "status": "proved",
   "theorems": [
    "C40_streaming"
   ],
   "note": ""
  },
  {
   "property": "C41",
   "status": "proved",
   "theorems": [
    "C41_synchronized",
    "C41_no_lost_samples",
    "C41_collectors",
    "C41_needs_lock"
   ],
   "note": "For every implementation of the methods in small steps that alone behaves as the collector inside."
  },
  {
   "property": "C42",
   "status": "partial",
   "theorems": [
    "C42_buffered_partial",
    "C42_drains",
    "C42_refuted"
   ],
   "note": "False: Add may panic after cancellation. Proved: delivery once and in order, and that nothing else goes wrong."
  },
  {
   "property": "C43",
   "status": "proved",
   "theorems": [
    "C43_sampling",
    "C43_spacing"
   ],
   "note": "For clocks that do not go back and runs of less than 292 years."
  },
  {
   "property": "C44",
   "status": "partial",
   "theorems": [
    "C44_document",
    "C44_unmarshal_partial",
    "C44_round_trip_refuted",
    "C44_running_sums",
    "C44_which",
    "C44_interval",
    "C44_returns",
    "C44_sampling_zero_refuted",
    "C44_reused_point_refuted",
    "C44_first_point_changes_refuted"
   ],
   "note": "False: the id, the operations and the time below a millisecond are not restored. The running sums are proved for callers that give every event a point of its own; reusing one, or sampling with n = 0, is refuted."
  },
  {
   "property": "C45",
   "status": "partial",
   "theorems": [
    "C45_refuted",
    "C45_dead_for_ever",
    "C45_partial"
   ],
   "note": "False: the worker may return with the lock, after any EndTest. Proved: progress as long as nothing is cancelled."
  },
  {
   "property": "C46",
   "status": "partial",
   "theorems": [
    "C46_sequential",
    "C46_refuted",
    "C46_ends",
    "C46_partial",
    "C46_panics_partial",
    "C46_panic_refuted"
   ],
   "note": "False: in parallel mode it never returns, and collectors that panic cost others their turn. Proved: sequential mode, and in parallel mode what the document has when it gets stuck, for any collectors."
  },
  {
   "property": "C47",
   "status": "partial",
   "theorems": [
    "C47_int_refuted",
    "C47_integer_constructors_partial",
    "C47_int_partial"
   ],
   "note": "False for int values below -2^31, which EC.Int truncates. Proved for every other value of every Go integer type."
  },
  {
   "property": "C48",
   "status": "proved",
   "theorems": [
    "C48_times_survive_to_the_millisecond"
   ],
   "note": ""
  },
  {
   "property": "C49",
   "status": "proved",
   "theorems": [
    "C49_reader_lookups",
    "C49_element_at_any_bytes"
   ],
   "note": ""
  },
  {
   "property": "C50",
   "status": "proved",
   "theorems": [
    "C50_marshal_document",
    "C50_marshal_invalid",
    "C50_unmarshal_document",
    "C50_unmarshal_bson",
    "C50_unmarshal_well_formed"
   ],
   "note": ""
  },
  {
   "property": "C51",
   "status": "partial",
   "theorems": [
    "C51_validate_keys_refuted",
    "C51_validate_partial"
   ],
   "note": "The keys are not checked, though documented."
  },
  {
   "property": "C52",
   "status": "partial",
   "theorems": [
    "C52_hostile_stream_refuted",
    "C52_new_from_io_reader_partial",
    "C52_read_from_partial"
   ],
   "note": "False: declared lengths below 4 panic. Proved for NewFromIOReader for every other stream, and for Document.ReadFrom for every other stream whose document has no negative length field (C10): it returns, consumes what it says, and accepts only what the bytes hold."
  },
  {
   "property": "C53",
   "status": "partial",
   "theorems": [
    "C53_only_ids_refuted",
    "C53_only_ids_partial",
    "C53_error_keeps_refuted"
   ],
   "note": "Any twelve bytes are taken for an id, and a failed call may have overwritten part of it. Proved for texts of any other length."
  },
  {
   "property": "C54",
   "status": "proved",
   "theorems": [
    "C54_scientific_string"
   ],
   "note": ""
  },
  {
   "property": "C55",
   "status": "partial",
   "theorems": [
    "C55_parse_refuted",
    "C55_long_number_refuted",
    "C55_parse_partial"
   ],
   "note": "False for large exponents, where an overflow goes unnoticed, and for long whole numbers, whose exponent is not checked. Proved for all numbers with at most 34 significant digits and the exponent in range."
  },
  {
   "property": "C56",
   "status": "proved",
   "theorems": [
    "C56_parse_total",
    "C56_string_total"
   ],
   "note": ""
  },
  {
   "property": "C57",
   "status": "partial",
   "theorems": [
    "C57_more_to_come_refuted"
   ],
   "note": "False: the flag is never set."
  },
  {
   "property": "C58",
   "status": "partial",
   "theorems": [
    "C58_parsed_header_partial",
    "C58_parsed_header_refuted"
   ],
   "note": "False for OP_MSG, whose size is recomputed without the header. Proved for all other kinds except command queries, which are turned into another message."
  },
  {
   "property": "C59",
   "status": "partial",
   "theorems": [
    "C59_sequence_size_partial",
    "C59_sequence_size_refuted"
   ],
   "note": "False: the size written also counts the kind byte. Proved that the parser accepts messages with the right sizes."
  },
  {
   "property": "C60",
   "status": "partial",
   "theorems": [
    "C60_is_empty_partial",
    "C60_is_empty_refuted",
    "C60_append_omit_empty"
   ],
   "note": "Every ObjectID counts as empty. Proved for all other types; AppendOmitEmpty is proved to append exactly what IsEmpty rejects."
  },
  {
   "property": "C61",
   "status": "proved",
   "theorems": [
    "C61_metadata"
   ],
   "note": ""
  },
  {
   "property": "C62",
   "status": "partial",
   "theorems": [
    "C62_names_partial",
    "C62_given",
    "C62_given_full",
    "C62_refuted"
   ],
   "note": "False from the third level of documents on, where two metrics may share a name. Proved for documents inside the top one and arrays of any depth. For all documents: the name is the first and the last key on the way, which is the full name exactly if there are at most two."
  },
  {
   "property": "C63",
   "status": "partial",
   "theorems": [
    "C63_flat",
    "C63_flat_partial"
   ],
   "note": "For samples with exact metrics (C36 says why not the others), of any depth, under the names of C62_given; these are the full names if samples are at most two documents deep."
  },
  {
   "property": "C64",
   "status": "partial",
   "theorems": [
    "C64_matrix",
    "C64_matrix_partial"
   ],
   "note": "For samples with exact metrics and no timestamps, of any depth, under the names of C62_given; these are the full names if samples are at most two documents deep."
  },
  {
   "property": "C65",
   "status": "partial",
   "theorems": [
    "C65_hostile_partial",
    "C65_refuted",
    "C65_reading_agrees",
    "C65_bytes_partial",
    "C65_nested_refuted",
    "C65_subtype2_refuted"
   ],
   "note": "False for chunks with fewer than four bytes of data or data of another type, for a binary of subtype 2 with a wrong inner length, and for a reference document with an invalid subdocument (ReadFrom checks sizes only; MutableDocument then panics). Proved for any bytes otherwise: documents with lengths of four or more and no negative length fields, chunks whose data is a binary of four bytes or more, reference documents that Reader.Validate accepts; arbitrary other fields, counts and deltas. The reading of raw bytes agrees with the observed one of C35-C40."
  },
  {
   "property": "C66",
   "status": "partial",
   "theorems": [
    "C66_streaming_dynamic_partial",
    "C66_refuted"
   ],
   "note": "False: after the first change of keys every sample is written alone. Proved: nothing lost, in order, equal key hashes inside a chunk."
  },
  {
   "property": "C67",
   "status": "proved",
   "theorems": [
    "C67_writer_errors"
   ],
   "note": ""
  },
  {
   "property": "C68",
   "status": "proved",
   "theorems": [
    "C68_uncompressed"
   ],
   "note": ""
  },
  {
   "property": "C69",
   "status": "partial",
   "theorems": [
    "C69_streaming_uncompressed_partial",
    "C69_refuted"
   ],
   "note": "False: once full, every Add fails. Proved: nothing lost, in order."
  },
  {
   "property": "C70",
   "status": "partial",
   "theorems": [
    "C70_refuted"
   ],
   "note": "False: base and streaming collectors keep the metadata, batch and dynamic ones drop it, and streaming dynamic uncompressed ones turn into FTDC collectors."
  },
  {
   "property": "C71",
   "status": "partial",
   "theorems": [
    "C71_refuted"
   ],
   "note": "False: samples may still be in the channel or under way."
  },
  {
   "property": "C72",
   "status": "partial",
   "theorems": [
    "C72_dispatch_partial",
    "C72_registries",
    "C72_refuted"
   ],
   "note": "False when a read reaches into the next message (C31). Proved for all other ways of cutting the bytes."
  },
  {
   "property": "C73",
   "status": "partial",
   "theorems": [
    "C73_single",
    "C73_partial",
    "C73_refuted",
    "C73_grouped_refuted",
    "C73_raw_twice_refuted",
    "C73_iterations_refuted"
   ],
   "note": "Proved for the single recorder. False for the others when the point has no time; proved when it has."
  },
  {
   "property": "C74",
   "status": "proved",
   "theorems": [
    "C74_conservation"
   ],
   "note": "For the four counters, modulo 2^64."
  },
  {
   "property": "C75",
   "status": "partial",
   "theorems": [
    "C75_grouped",
    "C75_histogram_refuted"
   ],
   "note": "Proved for NewGroupedRecorder; false for NewHistogramGroupedRecorder, which ignores its interval."
  },
  {
   "property": "C76",
   "status": "partial",
   "theorems": [
    "C76_reads",
    "C76_integers",
    "C76_unpaired_refuted"
   ],
   "note": "Proved for every JSON text whose escaped surrogates are paired; what a number that is not an integer literal becomes depends on strconv, a parameter. Refuted for unpaired surrogates: the next escape is lost."
  },
  {
   "property": "C77",
   "status": "partial",
   "theorems": [
    "C77_total",
    "C77_accepts",
    "C77_only_json_partial",
    "C77_only_json_refuted"
   ],
   "note": "False: numbers without digits after the minus are accepted. Proved: nothing else is, all JSON is, and every input returns."
  },
  {
   "property": "C78",
   "status": "partial",
   "theorems": [
    "C78_partial",
    "C78_decimal_refuted",
    "C78_binary_refuted"
   ],
   "note": "False: decimals are written with their halves exchanged, the base64 of binary values holds the subtype. Proved for all other documents with keys that need no escapes and finite doubles (C27)."
  },
  {
   "property": "C79",
   "status": "partial",
   "theorems": [
    "C79_partial",
    "C79_same_partial",
    "C79_int_refuted",
    "C79_date_refuted",
    "C79_special_refuted",
    "C79_binary_refuted"
   ],
   "note": "False: int64s below the int32s change value, dates lose milliseconds, documents whose first key is special change type, binary values make it panic. Proved: all other documents come back, with integers of the width EC.Int chooses."
  },
  {
   "property": "C80",
   "status": "partial",
   "theorems": [
    "C80_partial",
    "C80_panics_refuted"
   ],
   "note": "False: it panics where a string is expected and something else is found. Proved: it returns for all bytes in which the extended forms hold a string, or an object, where expected."
  },
  {
   "property": "C81",
   "status": "partial",
   "theorems": [
    "C81_partial",
    "C81_int_refuted"
   ],
   "note": "False: integers below the int32s change value. Proved for all other objects with keys without NUL."
  },
  {
   "property": "C82",
   "status": "partial",
   "theorems": [
    "C82_partial",
    "C82_failures",
    "C82_schema_refuted",
    "C82_double_refuted"
   ],
   "note": "False: other metrics in the same number are written under the first names; doubles are written as the integers of their bits. Proved: every sample once, in order, for metrics the format carries exactly, under the names of C62_given, and all failures of the writer."
  },
  {
   "property": "C83",
   "status": "partial",
   "theorems": [
    "C83_partial",
    "C83_failures"
   ],
   "note": "For chunks with metrics that the format carries exactly, under the names of C62_given; doubles as in C82."
  },
  {
   "property": "C84",
   "status": "partial",
   "theorems": [
    "C84_partial",
    "C84_empty",
    "C84_round_trip_partial",
    "C84_header_refuted",
    "C84_length_refuted",
    "C84_flush_refuted"
   ],
   "note": "False: records after a change of the number of fields are lost or an error, and the error of the final flush is lost. Proved for records of the header's length and a writer that takes everything, and that what WriteCSV wrote comes back."
  },
  {
   "property": "C85",
   "status": "partial",
   "theorems": [
    "C85_partial",
    "C85_input_refuted",
    "C85_cancel_refuted",
    "C85_crash_refuted",
    "C85_pending_refuted",
    "C85_follow_refuted"
   ],
   "note": "False: a line of 64 KiB or a read error ends the input in silence, a cancellation can drop the documents of a file and yet return nil, a line whose reading panics ends the process, an error discards the samples since the last flush, and Follow sees nothing after the first write event. Proved for inputs of documents without a cancellation, all schedules of the timer and all failures of WriteFile."
  },
  {
   "property": "C86",
   "status": "proved",
   "theorems": [
    "C86_runtime_files"
   ],
   "note": "The documents of generate are parameters (see C46 for it); the clock is given."
  },
  {
   "property": "C87",
   "status": "partial",
   "theorems": [
    "C87_request",
    "C87_response",
    "C87_unsent_refuted",
    "C87_empty_refuted",
    "C87_no_documents_refuted"
   ],
   "note": "False: a reply without documents makes ResponseMessageToDocument panic, an empty command query makes the receiver panic, and an unsent query is refused. Proved: every other document arrives as it was."
  },
  {
   "property": "C88",
   "status": "partial",
   "theorems": [
    "C88_documents",
    "C88_error_response",
    "C88_is_master",
    "C88_whats_my_uri",
    "C88_build_info",
    "C88_get_log_refuted",
    "C88_success",
    "C88_made"
   ],
   "note": "False for getLog, whose lines are never read. Proved for the others."
  },
  {
   "property": "C89",
   "status": "proved",
   "theorems": [
    "C89_register",
    "C89_served",
    "C89_client"
   ],
   "note": "For requests cut as in C72 and services without a handler for the command in a database of its own, which would take precedence."
  },
  {
   "property": "C90",
   "status": "partial",
   "theorems": [
    "C90_interface",
    "C90_map",
    "C90_document",
    "C90_element",
    "C90_element_refuted",
    "C90_array_refuted",
    "C90_native_refuted",
    "C90_nil_refuted"
   ],
   "note": "False: an *Element keeps its own key, an *Array becomes a document, the Go values of binary, ObjectID, regex, DBPointer, code and Decimal128 become null, a nil in a []*Value or []*Element is a panic. Proved for all other values (ints from the int32s up, C47), at every depth."
  },
  {
   "property": "C91",
   "status": "partial",
   "theorems": [
    "C91_converts",
    "C91_refuses",
    "C91_map",
    "C91_slice",
    "C91_document",
    "C91_nested_refuted",
    "C91_nil_document_refuted",
    "C91_element_refuted",
    "C91_null_value_refuted"
   ],
   "note": "False: below the outermost value nothing is refused but becomes null; a nil *Document and an *Element give elements that cannot be read or written; a null *Value is refused. Proved: the outermost value is refused if and only if it stands for nothing."
  },
  {
   "property": "C92",
   "status": "proved",
   "theorems": [
    "C92_export",
    "C92_value"
   ],
   "note": "The Go value of a Decimal128 has its halves exchanged, as in C02."
  },
  {
   "property": "C93",
   "status": "partial",
   "theorems": [
    "C93_round_trip",
    "C93_types_refuted",
    "C93_duplicates_refuted"
   ],
   "note": "False: eleven types come back as null or as a string, and of fields with one name only the last comes back. Proved for documents of the ten other types without duplicate keys."
  },
  {
   "property": "C94",
   "status": "partial",
   "theorems": [
    "C94_add",
    "C94_marshal",
    "C94_order",
    "C94_unmarshal",
    "C94_round_trip",
    "C94_refuted"
   ],
   "note": "False: Add accepts []bool, []uint32, []uint64 and unsigned numbers above MaxInt64, and a Custom with one of them cannot be marshalled at all. Proved for all other points; a nil slice is null."
  },
  {
   "property": "C95",
   "status": "partial",
   "theorems": [
    "C95_map",
    "C95_map_any",
    "C95_strings",
    "C95_delegates",
    "C95_nil_refuted"
   ],
   "note": "False for nil maps, which panic. Proved for all other targets; what an unmarshaler does with the bytes is its own affair."
  },
  {
   "property": "C96",
   "status": "partial",
   "theorems": [
    "C96_history",
    "C96_nil",
    "C96_len_refuted",
    "C96_set_refuted"
   ],
   "note": "False for Len, which never returns, and for Set of a key that is absent, which does nothing. dt.List by contract."
  },
  {
   "property": "C97",
   "status": "partial",
   "theorems": [
    "C97_run",
    "C97_deltas",
    "C97_deltas_refuted",
    "C97_rates_refuted",
    "C97_pause",
    "C97_document"
   ],
   "note": "False: of two collections within one tick of the clock the second reports no gain and the gain is never reported; the rates are per nanosecond in whole numbers and so zero below 10^9 events a second. Proved: everything else. The floating-point rates of CollectBasicGoStats are not modelled."
  },
  {
   "property": "C98",
   "status": "partial",
   "theorems": [
    "C98_end_test",
    "C98_stream",
    "C98_time_refuted",
    "C98_range_refuted",
    "C98_interval",
    "C98_interval_total_refuted",
    "C98_interval_refuted",
    "C98_document"
   ],
   "note": "False: all points of a test carry the time of its first iteration; the ranges are a hundredth and a twentieth of those documented; the interval recorder reports the total of the last iteration twice and drops what is reported after a tick unless an iteration begins or ends. Proved: everything else. hdrhist by contract."
  },
  {
   "property": "C99",
   "status": "partial",
   "theorems": [
    "C99_recorder",
    "C99_progress",
    "C99_panic_refuted",
    "C99_nothing_lost",
    "C99_collector"
   ],
   "note": "False after a panic of the recorder inside: its lock is not deferred and no later call returns. Proved for everything else."
  }
 ]
}
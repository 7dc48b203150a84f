{
 "claims": [
  {
   "property": "C01",
   "status": "proved",
   "theorems": [
    "C01_pool_is_a_stack"
   ],
   "note": "Refinement to a stack of byte strings over all histories of all operations."
  },
  {
   "property": "C02",
   "status": "proved",
   "theorems": [
    "C02_failed_push_leaves_no_trace"
   ],
   "note": "Contents equal and all later answers equal, for every error kind."
  },
  {
   "property": "C03",
   "status": "proved",
   "theorems": [
    "C03_push_succeeds_exactly",
    "C03_plain_push_succeeds_exactly"
   ],
   "note": "For all pools whose size computation did not wrap (see C09)."
  },
  {
   "property": "C04",
   "status": "proved",
   "theorems": [
    "C04_items_disjoint_in_bounds"
   ],
   "note": "Layout for every reachable pool; C01 gives absence of panics for every history."
  },
  {
   "property": "C05",
   "status": "proved",
   "theorems": [
    "C05_assoc_round_trip",
    "C05_assoc_survives"
   ],
   "note": "All value sizes and positive alignments."
  },
  {
   "property": "C06",
   "status": "partial",
   "theorems": [
    "C06_aligned_if_data_area_aligned",
    "C06_alignment_refuted"
   ],
   "note": "False in general: C06_alignment_refuted (buffer address divisible by 16, one slice, 8-byte value at an address not divisible by 8). Holds when the data area itself is aligned."
  },
  {
   "property": "C07",
   "status": "partial",
   "theorems": [
    "C07_replace_success",
    "C07_replace_error_partial",
    "C07_replace_error_refuted"
   ],
   "note": "Success case proved in full. Error case false in general: C07_replace_error_refuted (ValueTooLarge is reported after the bytes were overwritten). Proved for value plus bytes up to 65535 bytes."
  },
  {
   "property": "C08",
   "status": "proved",
   "theorems": [
    "C08_iter",
    "C08_iter_rev",
    "C08_iter_pairs",
    "C08_iter_assoc",
    "C08_iter_assoc_rev"
   ],
   "note": "All five iterators."
  },
  {
   "property": "C09",
   "status": "partial",
   "theorems": [
    "C09_new_exact_partial",
    "C09_new_refuted"
   ],
   "note": "False for slice limits from 2^62: C09_new_refuted (release profile accepts a 1-byte buffer, debug profile panics). Exact below."
  },
  {
   "property": "C10",
   "status": "proved",
   "theorems": [
    "C10_no_byte_lost",
    "C10_shift_drops_exactly",
    "C10_skip_n_exact"
   ],
   "note": "All histories with arbitrary arguments and read errors; exact effect of shift and skip_n separately."
  },
  {
   "property": "C11",
   "status": "proved",
   "theorems": [
    "C11_front_counters"
   ],
   "note": "All histories of front-dropping operations."
  },
  {
   "property": "C12",
   "status": "proved",
   "theorems": [
    "C12_collect_while_longest",
    "C12_lookahead_while_longest"
   ],
   "note": "collect_while and lookahead_while, all chunkings and read errors, termination included."
  },
  {
   "property": "C13",
   "status": "proved",
   "theorems": [
    "C13_collect_count_exact",
    "C13_lookahead_n_exact"
   ],
   "note": "collect_count and lookahead_n, all chunkings and read errors, termination included."
  },
  {
   "property": "C14",
   "status": "partial",
   "theorems": [
    "C14_skip_spaces_partial",
    "C14_skip_spaces_refuted"
   ],
   "note": "Proved for positions inside the buffer. False otherwise: C14_skip_spaces_refuted (full buffer, position at its end: endless loop)."
  },
  {
   "property": "C15",
   "status": "partial",
   "theorems": [
    "C15_lookahead_partial",
    "C15_lookahead_refuted",
    "C15_index_refuted"
   ],
   "note": "Proved for every successful lookahead. False after a failed one: C15_lookahead_refuted (BufferFull, then peek reports end of input), C15_index_refuted (current_index off)."
  },
  {
   "property": "C16",
   "status": "proved",
   "theorems": [
    "C16_skip_n_bytes"
   ],
   "note": "Any buffer of at least one byte, all chunkings; errors only if the reader fails."
  },
  {
   "property": "C17",
   "status": "proved",
   "theorems": [
    "C17_known_skip_token"
   ],
   "note": "Any token that fits in the buffer, reader that does not fail."
  },
  {
   "property": "C18",
   "status": "proved",
   "theorems": [
    "C18_current_index",
    "C18_never_decreases"
   ],
   "note": "All histories of successful calls of every modelled method, buffers of two bytes or more."
  },
  {
   "property": "C19",
   "status": "partial",
   "theorems": [
    "C19_exact_partial",
    "C19_error_index_partial",
    "C19_error_index_refuted"
   ],
   "note": "Proved for strings, literals (known_* methods) that fit in the buffer. False in general: C19_error_index_refuted (offset counted twice). C19_exact_partial: what the index is for every parsing method away from the buffer start."
  },
  {
   "property": "C20",
   "status": "partial",
   "theorems": [
    "C20_error_position_partial",
    "C20_error_position_refuted"
   ],
   "note": "Exact result proved for positions inside the buffer: line always right, column right unless a newline follows a cut in mid-line. False otherwise: C20_error_position_refuted."
  },
  {
   "property": "C21",
   "status": "partial",
   "theorems": [
    "C21_any_chunking_partial",
    "C21_buffered_partial",
    "C21_first_key_refuted",
    "C21_form_feed_refuted"
   ],
   "note": "All modelled methods, chunkings, token boundaries, with the guards in the statement. False without: C21_first_key_refuted (object at the start of the buffer, first key split), C21_form_feed_refuted."
  },
  {
   "property": "C22",
   "status": "partial",
   "theorems": [
    "C22_no_false_accept_partial",
    "C22_trailing_comma_refuted",
    "C22_object_refuted"
   ],
   "note": "All methods; guards as C21. False at the start of the buffer: C22_trailing_comma_refuted, C22_object_refuted."
  },
  {
   "property": "C23",
   "status": "partial",
   "theorems": [
    "C23_numbers_partial",
    "C23_last_number_refuted",
    "C23_cut_refuted"
   ],
   "note": "Numbers that fit with one byte to spare. False for a number that is the whole input (C23_last_number_refuted) and for numbers longer than the buffer (C23_cut_refuted: cut without error)."
  },
  {
   "property": "C24",
   "status": "partial",
   "theorems": [
    "C24_write_long_bytes_partial",
    "C24_filled_stale_cell_refuted",
    "C24_surrogate_pair_refuted",
    "C24_filled_pair_refuted",
    "C24_stale_cell_refuted",
    "C24_every_pair_refused"
   ],
   "note": "Unescaped UTF-8 strings, and ASCII strings with escapes other than surrogate pairs in a buffer without continuation bytes; with a reader that fills what it is asked to fill, also UTF-8 with escapes, if there is none at the very start; writer and reader failures included. False otherwise: C24_surrogate_pair_refuted, C24_stale_cell_refuted, C24_filled_stale_cell_refuted, C24_filled_pair_refuted. Every string that starts with a surrogate pair and does not end in the buffer is refused (C24_every_pair_refused)."
  },
  {
   "property": "C25",
   "status": "partial",
   "theorems": [
    "C25_write_long_str_partial",
    "C25_surrogate_pair_refuted",
    "C25_every_pair_refused"
   ],
   "note": "As C24, for the decoded text; C25_every_pair_refused."
  },
  {
   "property": "C26",
   "status": "proved",
   "theorems": [
    "C26_finish"
   ],
   "note": "Any buffer of at least one byte, all chunkings and read errors."
  },
  {
   "property": "C27",
   "status": "partial",
   "theorems": [
    "C27_termination_partial",
    "C27_tiny_buffer_refuted",
    "C27_long_panic_refuted"
   ],
   "note": "Every method, buffers of two bytes or more (no panic in write_long_* from 8). False below: C27_tiny_buffer_refuted, C27_long_panic_refuted."
  },
  {
   "property": "C28",
   "status": "proved",
   "theorems": [
    "C28_iter_match_is_prefix"
   ],
   "note": "iter_match as modelled (matcher.rs) is equivalent to the prefix specification, all expected lists, events and contexts."
  },
  {
   "property": "C29",
   "status": "partial",
   "theorems": [
    "C29_one_name_is_left",
    "C29_buffer_restored_refuted",
    "C29_reuse_refuted"
   ],
   "note": "False: a successful scan leaves its #top entry in the working buffer, and the n-th reuse fails (C29_buffer_restored_refuted, C29_reuse_refuted). Proved for all inputs, readers and callbacks: exactly that one entry is left, everything below is as it was."
  },
  {
   "property": "C30",
   "status": "proved",
   "theorems": [
    "C30_scan_is_the_tree_walk",
    "C30_events_in_document_order"
   ],
   "note": "All documents, callbacks within the contract, chunkings. Layouts for which no operation fails are spelled out in ScanSpec (setting); with failing readers or buffers that are too small the scan follows the walk up to the failure (setting Anyhow)."
  },
  {
   "property": "C31",
   "status": "proved",
   "theorems": [
    "C31_stops_behind_first_value",
    "C31_observed_single",
    "C31_reads_all_or_fails"
   ],
   "note": "Settings as C30. The trailing byte that is out of place is any byte no JSON value begins with (I and N excepted) and there is no atom callback at the top level; trailing bytes that begin like a value are not covered by the failure part."
  },
  {
   "property": "C32",
   "status": "proved",
   "theorems": [
    "C32_limits_are_exact"
   ],
   "note": "Settings as C30, observer callbacks, names fit in the bytes of the working buffer. When the bytes run out first the walk theorem C30 gives the same place of failure (Denied NoSpace)."
  },
  {
   "property": "C33",
   "status": "partial",
   "theorems": [
    "C33_compact_copy_partial",
    "C33_last_number_refuted"
   ],
   "note": "All values, chunkings and buffer sizes, with the guards in the statement (the reader does not fail, tokens fit, layout as C21, no marker keys: see C37). C33_last_number_refuted: a number that is all of the input is refused."
  },
  {
   "property": "C34",
   "status": "partial",
   "theorems": [
    "C34_no_silent_corruption_partial",
    "C34_number_cut_refuted",
    "C34_string_cut_refuted"
   ],
   "note": "Any schedule, any buffer of at least eight bytes, readers that fail; outside: numbers longer than the buffer and strings with escapes that are read at unlucky places. There it is false: C34_number_cut_refuted, C34_string_cut_refuted."
  },
  {
   "property": "C35",
   "status": "partial",
   "theorems": [
    "C35_malformed_refuted",
    "C35_success_means_a_value_partial",
    "C35_success_means_json_partial",
    "C35_junk_refuted",
    "C35_form_feed_refuted",
    "C35_number_run_on_refuted"
   ],
   "note": "Refuted: doubled opening brace, key without value, form feeds, run-on numbers, empty input. Positive: any reader and chunks, success means that the input starts with a value in the sense of SoundSpec.v (which lists these exceptions) and that its compact copy was written; plain JSON if the input is read at once and has no form feed."
  },
  {
   "property": "C36",
   "status": "proved",
   "theorems": [
    "C36_writer_failure",
    "C36_prefix",
    "C36_any_input"
   ],
   "note": "Writer that fails after any number of bytes; guards on input as C33. C36_prefix: in every setting (readers that fail, small buffers) what was written is a prefix of the right output. For every input, JSON or not: the first n bytes of what a perfect writer gets, and that error if there is more."
  },
  {
   "property": "C37",
   "status": "partial",
   "theorems": [
    "C37_marker_keys_refuted"
   ],
   "note": "False of idtransform: C37_marker_keys_refuted. For scan itself the walk theorem C30 holds for every key; for idtransform with any other key C33."
  },
  {
   "property": "C38",
   "status": "partial",
   "theorems": [
    "C38_scan_fails_partial",
    "C38_idtransform_fails_partial",
    "C38_document_blamed_refuted",
    "C38_error_swallowed_refuted"
   ],
   "note": "An error of the reader always ends the call and is never lost (no tokens to skip). Its kind is kept except in front of numbers (idtransform) or skipped atoms (scan): C38_document_blamed_refuted; with tokens it can be lost: C38_error_swallowed_refuted."
  },
  {
   "property": "C39",
   "status": "partial",
   "theorems": [
    "C39_tokens_between_values_skipped",
    "C39_inside_values_refuted",
    "C39_events_refuted",
    "C39_empty_token_refuted"
   ],
   "note": "Tokens between values, and tokens in brackets: proved for all token lists, sequences and callbacks without an action for top-level atoms (for tokens in brackets: nor for top-level arrays and atoms in them). False otherwise: inside top-level arrays (C39_inside_values_refuted), atom callbacks run for tokens (C39_events_refuted), the empty token loops for ever (C39_empty_token_refuted)."
  },
  {
   "property": "C40",
   "status": "partial",
   "theorems": [
    "C40_to_ddb_partial",
    "C40_marker_keys_refuted"
   ],
   "note": "All streams of JSON values, layouts, chunkings of the settings of C30, pretty or not, wrapped or not; numbers of at most 32 bytes (C43), keys other than #top and #array (refuted for these), enough room, no atom directly behind an array or object at top level (C45)."
  },
  {
   "property": "C41",
   "status": "partial",
   "theorems": [
    "C41_from_ddb_partial",
    "C41_from_ddb_honest_partial",
    "C41_sets_in_lists_refuted",
    "C41_marker_names_refuted"
   ],
   "note": "All streams of items; guards: no name #array, in a list a set only as first element (both refuted otherwise), wrapper as the mode says, numbers are numbers. With failing readers and small buffers a success means the right output."
  },
  {
   "property": "C42",
   "status": "partial",
   "theorems": [
    "C42_round_trip_partial",
    "C42_round_trip_refuted"
   ],
   "note": "Objects as in C40; the second converter has the text in its buffer, or the text was pretty-printed, or the reader fills the buffer and the keys fit. Refuted for a field Item without wrapper and for numbers of more than 32 bytes."
  },
  {
   "property": "C43",
   "status": "partial",
   "theorems": [
    "C43_digits_refuted",
    "C43_clipped_partial"
   ],
   "note": "Refuted: only the first 32 bytes of a number are written. The output is exactly that for the value with all numbers cut to 32 bytes."
  },
  {
   "property": "C44",
   "status": "partial",
   "theorems": [
    "C44_termination_refuted",
    "C44_termination_partial",
    "C44_hangs_only_partial",
    "C44_hangs_partial"
   ],
   "note": "Refuted: with a literal cut short at top level (\"tru \") the loop never ends, for all fuel. Streams of JSON values: always ends, reason stated. Every input of a reader that does not fail: it ends, or the writer never fails and the input is values as the parser reads them, then a literal cut short; conversely such inputs, with well laid out values, never end."
  },
  {
   "property": "C45",
   "status": "partial",
   "theorems": [
    "C45_independent_refuted",
    "C45_independent_partial"
   ],
   "note": "Refuted: an atom behind an array or a non-empty object gets a comma. Otherwise the output is the concatenation of the conversions of the values."
  },
  {
   "property": "C46",
   "status": "partial",
   "theorems": [
    "C46_valid_output_refuted"
   ],
   "note": "Refuted: {\"a\":{}}, {\"a\":{\"N\":\"abc\"}}, {\"Item\":{\"M\":{}}} are accepted and the output is no JSON (proved for every reading of it). C41_from_ddb_partial says for which items the output is valid JSON."
  },
  {
   "property": "C47",
   "status": "partial",
   "theorems": [
    "C47_writer_from_ddb",
    "C47_writer_to_ddb_partial",
    "C47_writer_to_ddb_refuted",
    "C47_any_input_from_ddb",
    "C47_any_input_to_ddb",
    "C47_kind_from_ddb"
   ],
   "note": "From DynamoDB: exact. To DynamoDB: exact prefix, but a failure inside a string is reported as an error of an action (refuted). For every input, JSON or not: the first n bytes of what a perfect writer gets, and an error if there is more. For any input at all, the kind of the error from DynamoDB is that of the writer's error (C47_kind_from_ddb)."
  },
  {
   "property": "C48",
   "status": "partial",
   "theorems": [
    "C48_reader_refuted"
   ],
   "note": "Refuted to DynamoDB: results of known_bool/known_null are ignored. From DynamoDB: C41_from_ddb_honest_partial."
  },
  {
   "property": "C49",
   "status": "partial",
   "theorems": [
    "C49_scan_returns_partial",
    "C49_scan_panics_refuted"
   ],
   "note": "All inputs and all dutiful callbacks (EndsSpec.v), with a bound on the rounds. False with sse tokens and a failing reader: C49_scan_panics_refuted; empty tokens loop (C39)."
  },
  {
   "property": "C50",
   "status": "proved",
   "theorems": [
    "C50_idtransform_returns"
   ],
   "note": "With a bound on the rounds; parser valid at the call, buffer of at least 8 bytes."
  },
  {
   "property": "C51",
   "status": "proved",
   "theorems": [
    "C51_from_ddb_terminates"
   ],
   "note": "With a bound on the rounds; buffer of at least 8 bytes."
  },
  {
   "property": "C52",
   "status": "partial",
   "theorems": [
    "C52_from_ddb_panics_refuted",
    "C52_items_partial"
   ],
   "note": "Refuted: nested maps with two members each (overflow checks on). Proved for streams of items, with failing readers, small buffers and failing writers; for builds without overflow checks and any input see C90."
  },
  {
   "property": "C53",
   "status": "proved",
   "theorems": [
    "C53_to_ddb_never_panics"
   ],
   "note": "Every input, reader and writer; buffer of at least 8 bytes. (It need not end: C44.)"
  },
  {
   "property": "C54",
   "status": "proved",
   "theorems": [
    "C54_nothing_impossible"
   ],
   "note": "Arbitrary callbacks, parser states and options."
  },
  {
   "property": "C55",
   "status": "partial",
   "theorems": [
    "C55_success_means_values_partial",
    "C55_first_value_partial",
    "C55_notes_partial",
    "C55_junk_refuted"
   ],
   "note": "No sse tokens. The texts accepted are those of SoundSpec.v: JSON with the exceptions listed there, each of which occurs."
  },
  {
   "property": "C56",
   "status": "partial",
   "theorems": [
    "C56_value_read_partial",
    "C56_value_only_partial",
    "C56_malformed_refuted",
    "C56_last_value_refuted",
    "C56_cut_refuted"
   ],
   "note": "Read: value with one byte to spare in the buffer, not last in the input and at the buffer start at once. What was read: not at the buffer start, where a malformed array is accepted (refuted). Floats are kept as their text."
  },
  {
   "property": "C57",
   "status": "partial",
   "theorems": [
    "C57_skip_partial",
    "C57_skip_only_partial",
    "C57_malformed_refuted"
   ],
   "note": "Same conditions as C56; refuted at the buffer start."
  },
  {
   "property": "C58",
   "status": "partial",
   "theorems": [
    "C58_number_read_partial",
    "C58_number_only",
    "C58_no_integer",
    "C58_cut_refuted",
    "C58_last_number_refuted"
   ],
   "note": "Whatever is returned is the number in front, every state. Completeness needs a byte to spare; refuted for longer numbers (cut) and for a number that is the whole input at the buffer start. Floats are kept as their text."
  },
  {
   "property": "C59",
   "status": "partial",
   "theorems": [
    "C59_never_deeper_partial",
    "C59_limit_reported_partial",
    "C59_start_refuted"
   ],
   "note": "Never read deeper, except at the buffer start (refuted). The kind of the error if the input fits in the buffer."
  },
  {
   "property": "C60",
   "status": "partial",
   "theorems": [
    "C60_known_is_next_partial",
    "C60_start_refuted",
    "C60_number_refuted"
   ],
   "note": "Proved away from the buffer start; refuted there."
  },
  {
   "property": "C61",
   "status": "partial",
   "theorems": [
    "C61_success_means_values_partial",
    "C61_not_an_item_refuted",
    "C61_not_an_object_refuted"
   ],
   "note": "Proved: success means values and white space were read, no atoms, and the output is a function of the values (the plain form for items). Refuted: the values need not be items or objects."
  },
  {
   "property": "C62",
   "status": "partial",
   "theorems": [
    "C62_complete_refuted",
    "C62_complete_partial",
    "C62_program_partial"
   ],
   "note": "Refuted: a buffered writer is flushed by its destructor, which ignores the error. Proved for every input: complete with --unbuffered or a working output; otherwise at most 8192 bytes are missing."
  },
  {
   "property": "C63",
   "status": "partial",
   "theorems": [
    "C63_kept_refuted",
    "C63_kept_partial"
   ],
   "note": "Refuted for the buffered writer (exit drops nothing). Proved for every input: nothing lost with --unbuffered, otherwise at most 8192 bytes."
  },
  {
   "property": "C64",
   "status": "partial",
   "theorems": [
    "C64_full_output_partial",
    "C64_not_opened"
   ],
   "note": "Proved for every input with --unbuffered; without it refuted by C62."
  },
  {
   "property": "C65",
   "status": "proved",
   "theorems": [
    "C65_buffering"
   ],
   "note": "Every input; the reader delivers the same pieces in both runs."
  },
  {
   "property": "C66",
   "status": "partial",
   "theorems": [
    "C66_to_ddb_partial",
    "C66_from_ddb_partial"
   ],
   "note": "Values and items of the kinds of C40 and C41, a working output, input and output different files."
  },
  {
   "property": "C67",
   "status": "partial",
   "theorems": [
    "C67_round_trip_partial"
   ],
   "note": "Objects of the kind of C42, working outputs, different files."
  },
  {
   "property": "C68",
   "status": "partial",
   "theorems": [
    "C68_input_refuted",
    "C68_input_partial"
   ],
   "note": "Refuted if input and output are the same file: emptied, status 0. Proved otherwise."
  },
  {
   "property": "C69",
   "status": "partial",
   "theorems": [
    "C69_ends_refuted",
    "C69_panics_refuted",
    "C69_ends_partial",
    "C69_hangs_only_partial",
    "C69_hangs_partial"
   ],
   "note": "Refuted: endless loop to DynamoDB, panic from DynamoDB. Proved for every input: from DynamoDB it ends, to DynamoDB it does not panic, and it ends unless the input has a literal cut short at top level."
  },
  {
   "property": "C70",
   "status": "partial",
   "theorems": [
    "C70_success_means_values_partial",
    "C70_failing_reader_refuted",
    "C70_not_a_record_refuted"
   ],
   "note": "Proved for readers that do not fail and eight cells or more: success means values and white space were read, and the output is a function of the values (the records for ordinary values). Refuted for failing readers; refuted that only values with a record are accepted."
  },
  {
   "property": "C71",
   "status": "partial",
   "theorems": [
    "C71_there_and_back_partial",
    "C71_only_item_refuted"
   ],
   "note": "Proved for objects whose numbers are read again from what they are shown as; without the wrapper, if Item is not the only member. Refuted for that: another value comes back without an error."
  },
  {
   "property": "C72",
   "status": "partial",
   "theorems": [
    "C72_same_records_partial",
    "C72_same_items_partial",
    "C72_number_text_refuted",
    "C72_only_items_refuted"
   ],
   "note": "Proved for values without two members of the same key and numbers written as they are shown (to DynamoDB) or readable (from DynamoDB). Refuted for other numbers, and that only items are accepted."
  },
  {
   "property": "C73",
   "status": "proved",
   "theorems": [
    "C73_line_by_line",
    "C73_independent",
    "C73_trim"
   ],
   "note": "For any functions in place of serde_json."
  },
  {
   "property": "C74",
   "status": "partial",
   "theorems": [
    "C74_recognized_partial",
    "C74_document",
    "C74_blank_refuted"
   ],
   "note": "Proved if the first line is a JSON document, and for other documents. Refuted for a blank first line."
  },
  {
   "property": "C75",
   "status": "partial",
   "theorems": [
    "C75_line_number_partial",
    "C75_named_refuted"
   ],
   "note": "Proved without the extension jsonl; with it the number is one more (stated and refuted)."
  },
  {
   "property": "C76",
   "status": "proved",
   "theorems": [
    "C76_full_output"
   ],
   "note": ""
  },
  {
   "property": "C77",
   "status": "partial",
   "theorems": [
    "C77_in_place_partial",
    "C77_named_refuted",
    "C77_long_refuted"
   ],
   "note": "Proved for at most 8192 bytes and without the extension jsonl. Refuted otherwise: emptied or cut, without an error."
  },
  {
   "property": "C78",
   "status": "partial",
   "theorems": [
    "C78_described_partial",
    "C78_described_refuted"
   ],
   "note": "Proved unless the reader fails. Refuted then: panic."
  },
  {
   "property": "C79",
   "status": "partial",
   "theorems": [
    "C79_index_partial",
    "C79_index_refuted"
   ],
   "note": "Proved: errors of the document are not before the call. Refuted for a full buffer, a failing reader (before the call) and errors of the document (behind the end)."
  },
  {
   "property": "C80",
   "status": "partial",
   "theorems": [
    "C80_to_ddb_partial",
    "C80_from_ddb_partial",
    "C80_position_refuted"
   ],
   "note": "Proved for readers that do not fail and errors that do not come from the parser. Refuted for the parser's, both directions: a key that is not followed by a colon."
  },
  {
   "property": "C81",
   "status": "partial",
   "theorems": [
    "C81_pool",
    "C81_parser",
    "C81_description",
    "C81_scan",
    "C81_program_partial",
    "C81_program_refuted"
   ],
   "note": "Proved for the texts of u8pool, rjiter and scan_json, given that the words of other crates in them differ, and for the program unless an unknown type descriptor is not UTF-8. Refuted then."
  },
  {
   "property": "C82",
   "status": "proved",
   "theorems": [
    "C82_program",
    "C82_to_ddb",
    "C82_from_ddb"
   ],
   "note": ""
  },
  {
   "property": "C83",
   "status": "proved",
   "theorems": [
    "C83_program",
    "C83_to_ddb",
    "C83_from_ddb"
   ],
   "note": ""
  },
  {
   "property": "C84",
   "status": "proved",
   "theorems": [
    "C84_idtransform",
    "C84_to_ddb",
    "C84_from_ddb"
   ],
   "note": "Begin actions run right after their lookup, before the stack changes again (see scan.rs); the disturbance is therefore placed before every lookup and every end action."
  },
  {
   "property": "C85",
   "status": "partial",
   "theorems": [
    "C85_what_the_model_says_partial",
    "C85_in_every_setting_partial",
    "C85_null_refuted",
    "C85_direct_data_refuted",
    "C85_long_key_refuted"
   ],
   "note": "Proved for every answer and stream of events, with tokens and [DONE], whose contents are strings, whose keys and numbers fit in the 32 bytes (as stated in filling_layout) and whose strings are UTF-8 without surrogate pairs and without an escape at the very start, or ASCII without surrogate pairs. Refuted for contents that are null, for data directly behind 'data:' (a panic for unlucky offsets) and for keys longer than the buffer."
  },
  {
   "property": "C86",
   "status": "partial",
   "theorems": [
    "C86_value_behind_tokens",
    "C86_empty_token_never_ends",
    "C86_empty_token_refuted",
    "C86_value_start_refuted"
   ],
   "note": "Proved for all token lists, inputs without form feeds, chunkings and buffers that hold the longest token, with no empty token. With an empty token the program does not end (C86_empty_token_refuted); a value that starts like a token loses its start (C86_value_start_refuted)."
  },
  {
   "property": "C87",
   "status": "partial",
   "theorems": [
    "C87_there_and_back_partial",
    "C87_same_records_partial",
    "C87_same_items_partial",
    "C87_minus_zero_refuted"
   ],
   "note": "Proved for integers of at most 4300 digits without a signed zero (records), floats that are read again (there and back), readable numbers (items); without the wrapper, if Item is not the only member. Refuted for -0, which loses its sign."
  },
  {
   "property": "C88",
   "status": "partial",
   "theorems": [
    "C88_integers",
    "C88_only_numbers_refuted",
    "C88_long_refuted"
   ],
   "note": "Refuted: 1_0 is taken for 10, and integers of more than 4300 digits are refused. The exact set of texts is proved for ASCII."
  },
  {
   "property": "C89",
   "status": "partial",
   "theorems": [
    "C89_same_runs_partial",
    "C89_carriage_return_refuted",
    "C89_separator_refuted"
   ],
   "note": "Proved for any parsers that agree about the documents in the input, UTF-8 without carriage returns and the separators 28 to 31, an output that takes everything and is another file. Refuted with a carriage return and with a separator. Exceptions of json.loads other than JSONDecodeError are excluded; what the program does with them is modelled but not constrained by a theorem (log entry UN06 survived)."
  },
  {
   "property": "C90",
   "status": "partial",
   "theorems": [
    "C90_same_in_release_partial",
    "C90_panic_or_success_refuted"
   ],
   "note": "Proved unless the build with overflow checks panics (C52), for inputs of up to a sixth of the largest number of a word. Refuted for that case: the other build reports success, with brackets that do not match."
  },
  {
   "property": "C91",
   "status": "partial",
   "theorems": [
    "C91_idtransform_partial",
    "C91_from_ddb_partial",
    "C91_release_partial",
    "C91_pretty_partial",
    "C91_to_ddb_partial",
    "C91_to_ddb_pretty_partial",
    "C91_failing_reader_refuted",
    "C91_to_ddb_refuted",
    "C91_endless_output_refuted"
   ],
   "note": "Proved, with explicit constants and for every input, for idtransform, for the converter from DynamoDB JSON without pretty-printing in builds with and without overflow checks, and with pretty-printing in builds with them; for the converter to DynamoDB JSON, with and without pretty-printing, if it ends, the reader does not fail, and the writer does not fail or the conversion succeeds. Refuted for a build without overflow checks and with pretty-printing: an input of 78 bytes makes it write 2^65 bytes; and for the converter to DynamoDB JSON in the other cases: \"tru \" makes it fill any writer, and each failure of the reader inside a literal makes it write the literal once more, and succeed."
  },
  {
   "property": "C92",
   "status": "partial",
   "theorems": [
    "C92_back_partial",
    "C92_plain_form_partial",
    "C92_back_refuted"
   ],
   "note": "Proved byte by byte for compact items without sets and binary values and with numbers of at most 32 bytes; in general what comes back is the form of the plain values. Refuted for sets, binary values and longer numbers."
  },
  {
   "property": "C93",
   "status": "partial",
   "theorems": [
    "C93_idempotent_partial",
    "C93_idempotent_refuted"
   ],
   "note": "Proved for values that are no numbers, if the second reader fills the buffer or the text is in the buffer. Refuted for numbers and for input in chunks."
  },
  {
   "property": "C94",
   "status": "partial",
   "theorems": [
    "C94_idtransform",
    "C94_from_ddb",
    "C94_scan_partial",
    "C94_to_ddb_refuted",
    "C94_sse_refuted"
   ],
   "note": "Proved for idtransform and convert_ddb_to_normal, for every input (JSON or not), buffer and writer, and for scan without SSE tokens with callbacks that leave the parser alone. Refuted for convert_normal_to_ddb and for scan with SSE tokens."
  },
  {
   "property": "C95",
   "status": "partial",
   "theorems": [
    "C95_to_ddb",
    "C95_from_ddb",
    "C95_no_difference",
    "C95_to_ddb_refuted",
    "C95_from_ddb_refuted"
   ],
   "note": "Proved for both converters and every input: the result and the bytes are those of a run without the flag, after success everything has arrived, and a full destination has the first n bytes and the call fails with the kind of its error (to DynamoDB, inside strings, with an error of the scanner). Without a buffer in the writer the flag makes no difference. Refuted where the call fails in the middle of a long string: the pieces before the error stay in the buffer."
  },
  {
   "property": "C96",
   "status": "partial",
   "theorems": [
    "C96_parser_partial",
    "C96_parser_refuted",
    "C96_scan_partial",
    "C96_idtransform_partial",
    "C96_to_ddb_partial",
    "C96_from_ddb_partial",
    "C96_to_ddb_unbuffered_partial",
    "C96_from_ddb_unbuffered_partial",
    "C96_to_ddb_refuted"
   ],
   "note": "Proved for every program over the methods of the parser, for scan with callbacks of that kind, for idtransform and for both converters with and without the flag unbuffered, for all readers and inputs: the answer does not depend on what the buffers hold beforehand, if the buffer of the parser holds no byte that continues a UTF-8 character. Refuted for buffers that hold such bytes: a string is cut off behind a backslash. Of the working buffer only the size matters."
  },
  {
   "property": "C97",
   "status": "proved",
   "theorems": [
    "C97_characters_read",
    "C97_known_characters_read",
    "C97_characters_only",
    "C97_characters_unique",
    "C97_text_unique"
   ],
   "note": "Specification by arithmetic on code points (UnicodeSpec.v). Proved for every chunking where the string fits in the buffer with a byte to spare, as the statement says; what is returned, for every reader and state. The spelling determines the characters, and the text determines them."
  },
  {
   "property": "C98",
   "status": "proved",
   "theorems": [
    "C98_write_long_str_characters"
   ],
   "note": "Every state, reader, writer and input. That the text written is the one of the string is C25."
  },
  {
   "property": "C99",
   "status": "partial",
   "theorems": [
    "C99_other_type",
    "C99_no_value",
    "C99_end",
    "C99_number_partial",
    "C99_number_refuted"
   ],
   "note": "Proved for values that are no numbers, for bytes that begin no value other than I and N (with which jiter's NaN and Infinity begin), and for the end of the input. For a number the right one of the two types is named if the number can be seen completely; refuted otherwise: which type is named depends on the chunks (C99_number_refuted)."
  },
  {
   "property": "C100",
   "status": "proved",
   "theorems": [
    "C100_from_ddb",
    "C100_to_ddb",
    "C100_idtransform",
    "C100_from_ddb_always",
    "C100_to_ddb_always",
    "C100_idtransform_always",
    "C100_program",
    "C100_failure_refuted",
    "C100_other_input_refuted"
   ],
   "note": "C100_*_always: whatever the result, if the writer takes all it is given; for idtransform with any keys. After an error of the writer a character can be cut (C100_failure_refuted); input that is not UTF-8 is not refused (C100_other_input_refuted)."
  },
  {
   "property": "C101",
   "status": "partial",
   "theorems": [
    "C101_bytes_partial",
    "C101_str_partial",
    "C101_bytes_at_once",
    "C101_str_at_once",
    "C101_escapes_refuted",
    "C101_program_refuted"
   ],
   "note": "Proved for strings of which no backslash has arrived: at most 4 bytes are kept. Refuted with escapes (C101_escapes_refuted): handle_long writes one piece, up to the next backslash or one escape sequence, and then reads before it looks at the rest of the buffer; the program of scan_json's README prints one of five lines that have arrived (C101_program_refuted)."
  },
  {
   "property": "C102",
   "status": "proved",
   "theorems": [
    "C102_idtransform",
    "C102_from_ddb",
    "C102_scan",
    "C102_records",
    "C102_returns",
    "C102_scan_returns",
    "C102_document"
   ],
   "note": "Proved for idtransform, convert_ddb_to_normal and scan without SSE tokens, by comparing the run with a reader that fails behind the bytes with the run with a reader whose input ends there. C102_digit_waits shows why the input must not stop behind a digit. A number that fills the whole buffer is excluded (the parser then makes a read without room). C102_returns, C102_scan_returns: a call that has stopped behind a whole value does not ask the reader again; C102_document: idtransform returns with the whole document written."
  },
  {
   "property": "C103",
   "status": "partial",
   "theorems": [
    "C103_fault",
    "C103_unended",
    "C103_characters_partial",
    "C103_closed",
    "C103_cases",
    "C103_characters_place_refuted",
    "C103_long_bytes_partial",
    "C103_long_str_partial",
    "C103_long_place_refuted",
    "C103_long_surrogate_refuted",
    "C103_long_end_refuted"
   ],
   "note": "Proved for next_str, next_bytes, known_str and known_bytes, with a proof that the listed cases are all (C103_cases, C103_closed). If the bytes spell no characters the error is named, but its position is counted in decoded bytes and one too high (C103_characters_place_refuted). For write_long_bytes and write_long_str proved for all faults but those of surrogate pairs, with the index as it is: it is right unless the whole fault is in the buffer at the call and the string is not at the beginning of the parser's slice. Refuted in general: C103_long_place_refuted (the distance of the string from the beginning of the slice is counted twice, also seen from idtransform), C103_long_end_refuted (a long string without an end is reported behind the end of the input), C103_long_surrogate_refuted (half a surrogate pair at the end of a chunk is accepted)."
  },
  {
   "property": "C104",
   "status": "partial",
   "theorems": [
    "C104_value",
    "C104_other",
    "C104_error_partial",
    "C104_comma_refuted",
    "C104_comma_waits",
    "C104_requests",
    "C104_other_requests",
    "C104_end_refuted"
   ],
   "note": "Proved for values, for long strings, lookahead and skipping, and for errors that can_retry_if_partial does not take for a lack of input. Refuted for a missing comma (C104_comma_refuted): it is reported only when the input has ended or the buffer is full (C104_comma_waits, for all inputs), so that idtransform waits for up to a buffer of input behind '[1 2'. The number of requests is bounded for every call; refuted that one request at the end is enough (C104_end_refuted: next_array asks three times)."
  },
  {
   "property": "C105",
   "status": "partial",
   "theorems": [
    "C105_values_partial",
    "C105_end",
    "C105_finish_partial",
    "C105_same_buffer_refuted"
   ],
   "note": "Guards as C33 (layouts of the settings, no marker keys, room for the names, reader and writer do not fail). finish behind the calls: C105_finish_partial, with the same guards. False if the calls share a working buffer (C105_same_buffer_refuted), because every call leaves an entry there (C29)."
  },
  {
   "property": "C106",
   "status": "partial",
   "theorems": [
    "C106_key_partial",
    "C106_cases",
    "C106_element_partial",
    "C106_comma",
    "C106_place_refuted",
    "C106_front_refuted"
   ],
   "note": "The name of the error is proved for every chunking if the parser is not at the beginning of a buffer with something in it; C106_cases shows that the listed cases are all. The index is proved as it is: right for a missing comma (C106_comma, every state), otherwise too high, because the token, and the key if it has been read, is counted twice (C106_place_refuted). Refuted at the beginning of a buffer that is not empty, which is the state behind a peek at the beginning of the input (C106_front_refuted): known_object takes '{\"a\" 1}' for an empty object."
  },
  {
   "property": "C107",
   "status": "proved",
   "theorems": [
    "C107_literal",
    "C107_cases"
   ],
   "note": "All methods, all chunkings; C107_cases shows that the listed cases are all."
  },
  {
   "property": "C108",
   "status": "proved",
   "theorems": [
    "C108_number",
    "C108_end",
    "C108_cases"
   ],
   "note": "All chunkings; the number up to the fault must fit into the buffer, as in the quantifier. C108_cases shows that the listed cases are all. The jiter number scanner is a transcription (trusted)."
  },
  {
   "property": "C109",
   "status": "partial",
   "theorems": [
    "C109_literal",
    "C109_number",
    "C109_string_partial",
    "C109_top_literal",
    "C109_top_number",
    "C109_scan_literal",
    "C109_scan_number"
   ],
   "note": "Literals and numbers are proved (C109_literal, C109_number, C109_top_*, C109_scan_*), for idtransform and scan if the reader does not fail. Strings: C109_string_partial has the limits of C103_long_bytes_partial (no faulty surrogate pairs; the index is right only where that of write_long_bytes is). For idtransform and scan only atoms outside of arrays and objects."
  },
  {
   "property": "C110",
   "status": "partial",
   "theorems": [
    "C110_literal",
    "C110_number",
    "C110_comma",
    "C110_string_partial"
   ],
   "note": "Proved for literals, numbers, bytes that begin no value and missing commas; no key in front of the fault is spelled like an internal marker (#top, #array). C110_string_partial: the name of the fault, and an index that is not less than its position (C103_long_place_refuted: it can be greater); no faulty surrogate pairs; escapes in front of the fault only if the reader fills what it is asked to fill. Faulty keys within arrays and objects are not covered (C106 shows that they are reported differently depending on the state of the buffer)."
  },
  {
   "property": "C111",
   "status": "proved",
   "theorems": [
    "C111_line_ends",
    "C111_exists",
    "C111_unique"
   ],
   "note": "json.loads and json.dumps are arbitrary functions; text mode of Python is modelled by translate."
  }
 ]
}
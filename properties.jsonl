{"id": "C01", "title": "U8Pool behaves as a stack of byte strings", "statement": "After any history of push, pop, get, top, len, is_empty and clear on a freshly created pool, every answer is the one an ordinary stack of byte strings gives that kept exactly the pushes reported as successful: get(i) is the i-th string from the bottom, byte for byte, top/pop return the newest one, pop removes it, len counts them, clear empties the pool. No operation changes a string that is still stored.", "quantifier": "all buffers, all slice limits, all operation histories of any length, all pushed byte strings", "why_tests_cant": "Offsets, lengths and descriptors of old items depend on the whole history; tests fix a handful of short histories.", "anchors": ["u8pool/src/core.rs:U8Pool::push", "u8pool/src/core.rs:U8Pool::pop", "u8pool/src/core.rs:U8Pool::get", "u8pool/src/core.rs:U8Pool::top", "u8pool/src/core.rs:U8Pool::clear", "u8pool/src/core.rs:U8Pool::len", "u8pool/src/slice_descriptor.rs:SliceDescriptor"]}
{"id": "C02", "title": "A failed push leaves the pool as it was", "statement": "When push or push_assoc reports an error, the pool still has the same length and every stored item still has the same contents, and later operations answer as if the failed call had never been made.", "quantifier": "all reachable pools, all byte strings and associated values, all error kinds", "why_tests_cant": "Bytes are written before the descriptor is stored, so the claim has to hold at every fill level and for every error path.", "anchors": ["u8pool/src/core.rs:U8Pool::push", "u8pool/src/core.rs:U8Pool::push_assoc", "u8pool/src/core.rs:reserve_aligned_buffer_space", "u8pool/src/core.rs:finalize_push"]}
{"id": "C03", "title": "Push succeeds exactly when there is room", "statement": "A plain push succeeds if and only if the number of stored items is below the slice limit, the item fits in the free tail of the data area, and neither its start offset nor its length exceeds 65535; otherwise it reports SliceLimitExceeded, BufferOverflow or ValueTooLarge according to the first of those conditions that fails.", "quantifier": "all reachable pools and all byte strings", "why_tests_cant": "Off-by-one capacity errors show only at exact fill levels; the 65535 limit needs large buffers.", "anchors": ["u8pool/src/core.rs:U8Pool::push", "u8pool/src/core.rs:reserve_aligned_buffer_space", "u8pool/src/slice_descriptor.rs:SliceDescriptor::set"]}
{"id": "C04", "title": "Stored items never overlap and reads never leave the buffer", "statement": "At any moment the byte ranges of any two stored items are disjoint, increase with the item number, and lie inside the data area, so that reading, popping, iterating or extracting an associated value never goes out of bounds and never panics.", "quantifier": "all reachable pools, all item indices, all operation histories", "why_tests_cant": "The unsafe and indexing code relies on it for every history; a test sees only whether a given history panicked.", "anchors": ["u8pool/src/core.rs:U8Pool::get", "u8pool/src/core.rs:get_validated_assoc_positions", "u8pool/src/core.rs:U8Pool::pop", "u8pool/src/core.rs:reserve_aligned_buffer_space", "u8pool/src/iter.rs:U8PoolIter"]}
{"id": "C05", "title": "Associated values come back unchanged", "statement": "After a successful push_assoc of a value together with a byte string, get_assoc, top_assoc, top_assoc_obj, top_assoc_bytes and pop_assoc (asked for the same type) return exactly that value and that byte string, whatever was pushed and popped before and whatever has been pushed on top and popped again.", "quantifier": "all value sizes and alignments, all byte strings, all reachable pools", "why_tests_cant": "Padding depends on the fill level, size and alignment; tests use a few types at a few offsets.", "anchors": ["u8pool/src/core.rs:U8Pool::push_assoc", "u8pool/src/core.rs:U8Pool::get_assoc", "u8pool/src/core.rs:U8Pool::pop_assoc", "u8pool/src/core.rs:U8Pool::top_assoc", "u8pool/src/core.rs:U8Pool::top_assoc_obj", "u8pool/src/core.rs:U8Pool::top_assoc_bytes"]}
{"id": "C06", "title": "Associated values are correctly aligned in memory", "statement": "The address at which push_assoc stores a value of type T, and through which the references of get_assoc and the other accessors are formed, is a multiple of the alignment of T.", "quantifier": "all buffers at all addresses, all slice limits, all types, all reachable pools", "why_tests_cant": "A test runs at the addresses its allocator happens to pick, and misalignment is silent on most CPUs.", "anchors": ["u8pool/src/core.rs:U8Pool::push_assoc", "u8pool/src/core.rs:reserve_aligned_buffer_space", "u8pool/src/core.rs:U8Pool::new", "u8pool/src/core.rs:get_validated_assoc_positions"]}
{"id": "C07", "title": "replace_top_assoc_bytes changes only the top bytes, or nothing", "statement": "A successful replace_top_assoc_bytes leaves the associated value of the top item and all items below unchanged and makes the top bytes equal to the given ones; a call that reports an error leaves every stored item unchanged.", "quantifier": "all reachable pools with an associated top item, all replacement strings", "why_tests_cant": "The error paths that matter need a full pool or items above 65535 bytes.", "anchors": ["u8pool/src/core.rs:U8Pool::replace_top_assoc_bytes"]}
{"id": "C08", "title": "Iterators agree with indexed access", "statement": "iter yields get(0), get(1), ... up to get(len-1) and then ends; the reverse iterator yields them backwards; iter_pairs yields consecutive pairs and ignores an odd last item; the associated iterators yield what get_assoc yields in the respective order; and the announced remaining length is always exactly the number of items still to come.", "quantifier": "all reachable pools, all prefixes of an iteration", "why_tests_cant": "Iterator state and length arithmetic have to agree at every step for every pool.", "anchors": ["u8pool/src/iter.rs:U8PoolIter", "u8pool/src/iter.rs:U8PoolRevIter", "u8pool/src/iter.rs:U8PoolPairIter", "u8pool/src/iter.rs:U8PoolAssocIter", "u8pool/src/iter.rs:U8PoolAssocRevIter", "u8pool/src/core.rs:U8Pool::iter"]}
{"id": "C09", "title": "U8Pool::new accepts exactly the buffers that are large enough", "statement": "U8Pool::new succeeds exactly when the slice limit is positive and the buffer has room for 4 bytes of metadata per slice plus at least one data byte; in every other case it returns InvalidInitialization, without panicking and without accepting a pool that cannot store anything.", "quantifier": "all buffer lengths and all slice limits representable in usize", "why_tests_cant": "The size computation can overflow only at slice limits no test uses.", "anchors": ["u8pool/src/core.rs:U8Pool::new", "u8pool/src/core.rs:U8Pool::with_default_max_slices"]}
{"id": "C10", "title": "The stream buffer never loses, duplicates or reorders input bytes", "statement": "Whatever sequence of buffer operations (read_more, shift_buffer, skip_spaces, collect_while, collect_count, skip_n) is performed, the bytes kept in the buffer followed by the bytes the reader has not delivered yet are exactly the input stream minus the bytes explicitly dropped by shifts, in the original order, and the fill level never exceeds the buffer length.", "quantifier": "all input streams, all chunkings chosen by the reader, all transient read errors, all operation histories, all buffer sizes and initial buffer contents", "why_tests_cant": "The reader's chunk sizes are an adversarial schedule; tests try one-byte and whole-slice readers.", "anchors": ["rjiter/src/buffer.rs:Buffer::read_more", "rjiter/src/buffer.rs:Buffer::shift_buffer", "rjiter/src/buffer.rs:Buffer::skip_spaces", "rjiter/src/buffer.rs:Buffer::collect_while", "rjiter/src/buffer.rs:Buffer::collect_count", "rjiter/src/buffer.rs:Buffer::skip_n"]}
{"id": "C11", "title": "Shift bookkeeping: dropped-byte count and line/column", "statement": "After any sequence of front shifts the count of shifted-out bytes equals the number of input bytes dropped, and the recorded line and column are the number of newlines in those bytes and the number of bytes after the last of them.", "quantifier": "all streams, all shift positions (including positions beyond the fill level), all histories", "why_tests_cant": "Line/column accounting accumulates over the whole stream; newline placement relative to shift points is a schedule.", "anchors": ["rjiter/src/buffer.rs:Buffer::shift_buffer", "rjiter/src/buffer.rs:Buffer::n_shifted_out", "rjiter/src/buffer.rs:Buffer::pos_shifted"]}
{"id": "C12", "title": "collect_while returns the longest matching run", "statement": "collect_while (and lookahead_while built on it) returns exactly the longest run of stream bytes from the start position that satisfy the predicate, however the reader chunks the data; it reports BufferFull only if that run fills the whole buffer.", "quantifier": "all predicates, streams, chunkings, start positions, buffer sizes", "why_tests_cant": "The run may be split by any number of reads and by the optional shift.", "anchors": ["rjiter/src/buffer.rs:Buffer::collect_while", "rjiter/src/rjiter.rs:RJiter::lookahead_while"]}
{"id": "C13", "title": "collect_count and lookahead_n return exactly the requested bytes", "statement": "collect_count(count) and lookahead_n(count) return the next count bytes of the stream, or all remaining bytes if the stream is shorter, however the data is chunked, and report BufferFull only if the requested number exceeds the buffer size.", "quantifier": "all counts, streams, chunkings, positions, buffer sizes", "why_tests_cant": "Depends on the arrival schedule and on the fill level at the call.", "anchors": ["rjiter/src/buffer.rs:Buffer::collect_count", "rjiter/src/rjiter.rs:RJiter::lookahead_n"]}
{"id": "C14", "title": "skip_spaces skips all and only whitespace, and terminates", "statement": "skip_spaces(pos) removes exactly the maximal run of whitespace that starts at pos in the stream (possibly longer than the buffer), keeps the bytes before pos, and returns after finitely many reads for every buffer.", "quantifier": "all streams, chunkings, buffer sizes, positions within the fill level", "why_tests_cant": "Whitespace runs longer than the buffer combined with every chunking; non-termination is invisible to a passing test.", "anchors": ["rjiter/src/buffer.rs:Buffer::skip_spaces", "rjiter/src/rjiter.rs:RJiter::skip_spaces_feeding"]}
{"id": "C15", "title": "Lookahead does not consume", "statement": "lookahead_while and lookahead_n never change what later operations read: after a call, successful or not, the remaining input seen by the parser is the same and current_index is unchanged.", "quantifier": "all streams, chunkings, buffer sizes, parser positions, both outcomes", "why_tests_cant": "Failure after a buffer shift is a rare combination of fill level and schedule.", "anchors": ["rjiter/src/rjiter.rs:RJiter::lookahead_while", "rjiter/src/rjiter.rs:RJiter::lookahead_n", "rjiter/src/rjiter.rs:RJiter::current_index"]}
{"id": "C16", "title": "skip_n_bytes consumes exactly the requested bytes", "statement": "skip_n_bytes(n) consumes exactly min(n, remaining) bytes of the stream, returns that number, and works for n larger than the buffer, for every chunking.", "quantifier": "all n, streams, chunkings, non-empty buffers, parser positions", "why_tests_cant": "The skip loops over shifts and reads chosen by the reader.", "anchors": ["rjiter/src/rjiter.rs:RJiter::skip_n_bytes", "rjiter/src/buffer.rs:Buffer::skip_n"]}
{"id": "C17", "title": "known_skip_token is all or nothing", "statement": "known_skip_token(token) consumes exactly the token if the remaining input starts with it and reports success; otherwise (and with enough buffer) it reports ExpectedSomeIdent and consumes nothing.", "quantifier": "all tokens no longer than the buffer, all streams, chunkings and positions", "why_tests_cant": "A token can straddle reads and the end of the buffer in every possible way.", "anchors": ["rjiter/src/rjiter.rs:RJiter::known_skip_token"]}
{"id": "C18", "title": "current_index is the absolute position in the stream", "statement": "At all times, for every history of operations without read errors, current_index equals the number of stream bytes that precede the parser's position, so it does not depend on the chunking and never decreases.", "quantifier": "all streams, chunkings, buffer sizes and successful operation histories", "why_tests_cant": "Each shift moves bytes between two counters; a slip appears only for particular schedules.", "anchors": ["rjiter/src/rjiter.rs:RJiter::current_index", "rjiter/src/buffer.rs:Buffer::shift_buffer"]}
{"id": "C19", "title": "Error index is the absolute position of the error", "statement": "The index in an error reported by a parsing operation is the position, counted from the start of the stream, where the plain parser would report that error on the whole input.", "quantifier": "all malformed inputs, chunkings, buffer sizes", "why_tests_cant": "The existing tests only look at errors that occur at the start of the buffer.", "anchors": ["rjiter/src/error.rs:Error::from_jiter_error", "rjiter/src/rjiter.rs:RJiter::loop_until_success", "rjiter/src/rjiter.rs:RJiter::handle_long"]}
{"id": "C20", "title": "Line and column of an error position are right", "statement": "error_position(index) returns the line and column that the position has in the whole stream, for every index inside the part of the stream currently buffered.", "quantifier": "all streams, all shift histories, all buffered indices", "why_tests_cant": "Needs a shift in the middle of a line followed by a newline in the buffer.", "anchors": ["rjiter/src/rjiter.rs:RJiter::error_position", "rjiter/src/buffer.rs:Buffer::pos_shifted"]}
{"id": "C21", "title": "Parsing operations do not depend on the chunking", "statement": "If the plain parser accepts the next token on the whole remaining input, then the corresponding streaming operation (peek, known_array, array_step, next_object, next_key, booleans, null, strings, numbers) returns the same result and leaves the same remaining input, whatever the chunking and position in the buffer, provided the token fits in the buffer.", "quantifier": "all remaining inputs, all chunkings, all buffer fill states, all buffer sizes that hold the token", "why_tests_cant": "The retry loop is driven by the reader's schedule; unit tests use two kinds of reader.", "anchors": ["rjiter/src/rjiter.rs:RJiter::loop_until_success", "rjiter/src/rjiter.rs:RJiter::skip_spaces_feeding", "rjiter/src/rjiter.rs:RJiter::peek", "rjiter/src/rjiter.rs:RJiter::next_key_bytes", "rjiter/src/rjiter.rs:RJiter::array_step", "rjiter/src/rjiter.rs:RJiter::next_object_bytes"]}
{"id": "C22", "title": "Parsing operations reject what the plain parser rejects", "statement": "If the plain parser rejects the next token on the whole remaining input, then the streaming operation reports an error as well, whatever the chunking and position in the buffer.", "quantifier": "all malformed inputs, all chunkings, all buffer fill states", "why_tests_cant": "Acceptance of malformed input requires a particular alignment of the token with the buffer.", "anchors": ["rjiter/src/rjiter.rs:RJiter::loop_until_success", "rjiter/src/rjiter.rs:RJiter::skip_spaces_feeding"]}
{"id": "C23", "title": "Numbers are never cut or rejected at a chunk or stream end", "statement": "Reading a number (next_number_bytes) returns all of its digits and succeeds on every valid number that fits in the buffer, wherever the chunk boundaries fall and also when the number is the last thing in the stream.", "quantifier": "all numbers, chunkings, positions in the buffer, with and without following input", "why_tests_cant": "The boundary between number and end of data is a schedule; the project's tests append a newline.", "anchors": ["rjiter/src/rjiter.rs:RJiter::next_number_bytes", "rjiter/src/rjiter.rs:RJiter::loop_until_success"]}
{"id": "C24", "title": "write_long_bytes copies the string exactly", "statement": "When the parser stands on the opening quote of a valid JSON string, write_long_bytes writes exactly the raw bytes between the quotes to the writer, in order, and leaves the parser right after the closing quote, for strings of any length, any chunking and any buffer of at least 8 bytes.", "quantifier": "all valid strings (any escapes, any UTF-8), all chunkings, all initial buffer contents, buffer sizes from 8", "why_tests_cant": "Every split of every escape and every multi-byte character across segments has to be right.", "anchors": ["rjiter/src/rjiter.rs:RJiter::write_long_bytes", "rjiter/src/rjiter.rs:RJiter::handle_long"]}
{"id": "C25", "title": "write_long_str writes the decoded string exactly", "statement": "When the parser stands on the opening quote of a valid JSON string, write_long_str writes exactly the decoded text (escapes resolved, surrogate pairs combined), for strings of any length, any chunking and any buffer of at least 8 bytes.", "quantifier": "all valid strings, all chunkings, all initial buffer contents, buffer sizes from 8", "why_tests_cant": "Every split of an escape or a surrogate pair across segments has to be right.", "anchors": ["rjiter/src/rjiter.rs:RJiter::write_long_str", "rjiter/src/rjiter.rs:RJiter::handle_long"]}
{"id": "C26", "title": "finish succeeds exactly at the end of the input", "statement": "finish reports success if and only if only whitespace remains in the stream, and otherwise reports TrailingCharacters with the parser standing on the first other byte.", "quantifier": "all remaining inputs, chunkings, non-empty buffers", "why_tests_cant": "Whitespace may span any number of buffers.", "anchors": ["rjiter/src/rjiter.rs:RJiter::finish"]}
{"id": "C27", "title": "Streaming operations terminate", "statement": "Every streaming operation returns after finitely many reads, for every input, every chunking and every buffer size, including empty and one-byte buffers.", "quantifier": "all inputs, chunkings, buffer sizes, operations", "why_tests_cant": "A test cannot distinguish a long run from an endless one, nor try all sizes and schedules.", "anchors": ["rjiter/src/rjiter.rs:RJiter::loop_until_success", "rjiter/src/buffer.rs:Buffer::skip_spaces", "rjiter/src/rjiter.rs:RJiter::finish", "rjiter/src/rjiter.rs:RJiter::handle_long"]}
{"id": "C28", "title": "Path matching is exactly prefix matching", "statement": "iter_match answers true if and only if the expected list is empty, or (for a structural event) its first name is the event's pseudo-name and the rest is a prefix of the context listed from the innermost name outwards, or (for a key) the whole list is such a prefix.", "quantifier": "all expected lists, structural events and contexts", "why_tests_cant": "Infinite domain of paths; off-by-one and early-exit errors.", "anchors": ["scan_json/src/matcher.rs:iter_match", "scan_json/src/stack.rs:ContextIter"]}
{"id": "C29", "title": "scan leaves the working buffer as it found it", "statement": "After scan returns successfully, the working buffer passed to it holds the same items as before the call, so the same buffer can be used for any number of calls.", "quantifier": "all inputs, all callbacks, any number of consecutive calls", "why_tests_cant": "Leaks add up only over many calls on one buffer.", "anchors": ["scan_json/src/scan.rs:scan", "scan_json/src/scan.rs:handle_object", "scan_json/src/scan.rs:handle_array", "scan_json/src/idtransform.rs:idtransform"]}
{"id": "C30", "title": "scan reports events in document order with the right context", "statement": "For every valid document and all callbacks that respect the documented contract (either do not touch the parser, or consume exactly the value), scan asks for and runs the begin and end callbacks in document order, exactly once per element, each with the context that lists the enclosing key and array names from the inside out, and skips the events of consumed values.", "quantifier": "all documents, nesting shapes, whitespace layouts, callbacks and chunkings for which no operation fails", "why_tests_cant": "The callback sequence is a function of an unbounded tree and of arbitrary user code.", "anchors": ["scan_json/src/scan.rs:scan", "scan_json/src/scan.rs:handle_object", "scan_json/src/scan.rs:handle_array", "scan_json/src/scan.rs:skip_basic_values", "scan_json/src/stack.rs:ContextIter"]}
{"id": "C31", "title": "scan stops exactly where it should", "statement": "With stop_early, scan consumes exactly the first top-level value and leaves the parser right behind it; without it, scan consumes all top-level values up to the end of the input and fails if anything is left that is not a value.", "quantifier": "all sequences of documents and whitespace layouts", "why_tests_cant": "The stopping point depends on the document boundary and on buffering.", "anchors": ["scan_json/src/scan.rs:scan", "scan_json/src/scan.rs:Options"]}
{"id": "C32", "title": "Nesting limits are enforced exactly", "statement": "A document is processed if its key/array path always fits the working buffer, and scan reports MaxNestingExceeded (never a panic, never a wrong context) at the first element whose path has more entries than the buffer's slice limit.", "quantifier": "all documents, all slice limits", "why_tests_cant": "Needs documents exactly at and beyond the limit for every limit.", "anchors": ["scan_json/src/scan.rs:scan", "scan_json/src/scan.rs:handle_object", "scan_json/src/scan.rs:handle_array", "u8pool/src/core.rs:U8Pool::push_assoc"]}
{"id": "C33", "title": "idtransform reproduces the document without whitespace", "statement": "For every valid JSON value, idtransform writes exactly the same value with all insignificant whitespace removed (keys, numbers and strings copied byte for byte) and leaves the parser right behind the value.", "quantifier": "all JSON values, all whitespace layouts, all chunkings, all buffer sizes large enough for the tokens", "why_tests_cant": "Unbounded documents times unbounded schedules.", "anchors": ["scan_json/src/idtransform.rs:idtransform", "scan_json/src/idtransform.rs:copy_atom", "scan_json/src/scan.rs:scan"]}
{"id": "C34", "title": "idtransform never corrupts silently", "statement": "Whatever the chunking and the buffer size, if idtransform reports success on an input that starts with a valid JSON value, then its output is exactly that value without whitespace.", "quantifier": "all JSON values, all chunkings, all buffer sizes including too small ones", "why_tests_cant": "Silent corruption needs an exact coincidence of chunk boundaries and buffer contents.", "anchors": ["scan_json/src/idtransform.rs:idtransform", "rjiter/src/rjiter.rs:RJiter::write_long_bytes", "rjiter/src/rjiter.rs:RJiter::loop_until_success"]}
{"id": "C35", "title": "idtransform rejects malformed input", "statement": "If the input does not start with a valid JSON value, idtransform reports an error.", "quantifier": "all byte strings that do not start with a JSON value, all chunkings", "why_tests_cant": "There are infinitely many malformed inputs, and acceptance can depend on buffer alignment.", "anchors": ["scan_json/src/idtransform.rs:idtransform", "scan_json/src/scan.rs:scan", "rjiter/src/rjiter.rs:RJiter::loop_until_success"]}
{"id": "C36", "title": "Writer errors are reported and output is a prefix", "statement": "If the writer fails, idtransform reports that very I/O error, and what was written before is a prefix of the correct output.", "quantifier": "all documents and all points of failure of the writer", "why_tests_cant": "The failure can hit any byte of any document.", "anchors": ["scan_json/src/idtransform.rs:idtransform", "scan_json/src/idtransform.rs:write_and_store_error", "scan_json/src/idtransform.rs:copy_atom"]}
{"id": "C37", "title": "Keys are data: no key is treated specially", "statement": "The processing of an object member does not depend on its key being spelled like an internal marker: in particular idtransform copies members whose key is #top or #array like any other.", "quantifier": "all key strings", "why_tests_cant": "The failing keys are two needles in an infinite set.", "anchors": ["scan_json/src/idtransform.rs:find_action", "scan_json/src/scan.rs:scan", "scan_json/src/matcher.rs:iter_match", "examples/dynamodb/src/normal_to_ddb.rs:find_action"]}
{"id": "C38", "title": "Read errors surface as I/O errors", "statement": "If the reader reports an error while scan or idtransform is running, the call fails with that I/O error and not with a complaint about the document.", "quantifier": "all documents, all points in the stream at which the reader fails", "why_tests_cant": "The error can arrive before any byte.", "anchors": ["scan_json/src/scan.rs:scan", "scan_json/src/scan.rs:skip_basic_values", "scan_json/src/idtransform.rs:copy_atom", "rjiter/src/error.rs:ErrorType::IoError"]}
{"id": "C39", "title": "SSE tokens are skipped at the top level only", "statement": "With sse_tokens configured, occurrences of the tokens between top-level values are skipped and do not change the events reported for the values; inside values they are errors.", "quantifier": "all token lists, all sequences of tokens and documents", "why_tests_cant": "Tokens can be arranged in infinitely many ways around documents.", "anchors": ["scan_json/src/scan.rs:scan", "rjiter/src/rjiter.rs:RJiter::known_skip_token"]}
{"id": "C40", "title": "Normal JSON to DynamoDB JSON is correct", "statement": "For every JSON document whose root is an object, the converter writes the DynamoDB form: every string, number, boolean, null, array and object becomes S, N, BOOL, NULL, L and M respectively, nested arbitrarily, members in order, with the optional Item wrapper.", "quantifier": "all JSON documents, all layouts, chunkings for which parsing succeeds", "why_tests_cant": "Unbounded nesting; comma and brace placement depend on the path.", "anchors": ["examples/dynamodb/src/normal_to_ddb.rs:convert_normal_to_ddb"]}
{"id": "C41", "title": "DynamoDB JSON to normal JSON is correct", "statement": "For every well-formed DynamoDB item the converter writes the plain JSON value it denotes, nested arbitrarily, members in order.", "quantifier": "all DynamoDB items, all layouts, chunkings for which parsing succeeds", "why_tests_cant": "The phase machine is driven by an unbounded tree.", "anchors": ["examples/dynamodb/src/ddb_to_normal.rs:convert_ddb_to_normal"]}
{"id": "C42", "title": "Conversion round trip", "statement": "Converting a JSON object to DynamoDB form and back yields the same JSON object (up to insignificant whitespace).", "quantifier": "all JSON objects", "why_tests_cant": "Infinite domain.", "anchors": ["examples/dynamodb/src/normal_to_ddb.rs:convert_normal_to_ddb", "examples/dynamodb/src/ddb_to_normal.rs:convert_ddb_to_normal"]}
{"id": "C43", "title": "Numbers keep all their digits in the DynamoDB form", "statement": "The N value written for a number has exactly the digits of the input number.", "quantifier": "all JSON numbers", "why_tests_cant": "Needs numbers longer than any in the tests.", "anchors": ["examples/dynamodb/src/normal_to_ddb.rs:on_atom_value_toddb"]}
{"id": "C44", "title": "The converter terminates on every input", "statement": "convert_normal_to_ddb returns after finitely many steps, with an error if the input is malformed.", "quantifier": "all byte strings", "why_tests_cant": "Tests with malformed literals would simply hang.", "anchors": ["examples/dynamodb/src/normal_to_ddb.rs:on_bool_value_toddb", "examples/dynamodb/src/normal_to_ddb.rs:on_null_value_toddb", "examples/dynamodb/src/normal_to_ddb.rs:convert_normal_to_ddb"]}
{"id": "C45", "title": "Concatenated documents are converted independently", "statement": "Converting a stream of several root values writes the concatenation of the conversions of the single values.", "quantifier": "all sequences of JSON values", "why_tests_cant": "Converter state carried from one root value to the next depends on the kinds of both.", "anchors": ["examples/dynamodb/src/normal_to_ddb.rs:convert_normal_to_ddb", "examples/dynamodb/src/normal_to_ddb.rs:on_root_literal", "examples/dynamodb/src/normal_to_ddb.rs:on_root_array_end"]}
{"id": "C46", "title": "What ddb_to_normal writes on success is valid JSON", "statement": "Whenever convert_ddb_to_normal reports success, its output is valid JSON.", "quantifier": "all inputs that are accepted", "why_tests_cant": "The accepted inputs include malformed items nobody wrote a test for.", "anchors": ["examples/dynamodb/src/ddb_to_normal.rs:convert_ddb_to_normal"]}
{"id": "C47", "title": "Converter write errors", "statement": "If the writer fails after n bytes, a converter ends with that very I/O error, and exactly the first n bytes of the full output have been written.", "quantifier": "all inputs the converters are made for, all points of failure", "why_tests_cant": "The failure can hit any byte of any output.", "anchors": ["examples/dynamodb/src/normal_to_ddb.rs:convert_normal_to_ddb", "examples/dynamodb/src/normal_to_ddb.rs:on_string_value_toddb", "examples/dynamodb/src/ddb_to_normal.rs:convert_ddb_to_normal"]}
{"id": "C48", "title": "Converters do not pass over read errors", "statement": "If a read fails during a conversion, the conversion does not report success with a wrong output.", "quantifier": "all inputs, all schedules of reads and failures", "why_tests_cant": "The failure can hit any position, also inside a literal.", "anchors": ["examples/dynamodb/src/normal_to_ddb.rs:on_bool_value_toddb", "examples/dynamodb/src/normal_to_ddb.rs:on_null_value_toddb", "examples/dynamodb/src/ddb_to_normal.rs:convert_ddb_to_normal"]}
{"id": "C49", "title": "scan always returns", "statement": "scan returns, with success or an error, after finitely many steps: it neither panics nor loops, if the callbacks return and consume something when they say so.", "quantifier": "all inputs, readers, options, buffer sizes from 8 bytes, such callbacks", "why_tests_cant": "The input can be any garbage, cut anywhere; a missed case hangs or aborts the host.", "anchors": ["scan_json/src/scan.rs:scan", "rjiter/src/rjiter.rs:loop_until_success"]}
{"id": "C50", "title": "idtransform always returns", "statement": "idtransform returns after finitely many steps, without panicking, whatever the input, and whatever the reader and the writer do.", "quantifier": "all inputs, schedules of reads and failures, points of writer failure, buffer sizes from 8 bytes", "why_tests_cant": "The combinations of garbage, chunk boundaries and failures cannot be enumerated.", "anchors": ["scan_json/src/idtransform.rs:idtransform", "scan_json/src/scan.rs:scan"]}
{"id": "C51", "title": "The converter from DynamoDB terminates on every input", "statement": "convert_ddb_to_normal ends after finitely many steps.", "quantifier": "all byte strings, schedules of reads and failures, points of writer failure", "why_tests_cant": "Malformed inputs are unlimited, a loop shows only as a hanging test.", "anchors": ["examples/dynamodb/src/ddb_to_normal.rs:convert_ddb_to_normal"]}
{"id": "C52", "title": "The converter from DynamoDB does not panic", "statement": "convert_ddb_to_normal reports malformed items as errors and never panics.", "quantifier": "all byte strings", "why_tests_cant": "The counter of levels underflows only for nested malformed items.", "anchors": ["examples/dynamodb/src/ddb_to_normal.rs:convert_ddb_to_normal", "examples/dynamodb/src/ddb_to_normal.rs:on_map_end"]}
{"id": "C53", "title": "The converter to DynamoDB does not panic", "statement": "convert_normal_to_ddb never panics, whatever the input, the reader and the writer do.", "quantifier": "all byte strings, schedules of reads and failures, points of writer failure", "why_tests_cant": "Its counter of levels is decremented at many places; each must have been incremented before on every path, including malformed inputs.", "anchors": ["examples/dynamodb/src/normal_to_ddb.rs:convert_normal_to_ddb", "examples/dynamodb/src/normal_to_ddb.rs:on_atom_value_toddb"]}
{"id": "C54", "title": "No internal errors", "statement": "scan never reports one of the internal errors written for impossible situations (an empty stack, an unexpected position); the only internal error is that for a key that does not fit in the working buffer.", "quantifier": "all inputs, all callbacks, all options and working buffers", "why_tests_cant": "The branches cannot be reached by a test if the claim is true.", "anchors": ["scan_json/src/scan.rs:handle_object", "scan_json/src/scan.rs:handle_array", "scan_json/src/scan.rs:scan"]}
{"id": "C55", "title": "Success means that the input was read as JSON", "statement": "If scan succeeds, its input is a sequence of JSON values and white space (with stop_early: starts with one value), the callbacks were asked for exactly the events of these values, in document order, and with stop_early the parser stands right behind the value.", "quantifier": "all byte strings, all schedules of reads and failures, all buffer sizes, all callbacks that read nothing else than the value they say they consumed", "why_tests_cant": "The malformed inputs that must not be accepted, in every way they can be cut into chunks, cannot be enumerated; acceptance depends on where a chunk ends.", "anchors": ["scan_json/src/scan.rs:scan", "scan_json/src/scan.rs:handle_object", "scan_json/src/scan.rs:handle_array", "rjiter/src/rjiter.rs:loop_until_success"]}
{"id": "C56", "title": "A whole value is read the same for every chunking", "statement": "next_value (next_value_owned) returns the value whose JSON text stands in front of the parser - numbers with their value, strings with their escapes resolved, members and items in order - and leaves the parser right behind it; whatever it returns is the value of a JSON text it has moved past.", "quantifier": "all values, all chunkings of the input, all buffers that hold the value, all parser states", "why_tests_cant": "Where a chunk ends inside a nested value decides whether the attempt is repeated and from which position; tests cover a few cuts of a few values.", "anchors": ["rjiter/src/rjiter.rs:next_value", "rjiter/src/rjiter.rs:next_value_owned", "rjiter/src/rjiter.rs:loop_until_success"]}
{"id": "C57", "title": "Skipping a value skips exactly that value", "statement": "next_skip moves the parser past exactly one JSON value, and fails if what stands in front of it is not one.", "quantifier": "all values, all chunkings of the input, all buffers that hold the value, all parser states", "why_tests_cant": "A skip that ends one byte early or late depends on the kind of value, on its nesting and on the cut.", "anchors": ["rjiter/src/rjiter.rs:next_skip", "rjiter/src/rjiter.rs:known_skip", "rjiter/src/rjiter.rs:loop_until_success"]}
{"id": "C58", "title": "Numbers are read with their exact value", "statement": "next_int, next_float, next_number and next_number_bytes return the number in front of the parser, integers of any size exactly, and move past it; next_int refuses a number with a fraction or an exponent.", "quantifier": "all numbers, all chunkings of the input, all buffers that hold the number, all parser states", "why_tests_cant": "A number cut by the end of a chunk looks like a shorter number; the wrong answer is a plausible number.", "anchors": ["rjiter/src/rjiter.rs:next_int", "rjiter/src/rjiter.rs:next_float", "rjiter/src/rjiter.rs:next_number", "rjiter/src/rjiter.rs:next_number_bytes", "rjiter/src/rjiter.rs:loop_until_success"]}
{"id": "C59", "title": "A limit on nesting guards whole values", "statement": "next_value and next_skip refuse a value with more than 200 arrays and objects inside each other, with the error for recursion.", "quantifier": "all values deeper than the limit, all chunkings, all buffer sizes", "why_tests_cant": "Depth and shape of the value, and the cuts, are unbounded; a second attempt may start inside the value.", "anchors": ["rjiter/src/rjiter.rs:next_value", "rjiter/src/rjiter.rs:next_skip", "rjiter/src/rjiter.rs:loop_until_success"]}
{"id": "C60", "title": "Telling the first byte changes nothing", "statement": "If the first byte of the value in front of the parser is passed as the known peek, known_int, known_float, known_number, known_skip, known_value and known_value_owned answer and move as their next_ counterparts.", "quantifier": "all inputs, chunkings and parser states in front of a byte that is not white space", "why_tests_cant": "The two ways of calling differ only when an attempt is repeated, which tests with a whole input in the buffer never do.", "anchors": ["rjiter/src/rjiter.rs:known_int", "rjiter/src/rjiter.rs:known_float", "rjiter/src/rjiter.rs:known_skip", "rjiter/src/rjiter.rs:known_value", "rjiter/src/rjiter.rs:loop_until_success"]}
{"id": "C61", "title": "ddb_to_normal accepts only DynamoDB items and writes what they stand for", "statement": "If convert_ddb_to_normal reports success, its input is a sequence of DynamoDB items, and what it has written is the sequence of their plain forms, regardless of how the input was delivered.", "quantifier": "all inputs (JSON or not), readers with any chunks and failures, buffers, writers, both wrapper modes, pretty or not", "why_tests_cant": "Success on a wrong input is silent: it takes an adversarial text, and the state machine of the converter keeps no record of the levels it is in.", "anchors": ["examples/dynamodb/src/ddb_to_normal.rs:convert_ddb_to_normal", "scan_json/src/scan.rs:scan"]}
{"id": "C62", "title": "Exit status 0 means the output is complete", "statement": "If ddb_convert ends with status 0, everything the conversion produced has arrived at the output.", "quantifier": "all inputs, options, chunkings of the input and points of failure of the output", "why_tests_cant": "The failure must hit bytes that a buffer holds back until the program ends.", "anchors": ["examples/dynamodb/src/main.rs:main"]}
{"id": "C63", "title": "Output before an error is kept", "statement": "If ddb_convert ends with status 1 because of the input, everything that was converted before the error has arrived at the output.", "quantifier": "all inputs, options and points of failure of the input", "why_tests_cant": "Which bytes are lost depends on the fill of a buffer when the error happens.", "anchors": ["examples/dynamodb/src/main.rs:main"]}
{"id": "C64", "title": "A full output", "statement": "If the output takes n bytes only, ddb_convert leaves exactly the first n bytes of the full output there, and the status is 1 if and only if there are more (given a convertible input).", "quantifier": "all inputs, options and n", "why_tests_cant": "The failure can hit any byte of any output.", "anchors": ["examples/dynamodb/src/main.rs:main"]}
{"id": "C65", "title": "Buffering changes nothing", "statement": "With a working output, --unbuffered changes neither the status, nor the message, nor on success the output.", "quantifier": "all inputs, both modes", "why_tests_cant": "Differences would show only for inputs with errors or outputs around the size of the buffer.", "anchors": ["examples/dynamodb/src/main.rs:main"]}
{"id": "C66", "title": "The program converts files", "statement": "ddb_convert to-ddb turns a file of JSON values into a file of the DynamoDB records for them, and from-ddb a file of items into a file of the plain values, with status 0.", "quantifier": "all sequences of values and items, all options", "why_tests_cant": "Output of two threads of state (converter, buffers) on unbounded inputs.", "anchors": ["examples/dynamodb/src/main.rs:main", "examples/dynamodb/src/main.rs:convert_from_ddb", "examples/dynamodb/src/main.rs:convert_to_ddb"]}
{"id": "C67", "title": "Round trip over files", "statement": "Running to-ddb and then from-ddb on its output yields the values of the first input.", "quantifier": "all sequences of objects, all options", "why_tests_cant": "Needs all inputs; the exceptions are rare values.", "anchors": ["examples/dynamodb/src/main.rs:main", "examples/dynamodb/src/main.rs:convert_from_ddb", "examples/dynamodb/src/main.rs:convert_to_ddb"]}
{"id": "C68", "title": "The input is not destroyed", "statement": "ddb_convert changes no file other than the output, in particular not the input, and does not touch the output if the input cannot be opened.", "quantifier": "all argument combinations, all file contents", "why_tests_cant": "Needs the paths to coincide.", "anchors": ["examples/dynamodb/src/main.rs:main", "examples/dynamodb/src/main.rs:open_input_file", "examples/dynamodb/src/main.rs:create_output_file"]}
{"id": "C69", "title": "The program ends", "statement": "ddb_convert ends with a status, for every input.", "quantifier": "all inputs and options", "why_tests_cant": "A hanging test only times out; malformed inputs are unbounded.", "anchors": ["examples/dynamodb/src/main.rs:main"]}
{"id": "C70", "title": "normal_to_ddb accepts only JSON values and writes their records", "statement": "If convert_normal_to_ddb reports success, its input is a sequence of JSON values, and what it has written is the sequence of their DynamoDB records, regardless of how the input was delivered.", "quantifier": "all inputs (JSON or not), readers with any chunks, buffers, writers, with or without wrapper, pretty or not", "why_tests_cant": "The converter throws away the answer of known_bool and known_null, so a wrong literal is answered with success by the handler itself; only what the parser meets afterwards can stop the conversion, for every text and every cut of it.", "anchors": ["examples/dynamodb/src/normal_to_ddb.rs:convert_normal_to_ddb", "examples/dynamodb/src/normal_to_ddb.rs:on_bool_value_toddb", "examples/dynamodb/src/normal_to_ddb.rs:on_null_value_toddb", "scan_json/src/scan.rs:scan"]}
{"id": "C71", "title": "The benchmark converter there and back gives the same value", "statement": "An object that is converted to DynamoDB JSON and back by the benchmark program is the same object again, with and without the Item wrapper.", "quantifier": "all values that are objects, any functions for showing and reading numbers, wrapper or not", "why_tests_cant": "Values are nested without bound, and the collision with the wrapper needs a particular shape (one member named Item whose member is named like a type) that gives another value without an error.", "anchors": ["benchmarks/dynamodb/ddb_convert_rust/src/main.rs:marshall_value", "benchmarks/dynamodb/ddb_convert_rust/src/main.rs:unmarshall_value", "benchmarks/dynamodb/ddb_convert_rust/src/main.rs:to_dynamodb", "benchmarks/dynamodb/ddb_convert_rust/src/main.rs:from_dynamodb"]}
{"id": "C72", "title": "The benchmark converter and the library convert values in the same way", "statement": "For every JSON object, the value that the benchmark program makes of it is the value of the text that ddb_convert writes for it, in both directions.", "quantifier": "all JSON objects and items, any functions for showing and reading numbers, wrapped or not", "why_tests_cant": "A benchmark compares programs on a few files; that they compute the same function is a statement about all nestings, key texts and set types.", "anchors": ["benchmarks/dynamodb/ddb_convert_rust/src/main.rs:marshall_value", "benchmarks/dynamodb/ddb_convert_rust/src/main.rs:unmarshall_value", "benchmarks/dynamodb/ddb_convert_rust/src/main.rs:to_dynamodb", "benchmarks/dynamodb/ddb_convert_rust/src/main.rs:from_dynamodb"]}
{"id": "C73", "title": "JSONL files are converted line by line, independently", "statement": "A file with the extension jsonl is converted without an error if and only if each of its lines is, and the output is the outputs of the lines in their order; lines before an error have been converted, and what follows has no effect on them.", "quantifier": "all inputs (text or not, ending in an error of the reader or not), all lines, any JSON library", "why_tests_cant": "The statement is an equivalence over all splittings of all inputs into lines, blank lines and a last line without line feed included.", "anchors": ["benchmarks/dynamodb/ddb_convert_rust/src/main.rs:process_jsonl"]}
{"id": "C74", "title": "JSONL without the extension is recognized by its content", "statement": "Input that would be converted as lines with the extension jsonl is converted to the same output without it; any other document is converted as a whole.", "quantifier": "all inputs, from a file or standard input, any JSON library", "why_tests_cant": "The decision is made on the first line for an input of any length; the failing case is a blank first line.", "anchors": ["benchmarks/dynamodb/ddb_convert_rust/src/main.rs:detect_jsonl_from_content", "benchmarks/dynamodb/ddb_convert_rust/src/main.rs:process_jsonl", "benchmarks/dynamodb/ddb_convert_rust/src/main.rs:process_json"]}
{"id": "C75", "title": "The line number in an error is that of the wrong line", "statement": "If the program reports invalid JSON on line n, the n-th line of the input is not a JSON document.", "quantifier": "all inputs, with and without the extension jsonl, any JSON library", "why_tests_cant": "Two loops count from different first lines; the count has to be right for every position of the wrong line and all blank lines before it.", "anchors": ["benchmarks/dynamodb/ddb_convert_rust/src/main.rs:process_jsonl", "benchmarks/dynamodb/ddb_convert_rust/src/main.rs:detect_jsonl_from_content"]}
{"id": "C76", "title": "The benchmark program reports an output that could not be written", "statement": "If the output takes only n bytes, it has received the first n bytes of the complete output, and the program ends with an error if there are more.", "quantifier": "all inputs, all options, all limits of the output and kinds of its error", "why_tests_cant": "The error can come at each byte, in the buffered writer, at the final flush or when the writer is dropped.", "anchors": ["benchmarks/dynamodb/ddb_convert_rust/src/main.rs:main", "benchmarks/dynamodb/ddb_convert_rust/src/main.rs:process_jsonl", "benchmarks/dynamodb/ddb_convert_rust/src/main.rs:process_json"]}
{"id": "C77", "title": "The output file can be the input file", "statement": "Converting a file in place gives the same content as converting it into another file.", "quantifier": "all files and options", "why_tests_cant": "The input is read through a buffer before the output is created, so that short files work and longer ones are cut without an error; the limit depends on the length of the first line and the size of the buffer.", "anchors": ["benchmarks/dynamodb/ddb_convert_rust/src/main.rs:main", "benchmarks/dynamodb/ddb_convert_rust/src/main.rs:detect_jsonl_from_content"]}
{"id": "C78", "title": "A reported error can be described", "statement": "After a call has failed, asking the error for its position or description in the parser it came from returns and does not panic.", "quantifier": "all methods, all inputs, reader schedules and buffer sizes, all states of the parser", "why_tests_cant": "The position is computed from an index and from what has been dropped in front of the buffer meanwhile; they disagree only if the reader fails after some of the input was dropped.", "anchors": ["rjiter/src/error.rs:get_position", "rjiter/src/error.rs:description", "rjiter/src/rjiter.rs:error_position", "rjiter/src/buffer.rs:read_more"]}
{"id": "C79", "title": "An error is reported in the part of the input that the call has read", "statement": "The index of an error is not before the place where the failed call began and not behind the end of the input.", "quantifier": "all methods, all inputs, reader schedules and buffer sizes, all states of the parser", "why_tests_cant": "The index is put together from three positions (dropped, in the buffer, in the plain parser), and each kind of error takes another path.", "anchors": ["rjiter/src/rjiter.rs:loop_until_success", "rjiter/src/rjiter.rs:lookahead", "rjiter/src/buffer.rs:collect_while", "rjiter/src/error.rs:from_jiter_error"]}
{"id": "C80", "title": "The position of a failed conversion lies in the input", "statement": "If a conversion fails, the position that is returned with the error is not behind the end of the input.", "quantifier": "all inputs, both directions, all options and buffer sizes", "why_tests_cant": "The tests look at the message and not at the position; a wrong position needs an error behind a long key.", "anchors": ["examples/dynamodb/src/normal_to_ddb.rs:convert_normal_to_ddb", "examples/dynamodb/src/ddb_to_normal.rs:convert_ddb_to_normal", "rjiter/src/error.rs:from_jiter_error"]}
{"id": "C81", "title": "The text of an error tells which error it is", "statement": "Two different errors of a crate have different texts: the text determines the kind of the error, its position and everything else in it. What the program writes to the standard error stream determines how it has ended.", "quantifier": "all errors; for the program all inputs, options and surroundings", "why_tests_cant": "There are infinitely many pairs of errors; tests look at a few texts. A text with numbers and words of the input in it can be ambiguous in ways nobody tries.", "anchors": ["u8pool/src/error.rs:fmt", "rjiter/src/error.rs:fmt", "rjiter/src/error.rs:write_description", "scan_json/src/error.rs:fmt", "examples/dynamodb/src/lib.rs:fmt", "examples/dynamodb/src/main.rs:main"]}
{"id": "C82", "title": "The two positions of a message agree", "statement": "If the error of a failed conversion comes from the scanner or the parser, its text contains a position, and it is the position that is returned with the error.", "quantifier": "all inputs, reader schedules, both directions, all options and buffers", "why_tests_cant": "The two positions are taken at different times from different objects; a handler could move the parser in between.", "anchors": ["examples/dynamodb/src/main.rs:main", "examples/dynamodb/src/normal_to_ddb.rs:convert_normal_to_ddb", "examples/dynamodb/src/ddb_to_normal.rs:convert_ddb_to_normal", "scan_json/src/scan.rs:scan"]}
{"id": "C83", "title": "An error quotes little of the input", "statement": "If a conversion fails and its error quotes the input, it quotes at most 32 bytes.", "quantifier": "all inputs, reader schedules, both directions, all options and buffers", "why_tests_cant": "The tests use short names; the error is made in one of many handlers, and one that forgets to cut its quotation is only noticed with a long name there.", "anchors": ["examples/dynamodb/src/ddb_to_normal.rs:store_parse_error", "examples/dynamodb/src/lib.rs:ConversionError", "examples/dynamodb/src/main.rs:main"]}
{"id": "C84", "title": "A remembered name is not used once it can have been overwritten", "statement": "The identity transform and both converters remember a slice of the scanner's working buffer from one callback to the next. If these bytes were replaced by anything, before every lookup of an action and before every end action, the same text would be written, the same result returned and the same input consumed.", "quantifier": "all replacements (another one each time), inputs, reader schedules, writers, options and buffers", "why_tests_cant": "The lifetime of the slice is widened with transmute, so neither the compiler nor a test that happens to find the old bytes still in place notices a late use.", "anchors": ["scan_json/src/idtransform.rs:find_action", "scan_json/src/idtransform.rs:write_seqpos", "examples/dynamodb/src/normal_to_ddb.rs:find_action", "examples/dynamodb/src/ddb_to_normal.rs:find_action_key", "examples/dynamodb/src/ddb_to_normal.rs:on_type_key"]}
{"id": "C85", "title": "The README's program prints what the language model says", "statement": "For an answer of a language model, or a stream of events with data: and [DONE], the program scan_llm_output returns the contents in the order of the document, each message between the line (new message) and a line end, and nothing else.", "quantifier": "all documents and streams, of any size, with any other members", "why_tests_cant": "The two samples of the README have one layout each; the parser's buffer of 32 bytes is cut at every possible place of a document only if all documents are considered.", "anchors": ["scan_json/README.md:scan_llm_output", "scan_json/src/scan.rs:scan", "rjiter/src/rjiter.rs:write_long_bytes"]}
{"id": "C86", "title": "The README's program finds the value behind tokens", "statement": "peek_skipping_tokens skips white space and the given tokens and returns the first byte of what follows, with the parser in front of it and nothing lost; if nothing follows it reports the end of the input.", "quantifier": "all token lists, inputs, chunkings, buffers that hold the longest token", "why_tests_cant": "The example has three tokens and one input; tokens that are cut by the end of the buffer, and lists in which one token starts another, are not tried.", "anchors": ["rjiter/README.md:peek_skipping_tokens", "rjiter/src/rjiter.rs:known_skip_token", "rjiter/src/rjiter.rs:peek", "rjiter/tests/rjiter_test.rs:peek_skipping_tokens"]}
{"id": "C87", "title": "The converter in Python converts as the library does", "statement": "to_dynamodb of the converter in Python gives for the value of a JSON object the value of the record that the library writes, from_dynamodb gives for an item the value of the plain object, and a value that is converted to DynamoDB and back is the same.", "quantifier": "all values, with and without the wrapper, for any floats", "why_tests_cant": "The benchmarks compare a few files; how deep values are nested, which keys they have and how large their integers are is not limited.", "anchors": ["benchmarks/dynamodb/ddb_convert_python_noboto/ddb_convert.py:marshall_value", "benchmarks/dynamodb/ddb_convert_python_noboto/ddb_convert.py:unmarshall_value", "benchmarks/dynamodb/ddb_convert_python_noboto/ddb_convert.py:to_dynamodb", "benchmarks/dynamodb/ddb_convert_python_noboto/ddb_convert.py:from_dynamodb"]}
{"id": "C88", "title": "The converter in Python takes integers of JSON, and nothing else, for integers", "statement": "A member N without fraction and exponent is accepted by the converter in Python if and only if its text is an integer of JSON, and becomes that integer.", "quantifier": "all ASCII texts", "why_tests_cant": "There are infinitely many texts; those that int() accepts beyond JSON (underscores, signs, white space, leading zeros) are easily forgotten.", "anchors": ["benchmarks/dynamodb/ddb_convert_python_noboto/ddb_convert.py:unmarshall_value"]}
{"id": "C89", "title": "The benchmark programs do the same", "statement": "For the same arguments and input, the converters in Rust and Python of the benchmarks create the same output up to the layout of the values, and end with the same error or without one, if their parsers agree about the documents.", "quantifier": "all inputs, files and standard input, lines or one document, read errors", "why_tests_cant": "A comparison of outputs on sample files does not show what happens with blank lines, errors behind some output, or unusual white space.", "anchors": ["benchmarks/dynamodb/ddb_convert_python_noboto/ddb_convert.py:main", "benchmarks/dynamodb/ddb_convert_python_noboto/ddb_convert.py:process_jsonl", "benchmarks/dynamodb/ddb_convert_python_noboto/ddb_convert.py:process_json", "benchmarks/dynamodb/ddb_convert_python_noboto/ddb_convert.py:detect_jsonl_from_content", "benchmarks/dynamodb/ddb_convert_rust/src/main.rs:main"]}
{"id": "C90", "title": "The build profile does not change what the converter from DynamoDB does", "statement": "Built without overflow checks (the release profile), the converter from DynamoDB returns, with the same output and the same result as built with them.", "quantifier": "all inputs, readers, writers, buffers, modes, pretty-printing or not, all sizes of a word", "why_tests_cant": "Tests run in the debug profile, users in the release profile; the profiles differ only where a number wraps.", "anchors": ["examples/dynamodb/src/ddb_to_normal.rs:on_map_end", "examples/dynamodb/src/ddb_to_normal.rs:find_end_action", "examples/dynamodb/src/ddb_to_normal.rs:convert_ddb_to_normal"]}
{"id": "C91", "title": "The size of the output is bounded by the size of the input", "statement": "What a conversion writes, successful or not, is not longer than a fixed multiple of the input (without pretty-printing) or a fixed function of it (with pretty-printing).", "quantifier": "all inputs, well formed or not, readers, writers, buffers, modes", "why_tests_cant": "Whether some malformed input lets a program fill the disk cannot be found by trying inputs.", "anchors": ["examples/dynamodb/src/ddb_to_normal.rs:convert_ddb_to_normal", "examples/dynamodb/src/ddb_to_normal.rs:indent_if_pretty", "examples/dynamodb/src/ddb_to_normal.rs:on_map_end", "scan_json/src/idtransform.rs:idtransform", "examples/dynamodb/src/normal_to_ddb.rs:convert_normal_to_ddb"]}
{"id": "C92", "title": "From DynamoDB JSON to plain JSON and back", "statement": "Converting a stream of items with convert_ddb_to_normal and the result with convert_normal_to_ddb gives the same items; if the input was compact with one item per line, the same bytes.", "quantifier": "all streams of items, all buffers and readers for each of the two runs, pretty-printed in between or not, wrapped or not", "why_tests_cant": "Tests convert a few files there and back; a value that comes back changed must be among them to be noticed.", "anchors": ["examples/dynamodb/src/ddb_to_normal.rs:convert_ddb_to_normal", "examples/dynamodb/src/normal_to_ddb.rs:convert_normal_to_ddb"]}
{"id": "C93", "title": "idtransform leaves its own output unchanged", "statement": "idtransform applied to what idtransform has written writes the same bytes and succeeds.", "quantifier": "all values, all buffers and readers for each of the two runs", "why_tests_cant": "The output has no white space, which the input of most tests has; whether it is needed depends on value, buffer and chunks.", "anchors": ["scan_json/src/idtransform.rs:idtransform"]}
{"id": "C94", "title": "What was written before a read error is the beginning of what would have been written", "statement": "If the reader reports an error, what idtransform or a converter has written by then is the beginning of what it writes with a reader that does not fail there and otherwise has behaved in the same way; if the call succeeds all the same, everything is as without the error. Likewise for the calls of the callbacks that scan makes.", "quantifier": "all inputs (JSON or not), all readers that behave alike up to the error, whatever they do later, all buffer sizes, working buffers and writers", "why_tests_cant": "The tests have no reader that fails in the middle; the error can come at any read of any input, and the two runs must be compared for each.", "anchors": ["scan_json/src/idtransform.rs:idtransform", "examples/dynamodb/src/ddb_to_normal.rs:convert_ddb_to_normal", "examples/dynamodb/src/normal_to_ddb.rs:convert_normal_to_ddb", "scan_json/src/scan.rs:scan"]}
{"id": "C95", "title": "With the flag unbuffered nothing is left in the writer's buffer", "statement": "A converter that is called with unbuffered set has handed everything it has written on to the destination when it returns, whatever buffer the writer has; result and output are those of a run without the flag, unless the destination is full: then the call fails and exactly the bytes that fit have arrived.", "quantifier": "all inputs (JSON or not), readers, buffers, working buffers, settings of the converters, writers with any buffer and any room behind it", "why_tests_cant": "The tests write to slices and vectors, for which a flush does nothing; one missing flush would show only for a buffered writer and the run that ends just there.", "anchors": ["examples/dynamodb/src/normal_to_ddb.rs:convert_normal_to_ddb", "examples/dynamodb/src/ddb_to_normal.rs:convert_ddb_to_normal"]}
{"id": "C96", "title": "What the buffers hold beforehand does not matter", "statement": "A parser, a scan, idtransform and the converters give the same answers and the same output on two buffers of the same length, whatever the buffers hold when they are handed over. The same for two working buffers of the same length.", "quantifier": "all inputs (JSON or not), readers, buffer lengths and contents, working buffers, options, programs that call the methods of the parser in any order, callbacks that are such programs, settings of the converters", "why_tests_cant": "Tests hand over buffers full of zeros. A read of a cell that has not been filled yet shows only when the buffer has been used before for something else, and then only for certain bytes at certain chunk borders.", "anchors": ["rjiter/src/rjiter.rs:RJiter::new", "rjiter/src/rjiter.rs:handle_long", "rjiter/src/buffer.rs:Buffer", "scan_json/src/scan.rs:scan", "scan_json/src/idtransform.rs:idtransform", "examples/dynamodb/src/normal_to_ddb.rs:convert_normal_to_ddb", "examples/dynamodb/src/ddb_to_normal.rs:convert_ddb_to_normal"]}
{"id": "C97", "title": "Strings are read as sequences of Unicode characters", "statement": "next_str and known_str return, for a JSON string that fits in the buffer with a byte to spare, the UTF-8 spelling of exactly the characters (Unicode scalar values) the text between the quotes stands for: characters of one to four bytes, the eight short escapes, \\u escapes, surrogate pairs combined. Whatever next_str returns spells the characters of a string that stood in front of the parser; in particular overlong forms, surrogates, code points behind the last one, unfinished characters and half pairs are never accepted.", "quantifier": "all character sequences, all ways to escape them, all chunkings, all parser states with a buffer of at least 2 bytes, failing readers for what is returned", "why_tests_cant": "There are more than a million characters and every boundary of the byte classes has to be right; each string can be cut anywhere, also inside a character or an escape.", "anchors": ["rjiter/src/rjiter.rs:next_str", "rjiter/src/rjiter.rs:known_str", "rjiter/src/rjiter.rs:loop_until_success"]}
{"id": "C98", "title": "write_long_str hands only whole UTF-8 texts to the writer", "statement": "Whatever stands in front of the parser and however the call ends, the bytes that write_long_str hands to the writer spell a sequence of characters; some of them are missing only if the writer fails.", "quantifier": "all parser states, inputs (JSON or not, UTF-8 or not), chunkings, read errors, buffer lengths and contents, writers", "why_tests_cant": "A string is written in segments whose ends depend on the chunks; each segment must end between two characters and between two escapes for each of the ways a character can be cut.", "anchors": ["rjiter/src/rjiter.rs:RJiter::write_long_str", "rjiter/src/rjiter.rs:RJiter::handle_long"]}
{"id": "C99", "title": "A value of another type is reported with its type and position", "statement": "next_null, next_bool, next_str, next_bytes, next_array, next_object, next_object_bytes, next_int, next_float, next_number and next_number_bytes, called in front of a value of another type, fail with WrongType naming the type asked for and the type found; the index of the error is the absolute position of the value, and the parser stays in front of it. In front of a byte that begins no value the error is ExpectedSomeValue, at the end of the input EofWhileParsingValue, at that position.", "quantifier": "all inputs, all chunkings, failing readers, all parser states with a buffer of at least 2 bytes", "why_tests_cant": "Eleven methods, seven types, and each value may come at any place of the buffer and in any chunks; the white space before it may be longer than the buffer.", "anchors": ["rjiter/src/rjiter.rs:RJiter::loop_until_success", "rjiter/src/rjiter.rs:next_null", "rjiter/src/rjiter.rs:next_array", "rjiter/src/rjiter.rs:next_number", "rjiter/src/error.rs:Error::from_jiter_error"]}
{"id": "C100", "title": "UTF-8 in, UTF-8 out", "statement": "If the input is UTF-8 and convert_ddb_to_normal, convert_normal_to_ddb or idtransform succeeds, then what it has written is UTF-8: no character is cut, wherever the input was cut into chunks. If the writer takes all it is given, this also holds of runs that fail, because of the reader or because the input is no JSON. The program's output file holds UTF-8 at the end of each such run, whatever its result.", "quantifier": "all inputs (JSON or not), all chunkings, pretty-printed or not, wrapped or not, all buffers of at least 2 bytes, readers that fail; runs that succeed: all writers (to DynamoDB, a writer that fails later: 8 bytes, readers that do not fail)", "why_tests_cant": "Each character of several bytes can be cut by a chunk, by the end of the buffer or by the cut of numbers and names, in each of the places where text is copied.", "anchors": ["examples/dynamodb/src/ddb_to_normal.rs:convert_ddb_to_normal", "examples/dynamodb/src/normal_to_ddb.rs:convert_normal_to_ddb", "scan_json/src/idtransform.rs:idtransform"]}
{"id": "C101", "title": "A long string is handed on as it arrives", "statement": "Whenever write_long_bytes or write_long_str waits for the reader, all that has arrived of the string has been written, but for the few bytes of a character or an escape sequence that may not be complete (at most 11). A string that has arrived whole is written without asking the reader for more.", "quantifier": "all strings, all chunkings, all moments at which the reader does not deliver, all parser states, all writers that take what they are given", "why_tests_cant": "The tests look at the output when the input is complete; how much has been written while the reader has nothing to deliver depends on where the chunks end and on all that is in the buffer.", "anchors": ["rjiter/src/rjiter.rs:RJiter::handle_long", "rjiter/src/rjiter.rs:write_long_bytes", "rjiter/src/rjiter.rs:write_long_str"]}
{"id": "C102", "title": "What has arrived is converted before more is awaited", "statement": "If a reader hands on bytes one at a time and then lets the call wait, idtransform and convert_ddb_to_normal have written by then exactly what they write if the input ends there; the scanner has called all callbacks that it calls if the input ends there. Items that have arrived whole have been written; when the whole value has arrived, idtransform returns without asking for more. Only a number whose last byte may not have come waits for the next byte.", "quantifier": "all inputs (JSON or not) and all places in them but behind a digit, all later behaviour of the reader, all writers, working buffers, both output styles, parser buffers of at least 2 bytes that no number fills", "why_tests_cant": "The tests give complete inputs, or look at the output only at the end of the input; at any of the places where a reader may pause the parser could ask for one more byte than it needs, which shows only as a delay.", "anchors": ["rjiter/src/rjiter.rs:RJiter::loop_until_success", "rjiter/src/rjiter.rs:RJiter::skip_spaces_feeding", "rjiter/src/rjiter.rs:RJiter::handle_long", "rjiter/src/buffer.rs:Buffer::skip_spaces", "scan_json/src/scan.rs:scan", "scan_json/src/idtransform.rs:idtransform", "examples/dynamodb/src/ddb_to_normal.rs:convert_ddb_to_normal"]}
{"id": "C103", "title": "What is wrong in a string is named, and where it is", "statement": "If a string in front of the parser contains a control character, a wrong escape, a wrong digit in an escape or a lone surrogate, if its bytes spell no characters (methods that return a str), or if the input ends within it, the methods that read a string fail with the error that names the first such fault, and the index of the error is the absolute position of the byte to blame (or the end of the input); the parser stays in front of the string. The same for write_long_bytes and write_long_str.", "quantifier": "all inputs, positions, buffer contents and chunkings; all texts before the fault; next_str, next_bytes, known_str, known_bytes: faults that the buffer can reach; write_long_bytes, write_long_str: any length", "why_tests_cant": "The tests have a few faulty strings, all whole in the buffer. Whether an escape that is cut by the end of a chunk is taken for a fault, or a fault for a cut escape, depends on the place of the cut, and the index depends on how far the buffer has been shifted.", "anchors": ["rjiter/src/rjiter.rs:RJiter::loop_until_success", "rjiter/src/rjiter.rs:RJiter::handle_long", "rjiter/src/rjiter.rs:RJiter::next_str", "rjiter/src/rjiter.rs:RJiter::next_bytes", "rjiter/src/rjiter.rs:RJiter::write_long_bytes", "rjiter/src/error.rs:can_retry_if_partial", "rjiter/src/error.rs:Error::from_jiter_error"]}
{"id": "C104", "title": "The reader is not asked for more than is needed", "statement": "If the bytes in the buffer are enough for the answer of a call, be it a value or an error that no further input can mend, the call does not ask the reader. A call that asks asks at most once for every byte it gets and, at the end of the input, once more.", "quantifier": "all methods of RJiter, all buffer contents, positions, readers (also failing ones) and chunkings; errors: inputs without form feeds, and for array_step, next_key, next_object, next_skip and next_value positions behind the start of the buffer", "why_tests_cant": "The readers of the tests always have an answer, so that a needless request goes unnoticed. It shows only with a pipe, a socket or a terminal, where the program hangs, or where the failure of the reader hides the error in the document.", "anchors": ["rjiter/src/rjiter.rs:RJiter::loop_until_success", "rjiter/src/rjiter.rs:RJiter::skip_spaces_feeding", "rjiter/src/rjiter.rs:RJiter::handle_long", "rjiter/src/rjiter.rs:RJiter::array_step", "rjiter/src/rjiter.rs:RJiter::lookahead_n", "rjiter/src/error.rs:can_retry_if_partial", "rjiter/src/buffer.rs:Buffer::skip_spaces", "rjiter/src/buffer.rs:Buffer::read_more"]}
{"id": "C105", "title": "Called again, idtransform goes on with the next value", "statement": "If idtransform is called again and again with the same parser and writer, the n-th call copies the n-th value of the input: nothing is left out and nothing is copied twice. When there is no further value, a call succeeds and writes nothing. finish behind the calls succeeds exactly if only white space is left.", "quantifier": "all sequences of JSON values with ordinary keys, all layouts, chunkings and buffer sizes of the settings of C33, a working buffer of its own for every call", "why_tests_cant": "The tests call idtransform once. What is left in the buffers after a call, and with that whether the next call starts in the right place, depends on where the chunks end.", "anchors": ["scan_json/src/idtransform.rs:idtransform", "scan_json/src/scan.rs:scan", "rjiter/src/rjiter.rs:RJiter::finish"]}
{"id": "C106", "title": "What is wrong at a key, an element or a comma is named, and where it is", "statement": "If behind the opening brace of an object or behind a comma in it there is no key and colon (and not the end of an empty object), next_object, next_object_bytes, known_object, next_key and next_key_bytes fail with the error that names the first thing that is wrong: a fault in the text of the key, no string, a trailing comma, no colon, or the end of the input. The same for next_array, known_array and array_step behind the opening bracket or a comma of an array; and if a comma is missing, this is said. The index of the error is the absolute position of the byte to blame.", "quantifier": "all inputs, positions, buffer contents and chunkings; all layouts; what is wrong is within the reach of the buffer", "why_tests_cant": "The tests have a few malformed objects, whole in the buffer. Which error is reported depends on whether the loop starts again in front of the token or behind it, which depends on the position of the parser in the buffer and on what has arrived; the index depends on what has been read before the error was found.", "anchors": ["rjiter/src/rjiter.rs:RJiter::loop_until_success", "rjiter/src/rjiter.rs:RJiter::skip_spaces_feeding", "rjiter/src/rjiter.rs:RJiter::next_object", "rjiter/src/rjiter.rs:RJiter::next_key", "rjiter/src/rjiter.rs:RJiter::known_object", "rjiter/src/rjiter.rs:RJiter::next_array", "rjiter/src/rjiter.rs:RJiter::array_step", "rjiter/src/error.rs:Error::from_jiter_error"]}
{"id": "C107", "title": "A misspelt literal is reported as such, and where", "statement": "If what stands behind the first letter of null, true or false is not the rest of the literal, next_null, next_bool, known_null and known_bool fail; the error says that another letter was expected or that the input has ended, and its index is the absolute position of the first wrong letter, or the end of the input. The parser stays in front of the literal.", "quantifier": "all inputs, positions, buffer contents and chunkings, buffers of at least five bytes", "why_tests_cant": "The tests have literals that are whole in the buffer or cut at one place. Whether a literal cut by the end of a chunk is taken for a misspelt one depends on the place of the cut.", "anchors": ["rjiter/src/rjiter.rs:RJiter::loop_until_success", "rjiter/src/rjiter.rs:RJiter::next_null", "rjiter/src/rjiter.rs:RJiter::next_bool", "rjiter/src/rjiter.rs:RJiter::known_null", "rjiter/src/rjiter.rs:RJiter::known_bool", "rjiter/src/error.rs:can_retry_if_partial"]}
{"id": "C108", "title": "What is wrong in a number is named, and where it is", "statement": "If a digit is missing behind the sign, the point or the exponent of a number, or if a zero is followed by a digit, next_number_bytes fails with InvalidNumber, and the index of the error is the absolute position of the byte that stands in place of the missing digit, or of the digit behind the zero. If the input ends where a digit is missing, the error is EofWhileParsingValue with the position of the end. The parser stays in front of the number. Whatever begins with a digit or a minus sign is one of these or a number that is not continued.", "quantifier": "all inputs, positions, buffer contents and chunkings, buffers of at least two bytes that have room for the number up to the fault; white space in front of any length", "why_tests_cant": "The tests have a few malformed numbers, whole in the buffer. A number cut by the end of a chunk may look complete or faulty there, so what is reported depends on the cut; there are infinitely many numbers and cuts.", "anchors": ["rjiter/src/rjiter.rs:RJiter::loop_until_success", "rjiter/src/rjiter.rs:RJiter::next_number_bytes", "rjiter/src/error.rs:can_retry_if_partial"]}
{"id": "C109", "title": "A faulty atom is reported by copy_atom, idtransform and scan with its place, and nothing of it is written", "statement": "In front of a misspelt literal copy_atom fails with the error of the parser, whose index is the absolute position of the first wrong letter; in front of a faulty number or of something that begins no value it fails with UnhandledPeek and the position of its beginning. In both cases nothing is written and the parser stays in front of the atom. In front of a faulty string it writes a quote and a beginning of the text in front of the fault, and fails with the error that names the fault. idtransform in front of such a literal or number outside of arrays and objects answers the same, behind any white space; scan without a callback for atoms answers UnhandledPeek with the position of the beginning.", "quantifier": "all states of the parser, inputs and chunkings, all writers; all callbacks of scan that do not act on atoms; buffers with room for the literal or the number up to the fault", "why_tests_cant": "The tests have one faulty atom or two, whole in the buffer. Where the parser stands after the failed attempts, and so which position is reported, depends on the chunks; a byte written too early goes unnoticed when only the error is looked at.", "anchors": ["scan_json/src/idtransform.rs:copy_atom", "scan_json/src/idtransform.rs:on_atom", "scan_json/src/idtransform.rs:idtransform", "scan_json/src/scan.rs:skip_basic_values", "scan_json/src/scan.rs:scan"]}
{"id": "C110", "title": "idtransform: what is in front of a fault within arrays and objects is written, and the fault is reported at its place", "statement": "Let a text be in order up to a misspelt literal, a faulty number, something that begins no value, or something that stands in the place of a comma behind an element of an array or a member of an object, within any arrays and objects. Then idtransform writes exactly what is in front of it, without white space, and nothing of it or behind it. It fails: for a literal with the error of the parser and the position of the first wrong letter in the input; for a number and for what begins no value with UnhandledPeek and the position of its beginning; for a missing comma with the error that names it and the position of what stands there instead. For atoms the parser stays in front of the atom. In a faulty string a quote and a beginning of the text in front of the fault are written as well, and the error names the fault, at its place.", "quantifier": "all texts, nestings and places of the fault, all chunkings of a reader that does not fail, buffers in which the atoms and keys have room, context buffers with room for the names on the way", "why_tests_cant": "The tests have a few faulty texts and look at the error only. Whether the output is complete up to the fault, whether the error stored by the callback is the one returned, and whether the position is right behind any number of shifts of the buffer concerns every nesting and chunking.", "anchors": ["scan_json/src/idtransform.rs:idtransform", "scan_json/src/idtransform.rs:on_atom", "scan_json/src/idtransform.rs:copy_atom", "scan_json/src/scan.rs:scan", "scan_json/src/scan.rs:handle_array", "scan_json/src/scan.rs:handle_object"]}
{"id": "C111", "title": "The converter in Python does not distinguish the ends of lines", "statement": "The benchmark program in Python writes the same and ends in the same way for two inputs that differ only in whether lines end with a line feed, a carriage return, or both; every text has exactly one form with line feeds only.", "quantifier": "all inputs, options and directions, all results of json.loads and json.dumps, also inputs that break off with an error", "why_tests_cant": "There are no tests of the program. Files are opened in text mode, so that the line ends are changed before the program sees a line; a tab or another control character behind a carriage return must stay.", "anchors": ["benchmarks/dynamodb/ddb_convert_python_noboto/ddb_convert.py:main"]}

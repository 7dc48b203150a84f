# Formal model of olpa/streaming_json

Everything below is about `/repo` at the pinned commit.  The code was read, not run.
Paths are relative to `/repo`.

## 1. Layers and files (`rocq/theories`)

| file | what |
|---|---|
| `Base.v` | bytes (`N`), byte-string literals, slices and in-place writes on lists |
| `U8Pool.v` | model of `u8pool/src/{core,slice_descriptor,iter}.rs` |
| `Buffer.v` | model of the reader contract and of `rjiter/src/buffer.rs` |
| `Jiter.v`, `JiterValue.v` | model of the external crate `jiter` 0.8.2 (only the operations that are used) |
| `RJiter.v` | model of `rjiter/src/{rjiter,error}.rs` |
| `Scan.v` | model of `scan_json/src/{matcher,stack,scan}.rs` |
| `IdTransform.v` | model of `scan_json/src/idtransform.rs` |
| `Conv.v`, `NormalToDdb.v`, `DdbToNormal.v` | models of the two converters in `examples/dynamodb/src` and of what they share |
| `Wrapping.v` | the functions of `examples/dynamodb/src/ddb_to_normal.rs` that differ in a build without overflow checks |
| `FlushConv.v`, `FlushToDdb.v`, `FlushFromDdb.v` | the two converters again, with the calls of `flush` that the flag `unbuffered` adds |
| `Cli.v` | model of `examples/dynamodb/src/main.rs` |
| `Messages.v` | model of the texts of errors: `u8pool/src/error.rs`, `rjiter/src/error.rs`, `scan_json/src/error.rs`, `examples/dynamodb/src/{lib,main}.rs` |
| `Bench.v` | model of `benchmarks/dynamodb/ddb_convert_rust/src/main.rs` |
| `PyBench.v` | model of `benchmarks/dynamodb/ddb_convert_python_noboto/ddb_convert.py` |
| `Readme.v` | model of the programs in `scan_json/README.md` (text from the output of a language model) and `rjiter/README.md` (`peek_skipping_tokens`) |
| `*Spec.v` | specifications that do not mention the model |
| `*Proofs.v`, `*Lemmas.v` | proofs |
| `Prop_*.v` | only property theorems (`exact lemma`), examples, `Print Assumptions` |
| `Tests_*.v` | the project's own tests, the files its makefiles convert there and back, and the examples of its README files, run against the model by `vm_compute`; `Tests_Contexts.v`, `Tests_Bench.v`: what the programs say when they fail, for each place where a full destination stops them, and the text of each error; `Tests_Guide.v`: the examples of the converter's guide and of its description of the format |

Model files hold no proofs, so they still run when a proof breaks.

## 2. Modelling decisions

* A byte is an `N`; lengths and positions are `nat`; `u16`/`usize` limits are written out
  where a property is about them (`ValueTooLarge`, `U8Pool::new`).  Everywhere else `usize`
  does not overflow in the model.
* `&mut self` methods return the new state.  `Result`/`Option` stay data.  A panic is an
  explicit result value; so is running out of fuel (`Diverge`), which stands for an endless loop
  and which the theorems exclude or exhibit.
* The reader is `(bytes still to come, schedule)`.  A schedule is a list of events: `Chunk k` (deliver at most
  `k+1` bytes) or `Fail e` (this call reports an error, no byte is lost).  After the schedule ends the
  reader is greedy.  `Ok(0)` means end of stream or a zero-length destination, as the `embedded_io::Read`
  contract demands.  Quantifying over schedules is quantifying over all chunkings.
* The writer is a destination with an optional failure budget (it takes what it is offered until the budget is used up) and
  optionally a `std::io::BufWriter` of some capacity in front of it. What a writer "has written" is what it has accepted:
  the delivered bytes and those held back. `spent`, `worn` and `cut_off` (ScanSpec.v, ConvSpec.v) say what is known of both.
  C36 and C47 (exactly n bytes arrive) are about writers without the buffer, `wcap w = 0`.
* `Jiter<'rj>` in `RJiter` is a view into the very buffer that `Buffer` mutates (the code transmutes
  the lifetime).  The model keeps only the length and index of the view and reads the *current*
  buffer contents through it, so stale views behave as in the program.
* `jiter` itself is not in `/repo`.  `Jiter.v` is a hand transcription of the relevant
  parts of jiter 0.8.2 (`peek`, arrays, objects, identifiers, string ranges, decoded strings, number ranges, `finish`,
  `LinePosition::find`) and belongs to the trusted base.  It was cross-checked against the API notes in
  `rjiter/doc/jiter/llms-all.txt` and against the expectations of the project's own tests.
* Theorems about documents name a *setting* (`ScanSpec.v`), that is how the parser gets its input and how the text must be laid out
  for that: `InChunks` (any chunks; an object's first key follows white space, or the object is in an array), `InBuffer` (the whole text is
  in the buffer), `Anyhow` (any chunks and read errors; calls may fail), `Filling` (the reader fills what it is asked to fill, as slices
  and files do; an object's first key may follow its brace directly if it fits, with the white space in front of the brace, in the buffer).
* Callbacks of `scan` are arbitrary Gallina functions over an arbitrary user state `B` and
  the parser state; `RefCell` batons are state threaded through.
* The identity transform and the converters remember a slice of the working buffer.  The model remembers a copy; C84 shows that
  it makes no difference what becomes of the slice after the action it was remembered for.

* Subtraction below zero is a panic in the model, as in the debug profile.  For the release profile, where numbers wrap, `Wrapping.v`
  has the functions of the converter from DynamoDB that subtract from the depth, for any largest number `top`; C90 compares the builds.
* The converters in `NormalToDdb.v` and `DdbToNormal.v` never flush the writer.  `FlushConv.v`, `FlushToDdb.v` and `FlushFromDdb.v` repeat every function that
  writes, with the flag; C95 shows that they agree if the flag is not set or the writer has no buffer, which is so in `ddb_convert`.
* The command `ddb_convert` gets its arguments parsed, a small world (files, standard input, for every output whether it can be
  created and how much it takes) and returns what has changed and how it ended.  `process::exit` runs no destructor, the end of `main`
  does; the destructor of `BufWriter` flushes and ignores the error.  The line buffer of the standard output is left out.
* The benchmark program uses serde_json, which is not modelled: its numbers, `from_str`, `to_string` and `to_string_pretty` are parameters
  of the model and of the theorems, without hypotheses except where a theorem names one (numbers that are read again, or written as they
  are shown).  `BenchKit.v` has functions for the examples.  The input is the bytes to come and an error behind them; how it is
  delivered does not matter for `BufReader`, except for the 8192 bytes that it has taken when the same file is created for output.
* The converter in Python (the one without boto3) is modelled like the benchmark program in Rust, over the same values: `json.loads`, `json.dumps` and floats are
  parameters.  Integers are `Z` and `int()`, `str()`, `strip()` and the translation of line ends in text mode are modelled; a `str` is its UTF-8 form.
  `int()` is modelled for ASCII (the theorem about it says so), the output takes everything, and Python's limit of the recursion is
  reached in `loads` only.  `PyKit.v` has functions for the examples.
* Texts of errors are byte strings.  The words of other crates in them (jiter's error kinds and `Peek`, `embedded_io`'s kinds,
  `from_utf8_lossy`) are a parameter, `vocabulary`; the theorems assume at most that they differ for different values (`telling`),
  and `Prop_Messages.v` shows a vocabulary, with the words of jiter, for which this is so.

## 3. Trusted base

* Coq 8.16.1's kernel (and `vm_compute` for witnesses).
* `Print Assumptions` under every property theorem is expected to say "Closed under the global context";
  exceptions would be listed here: none.  (`coqchk` lists seven constants of `Coq.ssr.ssrunder.Under_rel`; they
  come with the standard library files that are loaded, no theorem here depends on them.)
* The faithfulness of the model to the code, definition by definition; every definition cites
  its source lines and names its simplifications.  As a check, the 427 tests that the project has for the modelled
  code (75 of u8pool, 143 of rjiter, 50 of scan_json, 159 of the converters; all but seven tests of test helpers) are
  copied, with their names and values, into `Tests_*.v`, where the model passes them.  Comparisons of pointers became
  comparisons of contents.
* The model of `jiter` (see above), and the `embedded_io` contracts for `Read`/`Write`.
* Not modelled: memory safety of `unsafe` blocks as such (only the byte-level layout and
  alignment; stale views of the parser's buffer, see above; and that remembered slices of the working buffer are not used late, C84), derived `Debug` formatting (except where it is part of a message), the numeric value of floats (only their text),
  the argument parsers, serde_json, Python's json and float, the benchmark program that uses boto3.

## 4. Properties and plan

"refuted" means: the statement as a user would rely on it is false of the faithful model; a `..._refuted`
theorem exhibits a witness, and a guarded positive theorem says what does hold.

| id | modelled | proof plan |
|---|---|---|
| C01 | whole pool | refinement: relation between the byte-level pool and a list of strings, preserved by every operation; lifted to histories by induction |
| C02 | push, push_assoc | same relation before and after a failing step |
| C03 | push | exact characterisation from the layout invariant |
| C04 | layout | layout invariant (starts increase, ends bounded) by induction over histories |
| C05 | assoc operations | refinement with items = (value bytes, data bytes), any size and alignment |
| C06 | address = base + offset | refuted for unaligned bases; positive: aligned whenever the data area is |
| C07 | replace_top_assoc_bytes | refinement; the error case is refuted (bytes written before the descriptor is checked) |
| C08 | iterators as state machines | induction on remaining items |
| C09 | new with 64-bit wrap | refuted for wrapping sizes; exact without wrap |
| C10 | buffer + reader | stream invariant preserved by every operation, all schedules |
| C11 | shift_buffer | invariant relating counters to the dropped bytes |
| C12, C13 | collect_while/_count | induction on fuel with stream invariant; fuel bound proves termination |
| C14 | skip_spaces | as above; refuted for positions at or beyond the buffer length |
| C15 | lookaheads | done: exact after success; refuted after BufferFull (the view is not renewed) |
| C16, C17 | skip_n_bytes, known_skip_token | from C10-C13 |
| C18 | current_index | invariant: index + shifted-out = consumed |
| C19 | from_jiter_error | done: refuted (the parser index is added twice); right for scalars at the parser position; the index of every parsing method as a function of what the plain parser says (`ErrorProofs.v`) |
| C20 | error_position | done: exact formula; refuted (column after a newline behind a cut) |
| C21 | loop_until_success generic in the parser | prefix lemmas for each jiter operation + retry-loop induction; guards where the stale view matters, with refutations for the unguarded statement |
| C22 | same | refuted at buffer start; positive elsewhere |
| C23 | next_number_bytes | refuted at end of stream and buffer start; positive elsewhere |
| C24, C25 | handle_long | loop invariant: written ++ undelivered = string; refuted in general (stale byte, surrogates), positive under guards (`long_text` for any chunks, `steady_text` for readers that fill the buffer: from the second round on the buffer is full, so that no stale cell is looked at); a string that starts with a surrogate pair and does not end in the buffer is refused in every state (`PairProofs.v`) |
| C26 | finish | induction on the stream |
| C27 | all loops | fuel bounds; refuted for empty/one-byte buffers |
| C28 | iter_match | done: equivalence with the prefix specification |
| C29 | scan | done: refuted (the `#top` entry stays, the buffer wears out); positive for all inputs and callbacks: exactly that entry is left (loop invariant, `ScanBalance.v`) |
| C30, C31 | scan generic in callbacks | done: the main loop follows a tree walk (`ScanSpec.walk_value`), by mutual induction over the text of the document (`ScanProofs.v`); parser facts per setting from C21-C27 (`ScanParser.v`) |
| C32 | scan + pool | done: exact capacity of the pool (`admit_name`), computed trace, depth of a document |
| C33, C34 | idtransform | done: instance of the walk (`idt_respects`, `idt_walk` in `IdProofs.v`), then the walk is computed; `Anyhow` setting for C34; refuted for numbers at the end or longer than the buffer and for unlucky escapes |
| C35 | idtransform | refuted (doubled brace, key without value, form feeds, empty input); positive for every input, reader and schedule: an instance of C55 (`SoundResults.v`) |
| C36 | idtransform | done: the writer as a budget of bytes, same walk; for every input the two runs go side by side (`TwinId.v`) and both end (C50) |
| C37 | idtransform | refuted for `#top` and `#array`; positive is C33 (other keys) and C30 (scan) |
| C38 | scan, idtransform | done: the errors a reader still has to report (`faults`) shrink by one exactly when the call fails at once (`ReadErrors.v`, every input and state); refuted as to the kind of the error |
| C39 | scan | done: positive for sequences of tokens, values and tokens in brackets (`[DONE]`); refuted inside arrays, for atom callbacks and for the empty token |
| C40, C41 | converters | done under guards: handlers as a transducer (text, new mode) over the walk (`Transducer.v`, `ConvProofs.v`), its text computed (`N2dProofs.v`, `D2nProofs.v`), shown to be compact JSON or laid out JSON; refuted for marker names and sets in lists |
| C42 | converters | done under guards: the text of the first is a stream of documents for the second, in each setting that does not fail (`tight` in `ConvSpec.v`: what compact text asks of the buffer); refuted for a field `Item` and long numbers |
| C43 | normal_to_ddb | refuted (32 bytes); the output is that of the clipped value |
| C44 | normal_to_ddb | refuted: an invariant of the loop on "tru " with growing output; positive on streams of values. For every input of a reader that does not fail: it ends, or the input is a stream of values and then a literal cut short (`N2dHang.v`: rounds of the scanner from one value at top level to the next, each of which ends by `ScanEnds.v`, and reads a document or stands before such a literal by `ScanSound.v`); and behind well laid out values such a literal does keep it from ending |
| C45 | normal_to_ddb | refuted (comma flag survives a root array); positive if no atom follows |
| C46 | ddb_to_normal | refuted; outputs shown to be no JSON with the completeness of the scanner (`NoJson.v`) |
| C47, C48 | converters | exact prefix and error kind; refuted for strings and literals in normal_to_ddb. For every input: two runs of the scanner with two writers go side by side until one writer fails (`Twin.v`, `TwinConv.v`) |
| C49 | scan | done: a potential (bytes to go) falls with every round (`ScanEnds.v`, over `RJiterEndProofs.v`: each parser method keeps the parser in order and consumes something if it should); refuted with sse tokens and a failing reader |
| C50, C51 | idtransform, ddb_to_normal | done: their callbacks are dutiful (`EndResults.v`) |
| C52 | ddb_to_normal | refuted (depth underflow); streams of items: from the proof of C41, which covers readers that fail; without overflow checks: C90 |
| C53 | normal_to_ddb | done: the level is at least that of the open containers on the stack (`kept` in `EndResults.v`), every input |
| C54 | scan | done: the stack invariant of C29 (`ScanBalance.v`) |
| C55 | scan | done for the texts of `SoundSpec.v`: what each parser method has read when it succeeds (`SoundParser.v`), then induction on the fuel of the loop (`ScanSound.v`); `heeds` is the converse of `respects`; refuted as to plain JSON |
| C56, C57 | next_value, next_skip | done under guards: the value and skip parsers of jiter against the grammar of texts (`ValueProofs.v`, complete, sound, depth), then the retry loop of C21; refuted at the buffer start and for cut numbers |
| C58 | number methods | done: same loop; soundness in every state; refuted for numbers longer than the buffer |
| C59 | next_value, next_skip | done: an attempt on a deeper value fails on every prefix; refuted at the buffer start |
| C60 | known_ methods | done: the two loops take the same steps; refuted at the buffer start |
| C61 | ddb_to_normal | done for every input, reader, schedule and buffer: the callbacks heed what they read (`ConvSound.v`), then C55; refuted: descriptors in the wrong place and arrays get through |
| C62-C65 | CLI | done for every input: the runs with the writer of the program and with a perfect writer go side by side (`TwinConv.v`), then what is held back (`CliProofs.v`); refuted for the buffered writer |
| C66, C67 | CLI | C40, C41, C42 with the buffers of the program |
| C68 | CLI | by cases; refuted for one file as input and output |
| C69 | CLI | C51, C53; refuted by C44 (with the large buffers: the loop is checked by computation) and C52; when it does not end: C44 with the buffers of the program (`CliHang.v`) |
| C70 | normal_to_ddb | done for every input and schedule of a reader that does not fail: a literal that is not there leaves the parser in front of a byte no later step accepts (`stuck` in `ScanSound.v`, `N2dSound.v`), so the scanner ends in an error; refuted for failing readers |
| C71, C72 | benchmark | induction over values; the specification of C72 is that of the library (`record`, `plain_item` in `DdbSpec.v`), a value in memory is related to texts by `denotes` (`BenchSpec.v`); refuted for `{"Item": ...}` without wrapper |
| C73-C75 | benchmark | induction over the lines (`BenchRun.v`); what `trim` leaves is stated over code points (`trimmed` in `BenchSpec.v`, proof `BenchTrim.v`); refuted for a blank first line, and for the number in files named jsonl |
| C76 | benchmark | as C62: the buffered writer and a perfect one side by side |
| C77 | benchmark | what the reader has taken is all of a short file; refuted for longer ones (checked by computation) and for files named jsonl |
| C78, C79 | errors | which of three sources an error came from, for every method (`blamed` in `ErrorProofs.v`); `failed` (`ErrorSpec.v`) lists the methods; refuted by a failing reader, a full buffer and an index behind the end |
| C80 | converters | in part, for readers that do not fail and errors that are not the parser's: validity of the parser and the size of the input are invariants of every handler, even of a failing one (`ConvPosition.v`); refuted by computation for the parser's |
| C81 | messages | the texts are taken apart from both ends, numbers are maximal runs of digits (`MessageProofs.v`); for the program: the contexts have no apostrophe and only errors of the scanner carry a position of their own (`ConvErrors.v`, an invariant of every handler); refuted for descriptors that are not UTF-8 |
| C82 | converters | every error of the scanner but that of the parser carries the place of the final parser (`scan_honest`), then as C81 |
| C83 | converters, program | part of the invariant of C81: whatever a handler notes down is short |
| C84 | idtransform, converters | the callbacks run beside themselves with the remembered name replaced (`disturbed` in `MemorySpec.v`); a simulation of the whole scanner for any two sets of callbacks that agree (`agree`, `Memory.v`) |
| C85 | README of scan_json | the program is the scanner with two begin actions and an end action: a transducer over the walk as in C40, but `on_content` does not check that it stands before a string, so it is compared with a program that does (`ScanRefine.v`: if stricter callbacks succeed, so do the others, with the same result); then C39; refuted for contents that are not strings, data right behind `data:`, keys longer than the buffer |
| C86 | README of rjiter | induction over the run of tokens, from C17 and C21; refuted for the empty token and for values that start like a token |
| C87 | converter in Python | the program is compared with that in Rust over the same numbers (`PyBenchProofs.v`: values that differ only in their numbers are treated alike), then C71 and C72; that integers are read again is shown from the decimal representation of the standard library (`PyNumbers.v`); refuted for `-0` |
| C88 | converter in Python | inversion of the model of `int()`: groups of digits with underscores between them; refuted that only numbers of JSON are taken, and that all of them are |
| C89 | both benchmark programs | simulation of one program by the other, line by line, for any parsers that agree about the documents in the input (`PyBenchRun.v`); refuted for carriage returns and the separators 28 to 31 |
| C90 | ddb_to_normal, both profiles | simulation (`Agree.v`: two sets of callbacks that do the same unless the first panics); termination as for C51; refuted for the panic |
| C91 | idtransform, ddb_to_normal, normal_to_ddb | a potential: each call of the parser uses up input or has a result of bounded length, each callback writes a bounded multiple of what was used up, and a round of the scanner that uses up nothing is the last but a bounded number (`Thrift.v`, `ThriftConv.v`, on the invariants of C51); refuted with pretty-printing in the release profile: the loop that indents is followed for any number of rounds (`WrapCases.v`); refuted to DynamoDB: one round of the endless loop of C44 is computed for a symbolic writer, and the same with a reader that fails any number of times inside a literal (`N2dFlood.v`); where neither the reader nor the writer fails, a round that uses up nothing is the first of an endless number, or the scan returns from the next (`N2dThrift.v`, on the rounds of C44) |
| C92 | converters | as C42, the other way round: the text of the converter from DynamoDB is a stream of documents in each setting that does not fail (`BackTrip.v`); refuted for sets, binary values and numbers of more than 32 bytes |
| C93 | idtransform | C33 twice: compact text is a document in each setting that C92 allows (`BackTrip.v`); refuted for numbers and in chunks |
| C94 | idtransform, converters, scan | two runs side by side: equal but for the reader's schedule until the first run ends with the error, and from there on the second run only adds (`Severed.v` parser, `SeveredScan.v` scanner, `SeveredConv.v` callbacks; `CutSpec.v`: callbacks that only add); refuted to DynamoDB and with SSE tokens |
| C95 | converters with flag | two runs side by side for any relation of writers that writes, flushes and long strings keep (`FlushTwin.v`); used for a writer and one that takes everything, and for one writer and the fact that it holds nothing back (`FlushResults.v`); refuted after an error inside a long string |
| C96 | parser, scan, idtransform, converters | two runs side by side on buffers that agree up to the filled part and hold no continuation bytes behind it (`Fresh.v` parser, `FreshScan.v` scanner, `FreshConv.v` callbacks; `FreshSpec.v`: programs over the methods); refuted for buffers with continuation bytes, because the search for the end of a segment looks at one cell behind the filled part |
| C97 | strings as characters | the parser's byte classes are shown to be the encodings of `UnicodeSpec.v` both ways, the texts it decodes to be the readings (`UnicodeProofs.v`); the streaming part is that of C16-C18 |
| C98 | `write_long_str` | each segment and the last piece are results of the string decoder, which are UTF-8 by the check at its end; induction over the rounds of `handle_long` |
| C99 | `next_*` | one induction over the rounds of `loop_until_success` for any method that looks at the first byte and fails without moving (`TypeProofs.v`); refuted for numbers, whose type depends on the chunks |
| C100 | idtransform, converters | success means values were read and the output is a function of them (C35, C61, C70); the texts of values in UTF-8 text are UTF-8, as they stand between ASCII bytes, and each step writes ASCII or such a text (`Utf8Proofs.v`). For runs that fail: an invariant of the scanner's loop says that what is left of the input is UTF-8, that the names on the stack are and that the callbacks have added UTF-8 only (`Utf8Always.v`), and the pieces of a long string are cut between characters, whatever the result of copying it (`Utf8Runs.v`), also if the converter to DynamoDB JSON passes over an error of the reader inside a literal; the program's output follows; refuted if the writer fails |
| C101 | `handle_long` | induction over its rounds: at each read the buffer holds the quote and what is kept (`Prompt.v`); a reader that lets the call wait is one that fails. Refuted with escapes: one piece is written for each read |
| C102 | parser, scanner, `idtransform`, `convert_ddb_to_normal` | simulation of two runs, one with a reader that fails behind `d`, one whose input ends with `d`: equal parsers and equal output, until both calls fail at the same place (`Arrived.v`, `ArrivedScan.v`, `ArrivedConv.v`); with C41: whole items have been written (`ArrivedRecords.v`); a scan with `stop_early` that succeeds has not asked again (`ArrivedEnd.v`) |
| C103 | strings in `Jiter`, `loop_until_success`, `handle_long` | on every beginning of the input the plain parser asks for more or names the fault, so the loop ends with it (`FaultProofs.v`); the cases of `FaultSpec.v` are shown to be all. Long strings: induction along `handle_long` for faults of at most six bytes (all but those of surrogate pairs), with the exact index (`FaultLong.v`); two counterexamples for the index. Bytes that spell no characters: `FaultText.v` |
| C104 | all methods of `RJiter` | the requests are counted along all loops (`Reads.v`); skipping white space and the token changes neither what the plain parser says nor, if something stands behind them, the reader (`ReadsErr.v`). A missing comma: the loop is followed to the end of the input or of the buffer |
| C105 | `idtransform`, `scan` | induction over the values; every step is C33, whose states behind a value are states in which the next call can start (`Again.v`) |
| C106 | keys and elements in `Jiter`, `loop_until_success`, `skip_spaces_feeding` | on every beginning of the input the plain parser behind the token asks for more or names what is wrong (`FaultKeys.v`, `FaultComma.v`); the cases of `FaultKeySpec.v` are shown to be all. The index is proved as the code computes it, with counterexamples for the right one; a missing comma is retried to the end, at the right position |
| C107 | literals in `Jiter`, `loop_until_success` | comparison letter by letter on every beginning of the input (`FaultWord.v`) |
| C108 | numbers in `Jiter`, `next_number_bytes`, `loop_until_success` with `eager` | a beginning of a faulty number is a number up to its end, wants more, or has the fault (`FaultNumber.v`); as the loop does not believe a number that ends with the buffer, it reads on until the fault is there |
| C109 | `copy_atom`, `skip_basic_values`, one iteration of `scan` at the top level, `on_atom`, `idtransform` | from C107, C108 and C103: the parser stays in front of the atom, so that the position is that of its beginning (`FaultAtom.v`); the first iteration of `scan` computed with the results of `peek` (`FaultTop.v`) |
| C110 | `idtransform`, all iterations of `scan`, the callbacks of `idtransform`, `handle_array`, `handle_object` | texts in order up to a place are described by `value_into` (`FaultDeepSpec.v`), which also counts the names on the stack; a run breaks at the place with what is written so far, by induction over that description, with the runs of `ScanProofs.v` and `IdProofs.v` for the values in front (`FaultDeep.v`); that positions count from the beginning of the input is carried along as `total` (`counted_facts` in `FaultDeepTop.v`); strings from C109, with what `copy_atom` writes in front of the fault |
| C111 | `main` of the benchmark in Python, its text mode (`translate`) | `translate` is the function that the relation `with_feeds` describes (`LineEnds.v`) |

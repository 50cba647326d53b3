# Formal model of npyz: design

Target: `/repo` (npyz, Rust) at the pinned commit. Prover: Coq 8.16.1. Everything is under `rocq/theories`, logical name `Verif`.
The properties are in `properties.jsonl`, the theorems per property in `MANIFEST.json`, the record of seeded bugs in `seeded/LOG.jsonl`.
In that record only `first_failure` was observed; `theorems_failed` is inferred from dependencies, and a broken proof script does not by itself show that a theorem became false. See `seeded/README.md`.

## Layout

| layer | files | contents |
|---|---|---|
| model | `M_*.v` | total Gallina functions, one per Rust function, each citing `/repo` file and lines |
| specification | `S_*.v` | short definitions that do not use the model's functions (byte layout, type-string grammar, row-major order, ...) |
| proofs | `P_*.v` | lemmas |
| statements | `T_*.v` | the named theorems (`exact lemma`), `Example`s showing that their hypotheses can be met, `Print Assumptions` |

| model file | source modelled |
|---|---|
| `M_Base` | vocabulary: `res`, `cfg`, lists, wrap-around or panicking arithmetic |
| `M_Text` | std: UTF-8 encoding and validation, decimal printing and `u64` parsing |
| `M_TypeStr` | `src/type_str.rs`: endianness, codes, units, parser, printer, validation, sizes, `with_auto_endianness` |
| `M_PyLit` | `py_literal::Value` and its parser |
| `M_IO` | `std::io`: `read_exact`, cursors, readers that deliver arbitrary chunks or are interrupted; write sinks with failure |
| `M_Header` | `src/header.rs`: `DType`, `descr`, `from_descr`, `parse`, `num_bytes`, `uses_pickled_array`, versions, `read_header` |
| `M_Read` | `src/read.rs`: `NpyHeader::from_reader`, `from_parts`, strides, order |
| `M_Derive` | `derive/src/lib.rs`: the derive macros, the code they generate with rustc's resolution of its variables, and running that code |
| `M_Own` | `src/read.rs` and `src/write.rs` once more, generic in the element type: implementations of `Deserialize` and `Serialize` outside npyz, structs deriving over them, and Vector5 of `tests/roundtrip.rs`. Simplified: no state between calls of a type's reader or writer, writers use `write_all` only |
| `M_Shaky` | the writer of `src/write.rs:330-561, 630-635` over an output any call on which may fail, with the following ones working again. Simplified: a push writes its item in one call, a failed seek leaves the position alone, one kind of error |
| `M_Spill` | `std::io::BufWriter` (`write_all`, `write_all_cold`, `flush_buf`, `flush`, `seek`, `drop`) between the writer and such an output, as `src/write.rs:449-473, 701-713` use it. Simplified: an item is divided into any sequence of `write_all` calls instead of the one its type makes; no panicking output |
| `M_Serialize` | `src/serialize/*.rs`, `derive/src/lib.rs`: readers and writers of all Rust types, `AutoSerialize` |
| `M_NpyReader` | `src/read.rs`: `NpyFile`, `NpyReader` (`next`, `seek_to`, `read_at`, `len`, `size_hint`), `try_data`, `into_vec`, `with_header`, deprecated `NpyData` and its iterators |
| `M_Write` | `src/write.rs`: header writing, `begin_nd`/`begin_1d`/`begin_2d`, `push`, `extend`, `finish_`, `finish`, `Drop`, `write_header_only`, the `WriteOptions` builder, the `MaybeSeek` wrapper |
| `M_Npz` | `src/npz.rs`, `src/npz_feature.rs`: names, `NpzArchive`, `NpzWriter` |
| `M_Sparse` | `src/sparse.rs`: COO, CSR, CSC, DIA, BSR, the dynamic `Sparse`, index width choice |
| `M_TypeErr`, `M_DTypeErr` | `src/type_str.rs:441-465`, `src/serialize/traits.rs:269-303`: the texts of errors |
| `M_Buffered` | the writer of `src/write.rs` as a program of output calls, run on a file or through a buffer |
| `M_Source` | the readers of `src/read.rs` over an `io::Read` whose calls may return errors |
| `M_Flaky` | `NpyReader` of `src/read.rs:401-454, 555-575` over a file reading from which and seeking in which may fail |
| `M_Literal` | `src/header.rs` and `src/read.rs` with any parser of Python literals in the place of py_literal |
| `M_Zip` | `src/npz_feature.rs:35-60` with every answer zip can give for an entry |
| `M_ZipSparse` | the readers of `src/sparse.rs:240-403` once more, over such archives |
| `M_Checksum` | what an entry with a checksum delivers to `src/read.rs` (an assumption about zip, see C86) |
| `M_Demand` | the sizes of the buffers handed to `read_exact` (`src/header.rs:227-228, 249-274`, `src/serialize/primitive.rs:28-33, 81-84`, `src/serialize/slice.rs:23-32, 89-102, 222-226`); not the vectors items are collected into |
| `M_Stack` | `DType::from_descr` (`src/header.rs:84-91, 143-172`) and `DType::num_bytes` (116-126) on a stack with room for a number of calls |

## Conventions of the model

* `u8`, `char`, `u32`, `u64`, `usize` are `N`; `i64` etc. are `Z`. Ranges are hypotheses (`bytes_ok`, `is_scalar`, `< 2^64`).
  `str` is a list of Unicode scalar values, `[u8]` a list of bytes; UTF-8 encoding and decoding are modelled functions.
* A function that may fail returns `res A := Ok a | Err e | Panic`. Every `assert!`, `unwrap`, `unreachable!`,
  slice index, division by zero and checked-arithmetic overflow on a modelled path is an explicit `Panic`.
* Build and target dependence is a parameter `cfg`: machine byte order, `usize::MAX` (32- or 64-bit), and whether
  arithmetic overflow panics (debug) or wraps (release). Theorems quantify over `cfg`; round trips use two unrelated ones.
* Input: `read_one`, `read_header` ... are *read programs* (`rprog`), trees of `read_exact` calls, interpreted over a byte list,
  over a seekable cursor, and over an arbitrary chunked/interrupted reader.
* Output: a sink holds bytes, a position, and an optional failure budget counted in single byte writes, position queries, seeks and
  flushes, so that "stop anywhere" is a quantifier. After the budget every operation fails and changes nothing.
* Rust types implementing `Serialize`/`Deserialize` form an inductive universe `rty` (integers, floats as bit patterns, bool,
  complex, byte vectors, strings, arrayvec types, `FixedSizeBytes`, `[T; N]`, derived structs), nested without bound.
* `&mut` functions return the new state.

## Trusted base

* Coq's kernel (`coqc`, and `coqchk` as run by `vcheck`); `vm_compute` in concrete `Example`s and refutations.
* `Print Assumptions` of every theorem in the `T_*.v` files: *Closed under the global context*. No axioms are used. (The checker's list of
  library axioms, `Coq.ssr.ssrunder.*`, comes from loading the standard ssreflect plugin files; no theorem depends on them.)
* That the Gallina functions say what the Rust functions do: this was done by reading; every definition cites its lines.
* The specifications in `S_*.v`.
* The descriptions of external code below.

## Validation against the repository's own tests

`T_Tests1.v`, `T_Tests2.v` and `T_Tests3.v` transcribe the repository's tests as `Example`s named `test_...`: what its authors state the code does, computed in the model.
`T_TestData.v` holds the files of `/repo/test-data` byte for byte (entries of archives unpacked by Python's `zipfile`). These are tests of the model, not properties.
The transcription was by hand, and the tests themselves were not run, since the code cannot be built here. No transcribed test disagreed with the model.
Most are computed on three machines (`le64`, `be64`, `le32`). Departures: `roundtrip` uses rows 0, 1, 2 and 99 of its hundred rows; owned, borrowed and boxed slices are one type in the model;
where a test compares error texts only the same part of the text is compared; tests that only compile (`tests/derive_hygiene.rs`) are left out.

## External code

* `py_literal` (parser of Python literals) is not in the sandbox. `M_PyLit.v` is a PEG parser written after its documented
  grammar: strings (single- or double-quoted, long and short, escapes), decimal integers with signs and underscores, tuples, lists,
  dicts, sets, booleans, `None`, blanks between tokens. Not modelled, i.e. rejected by the model: bytes literals, other integer
  bases, floats, complex numbers, sums, `\N{}` escapes. In npyz these could only produce a value of a kind that every use site
  rejects, except a non-decimal integer or a sum of integers in a shape or array length, a `\N{}` in a field name, and anything under an ignored key.
  npyz itself never writes any of them. Python numbers in the literal are unbounded in both. `S_Python.v` says what is accepted as an inductive grammar, and `C49_literal_exact`
  that the parser accepts that and nothing else. C80 does without this model: `M_Literal.v` takes the parser as an argument, and all that has to be trusted of py_literal
  for what is proved of files that open is that it reads the texts of `S_Python.v` as what they denote (`understands` in `S_Literal.v`).
* `zip`: an archive is the list of its entries (name, bytes) in the order started; the last entry of a name is the one found; `file_names`
  lists each name once in unspecified order. Compression and the container format are not modelled. For C86 alone: the checksum of an entry is compared when a read finds its end.
* NumPy and Python (for C77 and C78 only): `repr`, `dtype.str`, `dtype.descr` and `numpy/lib/format.py` as described in `S_Numpy.v` (writing) and `S_NumpyRead.v` (reading; without its limits on the length of headers, which a caller may set, and on sizes, and without fields with empty names, which it takes for padding), from their documentation; neither is in the sandbox.
  Six of the files in `/repo/test-data` are checked to be such files, byte for byte (`C77_real_files`).
* `std::io`: `read_exact`, `write_all`, `Cursor`-like seek semantics as described above.
* `arrayvec`, `num_bigint`, `half`, `num_complex`, `byteorder`: only the operations used, modelled directly.

## Not modelled

Memory allocation failing for lack of memory (the capacity limit `isize::MAX` of the buffers made from an item's size is modelled: `strings_fit`, finding 18; that of the header text, header.rs:227, which only 32-bit machines can meet, is in `read_header_alloc`, proved the same as `read_header` where the length can be allocated: C34_allocation_same, C34_allocation_64, C34_allocation_panics); two parts of error messages (all others are modelled): py_literal's explanation of a syntax error and std's explanation of invalid UTF-8; in the texts of `DTypeError` the names of Rust types are the ones rustc prints today (std promises no particular text), and characters beyond ASCII in quoted names stand for themselves (std escapes unprintable ones);
`File` beyond an output that may stop accepting calls at any point (`BufWriter` is modelled, as one of all ways of buffering: `M_Buffered.v`; its own buffer call by call, over an output that fails now and then: `M_Spill.v`); the `unsafe` lifetime transmute in `MaybeSeek::new_seek`; the `Dyn` object-safe wrappers, references, boxes, `Cow`
(they forward); in the derive macros the resolution of paths, types and trait bounds by rustc (names of variables and fields are resolved in `M_Derive.v`; constants in scope with the name of a field are not considered); floating point values other than as bit
patterns; stack depth of py_literal's parser and of the other functions that recurse over a DType (those of `from_descr` and `num_bytes` are in `M_Stack.v`).

Functions without a definition of their own, since they only return a field or call another function: accessors of `NpyFile`, `NpyHeader`, `NpyReader` and `NpyData` (read.rs:229-287, 383-399, 479-492) and of `TypeStr`
(type_str.rs:30-52); `Display` of its parts (type_str.rs:392-408); `DType::new_scalar` (header.rs:101); the hidden builder traits and the deprecated `to_file` (write.rs:118-128, 266-276, 685-700); opening and creating
archives (npz_feature.rs:21-33, 53-56, 71-84, 90-93), all of which is zip's work.

## Properties

| id | status | how |
|---|---|---|
| C01, C02 | proved | parser against an independent grammar (`S_TypeStr`), decimal round trip, case analysis; the printed string is the unique canonical spelling (`S_DText`) |
| C03 | proved | structural induction over DTypes; parser lemma "prefix parses to the value and leaves the rest"; `from_descr` against the relation `describes`; printed text against `dtype_text` (`S_DText`) |
| C04, C05 | proved | `write_header` against `npy_layout` (`S_Header`) and the dictionary of `S_DText`, read back by every machine |
| C06 | refuted, exact | the headers that panic are exactly those of `C06_panic_exact` |
| C07, C08, C09 | proved | writer invariant over pushes (`growing_state`), header patch lemma, composition with C04 and C18 |
| C10, C11, C13 | proved | overwriting on lists; `finish_` idempotent; sequential outputs |
| C12 | partial | exact modulo 2^64; the unconditional claim is refuted for wrapping builds |
| C14 | partial | failure budget; a weight (number of commas, brackets) argument shows that no half-patched header parses; 1-D and Fortran complete; 2-D C order: the files for which it holds are characterised exactly (`mistakable` in `S_Write`, `C14_2d_c_exact`), so refuted in general |
| C15 | partial | read programs on prefixes of their input; refuted for seeks after an unexpected end of file; `C15_exact`: for histories that go on after an error it holds of no type but those whose items are all one value (`P_Late.v`) |
| C16-C22 | proved | induction over the type universe against `encode`/`accepts` (`S_Elem`) and the string rules (`S_Strings`) |
| C23, C24 | refuted, exact | exact results; the claim holds for `ArrayString` and for capacities that cut nowhere near an interior NUL |
| C25, C26 | proved | induction over DTypes |
| C27, C28 | proved | enumeration of multi-indices in row-major/column-major order; wrap and panic characterised |
| C29 | proved | refinement of an abstract (list, position) machine, induction over call histories |
| C30 | partial | same with undecodable items; refuted for types that read an item in pieces; `C30_exact`: it holds of a type and a dtype exactly if only the last part of an item can be wrong (`late`, `S_Late.v`), for otherwise there is a file whose reader falls behind until it misses an intact item (`P_Late.v`) |
| C31 | proved | one simulation lemma over `rprog` |
| C32 | refuted | every call of `push` counts; exactly (`C32_exact`, `P_Counted`): the data is as long as promised iff every failed push stored a whole item (`unstorable_len` by induction on what is wrong), which among plain types happens exactly for over-long strings in `U` fields (`C32_cut_strings`); otherwise the file is never read as a whole (`C32_short_file`) |
| C33 | proved | induction over builder calls |
| C34, C35 | proved (C34: partial on 32-bit machines, finding 19) | the header reader against `preamble_of` and `header_says` (`S_Dict`); `S_Open` goes from the bytes of the file to the numbers in the header |
| C36, C37 | proved | direct; C37 for item counts within `usize` |
| C38 | refuted, exact | right until exhausted, wrong after |
| C39, C40 | proved | names as texts; archive as list of entries |
| C41 | partial | round trip and layout (`S_Sparse`) without overflow in BSR; refuted with it |
| C42 | proved | |
| C43 | refuted, exact | DIA data is stored transposed |
| C44, C46 | proved | part of the type universe |
| C45 | refuted, exact | sides always swapped |
| C47 | refuted | always panics |
| C48 | proved | UTF-8 validator against the encoding (`S_Text`), uniqueness of shortest numerals |
| C49 | proved | the literal parser against an inductive grammar (`S_Python`): sound by induction over its fuel, complete by induction over derivations |
| C50 | proved | reading programs inverted step by step into `represents` (`S_Archive`), which goes down to the bytes of each member through `S_Open` and `S_Elem`; `C29_file_exact` is the same for a single file |
| C51 | proved | induction over types against the inductive relation `rejects` (`S_Reject`) |
| C52 | proved, and "untouched" refuted | header lemmas of C04/C05, rejection of the filler from C14 |
| C53 | proved | C46 and C08; arrays panic, always |
| C54 | proved | the histories of C29 for a file whose header and stream are unrelated; `into_inner` by prefix-determinism of read programs |
| C55 | proved | induction over the list of arrays: `write_file_ok` places each file, `overwrite` composes, reading by `read_stream` (`S_Stream`) |
| C56 | proved | messages of the parser against `complaint` (`S_TypeErr`), by the parser's case distinction; std's texts for integer overflow and for slices are part of the model |
| C57 | proved | `C07`/`C09` (`whole_file`), `C27` (`stride_position`) and `C29` (`complete_histories`) put together; that written files consist of bytes (`C17_only_bytes`) by an invariant of output actions (`keeps`, `P_Bytes`) |
| C58 | proved | `S_File.v` describes the whole file (`finished_file`); `write_file_full` (the end state of each kind of writer, `P_WriteFile`) gives header text and payload, `header_of` the framing. Uniqueness: alignment fixes the spaces, the little-endian field is injective. Distinctness: both files read back (`file_with`); conversely everything described opens (`C58_opens`) |
| C59 | proved | `S_Defect.v` lists the defects, each with its message, in reading order and without the model's functions; each converter's errors are characterised exactly (`mapM_err`, induction over values for nested records), then the preamble by cases |
| C60 | partial | `unstorable` (`S_Fault.v`): the first bad scalar, its message and the bytes before it; induction over the type, arrays and records by `wseq_err`. The last sentence is refuted for byte strings with characters beyond ASCII (finding 20); it holds for ASCII |
| C61 | proved | `unreadable` (`S_Fault.v`); a predicate `faults` on reading programs (outcome for every input, and every defect is reported) closed under sequencing and repetition (`P_Fault.v`), then induction over the type |
| C62 | proved | `message`, `read_complaint`, `write_complaint` (`S_Message.v`) on top of `rejects` (C51), whose errors carry the type's name and the verb; texts by case analysis with `decimal_exact`, `shown_exact`, `hex_exact`, `dtype_text_exact`; names are recovered because the quoting is uniquely decodable (`P_Message.v`) |
| C63 | proved | `item_defect`, `items_defect`, `array_defect`, `part_defect`, `broken`, `broken_any` (`S_Broken.v`) on top of C59 (headers), C61 (items) and C62 (dtypes); items by induction over their number, parts by one lemma about opening followed by contents, whole matrices by walking the list of parts (`P_Broken.v`) |
| C64 | proved | `begun_file`, `left_behind`, `pushes`, `ends`, `session_outcome`, `write_outcome` (`S_Outcome.v`, with the layout of `S_File.v` shared by finished and unfinished files); pushes by induction over the values with C60, the end by the invariants of growing and fixed files (C10, C13), uniqueness of each part (`P_Outcome.v`) |
| C65 | proved | `attempt`, `step`, `history` (`S_History.v`) over places (item number, byte position); simulation of each call with C61 for the items and an invariant that keeps positions below 2^63, determinism for the converse, induction over the calls for falling behind (`P_History.v`); C15 and C30 hold as far as these histories agree with the ideal ones |
| C66 | proved | `roomy`, `unlimited`, `cramped` (`S_Roomy.v`); values by decoding (C20, C21), errors by the exact defects of C61, whole files by induction over the items, the need for room by a string of letters that fills the dtype (`P_Roomy.v`) |
| C67 | proved | `nested`, `nested_type`, `nested_dtype`, `row_offset`, `element_at` (`S_Member.v`); induction over the shape on the layouts of C17 and C18, for records over the members (`P_Member.v`); the documentation's example is the Example |
| C68 | proved | `default_of`, `without_default` (`S_Auto.v`), by induction over types (`P_Auto.v`); the documentation is wrong about `FixedSizeBytes` (`C68_fixed_bytes_refuted`) |
| C69 | proved | the writer as a program of output calls (`M_Buffered.v`), proved the same as `M_Write.v` on a file (`C69_same_code`); simulation of the direct run by the buffered one, one step behind, for any policy and fuel (`P_Buffered.v`): same file, same success, complete file on disk (with C58), lost buffers are earlier stops (with C14) |
| C70 | proved | sources as lists of chunks, interruptions and faults with std's read loop (`M_Source.v`); any read program ends within the bytes before the fault or the fault is its result (`source_exact`), from which opening, `into_vec`, iterating |
| C71 | partial | false within an item (`C71_refuted`); exact later results (`C71_from_the_error`), right but one short at a boundary (`C71_boundary_partial`), never all (`C71_never_all`) |
| C72 | proved | the reader over a source with plans for its reads and seeks (`M_Flaky.v`); exact histories extending those of C65 (`S_Flaky.v`), sound and complete by induction over the read programs and the calls (`P_Flaky.v`) |
| C73 | partial | exact outcome of every write (`S_SparseOut.v`); every file of the data array byte for byte (`S_File.v`); documented panics refuted where overflow wraps |
| C74 | partial | the macros as functions from declarations to code (`M_Derive.v`), names resolved as rustc does; exactly which structs are accepted; generated code equal to the struct types of `M_Serialize.v`; the claim for all structs refuted |
| C75 | proved | readers as functions from the bytes ahead to a result and a number of bytes taken, writers as programs over `write_all` (`M_Own.v`); histories by induction over calls against a list with a position; files as in C07 to C13; derived structs by induction over fields, stopping at the first field that fails or is refused; equality with the provided types' model; Vector5 of tests/roundtrip.rs as an instance; counterexample without the condition |
| C76 | partial | the writer's programs (`M_Buffered.v`) run on an output with a plan of failures (`M_Shaky.v`); exact set of outcomes, both directions, by cases on where each call of begin, push, finish and drop can fail and an invariant on the half-changed header (each attempt leaves a prefix of the new header before the old one); that the output stands behind the file after `finish` is refuted (the second attempt on drop may stop in the header), as is that a failed push can be repeated |
| C77 | partial | NumPy's side described in `S_Numpy.v` (repr, dtype.str, dtype.descr, format.py); repr prints literals of the grammar by induction over values, descriptions mean what NumPy meant by induction over dtypes, then the exact theorems on opening (C34) and reading (C29). Latin-1 headers beyond ASCII: a UTF-8 text read byte by byte parses to a value with longer strings, by induction over the grammar, so the dtype is never the right one |
| C78 | partial | NumPy's reader described in `S_NumpyRead.v`; induction over the dtype's text (S_DText.v) against the grammar of literals shows that what is written (C58) denotes a description NumPy understands, as the same dtype but for byte order marks that mean nothing (which change no byte: `C78_marks`); exact for files with named fields; a caller's own type can write records with a null character in a name or one name twice, which NumPy refuses: `C78_every_file_refuted`. The description of NumPy is checked by `C78_numpy_round` |
| C79 | proved | contents of values described in `S_Cross.v` (`same`, `room`, `laxer`); by induction over types both ways of reading one item are compared through C19's `decode`; composed with C58 for whole files. `C79_room_needed`: capacities matter (C23, C24); `C79_stricter`: the converse of laxer fails |
| C80 | proved | the header reader over all of `py_literal::Value` with the parser as an argument (`M_Literal.v`); what is read is that of the model after replacing other kinds by `None`, so C34's exactness carries over; for parsers that understand `S_Python.v` (`understands`) the model's results are theirs. This takes the model of py_literal out of the trusted base of the positive claims: they need `understands` only |
| C81 | proved | induction over the pushes with the counter modulo 2^64; the end of C64 (`end_exact`) applied to the counter in place of the number of pushes. What follows for reading: `C81_reads`. The unbounded form of C08 is refuted (`C81_length_refuted`): C08, C09, C12 and C64 carry the bound for this reason |
| C82 | proved | the buffer of std modelled call by call (M_Spill.v). Invariant `lag`: the output has the beginning of what was written since a certain place and the buffer the rest; kept by every call whether it fails or not; at the end three states (before the move to the header, after it with part of the new text waiting, nothing waiting). Ends in S_Spill.v. `C82_silence_refuted`: without finish everything may be lost though no call returned an error |
| C83 | proved | `stopped` (S_Stopped.v) says what a stopped run leaves. Programs that only append are shown to be cut short by a limit, compositionally (`cuts`, `zcuts`). A member cut short is not read as a whole by any type (`cut_file`), a missing one is not found, and each reader needs every member of its format (`read_needs`). In a fresh archive the outcome is an error, not a panic (`C83_refused`): every file left is the beginning of one that opens, and the panics of readers are known exactly (C50). `C83_mixed_refuted`: over an older matrix of the same format a failed write leaves a readable mixture |
| C84 | proved | `halted` (S_Halted.v) says what is left. One file of a fixed shape is cut short by a limit (`cuts_array` for a dropped writer; `trims_file` for a finished one, where the flush can fail after the last byte); by induction on the list, whatever is in it (`any_halted`). Whether finished or dropped the bytes are the same (`finished_is_dropped`), and a proper beginning of them is not read as a whole (`cut_lookup`, with C83's `cut_file`). `C84_error_absent_refuted`, `C84_older_refuted` |
| C85 | proved | `M_Zip.v`: entries are bytes or one of zip's errors. `last_entry`, `complaint`, `counts_as` (S_Zip.v). Lookup is reduced to the last entry of the file name (`zopen_exact`), opening and reading to C29, C50 and C59. `C85_plain`: on archives without damage this is the model of C40. `C85_listed_refuted`: with NUL in a path |
| C86 | partial (false of the code) | `M_Checksum.v`: an entry is its pieces followed by the end or by zip's checksum error (zip itself is not in the sandbox: this behaviour is assumed). `C86_exact_partial` by the case analysis of C70 (`source_cases`), `C86_into_vec_partial` and `C86_iterate_partial` for whole arrays, `C86_refuted` with a changed byte |
| C87 | proved | `M_ZipSparse.v`: the readers of `M_Sparse.v` with the answers of `by_name` as an argument. Each asks for its arrays in a fixed order and ends early only without a result (`asks`, an inductive relation; `asks_members`), from which the claims follow by induction (`asks_same`, `asks_damaged`). `members`, `damaged`, `same_entry` in `S_ZipSparse.v` |
| C88 | partial (false of the code) | `M_Demand.v`: the sizes of the buffers a read program hands to `read_exact`, over any input. Induction over programs (`proportional`); an upper bound of what any path of a program reads (`at_most`), shown of every reader by induction over the element type (`at_most_item`). Refuted by files made with the header writer (`small_file`) |
| C89 | proved | `M_Stack.v`: `from_descr` and `num_bytes` with room for a number of nested calls. Induction over the room (`stack_sound`, `stack_nesting`) and over the descriptions (`stack_exact`); the number of values in a literal is at most its length by induction over the grammar of `S_Python` (`literal_len`). Deep files made with the header writer (`deep_file`, `tall_file`); `size_exact` by induction over the room. `types`, `nesting` in `S_Stack.v` |

"Partial" in `MANIFEST.json` is used whenever the property as first stated is false of the code; the theorems then are the
part that holds (`_partial`, or an exact characterisation) and the counterexample (`_refuted`).

## Findings about the code

Each is a machine-checked theorem with a witness.

1. `SAFE_U16_CUTOFF` is `0xffff_fc00` instead of `0xfc00`: ASCII headers from 65526 bytes on panic (`C06_*`).
2. `begin_2d(0)`: `finish` and `Drop` panic with a division by zero (`C47_*`).
3. `push` counts an item even if writing it failed: the finished file promises more items than it has (`C32_*`).
4. The reader's index advances before the item is read, and after a failed item of several reads the stream is out of step:
   later items are wrong (`C30_refuted`, `C15_after_error_refuted`).
5. `DiaMatrix::write_npz` stores `data` with shape `[length, offsets]` instead of `[offsets, length]` (`C43_*`); no offsets: panic.
6. Shape products overflow: silent wrap in release builds, panic on empty arrays in debug builds (`C28_*_refuted`, `C12_overflow_refuted`, `C41_bsr_refuted`).
7. `ArrayVec<u8, N>` reading `|VM` returns N bytes, not M (`C24_*`); reading `|SM` truncates before it strips NULs (`C23_longest_prefix_refuted`).
8. `NpyData`'s iterator: `size_hint` underflows after the end (`C38_*`); `len` is truncated to `usize` (`C37_many_refuted`).
9. The derive macro passes the arguments of `WrongFields` in the wrong order (`C45_*`).
10. `seek_to` overflows `i64` for more than 2^63 zero-sized items (`C29_huge_refuted`).
11. Names with NUL characters in archives: listed name and stored name differ (`C39_nul_refuted`, `C40_nul_refuted`); an archive can list a name twice that leads to nothing (`C85_listed_refuted`).
12. A crash in the middle of finishing a 2-D C-order file with 18 or more digits of rows and columns can leave a file that opens as 3-D (`C14_2d_c_refuted`), and with 18 or 19 digits of rows one whose second axis is wrong; these and only these files can be mistaken (`C14_2d_c_exact`).
13. `_begin` writes the header before it looks at the dtype: a refused `begin_nd` of a shape without items leaves a complete, readable file (`C52_*`).
14. `[T; N]` implements `AutoSerialize`, but its default dtype cannot be written: `to_file_1d` of a sequence of arrays always panics (`C53_array_panics`).
15. Which of two defects is reported (a size beyond `usize` or a wrong type code) differs between types and between reading and writing (`size_first` in `S_Reject`, `C51_*`).
16. Negative sparse indices are read as huge unsigned ones (`wrapped` in `S_Archive`, `C50_*`).
17. `NpyData::from_bytes` checks the data length against a product that wraps in release builds: a buffer without data passes for 2^61 items, and `get` panics (`C37_length_refuted`).
18. A byte string or raw dtype larger than `isize::MAX`, such as `|S9223372036854775808`, is accepted by readers and writers; `vec![0; size]` then panics
    (`C16_read_panics_refuted`, `C16_write_panics_refuted`, `C29_huge_string_refuted`). Everything about reading items or succeeding to write them assumes `strings_fit`.
19. On machines with a 32-bit `usize`, twelve bytes announcing a header of 2^31 bytes or more make `NpyFile::new` panic in `vec![0; header_size]` (`C34_32bit_refuted`).
20. The message about a string that is too long for a byte-string dtype reports the number of characters, though the limit is in bytes: `éé` in `|S3` is refused because of 2 code units (`C60_reported_length_refuted`).
21. `seek_to` moves relative to where the source is, so after an item that could not be read it goes to the wrong place, before the data (header bytes are read as items, `C65_case`) or before the start of the source, which is an error (`C65_seek_refuted`).
22. The documentation lists `VN` as the default dtype of `FixedSizeBytes<N>`, but it has none (`C68_fixed_bytes_refuted`).
23. A push of an over-long string to a `U` field fails, yet stores the cut string as a whole item; the finished file reads back with it (`C32_cut_strings`, Example `C32_case`).
24. After a transient error of the source the iterator goes on: its index is already advanced and the bytes of the item read so far are lost, so the following calls may return values that are not in the file (`C71_refuted`), and the last item is never delivered (`C71_never_all`).
25. `seek_to` and `read_at` do not repair this: they move relative to the index, so after a failed read `read_at(i)` gives another item or bytes of two items, for the rest of the reader's life (`C72_read_at_refuted`, `C72_displaced`). Failed seeks do no harm (`C72_failed_moves`).
26. The assertion of `Bsr::write_npz` is computed in `usize`: where overflow wraps, a matrix with too few data can be written without complaint, and is then unreadable (`C73_documented_refuted`); where it is checked, sound matrices are refused with an undocumented panic (`C73_undocumented_refuted`). The assertions come after the other arrays were written: what a caught panic leaves in an archive that had `data.npy` already reads as a mixture of two matrices (`C73_mixed_refuted`).
27. What `derive(Deserialize)` generates for a struct with a field called `reader` or `func` before the last one is not accepted: its function `read_one` has variables of these names, and binds every field to a variable of the field's name. Structs with generic parameters are not accepted either (`C74_any_struct_refuted`).
28. `finish` ends with the writer being dropped, and dropping does the finishing again, errors ignored. If a call on the output fails then, after `finish_` succeeded, the output is left standing inside the header: `finish` returns `Ok`, and the next array written to the same stream destroys the first, though nothing returned an error (`C76_position_refuted`). The other way round, `finish` may return an error and the file be whole (Example `C76_case`).
29. A push stopped by the output is counted and partly stored; repeated, everything after it is displaced (`C76_retry_refuted`).
30. The documentation's example of inspecting an array (`src/lib.rs:64-80`) reads `test-data/c-order.npy`, whose items are `<i8`, with `into_vec::<f64>()`; it prints an error (Example `doc_inspecting`).
31. NumPy writes headers of versions 1 and 2 in Latin-1; npyz decodes them as UTF-8 (`src/header.rs:225-242`, there is a FIXME). A field named `é` makes the file unreadable (`C77_latin1_refuted`); a field named `Ã©` is silently read as `é` (`C77_misread_refuted`). `C77_latin1`: with any character beyond ASCII in such a header, the dtype is never the one NumPy meant.
32. Of NumPy's dtypes, those with field titles, `<M8`/`<m8` without a unit or with a multiple (`<M8[25s]`), `<f12` and `<c24` are refused (`C77_refused`). Aligned records open, but their padding is a field with the empty name, so no struct with named fields reads them (`C77_padding`).
33. A name with a null character is written as it is (`src/header.rs:320-335` escapes only backslash, quote, CR and LF; Python's `repr` would write `\x00`), and a name may occur twice in a record. npyz reads such files back; Python refuses the first (null characters in source), NumPy the second (`C78_every_file_refuted`). Structs cannot have such names, so only a caller's own `Serialize` can do this.
34. The counter of pushes is a `u64` advanced without a check (`src/write.rs:503`). In builds with wrapping arithmetic 2^64 pushes make a file of length 0 and `finish` says `Ok` (`C81_length_refuted`); only for items of no bytes does such a file not need 2^64 bytes. In checked builds the push panics and the file left behind is sound.
35. A writer over a `BufWriter` that is dropped without `finish` can lose everything while no call returns an error: all pushes go to the buffer, the writes happen inside `drop`, where `src/write.rs:631-635` and `BufWriter` both discard errors (`C82_silence_refuted`). With `finish` returning `Ok` nothing is lost (`C82_success`).
36. `write_npz` of a sparse matrix that fails midway into an archive which already holds a matrix of the same format leaves a readable matrix that is neither (new shape and indices, old data): the archive keeps both entries of a name and readers take the last (`C83_mixed_refuted`; the same after a panic: `C73_mixed_refuted`). In an archive without such entries nothing is read (`C83_never_mistaken`).
37. Saving an array under a name that the archive already has hides the older array as soon as the new entry is started: if the output then gives out, neither can be read, provided the archive's directory is still written (`C84_older_refuted`; the directory is the `zip` crate's and not modelled). `finish` can return an error although the array is whole (`C84_error_absent_refuted`).
38. If zip compares an entry's checksum when a read finds the end of the entry (an assumption about a crate that is not in the sandbox), the checksum of an intact-looking array is never compared: the reader asks for the promised bytes and no more, so damaged numbers are returned without an error (`C86_refuted`).
39. What reading a file demands of memory is not in proportion to the file. `vec![0; header_size]` (`src/header.rs:227`) makes a buffer of up to 4 GiB for a file of 12 bytes, `vec![0; self.info.size]` (`src/serialize/slice.rs:24`) one as large as can be allocated for a file of 128 bytes, and such a file with dtype `|S0` reads as any number of empty strings below 2^64, which `into_vec` collects one by one until memory runs out (`C88_header_refuted`, `C88_item_refuted`, `C88_refuted`).
40. `DType::from_descr` (`src/header.rs:84-91`) calls itself once per level of nested records, without a limit: a file with n levels needs 12n+200 bytes at most, so a file of some megabytes can exhaust the stack and end the process when it is opened (`C89_no_fixed_stack`). `DType::num_bytes` (`src/header.rs:116-126`), called by `from_parts`, recurses through arrays as well: a field with n axes, 2n+200 bytes, does the same (`C89_size_no_fixed_stack`).

{"id": "C01", "title": "Type strings survive printing and re-parsing", "statement": "If a string parses as a TypeStr, then formatting that TypeStr with to_string() and parsing the result yields an equal TypeStr. Formatting is also idempotent, so there is one canonical spelling per TypeStr.", "quantifier": "every Unicode string accepted by the TypeStr parser", "why_tests_cant": "There are infinitely many accepted strings (any size up to 2^64-1, any redundant leading zeros, the alias 'a', all unit suffixes).", "anchors": ["src/type_str.rs: FromStr for TypeStr, Display for TypeStr, validate"]}
{"id": "C02", "title": "The type string parser accepts exactly the documented language and never panics", "statement": "TypeStr parsing is total: for every string it returns Ok or one of the documented errors. It returns Ok precisely when the string is an endianness mark, a known type code, the decimal size (absent exactly for O) and, exactly for m and M, a bracketed time unit; and the size is legal for the code and the endianness is given wherever it matters.", "quantifier": "every Unicode string, including empty, one-byte and multi-byte-character strings", "why_tests_cant": "Acceptance and rejection over all strings cannot be enumerated; the byte-length guard and the two unwrap() calls interact with multi-byte characters.", "anchors": ["src/type_str.rs: FromStr for TypeStr, validate, valid_sizes, requires_endianness, has_units"]}
{"id": "C03", "title": "DTypes survive being written as a descr and parsed back", "statement": "For every DType that can stand at the top level of a file (a plain type string or a record, with arbitrarily nested record and array fields and arbitrary Unicode field names), parsing descr() gives back the identical DType.", "quantifier": "every well-formed DType of any nesting depth, any number of fields, any field name including quotes, backslashes, newlines and NULs", "why_tests_cant": "DTypes are an unbounded recursive type and field names are arbitrary text; the escaping order and trailing-comma rules matter only for unusual ones.", "anchors": ["src/header.rs: DType::descr, DType::parse, DType::from_descr, PyUtf8StringLiteral, convert_tuple_to_record_field"]}
{"id": "C04", "title": "A header that was written is read back exactly", "statement": "If writing a header for a dtype, shape and order succeeds, then NpyFile::new on the written bytes followed by anything succeeds, reports the same dtype, shape and order, and leaves the stream positioned on the first byte after the header.", "quantifier": "every well-formed dtype, every shape (any number of axes, any u64 lengths whose product fits), either order, and every byte sequence following the header", "why_tests_cant": "Quantifies over all dtypes, shapes and following data, including names that force format version 3.", "anchors": ["src/write.rs: write_header, create_dict, write_header_only", "src/read.rs: NpyFile::new, NpyHeader::from_reader", "src/header.rs: read_header"]}
{"id": "C05", "title": "Headers conform to the NPY container layout and data is 64-byte aligned", "statement": "The bytes written before the data are: 0x93 'NUMPY', a version, a little-endian header length of the width the version demands, and exactly that many bytes of header text ending in a newline; the whole preamble is a multiple of 64 bytes; version 1 is only used for ASCII text and the version is otherwise one whose length field is wide enough.", "quantifier": "every dtype, shape, order and shape mode (fixed, growing 1-D, growing 2-D)", "why_tests_cant": "Alignment and length-field consistency are arithmetic facts about every possible header length.", "anchors": ["src/write.rs: determine_required_version_and_pad_header, write_header", "src/header.rs: VersionProps, get_minimal_version"]}
{"id": "C06", "title": "Writing a header does not panic on long dtypes", "statement": "For any dtype whose header text fits in 32 bits, begin_nd/begin_1d/write_header_only either succeed or return an error; header text too long for the 16-bit length field switches to the 32-bit format version. (Expected from the documented version fallback; examined and refuted for ASCII text longer than the 16-bit limit.)", "quantifier": "every dtype with a header text of any length", "why_tests_cant": "Needs a dtype with a header over 64 KiB; a finite suite will not discover that the cutoff constant is wrong, and the positive half ranges over all lengths.", "anchors": ["src/write.rs: determine_required_version_and_pad_header (SAFE_U16_CUTOFF), write_header"]}
{"id": "C07", "title": "A whole array written is read back unchanged", "statement": "For a Rust type and dtype accepted by both Serialize and Deserialize: writing any sequence of values with begin_nd of a matching shape, pushing each, and finishing gives bytes from which NpyFile::into_vec returns the same sequence (strings up to trailing NULs).", "quantifier": "every supported type/dtype pair including nested arrays and derived structs, every value sequence of any length, either order, any shape with that many elements, writer and reader machines of any endianness", "why_tests_cant": "Unbounded values, lengths, nesting and cross-machine combinations.", "anchors": ["src/write.rs: NpyWriter::push, extend, finish, begin_nd", "src/read.rs: NpyFile::into_vec, NpyReader"]}
{"id": "C08", "title": "Growing 1-D files end up with the right length", "statement": "After begin_1d, any number of successful pushes and finish, the file reads back as a one-dimensional array whose length is the number of pushes and whose items are the pushed values.", "quantifier": "every number of pushes from 0 to 2^64-1 (digit counts 1 to 20), every dtype, every starting position in the stream", "why_tests_cant": "The shape is patched in place over a 20-character filler; every digit count and header length is a different case.", "anchors": ["src/write.rs: begin_1d, finish_, shape_suffix_1d, filler_space_padding"]}
{"id": "C09", "title": "Growing 2-D files end up with the right shape", "statement": "After begin_2d(record_len), pushes and finish, if the number of pushed items is a multiple of record_len > 0 the file reads back with shape [rows, record_len] in C order or [record_len, rows] in Fortran order, and otherwise finish returns an error.", "quantifier": "every record length, every number of pushes, both orders", "why_tests_cant": "Unbounded counts and both orders, with in-place patching.", "anchors": ["src/write.rs: begin_2d, finish_, shape_suffix_2d"]}
{"id": "C10", "title": "Finalising touches only the shape text and restores the stream position", "statement": "finish on a growing file overwrites only bytes of its own header: everything before the position where begin was called, the rest of the header, the data and everything after are unchanged, the total length is unchanged and the stream is left at the end of the data.", "quantifier": "every prior stream content and start position, every dtype, every number of items", "why_tests_cant": "Arbitrary existing contents and offsets; the patch must be in bounds for all header sizes.", "anchors": ["src/write.rs: finish_, MaybeSeek"]}
{"id": "C11", "title": "Finishing twice is harmless", "statement": "finish() runs the finalisation and the drop of the writer runs it again; the resulting bytes, position and reported result are those of one run.", "quantifier": "every writer state reachable by pushes, all three shape modes", "why_tests_cant": "Relates two executions over all reachable states.", "anchors": ["src/write.rs: NpyWriter::finish, Drop for NpyWriter"]}
{"id": "C12", "title": "A fixed-shape writer detects a wrong item count", "statement": "finish on a begin_nd writer returns an error exactly when the number of pushed items differs from the product of the declared shape.", "quantifier": "every shape and every number of pushes", "why_tests_cant": "Unbounded shapes and counts, including zero-length axes, zero-dimensional arrays and overflow.", "anchors": ["src/write.rs: finish_, create_dict, begin_nd"]}
{"id": "C13", "title": "Non-seekable outputs are never seeked", "statement": "Writing with begin_nd or write_header_only emits only sequential writes, so it is legal on a plain io::Write: it never reaches the seek that would panic on a non-seekable stream.", "quantifier": "every builder call sequence and every sequence of pushes, finish and drop", "why_tests_cant": "Requires all executions of the writer state machine.", "anchors": ["src/write.rs: MaybeSeek, _begin, finish_, begin_nd, write_header_only"]}
{"id": "C14", "title": "An interrupted growing file is never mistaken for a finished one", "statement": "If writing a growing 1-D or 2-D file stops at any point (any byte of the header, of the data, or of the in-place shape update), then NpyFile::new on what is in the output either returns an error or sees exactly the final dtype and shape with all data present.", "quantifier": "every crash point measured in individual byte writes and seeks, every dtype and sequence of values", "why_tests_cant": "Crash points are unbounded and interact with the length of the decimal shape and filler.", "anchors": ["src/write.rs: FILLER, shape_suffix_1d, shape_suffix_2d, finish_", "src/read.rs: NpyHeader::from_reader"]}
{"id": "C15", "title": "Truncated files yield errors, never wrong items", "statement": "For any strict prefix of a complete file, NpyFile::new returns an error or every item successfully read equals the item originally written at that index, and reading the whole array returns an error (when items are not zero-sized). (Examined: holds for iteration and for every history up to its first error; refuted for seeks after an unexpected end of file, which start from the wrong place.)", "quantifier": "every file written by the crate and every truncation point", "why_tests_cant": "All truncation points of all files.", "anchors": ["src/read.rs: NpyReader::next, NpyFile::into_vec", "src/header.rs: read_header"]}
{"id": "C16", "title": "Readers and writers move exactly one item of bytes", "statement": "When Deserialize/Serialize accept a dtype, each successful read_one consumes and each successful write_one produces exactly DType::num_bytes() bytes.", "quantifier": "every supported Rust type (nested arrays and derived structs included), every accepted dtype and every value or input", "why_tests_cant": "Random access and record layout rely on this for all type/dtype pairs.", "anchors": ["src/serialize/*.rs: read_one, write_one", "src/header.rs: DType::num_bytes"]}
{"id": "C17", "title": "Element encoding is the documented byte layout, independent of the machine", "statement": "Integers are written as two's complement and floats as IEEE bit patterns in exactly the byte order named by the type string, on every machine; complex numbers are the real part then the imaginary part; bool is 0 or 1; sequences, records and arrays are the concatenation of their parts.", "quantifier": "every value, both file byte orders, both machine byte orders", "why_tests_cant": "All values and all four byte-order combinations.", "anchors": ["src/serialize/primitive.rs", "src/type_str.rs: Endianness::requires_swap, of_machine"]}
{"id": "C18", "title": "Element decoding inverts element encoding", "statement": "For every accepted type/dtype pair, reading the bytes produced by writing a value returns that value (strings and byte strings up to trailing NULs), regardless of what follows in the stream.", "quantifier": "every supported type, dtype and value; writer and reader on machines of possibly different byte order", "why_tests_cant": "Unbounded values and nested types.", "anchors": ["src/serialize/primitive.rs", "src/serialize/slice.rs", "src/serialize/array_member.rs", "derive/src/lib.rs"]}
{"id": "C19", "title": "Numeric decoding is injective and total", "statement": "Every byte pattern of an item of an integer, float or complex dtype decodes successfully to a value that encodes to the same bytes; a bool byte decodes exactly when it is 0 or 1.", "quantifier": "every byte pattern", "why_tests_cant": "2^64 and more patterns per type.", "anchors": ["src/serialize/primitive.rs"]}
{"id": "C20", "title": "Which dtypes each Rust type accepts", "statement": "Deserialize/Serialize for each type accept exactly the dtypes of the documented support matrix: type code and size must match for numbers, i64 also for m8/M8, and the string matrix for String, Vec<u8>, Vec<u32>, Vec<char>, FixedSizeBytes and the arrayvec types; structs exactly the records with the same field names in the same order and acceptable fields; arrays exactly arrays of the same length.", "quantifier": "every DType and every supported Rust type", "why_tests_cant": "DTypes and Rust types are unbounded recursive families.", "anchors": ["src/serialize/primitive.rs", "src/serialize/slice.rs", "src/serialize/array_member.rs", "derive/src/lib.rs", "src/type_matchup_docs.rs"]}
{"id": "C21", "title": "String writing rules", "statement": "Writing to S or U pads with NULs to the declared size and fails iff the value is longer than the size; V fails unless the length is exact; U additionally rejects u32 units of 0x110000 and above.", "quantifier": "every byte/character sequence and declared size", "why_tests_cant": "All lengths and sizes.", "anchors": ["src/serialize/slice.rs: BytesWriter, Utf32Writer, Utf32StrWriter, Utf8StrWriter"]}
{"id": "C22", "title": "String reading rules", "statement": "Reading S or U drops exactly the trailing NULs and keeps interior ones; Vec<u32> accepts every unit below 0x110000, Vec<char> and String reject surrogates; String from S requires valid UTF-8; V keeps all bytes.", "quantifier": "every item content", "why_tests_cant": "All byte strings.", "anchors": ["src/serialize/slice.rs: BytesReader, Utf32 readers, Utf8StringReader, truncate_trailing_nuls"]}
{"id": "C23", "title": "Bounded-capacity strings truncate to a valid prefix", "statement": "Reading S or U data into an arrayvec type of capacity N gives the longest prefix of the full content that fits: for ArrayString the longest whole-character prefix of at most N bytes; the item is still consumed fully.", "quantifier": "every content, declared size and capacity", "why_tests_cant": "All contents and capacities, multi-byte boundaries.", "anchors": ["src/serialize/slice.rs: ArrayVec readers, Utf8ArrayStringReader"]}
{"id": "C24", "title": "Reading V into a bounded byte vector returns the M stored bytes", "statement": "ArrayVec<u8, N> reading |VM with M <= N returns exactly the M bytes stored, as documented, so it can be written back. (Examined: refuted for M < N.)", "quantifier": "every M, N and content", "why_tests_cant": "The tests only use M = N or S.", "anchors": ["src/serialize/slice.rs: ArrayVec<u8, N> reader"]}
{"id": "C25", "title": "Arrays containing Python objects are never decoded", "statement": "If O occurs anywhere in the dtype then data(), try_data() and into_vec() return an error without consuming input, while the header stays readable; and no dtype without O is refused for this reason.", "quantifier": "every dtype, O at any nesting depth", "why_tests_cant": "Arbitrary nesting.", "anchors": ["src/read.rs: forbid_pickle, from_parts", "src/header.rs: uses_pickled_array"]}
{"id": "C26", "title": "num_bytes is the exact item size or None", "statement": "DType::num_bytes is Some(n) with n the mathematical size exactly when O does not occur and no intermediate size exceeds usize; opening a file whose item size does not fit is an error, never a wrapped size.", "quantifier": "every dtype, on 32- and 64-bit targets", "why_tests_cant": "Overflow only appears for huge sizes and nestings.", "anchors": ["src/header.rs: DType::num_bytes", "src/type_str.rs: type_str_num_bytes_as_usize", "src/read.rs: from_parts"]}
{"id": "C27", "title": "strides describe the storage order", "statement": "For a shape whose element count does not overflow in any suffix/prefix, the flat index of a multi-index under strides() is its position in row-major order for C order and column-major order for Fortran order; strides are therefore a bijection onto 0..len.", "quantifier": "every shape (any number of axes) and multi-index", "why_tests_cant": "Unbounded dimensions and indices.", "anchors": ["src/read.rs: strides, prefix_products, NpyHeader::strides"]}
{"id": "C28", "title": "len is the product of the shape", "statement": "NpyHeader::len is the product of the shape. (Examined: holds whenever the product fits in u64; otherwise panics or wraps depending on the build profile.)", "quantifier": "every shape", "why_tests_cant": "Overflow only with huge axes; both build profiles.", "anchors": ["src/read.rs: from_parts, NpyHeader::len"]}
{"id": "C29", "title": "Any history of reads and seeks returns the right items", "statement": "Over a complete file of decodable items, for every sequence of next, seek_to, read_at and len calls, read_at(i) returns item i, next returns the item at the current position, len is the remaining count, and out-of-range indices panic without side effects. (Examined: holds whenever the data ends below byte 2^63 and, in builds with overflow checks, there are fewer than 2^63 items; refuted for a checked build and an array of 2^64-1 zero-sized items, where an in-range seek panics.)", "quantifier": "every file and every call history, forward and backward seeks, zero-sized items", "why_tests_cant": "Histories are unbounded and stateful.", "anchors": ["src/read.rs: NpyReader::seek_to, read_at, Iterator::next, len, total_len"]}
{"id": "C30", "title": "Reader position after a decoding error", "statement": "After next() returns a decoding error for an item, later read_at and next calls still return the right items. (Examined: holds for types that read their bytes before validating; refuted for U strings, arrays and structs, whose failed read leaves the stream inside the item.)", "quantifier": "every file, every error position and history", "why_tests_cant": "Needs a stateful history with a mid-item error.", "anchors": ["src/read.rs: Iterator::next, seek_to", "src/serialize/slice.rs"]}
{"id": "C31", "title": "The result does not depend on how the input is chunked", "statement": "Reading a header and items from an io::Read gives the same result however the reader splits its bytes into short reads and interrupted calls, and consumes exactly the same bytes.", "quantifier": "every chunking and interruption schedule", "why_tests_cant": "Schedules are unbounded.", "anchors": ["src/header.rs: read_header", "src/read.rs", "src/serialize/*.rs"]}
{"id": "C32", "title": "Failed writes of one item", "statement": "If push returns an error because the value cannot be encoded, the finished file does not claim an item that was not stored. (Examined: refuted, the counter is advanced and partial bytes may remain.)", "quantifier": "every value sequence with rejected values", "why_tests_cant": "Needs a mixed history of failing and successful pushes.", "anchors": ["src/write.rs: push, finish_"]}
{"id": "C33", "title": "Builder options are order-independent", "statement": "The file produced depends only on the last dtype, shape, order and writer given to the builder, not on the order of the calls; the default order is C.", "quantifier": "every sequence of builder calls", "why_tests_cant": "Unbounded call sequences.", "anchors": ["src/write.rs: WriterBuilder, WithDType, WithShape, WithWriter, WriteOptions"]}
{"id": "C34", "title": "Header parsing is robust to arbitrary input", "statement": "NpyFile::new on any byte sequence returns Ok or Err without panicking (apart from shape-product overflow in overflow-checked builds) and, when Ok, has consumed exactly the preamble whose length the file declares.", "quantifier": "every byte sequence", "why_tests_cant": "All inputs, including invalid UTF-8, bad magic, unknown versions, negative or oversized shape integers.", "anchors": ["src/header.rs: read_header, read_pre_header, read_magic_and_version", "src/read.rs: from_reader, read_and_interpret"]}
{"id": "C35", "title": "Header dictionary keys", "statement": "Acceptance needs keys descr, fortran_order and shape with the right value kinds; key order is irrelevant, unknown keys are ignored, and a duplicated key takes its last value.", "quantifier": "every dictionary literal with string keys", "why_tests_cant": "All orders and extra keys.", "anchors": ["src/read.rs: read_and_interpret"]}
{"id": "C36", "title": "try_data does not lose the file", "statement": "When try_data::<T>() fails because of the dtype, the returned NpyFile is unchanged, so trying another type then behaves as if the first attempt had not happened.", "quantifier": "every file and pair of types", "why_tests_cant": "Relates two executions over all files.", "anchors": ["src/read.rs: try_data"]}
{"id": "C37", "title": "The in-memory reader agrees with the streaming reader", "statement": "NpyData::from_bytes followed by get(i)/to_vec/iteration gives the items that NpyFile::into_vec gives, get is None exactly past the end, and iteration yields each item once in order. (Examined: holds whenever the number of items fits usize; refuted for more than 2^32 zero-sized items on a 32-bit machine.)", "quantifier": "every complete file", "why_tests_cant": "All files and indices.", "anchors": ["src/read.rs: NpyData"]}
{"id": "C38", "title": "Size hints of the in-memory iterator", "statement": "The IntoIter size hint equals the number of remaining items at every point of the iteration. (Examined: holds until exhaustion is observed; refuted after calling next on the exhausted iterator.)", "quantifier": "every file and number of next calls", "why_tests_cant": "Needs calls after exhaustion.", "anchors": ["src/read.rs: IntoIter"]}
{"id": "C39", "title": "Array names in npz archives", "statement": "file_name_from_array_name followed by array_name_from_file_name returns the original name for every name without NUL; file names lacking the .npy suffix have no array name; distinct names give distinct file names.", "quantifier": "every Unicode name", "why_tests_cant": "All strings, names that already end in .npy or contain NULs.", "anchors": ["src/npz.rs: array_name_from_file_name, file_name_from_array_name"]}
{"id": "C40", "title": "npz lookup", "statement": "After writing arrays under distinct names, by_name returns for each name a file reading back exactly the array written, None for a name never written, and array_names lists exactly the written names.", "quantifier": "every collection of names and arrays", "why_tests_cant": "Unbounded collections.", "anchors": ["src/npz_feature.rs: NpzArchive::by_name, array_names, NpzWriter::array"]}
{"id": "C41", "title": "Sparse matrices round-trip", "statement": "For COO, CSR, CSC, BSR and DIA matrices, from_npz after write_npz returns the same matrix, also through the dynamic Sparse type, and reading as a different format is an error.", "quantifier": "every matrix (any shape, index values and data)", "why_tests_cant": "Unbounded matrices; index width selection; wrap-around index values.", "anchors": ["src/sparse.rs"]}
{"id": "C42", "title": "Sparse index width", "statement": "Index arrays are stored as 32-bit integers exactly when every value fits and as 64-bit otherwise, and either way the indices read back are identical.", "quantifier": "every index array", "why_tests_cant": "Boundary values and arbitrary arrays.", "anchors": ["src/sparse.rs: write_indices, extract_indices"]}
{"id": "C43", "title": "DIA layout matches the documentation", "statement": "write_npz for Dia stores data with shape [number of offsets, length]. (Examined: refuted, the two axes are swapped; and an empty offsets list panics.)", "quantifier": "every DIA matrix", "why_tests_cant": "The crate's own reader ignores the shape, so its round-trip tests cannot see this.", "anchors": ["src/sparse.rs: Dia::write_npz"]}
{"id": "C44", "title": "Derived structs match records by name and order", "statement": "A derived reader/writer accepts a record iff its field names equal the struct's names in order and each field dtype is accepted, encodes fields in declaration order without padding, and a derived default_dtype is always accepted by the derived reader and writer.", "quantifier": "every struct definition and record dtype", "why_tests_cant": "Unbounded struct shapes.", "anchors": ["derive/src/lib.rs"]}
{"id": "C45", "title": "Field mismatch errors name the right side", "statement": "When a derived type rejects a record, the error's expected fields are the struct's and its actual fields the file's. (Examined: refuted, the two are swapped.)", "quantifier": "every struct/record mismatch", "why_tests_cant": "Only visible in error payloads no test inspects.", "anchors": ["derive/src/lib.rs: gen_field_dtypes_struct", "src/serialize/traits.rs: wrong_fields"]}
{"id": "C46", "title": "Default dtypes are accepted by their own type", "statement": "For every AutoSerialize type, default_dtype is a valid dtype accepted by the type's own reader and writer, uses the machine byte order, and holds every value of the type except strings over capacity.", "quantifier": "every AutoSerialize type, nested arrays and structs, both machine byte orders", "why_tests_cant": "Unbounded nested types.", "anchors": ["src/serialize/*.rs: AutoSerialize", "derive/src/lib.rs"]}
{"id": "C47", "title": "Growing 2-D with zero record length", "statement": "begin_2d(0) followed by finish reports an error rather than panicking. (Examined: refuted, division by zero, in finish and again in drop.)", "quantifier": "every number of pushes", "why_tests_cant": "Only the zero record length triggers it.", "anchors": ["src/write.rs: finish_"]}
{"id": "C48", "title": "Text conversion is exact", "statement": "The bytes accepted as text (field names, string items, header text) are exactly the UTF-8 encodings of sequences of Unicode scalar values, each decoded to that sequence; numbers are printed as their unique shortest decimal numeral, and a digit string is read as its decimal value exactly when that is below 2^64.", "quantifier": "every byte sequence, every sequence of scalar values, every number, every digit string", "why_tests_cant": "Overlong forms, surrogates and the ends of each length class are a handful of points among unboundedly many inputs.", "anchors": ["src/header.rs: read_header, from_utf8", "src/write.rs: write_header", "src/type_str.rs: number parsing and Display", "src/serialize/: string readers and writers"]}
{"id": "C49", "title": "Header text is read as the Python literal it is", "statement": "A header's text, and a string given to DType::parse, is read as a value exactly when it is a Python literal of that value under the documented grammar (quoted strings with escapes, decimal integers, booleans, None, tuples, lists, dicts, sets, blanks between tokens); the value is unique; everything else is refused.", "quantifier": "every text, nesting depth and length", "why_tests_cant": "The set of texts is unbounded and recursive; tests try a few spellings, mostly the one the crate itself writes.", "anchors": ["src/header.rs: read_header, DType::parse", "py_literal (external)"]}
{"id": "C50", "title": "Sparse matrices are read from any archive exactly as it represents them", "statement": "Reading a sparse matrix from an archive yields a matrix exactly when the archive's last entries of the format's member names are npy files of the documented kinds (format string, shape, index and data arrays, of any accepted byte order, integer width and header version) that represent it; each archive represents at most one matrix; the typed readers additionally require their own format; everything else is an error, and a panic exactly when opening a needed member overflows.", "quantifier": "every archive, element type, machine, format", "why_tests_cant": "The test archives were all written by scipy or by the crate itself.", "anchors": ["src/sparse.rs: from_npz", "src/npz_feature.rs: by_name"]}
{"id": "C51", "title": "A refused dtype is reported with the right error", "statement": "When a Rust type does not accept a dtype, the error names the first thing wrong (outside before inside, fields in order): wrong kind of dtype, wrong scalar, wrong array length, wrong field names, size beyond usize; opening the data of a file with object members is reported as requiring pickle, before anything else; there is an error exactly when the dtype is not accepted, and only one.", "quantifier": "every type, dtype, machine, direction", "why_tests_cant": "Unbounded nesting of types and dtypes with several defects at once.", "anchors": ["src/serialize/traits.rs: DTypeError", "src/serialize/*.rs: reader/writer", "src/read.rs: data"]}
{"id": "C52", "title": "What a refused writer leaves behind", "statement": "Beginning to write with a dtype the type does not accept is an error that leaves exactly a header in the output: for growing files one that nobody opens; for fixed shapes the header of a file without data, which reads as the complete empty array if the shape has no items and as nothing otherwise. (So the output is not left untouched.)", "quantifier": "every type, dtype, order, shape, output", "why_tests_cant": "Needs every refused combination and the bytes left in the output.", "anchors": ["src/write.rs: _begin"]}
{"id": "C53", "title": "to_file_1d stores any sequence of a type with a default dtype", "statement": "to_file_1d writes every sequence of values of an AutoSerialize type that is not itself an array so that it reads back with the default dtype, C order and one axis, on every machine accepting the dtype; for array types it always panics.", "quantifier": "every AutoSerialize type, every sequence, both machines", "why_tests_cant": "Unbounded types and sequences.", "anchors": ["src/write.rs: to_file_1d, OutFile::open"]}
{"id": "C54", "title": "Header and data may come from different streams", "statement": "NpyFile::new is reading a header and going on with the same stream; with with_header the items come from the given stream from its current position, exactly as many as the header says, and any history of next/seek_to/read_at sees them as a list.", "quantifier": "every header, every data stream and position, every call history", "why_tests_cant": "Unbounded streams and histories.", "anchors": ["src/read.rs: NpyHeader::from_reader, NpyFile::with_header, into_inner"]}
{"id": "C55", "title": "Several arrays in one stream", "statement": "Arrays of any types and kinds of writer written one after the other into one output, beginning at any position in any contents, are read back one after the other: from a seekable source, each NpyFile opened where into_vec of the previous one stopped, and from a stream without seeking that delivers its bytes in any pieces; reading ends exactly where writing ended and the bytes around the arrays are untouched.", "quantifier": "every list of arrays, every start position and contents, both machines, every way of delivering the bytes", "why_tests_cant": "Unbounded lists of arrays, positions and ways of splitting a stream.", "anchors": ["src/read.rs: NpyFile::new, into_vec, into_inner", "src/write.rs: begin_nd, begin_1d, begin_2d, finish"]}
{"id": "C56", "title": "Refused type strings are reported with their first defect", "statement": "When a string is not a type string, the error shown is about its first defect (form, size beyond 64 bits, malformed unit, missing byte order, impossible size with the list of possible ones, missing or unexpected unit), shows the type string as it would be printed, and showing it never panics.", "quantifier": "every string", "why_tests_cant": "All strings; the unwrap of valid_sizes in Display is reached only through errors of the parser, whose order of checks decides which errors exist.", "anchors": ["src/type_str.rs: ParseTypeStrError Display (441-465), from_str (475-528), validate (532-552)"]}
{"id": "C57", "title": "Elements are found where their indices say", "statement": "If the values f(i) of all indices i of a shape are written in storage order (C: last index fastest, Fortran: first index fastest), then in the file read back, on any machine and after any history of calls, read_at(sum of i_k * strides()[k]) returns f(i).", "quantifier": "every element type and accepted dtype, shape, order, function on indices, kind of writer, index in bounds and history of calls", "why_tests_cant": "Connects writer, header, strides and random access for all shapes and histories.", "anchors": ["src/read.rs: strides, read_at, seek_to", "src/write.rs: begin_nd, begin_1d, begin_2d, push, finish", "examples/ndarray.rs"]}
{"id": "C58", "title": "A finished file is determined byte for byte by its contents", "statement": "Every byte of a successfully written file follows from the dtype, the order, the kind of writer, the final shape and the encodings of the items: magic string, version, length field, dictionary text, number of spaces, line end, data. The machine's byte order and word size and the build's overflow checks do not enter. Equal files have equal dtype, order, shape and item encodings.", "quantifier": "every element type, dtype, order, kind of writer, list of values, machine, build, and earlier contents of the output", "why_tests_cant": "Tests compare a few files written on the machine at hand; independence of the machine and injectivity are about all pairs of runs.", "anchors": ["src/write.rs: write_header, create_dict, determine_required_version_and_pad_header, finish, finish_, shape_suffix_1d, shape_suffix_2d"]}
{"id": "C59", "title": "A file that cannot be opened is reported with its first defect", "statement": "When opening a file fails without a panic, the error is about the first defect of the file in reading order: magic string, version, completeness, UTF-8, Python syntax, dictionary, keys, fortran_order, shape (its first bad axis), descr (its first bad field, recursively, or the complaint of its type string), item size. The message is the one for that defect. Every file has at most one first defect, and a file with one is never accepted. The same for DType::parse.", "quantifier": "every sequence of bytes, machine and build; every string for DType::parse", "why_tests_cant": "All byte sequences and all nestings of records; which of several defects is reported is decided by the order of checks in eight functions.", "anchors": ["src/header.rs: from_descr (84-91), parse (95-98), convert_* (121-194), read_magic_and_version, read_header, parse_header_text_to_io_result", "src/read.rs: NpyHeader::from_reader, from_parts, DictExt expect_key"]}
{"id": "C60", "title": "A value that cannot be stored is refused with the reason and leaves a known prefix", "statement": "write_one fails exactly if some scalar in the value is too long for its field, is raw data of another length, or has a code unit above 0x10FFFF. The error names the first such scalar's length (or unit) and type string; the output then holds exactly the encodings of everything before it, plus the part of that scalar that precedes the complaint (nothing, or for UTF-32 the units that were fine). A value is storable or has exactly one such reason. The number in the message about a too long string exceeds the size of the type.", "quantifier": "every element type, nesting of arrays and records, dtype, value, machine", "why_tests_cant": "All values and nestings; the bytes left behind by a failed write and the text of the message depend on the position of the first bad scalar.", "anchors": ["src/serialize/slice.rs: write_one of BytesWriter, Utf32Writer, Utf32CharWriter, Utf32StrWriter, Utf8StrWriter (46-79, 612-705)", "src/serialize/array_member.rs: write_one", "derive/src/lib.rs: write_one"]}
{"id": "C61", "title": "An item that cannot be read is refused with the reason after a known number of bytes", "statement": "read_one reports invalid data exactly if, in reading order, there is a bool other than 0 or 1, a code unit that the type does not allow, or text that is not UTF-8; the message names the first of them and exactly the bytes up to and including it have been consumed. It reports an unexpected end exactly if the input is shorter than an item and has no such defect, and has then consumed everything. The bytes of an item have a value or exactly one such defect.", "quantifier": "every element type, nesting, dtype, input, machine", "why_tests_cant": "All inputs of every length and all nestings; how far a stream has advanced after an error depends on the position of the defect.", "anchors": ["src/serialize/primitive.rs: read_one of bool (81-88)", "src/serialize/slice.rs: read_one, read_codepoint, read_char, invalid utf-8 (324-453)", "src/serialize/array_member.rs: read_one", "derive/src/lib.rs: read_one"]}
{"id": "C62", "title": "A refused dtype is refused with its reason in words", "statement": "When the items of a file are asked for as a type that does not accept its dtype, into_vec and NpyData::from_bytes fail with the text that describes the first thing wrong with the dtype (objects first, then outside before inside, fields in order), naming the Rust type, the verb, the type string or the dtype, the lengths or the names involved, and read nothing. Starting to write such a dtype fails with the corresponding text. There is such a text exactly if the type is refused, and a text about field names determines all the names.", "quantifier": "every type, dtype, file, machine", "why_tests_cant": "All nestings of types and dtypes and all names, with characters that need escapes.", "anchors": ["src/serialize/traits.rs: DTypeError, Display (201-303)", "src/serialize/mod.rs: expect_scalar_dtype", "src/serialize/slice.rs: check_byte_vec_dtype and the readers and writers", "src/serialize/array_member.rs: array_inner_dtype", "src/read.rs: into_vec, from_bytes", "src/write.rs: _begin"]}
{"id": "C63", "title": "An array or a sparse matrix that cannot be read whole is refused with its first defect", "statement": "Opening a file and reading all of its items fails with an error exactly if that error is the file's first defect: of its header, then of its dtype for the type asked for, then of its items in storage order (an item with an unreadable scalar, or the end of the data before the item is complete). Reading a sparse matrix fails with an error exactly if the parts before some part (format, shape, index arrays, data, in this order) are in order and the error is the first defect of that part: missing, unopenable, of the wrong number of axes, of another format, of a dtype that is no index type, in Fortran order (two or three axes only), of a refused dtype, of unreadable items, of a shape that is not a pair. The messages name the array, the numbers, the dtype and the format involved. There is at most one such error, and every archive represents a matrix, has such an error, or makes the reader panic.", "quantifier": "every byte string, element type, archive, machine (item strings that fit into memory)", "why_tests_cant": "All archives, including ones with several defects at once; which of them is reported and in what words is a statement about every combination.", "anchors": ["src/read.rs: NpyFile::into_vec, data, try_data", "src/sparse.rs: from_npz (240-314), show_format, expect_format, extract_* (316-403)", "src/npz.rs: by_name"]}
{"id": "C64", "title": "Every use of a writer has one result and leaves one file", "statement": "On an output that takes everything: starting a writer fails exactly if the dtype is refused, with the message, and leaves a header. Otherwise every push stores the value's encoding, or what comes before its first defect and reports that defect; finishing succeeds exactly if the number of pushes (failed ones included) fits the shape, fails with the numbers otherwise, and panics for rows of no items; dropping the writer does the same to the file without reporting the count. The file left behind is, byte for byte, the header with the final shape (or, if there is none, with twenty stars for the unknown dimension) and what the pushes stored, in place of what the output had there, with the position after it. Writing a list at once is the same up to and including the first value that cannot be stored.", "quantifier": "every type, dtype, order, kind of writer, list of values of the type, ending, starting contents and position of the output, machine; shapes whose product fits 64 bits and headers below 65000 bytes", "why_tests_cant": "All histories of storable and unstorable values, and every byte of every file.", "anchors": ["src/write.rs: _begin, push, extend, finish_, finish, Drop (476-561, 631-635)", "src/write.rs: write_header, create_dict, shape suffixes (564-715)"]}
{"id": "C65", "title": "Every sequence of calls on a reader has one history, errors included", "statement": "What a reader says to any sequence of next, seek_to, read_at, len and size_hint is determined by the number of the next item and the position of the source: an item is read where the source is and uses up its bytes, the bytes up to its first unreadable scalar, or everything that is left; the number of the item goes up by one in each case; seeking moves the source by the size of an item for each item between, panics beyond the last item and fails if that would be before the start of the source. Errors carry the message that belongs to the bytes. So the source never gets ahead of the item number and never catches up again; it falls behind only by errors. If every broken item is found out by its last byte, the calls see the items of a complete file.", "quantifier": "every file (complete or not), element type, sequence of calls of any length, machine; positions below 2^63 and strings that fit into memory", "why_tests_cant": "All interleavings of calls after any number of errors, on every file.", "anchors": ["src/read.rs: NpyReader::next (559-566), seek_to (422-440), read_at (447-453), len, size_hint (401-408, 568-575)"]}
{"id": "C66", "title": "Types with a capacity behave as the unlimited ones wherever they are large enough", "statement": "ArrayVec<u8,N>, ArrayVec<u32,N>, ArrayVec<char,N> and ArrayString<N> are accepted for the same dtypes as Vec<u8>, Vec<u32>, Vec<char> and String, and read every input with the same value or the same error and the same bytes left, if the dtype's strings are no longer than the capacity (for raw data: exactly as long), also inside arrays and records and for whole files. Values are written to the same bytes or the same error as those of the unlimited type, whatever the capacity. The room is needed: for every longer dtype there is an item that the two types read differently.", "quantifier": "every type built from these, dtype, input of any length, value, machine; strings that fit into memory", "why_tests_cant": "All capacities, dtypes and inputs at once, including broken inputs.", "anchors": ["src/serialize/slice.rs: impls behind the arrayvec feature (78-160, 287-320, 387-452, 532-600)", "src/type_matchup_docs.rs"]}
{"id": "C67", "title": "Members of records and elements of array members are at the places numpy puts them", "statement": "A nested Rust array [[T; n_k]..; n_1] is accepted exactly for the dtype of a member of shape (n_1, .., n_k) whose elements T is accepted for. It reads successfully exactly if each element reads, and the element with index (i_1, .., i_k) is the one read from the bytes at its row-major position; writing puts each element there. The k-th member of a record is read from and written to the bytes after those of the members before it.", "quantifier": "every shape of any number of axes, element type, dtype, bytes, values, machine; strings that fit into memory", "why_tests_cant": "Any number of axes, any axis lengths, any element type.", "anchors": ["src/serialize/array_member.rs: impls for [T; N] (13-110)", "src/type_matchup_docs.rs (185-197)", "derive/src/lib.rs: read_one and write_one of records"]}
{"id": "C68", "title": "Default dtypes are the documented ones", "statement": "AutoSerialize::default_dtype gives integers, floats, complex numbers and bool their type codes and sizes in the byte order of the machine (no order for single bytes and bool), `UN` for ArrayVec<u32, N> and ArrayVec<char, N>, `SN` for ArrayString<N>, and arrays and records member by member; it never panics and is missing exactly for types with a part that is a Vec, String, ArrayVec<u8, N> or FixedSizeBytes (for the last the documentation promises `VN`).", "quantifier": "every type of any nesting, every machine", "why_tests_cant": "Unbounded nesting of types; the absence of panics for all of them.", "anchors": ["src/serialize/traits.rs: AutoSerialize", "src/serialize/primitive.rs (212-216, 289-293)", "src/serialize/slice.rs (813-834)", "src/serialize/array_member.rs (61-66)", "derive/src/lib.rs (189-196)", "src/type_matchup_docs.rs (76-86)"]}
{"id": "C69", "title": "Buffering changes neither the file nor whether it succeeded", "statement": "Writing through a BufWriter (as OutFile and to_file do), or any other buffer that passes bytes on in order, leaves the same file as writing directly, also if the file stops working at any point; finish succeeds exactly when it would without the buffer, so after a success the complete file is on the disk; and if the program is killed and the buffer lost, the file is one that an unbuffered writer leaves when stopped earlier.", "quantifier": "every buffering policy and size, every type, dtype, order, kind of shape and list of values, every point where the file stops or the program is killed", "why_tests_cant": "All combinations of buffer sizes, values and points of failure; errors appear late, in a flush or seek.", "anchors": ["src/write.rs (396-403, 449-473, 476-561, 631-635, 689-713, 717-788)"]}
{"id": "C70", "title": "An error of the source is passed on and no data is made up", "statement": "If the io::Read under the reader returns an error (other than Interrupted, which is retried, and UnexpectedEof) after k bytes, NpyFile::new gives that same error if k lies within the header and the header of the file otherwise; into_vec gives that error if k lies within what it would read, and otherwise all the items, never a part of them; iterating gives the k / item size items that arrived whole, then the error. In general the error is what the caller gets exactly if the bytes before it do not already settle the result.", "quantifier": "every file, item type, dtype, point of failure, error, division of the bytes into chunks and interruptions, continuation of the source", "why_tests_cant": "All places of failure within all files, for every way the source cuts its bytes.", "anchors": ["src/read.rs:219-222,303-323,555-566", "src/header.rs:260-300"]}
{"id": "C71", "title": "Iterating on after an error of the source gives the items of the file", "statement": "If next returns an error of the source after k bytes of data and the caller goes on calling next, while the source goes on where it was, then the further values are the items of the file, in order. (False: the index is advanced and the bytes already taken are lost, so the items are cut from byte k on. Proved: exactly that; if k is a multiple of the item size the further values are the items from the failed one on except the last; however the source and the caller go on, at least one item is never delivered.)", "quantifier": "every file of decodable items, point of failure, continuation of the source, number of calls", "why_tests_cant": "A test sees one place of failure; at a boundary between items everything but the end looks right.", "anchors": ["src/read.rs:182-187,555-566"]}
{"id": "C72", "title": "Readers over seekable sources that fail: failed moves do no harm, failed reads displace everything after them", "statement": "What a reader over an io::Read + io::Seek source answers to any calls, and where it and the source are afterwards, when any read and any seek may fail, is exactly described by S_Flaky.v: every such history is caused by some source and every source causes one. In particular the calls that met a failed seek might as well not have been made; after a next that met a failed read, every item got by read_at is taken from before its place in the file, however the caller moves about in between. (So read_at(i) need not give item i, which is refuted as C72_read_at_refuted.)", "quantifier": "every file, type, dtype, sequence of calls, pattern of short reads, interruptions, failed reads and failed seeks", "why_tests_cant": "All patterns of failures and all sequences of calls.", "anchors": ["src/read.rs:401-454", "src/read.rs:555-566"]}
{"id": "C73", "title": "Writing a sparse matrix: exact outcome, and the documented panics", "statement": "Writing any sparse matrix to an output that takes everything adds all arrays of its format but the data, whole; then either adds the data array, every byte of which is determined, and succeeds, or panics; never an error. It panics exactly if the assertions of the format, computed in usize arithmetic, fail; what it then leaves behind cannot be read as a matrix unless an array named data was there before. The documented panics (DIA data not a multiple of the offsets, BSR data not equal to blocks times blocksize) always happen. (The last is false where overflow wraps: then a BSR matrix of too few data may be written without complaint; proved: with overflow checks or without overflow they happen; a matrix of too few data whose shape does not overflow u64 is unreadable on every machine.)", "quantifier": "every matrix of every format (no relation between its sequences assumed), every item type with a default dtype, every earlier content of the archive, 32 and 64 bits, checked and wrapping arithmetic", "why_tests_cant": "All inconsistent matrices; the wrapping products need blocks of more than 2^32 items.", "anchors": ["src/sparse.rs:405-613"]}
{"id": "C74", "title": "The derive macros implement the traits for every struct with named fields", "statement": "Deriving Serialize, Deserialize or AutoSerialize on a struct with named fields whose types implement the trait gives an implementation. It compares the record's field names with the names of the struct's fields, raw identifiers without r#, in order; reads and writes the members in the order of declaration, each with the reader or writer of its own type made from its own field's dtype; and no unwrap in it fails. Enums, unions and tuple structs with fields are refused.", "quantifier": "every struct declaration (any number of fields, any distinct names, raw or not, any types), every dtype, every value, every input", "why_tests_cant": "the names of the fields are arbitrary, and some clash with variables of the generated function; tests use a handful of names", "anchors": ["derive/src/lib.rs:58-76", "derive/src/lib.rs:79-199", "derive/src/lib.rs:201-240", "derive/src/lib.rs:275-277"]}
{"id": "C75", "title": "Element types implemented outside npyz", "statement": "npyz's reading and writing is generic over Deserialize and Serialize. For a caller's type whose reader takes, for every item, exactly the bytes the dtype says (returning a value or an error), every history of next, seek_to, read_at, len and size_hint calls on an NpyReader sees the list of the results with a position in it, and into_vec returns the values or the first error; into_vec with any reader at all is one call per item, each going on where the last stopped. A file written with any caller's writer consists of the header for the pushed items followed by exactly what the writer put out, and reads back to what the reader says to those bytes. A struct deriving the traits over such field types behaves so itself, and accepts only records with its field names in its order. The types npyz provides are an instance. Without the condition on the number of bytes, read_at and iteration disagree.", "quantifier": "all element types (any reader function, any writer program), all dtypes, files, machines, histories of calls, item lists, shapes and orders", "why_tests_cant": "the type parameter ranges over all implementations of the two traits; tests/roundtrip.rs has one (Vector5)", "anchors": ["src/read.rs:182-187", "src/read.rs:303-320", "src/read.rs:401-453", "src/read.rs:559-575", "src/write.rs:396-403", "src/write.rs:476-510", "src/serialize/traits.rs:33-138", "derive/src/lib.rs:92-176", "tests/roundtrip.rs:51-110"]}
{"id": "C76", "title": "Writers over outputs whose calls fail now and then", "statement": "An output may fail at some calls (a write after some of its bytes, a seek, a flush) and work again later. Whichever calls fail, what the calls of a writing session return and what bytes they leave is one of a list of outcomes, and every one of them can happen: the beginning stopped (a proper part of the header is left), pushes stopped before the end of their bytes and counted all the same, an ending that changed the header up to some place. Without failures this is the ordinary writer. If every push and finish returned Ok, the file is whole, even if calls failed while the writer was dropped. If a push was stopped, no reader reads the finished file as a whole. If no push failed, the file is refused or read as what was pushed, however often and wherever beginning and ending failed. After finish returned Ok the output stands behind the file. A push that failed may be repeated.", "quantifier": "all plans of failures, element types, dtypes, orders, shapes, item lists, outputs and positions in them, machines", "why_tests_cant": "the plans of failures are an infinite family (every call, every number of bytes); the tests write to memory and never fail", "anchors": ["src/write.rs:330-403", "src/write.rs:476-561", "src/write.rs:630-635"]}
{"id": "C77", "title": "Files written by NumPy", "statement": "A file that NumPy writes (numpy.save: dtype.str or dtype.descr and a shape printed by Python's repr, a header in version 1, 2 or 3, any amount of padding) opens with the dtype, shape and order NumPy meant and its items are read as NumPy stored them, unless its dtype has titles, times without units or in multiples of units, or long doubles of twelve bytes; those are an error.", "quantifier": "all NumPy dtypes nested to any depth, names, shapes, orders, versions, paddings, data, element types, notions of printable character, machines", "why_tests_cant": "the tests read eight files made by NumPy; names, nestings and shapes are unbounded", "anchors": ["src/header.rs:145-242", "src/type_str.rs:475-528", "src/read.rs:150-260"]}
{"id": "C78", "title": "NumPy reads the files npyz writes", "statement": "Every file npyz writes is loaded by NumPy (numpy/lib/format.py: the header a Python literal, a dictionary of the three keys, descr_to_dtype) with the dtype, order, shape and data that were written; and any file that both NumPy loads and npyz opens, in version 3 or with an ASCII header, means the same to both.", "quantifier": "all dtypes nested to any depth, names, shapes, orders, kinds of writer, items, machines; all files", "why_tests_cant": "the tests never run NumPy on a file npyz wrote; names, nestings and shapes are unbounded", "anchors": ["src/header.rs:58-83", "src/header.rs:313-340", "src/write.rs:564-700"]}
{"id": "C79", "title": "One file seen through different Rust types", "statement": "Two Rust types that both read an item (or a file) see the same contents: equal numbers, strings of the same bytes or of the same code points, arrays and structs element by element, if the capacities of arrayvec types suffice; a type that asks less of strings reads whatever a stricter one reads; and data read with one type and written with another with the same contents is, byte for byte, the data of the original: the copy of a file npyz wrote is that file.", "quantifier": "all pairs of types nested to any depth, dtypes, items, files, orders, kinds of writer, and machines (also different ones for reading and writing)", "why_tests_cant": "the tests read every file with one type; pairs of types, nestings and contents are unbounded", "anchors": ["src/serialize/slice.rs:14-750", "src/serialize/array_member.rs:29-89", "src/serialize/primitive.rs:24-300", "src/read.rs:303-310"]}
{"id": "C80", "title": "Headers do not depend on how py_literal reads odd Python", "statement": "With any parser of Python literals in the place of the py_literal crate: a file opens exactly if the parser gives a dictionary that says a dtype, a shape and an order, with the numbers that follow from these; nothing panics but the parser and overflow checks; a refusal is reported with the parser's explanation; bytes, floats and complex numbers are treated as None. If only the parser reads the literals of the documented grammar as what they denote, every file the model opens opens as the same file, and files npyz writes are read back.", "quantifier": "all parsers (functions from texts to literals, refusals or crashes), all files, machines, dtypes and values", "why_tests_cant": "the tests run one version of one parser on a handful of texts", "anchors": ["src/header.rs:84-98", "src/header.rs:143-242", "src/read.rs:340-366"]}
{"id": "C81", "title": "Any number of values, also more than the writer's counter counts", "statement": "For every list of values, however long: in builds with checked arithmetic the push after the first 2^64 - 1 panics without writing, and the file left behind is the finished file of those values; in builds with wrapping arithmetic the header says the number of values modulo 2^64, finishing succeeds exactly if that number fits the shape, and the file reads as that many of the first values. That a growing file has the length of what was pushed (C08) is false for 2^64 values in wrapping builds.", "quantifier": "all lists of values without bound on their number, element types, dtypes, orders, kinds of writer, outputs that do not fail, machines, both ways to build", "why_tests_cant": "no test pushes 2^64 values", "anchors": ["src/write.rs:502-505", "src/write.rs:508-550", "src/write.rs:559-561", "src/write.rs:631-635"]}
{"id": "C82", "title": "Writing through a BufWriter to an output that fails now and then", "statement": "For every buffer size, every division of items into write_all calls and every choice of calls on the output that fail (some bytes taken or none): the results and the bytes left are among those of a short list: before the pushes are over the file is the beginning of the unfinished one; after that it is the beginning of the unfinished file with the data of the pushes (an item whose push failed because of the output is there in part or not at all), or that file with the header changed up to some place; if finish returned Ok it is the finished file. All pushes and finish Ok means the file is there byte for byte. If a push failed no reader reads the file as a whole. If none failed the file is refused or read as what was pushed. With items in one piece smaller than the buffer, failed pushes leave nothing. A buffer of size 0 is no buffer; while no call fails none shows. That data are in the file whenever no call returned an error is false without finish.", "quantifier": "all buffer sizes, divisions of items into pieces, plans of failures, element types, dtypes, orders, kinds of writer, values, endings, outputs already holding data, machines", "why_tests_cant": "the file on disk depends on which of the calls hidden inside the buffer fails, after how many bytes, and on the state of the buffer at that point", "anchors": ["src/write.rs:449-473", "src/write.rs:502-561", "src/write.rs:631-635", "src/write.rs:701-713"]}
{"id": "C83", "title": "A sparse matrix written to an archive whose output gives out", "statement": "For every matrix, archive and amount of output that is accepted: writing the matrix has the result and leaves the entries it would without a limit; or, only if the limit is below what the entries need, it returns the error of the output and leaves the first of these entries whole, not all of them, and possibly one more of which at least a byte is missing. Unless the write returned Ok, no machine reads a matrix of any format and type from the archive (if no older entries had the same names); if the archive was empty before, every reader returns an error and none panics. If it returned Ok the matrix is read back. That this holds over an older matrix in the same archive is false: a mixture of both is read.", "quantifier": "all matrices of the five formats (sound or not), element types, archives, limits on the output, writing and reading machines, types and formats asked for by the reader", "why_tests_cant": "the output can give out at any byte of any of the arrays, and what is left must be refused by every reader", "anchors": ["src/sparse.rs:240-326", "src/sparse.rs:336-403", "src/sparse.rs:421-613", "src/npz_feature.rs:86-89", "src/write.rs:502-550", "src/write.rs:631-635"]}
{"id": "C84", "title": "Arrays saved to an archive whose output gives out", "statement": "For every list of values to be saved under names with shapes (each writer finished or just dropped; also such as are refused), archive and amount of output that is accepted: saving them one after another has the result and leaves the entries it would without a limit; or, only if the limit is below what the entries need, it returns the error of the output and leaves the first of these entries whole and at most a beginning of the next one. If all of them are arrays that can be written, then after such an error every other name leads to what it would after saving only these first arrays; the name of the next one leads to what it did before, or to an error or a file of which no type of value can read all, or to the whole array, the last only if its writer was finished and its flush failed. Under different names every array saved before the failure is read back. That an error means that the array is not there is false, and an older array of the same name is lost.", "quantifier": "all lists of arrays, shapes, types, dtypes and values, archives, limits on the output, writing and reading machines, names looked up and types asked for by the reader", "why_tests_cant": "the output can give out at any byte of any of the arrays, whose number, types and contents are unbounded", "anchors": ["src/npz_feature.rs:42-50", "src/npz_feature.rs:86-89", "src/write.rs:502-561", "src/write.rs:631-635"]}
{"id": "C85", "title": "Looking up a name in any archive", "statement": "For every archive, also one with entries that zip cannot open, that are not arrays or that share a name: looking up a name gives nothing exactly if no entry has the array's file name; an array exactly if the last such entry can be opened and its bytes are a file of that array; an error exactly if zip cannot open that entry (its own error or message) or its bytes have this first defect; a panic exactly if opening these bytes panics. The names listed are those of the paths that count as arrays; if no path has a NUL character each is listed once and they are exactly the names under which there is something. With NUL characters this is false.", "quantifier": "all archives (any entries, paths, bytes and zip errors), names, machines, types asked for", "why_tests_cant": "archives come from elsewhere: paths, order, duplicates, damage and contents are unbounded", "anchors": ["src/npz_feature.rs:35-37", "src/npz_feature.rs:42-50", "src/npz_feature.rs:58-60", "src/npz.rs:31-52"]}
{"id": "C86", "title": "Damaged archive entries are refused", "statement": "Reading an array out of an archive entry whose checksum does not agree with its bytes ends with an error. (False of the code: the reader asks for exactly the bytes the header promises and never for the end of the entry, where zip compares the checksum. Proved instead: the error is reported exactly if the bytes of the entry do not settle the result of the read; an entry whose damaged bytes still are a whole array is read as if it were intact, at once or item by item.)", "quantifier": "all entries (bytes, pieces in which they arrive, checksum right or wrong), read programs, types asked for, machines", "why_tests_cant": "damage can be anywhere and any change of bytes; the cuts at which a decompressor delivers them are not under a test's control", "anchors": ["src/npz_feature.rs:42-50", "src/read.rs:303-308", "src/read.rs:559-566", "src/header.rs:265-268"]}
{"id": "C87", "title": "Sparse matrices in archives with entries that cannot be opened", "statement": "If zip cannot open the entry of an array of the format asked for, reading the matrix fails: with zip's error (its own, or its message) if the arrays looked at before it are those of some matrix, and otherwise with what is wrong with those, whatever else the archive holds. A matrix is never read from an archive with such an array. If all arrays of the format can be opened the result is that for the plain archive, and no other entry plays a part. The reader that finds out the format itself gives a matrix exactly when the reader of that matrix's format gives it, and reports an array that cannot be opened in the same way.", "quantifier": "all archives (any entries, paths, bytes and zip errors), formats, element types, machines", "why_tests_cant": "which entries are damaged, where they stand and what else is in the archive is unbounded; zip's errors are hard to provoke one by one", "anchors": ["src/sparse.rs:240-314", "src/sparse.rs:328-403", "src/npz_feature.rs:42-50", "src/npz_feature.rs:58-60"]}
{"id": "C88", "title": "What reading a file demands of memory is in proportion to the file", "statement": "The buffers made while a file is opened and its items are read are together no larger than the file up to a constant, and no more items are read than the file has bytes. (False of the code; proved are the bounds that do hold: all buffers but the last are filled, opening makes at most three of less than 4 GiB each and of less than 64 KiB in version 1, the buffers of an item are together no larger than the item, and the items at their size in the file are no larger than the file.)", "quantifier": "all byte strings, element types, dtypes, machines", "why_tests_cant": "no test can try every hostile header, and a test of the violation would need gigabytes of memory or 2^64 steps", "anchors": ["src/header.rs:222-231", "src/header.rs:249-274", "src/serialize/slice.rs:23-32", "src/serialize/slice.rs:89-102", "src/read.rs:303-308"]}
{"id": "C89", "title": "The stack for a type description is its nesting", "statement": "DType::from_descr calls itself once per level of records: with room for n nested calls a description that is in order is read exactly if its DType is nested at most n deep, and the result is the same as without a limit. As many calls as the header text has bytes always suffice. No fixed number suffices: for every n up to 10^8 there is a file of at most 12n+200 bytes that needs more, and is otherwise in order. The same holds of DType::num_bytes, with arrays counted as levels and 2n+200 bytes. The DType of a file is made of no more types than its preamble has bytes.", "quantifier": "all header texts, values, DTypes and stack sizes", "why_tests_cant": "nesting is unbounded, and a test that exhausts the stack ends the test process", "anchors": ["src/header.rs:84-91", "src/header.rs:116-126", "src/header.rs:143-172", "src/header.rs:222-247"]}

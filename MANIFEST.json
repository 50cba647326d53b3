{
 "claims": [
  {
   "property": "C01",
   "status": "proved",
   "theorems": [
    "C01_type_str_printed",
    "C01_type_str_round_trip",
    "C01_type_str_print_parse",
    "C01_type_str_one_spelling"
   ],
   "note": ""
  },
  {
   "property": "C02",
   "status": "proved",
   "theorems": [
    "C02_type_str_parse_exact",
    "C02_type_str_parse_total",
    "C02_type_str_error_kind"
   ],
   "note": ""
  },
  {
   "property": "C03",
   "status": "proved",
   "theorems": [
    "C03_text_exact",
    "C03_descr_source",
    "C03_dtype_round_trip",
    "C03_grammar",
    "C03_parse_print_parse"
   ],
   "note": ""
  },
  {
   "property": "C04",
   "status": "proved",
   "theorems": [
    "C04_header_round_trip"
   ],
   "note": ""
  },
  {
   "property": "C05",
   "status": "proved",
   "theorems": [
    "C05_header_is_dictionary",
    "C05_dictionary_exact",
    "C05_header_conforms",
    "C05_header_text"
   ],
   "note": ""
  },
  {
   "property": "C06",
   "status": "partial",
   "theorems": [
    "C06_panic_exact",
    "C06_no_panic_partial",
    "C06_no_panic_refuted"
   ],
   "note": "The claim is false of the code (SAFE_U16_CUTOFF is 0xffff_fc00): C06_no_panic_refuted gives a witness, C06_panic_exact says exactly which headers panic, C06_no_panic_partial is the part that holds."
  },
  {
   "property": "C07",
   "status": "proved",
   "theorems": [
    "C07_round_trip",
    "C07_succeeds"
   ],
   "note": "Partial correctness for every output (C07_round_trip) and success on outputs that do not fail (C07_succeeds); shapes without overflow (see C28)."
  },
  {
   "property": "C08",
   "status": "proved",
   "theorems": [
    "C08_round_trip",
    "C08_succeeds"
   ],
   "note": "C08_round_trip for every output and start position, C08_succeeds for outputs that do not fail."
  },
  {
   "property": "C09",
   "status": "proved",
   "theorems": [
    "C09_round_trip",
    "C09_result"
   ],
   "note": "Record length 0 is C47."
  },
  {
   "property": "C10",
   "status": "proved",
   "theorems": [
    "C10_only_header",
    "C10_surroundings"
   ],
   "note": ""
  },
  {
   "property": "C11",
   "status": "proved",
   "theorems": [
    "C11_once"
   ],
   "note": ""
  },
  {
   "property": "C12",
   "status": "partial",
   "theorems": [
    "C12_count_exact",
    "C12_overflow_refuted"
   ],
   "note": "C12_count_exact: exact for every shape modulo 2^64; with checked arithmetic exact without exception. With wrapping arithmetic the unconditional claim is false: C12_overflow_refuted."
  },
  {
   "property": "C13",
   "status": "proved",
   "theorems": [
    "C13_sequential",
    "C13_header_only",
    "C13_no_panic"
   ],
   "note": ""
  },
  {
   "property": "C14",
   "status": "partial",
   "theorems": [
    "C14_1d",
    "C14_2d_fortran",
    "C14_2d_c_digits_partial",
    "C14_2d_c_partial",
    "C14_2d_c_safe_partial",
    "C14_2d_c_mistaken",
    "C14_2d_c_exact",
    "C14_2d_c_refuted"
   ],
   "note": "Fully proved for 1-D and for 2-D Fortran order, at every crash point (C14_1d, C14_2d_fortran). For 2-D C order false in general (C14_2d_c_refuted: a 17-digit row length and a crash 20 bytes into the patch open as a 3-D file), and characterised exactly: C14_2d_c_exact says that every crash point is harmless if and only if the numbers of rows and columns are not `mistakable` (which needs at least 18 digits together), so in particular it holds whenever items and columns are below 10^16 (C14_2d_c_partial). The output is appended to (position at the end of the stream) and all pushed values are encodable."
  },
  {
   "property": "C15",
   "status": "partial",
   "theorems": [
    "C15_exact",
    "C15_truncated_partial",
    "C15_after_error_refuted"
   ],
   "note": "C15_truncated_partial: for every complete file and every cut, opening fails or gives the same header, iterating never gives a wrong item, every history is right up to its first error, into_vec fails. False for seeks after an unexpected end of file: C15_after_error_refuted. C15_exact: after errors it holds exactly for the types whose items are all one value."
  },
  {
   "property": "C16",
   "status": "proved",
   "theorems": [
    "C16_read_consumes",
    "C16_write_produces",
    "C16_read_no_panic",
    "C16_write_no_panic",
    "C16_read_panics_refuted",
    "C16_write_panics_refuted",
    "C16_read_typed"
   ],
   "note": ""
  },
  {
   "property": "C17",
   "status": "proved",
   "theorems": [
    "C17_only_bytes",
    "C17_written",
    "C17_layout",
    "C17_machines_agree",
    "C17_readers_agree"
   ],
   "note": ""
  },
  {
   "property": "C18",
   "status": "proved",
   "theorems": [
    "C18_read_written",
    "C18_read_written_same"
   ],
   "note": ""
  },
  {
   "property": "C19",
   "status": "proved",
   "theorems": [
    "C19_numeric_total",
    "C19_numeric_injective",
    "C19_bool"
   ],
   "note": ""
  },
  {
   "property": "C20",
   "status": "proved",
   "theorems": [
    "C20_reader_accepts",
    "C20_writer_accepts"
   ],
   "note": ""
  },
  {
   "property": "C21",
   "status": "proved",
   "theorems": [
    "C21_write_byte_string",
    "C21_write_raw",
    "C21_write_unicode",
    "C21_write_fails"
   ],
   "note": ""
  },
  {
   "property": "C22",
   "status": "proved",
   "theorems": [
    "C22_read_bytes",
    "C22_read_raw",
    "C22_read_fixed",
    "C22_read_string",
    "C22_read_unicode"
   ],
   "note": ""
  },
  {
   "property": "C23",
   "status": "partial",
   "theorems": [
    "C23_array_string",
    "C23_array_bytes",
    "C23_array_units",
    "C23_cut_then_trim",
    "C23_longest_prefix_refuted"
   ],
   "note": "ArrayString: exactly the longest whole-character prefix. ArrayVec<u8/u32/char>: exactly trim(cut(item)), which is the longest prefix unless the cut falls behind an interior NUL; there the claim is false (C23_longest_prefix_refuted)."
  },
  {
   "property": "C24",
   "status": "partial",
   "theorems": [
    "C24_read_raw_partial",
    "C24_read_raw_refuted"
   ],
   "note": "The claim is false of the code for M < N (C24_read_raw_refuted); C24_read_raw_partial gives the exact result (the M bytes padded with N-M zeros), so it holds exactly for M = N."
  },
  {
   "property": "C25",
   "status": "proved",
   "theorems": [
    "C25_refused",
    "C25_only_those",
    "C25_header_readable"
   ],
   "note": ""
  },
  {
   "property": "C26",
   "status": "proved",
   "theorems": [
    "C26_num_bytes",
    "C26_open_too_big",
    "C26_open_item_size"
   ],
   "note": ""
  },
  {
   "property": "C27",
   "status": "proved",
   "theorems": [
    "C27_strides_position",
    "C27_strides_bijection",
    "C27_no_overflow_nonempty"
   ],
   "note": ""
  },
  {
   "property": "C28",
   "status": "proved",
   "theorems": [
    "C28_numbers_exact",
    "C28_panics_exactly",
    "C28_len_is_product",
    "C28_overflow_panics",
    "C28_len_is_product_refuted",
    "C28_empty_array_panics_refuted"
   ],
   "note": "Holds without overflow; the unconditional claim is refuted (C28_len_is_product_refuted: wrap-around in builds without overflow checks; C28_empty_array_panics_refuted: panic on an empty array in builds with them)."
  },
  {
   "property": "C29",
   "status": "proved",
   "theorems": [
    "C29_file_exact",
    "C29_histories",
    "C29_whole_array",
    "C29_huge_refuted",
    "C29_huge_string_refuted"
   ],
   "note": "Hypothesis addressable: data ends below byte 2^63 and, with checked arithmetic, fewer than 2^63 items. C29_huge_refuted shows what happens without it."
  },
  {
   "property": "C30",
   "status": "partial",
   "theorems": [
    "C30_exact",
    "C30_late_exact",
    "C30_total_exact",
    "C30_histories_partial",
    "C30_until_error",
    "C30_refuted"
   ],
   "note": "C30_exact: the claim holds of a type and a dtype exactly if only the last part of an item can be wrong (late). C30_histories_partial: holds for numeric types, bool, byte strings (whole item read before validation). False for U strings of two or more characters, arrays and structs with a checked part before the end: C30_refuted. C30_until_error: for every type, right up to the first error."
  },
  {
   "property": "C31",
   "status": "proved",
   "theorems": [
    "C31_chunking_irrelevant",
    "C31_into_vec",
    "C31_header",
    "C31_same_as_file"
   ],
   "note": ""
  },
  {
   "property": "C32",
   "status": "partial",
   "theorems": [
    "C32_exact",
    "C32_cut_strings",
    "C32_short_file",
    "C32_every_push_counts",
    "C32_refuted"
   ],
   "note": "The claim is false of the code: C32_every_push_counts (every call counts), C32_refuted (witness).  C32_exact: a finished file promises one item per push, and its data is as long as that promises if and only if every failed push stored a whole item; C32_cut_strings: of the plain types only over-long strings in U fields do; C32_short_file: otherwise the file is never read as a whole."
  },
  {
   "property": "C33",
   "status": "proved",
   "theorems": [
    "C33_last_wins",
    "C33_order_independent"
   ],
   "note": ""
  },
  {
   "property": "C34",
   "status": "partial",
   "theorems": [
    "C34_opens_exactly",
    "C34_panics_exactly",
    "C34_accepts_exactly",
    "C34_consumes_preamble",
    "C34_panics_only_on_overflow",
    "C34_allocation_same",
    "C34_allocation_64",
    "C34_allocation_panics",
    "C34_32bit_refuted",
    "C34_well_formed",
    "C34_parser_depth"
   ],
   "note": "Proved in full for machines with a 64-bit usize (C34_allocation_64). On 32-bit machines the claim is false: a header length beyond isize::MAX panics when the text buffer is allocated (C34_32bit_refuted); C34_allocation_same and C34_allocation_panics say exactly when."
  },
  {
   "property": "C35",
   "status": "proved",
   "theorems": [
    "C35_keys",
    "C35_functional",
    "C35_order",
    "C35_unknown_ignored",
    "C35_duplicate_last"
   ],
   "note": ""
  },
  {
   "property": "C36",
   "status": "proved",
   "theorems": [
    "C36_try_data",
    "C36_second_attempt"
   ],
   "note": ""
  },
  {
   "property": "C37",
   "status": "proved",
   "theorems": [
    "C37_agree",
    "C37_many_refuted",
    "C37_items",
    "C37_open",
    "C37_refuses",
    "C37_length_refuted"
   ],
   "note": "Hypothesis: the number of items fits usize (automatic unless items are zero-sized); C37_many_refuted shows what happens without it. C37_items covers buffers with undecodable items, C37_open wrong lengths; where size*count wraps (release builds) the length check is fooled: C37_length_refuted."
  },
  {
   "property": "C38",
   "status": "partial",
   "theorems": [
    "C38_hint_partial",
    "C38_after_exhaustion",
    "C38_refuted"
   ],
   "note": "C38_hint_partial: right for up to as many calls of next as there are items. After one more call it is wrong for every file (C38_after_exhaustion), so the unrestricted claim is refuted (C38_refuted)."
  },
  {
   "property": "C39",
   "status": "proved",
   "theorems": [
    "C39_round_trip",
    "C39_exact",
    "C39_no_suffix",
    "C39_injective",
    "C39_index",
    "C39_nul_refuted"
   ],
   "note": "C39_exact gives the exact relation between paths and names. C39_nul_refuted: the NUL condition in the statement is needed."
  },
  {
   "property": "C40",
   "status": "proved",
   "theorems": [
    "C40_lookup",
    "C40_other_names",
    "C40_missing",
    "C40_names",
    "C40_succeeds",
    "C40_nul_refuted"
   ],
   "note": "The zip crate is abstracted to a list of entries. array_names is compared up to order (Permutation), for names without NUL (C40_nul_refuted otherwise)."
  },
  {
   "property": "C41",
   "status": "partial",
   "theorems": [
    "C41_round_trip",
    "C41_layout",
    "C41_succeeds",
    "C41_bsr_rejected",
    "C41_bsr_refuted"
   ],
   "note": "Holds for every matrix whose BSR block count times block size does not overflow (C41_round_trip, C41_layout, C41_succeeds). False without that condition: C41_bsr_refuted (no blocks, huge blocksize)."
  },
  {
   "property": "C42",
   "status": "proved",
   "theorems": [
    "C42_width",
    "C42_unsigned",
    "C42_succeeds"
   ],
   "note": "For every sequence of i64 and every sequence of u64/usize."
  },
  {
   "property": "C43",
   "status": "partial",
   "theorems": [
    "C43_stored_shape",
    "C43_documented_only_square",
    "C43_layout_refuted",
    "C43_rejected",
    "C43_empty_refuted"
   ],
   "note": "Refuted: C43_layout_refuted, C43_empty_refuted. Exact stored shape: C43_stored_shape; documented layout only when square: C43_documented_only_square; exact panic condition: C43_rejected."
  },
  {
   "property": "C44",
   "status": "proved",
   "theorems": [
    "C44_reader_names",
    "C44_writer_names",
    "C44_concatenation"
   ],
   "note": ""
  },
  {
   "property": "C45",
   "status": "partial",
   "theorems": [
    "C45_swapped",
    "C45_sides_refuted"
   ],
   "note": "The claim is false of the code: expected and actual are swapped for every mismatch (C45_swapped), witness in C45_sides_refuted."
  },
  {
   "property": "C46",
   "status": "proved",
   "theorems": [
    "C46_default"
   ],
   "note": ""
  },
  {
   "property": "C47",
   "status": "partial",
   "theorems": [
    "C47_always_panics",
    "C47_refuted"
   ],
   "note": "The claim is false of the code: C47_always_panics (for every history), C47_refuted (witness)."
  },
  {
   "property": "C48",
   "status": "proved",
   "theorems": [
    "C48_utf8_exact",
    "C48_utf8_text",
    "C48_decimal",
    "C48_parse_number"
   ],
   "note": ""
  },
  {
   "property": "C49",
   "status": "proved",
   "theorems": [
    "C49_literal_exact",
    "C49_unambiguous",
    "C49_dtype_parse"
   ],
   "note": ""
  },
  {
   "property": "C50",
   "status": "proved",
   "theorems": [
    "C50_reads_exactly",
    "C50_typed_exactly",
    "C50_at_most_one",
    "C50_panics_exactly",
    "C50_typed_panics_exactly"
   ],
   "note": ""
  },
  {
   "property": "C51",
   "status": "proved",
   "theorems": [
    "C51_reader_error",
    "C51_writer_error",
    "C51_wrong_iff_refused",
    "C51_one_error",
    "C51_data_error"
   ],
   "note": ""
  },
  {
   "property": "C52",
   "status": "proved",
   "theorems": [
    "C52_fixed_leaves_header",
    "C52_empty_complete",
    "C52_otherwise_unreadable",
    "C52_growing_unopenable",
    "C52_untouched_refuted"
   ],
   "note": ""
  },
  {
   "property": "C53",
   "status": "proved",
   "theorems": [
    "C53_to_file",
    "C53_array_panics"
   ],
   "note": ""
  },
  {
   "property": "C54",
   "status": "proved",
   "theorems": [
    "C54_new",
    "C54_whole_array",
    "C54_histories",
    "C54_into_inner"
   ],
   "note": ""
  },
  {
   "property": "C55",
   "status": "proved",
   "theorems": [
    "C55_round_trip",
    "C55_surroundings",
    "C55_succeeds"
   ],
   "note": ""
  },
  {
   "property": "C56",
   "status": "proved",
   "theorems": [
    "C56_message_exact",
    "C56_display_total",
    "C56_one_message"
   ],
   "note": ""
  },
  {
   "property": "C57",
   "status": "proved",
   "theorems": [
    "C57_element_by_index",
    "C57_written_by_index"
   ],
   "note": ""
  },
  {
   "property": "C58",
   "status": "proved",
   "theorems": [
    "C58_opens",
    "C58_file_exact",
    "C58_unique",
    "C58_machine_independent",
    "C58_distinct"
   ],
   "note": ""
  },
  {
   "property": "C59",
   "status": "proved",
   "theorems": [
    "C59_first_defect",
    "C59_one_defect",
    "C59_type_defect",
    "C59_parse_defect"
   ],
   "note": ""
  },
  {
   "property": "C60",
   "status": "partial",
   "theorems": [
    "C60_unstorable_exact",
    "C60_unstorable_sound",
    "C60_one_fault",
    "C60_reported_length_refuted",
    "C60_reported_length_ascii"
   ],
   "note": "Proved except for the last sentence, which is false of the code: the message for byte strings counts characters while the limit is in bytes (C60_reported_length_refuted). It holds for ASCII text (C60_reported_length_ascii)."
  },
  {
   "property": "C61",
   "status": "proved",
   "theorems": [
    "C61_unreadable_exact",
    "C61_cut_exact",
    "C61_outcomes",
    "C61_one_fault"
   ],
   "note": ""
  },
  {
   "property": "C62",
   "status": "proved",
   "theorems": [
    "C62_text_exact",
    "C62_into_vec",
    "C62_from_bytes",
    "C62_iff_refused",
    "C62_begin",
    "C62_names"
   ],
   "note": ""
  },
  {
   "property": "C63",
   "status": "proved",
   "theorems": [
    "C63_file_exactly",
    "C63_one_defect",
    "C63_typed_exactly",
    "C63_sparse_exactly",
    "C63_or_represents",
    "C63_one_broken"
   ],
   "note": ""
  },
  {
   "property": "C64",
   "status": "proved",
   "theorems": [
    "C64_session_exactly",
    "C64_session_total",
    "C64_write_exactly",
    "C64_write_total",
    "C64_one_outcome"
   ],
   "note": ""
  },
  {
   "property": "C65",
   "status": "proved",
   "theorems": [
    "C65_exact",
    "C65_one_history",
    "C65_behind",
    "C65_in_order",
    "C65_seek_refuted"
   ],
   "note": ""
  },
  {
   "property": "C66",
   "status": "proved",
   "theorems": [
    "C66_reads",
    "C66_accepts",
    "C66_file",
    "C66_writes",
    "C66_written",
    "C66_needed"
   ],
   "note": ""
  },
  {
   "property": "C67",
   "status": "proved",
   "theorems": [
    "C67_accepts",
    "C67_values",
    "C67_reads",
    "C67_writes",
    "C67_member_read",
    "C67_member_written"
   ],
   "note": ""
  },
  {
   "property": "C68",
   "status": "proved",
   "theorems": [
    "C68_exact",
    "C68_missing",
    "C68_total",
    "C68_fixed_bytes_refuted"
   ],
   "note": ""
  },
  {
   "property": "C69",
   "status": "proved",
   "theorems": [
    "C69_same_code",
    "C69_same_file",
    "C69_success",
    "C69_same_results",
    "C69_on_disk",
    "C69_killed",
    "C69_killed_1d",
    "C69_std_buffer"
   ],
   "note": ""
  },
  {
   "property": "C70",
   "status": "proved",
   "theorems": [
    "C70_open",
    "C70_into_vec",
    "C70_iterate",
    "C70_exact",
    "C70_without_errors"
   ],
   "note": ""
  },
  {
   "property": "C71",
   "status": "partial",
   "theorems": [
    "C71_boundary_partial",
    "C71_from_the_error",
    "C71_never_all",
    "C71_refuted"
   ],
   "note": "The claim is false of the code (C71_refuted). Proved: exactly what later calls return (C71_from_the_error), the items but for the last at a boundary, at least one item always lost."
  },
  {
   "property": "C72",
   "status": "proved",
   "theorems": [
    "C72_exact",
    "C72_failed_moves",
    "C72_displaced",
    "C72_read_at_refuted"
   ],
   "note": ""
  },
  {
   "property": "C73",
   "status": "partial",
   "theorems": [
    "C73_exact",
    "C73_left_unreadable",
    "C73_documented_partial",
    "C73_wrapped_unreadable",
    "C73_documented_refuted",
    "C73_undocumented_refuted",
    "C73_mixed_refuted"
   ],
   "note": "The exact outcome is proved for every matrix. The documented panics are proved with overflow checks or without overflow (C73_documented_partial) and refuted where overflow wraps (C73_documented_refuted)."
  },
  {
   "property": "C74",
   "status": "partial",
   "theorems": [
    "C74_items",
    "C74_deserialize_partial",
    "C74_serialize_partial",
    "C74_reader",
    "C74_writer",
    "C74_auto",
    "C74_round_trip",
    "C74_any_struct_refuted"
   ],
   "note": "Exactly which structs can be derived is proved (C74_deserialize_partial, C74_serialize_partial); that all can is refuted (C74_any_struct_refuted). For those that can, generated code is proved the same as the struct types of the other theorems."
  },
  {
   "property": "C75",
   "status": "proved",
   "theorems": [
    "C75_reader",
    "C75_into_vec",
    "C75_into_vec_complete",
    "C75_any_reader_refuted",
    "C75_writer",
    "C75_round_trip",
    "C75_derived_reads",
    "C75_derived_writes",
    "C75_derived_stops_reading",
    "C75_derived_stops_writing",
    "C75_derived_passes_on",
    "C75_derived_size",
    "C75_derived_refuses",
    "C75_same_reading",
    "C75_same_into_vec",
    "C75_same_writing",
    "C75_vector5",
    "C75_vector5_only",
    "C75_vector5_refused",
    "C75_provided_field"
   ],
   "note": "For element types taking the bytes the dtype says. That read_at and iteration agree for any reader whatever is refuted (C75_any_reader_refuted); the property does not claim it."
  },
  {
   "property": "C76",
   "status": "partial",
   "theorems": [
    "C76_sound",
    "C76_complete",
    "C76_exactly",
    "C76_untroubled",
    "C76_success",
    "C76_stopped_short",
    "C76_never_whole",
    "C76_never_mistaken",
    "C76_position_refuted",
    "C76_position_partial",
    "C76_retry_refuted"
   ],
   "note": "Exact outcomes proved (C76_exactly). The two last sentences are false of the code: C76_position_refuted (what holds is C76_position_partial), C76_retry_refuted."
  },
  {
   "property": "C77",
   "status": "partial",
   "theorems": [
    "C77_repr",
    "C77_descr",
    "C77_opened",
    "C77_header",
    "C77_ascii_names",
    "C77_items",
    "C77_refused",
    "C77_panics",
    "C77_latin1",
    "C77_padding",
    "C77_latin1_refuted",
    "C77_misread_refuted"
   ],
   "note": "Exact: which of NumPy's files open with the right dtype (C77_opened), what is read (C77_header, C77_items), what is refused (C77_refused). The claim as stated is false of headers in Latin-1: C77_latin1_refuted, C77_misread_refuted."
  },
  {
   "property": "C78",
   "status": "partial",
   "theorems": [
    "C78_written",
    "C78_same",
    "C78_exactly",
    "C78_agree",
    "C78_marks",
    "C78_numpy_round",
    "C78_every_file_refuted"
   ],
   "note": "Proved for all provided types and structs (C78_written), exactly for any finished file with named fields (C78_same, C78_exactly), and agreement on all files both read (C78_agree). The claim as stated is false for records with a null character in a name or a name twice, which a caller's own type can write: C78_every_file_refuted."
  },
  {
   "property": "C79",
   "status": "proved",
   "theorems": [
    "C79_reads",
    "C79_laxer",
    "C79_copy_item",
    "C79_writes",
    "C79_files",
    "C79_file_laxer",
    "C79_copy",
    "C79_copy_succeeds",
    "C79_copy_identical"
   ],
   "note": "Contents compared through S_Cross.v; capacities of arrayvec types have to suffice (C79_room_needed)."
  },
  {
   "property": "C80",
   "status": "proved",
   "theorems": [
    "C80_opens_exactly",
    "C80_panics_exactly",
    "C80_refused",
    "C80_new",
    "C80_others_as_none",
    "C80_dtype_parse",
    "C80_well_formed",
    "C80_same",
    "C80_opens",
    "C80_panics",
    "C80_reads_back",
    "C80_round_trip"
   ],
   "note": "The parser is universally quantified; C80_case shows one that reads more than the model's and satisfies `understands`."
  },
  {
   "property": "C81",
   "status": "proved",
   "theorems": [
    "C81_session_exactly",
    "C81_write_total",
    "C81_result",
    "C81_reads",
    "C81_length_refuted"
   ],
   "note": "C81_length_refuted: C08 without its bound of 2^64 values is false in wrapping builds."
  },
  {
   "property": "C82",
   "status": "proved",
   "theorems": [
    "C82_sound",
    "C82_success",
    "C82_never_whole",
    "C82_never_mistaken",
    "C82_no_pieces",
    "C82_unbuffered",
    "C82_untroubled",
    "C82_silence_refuted"
   ],
   "note": "sessions over a BufWriter whose output fails now and then, any buffer size and division of items; outcomes (S_Spill.v), success, never whole after a failed push, never mistaken, no pieces of failed items, size 0 = no buffer, untroubled = plain session; silent loss without finish exhibited"
  },
  {
   "property": "C83",
   "status": "proved",
   "theorems": [
    "C83_exact",
    "C83_never_mistaken",
    "C83_refused",
    "C83_success",
    "C83_mixed_refuted"
   ],
   "note": "any matrix, archive and limit on the output: outcome exactly, unreadable unless Ok, read back if Ok; mixture with an older matrix of the same archive exhibited"
  },
  {
   "property": "C84",
   "status": "proved",
   "theorems": [
    "C84_exact",
    "C84_after_failure",
    "C84_kept",
    "C84_error_absent_refuted",
    "C84_older_refuted"
   ],
   "note": "any list of arrays, archive and limit on the output: outcome exactly, what each name leads to afterwards; what is false of errors and of older arrays of the same name is exhibited"
  },
  {
   "property": "C85",
   "status": "proved",
   "theorems": [
    "C85_missing",
    "C85_read",
    "C85_error",
    "C85_panic",
    "C85_names",
    "C85_listed",
    "C85_plain",
    "C85_listed_refuted"
   ],
   "note": "any archive, damaged entries included: when a lookup gives nothing, an array, an error (which) or a panic; names listed exactly; the claim about listed names needs paths without NUL (refuted otherwise)"
  },
  {
   "property": "C86",
   "status": "partial",
   "theorems": [
    "C86_into_vec_partial",
    "C86_iterate_partial",
    "C86_exact_partial",
    "C86_refuted"
   ],
   "note": "false of the code (C86_refuted), given that zip compares checksums only at the end of an entry; proved exactly when the checksum's error is reported"
  },
  {
   "property": "C87",
   "status": "proved",
   "theorems": [
    "C87_damaged",
    "C87_read",
    "C87_intact",
    "C87_others",
    "C87_any",
    "C87_any_damaged"
   ],
   "note": "sparse readers over archives with entries zip cannot open: when zip's error is the result, when an earlier defect is, and when nothing changes"
  },
  {
   "property": "C88",
   "status": "partial",
   "theorems": [
    "C88_filled_partial",
    "C88_open_partial",
    "C88_item_partial",
    "C88_file_partial",
    "C88_total_partial",
    "C88_items_partial",
    "C88_header_refuted",
    "C88_item_refuted",
    "C88_refuted"
   ],
   "note": "false of the code: a 12-byte file makes opening ask for 4 GiB, a 128-byte file makes an item ask for any size or holds up to 2^64-1 items of no size; the bounds that do hold are proved"
  },
  {
   "property": "C89",
   "status": "proved",
   "theorems": [
    "C89_exact",
    "C89_enough",
    "C89_same",
    "C89_no_fixed_stack",
    "C89_types",
    "C89_size_exact",
    "C89_size_enough",
    "C89_size_no_fixed_stack"
   ],
   "note": "recursion of from_descr on a stack of any size: exact condition, upper bound by the header's length, and files that exhaust any given stack"
  }
 ]
}
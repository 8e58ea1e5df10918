{
 "claims": [
  {
   "property": "C01",
   "status": "partial",
   "theorems": [
    "C01_parse_int_exact_partial",
    "C01_signed_iso_partial",
    "C01_parse_int_exact_refuted",
    "C01_every_text"
   ],
   "note": "False as it stands: the overflow check misses overflows where value*base wraps around past the old value (refuted with a witness), and ':'..'@' count as digits above base 10 (C02). Proved without conditions (C01_every_text): the result is the specified one with ':'..'@' read as a..g, unless the literal exceeds the 32 or 64 bits the parser computes in; then the result is out_of_range, or the literal's value modulo 2^bits (32/64-bit targets), or undefined for signed targets under ISO rules."
  },
  {
   "property": "C02",
   "status": "partial",
   "theorems": [
    "C02_only_digits_partial",
    "C02_digits_taken",
    "C02_only_digits_refuted"
   ],
   "note": "False for base > 10: ':'..'@' are taken as the digits a..g (refuted with a witness); proved that these are the only exceptions."
  },
  {
   "property": "C03",
   "status": "proved",
   "theorems": [
    "C03_integer_round_trip",
    "C03_followed_by_colon_refuted"
   ],
   "note": "All integer types, bases 2..36, both cases, any following text that cannot continue the number. The text ':' behind a hexadecimal number can (refuted variant documents it)."
  },
  {
   "property": "C04",
   "status": "proved",
   "theorems": [
    "C04_write_int_canonical",
    "C04_numeral_unique",
    "C04_exact_bytes"
   ],
   "note": "For every lawful buffer (memory, span, iterator, file, counting, truncating)."
  },
  {
   "property": "C05",
   "status": "proved",
   "theorems": [
    "C05_reader_stays_inside"
   ],
   "note": "Any sequence of operations, any input."
  },
  {
   "property": "C06",
   "status": "proved",
   "theorems": [
    "C06_failure_consumes_nothing"
   ],
   "note": "Every reader, delimiter set and options; not-found behaviour per option as documented in the code."
  },
  {
   "property": "C07",
   "status": "proved",
   "theorems": [
    "C07_read_until_first",
    "C07_char_sets",
    "C07_read_until_str_first"
   ],
   "note": "Every reader, delimiter text and options."
  },
  {
   "property": "C08",
   "status": "partial",
   "theorems": [
    "C08_cursor",
    "C08_subreader_partial",
    "C08_subreader_refuted"
   ],
   "note": "pop/unpop/read_char/read_n_chars/read_remaining proved; subreader wraps pos+len when len is close to SIZE_MAX (refuted), proved without wrap."
  },
  {
   "property": "C09",
   "status": "proved",
   "theorems": [
    "C09_memory_buffer",
    "C09_text_unique"
   ],
   "note": "Any storage size, capacity and history of calls and resets."
  },
  {
   "property": "C10",
   "status": "proved",
   "theorems": [
    "C10_fixed_buffer",
    "C10_static_copy"
   ],
   "note": "span_buffer and static_buffer including copies."
  },
  {
   "property": "C11",
   "status": "partial",
   "theorems": [
    "C11_copies_and_moves_partial",
    "C11_copy_assign_content",
    "C11_copy_assign_refuted",
    "C11_move_assign_refuted"
   ],
   "note": "Any program of constructions, copies, moves, writes, resets and destructions in which assignments meet a guard: contents equal, every block owned exactly once, nothing leaks. Without the guard assignments are wrong in two ways (refuted): copy assignment leaves the capacity of the old storage; move assignment writes into the block it just freed."
  },
  {
   "property": "C12",
   "status": "partial",
   "theorems": [
    "C12_iterator_buffer",
    "C12_file_buffer_partial",
    "C12_file_short_write_refuted"
   ],
   "note": "Proved for every output iterator and for file streams which accept everything; false after a short fwrite (refuted): the retry sends the accepted part again."
  },
  {
   "property": "C13",
   "status": "partial",
   "theorems": [
    "C13_back_insert_partial",
    "C13_back_insert_refuted"
   ],
   "note": "False: existing content is overwritten and a later area is longer than the container (undefined behaviour), both refuted with witnesses. Proved for an empty container while the text fits into the first area."
  },
  {
   "property": "C14",
   "status": "partial",
   "theorems": [
    "C14_truncating_memory_buffer",
    "C14_truncating_fixed_buffer",
    "C14_truncating_refuted"
   ],
   "note": "Proved over memory and fixed buffers for any cache; false over a primary that grants less than asked (refuted)."
  },
  {
   "property": "C15",
   "status": "partial",
   "theorems": [
    "C15_iterator",
    "C15_memory_buffer",
    "C15_fixed_buffer",
    "C15_limit_refuted"
   ],
   "note": "False in general: a number of more than 128 characters in one piece makes format_to_n fail with eof although format succeeds, even if little is to be written (C15_limit_refuted). Otherwise every format_to_n over an iterator, a memory_buffer with any history, or a fixed buffer of at least n characters writes the first n characters of format's output and reports its full size; short_call says when the exception is impossible."
  },
  {
   "property": "C16",
   "status": "partial",
   "theorems": [
    "C16_size",
    "C16_size_right",
    "C16_size_up_to_128",
    "C16_size_refuted"
   ],
   "note": "False in general (C16_size_refuted: {:.130f}). Proved: a size is never wrong, it is always computed up to 128 characters and whenever no floating point field is longer than the cache (precision below 100 and magnitude below 1e20, any width)."
  },
  {
   "property": "C17",
   "status": "partial",
   "theorems": [
    "C17_iterator",
    "C17_file",
    "C17_file_line",
    "C17_no_file",
    "C17_memory_buffer",
    "C17_fixed_buffer",
    "C17_pointer",
    "C17_container_partial",
    "C17_sinks_refuted",
    "C17_container_refuted"
   ],
   "note": "False in general: cached sinks (iterator, file, counting) fail with eof for a single piece beyond 128 characters (C17_sinks_refuted), and a back_insert_iterator to a container with content is broken (C17_container_refuted). Proved for all calls: cached sinks receive the output of format or fail with a prefix of it; memory buffers always and fixed buffers iff the output fits; pointers to enough memory; std::fwrite accepting everything."
  },
  {
   "property": "C18",
   "status": "proved",
   "theorems": [
    "C18_escaped_output",
    "C18_escape_injective",
    "C18_quote_delimits"
   ],
   "note": "Every text, every buffer handing out its space in arbitrary non-empty pieces."
  },
  {
   "property": "C19",
   "status": "proved",
   "theorems": [
    "C19_any_chunking"
   ],
   "note": "Every text, count and sequence of granted sizes."
  },
  {
   "property": "C20",
   "status": "proved",
   "theorems": [
    "C20_parse_agrees",
    "C20_accepted_syntax",
    "C20_syntax_accepted",
    "C20_checks",
    "C20_numbers_refuted"
   ],
   "note": "Any text, position and starting specification: what validation accepts the unchecked parser reads identically (its unchecked unwraps never fail). Besides: the accepted syntax exactly (sound for all texts, complete when the numbers are below 2^32), and the checks per argument type. Numbers from 2^32 on are misread (refuted with 5000000000)."
  },
  {
   "property": "C21",
   "status": "partial",
   "theorems": [
    "C21_accepted_partial",
    "C21_accepted_iff_well_formed_partial",
    "C21_rejected",
    "C21_tuple_last_accepted",
    "C21_accepted_iff",
    "C21_only_walked",
    "C21_others_rejected",
    "C21_well_formed_prefix",
    "C21_bare_tuples_accepted",
    "C21_field_255_refuted",
    "C21_arguments_refuted",
    "C21_tuples_refuted"
   ],
   "note": "False as it stands, refuted with witnesses: a field 255 ends the validation and anything may follow; more than 128 arguments terminate the validation of a well-formed string; a tuple whose elements have a specification makes the validation skip what follows, so that malformed strings are accepted and well-formed ones rejected. Proved: accepted = well-formed for tuple-free argument types, at most 128 arguments, no field 255 and numbers below 2^32; with tuples, accepted = walked, a specification of the reading with its jumps (C21_accepted_iff); everything else is rejected with invalid_format; whatever is accepted is well-formed, cut short by a field 255, or well-formed up to and including a tuple whose elements have a specification; well-formed strings in which no elements of tuples have a specification, or with a tuple in the last field only, are accepted."
  },
  {
   "property": "C22",
   "status": "partial",
   "theorems": [
    "C22_output_partial",
    "C22_cut_output",
    "C22_reading_unique",
    "C22_output_unique",
    "C22_output_exact_partial"
   ],
   "note": "For every accepted string over tuple-free argument types (arguments of all modelled types, nested to any depth), the output is the concatenation of literals, unescaped braces and fields; the reading of a string is unique; strings cut short by a field 255 print the items before it. C22_output_unique: the specification determines the text, so formatting prints it and nothing else (C22_output_exact_partial). Tuples: C46. Fields with type O fail: C24."
  },
  {
   "property": "C23",
   "status": "proved",
   "theorems": [
    "C23_quoted_text",
    "C23_plain_text",
    "C23_scan_quoted_text",
    "C23_scan_plain_text"
   ],
   "note": "Formatting: every text with its braces doubled prints the text; texts without braces print themselves. Scanning with the quoted text succeeds for exactly this input."
  },
  {
   "property": "C24",
   "status": "partial",
   "theorems": [
    "C24_never_fails_partial",
    "C24_outcomes",
    "C24_upper_octal_refuted"
   ],
   "note": "False for the type O, which passes the validation and fails at formatting (refuted with a witness). Proved: no other failure exists for tuple-free argument types, nothing is undefined and nothing terminates the program."
  },
  {
   "property": "C25",
   "status": "partial",
   "theorems": [
    "C25_integer_layout_partial",
    "C25_field_unique",
    "C25_upper_octal_refuted",
    "C25_upper_octal_fails"
   ],
   "note": "Every integer type, value and valid specification except type O, which validation accepts and no integer can be formatted with (refuted, and proved to always fail with invalid_format). The layout specification determines the text (uniqueness theorem)."
  },
  {
   "property": "C26",
   "status": "partial",
   "theorems": [
    "C26_width_exact_partial",
    "C26_width_refuted"
   ],
   "note": "All core types, all valid specifications; false for characters escaped with several characters (their padding assumes three characters; refuted)."
  },
  {
   "property": "C27",
   "status": "proved",
   "theorems": [
    "C27_string_field",
    "C27_field_unique"
   ],
   "note": "Texts below 2^31-2 characters (see C48 for longer ones), every valid specification; the specification determines the text."
  },
  {
   "property": "C28",
   "status": "partial",
   "theorems": [
    "C28_bool_field_partial",
    "C28_pointer_field",
    "C28_char_field_partial",
    "C28_char_escape_refuted"
   ],
   "note": "Pointers in full; bools and characters except type O; characters whose escape sequence has several characters only without width (refuted otherwise)."
  },
  {
   "property": "C29",
   "status": "partial",
   "theorems": [
    "C29_round_trip_partial",
    "C29_integers",
    "C29_characters_and_texts",
    "C29_upper_case_refuted",
    "C29_octal_zero_refuted",
    "C29_detected_zero_refuted",
    "C29_colon_refuted",
    "C29_brace_refuted"
   ],
   "note": "Proved for all integer types and values with {}, d, x, b, o, # with and without type, alone and inside strings with several fields, and for characters and texts, also in front of a doubled brace if no field follows it. False (refuted with witnesses) for the upper case types X and B, which scanning rejects; for zero with #o, printed as 0 and not read back; for zero with # in front of other text; for a text in front of a doubled brace and a field that prints nothing; and for bases above 10 in front of ':'..'@'."
  },
  {
   "property": "C30",
   "status": "proved",
   "theorems": [
    "C30_sign_and_category",
    "C30_value",
    "C30_neighbours",
    "C30_interval"
   ],
   "note": "All 64-bit patterns. The interval is exactly the set of decimals read back, except that it is narrower below the smallest normal number (the theorem says so)."
  },
  {
   "property": "C31",
   "status": "partial",
   "theorems": [
    "C31_construction",
    "C31_add_sub",
    "C31_mul",
    "C31_compare_is_zero",
    "C31_div_rem",
    "C31_mul_digits_partial",
    "C31_representation_unique",
    "C31_mul_digits_refuted",
    "C31_add_small_refuted",
    "C31_sub_small_refuted",
    "C31_compare_zero_refuted",
    "C31_compare_quotient_refuted"
   ],
   "note": "Proved exact for every operation float formatting uses (construction from positive numbers, add, sub, muladd/mul_small, mul_pow5, mul_pow2 of positive numbers, comparison, is_zero, quotient and remainder). Refuted with witnesses for operations it does not use: mul_digits and add_small set a size which hides blocks, sub_small likewise, zeros and quotients with leading zero blocks compare wrongly; for mul_digits the blocks are proved exact."
  },
  {
   "property": "C32",
   "status": "proved",
   "theorems": [
    "C32_shortest_total",
    "C32_exact_total"
   ],
   "note": "All finite non-zero doubles and all precisions; Undef (a store out of the area) and Abort (big number overflow) are excluded because the results are Ok."
  },
  {
   "property": "C33",
   "status": "proved",
   "theorems": [
    "C33_reads_back",
    "C33_unique",
    "C33_injective"
   ],
   "note": "Stated with an independent definition of correct reading (nearest double, ties to even, overflow limit). Text layout: C37."
  },
  {
   "property": "C34",
   "status": "proved",
   "theorems": [
    "C34_digits",
    "C34_shortest",
    "C34_closest",
    "C34_nearest"
   ],
   "note": "No decimal with fewer digits is read back as the double, including the smallest normal number; of those with as many digits the nearest is taken, and of two equally near ones the larger (C34_nearest)."
  },
  {
   "property": "C35",
   "status": "proved",
   "theorems": [
    "C35_significand",
    "C35_rounding"
   ],
   "note": "Digits of the significand mode for every precision >= 1 (formatting turns 0 into 1)."
  },
  {
   "property": "C36",
   "status": "partial",
   "theorems": [
    "C36_fixed_decimals_partial",
    "C36_fixed_decimal_missing",
    "C36_fixed_decimals_refuted"
   ],
   "note": "Proved whenever the value is not rounded up across a power of ten below the last decimal; in that case exactly one decimal is missing (proved) and the claim is false (refuted with 0.0999 and .2f)."
  },
  {
   "property": "C37",
   "status": "proved",
   "theorems": [
    "C37_double_field",
    "C37_field_unique"
   ],
   "note": "Every finite double and every valid specification: notation, digits, value, sign and padding. The specification determines the text (C37_field_unique)."
  },
  {
   "property": "C38",
   "status": "proved",
   "theorems": [
    "C38_sign_and_special_values"
   ],
   "note": "Every 64-bit pattern and valid specification."
  },
  {
   "property": "C39",
   "status": "partial",
   "theorems": [
    "C39_scan_from",
    "C39_scan",
    "C39_accepted_partial",
    "C39_complete_partial",
    "C39_nothing_left_partial"
   ],
   "note": "Proved for all inputs, accepted strings and targets: what scan_from and scan accept (and conversely, all texts made of the literals and field texts in order are accepted), the whole input is used by scan, scan_from stops behind the matched part. Both directions use the same description of the input that a text field takes. The partial theorems carry the restriction to strings without a field 255 (C49) and describe doubled braces behind a text field as they are searched for (C40)."
  },
  {
   "property": "C40",
   "status": "partial",
   "theorems": [
    "C40_first_occurrence_partial",
    "C40_text",
    "C40_absent_text_fails",
    "C40_braces",
    "C40_first_brace",
    "C40_later_braces_fail",
    "C40_braces_refuted",
    "C40_empty_refuted"
   ],
   "note": "Proved for every literal without braces, in both directions and in any place of a successful scan. With doubled braces right behind the field the input that it takes is described exactly (the search does not go back after failed attempts, C40_braces); with other characters between the field and the doubled braces scanning always fails (C40_later_braces_fail). So the claim is false with doubled braces (refuted): the search is given up or skips the first occurrence when a part of the literal turns up in front of the match; an empty input cannot be read in front of another field."
  },
  {
   "property": "C41",
   "status": "proved",
   "theorems": [
    "C41_width",
    "C41_short_input_fails",
    "C41_text"
   ],
   "note": "Integers, characters and texts: a field of width w takes exactly w characters, fails when fewer are left."
  },
  {
   "property": "C42",
   "status": "partial",
   "theorems": [
    "C42_field_partial",
    "C42_scan_partial",
    "C42_wide_target_refuted",
    "C42_narrow_target_refuted"
   ],
   "note": "Proved with two exceptions, each refuted with a witness: a target of 32 or 64 bits with a width is assigned before the width is checked, and a number which does not fit a target of 8 or 16 bits is consumed. For whole scans: exactly the fields in front of the failure are assigned."
  },
  {
   "property": "C43",
   "status": "proved",
   "theorems": [
    "C43_result_observers",
    "C43_result_equality",
    "C43_void_result",
    "C43_try_returns_first_error",
    "C43_error_names",
    "C43_empty_error_refuted"
   ],
   "note": "For actual errors; err{} stored in a result is lost by the conversion to result<void> (the refuted variant records it; development builds assert)."
  },
  {
   "property": "C44",
   "status": "proved",
   "theorems": [
    "C44_bitset_tracks_positions",
    "C44_bitset_set_outside"
   ],
   "note": "Any number of bits, any sequence of positions."
  },
  {
   "property": "C45",
   "status": "proved",
   "theorems": [
    "C45_range",
    "C45_elements",
    "C45_escaped"
   ],
   "note": "Ranges of every kind and element type, with and without n and nested specifications, elements to any depth."
  },
  {
   "property": "C46",
   "status": "partial",
   "theorems": [
    "C46_tuple_last_partial",
    "C46_format_walk",
    "C46_lost_text",
    "C46_lost_text_refuted",
    "C46_undefined_refuted"
   ],
   "note": "False: the tuple formatter advances the reader by an absolute position, so text behind the field is lost (refuted with a witness) or the formatter runs past the end of the string (refuted with a witness). Proved for strings in which nothing follows the field of a tuple; for text behind one tuple exactly the lost characters are described (C46_lost_text); in general every accepted string through which the jumps lead to its end (format_walk) prints the items met on the way (C46_format_walk). Missing: what happens when the jumps end in an item that is not valid."
  },
  {
   "property": "C47",
   "status": "partial",
   "theorems": [
    "C47_dynamic_is_static",
    "C47_width",
    "C47_width_precision",
    "C47_negative_width_refuted",
    "C47_precision_limit_refuted",
    "C47_precision_cut_refuted"
   ],
   "note": "Proved for every core argument: dynamic width and precision give the output of the static specification with the same values, in particular {:w} and {:w.p}. Out-of-range values are not rejected (refuted with witnesses): negative widths count as none, the precision limit of 1100 is not checked, precisions beyond 16 bits are cut."
  },
  {
   "property": "C48",
   "status": "partial",
   "theorems": [
    "C48_padding_partial",
    "C48_padding_refuted",
    "C48_overflow_refuted"
   ],
   "note": "Proved below 2^31-2 characters; false above: size_t is narrowed to int32_t (refuted with a text of 2^32 characters; signed overflow with 2^31)."
  },
  {
   "property": "C49",
   "status": "partial",
   "theorems": [
    "C49_accepted_partial",
    "C49_accepted_iff",
    "C49_accepted_iff_well_formed_partial",
    "C49_rejected",
    "C49_field_255_refuted",
    "C49_arguments_refuted",
    "C49_width_refuted"
   ],
   "note": "False as it stands: a field 255 ends the validation, more than 128 targets terminate it, widths from 2^32 on wrap (all refuted with witnesses). Proved: accepted = well-formed otherwise; every other string is rejected with invalid_format."
  },
  {
   "property": "C50",
   "status": "partial",
   "theorems": [
    "C50_scan_from",
    "C50_scan",
    "C50_overflow_refuted"
   ],
   "note": "Proved for every string, input and list of targets: success or an error, with one exception: signed overflow (ISO rules) when the input contains a number beyond the type it is read in (C50_overflow_refuted); with wrapping arithmetic no exception."
  },
  {
   "property": "C51",
   "status": "partial",
   "theorems": [
    "C51_optional",
    "C51_none",
    "C51_variant",
    "C51_variant_text",
    "C51_states"
   ],
   "note": "Equivalences for every type, value and specification, with two exceptions: the type O (C24), and specifications or nested format strings with numbers of 2^32 or more. The texts of variants are stated for the specification `}` (the only one a variant takes)."
  },
  {
   "property": "C52",
   "status": "partial",
   "theorems": [
    "C52_paths",
    "C52_calls",
    "C52_validation",
    "C52_scan",
    "C52_scan_validation",
    "C52_integers",
    "C52_paths_refuted"
   ],
   "note": "Proved: where the type erased path is defined, the direct one does the same, for every sink (C52_paths), which includes all calls in which no tuple has text behind it (C52_calls); validation agrees for every string. False in general: with a tuple in front of a brace the type erased path reads an argument that does not exist, the direct one returns invalid_format (C52_paths_refuted)."
  },
  {
   "property": "C53",
   "status": "partial",
   "theorems": [
    "C53_valid",
    "C53_plain",
    "C53_default",
    "C53_short_cut"
   ],
   "note": "Which strings are valid (C53_valid): for at most 128 argument types (more terminate the validation, see C21) and numbers below 2^32, where valid means walked, the acceptance of C21. Plain, empty and default constructed strings and the short cut (C53_plain, C53_default, C53_short_cut): for every string, list of types and sink. The short cut holds for scanning too; C53_valid is about format strings, scan strings are in C39."
  },
  {
   "property": "C54",
   "status": "proved",
   "theorems": [
    "C54_nested"
   ],
   "note": "An equality of results and buffers for every sink, without hypotheses."
  },
  {
   "property": "C55",
   "status": "proved",
   "theorems": [
    "C55_exact",
    "C55_special",
    "C55_reads_back",
    "C55_injective",
    "C55_field",
    "C55_special_field",
    "C55_shortest_refuted"
   ],
   "note": "The digits are those of the double: they are read back but are not the shortest ones for the float (C55_shortest_refuted: 0.1f is printed as 0.10000000149011612); the upstream test test_format.cpp:409 expects that. That the conversion of the language is the function of bit patterns in Float32.v is trusted."
  },
  {
   "property": "C56",
   "status": "proved",
   "theorems": [
    "C56_accepted",
    "C56_accepted_iff",
    "C56_rejected",
    "C56_output",
    "C56_memory",
    "C56_builtin",
    "C56_builtin_keeps",
    "C56_number",
    "C56_failing",
    "C56_sign",
    "C56_lazy_parse_refuted"
   ],
   "note": "The promise of a formatter (SpecCustom.v: keeps) is a hypothesis; it is proved for the formatters of the library (tuples excepted, see C46), of the documentation and of the upstream tests. Specifications that contain a closing brace are not covered. Without the promise formatting may have undefined behaviour (C56_lazy_parse_refuted: a parse function that does not take the closing brace)."
  },
  {
   "property": "C57",
   "status": "proved",
   "theorems": [
    "C57_accepted",
    "C57_accepted_iff",
    "C57_rejected",
    "C57_scan_from",
    "C57_scan",
    "C57_any",
    "C57_complete",
    "C57_builtin",
    "C57_builtin_keeps",
    "C57_number",
    "C57_number_certain",
    "C57_derived",
    "C57_nested",
    "C57_doc_refuted",
    "C57_untouched_refuted",
    "C57_lazy_parse_refuted"
   ],
   "note": "The promise of a scanner (SpecCustomScan.v: keeps_scan) is a hypothesis; it is proved for the scanners of the library, of the documentation, for derived ones and for scanners that call scan_from. All variables of a call have one type in the model (a sum type stands for different ones). Specifications that contain a closing brace are not covered. Refuted: the example of the documentation that reads 0x2A with {:x} (C57_doc_refuted), that a failing scanner leaves its variable as it was (C57_untouched_refuted), and that parsing may stop elsewhere than validating (C57_lazy_parse_refuted: undefined behaviour)."
  },
  {
   "property": "C58",
   "status": "proved",
   "theorems": [
    "C58_range",
    "C58_optional",
    "C58_derived",
    "C58_variant",
    "C58_argument",
    "C58_element",
    "C58_library",
    "C58_library_same",
    "C58_sign",
    "C58_no_spec_refuted"
   ],
   "note": "The promise of the element formatter (SpecElements.v: keeps_promise) is a hypothesis; it is proved for the formatters of the library without tuples, for derived ones, for the one of the upstream tests and for all that are built from these; C58_element derives it from the promise of C56. Tuples of such elements: C59. Refuted: a range or variant of elements whose formatter demands a specification is accepted without one, although formatting it is undefined for a parse function that relies on validation (C58_no_spec_refuted)."
  },
  {
   "property": "C59",
   "status": "proved",
   "theorems": [
    "C59_repaired",
    "C59_last",
    "C59_variant",
    "C59_library_same",
    "C59_tuple_refuted"
   ],
   "note": "C59_last: strings that end with the only field of the tuple, or of a tuple, range (map) or optional of tuples; C59_variant: those held by variants; C59_repaired: everywhere, for the formatter that moves the reader to the position (not in the code). Refuted for the code when something follows the field: as many characters are skipped as the specification is far from the start, so text is lost and malformed strings are accepted (C59_tuple_refuted, compare C46). C59_library_same: of types of the library it is the tuple of Format.v. The elements may be tuples again, or ranges and optionals of them, to any depth (C59_nested_example)."
  },
  {
   "property": "C60",
   "status": "proved",
   "theorems": [
    "C60_accepted",
    "C60_rejected",
    "C60_library_same"
   ],
   "note": "The promise of the formatters is the hypothesis of C56. The eof case is possible: a number with many digits is written in one piece, for which a cache is too small (C16_size_refuted, C60_long_example). Files that accept everything; for back_insert_iterators see C13, C17. C60_library_same: for types of the library they are the functions of FormatApi.v."
  },
  {
   "property": "C61",
   "status": "proved",
   "theorems": [
    "C61_match_char",
    "C61_match_str",
    "C61_one_at_a_time"
   ],
   "note": "C61_one_at_a_time also says where reading the characters one by one stops."
  },
  {
   "property": "C62",
   "status": "proved",
   "theorems": [
    "C62_counts",
    "C62_complete"
   ],
   "note": "A cache of no characters (a template argument of 0) is not covered. The functions that use the buffer: C16, C60."
  },
  {
   "property": "C63",
   "status": "proved",
   "theorems": [
    "C63_pointer"
   ],
   "note": "The buffer does not know the size of the memory; a text that does not fit is undefined behaviour (C63_too_long). format_to with a pointer: C17_pointer."
  }
 ]
}

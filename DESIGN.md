# Formal model of emio in Rocq/Coq 8.16.1

Source: `/repo/include/emio` (header-only C++20 library), read as text.
Everything below lives in `rocq/theories`, logical path `Verif`.

## 1. Conventions

* A `char` is an integer `Z` in `0..255` (its object representation). Where the
  C++ compares `char` values with `<`/`>` the model converts with `schar`
  (two's complement, 8 bit) first, as on the platforms where `char` is signed.
* A C++ `result<T>` is `Ok v` or `Err e`. Undefined behaviour is a separate
  third outcome `Undef`; a failed assertion, `std::terminate` or an exception out
  of `.value()` is a fourth one, `Abort`. No theorem treats them as success.
* Fixed-width arithmetic is written with explicit `mod 2^n`. Signed overflow is
  `Undef`; where it matters the functions take a mode: `iso` (undefined) or
  `fwrapv` (wraps around).
* Loops are structural where possible. Where fuel is used, running out of fuel is
  `Undef`, and the theorems show that it does not occur.
* A span returned by a buffer is an (offset, length) pair into the buffer's
  backing store. Stores through it are checked against the allocation; a store
  outside of it is `Undef`. Memory that was not written holds a marker which is
  not a character.
* `size_t` is 64 bits where the code computes with differences or casts (`pos +
  len` of subreader, narrowing to `int32_t`); elsewhere it is an unbounded natural
  number (a real overflow needs an object of 2^64 bytes).
* Virtual functions are records of functions (`buffer` classes, lawful buffers);
  templates are inductive types of the types they are instantiated with (`cty`,
  `fty`, `sty`) and functions by recursion on them.

## 2. Layers

| Model file | Code modelled |
|---|---|
| `Base` | err, outcomes, integer types, bytes, string literals |
| `Conversion` | detail/conversion.hpp, detail/misc.hpp |
| `Reader` | reader.hpp |
| `Buffer`, `CtVector` | buffer.hpp, detail/ct_vector.hpp, iterator.hpp (truncating_iterator, back_insert) |
| `Writer` | writer.hpp, detail/utf.hpp |
| `Bitset`, `Result` | detail/bitset.hpp; result.hpp, detail/predef.hpp |
| `Specs` | detail/format/specs.hpp; detail/format/formatter.hpp (reading and checking specifications) |
| `FormatArg`, `FloatArg` | detail/format/formatter.hpp (writing integers, characters, strings, bools, pointers; floating-point numbers) |
| `Bignum`, `Dragon` | detail/bignum.hpp; detail/format/decode.hpp, dragon.hpp |
| `Format` | formatter.hpp, ranges.hpp, std.hpp, detail/parser.hpp, detail/args.hpp, detail/validated_string_storage.hpp, detail/format/{args,parser,ranges,format_to}.hpp |
| `FormatApi` | format.hpp |
| `Scan` | scan.hpp, scanner.hpp, detail/scan/*.hpp |
| `Direct` | the paths of constant evaluation and of formatted_size (detail/parser.hpp, detail/format/format_to.hpp, detail/scan/scan_from.hpp), the conversions of detail/args.hpp |
| `Validated` | detail/validated_string.hpp |
| `Custom` | formatter.hpp (interface), detail/format/formatter.hpp (validate_trait), detail/format/args.hpp, detail/parser.hpp with formatters of the user |
| `Elements` | ranges.hpp (ranges), std.hpp (optional, variant), formatter.hpp (derived formatters), detail/format/ranges.hpp for elements with formatters of the user |
| `Tuples` | detail/format/ranges.hpp (tuples and pairs) for elements with formatters of the user; also the variant that moves the reader to the position, marked as not in the code |
| `CustomApi` | format.hpp for arguments with formatters of the user: the functions of `FormatApi` with the call of vformat_to as parameter |
| `CustomScan` | scanner.hpp (interface), detail/scan/{args,parser}.hpp, detail/parser.hpp with scanners of the user |
| `Float32` | detail/format/formatter.hpp (unified_type): float arguments, converted to double |

Specifications, independent of the model's helpers: `SpecNum` (numerals),
`SpecReader`, `SpecDigits`, `SpecEscape`, `SpecWriter`, `SpecOwn`, `SpecBignum`,
`SpecFloat` (doubles as rationals, correct reading and rounding), `SpecDecimal`
(texts of floating-point numbers), `SpecFormat`/`SpecField` (layout of fields),
`SpecSpecs` (syntax of specifications), `SpecString` (format strings and what
they stand for), `SpecScan` (scan strings and what they match).

Proofs: `Lib` (nothing about the code), `*Proofs`, `Emits`, `Pieces`,
`RoundTrip`, `ReadBack`, `String{Loop,Emits,Top}`, `Scan{Specs,Loop,Number,Int,
Text,Top}`, `ParseProofs`,
`DirectProofs`.

Property theorems, each with `Print Assumptions` and a concrete case beside it:
`Props*`. Theorems ending in `_partial` cover part of a property, the comment
says what is missing; theorems ending in `_refuted` show that a property is false
of the code as it is, with a witness.

## 3. Properties: what is modelled and how it is proved

* **C01, C02** parse_int: the loop with wrapping (unsigned) or `Undef` (signed)
  arithmetic against the value of the maximal digit run; induction on the run.
  `:`..`@` count as digits above base 10, so the general theorem is stated with
  the digits they are taken for.
* **C03/C04** induction on the digit loop; digit count = number of digits of the
  canonical numeral; round trip by composition with C01.
* **C05-C08** reader as (text, position); invariant over arbitrary operation
  lists; each operation against a `firstn/skipn` specification.
* **C09, C10, C12-C14, C19** a lawful buffer: one law ("what an area of size n is
  and what was delivered") proved for each buffer class; the writer is proved
  against the law; histories by induction.
* **C11** heap model of ct_vector (blocks, freed blocks) and programs over objects.
* **C15-C17** the functions of format.hpp composed of C22 and the buffer laws.
* **C18** escaping as a function on bytes and as the chunked helper; equality for
  every chunk sequence; un-escaper as independent specification.
* **C20-C24** the grammar of format strings as an independent specification;
  validator and unchecked parser as functions; equivalence by induction on the
  string.
* **C25-C28, C48** what write_arg writes, for every lawful buffer, against a
  layout specification built from `repeat` and numerals.
* **C29, C39-C42, C49, C50** scanner model against the grammar of scan strings and
  the relation "this text is matched with these values"; C29 by composition with
  C22/C25.
* **C30-C38** big numbers = base 2^32 lists with a value function; decode against
  exact dyadic values; estimate_scaling_factor by interval arguments over all
  exponents; digit generation by loop invariants over Z; correct rounding and
  shortest-ness stated over rationals (cross-multiplied integers); reading back
  stated as nearest-even among all doubles.
* **C43, C44** direct models, proved by case analysis / bit lemmas.
* **C51** from the text of fields being determined (C22).
* **C52** the direct loops against the type erased ones, by induction on the fuel;
  **C53** case analysis on the validation result; **C54** by computing the loop for
  the string `{}`; **C55** field by field of the bit patterns, reading back by
  every float being a double; **C56** the loops of C21 and C22 again, with the
  formatters' promise in place of the library's specifications; **C57** the loops of
  C38 to C40 likewise with the scanners' promise.
* **C45-C47** formatter trees for nested ranges, tuples, optionals, variants and
  dynamic specifications.

## 4. Trusted base

* Coq 8.16.1's kernel, including `vm_compute` (used for witnesses and a few
  complete sweeps over small finite domains).
* `Print Assumptions` stands beneath every property theorem; each prints `Closed
  under the global context`: no axiom is used, neither of the standard library nor
  of any other. (A checker that lists the axioms of all *loaded* libraries also
  lists those of `Coq.ssr.ssrunder`, which the standard library's `ssreflect`
  plugin files declare through a module type; no theorem depends on them.)
* The faithfulness of the model to the text of `/repo`. Every definition cites the
  lines it models and states its simplifications.

### Outside of the model

* The C++ type system: overload resolution, concepts, `constexpr` evaluation,
  `noexcept`. A format or scan string that is checked at compile time is modelled
  by the same validation function (its failure is the rejection).
* The memory layout of the type-erased storage of arguments (`detail/args.hpp`): an
  argument is its (converted) value, calls through it are calls of its formatter.
* User-defined buffers and iterators, except that buffer theorems hold for every
  buffer obeying the buffer law and iterator theorems for every state transformer
  `put`. User-defined formatters of arguments and of the elements of ranges,
  optionals, variants, pairs and tuples, and user-defined scanners are arbitrary
  functions with a stated promise (C56 to C60).
* `std::fwrite`/`std::fflush` are oracles: how many characters of each call are
  accepted is a parameter. The library calls `std::char_traits`, `std::copy_n`,
  `std::fill_n`, `std::bit_width`, `std::search` are modelled by list functions.
* Allocation failure; `long double`; wide characters; locales.

## 5. Status of the properties

* **C01** Integer parsing returns the exact value or out_of_range: *partial*. False as it stands: the overflow check misses overflows where value*base wraps around past the old value (refuted with a witness), and ':'..'@' count as digits above base 10 (C02). Proved without conditions (C01_every_text): the result is the specified one with ':'..'@' read as a..g, unless the literal exceeds the 32 or 64 bits the parser computes in; then the result is out_of_range, or the literal's value modulo 2^bits (32/64-bit targets), or undefined for signed targets under ISO rules.
* **C02** Integer parsing accepts only real digits: *partial*. False for base > 10: ':'..'@' are taken as the digits a..g (refuted with a witness); proved that these are the only exceptions.
* **C03** Integer text round trip: *proved*. All integer types, bases 2..36, both cases, any following text that cannot continue the number. The text ':' behind a hexadecimal number can (refuted variant documents it).
* **C04** write_int emits the canonical numeral: *proved*. For every lawful buffer (memory, span, iterator, file, counting, truncating).
* **C05** Reader never leaves its input: *proved*. Any sequence of operations, any input.
* **C06** Failed reader operations do not consume input: *proved*. Every reader, delimiter set and options; not-found behaviour per option as documented in the code.
* **C07** read_until_* finds the first delimiter: *proved*. Every reader, delimiter text and options.
* **C08** Reader cursor arithmetic: *partial*. pop/unpop/read_char/read_n_chars/read_remaining proved; subreader wraps pos+len when len is close to SIZE_MAX (refuted), proved without wrap.
* **C09** memory_buffer holds exactly what was written: *proved*. Any storage size, capacity and history of calls and resets.
* **C10** Fixed buffers never overflow and fail exactly when full: *proved*. span_buffer and static_buffer including copies.
* **C11** memory_buffer copies and moves are memory safe: *partial*. Any program of constructions, copies, moves, writes, resets and destructions in which assignments meet a guard: contents equal, every block owned exactly once, nothing leaks. Without the guard assignments are wrong in two ways (refuted): copy assignment leaves the capacity of the old storage; move assignment writes into the block it just freed.
* **C12** Cached sinks deliver everything exactly once in order: *partial*. Proved for every output iterator and for file streams which accept everything; false after a short fwrite (refuted): the retry sends the accepted part again.
* **C13** Appending through std::back_inserter appends: *partial*. False: existing content is overwritten and a later area is longer than the container (undefined behaviour), both refuted with witnesses. Proved for an empty container while the text fits into the first area.
* **C14** truncating_buffer passes on exactly the first limit characters: *partial*. Proved over memory and fixed buffers for any cache; false over a primary that grants less than asked (refuted).
* **C15** format_to_n writes a prefix and reports the full size: *partial*. False in general: a number of more than 128 characters in one piece makes format_to_n fail with eof although format succeeds, even if little is to be written (C15_limit_refuted). Otherwise every format_to_n over an iterator, a memory_buffer with any history, or a fixed buffer of at least n characters writes the first n characters of format's output and reports its full size; short_call says when the exception is impossible.
* **C16** formatted_size equals the length of the formatted output: *partial*. False in general (C16_size_refuted: {:.130f}). Proved: a size is never wrong, it is always computed up to 128 characters and whenever no floating point field is longer than the cache (precision below 100 and magnitude below 1e20, any width).
* **C17** All sinks receive the same bytes: *partial*. False in general: cached sinks (iterator, file, counting) fail with eof for a single piece beyond 128 characters (C17_sinks_refuted), and a back_insert_iterator to a container with content is broken (C17_container_refuted). Proved for all calls: cached sinks receive the output of format or fail with a prefix of it; memory buffers always and fixed buffers iff the output fits; pointers to enough memory; std::fwrite accepting everything.
* **C18** Escaping is exact and reversible: *proved*. Every text, every buffer handing out its space in arbitrary non-empty pieces.
* **C19** Writer emits exactly what was requested whatever the chunking: *proved*. Every text, count and sequence of granted sizes.
* **C20** Validated specs are parsed identically without checks: *proved*. Any text, position and starting specification: what validation accepts the unchecked parser reads identically (its unchecked unwraps never fail). Besides: the accepted syntax exactly (sound for all texts, complete when the numbers are below 2^32), and the checks per argument type. Numbers from 2^32 on are misread (refuted with 5000000000).
* **C21** Accepted format strings are exactly the well-formed ones: *partial*. False as it stands, refuted with witnesses: a field 255 ends the validation and anything may follow; more than 128 arguments terminate the validation of a well-formed string; a tuple whose elements have a specification makes the validation skip what follows, so that malformed strings are accepted and well-formed ones rejected. Proved: accepted = well-formed for tuple-free argument types, at most 128 arguments, no field 255 and numbers below 2^32; with tuples, accepted = walked, a specification of the reading with its jumps (C21_accepted_iff); everything else is rejected with invalid_format; whatever is accepted is well-formed, cut short by a field 255, or well-formed up to and including a tuple whose elements have a specification; well-formed strings in which no elements of tuples have a specification, or with a tuple in the last field only, are accepted.
* **C22** Format output is the concatenation of its parts: *partial*. For every accepted string over tuple-free argument types (arguments of all modelled types, nested to any depth), the output is the concatenation of literals, unescaped braces and fields; the reading of a string is unique; strings cut short by a field 255 print the items before it. C22_output_unique: the specification determines the text, so formatting prints it and nothing else (C22_output_exact_partial). Tuples: C46. Fields with type O fail: C24.
* **C23** Doubling braces quotes any text: *proved*. Formatting: every text with its braces doubled prints the text; texts without braces print themselves. Scanning with the quoted text succeeds for exactly this input.
* **C24** A validated format never fails: *partial*. False for the type O, which passes the validation and fails at formatting (refuted with a witness). Proved: no other failure exists for tuple-free argument types, nothing is undefined and nothing terminates the program.
* **C25** Integer formatting layout: *partial*. Every integer type, value and valid specification except type O, which validation accepts and no integer can be formatted with (refuted, and proved to always fail with invalid_format). The layout specification determines the text (uniqueness theorem).
* **C26** Width is a minimum and is met exactly: *partial*. All core types, all valid specifications; false for characters escaped with several characters (their padding assumes three characters; refuted).
* **C27** String formatting: *proved*. Texts below 2^31-2 characters (see C48 for longer ones), every valid specification; the specification determines the text.
* **C28** Bool, char and pointer formatting: *partial*. Pointers in full; bools and characters except type O; characters whose escape sequence has several characters only without width (refuted otherwise).
* **C29** Format/scan round trip for integers: *partial*. Proved for all integer types and values with {}, d, x, b, o, # with and without type, alone and inside strings with several fields, and for characters and texts, also in front of a doubled brace if no field follows it. False (refuted with witnesses) for the upper case types X and B, which scanning rejects; for zero with #o, printed as 0 and not read back; for zero with # in front of other text; for a text in front of a doubled brace and a field that prints nothing; and for bases above 10 in front of ':'..'@'.
* **C30** decode is exact: *proved*. All 64-bit patterns. The interval is exactly the set of decimals read back, except that it is narrower below the smallest normal number (the theorem says so).
* **C31** Big-number arithmetic is exact: *partial*. Proved exact for every operation float formatting uses (construction from positive numbers, add, sub, muladd/mul_small, mul_pow5, mul_pow2 of positive numbers, comparison, is_zero, quotient and remainder). Refuted with witnesses for operations it does not use: mul_digits and add_small set a size which hides blocks, sub_small likewise, zeros and quotients with leading zero blocks compare wrongly; for mul_digits the blocks are proved exact.
* **C32** Float formatting never overflows its big numbers or buffers: *proved*. All finite non-zero doubles and all precisions; Undef (a store out of the area) and Abort (big number overflow) are excluded because the results are Ok.
* **C33** Shortest float output reads back as the same double: *proved*. Stated with an independent definition of correct reading (nearest double, ties to even, overflow limit). Text layout: C37.
* **C34** Shortest float output is the shortest and has at most 17 digits: *proved*. No decimal with fewer digits is read back as the double, including the smallest normal number; of those with as many digits the nearest is taken, and of two equally near ones the larger (C34_nearest).
* **C35** Exact mode is correctly rounded: *proved*. Digits of the significand mode for every precision >= 1 (formatting turns 0 into 1).
* **C36** Fixed notation prints exactly the requested number of decimals, correctly rounded: *partial*. Proved whenever the value is not rounded up across a power of ten below the last decimal; in that case exactly one decimal is missing (proved) and the claim is false (refuted with 0.0999 and .2f).
* **C37** Float text denotes the digits produced: *proved*. Every finite double and every valid specification: notation, digits, value, sign and padding. The specification determines the text (C37_field_unique).
* **C38** Sign and special values: *proved*. Every 64-bit pattern and valid specification.
* **C39** scan matches literals and demands the whole input: *partial*. Proved for all inputs, accepted strings and targets: what scan_from and scan accept (and conversely, all texts made of the literals and field texts in order are accepted), the whole input is used by scan, scan_from stops behind the matched part. Both directions use the same description of the input that a text field takes. The partial theorems carry the restriction to strings without a field 255 (C49) and describe doubled braces behind a text field as they are searched for (C40).
* **C40** A string field reads up to the first occurrence of the following literal: *partial*. Proved for every literal without braces, in both directions and in any place of a successful scan. With doubled braces right behind the field the input that it takes is described exactly (the search does not go back after failed attempts, C40_braces); with other characters between the field and the doubled braces scanning always fails (C40_later_braces_fail). So the claim is false with doubled braces (refuted): the search is given up or skips the first occurrence when a part of the literal turns up in front of the match; an empty input cannot be read in front of another field.
* **C41** Width limits what scan consumes: *proved*. Integers, characters and texts: a field of width w takes exactly w characters, fails when fewer are left.
* **C42** A failed scan field leaves its target unchanged: *partial*. Proved with two exceptions, each refuted with a witness: a target of 32 or 64 bits with a width is assigned before the width is checked, and a number which does not fit a target of 8 or 16 bits is consumed. For whole scans: exactly the fields in front of the failure are assigned.
* **C43** result carries value or error faithfully: *proved*. For actual errors; err{} stored in a result is lost by the conversion to result<void> (the refuted variant records it; development builds assert).
* **C44** Argument coverage bookkeeping: *proved*. Any number of bits, any sequence of positions.
* **C45** Range formatting: *proved*. Ranges of every kind and element type, with and without n and nested specifications, elements to any depth.
* **C46** Fields holding tuples do not disturb the rest of the format string: *partial*. False: the tuple formatter advances the reader by an absolute position, so text behind the field is lost (refuted with a witness) or the formatter runs past the end of the string (refuted with a witness). Proved for strings in which nothing follows the field of a tuple; for text behind one tuple exactly the lost characters are described (C46_lost_text); in general every accepted string through which the jumps lead to its end (format_walk) prints the items met on the way (C46_format_walk). Missing: what happens when the jumps end in an item that is not valid.
* **C47** Dynamic specs equal static specs: *partial*. Proved for every core argument: dynamic width and precision give the output of the static specification with the same values, in particular {:w} and {:w.p}. Out-of-range values are not rejected (refuted with witnesses): negative widths count as none, the precision limit of 1100 is not checked, precisions beyond 16 bits are cut.
* **C48** Padding for large sizes: *partial*. Proved below 2^31-2 characters; false above: size_t is narrowed to int32_t (refuted with a text of 2^32 characters; signed overflow with 2^31).
* **C49** Accepted scan strings are exactly the well-formed ones: *partial*. False as it stands: a field 255 ends the validation, more than 128 targets terminate it, widths from 2^32 on wrap (all refuted with witnesses). Proved: accepted = well-formed otherwise; every other string is rejected with invalid_format.
* **C50** Scanning is total: *partial*. Proved for every string, input and list of targets: success or an error, with one exception: signed overflow (ISO rules) when the input contains a number beyond the type it is read in (C50_overflow_refuted); with wrapping arithmetic no exception.
* **C51** Standard library types: *partial*. Equivalences for every type, value and specification, with two exceptions: the type O (C24), and specifications or nested format strings with numbers of 2^32 or more. The texts of variants are stated for the specification `}` (the only one a variant takes).
* **C52** Constant evaluation and run time do the same: *partial*. Proved: where the type erased path is defined, the direct one does the same, for every sink (C52_paths), which includes all calls in which no tuple has text behind it (C52_calls); validation agrees for every string. False in general: with a tuple in front of a brace the type erased path reads an argument that does not exist, the direct one returns invalid_format (C52_paths_refuted).
* **C53** Validated strings: *partial*. Which strings are valid (C53_valid): for at most 128 argument types (more terminate the validation, see C21) and numbers below 2^32, where valid means walked, the acceptance of C21. Plain, empty and default constructed strings and the short cut (C53_plain, C53_default, C53_short_cut): for every string, list of types and sink. The short cut holds for scanning too; C53_valid is about format strings, scan strings are in C39.
* **C54** Nested arguments: *proved*. An equality of results and buffers for every sink, without hypotheses.
* **C55** Arguments of type float: *proved*. The digits are those of the double: they are read back but are not the shortest ones for the float (C55_shortest_refuted: 0.1f is printed as 0.10000000149011612); the upstream test test_format.cpp:409 expects that. That the conversion of the language is the function of bit patterns in Float32.v is trusted.
* **C56** User-defined formatters: *proved*. The promise of a formatter (SpecCustom.v: keeps) is a hypothesis; it is proved for the formatters of the library (tuples excepted, see C46), of the documentation and of the upstream tests. Specifications that contain a closing brace are not covered. Without the promise formatting may have undefined behaviour (C56_lazy_parse_refuted: a parse function that does not take the closing brace).
* **C57** User-defined scanners: *proved*. The promise of a scanner (SpecCustomScan.v: keeps_scan) is a hypothesis; it is proved for the scanners of the library, of the documentation, for derived ones and for scanners that call scan_from. All variables of a call have one type in the model (a sum type stands for different ones). Specifications that contain a closing brace are not covered. Refuted: the example of the documentation that reads 0x2A with {:x} (C57_doc_refuted), that a failing scanner leaves its variable as it was (C57_untouched_refuted), and that parsing may stop elsewhere than validating (C57_lazy_parse_refuted: undefined behaviour).
* **C58** Ranges, optionals and variants of other types: *proved*. The promise of the element formatter (SpecElements.v: keeps_promise) is a hypothesis; it is proved for the formatters of the library without tuples, for derived ones, for the one of the upstream tests and for all that are built from these; C58_element derives it from the promise of C56. Tuples of such elements: C59. Refuted: a range or variant of elements whose formatter demands a specification is accepted without one, although formatting it is undefined for a parse function that relies on validation (C58_no_spec_refuted).
* **C59** Tuples and pairs of other types: *proved*. C59_last: strings that end with the only field of the tuple, or of a tuple, range (map) or optional of tuples; C59_variant: those held by variants; C59_repaired: everywhere, for the formatter that moves the reader to the position (not in the code). Refuted for the code when something follows the field: as many characters are skipped as the specification is far from the start, so text is lost and malformed strings are accepted (C59_tuple_refuted, compare C46). C59_library_same: of types of the library it is the tuple of Format.v. The elements may be tuples again, or ranges and optionals of them, to any depth (C59_nested_example).
* **C60** All functions write the same for user-defined formatters: *proved*. The promise of the formatters is the hypothesis of C56. The eof case is possible: a number with many digits is written in one piece, for which a cache is too small (C16_size_refuted, C60_long_example). Files that accept everything; for back_insert_iterators see C13, C17. C60_library_same: for types of the library they are the functions of FormatApi.v.
* **C61** Reads of an expected text: *proved*. C61_one_at_a_time also says where reading the characters one by one stops.
* **C62** counting_buffer counts what has been written: *proved*. A cache of no characters (a template argument of 0) is not covered. The functions that use the buffer: C16, C60.
* **C63** Writing through a pointer: *proved*. The buffer does not know the size of the memory; a text that does not fit is undefined behaviour (C63_too_long). format_to with a pointer: C17_pointer.

## 6. Mutation tests

`seeded/LOG.jsonl` records edits of the model as a bug would make them (in a
scratch copy) and the claim each breaks. `failed` lists the lemmas and theorems
whose proofs stopped working; `not_reached` the property theorems of the claim
that were not rebuilt because something they depend on failed, which by itself
does not show that they are false; `refuted` the property theorems whose negation
was proved for the edited model.

## 7. Conformance tests

`Conformance.v`, `ConformanceFormat.v`, `ConformanceScan.v` and
`ConformanceMisc.v` replay the assertions of the project's unit tests
(`/repo/test/unit_test`) on the model, about 1200 of them, by computation. They
are tests, not proofs: they give evidence that the hand-written model returns
what the authors of the code expect, which the theorems alone cannot give. They
cover test_format, test_scan, integer_ranges, test_reader, test_writer,
test_buffer, test_ranges, test_std, test_dynamic_format_spec, test_format_string,
test_format_to(_n)_api, test_format_could_fail_api, test_formatted_size,
test_print, test_iterator, test_result and the tests of detail/. The range tests
of scan and parse_int exercise signed overflow, which is undefined in ISO C++;
they hold in the mode in which signed arithmetic wraps (`fwrapv`).
Cases that print many digits of a double are checked at compile time only (`Check`),
as checking them again with coqchk, which has no virtual machine, takes minutes.

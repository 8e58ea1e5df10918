{"id": "C01", "title": "Integer parsing returns the exact value or out_of_range", "statement": "reader::parse_int<T>(base) consumes the maximal run of valid digits (after an optional sign) and returns exactly the mathematical value they denote when that value is representable in T, and err::out_of_range when it is not (for unsigned T a minus sign in front of digits is always out_of_range). It never silently returns a different value.", "quantifier": "for every input string, every position, every base 2..36 and every integer type T", "why_tests_cant": "The overflow test in the loop only misfires for particular (value, digit, base) combinations far from the boundary values that tests pick; there are unboundedly many digit strings.", "anchors": ["include/emio/reader.hpp: detail::parse_int, reader::parse_int", "include/emio/detail/conversion.hpp: char_to_digit"]}
{"id": "C02", "title": "Integer parsing accepts only real digits", "statement": "A character is consumed as a digit by reader::parse_int<T>(base) only if it is one of 0-9, a-z, A-Z and its digit value is below base.", "quantifier": "for every character and every base 2..36", "why_tests_cant": "256 characters times 35 bases times every following context; tests sample letters and digits only.", "anchors": ["include/emio/detail/conversion.hpp: char_to_digit", "include/emio/reader.hpp: detail::parse_int"]}
{"id": "C03", "title": "Integer text round trip", "statement": "Writing any integer with writer::write_int in any base (lower or upper case) and reading the text back with reader::parse_int<T> in the same base yields the same integer and consumes the whole text.", "quantifier": "for every value of every integer type of 8..64 bits, every base 2..36, both letter cases", "why_tests_cant": "2^64 values times 35 bases times 2 cases.", "anchors": ["include/emio/writer.hpp: writer::write_int", "include/emio/reader.hpp: reader::parse_int", "include/emio/detail/conversion.hpp: write_number, get_number_of_digits"]}
{"id": "C04", "title": "write_int emits the canonical numeral", "statement": "writer::write_int emits an optional '-' followed by the canonical numeral of the absolute value in the requested base (no leading zeros, most significant digit first, requested letter case), and fills exactly the bytes it reserved - none outside, none left uninitialised.", "quantifier": "for every integer, base 2..36, case and every initial content of the write area", "why_tests_cant": "The digit count and the digit writer are separate algorithms that must agree on all 2^64 values and 35 bases.", "anchors": ["include/emio/writer.hpp: writer::write_int", "include/emio/detail/conversion.hpp: get_number_of_digits, count_digits_10, count_digits, write_number, write_decimal, write_uint"]}
{"id": "C05", "title": "Reader never leaves its input", "statement": "Whatever sequence of reader operations is performed, the position stays within [0, size], every returned view is a contiguous substring of the original input lying between two positions of the reader, and no character outside the input is read.", "quantifier": "for every input and every finite sequence of reader operations with arbitrary arguments", "why_tests_cant": "The set of operation histories is infinite.", "anchors": ["include/emio/reader.hpp: class reader"]}
{"id": "C06", "title": "Failed reader operations do not consume input", "statement": "When read_char, peek, parse_int, read_if_match_char/str, read_until_* or read_n_chars fails, the reader position is exactly what it was before the call.", "quantifier": "for every input, position, argument and option combination", "why_tests_cant": "Failure can be triggered at every prefix of every input.", "anchors": ["include/emio/reader.hpp: reader::parse_int, read_until_match, read_if_match_char, read_if_match_str, read_n_chars"]}
{"id": "C07", "title": "read_until_* finds the first delimiter", "statement": "read_until_char/str/any_of/none_of return exactly the text before (or including, on include_delimiter) the FIRST occurrence of the delimiter, leave the delimiter in or skip it according to keep_delimiter, and without occurrence either return everything up to the end (default) or fail with invalid_data (ignore_eof = true); on an empty rest they fail with eof.", "quantifier": "for every input, position, delimiter and option combination", "why_tests_cant": "Unbounded inputs and delimiters; 'first' is a universally quantified statement.", "anchors": ["include/emio/reader.hpp: read_until_char, read_until_str, read_until_any_of, read_until_none_of, read_until, read_until_match"]}
{"id": "C08", "title": "Reader cursor arithmetic", "statement": "pop/unpop move by min(n, room) and saturate; read_char returns the character at the position and advances by one; read_n_chars(n) returns exactly the next n characters or fails with eof; read_remaining/view_remaining return the rest; subreader(pos, len) covers exactly the clamped range.", "quantifier": "for every input, position and count", "why_tests_cant": "Counts range over all of size_t, inputs are unbounded.", "anchors": ["include/emio/reader.hpp: pop, unpop, read_char, read_n_chars, subreader, read_remaining"]}
{"id": "C09", "title": "memory_buffer holds exactly what was written", "statement": "After any sequence of writes through a writer, memory_buffer::view() equals the concatenation of the written data in order; no write fails; no byte outside the allocation is touched, however often the storage is reallocated.", "quantifier": "for every history of writes of arbitrary sizes, and resets", "why_tests_cant": "Growth interleavings are unbounded.", "anchors": ["include/emio/buffer.hpp: memory_buffer, buffer::get_write_area_of, get_write_area_of_max", "include/emio/writer.hpp: write_str, write_char_n", "include/emio/detail/ct_vector.hpp: reserve"]}
{"id": "C10", "title": "Fixed buffers never overflow and fail exactly when full", "statement": "A span_buffer/static_buffer of capacity c accepts a write of n bytes completely iff n <= c - used; otherwise the writer reports eof, what has been stored is a prefix of the requested output, and no byte beyond c is ever touched.", "quantifier": "for every capacity, fill level and history of writes", "why_tests_cant": "All capacities times all histories.", "anchors": ["include/emio/buffer.hpp: span_buffer, static_buffer, buffer::get_write_area_of"]}
{"id": "C11", "title": "memory_buffer copies and moves are memory safe", "statement": "Copy/move construction and assignment of memory_buffer (ct_vector) preserve the visible content and leave both objects in states in which every later operation accesses only memory owned by the object.", "quantifier": "for every pair of buffer states and every subsequent history", "why_tests_cant": "The failing combinations need specific capacity/size relations of two objects followed by further writes.", "anchors": ["include/emio/buffer.hpp: memory_buffer copy/move", "include/emio/detail/ct_vector.hpp: ct_vector"]}
{"id": "C12", "title": "Cached sinks deliver everything exactly once in order", "statement": "For an iterator_buffer over an output iterator and a file_buffer, after a successful flush the sink has received exactly the concatenation of all data written, once and in order, for any cache size >= 1.", "quantifier": "for every history of write/flush operations, every cache size and chunking", "why_tests_cant": "Flush points depend on the interleaving of sizes and cache size.", "anchors": ["include/emio/buffer.hpp: iterator_buffer, file_buffer"]}
{"id": "C13", "title": "Appending through std::back_inserter appends", "statement": "Formatting through std::back_inserter(container) leaves the container equal to its previous content followed by the formatted text, without touching memory outside the container.", "quantifier": "for every initial content, capacity and history of writes", "why_tests_cant": "Depends on the container's capacity and write-size sequence.", "anchors": ["include/emio/buffer.hpp: iterator_buffer<std::back_insert_iterator<Container>>"]}
{"id": "C14", "title": "truncating_buffer passes on exactly the first limit characters", "statement": "truncating_buffer forwards exactly the first min(limit, n) of n written characters to the primary buffer and count() reports n.", "quantifier": "for every limit, history of writes and primary buffer behaviour", "why_tests_cant": "Depends on how the primary chunks its write areas.", "anchors": ["include/emio/buffer.hpp: truncating_buffer"]}
{"id": "C15", "title": "format_to_n writes a prefix and reports the full size", "statement": "format_to_n(out, n, ...) writes exactly the first min(n, size) characters of what format would produce to out and reports the full size.", "quantifier": "for every output, every n", "why_tests_cant": "Universal over outputs and limits.", "anchors": ["include/emio/iterator.hpp: truncating_iterator", "include/emio/format.hpp: format_to_n"]}
{"id": "C16", "title": "formatted_size equals the length of the formatted output", "statement": "formatted_size(fmt, args...) equals format(fmt, args...).size(); whenever one succeeds so does the other.", "quantifier": "for every format string and argument list", "why_tests_cant": "Depends on cache-size boundaries reached only by particular values and precisions.", "anchors": ["include/emio/format.hpp: formatted_size", "include/emio/buffer.hpp: detail::counting_buffer"]}
{"id": "C17", "title": "All sinks receive the same bytes", "statement": "For the same format string and arguments every sink (string, fixed buffer that is large enough, iterator, file, counting) observes the same byte sequence and the same success/failure.", "quantifier": "for every sequence of writer operations and every sink", "why_tests_cant": "Product of outputs and sink states.", "anchors": ["include/emio/buffer.hpp: all buffers", "include/emio/writer.hpp: class writer"]}
{"id": "C18", "title": "Escaping is exact and reversible", "statement": "write_str_escaped/write_char_escaped emit a quote, the escaped text and a quote; every emitted byte is printable ASCII; the number of bytes is count_size_when_escaped + 2; and the original text can be recovered from the output by un-escaping (two different texts never give the same output).", "quantifier": "for every byte string, and every chunking of the write area down to single bytes", "why_tests_cant": "All strings and all chunk boundaries inside an escape sequence.", "anchors": ["include/emio/detail/utf.hpp: write_escaped_helper, count_size_when_escaped", "include/emio/writer.hpp: write_str_escaped, write_char_escaped"]}
{"id": "C19", "title": "Writer emits exactly what was requested whatever the chunking", "statement": "write_char, write_str and write_char_n emit exactly the given bytes in order when the buffer hands out its space in arbitrary non-empty pieces, and terminate.", "quantifier": "for every text, every count and every sequence of granted area sizes", "why_tests_cant": "Chunk sequences are unbounded.", "anchors": ["include/emio/writer.hpp: write_char, write_str, write_char_n"]}
{"id": "C20", "title": "Validated specs are parsed identically without checks", "statement": "If a replacement-field specification passes validation, then the unchecked parser used at format time consumes exactly the same characters, yields the same specification, and never reads past the end.", "quantifier": "for every format string and position", "why_tests_cant": "The unchecked parser assumes validity at each step; the string space is infinite.", "anchors": ["include/emio/detail/format/formatter.hpp: validate_format_specs, parse_format_specs"]}
{"id": "C21", "title": "Accepted format strings are exactly the well-formed ones", "statement": "A format string is accepted iff it is a sequence of literal text, doubled braces and replacement fields whose indices are all automatic or all manual, lie below the number of arguments, cover every argument, and whose specs are valid for the referenced argument.", "quantifier": "for every string and argument list", "why_tests_cant": "All strings.", "anchors": ["include/emio/detail/parser.hpp: parser, parser::validate", "include/emio/detail/validated_string_storage.hpp: from"]}
{"id": "C22", "title": "Format output is the concatenation of its parts", "statement": "Formatting with an accepted format string produces exactly the literal text (with doubled braces halved) and the rendering of the referenced argument for each field, in order, and never reads outside the format string.", "quantifier": "for every accepted format string and matching argument list", "why_tests_cant": "All strings and argument lists.", "anchors": ["include/emio/detail/parser.hpp: parser::parse", "include/emio/detail/format/format_to.hpp"]}
{"id": "C23", "title": "Doubling braces quotes any text", "statement": "For any text t, formatting t with every '{' and '}' doubled and no arguments yields t; scanning t with it matches exactly t; and text without braces is its own format string.", "quantifier": "for every text", "why_tests_cant": "All texts.", "anchors": ["include/emio/detail/parser.hpp: parser::parse, parser::validate", "include/emio/detail/validated_string_storage.hpp: check_if_plain_string"]}
{"id": "C24", "title": "A validated format never fails", "statement": "Formatting into a sink with sufficient space with a format string that passed validation always succeeds (format() relies on it by unwrapping the result).", "quantifier": "for every accepted format string, argument list and sink", "why_tests_cant": "All strings, values and sinks.", "anchors": ["include/emio/format.hpp: format, print, formatted_size", "include/emio/detail/format/formatter.hpp: check_integral_specs, make_write_int_options"]}
{"id": "C25", "title": "Integer formatting layout", "statement": "A formatted integer is: sign per the sign option, base prefix iff '#', canonical digits in the base and case of the type; padded with the fill character to the width according to the alignment (default right), or with zeros between prefix and digits when the zero flag is given.", "quantifier": "for every integer value and every valid specification", "why_tests_cant": "Values x specs.", "anchors": ["include/emio/detail/format/formatter.hpp: write_arg(int), make_write_int_options, write_prefix, write_padded, write_padding_left, write_padding_right"]}
{"id": "C26", "title": "Width is a minimum and is met exactly", "statement": "The output of a field of width w with natural output n has length max(w, n), consists of n with fill characters added on the side(s) demanded by the alignment (centre: floor of half on the left), and never truncates n.", "quantifier": "for every argument of every built-in type and every valid specification", "why_tests_cant": "Values x specs.", "anchors": ["include/emio/detail/format/formatter.hpp: write_padded, write_arg(char), write_arg(string_view)"]}
{"id": "C27", "title": "String formatting", "statement": "A string argument prints its first min(precision, size) characters (escaped and quoted with '?'), default left aligned.", "quantifier": "for every string and valid spec", "why_tests_cant": "All strings.", "anchors": ["include/emio/detail/format/formatter.hpp: write_arg(string_view)"]}
{"id": "C28", "title": "Bool, char and pointer formatting", "statement": "bool prints true/false or its integer rendering, char prints itself, its integer rendering or its escaped form, a pointer prints 0x followed by the lower-case hex address.", "quantifier": "for every value and spec", "why_tests_cant": "Values x specs.", "anchors": ["include/emio/detail/format/formatter.hpp: write_arg(bool), write_arg(char), write_arg(void*)"]}
{"id": "C29", "title": "Format/scan round trip for integers", "statement": "Scanning the output of format with the same integer specification ({}, {:d}, {:x}, {:X}, {:b}, {:o} and the '#' forms) returns the original value.", "quantifier": "for every integer value of every scannable type", "why_tests_cant": "2^64 values.", "anchors": ["include/emio/detail/scan/scanner.hpp: read_arg, parse_alternate_form, determine_base", "include/emio/detail/format/formatter.hpp: write_arg(int)"]}
{"id": "C30", "title": "decode is exact", "statement": "Decoding a double yields a mantissa/exponent pair equal to its exact value, neighbours' half distances which bound exactly (or within) its rounding interval, the right category and the right sign.", "quantifier": "for every 64-bit pattern", "why_tests_cant": "2^64 patterns.", "anchors": ["include/emio/detail/format/decode.hpp: decode"]}
{"id": "C31", "title": "Big-number arithmetic is exact", "statement": "Each bignum operation used by the float formatter (construction, add, sub, mul_small, mul_pow2, mul_pow5, mul_digits, div_rem_small, comparison, is_zero) computes exactly the mathematical result whenever the result fits.", "quantifier": "for every operand value", "why_tests_cant": "Operands of up to 1088 bits.", "anchors": ["include/emio/detail/bignum.hpp: bignum"]}
{"id": "C32", "title": "Float formatting never overflows its big numbers or buffers", "statement": "For every double and every requested precision all intermediate big numbers stay within the fixed 34 blocks, all loops terminate, and all digit stores stay within the area reserved.", "quantifier": "for every finite double and every precision 0..1100", "why_tests_cant": "2^64 doubles x precisions.", "anchors": ["include/emio/detail/format/dragon.hpp: format_shortest, format_exact, estimate_scaling_factor", "include/emio/detail/bignum.hpp: bignum"]}
{"id": "C33", "title": "Shortest float output reads back as the same double", "statement": "The decimal produced by default ({}) formatting of a finite double lies in that double's rounding interval, so that correct round-to-nearest-even parsing returns the identical double.", "quantifier": "for every finite double", "why_tests_cant": "2^64 doubles.", "anchors": ["include/emio/detail/format/dragon.hpp: format_shortest", "include/emio/detail/format/formatter.hpp: format_decimal"]}
{"id": "C34", "title": "Shortest float output is the shortest and has at most 17 digits", "statement": "No decimal with fewer significant digits lies in the interval used, and the number of digits is between 1 and 17, the first non-zero.", "quantifier": "for every finite non-zero double", "why_tests_cant": "2^64 doubles and all shorter decimals.", "anchors": ["include/emio/detail/format/dragon.hpp: format_shortest"]}
{"id": "C35", "title": "Exact mode is correctly rounded", "statement": "With a precision of p significant digits the digits printed are those of the exact binary value rounded half-to-even at that position.", "quantifier": "for every finite double and precision 0..1100", "why_tests_cant": "2^64 doubles x precisions.", "anchors": ["include/emio/detail/format/dragon.hpp: format_exact (significand_digit)", "include/emio/detail/format/formatter.hpp: format_decimal"]}
{"id": "C36", "title": "Fixed notation prints exactly the requested number of decimals, correctly rounded", "statement": "{:.Nf} prints the exact value rounded half-to-even to N decimals with exactly N digits after the point.", "quantifier": "for every finite double and N 0..1100", "why_tests_cant": "2^64 doubles x precisions; the failing carries are rare.", "anchors": ["include/emio/detail/format/dragon.hpp: format_exact (decimal_point)", "include/emio/detail/format/formatter.hpp: write_decimal"]}
{"id": "C37", "title": "Float text denotes the digits produced", "statement": "The text assembled from the digit string and exponent (fixed, scientific or general layout) denotes exactly digits*10^exponent, uses the notation the type demands, fills exactly the reserved bytes, and is padded per the spec.", "quantifier": "for every digit string, exponent and spec", "why_tests_cant": "Layout depends on the relation of digit count, exponent and precision.", "anchors": ["include/emio/detail/format/formatter.hpp: write_decimal, write_significand, write_exponent, write_arg(double)"]}
{"id": "C38", "title": "Sign and special values", "statement": "Negative values including -0.0 (and negative nan/inf) print '-', others follow the sign option; inf and nan print as such in the requested case and are padded with spaces, never zeros.", "quantifier": "for every 64-bit pattern and spec", "why_tests_cant": "All patterns and specs.", "anchors": ["include/emio/detail/format/formatter.hpp: write_arg(double), write_non_finite, try_write_sign"]}
{"id": "C39", "title": "scan matches literals and demands the whole input", "statement": "scan succeeds only if the literal text of the format string matches the input exactly at its place, and the whole input is consumed; scan_from leaves the reader right behind the matched part.", "quantifier": "for every input and format string", "why_tests_cant": "All pairs of strings.", "anchors": ["include/emio/detail/scan/parser.hpp: scan_parser::process", "include/emio/detail/scan/scan_from.hpp: vscan"]}
{"id": "C40", "title": "A string field reads up to the first occurrence of the following literal", "statement": "Scanning {} into a string consumes exactly the input before the first occurrence of the literal text that follows the field (with doubled braces halved).", "quantifier": "for every input and following literal", "why_tests_cant": "All pairs.", "anchors": ["include/emio/detail/scan/scanner.hpp: read_string, read_string_complex"]}
{"id": "C41", "title": "Width limits what scan consumes", "statement": "A scan field of width w consumes exactly w characters of input or fails.", "quantifier": "for every input, width and target type", "why_tests_cant": "All inputs.", "anchors": ["include/emio/detail/scan/scanner.hpp: read_arg, read_string"]}
{"id": "C42", "title": "A failed scan field leaves its target unchanged", "statement": "If scanning a field fails, the target variable and the reader position of that field are unchanged.", "quantifier": "for every input and spec", "why_tests_cant": "Failure at every point.", "anchors": ["include/emio/detail/scan/scanner.hpp: read_arg", "include/emio/scanner.hpp"]}
{"id": "C43", "title": "result carries value or error faithfully", "statement": "result<T> holds exactly one of value and error; value()/error()/assume_* /operator== agree with what was stored, and error propagation (EMIO_TRY) returns the first error unchanged.", "quantifier": "for every sequence of results", "why_tests_cant": "Universal over values and chains.", "anchors": ["include/emio/result.hpp: result"]}
{"id": "C44", "title": "Argument coverage bookkeeping", "statement": "The set of referenced argument numbers recorded while validating contains exactly the numbers set, and 'all first n' is true iff each number below n was set.", "quantifier": "for every set of positions and n", "why_tests_cant": "2^128 sets.", "anchors": ["include/emio/detail/bitset.hpp: bitset"]}
{"id": "C45", "title": "Range formatting", "statement": "A range prints opening bracket, its elements rendered with the element specification separated by the separator, closing bracket; nested ranges recursively; 'n' drops the brackets; default element rendering of strings/chars is escaped.", "quantifier": "for every finite range, nesting and element spec", "why_tests_cant": "Unbounded lengths and nesting.", "anchors": ["include/emio/ranges.hpp: formatter", "include/emio/detail/format/ranges.hpp: ranges_specs"]}
{"id": "C46", "title": "Fields holding tuples do not disturb the rest of the format string", "statement": "Formatting a tuple/pair field consumes exactly that field's specification; the text and fields behind it are rendered unchanged.", "quantifier": "for every tuple and surrounding format string", "why_tests_cant": "Depends on absolute position of the field.", "anchors": ["include/emio/ranges.hpp: formatter"]}
{"id": "C47", "title": "Dynamic specs equal static specs", "statement": "Formatting through format_spec with width w / precision p gives the same output as the literal spec {:w.p}, and out-of-range values are rejected.", "quantifier": "for every value, width and precision", "why_tests_cant": "All widths and precisions.", "anchors": ["include/emio/formatter.hpp: format_spec_with_value, format_spec"]}
{"id": "C48", "title": "Padding for large sizes", "statement": "Padding is computed from the true length of the text, whatever its length.", "quantifier": "for every text length", "why_tests_cant": "Needs texts of more than 2^31 bytes.", "anchors": ["include/emio/detail/format/formatter.hpp: write_padding_left, write_padded"]}
{"id": "C49", "title": "Accepted scan strings are exactly the well-formed ones", "statement": "A scan format string is accepted iff it is a sequence of literal text, doubled braces and replacement fields whose indices are all automatic or all manual, lie below the number of targets, cover every target, and whose specs ('#', width, type) are valid for the referenced target; every other string is rejected.", "quantifier": "for every string and list of target types", "why_tests_cant": "All strings.", "anchors": ["include/emio/detail/parser.hpp: parser, validate", "include/emio/detail/scan/scanner.hpp: validate_format_specs, check_integral_specs, check_char_specs, check_string_specs", "include/emio/scanner.hpp: scanner"]}
{"id": "C50", "title": "Scanning is total", "statement": "Whatever the input, scanning with an accepted format string either succeeds or returns an error: it never reads outside the input or the format string, never runs into undefined behaviour and never terminates the program.", "quantifier": "for every input, accepted format string and list of targets", "why_tests_cant": "All pairs of strings.", "anchors": ["include/emio/detail/scan/scanner.hpp: read_arg, read_string, read_string_complex, parse_format_specs", "include/emio/detail/scan/parser.hpp: scan_parser", "include/emio/detail/scan/scan_from.hpp: scan_from"]}
{"id": "C51", "title": "Standard library types", "statement": "An optional with a value prints optional(...) around exactly what its value prints with the same specification; an empty one prints none whatever the specification. A variant prints variant(...) around its alternative as a field without specification prints it, characters and strings quoted and escaped, and variant(valueless by exception) without an alternative; monostate prints monostate.", "quantifier": "for every type and value within (nested to any depth) and every specification", "why_tests_cant": "Optionals and variants of any nesting of types, with every specification of the type within.", "anchors": ["include/emio/std.hpp: formatter<std::optional>, formatter<std::variant>, formatter<std::monostate>"]}
{"id": "C52", "title": "Constant evaluation and run time do the same", "statement": "Formatting, sizing, validating and scanning with directly passed arguments (constant evaluation) give the same result, output and error as with type erased arguments (run time), and the type erased storage of integers keeps their value.", "quantifier": "for every format string, list of arguments and sink", "why_tests_cant": "The two paths are different code, chosen by the compiler; tests compare them for a handful of strings.", "anchors": ["include/emio/detail/args.hpp: args_storage, arg", "include/emio/detail/parser.hpp: parser_base, validate", "include/emio/detail/format/format_to.hpp: format_to, vformat_to", "include/emio/detail/scan/scan_from.hpp: scan_from, vscan_from", "include/emio/format.hpp: formatted_size"]}
{"id": "C53", "title": "Validated strings", "statement": "A validated string holds a string exactly if the string is valid for the argument types; otherwise every way of using it gives the error and a literal one does not compile. A string counts as plain, and is then written without parsing, exactly if there are no arguments and it has no braces, with the same effect as parsing it.", "quantifier": "for every string and list of argument types", "why_tests_cant": "All strings; a wrong short cut shows only for particular placements of braces.", "anchors": ["include/emio/detail/validated_string.hpp: validated_string, valid_string", "include/emio/detail/validated_string_storage.hpp: validated_string_storage, check_if_plain_string"]}
{"id": "C54", "title": "Nested arguments", "statement": "A field with the result of make_format_args does exactly what formatting these arguments on their own does, including its errors.", "quantifier": "for every format string, list of arguments and sink", "why_tests_cant": "Unbounded nesting of calls, on every kind of buffer and for every failure in the middle.", "anchors": ["include/emio/detail/format/args.hpp: format_args", "include/emio/detail/format/format_to.hpp: formatter<detail::format::format_args>, vformat_to"]}
{"id": "C55", "title": "Arguments of type float", "statement": "A float is formatted, with every specification, as the one double with its sign and value; infinities and NaNs stay what they are. Different floats are different arguments, and the digits printed without specification, read as float with correct rounding, give the float again.", "quantifier": "for every float (bit pattern) and specification", "why_tests_cant": "2^32 floats with every specification; the subnormal floats take another path of the conversion.", "anchors": ["include/emio/detail/format/formatter.hpp: unified_type, write_arg(double)", "include/emio/detail/format/decode.hpp: decode"]}
{"id": "C56", "title": "User-defined formatters", "statement": "With formatters of the user that read a specification up to its closing brace, stop parsing where they stopped validating and then write and return what they promise, a format string is accepted exactly if its fields name the arguments consistently, use all of them and have specifications the formatters read (or if it is cut short by a field with the number 255). Formatting writes the characters and what the formatters write, in order, to every kind of buffer; the first formatter that fails ends it with its error. A formatter without a validate function is validated by its parse function. The formatters of the library are a special case.", "quantifier": "for every list of formatters keeping the promise, format string and sink", "why_tests_cant": "The code of the user is arbitrary; tests only run particular formatters.", "anchors": ["include/emio/formatter.hpp: formatter", "include/emio/detail/format/formatter.hpp: validate_trait", "include/emio/detail/format/args.hpp: format_arg_trait", "include/emio/detail/parser.hpp: parser"]}
{"id": "C57", "title": "User-defined scanners", "statement": "With scanners of the user that read a specification up to its closing brace, stop parsing where they stopped validating and then take from the input or fail as they promise, a scan string is accepted exactly if its fields name the variables consistently, use all of them and have specifications the scanners read (or if it is cut short by a field with the number 255); with any other string the call fails and neither input nor variables change. A scan reads the input from the position of the reader on as the text of the string in which every field stands for a piece that its scanner takes, in order, each variable getting the value of its scanner; or it stops at the first text that does not match or the first scanner that fails, with that error, the variables before it being set and those behind it unchanged. If the scanners leave nothing open, an input of that form is read that way. The scanners of the library are a special case; scanners built from others by inheritance, with read_int or with scan_from of their own keep a promise if those do.", "quantifier": "for every list of scanners keeping the promise, scan string, input, position and variables", "why_tests_cant": "The code of the user is arbitrary; tests only run particular scanners.", "anchors": ["include/emio/scanner.hpp: scanner", "include/emio/detail/scan/args.hpp: scan_arg_trait", "include/emio/detail/scan/parser.hpp: scan_parser", "include/emio/detail/parser.hpp: parser", "docs/API.md: Custom scanner"]}
{"id": "C58", "title": "Ranges, optionals and variants of other types", "statement": "If the formatter of the elements keeps its promise (C56), accepts an empty specification and has a validate function, the formatter of a range of them reads exactly an optional n and nothing or a colon with a specification of the elements, and writes the opening bracket, the elements in order with the separator between them and the closing bracket, or without brackets with n; the first element that fails ends it with its error. The formatter of an optional has the specifications of its value and writes none or the value in optional(...); that of a variant reads only an empty specification and writes the value in variant(...) as with an empty specification, characters and texts escaped; formatters that derive from others and convert the value keep their promise. These can be nested in any way and used as arguments, with any brackets and separator. For elements of the library they are the formatters of C21 and C22; characters and texts in ranges are escaped only if there is no specification for them.", "quantifier": "for every element formatter keeping its promise, range, value, nesting, format string and sink", "why_tests_cant": "The element type and its formatter are arbitrary; tests only run particular ones.", "anchors": ["include/emio/ranges.hpp: formatter", "include/emio/detail/format/ranges.hpp: maybe_set_debug_format", "include/emio/std.hpp: formatter", "include/emio/formatter.hpp: formatter (enums, format_as)"]}
{"id": "C59", "title": "Tuples and pairs of other types", "statement": "If the formatters of the elements keep their promise, accept an empty specification and have a validate function, a format string that ends with the only field of a tuple of them is accepted if it is well-formed (an optional n, and nothing or a colon with a specification that every element reads), and writes the opening bracket, the elements in order with the separator between them and the closing bracket, or without brackets with n; the first element that fails ends it with its error. The same holds for tuples whose elements are tuples again, for ranges (such as maps) and optionals of tuples, to any depth, and for those held by a variant. If the reader were moved to the position where the elements stopped, instead of by that many characters, it would hold for all strings. Of types of the library it is the tuple formatter of C46.", "quantifier": "for every tuple of element formatters keeping their promise, value, other arguments, format string and sink", "why_tests_cant": "The elements and their formatters are arbitrary; tests only run particular ones.", "anchors": ["include/emio/detail/format/ranges.hpp: formatter (tuple-like)"]}
{"id": "C60", "title": "All functions write the same for user-defined formatters", "statement": "For an accepted format string whose arguments keep their promises there are an output and a result (those of C56) such that: format returns the output; formatted_size its length; format_to with an iterator, print and println deliver it; format_to with a pointer stores exactly it; format_to_n delivers its first n characters and returns the length of all. If a formatter fails, all return its error, and what has arrived in the sink is a beginning of the output. Sinks with a cache may instead stop with eof, but only if the output is longer than the cache (128 characters). With a rejected string all fail with invalid_format and nothing arrives.", "quantifier": "for every format string, arguments with formatters keeping their promise, iterator, file content, memory and limit", "why_tests_cant": "The formatters are arbitrary programs and the sinks have different buffering; tests only run particular combinations.", "anchors": ["include/emio/format.hpp: formatted_size, format, format_to, format_to_n, print, println", "include/emio/buffer.hpp: iterator_buffer, counting_buffer, truncating_buffer, file_buffer, span_buffer"]}
{"id": "C61", "title": "Reads of an expected text", "statement": "read_if_match_char(c) and read_if_match_str(s) succeed exactly when c or s comes next, return it and advance by its length. Otherwise nothing is consumed, and the error is eof when fewer characters remain than expected, even if the first of them differ already, and invalid_data else. read_if_match_str succeeds exactly when reading its characters one after the other does, and ends at the same position.", "quantifier": "for every input, position and expected text", "why_tests_cant": "Inputs and texts are unbounded; the order of the two errors shows only for short inputs that also differ.", "anchors": ["include/emio/reader.hpp: read_if_match_char, read_if_match_str", "include/emio/detail/conversion.hpp: equal_n"]}
{"id": "C62", "title": "counting_buffer counts what has been written", "statement": "After any sequence of writer calls count() of a counting_buffer is the number of characters of the calls that succeeded, for every cache size of at least one character. A call fails, with eof and without effect on the count, only if it writes a number or character in one piece and that piece is larger than the cache. If no piece is, all calls succeed and the count is the length of all texts together.", "quantifier": "for every cache size and sequence of calls", "why_tests_cant": "Counts depend on how the texts fall onto the boundaries of the cache; tests use the default size and short texts.", "anchors": ["include/emio/buffer.hpp: counting_buffer", "include/emio/writer.hpp: write_str, write_char, write_char_n, write_int, write_str_escaped"]}
{"id": "C63", "title": "Writing through a pointer", "statement": "When the texts of a sequence of writer calls fit into the memory behind the pointer of an iterator_buffer, all calls succeed, the memory holds the texts one after the other, the memory behind them is unchanged, and out() points behind the last character.", "quantifier": "for every memory content and size and every sequence of calls", "why_tests_cant": "Memory sizes, texts and ways to divide them over calls are unbounded.", "anchors": ["include/emio/buffer.hpp: iterator_buffer<OutputPtr*>", "include/emio/writer.hpp: write_str, write_char, write_char_n, write_int, write_str_escaped"]}

{"id": "C01", "title": "Correctly rounded floating-point parsing", "statement": "When from_chars / from_chars_advanced accepts a decimal number, the value stored in a double, float or bfloat16 is the representable value nearest to the exact decimal value of the matched text, ties going to the even significand, overflow going to infinity and underflow to zero, with the sign of the text.", "quantifier": "every character sequence (any number of digits, any exponent, shorter than 268,000,000 characters), every option set whose decimal point is not a digit, every character type, every build configuration and thread rounding mode", "why_tests_cant": "There are infinitely many digit strings, hard cases sit exponentially close to midpoints between floats, and three different algorithms (Clinger, Eisel-Lemire, big-integer comparison) must agree; no finite test set covers the hard cases.", "anchors": ["include/fast_float/parse_number.h: from_chars, from_chars_advanced, from_chars_float_advanced, clinger_fast_path_impl", "include/fast_float/decimal_to_binary.h: compute_float", "include/fast_float/digit_comparison.h: digit_comp", "include/fast_float/bigint.h", "include/fast_float/fast_table.h"]}
{"id": "C02", "title": "Correctly rounded parsing into std::float16_t", "statement": "The same correct-rounding guarantee for std::float16_t.", "quantifier": "every accepted character sequence, parsed into std::float16_t", "why_tests_cant": "Tests sample numbers; the failing inputs are exact ties in the subnormal range with up to 19 significant digits, which random or round-trip tests do not hit.", "anchors": ["include/fast_float/decimal_to_binary.h: compute_float (subnormal branch, lines 148-177)", "include/fast_float/float_common.h: binary_format<std::float16_t>"]}
{"id": "C03", "title": "End pointer is exactly the longest match of the accepted grammar", "statement": "Outside JSON mode a floating-point parse succeeds as a number exactly when the text (after optional white space, when enabled) starts with a number of the grammar selected by the options, and then ptr points just past the longest such match. (In JSON mode the rule is that of C09.)", "quantifier": "every character sequence, every format flag combination (the claim fails, and is refuted, when basic_fortran is set without fixed or scientific), every non-digit decimal point", "why_tests_cant": "The grammar has many corner cases (dangling exponent, lone sign, lone point, missing digits) and suffixes are arbitrary; tests check a few of them.", "anchors": ["include/fast_float/ascii_number.h: parse_number_string", "include/fast_float/parse_number.h: from_chars_float_advanced"]}
{"id": "C04", "title": "Invalid input is reported and changes nothing", "statement": "If no number (and no permitted infinity/NaN spelling) starts the text, ec is invalid_argument, ptr equals the start of the text (after skipped white space) and the destination is left unmodified.", "quantifier": "every character sequence that does not start with an accepted token, every option set", "why_tests_cant": "The set of rejected inputs is infinite; a partial write or a moved pointer on one error path would escape finite tests.", "anchors": ["include/fast_float/ascii_number.h: parse_number_string, report_parse_error", "include/fast_float/parse_number.h: from_chars_float_advanced, parse_infnan"]}
{"id": "C05", "title": "result_out_of_range is reported exactly on overflow and underflow to zero", "statement": "For double, float and bfloat16 an accepted number yields result_out_of_range exactly when its value is nonzero but rounds to zero, or rounds to infinity; otherwise ec is success. The stored value is then the signed zero or signed infinity.", "quantifier": "every accepted number text", "why_tests_cant": "The boundary is a real-number threshold (half the smallest subnormal, half an ulp above the largest finite value) and texts arbitrarily close to it exist.", "anchors": ["include/fast_float/parse_number.h: from_chars_float_advanced lines 387-393, from_chars_advanced lines 283-289, clinger_fast_path_impl"]}
{"id": "C06", "title": "result_out_of_range for std::float16_t", "statement": "The same overflow/underflow reporting rule for std::float16_t.", "quantifier": "every accepted number text parsed into std::float16_t", "why_tests_cant": "The inputs that break it take the fast path with a small mantissa and a positive exponent, e.g. 7e4, and none of the repository tests uses one.", "anchors": ["include/fast_float/parse_number.h: clinger_fast_path_impl lines 200-246, from_chars_float_advanced line 371", "include/fast_float/float_common.h: binary_format<std::float16_t>::max_exponent_fast_path"]}
{"id": "C07", "title": "Infinity and NaN spellings", "statement": "When the text is not a number and no_infnan is not set, it is accepted exactly when it starts (after an optional minus, or plus if allowed) with nan, nan(n-char-seq), inf or infinity in any letter case; ptr is past the longest such spelling, and the value is the signed infinity or a quiet NaN. With no_infnan (and in particular with json) none of these is accepted.", "quantifier": "every character sequence and character type, every option set", "why_tests_cant": "All case combinations, all n-char-sequences, all truncations and all following text are covered by the claim; the comparison is done on masked words, so non-letter code units must be excluded for every value.", "anchors": ["include/fast_float/parse_number.h: parse_infnan", "include/fast_float/float_common.h: fastfloat_strncasecmp3, fastfloat_strncasecmp5"]}
{"id": "C08", "title": "White space and leading plus only when asked for", "statement": "Without skip_white_space a text starting with white space is rejected; with it, exactly the leading space, tab, newline, vertical tab, form feed and carriage return characters are skipped. Without allow_leading_plus a text starting with + is rejected, and JSON numbers never accept it.", "quantifier": "every character sequence, every option set, every character type", "why_tests_cant": "Depends on every code unit of every character type (including wide and negative ones), not on a list of samples.", "anchors": ["include/fast_float/float_common.h: is_space, space_lut", "include/fast_float/parse_number.h: from_chars_float_advanced, from_chars_int_advanced", "include/fast_float/ascii_number.h: parse_number_string"]}
{"id": "C09", "title": "JSON mode accepts exactly RFC 8259 numbers", "statement": "With chars_format::json a text is accepted exactly when the longest run of sign, digits, point, digits and exponent that starts it is an RFC 8259 number: every RFC 8259 number that is not followed by something that would continue it is accepted whole, everything accepted is an RFC 8259 number, and the value and end pointer are those of that number. (A text such as 01 or 1. is rejected although 0 and 1 are prefixes of it.) chars_format::json_or_infnan accepts in addition exactly the spellings of infinity and NaN.", "quantifier": "every character sequence", "why_tests_cant": "Language equivalence over an infinite language.", "anchors": ["include/fast_float/ascii_number.h: parse_number_string<true>", "include/fast_float/float_common.h: chars_format::json"]}
{"id": "C10", "title": "Fixed and scientific flags", "statement": "With fixed only, an exponent is never consumed; with scientific only, a number without a complete exponent is rejected; with both, the exponent is optional and a dangling exponent marker is left unconsumed; Fortran mode additionally accepts d, D and a bare signed exponent.", "quantifier": "every character sequence, every flag combination", "why_tests_cant": "Interaction of flags with arbitrary continuation of the text.", "anchors": ["include/fast_float/ascii_number.h: parse_number_string lines 456-504"]}
{"id": "C11", "title": "Custom decimal separators are equivalent to the point", "statement": "Parsing a text with decimal separator c gives the same value, error code and end position as parsing, with separator '.', the text in which c and '.' are exchanged, as long as c plays no other role in numbers.", "quantifier": "every character sequence, every separator that is not a digit, sign, letter, underscore, parenthesis or white space", "why_tests_cant": "Relational property over pairs of runs.", "anchors": ["include/fast_float/ascii_number.h: parse_number_string (decimal_point)", "include/fast_float/float_common.h: parse_options_t"]}
{"id": "C12", "title": "No undefined behaviour and no out-of-bounds access while parsing floats", "statement": "Every parse terminates normally: no read outside [first,last), no write or read outside the fixed-size big-integer buffers, no out-of-range table index, no over-long shift, no count-leading-zeros of zero and no signed overflow happens.", "quantifier": "every character sequence of at most 2^59 code units (excluding, for a signed 32-bit wchar_t, the 48 smallest values, none of which is a character and for which the claim is refuted), every option set, character type, destination type and build configuration", "why_tests_cant": "Memory safety quantifies over all inputs; sanitizer runs only see the executed ones.", "anchors": ["include/fast_float/ascii_number.h", "include/fast_float/bigint.h", "include/fast_float/decimal_to_binary.h", "include/fast_float/digit_comparison.h", "include/fast_float/parse_number.h"]}
{"id": "C13", "title": "Results do not depend on platform or build configuration", "statement": "The error code, end pointer and value bits are the same for compile-time (constexpr) and run-time evaluation, big- and little-endian machines, 32- and 64-bit limbs, with or without SSE2/NEON, 128-bit integers or compiler-specific fast paths.", "quantifier": "every input and every pair of build configurations", "why_tests_cant": "A test run exercises one configuration; agreement over all inputs between differently written code paths is a relational statement.", "anchors": ["include/fast_float/ascii_number.h: read8_to_u64, loop_parse_if_eight_digits, simd_parse_if_eight_digits_unrolled", "include/fast_float/float_common.h: leading_zeroes, full_multiplication", "include/fast_float/bigint.h: scalar_mul, limb", "include/fast_float/parse_number.h: clinger_fast_path_impl"]}
{"id": "C14", "title": "Results do not depend on the thread's floating-point rounding mode", "statement": "The parsed value is the round-to-nearest-even value whatever rounding direction is active, and the internal probe recognises the round-to-nearest mode exactly. Nor does it depend on the flush-to-zero and denormals-are-zero modes of the thread.", "quantifier": "every input, all four IEEE rounding directions; flush-to-zero/denormals-are-zero on or off", "why_tests_cant": "Relational over rounding modes for all inputs; hardware arithmetic is used only where every mode gives the same result.", "anchors": ["include/fast_float/parse_number.h: rounds_to_nearest, clinger_fast_path_impl"]}
{"id": "C15", "title": "Integer parsing is exact for types of at most 32 bits", "statement": "For every integer type of at most 32 bits (signed, unsigned, bool) and base 2..36, if the text starts with an optional sign and at least one digit of the base, the parse consumes exactly the longest digit run, stores the exact value if it fits and otherwise reports result_out_of_range.", "quantifier": "every character sequence, every base 2..36, every integer type up to 32 bits, every character type", "why_tests_cant": "Digit strings of any length wrap around modulo 2^64 internally; correctness for all lengths cannot be sampled.", "anchors": ["include/fast_float/ascii_number.h: parse_int_string", "include/fast_float/float_common.h: int_luts", "include/fast_float/parse_number.h: from_chars_int_advanced"]}
{"id": "C16", "title": "64-bit integer overflow is always detected", "statement": "For 64-bit integer types and every base 2..36, a text whose value does not fit is reported as result_out_of_range.", "quantifier": "every digit string, every base, int64_t and uint64_t", "why_tests_cant": "The check compares the wrapped value with a threshold; the inputs that escape it (for base 10: 20-digit values between 28446744073709551616 and 36893488147419103231, ...) are not in the test suite.", "anchors": ["include/fast_float/ascii_number.h: parse_int_string lines 776-787", "include/fast_float/float_common.h: min_safe_u64, maxdigits_u64"]}
{"id": "C17", "title": "Integer errors leave the destination and report the right pointer", "statement": "On result_out_of_range ptr is past the last digit of the run; on invalid_argument ptr is the start of the text (after skipped white space); in both cases the destination is unmodified.", "quantifier": "every character sequence, type, base", "why_tests_cant": "Many distinct return statements in special-cased code for 8- and 16-bit types; each must agree on all inputs.", "anchors": ["include/fast_float/ascii_number.h: parse_int_string"]}
{"id": "C18", "title": "Special-cased 8-bit and 16-bit unsigned parsing agrees with the general rule", "statement": "Parsing into uint8_t and uint16_t from char text in base 10 gives the same error code, pointer and value as the general digit-by-digit rule.", "quantifier": "every character sequence", "why_tests_cant": "Word-at-a-time bit tricks must be right for all 2^32 loaded words and all remaining lengths.", "anchors": ["include/fast_float/ascii_number.h: parse_int_string lines 603-745"]}
{"id": "C19", "title": "Integer base is validated", "statement": "A base outside 2..36 yields invalid_argument without writing the destination, whatever the text, and without looking at it beyond skipped white space.", "quantifier": "every integer base value, every text", "why_tests_cant": "Quantifies over all int values.", "anchors": ["include/fast_float/parse_number.h: from_chars_int_advanced"]}
{"id": "C20", "title": "integer_times_pow10 is correctly rounded", "statement": "integer_times_pow10(m, e) returns the value nearest to m*10^e, ties to even, with overflow to infinity and underflow to zero, for double, float and bfloat16.", "quantifier": "every uint64_t m and every int e", "why_tests_cant": "2^64 x 2^32 argument pairs with exponentially rare hard cases; correctness of the 128-bit approximation is a Diophantine statement about all m.", "anchors": ["include/fast_float/parse_number.h: integer_times_pow10", "include/fast_float/decimal_to_binary.h: compute_float, compute_product_approximation", "include/fast_float/fast_table.h"]}
{"id": "C21", "title": "Signed integer_times_pow10 is correctly rounded and defined", "statement": "integer_times_pow10 on a signed 64-bit mantissa returns the correctly rounded signed value for every argument, without undefined behaviour.", "quantifier": "every int64_t mantissa, every int exponent", "why_tests_cant": "The exceptional argument is a single value out of 2^64 and shows up only as undefined behaviour.", "anchors": ["include/fast_float/parse_number.h: integer_times_pow10(int64_t) line 429"]}
{"id": "C22", "title": "integer_times_pow10 agrees with from_chars", "statement": "integer_times_pow10(W,Q) equals the value from_chars stores for the text WeQ.", "quantifier": "every uint64_t W and every int Q", "why_tests_cant": "Relational over two entry points and 2^96 arguments.", "anchors": ["include/fast_float/parse_number.h: integer_times_pow10, from_chars"]}
{"id": "C23", "title": "All significant digits count", "statement": "Numbers with any number of significant digits are rounded from their exact value: truncating the digits is never visible, and the fixed-capacity big integer never overflows while doing so.", "quantifier": "every text with more than 19 significant digits", "why_tests_cant": "Unbounded digit counts; capacity bounds are worst-case statements over all digit strings and exponents.", "anchors": ["include/fast_float/digit_comparison.h: parse_mantissa, positive_digit_comp, negative_digit_comp", "include/fast_float/bigint.h: bigint, stackvec"]}
{"id": "C24", "title": "Wide-character texts parse like their narrow counterparts", "statement": "A UTF-16, UTF-32 or wchar_t text consisting of ASCII code units gives the same error code, end position and value as the same text in char.", "quantifier": "every ASCII text, every pair of supported character types", "why_tests_cant": "Relational over character types; different code paths (SIMD, word compares) are used.", "anchors": ["include/fast_float/ascii_number.h: read8_to_u64, simd_parse_if_eight_digits_unrolled", "include/fast_float/float_common.h: fastfloat_strncasecmp3, int_cmp_zeros", "include/fast_float/digit_comparison.h: skip_zeros, is_truncated"]}
{"id": "C25", "title": "Text after the number does not influence the result", "statement": "If the parse of s consumes exactly the prefix p and the first character after p cannot extend the number, then parsing p followed by any other such continuation gives the same value and error code.", "quantifier": "every accepted prefix and all continuations", "why_tests_cant": "Quantifies over all continuations; the implementation inspects characters beyond the number (e.g. when skipping zeros and separators).", "anchors": ["include/fast_float/ascii_number.h: parse_number_string lines 513-524"]}
{"id": "C26", "title": "Parsing is monotone", "statement": "If the decimal value of one accepted text is at most that of another, so are the stored values.", "quantifier": "every pair of accepted texts", "why_tests_cant": "Relational over pairs of inputs taking different algorithms.", "anchors": ["include/fast_float/parse_number.h: from_chars"]}
{"id": "C27", "title": "Exactly representable decimals round-trip", "statement": "If the decimal value of the text is exactly the value of some finite float, that float is returned; more generally any decimal strictly closer to a float than half the gap to its neighbours returns this float, so printing with enough digits and parsing is the identity.", "quantifier": "every finite double/float/bfloat16 value and every decimal text near it", "why_tests_cant": "2^64 values times all decimal spellings.", "anchors": ["include/fast_float/parse_number.h: from_chars"]}
{"id": "C28", "title": "Huge exponents saturate correctly", "statement": "An exponent with any number of digits is handled as if computed exactly: the result is zero, infinity or the correctly rounded value.", "quantifier": "every exponent digit string in a text shorter than 268,000,000 characters; or any length of text if the exponent is below 2^28 in absolute value", "why_tests_cant": "Unbounded exponent digits; the implementation clamps at 0x10000000 and must not confuse the clamped value with a real exponent.", "anchors": ["include/fast_float/ascii_number.h: parse_number_string lines 486-497"]}
{"id": "C29", "title": "Sign handling and negative zero", "statement": "A leading minus only flips the sign bit of the result: parsing -s gives the negation of parsing s with the same error code, and -0 (any spelling of zero) gives negative zero.", "quantifier": "every text s that parses without a sign", "why_tests_cant": "Relational over pairs of inputs.", "anchors": ["include/fast_float/float_common.h: to_float", "include/fast_float/parse_number.h: clinger_fast_path_impl, parse_infnan"]}
{"id": "C30", "title": "White-space classification for all character types", "statement": "Exactly the six C-locale white-space characters are treated as white space, for every value of every supported character type.", "quantifier": "every code unit of every character type", "why_tests_cant": "2^32 code units; the exceptional ones are negative wchar_t values.", "anchors": ["include/fast_float/float_common.h: is_space, space_lut"]}
{"id": "C31", "title": "from_chars into std::float32_t / std::float64_t behaves like float / double", "statement": "from_chars into the fixed-width types stores the same value and reports the same result as for float and double, including leaving the destination unmodified on error.", "quantifier": "every character sequence", "why_tests_cant": "The wrapper differs only on error paths.", "anchors": ["include/fast_float/parse_number.h: from_chars_caller<std::float32_t>, from_chars_caller<std::float64_t>"]}
{"id": "C32", "title": "Integer parsing is defined and the same on every build and for every character type", "statement": "Parsing an integer never reads outside [first,last), never leaves a lookup table, never overflows a signed integer, and its result is the same whatever the build configuration and, for ASCII texts, the character type.", "quantifier": "every character sequence, integer type, base, character type, pair of build configurations", "why_tests_cant": "Memory safety and agreement between the word-at-a-time and digit-by-digit code paths quantify over all texts.", "anchors": ["include/fast_float/ascii_number.h: parse_int_string", "include/fast_float/parse_number.h: from_chars_int_advanced"]}
{"id": "C33", "title": "Which 64-bit integer texts are stored wrongly", "statement": "A text whose value fits a 64-bit type is always stored exactly. A text whose value does not fit is stored wrapped modulo 2^64, with success reported, exactly when it has the maximum number of significant digits of the base and its wrapped value is at least the smallest value with that many digits (and fits the type); no such text exists for unsigned types in bases 2, 4, 16 and for signed types in bases 2, 3, 4, 9, 10, 16, 19, 23, 29, 30.", "quantifier": "every digit string, every base 2..36, int64_t and uint64_t", "why_tests_cant": "The exceptional set is a union of intervals of digit strings near multiples of 2^64, different for each base.", "anchors": ["include/fast_float/ascii_number.h: parse_int_string lines 776-787", "include/fast_float/float_common.h: min_safe_u64, maxdigits_u64"]}
{"id": "C34", "title": "Text after an integer does not influence the result", "statement": "Replacing what follows the digit run of an integer by any text that does not start with a digit of the base changes neither the value nor the error code, and the end pointer stays just past the run.", "quantifier": "every integer text and all continuations", "why_tests_cant": "The 8- and 16-bit fast paths load four characters at once, beyond the end of the number; all following bytes must be irrelevant.", "anchors": ["include/fast_float/ascii_number.h: parse_int_string lines 603-745"]}
{"id": "C35", "title": "The fields of a parsed number mean what they say, and parsing then converting equals from_chars", "statement": "parse_number_string on a text that starts with a number returns valid, no error, the sign, the end of the number, the digit spans (when asked for), and mantissa and exponent: exact up to 19 significant digits, otherwise the first 19 significant digits with the matching exponent and too_many_digits set. Passing its result to from_chars_advanced gives the same value, error code and end pointer as from_chars_advanced on the text.", "quantifier": "every character sequence, option set, JSON or not, character type, floating-point type, build configuration; written exponents below 2^28", "why_tests_cant": "Numbers have unboundedly many digits and the truncation point depends on leading zeros on both sides of the point.", "anchors": ["include/fast_float/ascii_number.h: parse_number_string, parsed_number_string_t", "include/fast_float/parse_number.h: from_chars_advanced(parsed_number_string_t&, T&)"]}
{"id": "C36", "title": "A rejected text is diagnosed with the right error and place", "statement": "parse_number_string rejects a text exactly when it does not start with a number of the selected grammar, and then error and lastmatch tell the first thing that is missing and where: a digit or point after the sign, digits of the integer part, superfluous leading zeros, digits of the fraction, digits at all, or the exponent. There is exactly one diagnosis for every rejected text.", "quantifier": "every non-empty character sequence, option set, JSON or not, character type, build configuration", "why_tests_cant": "tests/json_fmt.cpp checks some thirty literals; the claim is about all texts.", "anchors": ["include/fast_float/ascii_number.h: parse_error, report_parse_error, parse_number_string", "tests/json_fmt.cpp: reject"]}
{"id": "C37", "title": "128-bit integers", "statement": "With GNU extensions __int128 and unsigned __int128 are accepted as destination types: every value of the type should be stored exactly, every other reported as out of range.", "quantifier": "every digit string, base, character type, option set", "why_tests_cant": "The types are not tested at all; the claim is false for every negative value and every value of 2^64 or more.", "anchors": ["include/fast_float/float_common.h: is_supported_integer_type", "include/fast_float/ascii_number.h: parse_int_string lines 789-814"]}
{"id": "C38", "title": "Only the value of the text matters", "statement": "Two texts that start with numbers of the same value and sign - whatever the number of leading or trailing zeros, the place of the point, the exponent, the options, the character type and the build - store the same bits, and for double, float and bfloat16 report the same error code.", "quantifier": "all pairs of accepted texts with equal decimal values (texts shorter than 268,000,000 characters or exponents below 2^28), all pairs of option sets, character types and build configurations", "why_tests_cant": "Every value has infinitely many spellings, which take different code paths (Clinger, Eisel-Lemire, truncation, big integers).", "anchors": ["include/fast_float/ascii_number.h: parse_number_string", "include/fast_float/parse_number.h: from_chars_advanced"]}
{"id": "C39", "title": "Integer and floating-point parsing agree", "statement": "If parsing a text as a base-10 integer succeeds with value v, and what follows cannot continue a number, then parsing the same text as floating point consumes the same characters and stores the floating-point number nearest to v (exactly v when |v| is at most 2^53, 2^24, 2^11 or 2^8 for double, float, float16, bfloat16).", "quantifier": "every text, integer type of at most 32 bits (or at most 19 characters for 64-bit types), floating-point type, option set with fixed notation allowed outside JSON, character type, build configuration", "why_tests_cant": "Two independent parsers have to agree on all texts.", "anchors": ["include/fast_float/ascii_number.h: parse_number_string, parse_int_string"]}
{"id": "C40", "title": "Letter case does not matter", "statement": "Changing the case of any ASCII letters of the text changes neither value nor error code nor the number of characters consumed - for exponent letters, infinity and NaN spellings, and digits of bases above 10.", "quantifier": "all pairs of texts that differ in letter case only, every option set whose decimal point is no letter, every integer type and base, floating-point type, character type, build configuration", "why_tests_cant": "There are 2^n case variants of a text with n letters.", "anchors": ["include/fast_float/float_common.h: fastfloat_strncasecmp3, fastfloat_strncasecmp5, ch_to_digit", "include/fast_float/ascii_number.h: parse_number_string, parse_int_string"]}
{"id": "C41", "title": "Allowing more does not change accepted results", "statement": "Adding allow_leading_plus, skip_white_space or fixed, or dropping no_infnan or the JSON restriction, never changes the result (value, error code, end) of a text that was accepted before. In particular whatever the JSON mode accepts, general accepts with the same result.", "quantifier": "every text, pair of option sets ordered this way, floating-point type, character type, build configuration; separators that play no other role", "why_tests_cant": "Quantifies over all texts and pairs of option sets.", "anchors": ["include/fast_float/float_common.h: chars_format", "include/fast_float/ascii_number.h: parse_number_string", "include/fast_float/parse_number.h: parse_infnan"]}
{"id": "C42", "title": "The consumed characters alone determine the result", "statement": "If a parse of a text is not rejected and consumes a prefix, then parsing that prefix alone gives the same value and error code and consumes all of it.", "quantifier": "every accepted text, option set (separator not a sign or exponent letter), floating-point or integer type, base, character type, build configuration", "why_tests_cant": "The parser looks ahead (dangling exponents, nan payloads, word-at-a-time digits); its decisions must not depend on what it does not consume, for all texts.", "anchors": ["include/fast_float/ascii_number.h: parse_number_string, parse_int_string", "include/fast_float/parse_number.h: parse_infnan"]}
{"id": "C43", "title": "Integer types agree with each other", "statement": "A text that parses successfully into an integer type of at most 32 bits parses with the same value and end into every other integer type that contains the value (signed if the first one is).", "quantifier": "every text, base, pair of integer types, character type, build configuration, option set", "why_tests_cant": "uint8_t, uint16_t and the others take different code paths; agreement is about all texts.", "anchors": ["include/fast_float/ascii_number.h: parse_int_string"]}
{"id": "C44", "title": "A parsed number filled in by the caller is converted correctly", "statement": "from_chars_advanced(pns, value) on a record that describes the decimal number W*10^q - either with W as its 64-bit mantissa, or with too_many_digits set, the digit spans spelling W and the mantissa holding the first 19 significant digits - stores the correctly rounded W*10^q with the sign of the record, returns lastmatch as the end pointer, and reports a range error exactly when a non-zero number became zero or the result is infinite; no other field matters, and two records for the same number give the same result on every build.", "quantifier": "every record (any 64-bit mantissa, including 20-digit ones from_chars never produces; any exponent; any number of digits), floating-point type, character type, build configuration", "why_tests_cant": "The tests never call this overload with records of their own; the claim ranges over 2^64 mantissas, all exponents and unbounded digit spans.", "anchors": ["include/fast_float/parse_number.h: from_chars_advanced(parsed_number_string_t&, T&)", "include/fast_float/parse_number.h: comment on the overload"]}
{"id": "C45", "title": "Case-insensitive comparison is exact, and results and defaults mean what they say", "statement": "fastfloat_strncasecmp(text, word, n) for a lower-case word is true exactly when the text starts with the word in any mixture of cases, reads nothing beyond n characters, and agrees between builds and character types and with the versions specialised to 3 and 5 characters; a result converts to true exactly when its error code is success; from_chars without optional arguments equals from_chars_advanced with default options.", "quantifier": "every text, every word of lower-case letters of any length, character type, build configuration", "why_tests_cant": "Words longer than eight bytes are compared block by block; the claim is about all lengths and contents.", "anchors": ["include/fast_float/float_common.h: fastfloat_strncasecmp, fastfloat_strncasecmp3, fastfloat_strncasecmp5, from_chars_result_t, parse_options_t"]}
{"id": "C46", "title": "Options that do not concern a conversion are ignored, and the feature macros are flags", "statement": "The result of parsing a floating-point number depends on the options only through the decimal separator and the flags scientific, fixed, no_infnan, basic_json, basic_fortran, allow_leading_plus and skip_white_space: the base, the hex flag and undefined flags change nothing. The result of parsing an integer depends on the options only through the base, allow_leading_plus and skip_white_space: the decimal separator and all other flags change nothing. A build with FASTFLOAT_ALLOWS_LEADING_PLUS or FASTFLOAT_SKIP_WHITE_SPACE behaves like one without that is passed the corresponding flags.", "quantifier": "every text, pair of options, destination type, character type, build configuration", "why_tests_cant": "Non-interference between all option values (a 64-bit flag word, every separator and base) and the results of all texts.", "anchors": ["include/fast_float/float_common.h: chars_format, parse_options_t, adjust_for_feature_macros", "include/fast_float/parse_number.h: from_chars_float_advanced, from_chars_int_advanced", "include/fast_float/ascii_number.h: parse_number_string, parse_int_string"]}
{"id": "C47", "title": "integer_times_pow10 depends on the product alone, and is monotone, exact and odd", "statement": "integer_times_pow10(m, e) returns the same bits for all pairs with the same product m*10^e (for instance (10m, e) and (m, e+1)), on every build; a larger product never gives a smaller result; a product that is a finite number of the type is returned unchanged; the signed overload returns the unsigned result with the sign of m.", "quantifier": "every pair of 64-bit mantissas, all exponents, all four floating-point types, pairs of build configurations", "why_tests_cant": "A relation between two calls over 2^64 mantissas times all exponents, taking different paths (exact arithmetic, table product, special cases) for the same product.", "anchors": ["include/fast_float/parse_number.h: integer_times_pow10", "include/fast_float/decimal_to_binary.h: compute_float"]}
{"id": "C48", "title": "The destination type decides only about value and range", "statement": "For one text and one set of options, all floating-point types accept or reject together, return the same end pointer, write or leave the destination alike and store the same sign; a number out of range for a wider type is out of range for a narrower one, an infinite (zero) result in the wider type is infinite (zero) in the narrower.", "quantifier": "every text, options, pair of floating-point types, character type, build configuration", "why_tests_cant": "Different types use different constants, fast-path limits and slow paths; agreement must hold for every text.", "anchors": ["include/fast_float/parse_number.h: from_chars_float_advanced", "include/fast_float/float_common.h: binary_format"]}
{"id": "C49", "title": "No internal assertion ever fails", "statement": "A build in which FASTFLOAT_ASSERT and FASTFLOAT_DEBUG_ASSERT are defined to stop the program on a false argument never stops, and returns the same results as a build with the default definitions; in particular the fixed-size big integers never run out of room. The same holds for from_chars_advanced on records filled in by the caller.", "quantifier": "every text, options, all floating-point types, character types and build configurations", "why_tests_cant": "The assertions guard the capacity of the big integers and the indices into them; the worst case over all texts (hundreds of digits, extreme exponents) must fit.", "anchors": ["include/fast_float/float_common.h: FASTFLOAT_ASSERT, FASTFLOAT_DEBUG_ASSERT", "include/fast_float/digit_comparison.h: positive_digit_comp, negative_digit_comp", "include/fast_float/bigint.h: stackvec, shl_bits, shl_limbs"]}
{"id": "C50", "title": "The error is at most half a unit in the last place; numeric_limits::digits10 decimal digits survive", "statement": "For a number text whose value does not exceed the largest finite number of the type the stored value is finite and differs from the decimal value by at most 2^-(p) times the value when that is at least the smallest normal number (p the precision in bits) and by at most half the smallest positive number below; the code is result_out_of_range exactly when a nonzero value was stored as zero. A decimal in the normal range with at most digits10 significant digits (15, 6, 3, 2) is recovered by rounding the stored value to its own last decimal place, and two different such decimals never get the same value and keep their order.", "quantifier": "every number text, options, all four floating-point types (including float16), character types, build configurations; pairs of texts for the order", "why_tests_cant": "A numeric bound over every decimal text of every length, and the pairwise distinctness of about 10^15 times 600 decimals.", "anchors": ["include/fast_float/parse_number.h: from_chars_float_advanced, from_chars_advanced", "include/fast_float/decimal_to_binary.h: compute_float", "include/fast_float/digit_comparison.h: digit_comp"]}
{"id": "C51", "title": "Lists of numbers can be read with repeated calls", "statement": "Numbers joined by a delimiter that cannot continue a number (README: commas) are all read by the loop that calls from_chars, checks for the delimiter and goes on behind it: every number gives the code and value it gives alone and the loop ends where the list ends. Conversely a text read to the end by the loop is such a list. On every text the loop ends, after at most (length+1)/2 accepted calls, because an accepted call consumes at least one character. The same holds for white-space separated numbers with skip_white_space, and for integers.", "quantifier": "lists of any length of numbers of any spelling, delimiters, options, all types; for termination every text", "why_tests_cant": "Quantifies over lists of arbitrary length and over the histories of calls; needs that no call is influenced by, or reads past, what follows.", "anchors": ["README.md: You can parse delimited numbers", "include/fast_float/parse_number.h: from_chars_advanced", "include/fast_float/ascii_number.h: parse_number_string, parse_int_string"]}
{"id": "C52", "title": "Which results are final when more text may arrive", "statement": "If at least three unread characters follow a number, no text appended later changes the value, the code or the end of the number; for inf and nan five unread characters suffice unless an opening parenthesis follows. For integers one unread character suffices, and a rejected text of two characters stays rejected.", "quantifier": "every text and every continuation, options, all types", "why_tests_cant": "All texts times all continuations; a reader that feeds buffers depends on it.", "anchors": ["include/fast_float/ascii_number.h: parse_number_string, parse_int_string", "include/fast_float/parse_number.h: parse_infnan"]}
{"id": "C53", "title": "Printed numbers are read back", "statement": "Every value of every integer type, printed in any base from 2 to 36 with lower- or upper-case digits, is read back exactly, whatever follows. Every finite nonzero number of a floating-point type, rounded to max_digits10 significant digits (17, 9, 5, 4) and printed in scientific notation with any separator, is read back exactly with success and its sign; every number has such digits.", "quantifier": "every value of every type, base, letter case, sign, separator, continuation; options that allow scientific notation", "why_tests_cant": "2^64 values and all their printed forms, on every code path of the parser.", "anchors": ["include/fast_float/parse_number.h: from_chars", "include/fast_float/ascii_number.h: parse_int_string, parse_number_string"]}
{"id": "C54", "title": "Where numbers become infinite and where they become zero", "statement": "The stored value is infinite exactly when the exact value denoted by the text is at least 2^1024-2^970 (double), 2^128-2^103 (float), 65520 (float16), 2^128-2^119 (bfloat16), and zero exactly when it is at most half the smallest positive number 2^-1075, 2^-150, 2^-134 (double, float, bfloat16) or less than 2^-25 (float16). The same thresholds hold for integer_times_pow10.", "quantifier": "every text, options, type, sign, configuration; every mantissa and every power of ten", "why_tests_cant": "An exact threshold separates infinitely many decimal strings of unbounded length on both sides; tests sample some near it.", "anchors": ["include/fast_float/decimal_to_binary.h: compute_float", "include/fast_float/digit_comparison.h: digit_comp, round", "include/fast_float/parse_number.h: from_chars_advanced, integer_times_pow10"]}
{"id": "C55", "title": "Agreement with IEEE-754 as formalised independently", "statement": "The bits from_chars stores for a text, decoded as an IEEE-754 number, are the real number the text denotes rounded to nearest-even in the format (unbounded exponent, then overflow to the infinity of the text's sign), with the sign of the text also for zeros; the error code is out-of-range exactly when the rounded number does not fit or a nonzero number rounds to zero. Words for infinity and NaN decode to infinities and NaNs with the text's sign. integer_times_pow10(m,e) decodes to the rounding of the real number m*10^e.", "quantifier": "every text, options, character type, build configuration; every integer and exponent; double, float, bfloat16 and float16", "why_tests_cant": "Correct rounding is a statement about every real number of a dense set; a test compares with another implementation on samples.", "anchors": ["include/fast_float/parse_number.h: from_chars_advanced, parse_infnan, integer_times_pow10", "include/fast_float/float_common.h: to_float"]}
{"id": "C56", "title": "Formats combine like sets of permissions", "statement": "The operators ~ & | ^ (and their assignment forms) on chars_format act on each flag separately, formats with the same flags are equal, and setting then clearing or toggling twice restores a format. Adding allow_leading_plus, skip_white_space or fixed with |, or taking away no_infnan or the JSON restriction with & ~, keeps every accepted floating-point text and its result; the first two do so for integers. The named presets select the rules their names promise.", "quantifier": "all pairs of 64-bit format values, all texts, options, types, characters and configurations", "why_tests_cant": "2^128 pairs of formats and unbounded texts; a flag with a wrong bit or a wrong operator shows only for some combinations.", "anchors": ["include/fast_float/float_common.h: chars_format lines 43-57, operators lines 1405-1441"]}
{"id": "C57", "title": "Reading into a wider type and converting agrees with reading into the narrower type", "statement": "If a text is read into a wider type (double, or float for the 16-bit types) and into a narrower one, the narrower result is always a nearest number to the wider result, with the same sign, and it is the one IEEE-754 conversion (nearest, ties to even) of the wider result gives whenever the wider result is not exactly half-way between two numbers of the narrower type. Without that exception the claim is false: converting a double can round twice, reading directly never does.", "quantifier": "every text, pair of a wider and a narrower type, options, character type and configuration", "why_tests_cant": "The texts for which rounding twice shows are a vanishing fraction of an unbounded set.", "anchors": ["include/fast_float/parse_number.h: from_chars_advanced"]}
{"id": "C58", "title": "The texts read as a given number are exactly those in its rounding interval", "statement": "A text that is a number is read as the float with a given code exactly if its value lies between the two points half-way to the neighbouring floats; a half-way point itself belongs to the neighbour with the even code (for float16: to the larger one if both are subnormal and the text has at most 19 significant digits). The same holds for integer_times_pow10. The intervals of different floats are disjoint and have no gaps. Programs that print the shortest text that reads back (Ryu, Grisu, std::to_chars) rely on exactly this, including the end points.", "quantifier": "every text that is a number, every code, type, options, character type and configuration", "why_tests_cant": "There are 2^64 intervals, each with infinitely many texts, and what matters are their end points.", "anchors": ["include/fast_float/parse_number.h: from_chars_advanced, integer_times_pow10"]}
{"id": "C59", "title": "The IPv4 reader built on from_chars reads every address", "statement": "The address reader of tests/ipv4_test.cpp and benchmarks/bench_ip.cpp (four from_chars calls into uint8_t with dots between) is defined on every text, accepts exactly the texts that start with four decimal numbers up to 255 separated by dots, and returns their address; every one of the 2^32 addresses, printed by the routine of the test (which never writes beyond its 16-character buffer), is read back.", "quantifier": "every text, every 32-bit address, every character type and configuration", "why_tests_cant": "The test checks one address in a thousand and only printed texts; the claim is about all addresses and all texts.", "anchors": ["tests/ipv4_test.cpp: ipv4_string_to_uint32, uint32_to_ipv4_string", "benchmarks/bench_ip.cpp: simple_parse_ip_line", "include/fast_float/ascii_number.h: parse_int_string lines 569-690"]}
{"id": "C60", "title": "Parsing takes linear time, whatever the text", "statement": "Reading a floating-point number from a text of n characters takes at most 6 n + 77219 rounds of the parser's loops (6 n + 20346 with 64-bit limbs), and reading an integer at most n: there is no text - however many digits, however large its exponent, however close to a half-way point - that makes parsing slower than proportional to its length plus a constant.", "quantifier": "every text (of a signed 32-bit wchar_t without code units within 48 of the minimum), all options, every type, character type and configuration", "why_tests_cant": "A test can time some texts; that no text is quadratic, or slow because of a huge exponent, is a statement about all of them (and timing is noise).", "anchors": ["include/fast_float/parse_number.h: from_chars_float_advanced, from_chars_int_advanced", "include/fast_float/digit_comparison.h: parse_mantissa, digit_comp", "include/fast_float/bigint.h: pow5, long_mul"]}
{"id": "C61", "title": "The table of powers of five is what its generator prints and is precise enough", "statement": "Every entry of the 128-bit table is 5^q scaled by a power of two to 128 bits: exact for q from 0 to 55, rounded up for q from -27 to -1, rounded down otherwise (the comment in the source says rounded toward one, which is wrong below 5^-27). The program script/table_generation.py ends and prints exactly this table. For no entry T and no 64-bit significand w are the low 137 bits of w T within 2^64 of overflowing, so the rounding of the entry never matters and no fallback is needed; script/mushtak_lemire.py ends and reports no solution, and its method, looking at the convergents of T / 2^137 only, finds a solution for any T that has one. script/analysis.py ends with all good, and would for every power. Powers outside -342..308 are not needed.", "quantifier": "every power from -342 to 308, every 64-bit significand", "why_tests_cant": "There are 651 * 2^64 products; and that the script's search over continued fractions misses nothing is a theorem, not a run.", "anchors": ["include/fast_float/fast_table.h: power_of_five_128", "script/table_generation.py", "script/mushtak_lemire.py", "script/analysis.py"]}
{"id": "C62", "title": "The benchmark programs read back what they wrote", "statement": "benchmarks/bench_ip.cpp writes addresses into 16-character lines; its reading loop parses every line back to the address it was written from and never aborts, and its end-of-address search stops where the address ends; given any other text, the loop adds up the addresses the lines start with and aborts if a line starts with none. benchmarks/bench_uint16.cpp writes comma separated 16-bit values; its validation passes for what it wrote, its loop computes their sum, and validation passes for no text other than the spellings of the expected values; nor does the loop accept a text that does not spell the given number of values.", "quantifier": "every list of addresses or 16-bit values of any length, every text given to validation, every character type and build (validation's converse: builds without the two macros)", "why_tests_cant": "A run of the benchmark uses one random list; the claim is for all lists, and the converse for all texts.", "anchors": ["benchmarks/bench_ip.cpp: seek_ip_end, simple_parse_ip_line, make_ip_line, main", "benchmarks/bench_uint16.cpp: validate, main", "include/fast_float/parse_number.h: from_chars"]}
{"id": "C63", "title": "The benchmark's search returns the number nearest to the largest value", "statement": "findmax_fastfloat64 and findmax_fastfloat32 of benchmarks/benchmark.cpp, given texts that start with numbers, return the floating-point number nearest to the largest of their exact values (and zero): the largest of the rounded numbers is the rounded largest number. They throw exactly when one of the texts starts neither with a number nor with a spelling of infinity or NaN, and the UTF-16 run gives the result of the ASCII run.", "quantifier": "every list of texts of any length, destination type, character type and build", "why_tests_cant": "That rounding and taking the maximum commute holds for all lists of decimal numbers only because rounding is monotone and breaks ties uniformly.", "anchors": ["benchmarks/benchmark.cpp: findmax_fastfloat64, findmax_fastfloat32, widen", "include/fast_float/parse_number.h: from_chars"]}
{"id": "C64", "title": "The random-text tests end and succeed for every seed", "statement": "tests/random_string.cpp and tests/short_random_string.cpp, started with any seed: the loops of the random engine end, building a text never writes outside the buffer, every text is a JSON number of at most 2000 (or 19) digits, from_chars accepts each to its end, and the test succeeds exactly if strtod_l and strtof_l give the correctly rounded number for every text - so it succeeds for every seed and volume when they are correct. With any other parser in place of from_chars the answer is yes exactly if that parser agrees with strtod_l and strtof_l on every text and stops at its end. The engine's numbers in a range are unbiased.", "quantifier": "every seed, number of texts, build, character type and pair of reference functions", "why_tests_cant": "The tests run with one fixed seed; that every seed ends and stays in the buffer needs the full period of the engine, and that every text passes needs correctness of from_chars on all such texts.", "anchors": ["tests/random_string.cpp: RandomEngine, build_random_string, tester", "tests/short_random_string.cpp: build_random_string", "include/fast_float/parse_number.h: from_chars", "include/fast_float/float_common.h: full_multiplication"]}
{"id": "C65", "title": "The programs that print numbers and read them back are right about the library", "statement": "tests/exhaustive32.cpp, long_exhaustive32.cpp, long_exhaustive32_64.cpp, exhaustive32_midpoint.cpp, random64.cpp and long_random64.cpp, run with any printf and any parser, any number of hardware threads and any schedule of the threads: they end, and exit with success exactly if every number they are about (every 32-bit word as a float or as a double, the exact midpoint of every two neighbouring floats, every word of the generator), as printed, is read back (as strtof reads it, for midpoints). With a printf that rounds correctly to 17 (9) digits or more, in either way for ties, and fast_float they all succeed. exhaustive32_64.cpp is different: it exits with success whatever the parser does.", "quantifier": "every printf, strtof and parser, number of threads, interleaving of the threads (with relaxed loads), rounding direction, build, character type", "why_tests_cant": "The programs test the library, not themselves: that no word is skipped and no mismatch lost on any schedule, and that a success means what it says, are statements about all schedules and all parsers.", "anchors": ["tests/exhaustive32.cpp: check_word, allvalues", "tests/exhaustive32_64.cpp: all_32bit_values", "tests/exhaustive32_midpoint.cpp: check_word, allvalues", "tests/long_exhaustive32.cpp", "tests/long_exhaustive32_64.cpp", "tests/random64.cpp: lehmer64, random_values", "tests/long_random64.cpp"]}
{"id": "C66", "title": "A field with white space around a number is read as that number, and nothing else is accepted", "statement": "The client of tests/rcppfastfloat_test.cpp: from_chars with general, leading + and leading white space allowed, followed by a loop that rejects trailing characters other than white space. For every text it accepts exactly white space, a number or special value with an optional sign, white space; a number whose nearest value is 0 (though it is not 0) or infinity is rejected, every other is given its nearest value, ties to even. The test program says yes exactly if this is what its table expects.", "quantifier": "every character sequence, character type, double, float and bfloat16, build, every table", "why_tests_cant": "The table has 35 rows; the claim is about every text, including those with white space or signs in the wrong place.", "anchors": ["tests/rcppfastfloat_test.cpp: eddelbuettel", "include/fast_float/parse_number.h: from_chars", "include/fast_float/float_common.h: is_space"]}
{"id": "C67", "title": "Multiples of powers of five in scientific notation are read exactly rounded, and the program that draws them is right", "statement": "For every 18 <= q <= 27 and every w with 2^53 < w*5^q < 2^64 the text of w*5^q followed by e-q is read completely and without error, as the double nearest to w*2^-q, ties to even. tests/powersoffive_hardround.cpp draws exactly such w (both bounds are right), ends without undefined behaviour, and says yes exactly if strtod gives that double for each number drawn; with any other parser in place of from_chars, exactly if that parser and strtod agree.", "quantifier": "every q in range, every w, every sequence of numbers drawn, every strtod, build, character type", "why_tests_cant": "These are the texts closest to ties; the program tries 10000 of up to 4.8 million w per q and trusts strtod.", "anchors": ["tests/powersoffive_hardround.cpp: tester", "include/fast_float/decimal_to_binary.h: compute_float"]}
{"id": "C68", "title": "The fuzz target never finds undefined behaviour", "statement": "fuzz/from_chars.cc: for any three byte strings and any format the data provider chooses, the calls have no undefined behaviour (no read outside the strings, no table overrun, no signed overflow), and each destination holds what its call stored, or still 0.", "quantifier": "every fuzz input: byte strings, format choice, build, character type, integer type", "why_tests_cant": "A fuzzer samples inputs; the claim is that no input crashes.", "anchors": ["fuzz/from_chars.cc: arbitrary_format, LLVMFuzzerTestOneInput"]}
{"id": "C69", "title": "Text and destination may share memory", "statement": "A call on a text of char that lies anywhere in memory, with the destination anywhere in the same memory, overlapping or not, reports the error code and stores the number of the text as it was before the call. It never changes a byte outside the destination, at no moment, and no byte at all if there is no number. The pointer is right too, with one exception: when the value is NaN and the destination overlaps the text, a payload nan(...) may be missed, because NaN is stored before the payload is read; the pointer still lies in the text. Integers, std::float32_t and std::float64_t have no exception.", "quantifier": "every memory, text, place of the destination, type, format, byte order, build", "why_tests_cant": "A test overlays a few buffers; the claim is about every placement and every moment of the call.", "anchors": ["include/fast_float/parse_number.h: parse_infnan, clinger_fast_path_impl, from_chars_advanced, from_chars_caller", "include/fast_float/ascii_number.h: parse_int_string", "include/fast_float/float_common.h: to_float"]}
{"id": "C70", "title": "Calls running at the same time do not disturb each other", "statement": "Any number of calls, into floating-point or integer destinations and from texts of any character types, run at the same time in one memory, on the same or different texts, with destinations that overlap neither each other nor another call's text. Under every interleaving of their reads and writes the calls end, each returns the error code, pointer and number it has alone, and no byte outside the destinations changes.", "quantifier": "every number of calls, every schedule of single-byte accesses, every code that reads its own text and writes its own destination and behaves as the library does alone", "why_tests_cant": "A test sees a few schedules; the claim is about all.", "anchors": ["include/fast_float/parse_number.h: from_chars_advanced, from_chars", "include/fast_float/ascii_number.h: parse_int_string"]}
{"id": "C71", "title": "The call means the same whatever type it is written with", "statement": "from_chars compiles exactly for a supported character type with a floating-point destination and no number as last argument or an integer destination and no format as last argument; the omitted last argument means general format or base 10. For every standard integer type, extended or not (bool, char types, short ... unsigned long long, on ILP32, LP64 and LLP64), the printed value of every value of the type is read back. For every floating-point destination type the result is the nearest value of its format. integer_times_pow10 called with any standard integer type, without or with an explicit result type, is the correctly rounded product.", "quantifier": "every platform with the usual sizes, every type of destination, character and argument, every text, number, base and format", "why_tests_cant": "The combinations of types, platforms and overloads are not all compiled in any one test, and the values are unbounded.", "anchors": ["include/fast_float/fast_float.h: from_chars, from_chars_advanced, integer_times_pow10", "include/fast_float/float_common.h: is_supported_float_type, is_supported_integer_type, is_supported_char_type", "include/fast_float/parse_number.h: integer_times_pow10, from_chars"]}
{"id": "C72", "title": "The single header is the same program as the headers", "statement": "Whatever the headers contain around their local includes, whatever the author, contributor and license files contain, and whatever license is chosen, the file written by the amalgamation script consists of comment lines and of the lines the compiler sees when it includes fast_float.h: the bodies of the headers each once and in the same order, after the guards and system includes of their headers.", "quantifier": "every content of the nine headers with the library's include structure, every content of the other files, every license option", "why_tests_cant": "A test compiles one version of the headers; the claim is about every edit of them.", "anchors": ["script/amalgamate.py", "include/fast_float/fast_float.h"]}
{"id": "C73", "title": "Version numbers grow from release to release", "statement": "Whatever the files contain around the version lines, each release the release script makes is the next major, minor or patch version of the last tag, every release is newer than all before it, and afterwards the macros of the header and the project line of CMakeLists.txt have exactly its three numbers, the download link and the two kinds of tag lines of README.md name it, while every other line is as it was but for white space at its end. FASTFLOAT_VERSION, as a number, compares as the versions do and determines the three parts.", "quantifier": "every sequence of releases, every content of the files, every argument of the script, every pair of versions", "why_tests_cant": "The claim ranges over all histories of releases and all file contents.", "anchors": ["script/release.py", "include/fast_float/float_common.h: FASTFLOAT_VERSION, FASTFLOAT_VERSION_STR"]}
{"id": "C74", "title": "The reading loops of the examples read every list", "statement": "The loops of the examples, which call from_chars where the last call stopped and step over a comma or over white space, read every list of numbers: the values are those from_chars gives for the numbers alone, in order. On any other text they end, without undefined behaviour, after the numbers up to the first error, and complain exactly if something is left. The compile-time example returns the nearest double, and -1.0 instead if the number is out of range or there is none.", "quantifier": "every text, list of numbers, character type, floating-point type, build configuration", "why_tests_cant": "The claim ranges over all lists of texts of any length.", "anchors": ["tests/example_test.cpp: many_loop, parse", "tests/string_test.cpp: test", "tests/long_test.cpp: test"]}
{"id": "C75", "title": "from_chars does what the C++17 standard says of std::from_chars", "statement": "With chars_format general, scientific or fixed (and, like strtod, with a leading plus or white space where the two extra flags allow them) from_chars reads the longest initial part of the text that belongs to the language the standard defines: an optional minus sign, then decimal digits with or without a point and an exponent part as the format demands, or inf, infinity, nan, nan(sequence) in any case. It returns a pointer behind it and stores the nearest number (ties to even), the infinity or a quiet NaN; overflow, and a non-zero number that becomes zero, are out of range. If no initial part belongs to the language the code is invalid_argument, the pointer is the start of the text and nothing is stored. So it agrees with every other function that follows the standard and rounds to nearest: same code, same pointer, same bits except those of a NaN. For integers in base 2 to 36 the same holds with the digits of the base, a minus sign for signed types only, neither plus sign nor prefix, and nothing stored on an error; for 64-bit types except the out-of-range texts of C33.", "quantifier": "every text below 268 million characters, every combination of the four flags, double, float, bfloat16, every integer type and base, every character type (for a signed 32-bit wchar_t without some negative code units, none of which is a character), every build without the deprecated macros", "why_tests_cant": "That no longer initial part belongs to the language, and the choice between all the alternatives of the grammar, quantify over all texts.", "anchors": ["include/fast_float/parse_number.h: from_chars, from_chars_int_advanced, parse_infnan", "include/fast_float/ascii_number.h: parse_number_string, parse_int_string", "README.md"]}
{"id": "C76", "title": "What parsing into std::float16_t does, exactly", "statement": "Parsing a number into std::float16_t stores the nearest value, ties to even, except that a tie between two neighbouring subnormal values (or zero, or the smallest normal value) goes to the larger one if the number can be written with at most 19 significant digits; this rule determines the bits. The pointer is behind the number. The code is result_out_of_range exactly if a non-zero number became zero or the result is infinite, and the number was not converted by a single floating-point operation (at run time, rounding to nearest, FLT_EVAL_METHOD 0 or 1, significand at most 2048, exponent 0 to 4); otherwise it is success.", "quantifier": "every accepted number text, option set, character type, build configuration", "why_tests_cant": "The rule and its exceptions are sets of texts of any length.", "anchors": ["include/fast_float/parse_number.h: from_chars_advanced, clinger_fast_path_impl", "include/fast_float/decimal_to_binary.h: compute_float"]}
{"id": "C77", "title": "What parsing into std::float32_t and std::float64_t does, exactly", "statement": "For the fixed-width types pointer, code and stored value are those of correct rounding (as for float and double) when a number, infinity or NaN is accepted; when nothing is accepted the code is invalid_argument, the pointer is the start (after skipped white space) and the destination is overwritten with +0.", "quantifier": "every text, format, character type, build configuration", "why_tests_cant": "The claim ranges over all texts, accepted or not.", "anchors": ["include/fast_float/parse_number.h: from_chars_caller"]}
{"id": "C78", "title": "What integer_times_pow10 does, exactly", "statement": "integer_times_pow10(m, e) is undefined exactly for the signed argument INT64_MIN. For every other 64-bit argument, signed or unsigned, and every exponent it returns, with the sign of m, the value nearest to |m|*10^e, ties to even - for std::float16_t a tie between subnormal values goes to the larger one.", "quantifier": "every int64_t and uint64_t argument, every int exponent, all four floating-point types, every build configuration and rounding mode", "why_tests_cant": "2^65 arguments times all exponents.", "anchors": ["include/fast_float/parse_number.h: integer_times_pow10"]}
{"id": "C79", "title": "What is skipped as white space, exactly", "statement": "With skip_white_space a call gives the result of the call without the flag on the text behind the longest run of white space; and what counts as white space are the six C-locale characters and, for a signed 32-bit wchar_t only, negative code units whose low byte is one of the six.", "quantifier": "every sequence of code units (no exceptions), option set, floating-point and integer type, character type, every build without the deprecated macro", "why_tests_cant": "Runs of any length, all code units of all types, and all texts behind them.", "anchors": ["include/fast_float/float_common.h: is_space", "include/fast_float/parse_number.h: from_chars_float_advanced, from_chars_int_advanced"]}
{"id": "C80", "title": "What parsing into 128-bit integers does, exactly", "statement": "For __int128 and unsigned __int128 a text whose value is between 0 and 2^64-1 (also -0) is stored exactly; a negative value is reported as out of range; a value of 2^64 or more comes out reduced modulo 2^64, with success, exactly if it has as many digits as 2^64-1 has in the base and the reduced value does too, and is reported as out of range otherwise. In all cases the pointer is behind the digits.", "quantifier": "every digit string, base 2..36, sign, option set, character type, build configuration", "why_tests_cant": "The set of values that wrap is different in every base and unbounded in number of leading zeros.", "anchors": ["include/fast_float/ascii_number.h: parse_int_string"]}
{"id": "C81", "title": "What depends on the build and on the state of the thread, exactly", "statement": "Two builds with the same deprecated macros, or one build at compile time and at run time or in threads with different rounding directions, return the same pointer and store the same bits for every text and type. The codes differ exactly for std::float16_t, a number of at least 65520 with significand at most 2048 and exponent 0 to 4, when one of the two may convert with a floating-point operation (run time, rounding to nearest, FLT_EVAL_METHOD 0 or 1) and the other not; the former then reports success and the latter result_out_of_range.", "quantifier": "every text below 268 million characters, option set, floating-point type, character type, pair of build configurations and rounding modes", "why_tests_cant": "All texts times all pairs of builds; no machine can run them all.", "anchors": ["include/fast_float/parse_number.h: clinger_fast_path_impl, rounds_to_nearest, from_chars_float_advanced", "include/fast_float/float_common.h: feature macros"]}
{"id": "C82", "title": "A digit as decimal separator, exactly", "statement": "If parse_options::decimal_point is a digit, from_chars_advanced does with every text exactly what it does with a separator that does not occur in the text (the digit is a digit, there is no fraction), with one exception: a number of more than nineteen digits of which at most nineteen remain when the zeros among its leading zeros and separator digits are not counted. Such a number is converted, correctly rounded and with its sign, exponent, end pointer and range error, with its significand reduced modulo 2^64.", "quantifier": "every text, every option set whose separator is a digit, every floating-point type, character type and build configuration", "why_tests_cant": "The exceptional texts are unbounded in length and depend on the separator; all others must be shown unaffected.", "anchors": ["include/fast_float/ascii_number.h: parse_number_string, the loop that discounts leading zeros"]}
{"id": "C83", "title": "The 48 smallest wchar_t values, exactly", "statement": "For a signed 32-bit wchar_t, parsing a text that contains values below INT_MIN + 48 is undefined exactly when, behind the skipped white space, the digits of the integer part, of the fraction or of the exponent end (or are missing) right at such a value. Every other such text is parsed exactly as the text in which each of these values is replaced by any character that can be no part of a number: same error code, same stored value, same end position.", "quantifier": "every text of wchar_t values, every option set, every replacement character, every floating-point type and build configuration", "why_tests_cant": "The claim compares two infinite families of texts; undefined behaviour need not show in a test.", "anchors": ["include/fast_float/ascii_number.h: is_integer, parse_number_string", "include/fast_float/parse_number.h: from_chars_float_advanced", "include/fast_float/ascii_number.h: parse_infnan"]}
{"id": "C84", "title": "What a floating-point call does, in one statement, for every input", "statement": "A call of from_chars or from_chars_advanced for a floating-point type has exactly the outcome of one self-contained specification. Behind the white space it takes for such (if it skips any): if the library's reading of digits ends at one of the 48 smallest values of a signed 32-bit wchar_t, the behaviour is undefined; otherwise, if a number of the grammar the options select is there, the end pointer stands behind it, the value is the number with the exponent as read (beyond 2^28 only as many digits as needed), rounded to nearest even - except the short subnormal ties of std::float16_t, which go up - with its sign, and the code is result_out_of_range exactly when a non-zero number became zero or any became infinity and the conversion was not a single std::float16_t operation; if the separator is a digit and the digits are miscounted, the same with the significand modulo 2^64; otherwise an allowed infinity or NaN is stored with success; otherwise invalid_argument with the pointer at the start of the text behind the white space and nothing stored. The outcome is unique.", "quantifier": "every text of whatever code units, every option set (any separator, any flags), every floating-point type, character type and build configuration; both directions", "why_tests_cant": "It is a complete functional specification: an equivalence over all texts and all options.", "anchors": ["include/fast_float/parse_number.h: from_chars_float_advanced, from_chars_advanced, parse_number_slow_path", "include/fast_float/ascii_number.h: parse_number_string, parse_infnan", "include/fast_float/decimal_to_binary.h: compute_float", "include/fast_float/digit_comparison.h: digit_comp"]}
{"id": "C85", "title": "What an integer call does, in one statement, for every input", "statement": "A call of from_chars or from_chars_advanced for an integer type has exactly the outcome of one self-contained specification, and so is always defined. Behind the white space it takes for such (if it skips any): with a base outside 2 to 36, or without a digit of the base after the sign (minus for signed types only, plus if allowed), invalid_argument with the pointer at that place and nothing stored; with digits, the pointer behind the last of them and the value stored if its magnitude is within the type's (within uint64_t's, and zero after a minus sign, for 128-bit types), result_out_of_range and nothing stored otherwise - except for the overflows of a word that the library overlooks, exactly characterised, where the value is stored with its magnitude modulo 2^64. The outcome is unique.", "quantifier": "every text of whatever code units, every base, every option set, every integer type including bool and 128-bit ones, every character type and build configuration; both directions", "why_tests_cant": "It is a complete functional specification: an equivalence over all texts, bases and options.", "anchors": ["include/fast_float/parse_number.h: from_chars_int_advanced", "include/fast_float/ascii_number.h: parse_int_string"]}
{"id": "C86", "title": "What a result depends on, for every input", "statement": "The result of a floating-point call - defined or not, pointer, code, stored bits - is the same for any two build configurations, character types and option sets that agree on the text, the type, the six rules of the grammar (separator, leading plus, JSON, scientific, fixed, Fortran), white space being skipped and special values being allowed; every other bit of the format and the base are ignored. The one exception is a std::float16_t overflow that one of the builds converts with a single operation: there the stored infinity is the same, but that build reports success and the other result_out_of_range. Which texts are undefined or refused, and where the pointer is, is the same for all floating-point types. The result of an integer call depends only on the text, the size and signedness of the type, the base, a plus being allowed and white space being skipped.", "quantifier": "every text of whatever code units, every pair of build configurations, character types, option sets and types", "why_tests_cant": "A comparison of all pairs of builds, character types and option sets on all texts.", "anchors": ["include/fast_float/parse_number.h: from_chars_float_advanced, from_chars_int_advanced", "include/fast_float/float_common.h: the macros that select a build", "include/fast_float/ascii_number.h: parse_number_string, parse_int_string"]}
{"id": "C87", "title": "Which part of a text a result depends on, for every input", "statement": "What stands behind the characters a floating-point call has read can be exchanged for anything that does not start with a digit, the separator, a sign, an e, E, d, D, an opening parenthesis or an i or I - nor, for a signed 32-bit wchar_t, with one of its 48 smallest values: the call reads the same characters and reports and stores the same. In particular the characters read give that result on their own. If at least five characters are unread (three after a number), and the next is not an opening parenthesis (which matters for nan only), any text whatever may be appended without changing anything. For integers the text behind what was read can be exchanged for anything that does not start with a digit of the base, and anything may be appended as soon as one character is unread.", "quantifier": "every text of whatever code units, every text put in place of the rest or behind it, every option set (digits as separators included), type, character type and build configuration", "why_tests_cant": "It relates the results for all continuations of all texts.", "anchors": ["include/fast_float/parse_number.h: from_chars_float_advanced, from_chars_int_advanced, parse_infnan", "include/fast_float/ascii_number.h: parse_number_string, parse_int_string"]}

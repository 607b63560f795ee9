# Formal model of fast_float in Coq 8.16.1 — design

## Approach

* `/repo/include/fast_float/*.h` is transcribed function by function into total, computable
  Gallina functions over `Z` and `list Z` (stdlib only). Every definition cites file:lines.
* **Undefined behaviour is an outcome.** Everything that can go wrong in C++ returns
  `res A := Ok a | UB`: reading outside `[first,last)`, array/table index out of range, shift
  by >= width, `clz(0)`, signed overflow; running out of loop fuel is `UB` too. Theorems state
  that the result is `Ok`, so they carry memory safety and termination.
* **Machine words** are `Z` with explicit `mod 2^n` at each wrapping operation.
* **Pointers** into `[first,last)` are suffixes of the input list: `*p` is the head (`UB` on the
  empty suffix), `p == pend` is emptiness, `p - before` is a difference of lengths.
  Pointers past `last` cannot be formed (forming them is `UB`).
* **Build configuration** (`cfg`) is a parameter: constexpr evaluation or not, endianness, limb
  width 32/64, 128-bit integers, SSE2/NEON/none, clang, deprecated feature macros, FLT_EVAL_METHOD,
  native or emulated 16-bit arithmetic, and the thread's IEEE rounding direction and flush modes. Theorems quantify over it.
* **Character types** (`uc`) are enumerated: char (signed or unsigned), char8_t, wchar_t
  (signed/unsigned 32, unsigned 16), char16_t, char32_t; characters are the integer values.
* **Destination types** (`fmt`): double, float, float16, bfloat16 with the `binary_format<T>`
  constants; integers: signedness + maximum. Floating-point values are bit patterns.
* **Hardware floating-point arithmetic** (only used in `clinger_fast_path_impl` and
  `rounds_to_nearest`) is modelled as IEEE-754 prescribes: the exact rational result rounded in
  the active direction.

## Specification (independent of the model)

`Spec*.v` contain: the value of a bit pattern as a rational; "nearest, ties to even" as a
declarative predicate over all bit patterns; the grammar of numbers as an inductive relation;
infinity/NaN spellings; integer literals. They mention no model function.

## Per-property plan

| id | modelled | proof |
|----|----------|-------|
| C01 | from_chars_float_advanced and all callees | grammar refinement + Clinger (exactness of the operands, one IEEE rounding) + Eisel-Lemire (interval arithmetic on the 128-bit table, table checked entry by entry by computation, Mushtak-Lemire non-existence of bad w by unimodular-lattice certificates) + big-integer comparison |
| C02 | same, float16 | `_refuted` witness, plus correctness outside exact subnormal ties |
| C03 | parse_number_string | refinement to the inductive grammar, both directions |
| C04 | all error returns | case analysis after C03 |
| C05/C06 | ec computation | corollary of C01 (C06: `_refuted`) |
| C07 | parse_infnan, strncasecmp* | word-compare lemma, list induction |
| C08, C30 | is_space, sign handling | exhaustive table sweep lifted to all code units; wchar_t `_refuted` |
| C09, C10 | parse_number_string flags | specialisation of C03 to an independent RFC 8259 grammar / flag rules |
| C11 | decimal_point option | grammar transport under character exchange |
| C12 | UB outcomes everywhere; Props_Machine.v says which operations are undefined | total correctness gives `Ok` |
| C13 | cfg parameter; the word primitives (zeros, product) with and without intrinsics | both sides equal the same spec; the primitives equal their arithmetic definition |
| C14 | rounding mode in cfg | same, plus exact characterisation of the probe |
| C15, C17, C18, C19 | parse_int_string | list induction, SWAR lemmas |
| C16 | same, 64 bit | `_refuted` with a witness, plus exact characterisation of what is accepted |
| C20-C22 | integer_times_pow10 | Eisel-Lemire theorem |
| C23 | digit_comp, bigint | capacity bounds + exactness |
| C24-C29 | corollaries | relational consequences of C01/C03 |
| C32-C34 | parse_int_string on every configuration, character type and continuation | corollaries of the main theorem of integer parsing (`IntApi.int_main_at`) |
| C35 | parse_number_string and from_chars_advanced(parsed_number_string_t) as public functions | fields from `ParseSpec.parse_number_string_spec`, two-step agreement by comparing the two code paths |
| C36 | every report_parse_error in parse_number_string | inductive `diagnosis` (SpecDiagnosis.v), forward simulation of each error exit, completeness and uniqueness |
| C37 | parse_int_string with 128-bit destination types | equality with the uint64_t run where there is no minus sign; `_refuted` otherwise |
| C38 | all entry points | uniqueness of the rounding of a rational, from the end-to-end theorem for both texts |
| C39 | from_chars for integers and floats on one text | both main theorems on the same digit run |
| C40 | same | transport of the grammars along a symmetric relation on texts (`same_but_case`) |
| C41 | same | monotonicity of the grammar in its rules |
| C42 | same | the plain grammar of complete texts (SpecText.v): what was scanned is a complete number |
| C43 | parse_int_string for two types | both runs equal the specification |
| C44 | from_chars_advanced(pns, value) | compute_float on any 64-bit mantissa, many_digits on any spans; `_partial` for float16 |
| C45 | fastfloat_strncasecmp, operator bool, default arguments | induction over the blocks; masked words compare lane by lane |
| C46 | all entry points | non-interference by unfolding: every use of the options goes through seven (two) flag tests |
| C47 | integer_times_pow10 | uniqueness and monotonicity of the exact rounding relation `cf_rounds` |
| C48 | from_chars_float_advanced for two types | end-to-end theorem for both types on one text; thresholds of the formats compared |
| C49 | assertions as a configuration parameter (`asserts`): a failed one is `UB` in the model | capacity lemmas of BigintSpec.v; then a corollary of the exact configuration theorem |
| C50 | the stored value against `number_value`; `smallest_normal`, `largest_finite`, `digits10` defined next to the theorems | brackets of a rational between neighbouring floats, then rational arithmetic; the order theorem by cases on the two decimal places |
| C51 | the caller's loops as inductive relations over the model's calls (SpecLists.v) | induction on the list with C25/C34 and C42; termination by the consumed characters |
| C52 | texts and their extensions | the grammar relations are stable under appending text once enough characters are unread; then C01/C15 machinery |
| C53 | printing functions (SpecPrint.v): digits in a base, scientific notation with n digits | value of the printed digits by induction; then C15/C16 and C27 |
| C54 | thresholds as explicit rationals (Props_Range.v) | nearest-even against the two neighbours of the threshold; then C01/C22 |
| C55 | Flocq's decoding of bit patterns and its rounding of real numbers (FlocqBridge.v) | a generic-format number below 2^emax has a code; nearest-even over codes is Flocq's round; decoding by cases on the exponent field; then C01, C04, C22 |
| C56 | the operators of chars_format on 64-bit words (FormatOps.v) | bitwise; then C41, and the same argument for integers from the integer theorem |
| C57 | the results of two types for the same text | half-way points of the narrower type are numbers of the wider one, so the wider result lies on the same side of each; `_refuted` without the exception |
| C58 | which values round to a given number | intervals bounded by half-way points (`SpecInterval.v`) are disjoint, and the nearest number's interval contains the value; the end points follow the tie rule of each type |
| C59 | the IPv4 client of tests/ipv4_test.cpp (`Ipv4.v`, specification in `SpecIpv4.v`) | induction over the octets with the integer theorem (C15) for each call; printing of one octet by computation over its 256 values, of an address by composition |
| C60 | the parsers with a count of the rounds of their loops (`Cost.v`), proved to be the parsers once the count is forgotten (`CostErase.v`) | amortised bounds by induction on the loops: characters already read pay for the scans, the capacity of the buffer bounds the limbs, the range of the table of powers bounds the exponent of the slow path |
| C61 | the scripts script/table_generation.py and script/mushtak_lemire.py (`TableScript.v`) and the table | the loops of the generator end and compute a normalised floor (for 5^q, q < -27, adding one before truncating changes nothing), by induction; the floor of a 128-bit number is unique, so the script's output is the table whose entries are checked against powers of five; ambiguity is excluded by a pair of neighbouring fractions per entry (unimodular certificate), sound for every 64-bit significand; Euclid's algorithm halves its denominator every two rounds; the checks of script/analysis.py hold for every power since the remainder of a division is below the divisor; that convergents suffice is Legendre's argument on consecutive convergents, by induction on the run of Euclid's algorithm (`Legendre.v`) |
| C62 | the benchmark clients bench_ip.cpp and bench_uint16.cpp (`Bench.v`) | induction over the list, with C59 for an address and C53/C15 for a printed 16-bit value; the converse from the integer theorem and uniqueness of the digit run |
| C63 | findmax of benchmark.cpp (`Bench.v`), comparison of bit patterns as IEEE-754 defines it | rounding to nearest even is monotone, so it commutes with the maximum, by induction over the texts (C01); rejected texts by C03/C04; UTF-16 by C24 |
| C64 | the random engine, build_random_string and tester of tests/random_string.cpp and tests/short_random_string.cpp (`RandomText.v`), strtod_l as an argument | the engine adds an odd constant modulo 2^64, so from every state it reaches, within 2^64 steps, a state whose number every loop accepts: all loops end; the text by induction over its digits; the checks by C01 and C03; unbiasedness by counting multiples in an interval |
| C65 | check_word, the threads, the loops and exit codes of tests/exhaustive32.cpp, exhaustive32_64.cpp, exhaustive32_midpoint.cpp, random64.cpp and their long variants (`Sweep.v`), printf, strtof and the parser as arguments; a schedule is any sequence of steps of the workers | an invariant on every worker (all its words so far are good) and a measure that bounds the steps (`SweepLemmas.v`); printed numbers by C53, `nan` and `inf` by C05; midpoints exact by the uniqueness of codes; the generator modulo 2^128 |
| C66 | the reader and the loop of tests/rcppfastfloat_test.cpp (`Clients.v`) | case split on number, special value or neither (C03, C05, C06); a number between white space is what remains after skipping white space and ends where white space starts (C42) |
| C67 | tester of tests/powersoffive_hardround.cpp (`Clients.v`), strtod and the numbers drawn as arguments | w·5^q·10^-q = w·2^-q; the bounds by division; then C01 and C06 |
| C68 | fuzz/from_chars.cc (`Clients.v`), the data provider replaced by what it returns | C12 and C32 |
| C69 | the calls as effects on a memory that holds text and destination: which values are stored, when, and what is read afterwards (`Memory.v`) | the effect is related to the result of the pure model path by path; the only read after a store is that of the NaN payload; a finished object is read back byte by byte |
| C70 | threads as arbitrary code over single-byte accesses; the call is any code that reads its text, writes its destination and alone does what `Memory.v` says (`Props_Concurrent.v`); for integers, fixed-width types and wide texts what the pure model says of the text in memory (`Props_Calls.v`) | invariant over schedules: every thread still has before it what it would have alone (frame lemma), and the accesses left plus those made are constant |
| C71 | the public overloads, their enable_if conditions and the conversions of their arguments, over C++ types on a platform given by its sizes (`Overloads.v`) | overload resolution is computed for every type; the selected function is one of the functions of the other claims; the limits of a type are those of its size, by cases; the code units of a text, the conversion of an argument and the ranks of conversions are stated against the limits of the types |
| C72 | script/amalgamate.py on arbitrary file contents (`Amalgamate.v`), against a small preprocessor with include guards | the preprocessor is run symbolically on the include structure; lines of a concatenation by induction; every piece of the preamble is made of comment lines that end |
| C73 | the version macros of float_common.h and script/release.py on arbitrary files and arguments (`Release.v`); a history of releases is a list of versions | induction on the history; the substitutions are followed line by line; linear arithmetic for the number, with a witness for three digits (finding 19) |
| C74 | many_loop and parse of tests/example_test.cpp, test() of tests/string_test.cpp and tests/long_test.cpp (`Examples.v`) | induction on the text and on the list, from what C51 and C52 say of one call; parse from C01, C06 and C08 |
| C75 | from_chars for floating-point and integer types | the standard's languages of whole texts (`SpecStd.v`) and the left-to-right grammar of SpecGrammar give the same longest match (`Props_Std.v`); then C01, C06, C07, C08, C15, C16 |
| C76 | as C02 and C06 | `Props_Exact.v`: the two partial theorems together, and that the rule determines the result (with a case distinction on a decidable goal instead of excluded middle) |
| C77 | from_chars_caller | `Props_Exact.v`: from C05, C07 and C04 |
| C78 | integer_times_pow10, all overloads on 64-bit arguments | `Props_Exact.v`: from C20, C21 and the symmetry of C22 |
| C79 | is_space, the skipping loops | `Props_Exact.v`: the table of 256 entries by computation, induction on the run; that the rest of the parse does not look at the flag |
| C80 | parse_int_string for 128-bit types | `Props_Exact.v`: from C37, with -0 |
| C81 | as C13 and C14 | `Props_Exact.v`: from C76 and the thresholds of C54 by propositional reasoning; other texts by the uniqueness of the grammar |
| C82 | parse_number_string with a digit as decimal point | `Props_DigitPoint.v`: both parses walked through side by side; they can differ in the loop that discounts leading zeros only, and then the accumulator modulo 2^64 goes to the conversion of C44 |
| C83 | from_chars over signed 32-bit wchar_t with values below INT_MIN + 48 | `Props_Wchar.v`: the parses of the text and of the text with these values replaced walked through side by side (`parse_small`); where the digits end is the inductive `digits_end`, stated with the grammar of `SpecGrammar` |
| C84 | from_chars_advanced for floating-point types, all arguments | the specification is the inductive `outcome` of `SpecCall.v`, stated with the grammar and the rounding rules only; `Props_Call.v`: the theorems behind C01-C14, C28, C76, C79, C82 and C83 put together case by case, the grammar transferred from a text to the text with the 48 wchar_t values replaced, and uniqueness of the outcome for the other direction |
| C85 | from_chars_int_advanced, all arguments | the specification is the inductive `int_outcome` of `SpecIntCall.v`; `Props_IntCall.v`: `int_main_at` (C15, C16, C33), the 128-bit case reduced to uint64_t where there is no minus sign, uniqueness of integer texts for the other direction |
| C86 | pairs of calls of the functions of C84 and C85 | `Props_Agree.v`: `outcome` and `int_outcome` mention the configuration, the options and the character type only through these rules; case analysis on the two outcomes |
| C87 | pairs of calls of the functions of C84 and C85 on texts with a common beginning | `Props_Unread.v`: every derivation of the grammar that ends in front of the exchanged text is one for the other text, and the place where the digits end (the undefined texts of C83) lies in the common part; then C84 and C85 |
| C31 | from_chars_caller | value agreement on success; `_refuted` for the error path |

## Trusted base

* **Coq 8.16.1's kernel** (including `vm_compute`, used for the finite table sweeps) and `coqc`.
* **Axioms: none, except in the seven theorems of C55.** `Print Assumptions` says "Closed under the global
  context" for every theorem named in MANIFEST.json (the Props_*.v files end their main theorems with
  `Print Assumptions`) other than those of Props_Flocq.v: `from_chars_double_ieee`, `from_chars_float_ieee`,
  `from_chars_bfloat16_ieee`, `from_chars_float16_ieee_partial`, `from_chars_special_ieee`,
  `integer_times_pow10_ieee` and `integer_times_pow10_float16_ieee`. These speak about real numbers and depend on the standard library's axioms for
  them, and on no others: `ClassicalDedekindReals.sig_not_dec`, `ClassicalDedekindReals.sig_forall_dec`,
  `FunctionalExtensionality.functional_extensionality_dep`, `Classical_Prop.classic`. Flocq, which is imported
  only by FlocqBridge.v and Props_Flocq.v, adds no axiom. All other files import Coq's standard library only
  (ZArith, QArith, List, Bool, Lia, Lqa), without Reals. The names vcheck lists under `library_axioms`
  (`Coq.ssr.ssrunder.*`) are parameters of a module type in the standard library's ssreflect files,
  which no theorem here depends on.
* **The transcription.** The model was written by reading /repo; nothing was extracted. Each definition cites
  the lines it transcribes and the simplifications are listed there and below.

### What is modelled

| file | modelled in | remarks |
|------|-------------|---------|
| ascii_number.h | Chars.v, ParseNumber.v, Ints.v | all functions: is_integer, byteswap, read8/read4, the SWAR and SSE2/NEON digit tests and conversions, loop_parse_if_eight_digits, parse_number_string<true/false>, parse_int_string with its uint8_t/uint16_t fast paths, report_parse_error |
| parse_number.h | ParseNumber.v, FromChars.v, Ints.v | parse_infnan, rounds_to_nearest, from_chars_caller (both overloads), clinger_fast_path_impl, from_chars_advanced (all overloads), parse_number_slow_path, from_chars_float_advanced, from_chars_int_advanced, from_chars for integers, integer_times_pow10 (all overloads) |
| decimal_to_binary.h | DecToBin.v | power, compute_product_approximation, compute_error(_scaled), compute_float |
| digit_comparison.h | DigitComp.v | all: scientific_exponent, to_extended(_halfway), round*, skip_zeros, is_truncated, parse_eight_digits, parse_one_digit, add_native, round_up_bigint, parse_mantissa, positive_/negative_digit_comp, digit_comp |
| bigint.h | Bigint.v | stackvec with its capacity, small/large_add/mul/pow, uint64_hi64 etc., shl, bit_length, ctlz, pow2/pow5/pow10, compare, hi64; limbs of 32 and 64 bits |
| float_common.h | Config.v, Chars.v, Format.v, Tables.v | flags, parse_options, adjust_for_feature_macros, the operators of chars_format (FormatOps.v), fastfloat_strncasecmp(3/5) (the general one in CaseCmp.v), from_chars_result_t::operator bool, is_space, ch_to_digit, min_safe_u64, max_digits_u64, binary_format<double, float, std::float16_t, std::bfloat16_t>, to_float, leading_zeroes, full_multiplication, countr_zero_32 |
| fast_table.h | FastTable.v | all 1302 words, checked against powers of five in TableCerts.v |
| tests/ipv4_test.cpp, simple_parse_ip_line of benchmarks/bench_ip.cpp | Ipv4.v | a client program: reading and printing IPv4 addresses; the loop of main and the output are not modelled |
| benchmarks/bench_ip.cpp, benchmarks/bench_uint16.cpp, findmax of benchmarks/benchmark.cpp | Bench.v | writing and reading back, the search for the largest number; the random numbers are arguments, timing and printing are not modelled, std::to_string is print_natural |
| tests/random_string.cpp, tests/short_random_string.cpp | RandomText.v | the random engine, the construction of texts and the checks; strtod_l and strtof_l are arguments, output is not modelled |
| tests/exhaustive32.cpp, exhaustive32_64.cpp, exhaustive32_midpoint.cpp, random64.cpp, long_exhaustive32.cpp, long_exhaustive32_64.cpp, long_random64.cpp | Sweep.v | the check of one word, the workers and the flag `ok` (a relaxed load may return an older value), the exit codes; snprintf, strtof_l and the parser are arguments, output is not modelled |
| tests/rcppfastfloat_test.cpp, tests/powersoffive_hardround.cpp, fuzz/from_chars.cc | Clients.v | without messages; the random generator, strtod and the fuzzer's data provider are arguments |
| parse_number.h:22-71,149-181,191-290,309-394 again, with the stores to the destination | Memory.v | texts of char only |
| float_common.h:256-294, fast_float.h:33-87, parse_number.h:140-189,396-546 (signatures and dispatch) | Overloads.v | which overload a call selects, from the C++ types of its arguments and a platform |
| script/amalgamate.py | Amalgamate.v | str.isspace is a parameter that holds of the newline; print's additional newline on standard output is not modelled |
| script/release.py, float_common.h:19-33 | Release.v | the checks, the new CMakeLists.txt, float_common.h and README.md, the tag; \d is an ASCII digit, str.isspace is a parameter; the questions to git about branches are not modelled |
| tests/example_test.cpp, tests/string_test.cpp, tests/long_test.cpp | Examples.v | the reading loops; the texts and expected numbers are arguments; messages are not modelled; std::isspace of a negative character other than EOF is undefined |
| script/table_generation.py, script/mushtak_lemire.py, script/analysis.py | TableScript.v | the generator of the table, the search for ambiguous products and the check of the approximations; Python integers are unbounded integers, a while loop gets fuel and the theorems say how much is enough; hex output is not modelled |
| the functions above that contain loops | Cost.v | counted copies, equal to the model's functions by CostErase.v; used for C60 only |
| constexpr_feature_detect.h, macros | cfg | as parameters the theorems quantify over |

### What is not modelled, or simplified

* The C++ language: templates are instantiated by hand (parameters `uc`, `ftype`, `ity`, `bjf`); overload resolution and
  SFINAE are modelled for the public functions only (Overloads.v); `noexcept`, inlining, warnings pragmas have no counterpart.
* Memory: in most files the text is an immutable list and the stored number part of the result. Overlap of text and
  destination (C69) is modelled in Memory.v for texts of char (for other character types C++'s aliasing rules forbid it),
  concurrent calls (C70) in Props_Concurrent.v and Props_Calls.v for every entry point and character type; other
  threads that modify the text during a call are outside the model (a data race). The library has no other shared state
  (const tables only).
* Texts of more than 2^59 code units (no 64-bit platform can hold them; needed for signed pointer
  differences and digit counts).
* Hardware floating point in the Clinger fast path is IEEE-754 by assumption, with the thread's rounding
  direction, FLT_EVAL_METHOD (0, 1, 2, or any other value with operations in their own type), the evaluation of
  float16/bfloat16 operations in their own type or in float with a second rounding (gcc and clang on
  machines without 16-bit arithmetic), and the flush-to-zero/denormals-are-zero modes as parameters;
  -ffast-math is outside the model.
* On 32-bit platforms `size_t` and `ptrdiff_t` are modelled as 64-bit quantities; a 32-bit address space bounds the text
  so that they agree.
* `bool_type` stands for bool as a destination (value bits 1).
* `from_chars_caller<std::float32_t/64_t>`: the conversion between the equivalent types is the identity on bit patterns.

### How the model was validated against the code

The model was written by hand and read against the source function by function.
Besides, `Conformance.v` and `Conformance_List.v` evaluate it (with vm_compute, while they are compiled) on the
vectors of the repository's own tests: every `verify` of `basictest.cpp` for double,
float, float16 and bfloat16 (with `char`, `char16_t`, `char32_t`), the decimal-point,
scientific, fixed, JSON, Fortran, white-space, `integer_times_pow10`, `fast_int.cpp`,
wide-character and emoji tests, `powers_of_ten` and the `string_test.cpp` list (about
4,600 calls, most in four builds).  All agree.  These files are tests and support no
claim; `tools/gen_conformance.py` writes them from /repo/tests.

### Findings (each a `_refuted` theorem or a witness beside a partial theorem)

1. uint64_t/int64_t overflow can go unnoticed in most bases (C16, C33).
2. float16: compute_float rounds exact ties between subnormals up instead of to even (C02).
3. float16: overflow on the Clinger path reports success (C06, C13, C14).
4. integer_times_pow10(INT64_MIN, e): signed overflow (C21).
5. is_space on a negative wchar_t looks at the low byte only (C30).
6. is_integer on the 48 smallest wchar_t values: signed overflow (C12); which texts is C83.
7. from_chars for std::float32_t/64_t overwrites the destination on error (C31).
8. Exponents are clamped at 2^28: wrong in a text of more than 2^28 digits (C28).
9. A digit as decimal_point gives nonsense (C11); when and which is C82.
10. integer_times_pow10 and from_chars disagree for float16 (C22).
11. basic_fortran without fixed/scientific rejects numbers followed by d (C03).
12. JSON mode rejects texts of which a prefix is a JSON number (C09; a design decision).
13. __int128: every negative value is out of range, and values from 2^64 on are (C37).
14. fastfloat_strncasecmp: constant evaluation and run time differ on words with other characters than lower-case
    letters, e.g. '_' (C45; the library only passes lower-case words).
15. Two comments of fast_table.h are wrong (the code is right): powers below 5^-27 are rounded down, not "toward one",
    and w * 10^-343 is not always less than 2^-1076 (it is less than 2^-1075, which suffices) (C61).
16. tests/exhaustive32_64.cpp does not look at its flag `ok` after joining its threads: it exits with EXIT_SUCCESS whatever
    the library does (`exhaustive32_64_refuted`, C65). The library is right on these inputs (`exhaustive32_64_passes`).
17. The payload of nan(...) is read after NaN has been stored in the destination: when the destination overlaps the text
    (the characters are those of the object's bytes) the returned pointer is that after "nan" (`from_chars_in_place_refuted`,
    C69). Error code and value are right, and everything else may be read in place.
18. With -std=gnu++ the 128-bit integers count as integral types: integer_times_pow10 accepts them and silently reduces the
    argument modulo 2^64 (`integer_times_pow10_any_type_refuted`, C71).
19. FASTFLOAT_VERSION leaves two decimal digits to the minor and to the patch number, and script/release.py does not
    enforce that: 8.2.100 and 8.3.0 have the same number (`version_number_order_refuted`, C73). The script also does not
    know MODULE.bazel, whose version has stayed behind (8.2.4 when the macros say 8.2.9); this is an observation about
    the files, not a theorem.

{"claims": [
 {"property": "C01", "status": "proved", "theorems": ["from_chars_correctly_rounded"], "note": "double, float, bfloat16; every text under 268,000,000 characters (or exponent below 2^28), every configuration, character type, option set with a non-digit decimal point"},
 {"property": "C02", "status": "partial", "theorems": ["from_chars_float16_partial", "from_chars_float16_refuted"], "note": "REFUTED as stated: a float16 subnormal tie is rounded to odd (witness in from_chars_float16_refuted). Proved: nearest always, ties-to-even except exact subnormal ties. What is true instead is C76 (proved)"},
 {"property": "C03", "status": "proved", "theorems": ["from_chars_longest_match", "from_chars_accepts_longest", "from_chars_no_number", "fortran_only_refuted"], "note": "exception (fortran without fixed/scientific) is refuted by fortran_only_refuted"},
 {"property": "C04", "status": "proved", "theorems": ["from_chars_invalid", "from_chars_invalid_only"], "note": "both directions"},
 {"property": "C05", "status": "proved", "theorems": ["from_chars_range_error"], "note": "exactly on overflow or nonzero underflow to zero"},
 {"property": "C06", "status": "partial", "theorems": ["from_chars_float16_range_error_partial", "from_chars_float16_range_error_refuted"], "note": "REFUTED as stated: 7e4 into float16 stores infinity and reports success. Proved outside exactly that fast-path set. What is true instead is C76 (proved)"},
 {"property": "C07", "status": "proved", "theorems": ["from_chars_special", "from_chars_nan_one_value", "from_chars_special_only", "from_chars_no_infnan", "from_chars_infinity_only"], "note": ""},
 {"property": "C08", "status": "proved", "theorems": ["from_chars_space_rejected", "from_chars_space_skipped", "from_chars_plus_rejected", "from_chars_json_plus_rejected", "from_chars_plus_accepted"], "note": ""},
 {"property": "C09", "status": "proved", "theorems": ["from_chars_json_accepts", "from_chars_json_only", "from_chars_json_whole", "from_chars_json_presets", "from_chars_json_prefix_refuted"], "note": ""},
 {"property": "C10", "status": "proved", "theorems": ["from_chars_fixed_only", "from_chars_scientific_only", "from_chars_dangling_exponent", "from_chars_exponent_letters"], "note": ""},
 {"property": "C11", "status": "proved", "theorems": ["from_chars_separator", "from_chars_digit_separator_refuted"], "note": "a digit as separator is refuted"},
 {"property": "C12", "status": "proved", "theorems": ["from_chars_defined", "from_chars_wchar_min_undefined", "shifts_defined", "signed_defined", "access_defined"], "note": "all texts, options and configurations; the excluded 48 smallest signed 32-bit wchar_t values really are undefined (from_chars_wchar_min_undefined); shifts_defined, signed_defined and access_defined state which machine operations count as undefined"},
 {"property": "C13", "status": "partial", "theorems": ["from_chars_config_independent", "from_chars_config_exact", "from_chars_float16_config_partial", "from_chars_float16_config_refuted", "from_chars_half_arithmetic_independent", "from_chars_int_config_independent", "primitives_exact"], "note": "proved for double, float, bfloat16 and all integer types; for float16 too between builds that both do, or both do not, use floating-point arithmetic (from_chars_config_exact); otherwise REFUTED for float16 (error code of 7e4 differs between constexpr and run time). What is true instead is C81 (proved)"},
 {"property": "C14", "status": "partial", "theorems": ["from_chars_mode_independent", "from_chars_float16_mode_partial", "from_chars_float16_mode_refuted", "from_chars_flush_independent", "rounding_probe_exact", "integer_times_pow10_mode_independent"], "note": "proved for double, float, bfloat16 and the probe; the error code of float16 does depend on the mode (REFUTED). What is true instead is C81 (proved)"},
 {"property": "C15", "status": "proved", "theorems": ["from_chars_int_exact"], "note": ""},
 {"property": "C16", "status": "partial", "theorems": ["from_chars_int64_partial", "from_chars_int64_in_range", "from_chars_int64_safe_bases", "from_chars_int64_refuted"], "note": "REFUTED as stated: 20-digit decimal values from 28446744073709551616 to 36893488147419103231 wrap. What is true is C33"},
 {"property": "C17", "status": "proved", "theorems": ["from_chars_int_invalid", "from_chars_int_errors", "from_chars_int_success"], "note": ""},
 {"property": "C18", "status": "proved", "theorems": ["from_chars_int_fast_paths"], "note": ""},
 {"property": "C19", "status": "proved", "theorems": ["from_chars_int_base"], "note": ""},
 {"property": "C20", "status": "proved", "theorems": ["integer_times_pow10_correct", "integer_times_pow10_float16_partial", "integer_times_pow10_float16_exact", "integer_times_pow10_float16_refuted"], "note": "double, float, bfloat16: all mantissas and exponents; float16 fails on subnormal ties"},
 {"property": "C21", "status": "partial", "theorems": ["integer_times_pow10_signed_partial", "integer_times_pow10_signed_refuted", "integer_times_pow10_other_types"], "note": "REFUTED at INT64_MIN (signed overflow in the negation); everything else is correct. What is true instead is C78 (proved)"},
 {"property": "C22", "status": "proved", "theorems": ["integer_times_pow10_agrees", "integer_times_pow10_agrees_refuted"], "note": "double, float, bfloat16; float16 refuted"},
 {"property": "C23", "status": "proved", "theorems": ["from_chars_all_digits_count"], "note": ""},
 {"property": "C24", "status": "proved", "theorems": ["from_chars_wide", "from_chars_int_wide"], "note": ""},
 {"property": "C25", "status": "proved", "theorems": ["from_chars_trailing_text"], "note": ""},
 {"property": "C26", "status": "proved", "theorems": ["from_chars_monotone"], "note": ""},
 {"property": "C27", "status": "proved", "theorems": ["from_chars_exact", "from_chars_strictly_closest", "from_chars_round_trip"], "note": ""},
 {"property": "C28", "status": "proved", "theorems": ["from_chars_huge_exponent", "from_chars_zero", "from_chars_any_exponent", "exponent_read_function", "from_chars_huge_exponent_refuted"], "note": "the length bound is needed: from_chars_huge_exponent_refuted; from_chars_any_exponent has no bound at all: the result is that of the exponent as far as it is read (exponent_read)"},
 {"property": "C29", "status": "proved", "theorems": ["from_chars_minus", "from_chars_zero", "minus_zero_example"], "note": ""},
 {"property": "C30", "status": "partial", "theorems": ["is_space_correct", "is_space_wchar_partial", "is_space_wchar_refuted", "from_chars_one_space"], "note": "proved for every type except signed 32-bit wchar_t, where it is REFUTED (wchar_t -224 counts as white space); characterised exactly there. What is true instead is C79 (proved)"},
 {"property": "C31", "status": "partial", "theorems": ["from_chars_fixed_width_partial", "from_chars_fixed_width_report", "from_chars_fixed_width_refuted"], "note": "REFUTED: on error the destination is overwritten (with zero); success and report agree. What is true instead is C77 (proved)"},
 {"property": "C32", "status": "proved", "theorems": ["from_chars_int_defined", "from_chars_int_config_independent", "from_chars_int_wide"], "note": ""},
 {"property": "C33", "status": "proved", "theorems": ["from_chars_int64_in_range", "from_chars_int64_wraps", "from_chars_int64_partial", "from_chars_int64_safe_bases"], "note": ""},
 {"property": "C34", "status": "proved", "theorems": ["from_chars_int_trailing_text"], "note": ""},
 {"property": "C35", "status": "proved", "theorems": ["parse_number_fields", "parse_number_fields_example", "parse_then_convert"], "note": ""},
 {"property": "C36", "status": "proved", "theorems": ["parse_number_diagnosis", "parse_number_valid_iff", "diagnosis_unique", "number_or_diagnosis_holds", "parse_number_diagnosis_example"], "note": ""},
 {"property": "C37", "status": "partial", "theorems": ["from_chars_int128_partial", "from_chars_int128_refuted"], "note": "REFUTED for every negative value (out of range) and every value of 2^64 or more (out of range, or wrapped: which of the two is characterised exactly); exact for the others. What is true instead is C80 (proved)"},
 {"property": "C38", "status": "proved", "theorems": ["from_chars_value_only", "from_chars_value_only_float16_refuted"], "note": "the second theorem shows that for float16 the error code depends on the spelling (finding 3)"},
 {"property": "C39", "status": "proved", "theorems": ["from_chars_int_then_float", "int_then_float_example"], "note": ""},
 {"property": "C40", "status": "proved", "theorems": ["from_chars_letter_case", "from_chars_int_letter_case", "letter_case_example", "int_letter_case_example"], "note": ""},
 {"property": "C41", "status": "proved", "theorems": ["from_chars_permits_more", "from_chars_json_then_general", "from_chars_permits_exponent_counterexample"], "note": ""},
 {"property": "C42", "status": "proved", "theorems": ["from_chars_consumed_only", "from_chars_int_consumed_only", "consumed_only_example"], "note": ""},
 {"property": "C43", "status": "proved", "theorems": ["from_chars_int_other_type", "other_type_example"], "note": ""},
 {"property": "C44", "status": "partial", "theorems": ["from_chars_parsed_correct", "from_chars_parsed_float16_partial", "from_chars_parsed_same_number", "from_chars_parsed_build", "from_chars_parsed_example"], "note": "proved for double, float and bfloat16; for float16 the result and the code are characterised exactly, with the subnormal ties and the silent overflows of findings 2 and 3 (so the ideal statement fails there and only there)"},
 {"property": "C45", "status": "proved", "theorems": ["strncasecmp_correct", "strncasecmp_specialised", "strncasecmp_other_words_refuted", "strncasecmp_example", "result_bool_correct", "defaults_agree"], "note": "the third theorem shows why the word must consist of lower-case letters: constant evaluation and run time differ on other characters such as underscore"},
 {"property": "C46", "status": "proved", "theorems": ["from_chars_float_ignores", "from_chars_int_ignores", "macros_are_flags"], "note": "the first two hold for every text including undefined ones; the macro theorem for floats is about good texts"},
 {"property": "C47", "status": "proved", "theorems": ["integer_times_pow10_product", "integer_times_pow10_monotone", "integer_times_pow10_representable", "integer_times_pow10_odd"], "note": "all four types, including float16; INT64_MIN is excluded from the signed overload (finding 4)"},
 {"property": "C48", "status": "proved", "theorems": ["from_chars_type_independent", "from_chars_wider_type"], "note": "including float16"},
 {"property": "C49", "status": "proved", "theorems": ["assertions_never_fail", "assertions_never_fail_parsed"], "note": "all types; the assertions are a parameter of the configuration, so C12, C13 and all other theorems over configurations cover them too"},
 {"property": "C50", "status": "proved", "theorems": ["from_chars_error_bound", "from_chars_digits10", "from_chars_digits10_order"], "note": "all four types including float16; Example digits10_sharp shows that one more digit does not survive"},
 {"property": "C51", "status": "proved", "theorems": ["from_chars_delimited", "from_chars_delimited_only", "from_chars_delimited_ends", "from_chars_spaced", "from_chars_spaced_ends", "from_chars_int_delimited", "from_chars_int_delimited_only", "from_chars_int_delimited_ends", "from_chars_int_spaced"], "note": "the loops are defined in SpecLists.v"},
 {"property": "C52", "status": "proved", "theorems": ["from_chars_final", "from_chars_final_any", "from_chars_int_final", "from_chars_int_final_rejection"], "note": "Example final_sharp shows that fewer unread characters are not enough"},
 {"property": "C53", "status": "proved", "theorems": ["from_chars_printed_integer", "from_chars_printed_float", "rounded_digits_exist"], "note": "printing is defined in SpecPrint.v"},
 {"property": "C54", "status": "proved", "theorems": ["from_chars_thresholds", "integer_times_pow10_thresholds"], "note": "all four types, thresholds written out as numbers"},
 {"property": "C55", "status": "partial", "theorems": ["from_chars_double_ieee", "from_chars_float_ieee", "from_chars_bfloat16_ieee", "from_chars_float16_ieee_partial", "from_chars_special_ieee", "integer_times_pow10_ieee", "integer_times_pow10_float16_ieee"], "note": "complete for double, float and bfloat16; for float16 the exact behaviour is proved: ties between subnormal numbers are rounded away from zero (finding 2) and overflow is not reported in the set of finding 3, so the ideal statement fails there and only there. Depends on the standard library axioms of the real numbers, listed in DESIGN.md"},
 {"property": "C56", "status": "proved", "theorems": ["format_operators", "format_extensional", "format_undo", "from_chars_more_flags", "from_chars_int_more_flags", "presets_agree"], "note": ""},
 {"property": "C57", "status": "proved", "theorems": ["from_chars_narrowing", "narrowing_without_exception_refuted", "twice_rounded_results"], "note": "the second theorem shows that the exception is needed (double rounding is a fact about rounding, not a defect of the library); all pairs of types including float16"},
 {"property": "C58", "status": "proved", "theorems": ["from_chars_interval", "from_chars_interval_float16", "integer_times_pow10_interval", "interval_unique", "interval_convex"], "note": "rounding intervals are defined in SpecInterval.v; Examples interval_example and interval_example_float16"},
 {"property": "C59", "status": "proved", "theorems": ["ipv4_reader_exact", "ipv4_reader_accepts", "ipv4_round_trip", "dotted_quad_unique"], "note": "the exact set of accepted texts is stated for builds without the skip-white-space and leading-plus macros (with them more texts are accepted); the other theorems for every build"},
 {"property": "C60", "status": "proved", "theorems": ["from_chars_linear_time", "from_chars_int_linear_time", "counting_changes_nothing", "zeros_take_their_length"], "note": "a step is one round of a loop of the code; straight-line code and loops of constant length (one machine word, one special word) are not counted"},
 {"property": "C61", "status": "proved", "theorems": ["table_rounding", "table_rounded_toward_one_from", "table_rounded_toward_one_refuted", "table_generated", "table_no_ambiguous_product", "search_finds_nothing", "search_method_correct", "table_range", "table_range_comment_refuted", "analysis_all_good"], "note": "the refuted statements are two comments in fast_table.h (finding 15)"},
 {"property": "C62", "status": "proved", "theorems": ["seek_ip_end_correct", "bench_ip_reads_back", "bench_ip_exact", "bench_uint16_reads_back", "bench_uint16_validate_exact", "bench_uint16_sum_exact"], "note": "the three exactness theorems are for builds without the skip-white-space and leading-plus macros; the others for every build"},
 {"property": "C63", "status": "proved", "theorems": ["findmax_correct", "findmax_throws", "findmax_wide"], "note": "findmax_throws for builds without the skip-white-space macro (with it the test p == st.data() misses texts with leading white space, by design of the benchmark)"},
 {"property": "C64", "status": "proved", "theorems": ["random_text_built", "random_check_exact", "random_test_exact", "random_test_passes", "random_test_any_parser", "ranged_int_unbiased"], "note": "strtod_l and strtof_l are arguments of the model; the seed of the programs (1234344) is one of the seeds"},
 {"property": "C65", "status": "proved", "theorems": ["printf_read_back", "every_schedule_exact", "exhaustive32_exact", "long_exhaustive32_64_exact", "exhaustive32_passes", "long_exhaustive32_64_passes", "exhaustive32_64_always_succeeds", "exhaustive32_64_refuted", "exhaustive32_64_passes", "midpoint_exact", "exhaustive32_midpoint_exact", "midpoint_test_exact", "midpoint_test_passes", "random_values_exact", "random_values_passes"], "note": "printf and strtof are arguments of the model, specified in SpecPrintf.v and Props_RandomText.v; exhaustive32_64_refuted shows that exhaustive32_64.cpp never reports a mismatch"},
 {"property": "C66", "status": "proved", "theorems": ["read_field_exact", "eddelbuettel_exact"], "note": "double, float and bfloat16; Example test_datas_right runs the program on its own table"},
 {"property": "C67", "status": "proved", "theorems": ["hard_range", "hard_text_read", "hard_tester_exact", "hard_tester_any_parser"], "note": "strtod and the numbers drawn are arguments of the model; Example hard_tester_runs"},
 {"property": "C68", "status": "proved", "theorems": ["fuzz_one_defined"], "note": "the data provider is replaced by what it returns (any bytes, any choice); Example fuzz_one_runs"},
 {"property": "C69", "status": "proved", "theorems": ["from_chars_in_place", "from_chars_in_place_refuted", "from_chars_fixed_width_in_place", "from_chars_int_in_place"], "note": "texts of char (for the other character types an overlap is undefined behaviour of the language); the exception for NaN and overlapping destination is part of the statement and has a witness; Example from_chars_in_place_example"},
 {"property": "C70", "status": "proved", "theorems": ["from_chars_concurrent", "plain_code_implements", "calls_concurrent", "job_carried_out"], "note": "calls_concurrent covers every entry point and character type, with text and destination apart; from_chars_concurrent floating-point calls on char texts that may overlap their own destination; sequentially consistent accesses of single bytes (there are no data races under the hypotheses); Examples two_calls_meet_the_hypotheses and three_jobs_meet_the_hypotheses"},
 {"property": "C71", "status": "partial", "theorems": ["from_chars_compiles", "from_chars_any_integer_type", "from_chars_any_float_type", "from_chars_advanced_any_type", "integer_times_pow10_any_type_partial", "integer_times_pow10_other_calls", "integer_times_pow10_any_type_refuted", "code_units_of_any_character_type", "conversion_of_arguments", "ranks_of_conversions"], "note": "partial by library behaviour only: float16 (finding 2), INT64_MIN (finding 4) and 128-bit arguments of integer_times_pow10 (finding 18, integer_times_pow10_any_type_refuted) are excluded; Example overload_examples"},
 {"property": "C72", "status": "proved", "theorems": ["single_header_same_code", "single_header_preamble"], "note": "the body of fast_float.h is what stands between its two local includes; conditional compilation inside the headers is text; Example single_header_example"},
 {"property": "C73", "status": "partial", "theorems": ["version_number_order_partial", "release_accepts", "release_history", "version_number_order_refuted"], "note": "partial by the library only: FASTFLOAT_VERSION compares as versions do while minor and patch number have at most two digits; the script accepts three digits (finding 19, version_number_order_refuted). The questions to git about branches are not modelled; Example release_example"},
 {"property": "C74", "status": "proved", "theorems": ["comma_loop_reads_lists", "comma_loop_any_text", "space_loop_reads_lists", "space_loop_any_text", "parse_example", "checks_reject_errors"], "note": "the loops are the code of the example and test programs; parse_example for double, float and bfloat16; Examples many_loop_text, string_test_text, long_test_text and constexptest run the programs' own texts"},
 {"property": "C75", "status": "proved", "theorems": ["from_chars_standard", "standard_determines_result", "from_chars_int_standard"], "note": "stated over SpecStd, a transcription of [charconv.from.chars] and C11 7.22.1.3 as languages of whole texts, independent of the grammars of the other claims; float16 is left out (findings 2 and 3), as are the 64-bit overflows of C33 (finding 1); Examples standard_met, int_standard_met"},
 {"property": "C76", "status": "proved", "theorems": ["from_chars_float16_exact", "nearest_float16_unique"], "note": "what is true instead of C02 and C06; Example float16_exact_example"},
 {"property": "C77", "status": "proved", "theorems": ["from_chars_fixed_width_exact"], "note": "what is true instead of C31; Example fixed_width_and_product_examples"},
 {"property": "C78", "status": "proved", "theorems": ["integer_times_pow10_exact"], "note": "what is true instead of C21, with float16; Example fixed_width_and_product_examples"},
 {"property": "C79", "status": "proved", "theorems": ["from_chars_skips_exactly", "taken_for_space_types", "taken_for_space_run"], "note": "what is true instead of C30; no code unit is excluded; Example skips_exactly_example"},
 {"property": "C80", "status": "proved", "theorems": ["from_chars_int128_exact"], "note": "what is true instead of C37, with -0; Example int128_examples (Props_Int128)"},
 {"property": "C81", "status": "proved", "theorems": ["from_chars_build_difference"], "note": "what is true instead of C13 and C14; Examples config_example (Props_Relations), float16_exact_example and the two calls of from_chars_float16_config_refuted"},
 {"property": "C82", "status": "proved", "theorems": ["from_chars_digit_separator_exact"], "note": "the separators C11 excludes because they are digits; Example digit_separator_example"},
 {"property": "C83", "status": "proved", "theorems": ["from_chars_wchar_exact"], "note": "the code units C12 excludes; Example wchar_exact_example"},
 {"property": "C84", "status": "proved", "theorems": ["from_chars_every_call", "begins_somewhere"], "note": "one specification (SpecCall.v, inductive outcome) and an equivalence: no text, option set, type or configuration is left out; Example every_call_example"},
 {"property": "C85", "status": "proved", "theorems": ["from_chars_int_every_call"], "note": "one specification (SpecIntCall.v, inductive int_outcome) and an equivalence, for every integer type up to 128 bits; Example int_every_call_example"},
 {"property": "C86", "status": "proved", "theorems": ["from_chars_every_call_agrees", "from_chars_every_call_types", "from_chars_int_every_call_agrees"], "note": "C13, C14, C48, C81 and the agreement part of C32 without their restrictions on texts and options; Example every_call_agrees_example"},
 {"property": "C87", "status": "proved", "theorems": ["from_chars_every_call_rest", "from_chars_every_call_read", "from_chars_every_call_final", "from_chars_int_every_call_rest", "from_chars_int_every_call_final"], "note": "C25, C34, C42 and C52 without their restrictions on texts and options; Example unread_example"}
]}

{
 "claims": [
  {
   "property": "C01",
   "status": "proved",
   "theorems": [
    "C01_checked_add"
   ],
   "note": ""
  },
  {
   "property": "C02",
   "status": "proved",
   "theorems": [
    "C02_checked_subtract"
   ],
   "note": ""
  },
  {
   "property": "C03",
   "status": "proved",
   "theorems": [
    "C03_checked_multiply"
   ],
   "note": ""
  },
  {
   "property": "C04",
   "status": "proved",
   "theorems": [
    "C04_checked_divide",
    "C04_unrepresentable_quotient"
   ],
   "note": ""
  },
  {
   "property": "C05",
   "status": "partial",
   "theorems": [
    "C05_checked_modulus_partial",
    "C05_checked_modulus_refuted"
   ],
   "note": "False of the code: minimum % minimum of a signed type returns minimum, not 0. Proved for all other operands; the deviating case is characterised exactly."
  },
  {
   "property": "C06",
   "status": "proved",
   "theorems": [
    "C06_checked_left_shift",
    "C06_every_case"
   ],
   "note": "C06_every_case also covers shifts by zero bits and of zero."
  },
  {
   "property": "C07",
   "status": "partial",
   "theorems": [
    "C07_checked_right_shift_partial",
    "C07_checked_right_shift_refuted",
    "C07_right_shift_ub_exact"
   ],
   "note": "False of the code: a count equal to the width of an unsigned type that is not promoted to a wider one reaches the built-in shift (undefined). Proved for all other operands; the undefined case is characterised exactly."
  },
  {
   "property": "C08",
   "status": "proved",
   "theorems": [
    "C08_checked_bitwise"
   ],
   "note": ""
  },
  {
   "property": "C09",
   "status": "proved",
   "theorems": [
    "C09_checked_cast"
   ],
   "note": ""
  },
  {
   "property": "C10",
   "status": "proved",
   "theorems": [
    "C10_checked_minus"
   ],
   "note": ""
  },
  {
   "property": "C100",
   "status": "proved",
   "theorems": [
    "C100_expressions",
    "C100_one_policy",
    "C100_conditions",
    "C100_conversions",
    "C100_programs",
    "C100_never_raised",
    "C100_input",
    "C100_input_programs",
    "C100_array_programs",
    "C100_function_programs",
    "C100_base_programs",
    "C100_assignments"
   ],
   "note": "Handlers are one of three behaviours: throw, return, not compile."
  },
  {
   "property": "C101",
   "status": "proved",
   "theorems": [
    "C101_read",
    "C101_read_small",
    "C101_text",
    "C101_round_trip",
    "C101_sequence",
    "C101_streams",
    "C101_negative_refuted"
   ],
   "note": "C101_negative_refuted is the exception of the statement: negative values written in hexadecimal or octal are not read back, an exception is thrown. Text that is not a number, read into signed char or unsigned char, and safe<char> are the subject of C44 and C55."
  },
  {
   "property": "C102",
   "status": "partial",
   "theorems": [
    "C102_programs_partial",
    "C102_all_operators_partial",
    "C102_decimal",
    "C102_no_false_alarm_partial",
    "C102_no_false_alarm_all_operators_partial",
    "C102_fuel",
    "C102_written_unique",
    "C102_convert"
   ],
   "note": "Missing: variables of character types; variables of narrower ranges read inside a try block, for which it is false (C87_caught_refuted, C87_caught_undefined_refuted). C102_decimal: on decimal streams these are the programs of C87."
  },
  {
   "property": "C11",
   "status": "proved",
   "theorems": [
    "C11_safe_compare"
   ],
   "note": ""
  },
  {
   "property": "C12",
   "status": "proved",
   "theorems": [
    "C12_signed_range_narrowest",
    "C12_unsigned_range_narrowest"
   ],
   "note": ""
  },
  {
   "property": "C13",
   "status": "proved",
   "theorems": [
    "C13_checked_result_add",
    "C13_checked_result_sub",
    "C13_checked_result_mul",
    "C13_checked_result_div",
    "C13_checked_result_div_signed"
   ],
   "note": ""
  },
  {
   "property": "C14",
   "status": "proved",
   "theorems": [
    "C14_comparisons_sound",
    "C14_values_decided",
    "C14_strict_order"
   ],
   "note": ""
  },
  {
   "property": "C15",
   "status": "proved",
   "theorems": [
    "C15_interval_add_sub_mul"
   ],
   "note": ""
  },
  {
   "property": "C16",
   "status": "proved",
   "theorems": [
    "C16_interval_div"
   ],
   "note": ""
  },
  {
   "property": "C17",
   "status": "partial",
   "theorems": [
    "C17_interval_mod_partial",
    "C17_end_points_partial",
    "C17_constant_divisor",
    "C17_interval_mod_refuted"
   ],
   "note": "False of the code: the corners do not bound a remainder, e.g. [0,10] % [7,7] is computed as [0,3]. Proved when all pairs of members have the same quotient; proved that the computed interval is the hull of the four corner remainders; for a constant positive divisor and a non-negative dividend, proved exactly when it is right."
  },
  {
   "property": "C18",
   "status": "proved",
   "theorems": [
    "C18_interval_shl",
    "C18_interval_shr",
    "C18_interval_shr_by_width"
   ],
   "note": "Legal counts: non-negative and, for a right shift in an unsigned type, below the width. An overflow bound is read as unbounded on that side."
  },
  {
   "property": "C19",
   "status": "proved",
   "theorems": [
    "C19_point_membership",
    "C19_includes_excludes",
    "C19_less_greater",
    "C19_equal",
    "C19_union_hull",
    "C19_intersection"
   ],
   "note": ""
  },
  {
   "property": "C20",
   "status": "partial",
   "theorems": [
    "C20_intersect_partial",
    "C20_intersect_refuted",
    "C20_intersect_always_true"
   ],
   "note": "False of the code: the two conditions are joined by || and intersect answers true for all non-empty intervals. Only one direction holds."
  },
  {
   "property": "C21",
   "status": "proved",
   "theorems": [
    "C21_safe_add"
   ],
   "note": ""
  },
  {
   "property": "C22",
   "status": "proved",
   "theorems": [
    "C22_safe_subtract"
   ],
   "note": ""
  },
  {
   "property": "C23",
   "status": "proved",
   "theorems": [
    "C23_safe_multiply"
   ],
   "note": ""
  },
  {
   "property": "C24",
   "status": "partial",
   "theorems": [
    "C24_safe_divide_native",
    "C24_safe_divide_partial",
    "C24_automatic_partial",
    "C24_safe_divide_refuted",
    "C24_outcome",
    "C24_when_checked"
   ],
   "note": "Proved in full for native promotion. False of the code for automatic promotion when the result type is smaller than the operand types (wrong quotients, division by zero); proved for all policies when it is large enough, and for automatic promotion when the divisor's range includes zero. Every outcome is described for all policies and operands (C24_outcome), and when the check is omitted if the operands fit the result type (C24_when_checked)."
  },
  {
   "property": "C25",
   "status": "partial",
   "theorems": [
    "C25_safe_modulus_partial",
    "C25_constant_divisor_partial",
    "C25_safe_modulus_refuted",
    "C25_safe_modulus_undefined_refuted",
    "C25_safe_modulus_min_refuted",
    "C25_automatic_partial",
    "C25_automatic_refuted",
    "C25_outcome",
    "C25_when_checked"
   ],
   "note": "False of the code: declared ranges of % are too small, MIN % -1 can be executed, MIN % MIN is MIN. Proved: the value is exact, or an exception, for all other operands when the result type is large enough. Every outcome is described for all policies and operands (C25_outcome, C25_when_checked)."
  },
  {
   "property": "C26",
   "status": "partial",
   "theorems": [
    "C26_safe_left_shift_partial",
    "C26_safe_left_shift_wide_partial",
    "C26_safe_left_shift_never_wrong_partial",
    "C26_safe_left_shift_refuted",
    "C26_negative_count_refuted",
    "C26_outcome",
    "C26_when_checked"
   ],
   "note": "False of the code when the check is elided and an operand is negative: undefined behaviour or a wrong value. Proved for non-negative operands, and for all operands when the count type includes too large counts (every safe<T> << safe<U>). Every outcome is described for all policies and operands (C26_outcome), and when the check is omitted for ranges without negative values (C26_when_checked)."
  },
  {
   "property": "C27",
   "status": "partial",
   "theorems": [
    "C27_safe_right_shift_partial",
    "C27_safe_right_shift_value_partial",
    "C27_safe_right_shift_refuted",
    "C27_safe_right_shift_undefined_refuted",
    "C27_outcome",
    "C27_when_checked"
   ],
   "note": "False of the code for unsigned results with a signed count type (declared range too small, unchecked negative counts) and for a count equal to the width. Proved for signed results, and for unsigned ones with unsigned counts below the width. Every outcome, and when the check is omitted, is described for all policies and operands (C27_outcome, C27_when_checked)."
  },
  {
   "property": "C28",
   "status": "partial",
   "theorems": [
    "C28_bitwise_value",
    "C28_bitwise_range_partial",
    "C28_complement_partial",
    "C28_bitwise_refuted",
    "C28_or_exact",
    "C28_range_exact",
    "C28_sign",
    "C28_complement_exact"
   ],
   "note": "The value part is proved in full for native and automatic promotion. The range part is false of the code for negative operands (the result type declares minimum 0) and for ~ of signed types; proved for non-negative operands and for ~ of unsigned types; for signed result types the operands for which it holds are characterised exactly (C28_or_exact, C28_range_exact, C28_complement_exact)."
  },
  {
   "property": "C29",
   "status": "proved",
   "theorems": [
    "C29_comparisons",
    "C29_native_answers",
    "C29_automatic_answers",
    "C29_native_all_answer",
    "C29_automatic_all_answer"
   ],
   "note": "All six operators, all promotion policies; also when they cannot throw."
  },
  {
   "property": "C30",
   "status": "proved",
   "theorems": [
    "C30_construction"
   ],
   "note": ""
  },
  {
   "property": "C31",
   "status": "proved",
   "theorems": [
    "C31_conversion"
   ],
   "note": ""
  },
  {
   "property": "C32",
   "status": "proved",
   "theorems": [
    "C32_unary_minus",
    "C32_pre_increment",
    "C32_pre_decrement",
    "C32_post_forms"
   ],
   "note": "That a throwing step leaves the variable unchanged is C34."
  },
  {
   "property": "C33",
   "status": "proved",
   "theorems": [
    "C33_programs",
    "C33_fuel"
   ],
   "note": "For whole programs with conditionals, loops and exception handlers, + - * and, if all promotion is native, /."
  },
  {
   "property": "C34",
   "status": "proved",
   "theorems": [
    "C34_strong_guarantee",
    "C34_input_refuted"
   ],
   "note": "All operators and policies. Stream input, which is not part of the statement, does change the variable when it throws (C34_input_refuted)."
  },
  {
   "property": "C35",
   "status": "proved",
   "theorems": [
    "C35_expressions"
   ],
   "note": ""
  },
  {
   "property": "C36",
   "status": "proved",
   "theorems": [
    "C36_no_handler_called",
    "C36_arithmetic",
    "C36_comparison",
    "C36_construction",
    "C36_conversion"
   ],
   "note": ""
  },
  {
   "property": "C37",
   "status": "proved",
   "theorems": [
    "C37_elided_add_sub_mul",
    "C37_elided_div"
   ],
   "note": ""
  },
  {
   "property": "C38",
   "status": "partial",
   "theorems": [
    "C38_automatic_partial",
    "C38_automatic_add_partial",
    "C38_automatic_mul_partial",
    "C38_automatic_sub_partial",
    "C38_add_sub_exact",
    "C38_mul_exact",
    "C38_automatic_refuted"
   ],
   "note": "False of the code: the operands are cast to the (possibly smaller) result type. Proved when the operands fit the result type, so for sums of ranges including 0 and products of ranges including 1, and for differences of two operands of the same type whose range includes 0. Sums, differences and products are characterised exactly, for all policies (C38_add_sub_exact, C38_mul_exact)."
  },
  {
   "property": "C39",
   "status": "proved",
   "theorems": [
    "C39_native_as_built_in"
   ],
   "note": ""
  },
  {
   "property": "C40",
   "status": "partial",
   "theorems": [
    "C40_cpp_as_native_partial",
    "C40_cpp_signed_partial",
    "C40_exact_64_bit_long",
    "C40_exact_32_bit_long",
    "C40_exact_16_bit_int",
    "C40_int_long_refuted",
    "C40_cpp_as_native_refuted"
   ],
   "note": "False of the code: unsigned types narrower than int are promoted to unsigned, equal ranks and shifts are mishandled, clause 4 is ill-formed. The operand types for which it holds (no shift) are characterised exactly for all five data models."
  },
  {
   "property": "C41",
   "status": "proved",
   "theorems": [
    "C41_operators",
    "C41_comparisons",
    "C41_construction",
    "C41_conversion",
    "C41_compound_assignment"
   ],
   "note": ""
  },
  {
   "property": "C42",
   "status": "partial",
   "theorems": [
    "C42_action_of_error",
    "C42_equivalence_partial",
    "C42_equivalence_refuted"
   ],
   "note": "False of the code for precision_overflow_error only."
  },
  {
   "property": "C43",
   "status": "partial",
   "theorems": [
    "C43_ignoring_partial",
    "C43_ignoring_subtract_partial",
    "C43_ignoring_modulus_partial",
    "C43_ignoring_shifts",
    "C43_bitwise",
    "C43_ignoring_refuted",
    "C43_ignoring_undefined_refuted"
   ],
   "note": "False of the code: after an ignored error a - b returns a + b, and an ignored conversion error is undefined behaviour. Proved where it holds, for + - * / % << >> and the bitwise operators."
  },
  {
   "property": "C44",
   "status": "partial",
   "theorems": [
    "C44_wide_types_partial",
    "C44_full_range_partial",
    "C44_small_types_partial",
    "C44_range_refuted",
    "C44_malformed_refuted",
    "C44_signed_char_refuted",
    "C44_end_of_input_refuted",
    "C44_char_partial",
    "C44_char_minus_refuted"
   ],
   "note": "False of the code: the variable is overwritten before it is validated, so a range type is left out of range after an exception; signed char and unsigned char accept malformed text as 0 and have undefined behaviour at the end of the input. Proved: for all other types, reading returns normally exactly when the text begins with an integer in [Min,Max], and stores it; full-range types always hold a valid value."
  },
  {
   "property": "C45",
   "status": "partial",
   "theorems": [
    "C45_portable_partial",
    "C45_comparisons",
    "C45_division_partial",
    "C45_modulus_partial",
    "C45_division_refuted",
    "C45_modulus_refuted",
    "C45_left_shift_refuted",
    "C45_right_shift_refuted",
    "C45_bitwise_refuted",
    "C45_bitwise_partial",
    "C45_left_shift_partial",
    "C45_right_shift_partial"
   ],
   "note": "Proved in full for + - * and the comparisons, for / and % when the result type contains both operand ranges, for bitwise operators on values that are not negative, and for shifts of them whose results fit. False of the code for the other divisions, for % with dividend and divisor MIN, for the other shifts and for bitwise operators on mixed signs."
  },
  {
   "property": "C46",
   "status": "proved",
   "theorems": [
    "C46_signed_literal",
    "C46_unsigned_literal",
    "C46_literal_conversion",
    "C46_literal_minus",
    "C46_literal_not"
   ],
   "note": ""
  },
  {
   "property": "C47",
   "status": "partial",
   "theorems": [
    "C47_commutative_partial",
    "C47_same_result_type",
    "C47_cpp_host_widths",
    "C47_commutative_refuted"
   ],
   "note": "Proved for native and automatic promotion and for cpp<...> with the widths of the host, and for every policy if both orders have the same underlying result type; false of the code for cpp<...> when two types have the same rank."
  },
  {
   "property": "C48",
   "status": "proved",
   "theorems": [
    "C48_uninitialized_reported"
   ],
   "note": ""
  },
  {
   "property": "C49",
   "status": "proved",
   "theorems": [
    "C49_no_spurious_failure"
   ],
   "note": "Holds for all promotion policies."
  },
  {
   "property": "C50",
   "status": "proved",
   "theorems": [
    "C50_conversion_chain"
   ],
   "note": ""
  },
  {
   "property": "C51",
   "status": "proved",
   "theorems": [
    "C51_policy_independent",
    "C51_policy_independent_comparison",
    "C51_policy_independent_construction"
   ],
   "note": ""
  },
  {
   "property": "C52",
   "status": "proved",
   "theorems": [
    "C52_always_initialized",
    "C52_default_policy_refuted"
   ],
   "note": "The refuted theorem shows the hypothesis is needed: the default policy ignores uninitialized values."
  },
  {
   "property": "C53",
   "status": "proved",
   "theorems": [
    "C53_expressions",
    "C53_programs",
    "C53_comparison_refuted"
   ],
   "note": "The refuted theorem shows why comparisons are restricted: safe comparisons are the mathematical ones, -1 < 15u."
  },
  {
   "property": "C54",
   "status": "proved",
   "theorems": [
    "C54_expressions",
    "C54_programs"
   ],
   "note": ""
  },
  {
   "property": "C55",
   "status": "proved",
   "theorems": [
    "C55_output",
    "C55_round_trip",
    "C55_sequence",
    "C55_char_refuted"
   ],
   "note": "Types based on plain char are excluded by the statement: they are written as a number and read as a character (C55_char_refuted)."
  },
  {
   "property": "C56",
   "status": "partial",
   "theorems": [
    "C56_arithmetic",
    "C56_modulus_partial",
    "C56_left_shift",
    "C56_right_shift_partial",
    "C56_bitwise",
    "C56_comparisons",
    "C56_refuted"
   ],
   "note": "Proved in full for + - * /, <<, bitwise operators and comparisons. % and >> are characterised completely too, with the two deviating cases MIN % MIN (gives MIN) and >> of an unsigned value by its width (undefined behaviour), so the property is false of the code there."
  },
  {
   "property": "C57",
   "status": "proved",
   "theorems": [
    "C57_operators",
    "C57_comparisons",
    "C57_comparison_policies",
    "C57_expressions",
    "C57_conditions",
    "C57_identity",
    "C57_identity_type",
    "C57_identity_conditions",
    "C57_identity_compound"
   ],
   "note": "C57_identity*: policies compared as C++ does, by the identity of their classes; the other theorems, and the rest of the model, compare what their handlers do."
  },
  {
   "property": "C58",
   "status": "partial",
   "theorems": [
    "C58_predefined_policies",
    "C58_uninitialized",
    "C58_refuted"
   ],
   "note": "False of the code: strict_exception_policy ignores uninitialised values. Everything else is proved; a consequence shown in C58_refuted is that loose_exception_policy goes on to execute undefined shifts."
  },
  {
   "property": "C59",
   "status": "partial",
   "theorems": [
    "C59_trap_construction",
    "C59_throwing_construction_partial",
    "C59_throwing_construction_refuted",
    "C59_trap_conversion_partial",
    "C59_trap_conversion_refuted"
   ],
   "note": "Construction under trap policies is proved in full. False of the code: constructing an unsigned range from a negative range always throws but compiles; conversion to a built-in type ignores the declared range, so under a trap policy a range that fits does not compile."
  },
  {
   "property": "C60",
   "status": "partial",
   "theorems": [
    "C60_trap_exact",
    "C60_trap_exact_division",
    "C60_check_can_fail",
    "C60_comparison_refuted"
   ],
   "note": "Proved for + - * /. False of the code for comparisons: one decided at compile time does not compile under a trap policy if an operand range does not fit the comparison type."
  },
  {
   "property": "C61",
   "status": "proved",
   "theorems": [
    "C61_tight_ranges",
    "C61_exact_ranges",
    "C61_shifts",
    "C61_quotients_zero_refuted"
   ],
   "note": "C61_tight_ranges is the property, for + - *. C61_exact_ranges gives both bounds as the least and greatest exact results cut at the limits of the type, also for / when 0 is not an end of the range of the divisor; with 0 as an end the declared range of a quotient is the whole type (refuted). C61_shifts: << and >> of operands without negative values."
  },
  {
   "property": "C62",
   "status": "proved",
   "theorems": [
    "C62_ranges_irrelevant",
    "C62_native_outcome"
   ],
   "note": ""
  },
  {
   "property": "C63",
   "status": "proved",
   "theorems": [
    "C63_native",
    "C63_automatic",
    "C63_same_type"
   ],
   "note": ""
  },
  {
   "property": "C64",
   "status": "proved",
   "theorems": [
    "C64_programs",
    "C64_expressions"
   ],
   "note": ""
  },
  {
   "property": "C65",
   "status": "proved",
   "theorems": [
    "C65_any_policy"
   ],
   "note": ""
  },
  {
   "property": "C66",
   "status": "partial",
   "theorems": [
    "C66_programs",
    "C66_expressions",
    "C66_all_programs_partial",
    "C66_all_expressions_partial",
    "C66_input_output_partial",
    "C66_arrays_partial",
    "C66_modulus_refuted"
   ],
   "note": "Proved for programs with + - * and native / (C66_programs); with all ten operators, input and output, and arrays under the conditions of C73 on operand types. Without these it is false of the code: MIN % MIN depends on the type."
  },
  {
   "property": "C67",
   "status": "partial",
   "theorems": [
    "C67_shl_values",
    "C67_shl",
    "C67_shr_partial",
    "C67_shr_by_a_count",
    "C67_shr_by_a_negative_count",
    "C67_shr_refuted",
    "C67_unary_minus",
    "C67_bitwise"
   ],
   "note": "Proved except for one case in which the property is false of the code: >> of a positive value of an unsigned type at least as wide as unsigned int by exactly its width executes undefined behaviour (C67_shr_refuted). The minimum may be reported as an overflow by a left shift of a negative value."
  },
  {
   "property": "C68",
   "status": "proved",
   "theorems": [
    "C68_overflow_side",
    "C68_values"
   ],
   "note": ""
  },
  {
   "property": "C69",
   "status": "partial",
   "theorems": [
    "C69_values_partial",
    "C69_by_overflow",
    "C69_of_overflow_partial",
    "C69_refuted"
   ],
   "note": "False of the code: overflow % 5 is 4 whatever overflowed. Proved: values (but MIN % MIN), the remainder by an overflow, and that the value returned for the remainder of an overflow bounds its size."
  },
  {
   "property": "C70",
   "status": "partial",
   "theorems": [
    "C70_type",
    "C70_shifts",
    "C70_modulus_partial",
    "C70_modulus_refuted"
   ],
   "note": "Proved in full for the result types and the shifts. False of the code for % at one point: MIN % MIN is MIN; proved everywhere else."
  },
  {
   "property": "C71",
   "status": "proved",
   "theorems": [
    "C71_narrowest_type"
   ],
   "note": ""
  },
  {
   "property": "C72",
   "status": "proved",
   "theorems": [
    "C72_native",
    "C72_right_shift",
    "C72_automatic",
    "C72_comparisons",
    "C72_bitwise"
   ],
   "note": ""
  },
  {
   "property": "C73",
   "status": "partial",
   "theorems": [
    "C73_expressions_partial",
    "C73_programs_partial",
    "C73_silently_wrong_refuted",
    "C73_undefined_refuted",
    "C73_range_refuted"
   ],
   "note": "Proved for + - *, native /, shifts and bitwise operators under static conditions on the operand types, and for % and bitwise operators whose result goes directly into an object that takes every value of the underlying type. The unrestricted statement is false: (safe<unsigned>(5) >> 1) * 3000000000u is 1705032704 without an exception."
  },
  {
   "property": "C74",
   "status": "partial",
   "theorems": [
    "C74_builtin_expressions_partial",
    "C74_builtin_programs_partial",
    "C74_shift_undefined_refuted",
    "C74_lossless_expressions_partial",
    "C74_lossless_programs_partial",
    "C74_shift_throws_refuted"
   ],
   "note": "Under the conditions of C73; first part: no left operand of << can be negative; second part: shift operands cannot be negative and counts are less than the number of value bits. The refuted theorems show that the conditions on shifts are needed: safe<int>(-20) << 0 returns -20 where the built-in shift is undefined, and safe<int>(0) << 31 throws."
  },
  {
   "property": "C75",
   "status": "partial",
   "theorems": [
    "C75_min_max",
    "C75_members",
    "C75_result",
    "C75_digits_partial",
    "C75_digits_refuted",
    "C75_modulo_refuted"
   ],
   "note": "min, max and lowest: proved. digits and digits10 for types with the whole range of the underlying type; they are inherited from it and wrong for smaller ranges (C75_digits_refuted), and is_modulo is true for safe<unsigned>, which throws (C75_modulo_refuted)."
  },
  {
   "property": "C76",
   "status": "partial",
   "theorems": [
    "C76_range_value",
    "C76_range_value_readable",
    "C76_result_display_partial",
    "C76_result_display_readable",
    "C76_hex_refuted",
    "C76_char_refuted",
    "C76_built_in_interval",
    "C76_built_in"
   ],
   "note": "make_range_value of safe values: proved. make_result_display: the hexadecimal part shows negative numbers modulo a power of two (C76_hex_refuted). For a built-in signed char the value is printed as a character (C76_char_refuted)."
  },
  {
   "property": "C77",
   "status": "partial",
   "theorems": [
    "C77_float_cast_partial",
    "C77_integer_part",
    "C77_range_refuted",
    "C77_never_reports",
    "C77_fraction_refuted",
    "C77_construct"
   ],
   "note": "In-range values: proved. There is no check: out-of-range values, infinities and NaN execute undefined behaviour (C77_range_refuted), no value gives an error (C77_never_reports), fractions are dropped silently (C77_fraction_refuted). Safe integers cannot be constructed from floating point values: it never compiles (C77_construct)."
  },
  {
   "property": "C78",
   "status": "partial",
   "theorems": [
    "C78_signedness",
    "C78_left_shift_partial",
    "C78_right_shift_partial",
    "C78_right_shift_refuted"
   ],
   "note": "Left shift: proved if the range of a has a positive value. Right shift: proved if the range of the count begins at 0 and the count is less than the number of value bits of the result type; otherwise it can throw: range<0,1000>(1000) >> range<4,4>(4) (C78_right_shift_refuted)."
  },
  {
   "property": "C79",
   "status": "partial",
   "theorems": [
    "C79_expressions_partial",
    "C79_programs_partial",
    "C79_no_handler_called",
    "C79_never_raises",
    "C79_undefined_refuted",
    "C79_range_refuted"
   ],
   "note": "No handler called and nothing thrown: proved for all programs. Exact: proved under the conditions of C73 on the operand types. The unrestricted statement is false: safe_signed_range<-5,100> << literal 3 compiles under strict_trap_policy and is undefined for -5, and safe_unsigned_range<0,2> w = r % 7 compiles and stores 6."
  },
  {
   "property": "C80",
   "status": "partial",
   "theorems": [
    "C80_initialize",
    "C80_stay",
    "C80_move_partial",
    "C80_delays",
    "C80_histories_partial",
    "C80_single_step_runs_away",
    "C80_single_step_refuted"
   ],
   "note": "Proved for all moves except those of exactly one step, of which it is false: they never stop, and the motor runs to the end of its range, where an exception ends the program (C80_single_step_runs_away). Histories with such moves are characterised too. Sleeping, output and the bit field TMR1ON are not modelled."
  },
  {
   "property": "C81",
   "status": "proved",
   "theorems": [
    "C81_transitive",
    "C81_equal_objects_compare_alike",
    "C81_trichotomy",
    "C81_sorted"
   ],
   "note": ""
  },
  {
   "property": "C82",
   "status": "partial",
   "theorems": [
    "C82_algebraic_laws",
    "C66_all_expressions_partial",
    "C82_quotient_and_remainder_partial",
    "C82_quotient_and_remainder_refuted"
   ],
   "note": "Proved for expressions with + - * and native /; with all operators under the conditions of C73 (C66_all_expressions_partial). Quotient and remainder: proved for native promotion except for MIN and MIN, where it is false of the code (MIN / MIN is 1, MIN % MIN is MIN)."
  },
  {
   "property": "C83",
   "status": "proved",
   "theorems": [
    "C83_expressions",
    "C83_programs",
    "C83_exact_operators",
    "C83_all_operators",
    "C83_interleaved_values",
    "C83_orders_are_interleavings",
    "C83_interleaved_progress",
    "C83_interleaved_ends",
    "C83_interleaved_exact",
    "C83_interleaved_programs",
    "C83_orders_of_programs",
    "C83_interleaved_exact_programs"
   ],
   "note": ""
  },
  {
   "property": "C84",
   "status": "partial",
   "theorems": [
    "C84_checks",
    "C84_checks_division",
    "C84_checks_shifts",
    "C84_trap",
    "C84_range",
    "C84_range_division_partial",
    "C84_range_refuted",
    "C84_range_division_refuted",
    "C84_automatic_refuted",
    "C84_shift_refuted"
   ],
   "note": "Holds for the checks of + - *, of / and % with operands that fit the result type, of << and >> without negative operands, and for the declared ranges of + - * under native promotion (of / if the narrower divisor range does not end in 0: C84_range_division_partial). False of the code for the declared ranges of / in general and of %, for >> with counts that may be negative, where no values can be handled, and under automatic promotion (refuted)."
  },
  {
   "property": "C85",
   "status": "partial",
   "theorems": [
    "C85_every_moment",
    "C85_progress",
    "C85_one_thread",
    "C85_all_operators_partial",
    "C85_interrupted_anywhere",
    "C85_interrupted_all_operators_partial",
    "C85_interrupted_progress",
    "C85_interrupted_includes"
   ],
   "note": "Proved for programs with + - * and native / as C33; with all ten operators under the conditions of C73 on the operand types. The unrestricted statement is false already for one thread (C73). C85_every_moment: threads take turns between statements and conditions. C85_interrupted_*: between any two accesses to variables, operator calls, conversions and comparisons. One access is one step: threads that access a variable at the same time without synchronisation have a data race, as with built-in types."
  },
  {
   "property": "C86",
   "status": "proved",
   "theorems": [
    "C86_no_interference",
    "C86_results",
    "C86_unwritten",
    "C86_schedule",
    "C86_interrupted",
    "C86_shared_refuted"
   ],
   "note": "C86_interrupted: threads may be interrupted inside statements and expressions. C86_shared_refuted: of threads that share a variable the result depends on the schedule."
  },
  {
   "property": "C87",
   "status": "partial",
   "theorems": [
    "C87_programs_partial",
    "C87_all_operators_partial",
    "C87_caught_refuted",
    "C87_caught_undefined_refuted",
    "C87_no_reading_with_trap",
    "C87_no_false_alarm_partial",
    "C87_no_false_alarm_all_operators_partial",
    "C87_fuel",
    "C87_decimal_unique",
    "C87_sum"
   ],
   "note": "Proved for variables of types other than the character types, if inside try blocks only variables with the whole range of their type are read. Otherwise false: after a caught input error the variable contains a value outside its declared range (C44), and later operations whose checks were omitted because of the declared range compute wrong values or divide by zero. Conversely nothing is raised while the input offers what is read and the built-in program would lose nothing (C87_no_false_alarm_partial). C87_sum: a program that adds up any number of integers."
  },
  {
   "property": "C88",
   "status": "partial",
   "theorems": [
    "C88_programs",
    "C88_all_operators_partial",
    "C88_no_access_out_of_bounds_partial",
    "C88_reads",
    "C88_writes",
    "C88_wide_subscript_refuted",
    "C88_modulus_refuted"
   ],
   "note": "Proved in full for + - * and native / (C88_programs), with the converse that accesses inside an array raise nothing (C88_reads, C88_writes); with all operators under the conditions of C73, without which it is false: x % 10 with a literal 10 is declared [0,5], so it may be used with an array of six elements, and accesses position 7 (C88_modulus_refuted)."
  },
  {
   "property": "C89",
   "status": "partial",
   "theorems": [
    "C89_error_texts",
    "C89_success",
    "C89_what",
    "C89_output_tells",
    "C89_output_value_partial",
    "C89_unsigned_char_refuted"
   ],
   "note": "Proved except that values of char and unsigned char are written as characters, not in decimal (C89_unsigned_char_refuted). The form of what() is that of the usual standard libraries. The input operator of checked_result cannot be instantiated and is not modelled."
  },
  {
   "property": "C90",
   "status": "partial",
   "theorems": [
    "C90_result_type_partial",
    "C90_expressions_partial",
    "C90_expressions_no_false_alarm_partial",
    "C90_programs_partial",
    "C90_programs_no_false_alarm_partial",
    "C90_unsigned_char_refuted",
    "C90_comparison_refuted",
    "C90_shift_refuted",
    "C90_zero_shift_refuted",
    "C90_negation_refuted",
    "C90_increment_refuted",
    "C90_literal_refuted"
   ],
   "note": "Proved for + - * /, for & | ^ << >> of operands that are not negative (shifts with the conditions of EmulationSpec on the count), for % whose result goes straight into a variable that takes every value of its type, casts, comparisons, assignment, compound assignment, ++ and --, if and while, with the converse: no exception if every value fits on the target. False of the code for unsigned types narrower than the emulated int (C90_unsigned_char_refuted), for comparisons of disjoint ranges with a negative value and an unsigned common type (C90_comparison_refuted), for the type of shifts (C90_shift_refuted), as a false alarm for 0 shifted left by the largest count (C90_zero_shift_refuted), for unary minus (C90_negation_refuted) and, as a false alarm, for ++ where the host's int is none of the platform's types (C90_increment_refuted), and for literals, which keep their host types (C90_literal_refuted). Missing: % inside an expression, & | ^ << >> of negative operands, and exceptions."
  },
  {
   "property": "C91",
   "status": "partial",
   "theorems": [
    "C91_programs",
    "C91_all_operators_partial",
    "C91_fuel",
    "C91_factorial",
    "C91_gcd",
    "C91_no_false_alarm",
    "C91_no_false_alarm_all_operators_partial",
    "C91_factorial_returns",
    "C91_gcd_returns"
   ],
   "note": "Proved for programs with + - * and native / (C91_programs); with all ten operators under the conditions of C73 on the operand types. Conversely nothing is raised as long as the built-in program would lose nothing (C91_no_false_alarm). Applications: the recursive factorial and greatest common divisor, which return for every argument whose result fits. Simplified: one return statement at the end of a function, arguments by value."
  },
  {
   "property": "C92",
   "status": "partial",
   "theorems": [
    "C92_operators",
    "C92_accepted",
    "C92_expressions",
    "C92_static_assert",
    "C92_all_expressions_partial",
    "C92_negative_count_refuted",
    "C92_remainder_refuted",
    "C92_automatic_division_refuted"
   ],
   "note": "Proved for one operator of the ten with native promotion (+ - * << >> with every policy), whatever the types and values, except negative shift counts and MIN % MIN, for which it is false of the code, and negative operands of & | ^; for expressions of + - * and native /, for comparisons, and for expressions of all operators under the conditions of C73. With automatic promotion it is false of the code for /. A constant expression is modelled as an evaluation that returns: no exception, no undefined behaviour."
  },
  {
   "property": "C93",
   "status": "proved",
   "theorems": [
    "C93_test",
    "C93_compiles",
    "C93_literal",
    "C93_from_bool",
    "C93_from_bool_compiles",
    "C93_round_trip",
    "C93_conditions",
    "C93_flags",
    "C93_nonzero_refuted"
   ],
   "note": "C93_conditions: expressions of + - * and native /. C93_nonzero_refuted: a safe integer does not replace a built-in one as a condition, since if (x) raises for x = 2. safe<bool> and arithmetic with bool operands are not modelled."
  },
  {
   "property": "C94",
   "status": "partial",
   "theorems": [
    "C94_arrives_partial",
    "C94_stay",
    "C94_runs_away",
    "C94_too_long",
    "C94_too_far",
    "C94_no_position",
    "C94_cases",
    "C94_profile",
    "C94_never_slows",
    "C94_initialize",
    "C94_histories_partial",
    "C94_stays_run_out",
    "C94_main",
    "C94_register_truncates",
    "C94_make16_refuted"
   ],
   "note": "Every target of type int32 is in one of the cases proved. The claim holds for distances 1..220, 222, 437 and 439..6275 and for the present position; for longer distances an exception is raised. It is false for the distances 221, 223..436 and 438, where the motor passes its target before an overflow raises (C94_runs_away), and for the register CCPR1H, which silently receives the low bits of a greater value (C94_register_truncates). Histories are covered up to the first exception. Sleeping, output and the timer itself are not modelled."
  },
  {
   "property": "C95",
   "status": "partial",
   "theorems": [
    "C95_ends",
    "C95_ends_all_operators_partial",
    "C95_exact",
    "C95_exact_all_operators_partial",
    "C95_variant",
    "C95_variant_all_operators_partial",
    "C95_counter_up",
    "C95_counter_down",
    "C95_counting_up",
    "C95_counting_down",
    "C95_no_loops",
    "C95_all_operators_refuted",
    "C95_built_in_refuted"
   ],
   "note": "Proved for programs with + - * and native / (C95_ends, C95_exact, C95_variant, C95_counter_*, C95_counting_*); with all ten operators under the conditions of C73 on the operand types, without which it is false: while (x % 10 < 7) x = 8 - x; never ends for a safe<unsigned> x = 0, because the comparison is decided at compile time from the wrong declared range of x % 10 (C95_all_operators_refuted). C95_built_in_refuted: the same loop over a built-in unsigned char never ends."
  },
  {
   "property": "C96",
   "status": "partial",
   "theorems": [
    "C96_safe_elements",
    "C96_safe_no_false_alarm",
    "C96_divisor_with_zero",
    "C96_division_without_zero_refuted",
    "C96_built_in_elements_partial",
    "C96_built_in_compiles",
    "C96_default",
    "C96_built_in_refuted",
    "C96_remainder_refuted",
    "C96_shifts_partial",
    "C96_shifts_whole_types",
    "C96_shifts_refuted",
    "C96_built_in_shifts",
    "C96_members",
    "C96_subsets",
    "C96_order",
    "C96_intersection_union",
    "C96_intersect_refuted"
   ],
   "note": "Safe elements: proved for + - * with native and automatic promotion and for / with native promotion; members, subsets, order, union and intersection in full. False of the code for built-in elements when a bound does not fit (wraps silently or undefined), for %, for / of element types without 0 (always throws) for intersect (always true), and for << and >> of element types whose own shift is not exact; shifts are proved for the others, among them safe<T> for all T (<<) and all signed T (>>)."
  },
  {
   "property": "C97",
   "status": "partial",
   "theorems": [
    "C97_powm",
    "C97_powm_zero",
    "C97_bit_test_partial",
    "C97_bit_test_refuted"
   ],
   "note": "powm is proved in full, with a bound on the number of turns. bit_test is false of the code: each bit that is set, except bit 0, throws positive_overflow_error, because the test of a safe value larger than 1 as a bool throws."
  },
  {
   "property": "C98",
   "status": "partial",
   "theorems": [
    "C98_members",
    "C98_order",
    "C98_excludes",
    "C98_union",
    "C98_intersection",
    "C98_elements_order",
    "C98_includes_partial",
    "C98_equal_partial",
    "C98_weak_order_refuted",
    "C98_self_refuted"
   ],
   "note": "Proved for members, < and >, excludes, | and &. False of the code: <= and >= are answered like < and > (no interval is known to be <= itself), and if both intervals are infinite on the same side includes is never true and == is false, also of an interval and itself."
  },
  {
   "property": "C99",
   "status": "partial",
   "theorems": [
    "C99_assignments_partial",
    "C99_all_operators_partial",
    "C99_every_nesting",
    "C99_every_nesting_all_operators_partial",
    "C99_no_false_alarm",
    "C99_lost_increments",
    "C99_lost_assignments",
    "C99_assignments_refuted"
   ],
   "note": "Proved if the result of a compound assignment is only used as a value and no operand is changed between its evaluation and its use. Otherwise false of the code: compound assignments return a copy, so ++(v += 5) and (v += 5) = 100 change only the copy (C99_lost_*), and (v = 5) = v assigns 5, since the right operand is a reference. C99_every_nesting tells for every nesting what happens instead."
  }
 ]
}
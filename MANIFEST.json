{
 "claims": [
  {
   "property": "C01",
   "status": "proved",
   "theorems": [
    "C01_ring_operations_canonical"
   ],
   "note": ""
  },
  {
   "property": "C02",
   "status": "proved",
   "theorems": [
    "C02_inverse",
    "C02_division",
    "C02_zero_divisor",
    "C02_multiple_of_q_aborts"
   ],
   "note": ""
  },
  {
   "property": "C03",
   "status": "proved",
   "theorems": [
    "C03_exp_int",
    "C03_exp_small_exponent",
    "C03_exp_any_exponent",
    "C03_exp_large_exponent_refuted"
   ],
   "note": ""
  },
  {
   "property": "C04",
   "status": "proved",
   "theorems": [
    "C04_affine",
    "C04_copy",
    "C04_equal",
    "C04_is_zero",
    "C04_equal_to_zero_but_not_is_zero",
    "C04_arrays_equal",
    "C04_zero_array"
   ],
   "note": ""
  },
  {
   "property": "C05",
   "status": "proved",
   "theorems": [
    "C05_eval_poly",
    "C05_eval_poly_empty_aborts"
   ],
   "note": ""
  },
  {
   "property": "C06",
   "status": "proved",
   "theorems": [
    "C06_scalar_product",
    "C06_scalar_product_length_mismatch"
   ],
   "note": ""
  },
  {
   "property": "C07",
   "status": "proved",
   "theorems": [
    "C07_rand_in_field",
    "C07_rand_never_above_2_240",
    "C07_rand_covers_field_refuted"
   ],
   "note": ""
  },
  {
   "property": "C08",
   "status": "proved",
   "theorems": [
    "C08_add",
    "C08_sub",
    "C08_mul_scalar",
    "C08_mul",
    "C08_mul_both_empty_aborts",
    "C08_evaluation",
    "C08_mul_simple_coefficients",
    "C08_mul_simple_is_product_refuted"
   ],
   "note": ""
  },
  {
   "property": "C09",
   "status": "proved",
   "theorems": [
    "C09_div",
    "C09_div_evaluation",
    "C09_div_aborts",
    "C09_div_zero_leading_coefficient_refuted"
   ],
   "note": ""
  },
  {
   "property": "C10",
   "status": "proved",
   "theorems": [
    "C10_domain_value",
    "C10_domain_roots",
    "C10_domain_monic"
   ],
   "note": ""
  },
  {
   "property": "C11",
   "status": "proved",
   "theorems": [
    "C11_interpolation",
    "C11_interpolation_unique"
   ],
   "note": ""
  },
  {
   "property": "C12",
   "status": "proved",
   "theorems": [
    "C12_cache_invisible",
    "C12_histories_run"
   ],
   "note": ""
  },
  {
   "property": "C13",
   "status": "proved",
   "theorems": [
    "C13_new_pol_zero_at"
   ],
   "note": ""
  },
  {
   "property": "C14",
   "status": "proved",
   "theorems": [
    "C14_transpose",
    "C14_transpose_involution",
    "C14_linear_combination"
   ],
   "note": ""
  },
  {
   "property": "C15",
   "status": "proved",
   "theorems": [
    "C15_tree_is_map",
    "C15_remove_absent_refuted"
   ],
   "note": ""
  },
  {
   "property": "C16",
   "status": "proved",
   "theorems": [
    "C16_balance_terminates",
    "C16_reachable"
   ],
   "note": ""
  },
  {
   "property": "C17",
   "status": "proved",
   "theorems": [
    "C17_traversal",
    "C17_extremes",
    "C17_shape_independent"
   ],
   "note": ""
  },
  {
   "property": "C18",
   "status": "proved",
   "theorems": [
    "C18_no_overwrite"
   ],
   "note": ""
  },
  {
   "property": "C19",
   "status": "proved",
   "theorems": [
    "C19_round_trip",
    "C19_too_short"
   ],
   "note": ""
  },
  {
   "property": "C20",
   "status": "proved",
   "theorems": [
    "C20_reachable_wf",
    "C20_add_sub",
    "C20_mul",
    "C20_scalar",
    "C20_combine_and_sum",
    "C20_transpose"
   ],
   "note": ""
  },
  {
   "property": "C21",
   "status": "proved",
   "theorems": [
    "C21_eval",
    "C21_multiple_of_q_refuted"
   ],
   "note": ""
  },
  {
   "property": "C22",
   "status": "proved",
   "theorems": [
    "C22_divide",
    "C22_constant_divisor"
   ],
   "note": ""
  },
  {
   "property": "C23",
   "status": "proved",
   "theorems": [
    "C23_interpolation",
    "C23_cache_invisible",
    "C23_too_short"
   ],
   "note": ""
  },
  {
   "property": "C24",
   "status": "proved",
   "theorems": [
    "C24_schedule_independent"
   ],
   "note": ""
  },
  {
   "property": "C25",
   "status": "proved",
   "theorems": [
    "C25_no_deletion_behind",
    "C25_schedule_independent_refuted"
   ],
   "note": ""
  },
  {
   "property": "C26",
   "status": "proved",
   "theorems": [
    "C26_scalar_product",
    "C26_index_panic",
    "C26_reduced_refuted"
   ],
   "note": ""
  },
  {
   "property": "C27",
   "status": "proved",
   "theorems": [
    "C27_numbering",
    "C27_aborts_iff",
    "C27_split_map",
    "C27_repeated_public_refuted"
   ],
   "note": ""
  },
  {
   "property": "C28",
   "status": "proved",
   "theorems": [
    "C28_dense",
    "C28_sparse",
    "C28_system",
    "C28_repeated_refuted",
    "C28_split_number_refuted"
   ],
   "note": ""
  },
  {
   "property": "C29",
   "status": "proved",
   "theorems": [
    "C29_agree",
    "C29_number_name_refuted",
    "C29_repeated_refuted"
   ],
   "note": ""
  },
  {
   "property": "C30",
   "status": "proved",
   "theorems": [
    "C30_sound",
    "C30_bit_coefficient_refuted"
   ],
   "note": ""
  },
  {
   "property": "C31",
   "status": "proved",
   "theorems": [
    "C31_sound",
    "C31_complete_refuted"
   ],
   "note": ""
  },
  {
   "property": "C32",
   "status": "proved",
   "theorems": [
    "C32_dense",
    "C32_sparse",
    "C32_unknown_name_refuted",
    "C32_combine"
   ],
   "note": ""
  },
  {
   "property": "C33",
   "status": "proved",
   "theorems": [
    "C33_sound",
    "C33_gates",
    "C33_complete",
    "C33_two_decompositions"
   ],
   "note": ""
  },
  {
   "property": "C34",
   "status": "proved",
   "theorems": [
    "C34_add",
    "C34_mul",
    "C34_negate",
    "C34_invert",
    "C34_mul_general_refuted",
    "C34_scalar_multiply",
    "C34_scalar_multiply_refuted"
   ],
   "note": ""
  },
  {
   "property": "C35",
   "status": "proved",
   "theorems": [
    "C35_extract_constant",
    "C35_aborts_iff"
   ],
   "note": ""
  },
  {
   "property": "C36",
   "status": "proved",
   "theorems": [
    "C36_value",
    "C36_wire",
    "C36_sum_when_coprime",
    "C36_sum_refuted"
   ],
   "note": ""
  },
  {
   "property": "C37",
   "status": "proved",
   "theorems": [
    "C37_equality_dropped",
    "C37_equality_not_enforced"
   ],
   "note": ""
  },
  {
   "property": "C38",
   "status": "proved",
   "theorems": [
    "C38_commutative"
   ],
   "note": ""
  },
  {
   "property": "C39",
   "status": "proved",
   "theorems": [
    "C39_tokens",
    "C39_terminates",
    "C39_lossless",
    "C39_no_panic",
    "C39_empty_token_refuted",
    "C39_lines"
   ],
   "note": ""
  },
  {
   "property": "C40",
   "status": "proved",
   "theorems": [
    "C40_loops",
    "C40_floods"
   ],
   "note": ""
  },
  {
   "property": "C41",
   "status": "proved",
   "theorems": [
    "C41_expressions",
    "C41_unique",
    "C41_right_associative",
    "C41_precedence_refuted"
   ],
   "note": ""
  },
  {
   "property": "C42",
   "status": "proved",
   "theorems": [
    "C42_first",
    "C42_separator",
    "C42_operator",
    "C42_closing",
    "C42_closing_opened",
    "C42_unmatched_refuted",
    "C42_lone"
   ],
   "note": ""
  },
  {
   "property": "C43",
   "status": "proved",
   "theorems": [
    "C43_combined",
    "C43_divisible"
   ],
   "note": ""
  },
  {
   "property": "C44",
   "status": "proved",
   "theorems": [
    "C44_no_proof"
   ],
   "note": ""
  },
  {
   "property": "C45",
   "status": "proved",
   "theorems": [
    "C45_honest",
    "C45_accepted",
    "C45_base_refuted"
   ],
   "note": ""
  },
  {
   "property": "C46",
   "status": "proved",
   "theorems": [
    "C46_false_statement",
    "C46_forged"
   ],
   "note": ""
  },
  {
   "property": "C47",
   "status": "proved",
   "theorems": [
    "C47_one_gate"
   ],
   "note": ""
  },
  {
   "property": "C48",
   "status": "proved",
   "theorems": [
    "C48_setup_aborts",
    "C48_rejected_refuted"
   ],
   "note": ""
  },
  {
   "property": "C49",
   "status": "proved",
   "theorems": [
    "C49_signal_count"
   ],
   "note": ""
  },
  {
   "property": "C50",
   "status": "proved",
   "theorems": [
    "C50_gfp2",
    "C50_gfp6",
    "C50_gfp12",
    "C50_fields",
    "C50_decide",
    "C50_invert_zero"
   ],
   "note": ""
  },
  {
   "property": "C51",
   "status": "proved",
   "theorems": [
    "C51_points",
    "C51_curve",
    "C51_twist",
    "C51_group"
   ],
   "note": ""
  },
  {
   "property": "C52",
   "status": "proved",
   "theorems": [
    "C52_inplace",
    "C52_inplace_twist",
    "C52_double",
    "C52_double_twist",
    "C52_double_refuted",
    "C52_double_twist_refuted"
   ],
   "note": ""
  },
  {
   "property": "C53",
   "status": "proved",
   "theorems": [
    "C53_marshal",
    "C53_unmarshal",
    "C53_canonical",
    "C53_round_trip",
    "C53_x"
   ],
   "note": ""
  },
  {
   "property": "C54",
   "status": "proved",
   "theorems": [
    "C54_round_trip",
    "C54_marshal_injective",
    "C54_not_injective_refuted",
    "C54_membership_refuted"
   ],
   "note": ""
  },
  {
   "property": "C55",
   "status": "proved",
   "theorems": [
    "C55_parameters",
    "C55_naf_refuted",
    "C55_generators",
    "C55_frobenius_constants"
   ],
   "note": ""
  },
  {
   "property": "C56",
   "status": "proved",
   "theorems": [
    "C56_sound",
    "C56_complete"
   ],
   "note": ""
  },
  {
   "property": "C57",
   "status": "proved",
   "theorems": [
    "C57_zero_divisor",
    "C57_quotient_refuted"
   ],
   "note": ""
  },
  {
   "property": "C58",
   "status": "proved",
   "theorems": [
    "C58_generated",
    "C58_sound",
    "C58_complete",
    "C58_sparse"
   ],
   "note": ""
  },
  {
   "property": "C59",
   "status": "proved",
   "theorems": [
    "C59_finds",
    "C59_accepts",
    "C59_sparse_refuted"
   ],
   "note": ""
  },
  {
   "property": "C60",
   "status": "proved",
   "theorems": [
    "C60_accumulate",
    "C60_accumulate_twist",
    "C60_double_refuted"
   ],
   "note": ""
  },
  {
   "property": "C62",
   "status": "proved",
   "theorems": [
    "C62_frobenius2",
    "C62_frobenius6",
    "C62_frobenius12"
   ],
   "note": ""
  },
  {
   "property": "C63",
   "status": "proved",
   "theorems": [
    "C63_final_exponentiation",
    "C63_order",
    "C63_multiplicative"
   ],
   "note": ""
  },
  {
   "property": "C64",
   "status": "proved",
   "theorems": [
    "C64_marshal",
    "C64_unmarshal",
    "C64_canonical",
    "C64_round_trip"
   ],
   "note": ""
  },
  {
   "property": "C65",
   "status": "proved",
   "theorems": [
    "C65_mul",
    "C65_mul_twist",
    "C65_order",
    "C65_hom",
    "C65_negative_refuted"
   ],
   "note": ""
  },
  {
   "property": "C66",
   "status": "proved",
   "theorems": [
    "C66_points",
    "C66_unmarshal",
    "C66_points_twist",
    "C66_unmarshal_twist"
   ],
   "note": ""
  },
  {
   "property": "C67",
   "status": "proved",
   "theorems": [
    "C67_value",
    "C67_representation",
    "C67_add",
    "C67_scalar",
    "C67_nondegenerate",
    "C67_unmarshalled"
   ],
   "note": ""
  },
  {
   "property": "C68",
   "status": "proved",
   "theorems": [
    "C68_check"
   ],
   "note": ""
  },
  {
   "property": "C69",
   "status": "proved",
   "theorems": [
    "C69_group",
    "C69_zero_refuted",
    "C69_negative_refuted"
   ],
   "note": ""
  },
  {
   "property": "C70",
   "status": "proved",
   "theorems": [
    "C70_honest",
    "C70_accepted"
   ],
   "note": ""
  },
  {
   "property": "C71",
   "status": "proved",
   "theorems": [
    "C71_forged",
    "C71_seven"
   ],
   "note": ""
  },
  {
   "property": "C72",
   "status": "proved",
   "theorems": [
    "C72_equation"
   ],
   "note": ""
  },
  {
   "property": "C73",
   "status": "proved",
   "theorems": [
    "C73_malleable"
   ],
   "note": ""
  },
  {
   "property": "C74",
   "status": "proved",
   "theorems": [
    "C74_sound"
   ],
   "note": ""
  },
  {
   "property": "C75",
   "status": "proved",
   "theorems": [
    "C75_complete"
   ],
   "note": ""
  },
  {
   "property": "C76",
   "status": "proved",
   "theorems": [
    "C76_else_refuted",
    "C76_nested_refuted"
   ],
   "note": ""
  },
  {
   "property": "C77",
   "status": "proved",
   "theorems": [
    "C77_return_refuted"
   ],
   "note": ""
  },
  {
   "property": "C78",
   "status": "proved",
   "theorems": [
    "C78_countdown_refuted"
   ],
   "note": ""
  },
  {
   "property": "C79",
   "status": "proved",
   "theorems": [
    "C79_condition_refuted"
   ],
   "note": ""
  },
  {
   "property": "C80",
   "status": "proved",
   "theorems": [
    "C80_subtract_refuted",
    "C80_before_declaration_refuted"
   ],
   "note": ""
  },
  {
   "property": "C81",
   "status": "proved",
   "theorems": [
    "C81_publics",
    "C81_generated",
    "C81_sound",
    "C81_complete",
    "C81_solver"
   ],
   "note": ""
  },
  {
   "property": "C82",
   "status": "proved",
   "theorems": [
    "C82_accepted",
    "C82_run",
    "C82_bn256"
   ],
   "note": ""
  },
  {
   "property": "C83",
   "status": "proved",
   "theorems": [
    "C83_read",
    "C83_unambiguous",
    "C83_sound",
    "C83_complete",
    "C83_compiles",
    "C83_if_last",
    "C83_if_last_refuted",
    "C83_compound",
    "C83_compound_refuted",
    "C83_var_dropped",
    "C83_var_refuted"
   ],
   "note": ""
  },
  {
   "property": "C84",
   "status": "proved",
   "theorems": [
    "C84_written",
    "C84_roundtrip",
    "C84_injective"
   ],
   "note": ""
  },
  {
   "property": "C85",
   "status": "proved",
   "theorems": [
    "C85_accepted",
    "C85_publics",
    "C85_text"
   ],
   "note": ""
  },
  {
   "property": "C86",
   "status": "proved",
   "theorems": [
    "C86_refines",
    "C86_ends",
    "C86_text",
    "C86_ops",
    "C86_zero_refuted"
   ],
   "note": ""
  },
  {
   "property": "C87",
   "status": "proved",
   "theorems": [
    "C87_names",
    "C87_assign",
    "C87_declare"
   ],
   "note": ""
  },
  {
   "property": "C88",
   "status": "proved",
   "theorems": [
    "C88_read",
    "C88_alone",
    "C88_sound",
    "C88_complete",
    "C88_accepted",
    "C88_cycle"
   ],
   "note": ""
  },
  {
   "property": "C89",
   "status": "proved",
   "theorems": [
    "C89_read",
    "C89_other_text_aborts",
    "C89_unambiguous"
   ],
   "note": ""
  },
  {
   "property": "C90",
   "status": "proved",
   "theorems": [
    "C90_combined",
    "C90_dense",
    "C90_no_proof"
   ],
   "note": ""
  },
  {
   "property": "C91",
   "status": "proved",
   "theorems": [
    "C91_honest",
    "C91_accepted",
    "C91_rejected"
   ],
   "note": ""
  },
  {
   "property": "C92",
   "status": "proved",
   "theorems": [
    "C92_honest",
    "C92_accepted",
    "C92_rejected"
   ],
   "note": ""
  },
  {
   "property": "C93",
   "status": "proved",
   "theorems": [
    "C93_system",
    "C93_solver",
    "C93_run",
    "C93_honest",
    "C93_bn256"
   ],
   "note": ""
  },
  {
   "property": "C94",
   "status": "proved",
   "theorems": [
    "C94_dense",
    "C94_sparse",
    "C94_solver",
    "C94_sparse_solver",
    "C94_verdict",
    "C94_bn256",
    "C94_randomized_refuted",
    "C94_bn256_condition",
    "C94_sparse_verdict",
    "C94_program"
   ],
   "note": ""
  },
  {
   "property": "C95",
   "status": "proved",
   "theorems": [
    "C95_systems",
    "C95_single",
    "C95_generated",
    "C95_program",
    "C95_run",
    "C95_honest_refuted"
   ],
   "note": ""
  },
  {
   "property": "C96",
   "status": "proved",
   "theorems": [
    "C96_finds",
    "C96_first",
    "C96_sound",
    "C96_split",
    "C96_program",
    "C96_range_refuted",
    "C96_digits_refuted",
    "C96_sparse"
   ],
   "note": ""
  },
  {
   "property": "C97",
   "status": "proved",
   "theorems": [
    "C97_return",
    "C97_no_value_refuted",
    "C97_no_return_refuted",
    "C97_negative_refuted",
    "C97_var_refuted",
    "C97_size_refuted",
    "C97_logic",
    "C97_bits_refuted"
   ],
   "note": ""
  },
  {
   "property": "C98",
   "status": "proved",
   "theorems": [
    "C98_system",
    "C98_solver",
    "C98_accepts",
    "C98_sudoku",
    "C98_refuted",
    "C98_text_compiles"
   ],
   "note": ""
  },
  {
   "property": "C99",
   "status": "proved",
   "theorems": [
    "C99_unique",
    "C99_sparse",
    "C99_quotient_refuted",
    "C99_claim_refuted"
   ],
   "note": ""
  },
  {
   "property": "C100",
   "status": "proved",
   "theorems": [
    "C100_keys",
    "C100_system",
    "C100_solver",
    "C100_two_keys",
    "C100_sign",
    "C100_honest"
   ],
   "note": ""
  },
  {
   "property": "C101",
   "status": "proved",
   "theorems": [
    "C101_first",
    "C101_loop",
    "C101_fibonacci",
    "C101_nested"
   ],
   "note": ""
  },
  {
   "property": "C102",
   "status": "proved",
   "theorems": [
    "C102_print",
    "C102_equal"
   ],
   "note": ""
  },
  {
   "property": "C103",
   "status": "proved",
   "theorems": [
    "C103_gt",
    "C103_g1",
    "C103_g1_same",
    "C103_g1_refuted",
    "C103_g2",
    "C103_g2_refuted"
   ],
   "note": ""
  },
  {
   "property": "C104",
   "status": "proved",
   "theorems": [
    "C104_chain",
    "C104_else_required"
   ],
   "note": ""
  },
  {
   "property": "C105",
   "status": "proved",
   "theorems": [
    "C105_chain",
    "C105_else"
   ],
   "note": ""
  },
  {
   "property": "C106",
   "status": "proved",
   "theorems": [
    "C106_call",
    "C106_loop"
   ],
   "note": ""
  },
  {
   "property": "C107",
   "status": "proved",
   "theorems": [
    "C107_append",
    "C107_execute",
    "C107_condition",
    "C107_distinct"
   ],
   "note": ""
  },
  {
   "property": "C108",
   "status": "proved",
   "theorems": [
    "C108_kept",
    "C108_program"
   ],
   "note": ""
  },
  {
   "property": "C109",
   "status": "proved",
   "theorems": [
    "C109_rewriting_iff",
    "C109_system_refuted"
   ],
   "note": ""
  },
  {
   "property": "C110",
   "status": "proved",
   "theorems": [
    "C110_inputs",
    "C110_gates",
    "C110_length",
    "C110_mixed",
    "C110_numbers_refuted"
   ],
   "note": ""
  },
  {
   "property": "C111",
   "status": "proved",
   "theorems": [
    "C111_same",
    "C111_multiple_refuted"
   ],
   "note": ""
  },
  {
   "property": "C112",
   "status": "proved",
   "theorems": [
    "C112_function",
    "C112_main",
    "C112_last"
   ],
   "note": ""
  }
 ]
}
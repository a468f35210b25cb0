{
 "claims": [
  {
   "property": "C01",
   "status": "proved",
   "theorems": [
    "C01_optimized_equals_unoptimized"
   ],
   "note": ""
  },
  {
   "property": "C02",
   "status": "proved",
   "theorems": [
    "C02_hash_1",
    "C02_hash_2",
    "C02_hash_3",
    "C02_hash_4",
    "C02_hash_5",
    "C02_hash_6",
    "C02_hash_7",
    "C02_unoptimized_is_textbook"
   ],
   "note": ""
  },
  {
   "property": "C03",
   "status": "proved",
   "theorems": [
    "C03_permutation_bijective"
   ],
   "note": ""
  },
  {
   "property": "C04",
   "status": "proved",
   "theorems": [
    "C04_modulus_prime",
    "C04_coprime",
    "C04_pow17_bijective",
    "C04_sbox_is_pow17"
   ],
   "note": ""
  },
  {
   "property": "C05",
   "status": "proved",
   "theorems": [
    "C05_history_independent",
    "C05_new"
   ],
   "note": ""
  },
  {
   "property": "C06",
   "status": "proved",
   "theorems": [
    "C06_never_panics"
   ],
   "note": ""
  },
  {
   "property": "C07",
   "status": "proved",
   "theorems": [
    "C07_result_is_word_1",
    "C07_result_is_word_1_unoptimized",
    "C07_one_word_state_panics"
   ],
   "note": ""
  },
  {
   "property": "C08",
   "status": "proved",
   "theorems": [
    "C08_optimization_correct",
    "C08_shipped_equations"
   ],
   "note": ""
  },
  {
   "property": "C09",
   "status": "proved",
   "theorems": [
    "C09_sound_hash_1",
    "C09_sound_hash_2",
    "C09_sound_hash_3",
    "C09_sound_hash_4",
    "C09_sound_hash_5",
    "C09_sound_hash_6",
    "C09_sound_hash_7",
    "C09_sound_generic"
   ],
   "note": ""
  },
  {
   "property": "C10",
   "status": "proved",
   "theorems": [
    "C10_complete_hash_1",
    "C10_complete_hash_2",
    "C10_complete_hash_3",
    "C10_complete_hash_4",
    "C10_complete_hash_5",
    "C10_complete_hash_6",
    "C10_complete_hash_7",
    "C10_complete_generic"
   ],
   "note": ""
  },
  {
   "property": "C11",
   "status": "proved",
   "theorems": [
    "C11_unique_hash_1",
    "C11_unique_hash_2",
    "C11_unique_hash_3",
    "C11_unique_hash_4",
    "C11_unique_hash_5",
    "C11_unique_hash_6",
    "C11_unique_hash_7",
    "C11_unique_generic"
   ],
   "note": ""
  },
  {
   "property": "C12",
   "status": "proved",
   "theorems": [
    "C12_cost_hash_1",
    "C12_cost_hash_2",
    "C12_cost_hash_3",
    "C12_cost_hash_4",
    "C12_cost_hash_5",
    "C12_cost_hash_6",
    "C12_cost_hash_7",
    "C12_shape_independent_of_values",
    "C12_cost_generic"
   ],
   "note": ""
  },
  {
   "property": "C13",
   "status": "proved",
   "theorems": [
    "C13_inverse_panics"
   ],
   "note": ""
  },
  {
   "property": "C14",
   "status": "proved",
   "theorems": [
    "C14_shipped_mds"
   ],
   "note": ""
  },
  {
   "property": "C15",
   "status": "proved",
   "theorems": [
    "C15_derived_matrices"
   ],
   "note": ""
  },
  {
   "property": "C16",
   "status": "proved",
   "theorems": [
    "C16_canonical",
    "C16_decoding_injective",
    "C16_header"
   ],
   "note": ""
  },
  {
   "property": "C17",
   "status": "proved",
   "theorems": [
    "C17_odd_rounds_unoptimized",
    "C17_odd_rounds_optimized"
   ],
   "note": ""
  },
  {
   "property": "C18",
   "status": "proved",
   "theorems": [
    "C18_no_partial_rounds_panic"
   ],
   "note": ""
  },
  {
   "property": "C19",
   "status": "proved",
   "theorems": [
    "C19_new",
    "C19_new_panics",
    "C19_new_row_major",
    "C19_new_2x2",
    "C19_new_from_known",
    "C19_new_from_known_panics"
   ],
   "note": ""
  },
  {
   "property": "C20",
   "status": "proved",
   "theorems": [
    "C20_get",
    "C20_set",
    "C20_get_out_of_bounds",
    "C20_set_out_of_bounds",
    "C20_column_aliasing",
    "C20_column_aliasing_set"
   ],
   "note": ""
  },
  {
   "property": "C21",
   "status": "proved",
   "theorems": [
    "C21_transpose",
    "C21_transpose_involutive"
   ],
   "note": ""
  },
  {
   "property": "C22",
   "status": "proved",
   "theorems": [
    "C22_mat_mul",
    "C22_mat_mul_wrong_size",
    "C22_mat_mul_mismatch",
    "C22_mat_mul_no_columns",
    "C22_square_mat_mul",
    "C22_square_mat_mul_wrong_size",
    "C22_square_mat_mul_mismatch"
   ],
   "note": ""
  },
  {
   "property": "C23",
   "status": "proved",
   "theorems": [
    "C23_hadamard",
    "C23_scalar_mul"
   ],
   "note": ""
  },
  {
   "property": "C24",
   "status": "proved",
   "theorems": [
    "C24_identity",
    "C24_identity_neutral",
    "C24_identity_wrong_size"
   ],
   "note": ""
  },
  {
   "property": "C25",
   "status": "proved",
   "theorems": [
    "C25_determinant",
    "C25_determinant_2x2",
    "C25_determinant_multiplicative",
    "C25_determinant_panics"
   ],
   "note": ""
  },
  {
   "property": "C26",
   "status": "proved",
   "theorems": [
    "C26_inverse",
    "C26_inverse_product",
    "C26_inverse_one_by_one",
    "C26_inverse_singular_err_refuted",
    "C26_inverse_size_panics"
   ],
   "note": ""
  },
  {
   "property": "C27",
   "status": "proved",
   "theorems": [
    "C27_minors",
    "C27_cofactors",
    "C27_laplace",
    "C27_minors_one_by_one",
    "C27_minors_size_panics"
   ],
   "note": ""
  },
  {
   "property": "C28",
   "status": "proved",
   "theorems": [
    "C28_row_vector_panics",
    "C28_row_vector_single_row",
    "C28_row_vector_returns_row_refuted"
   ],
   "note": ""
  },
  {
   "property": "C29",
   "status": "proved",
   "theorems": [
    "C29_dot_product",
    "C29_dot_product_panics"
   ],
   "note": ""
  },
  {
   "property": "C30",
   "status": "proved",
   "theorems": [
    "C30_blocks",
    "C30_inverse",
    "C30_new",
    "C30_from_elements"
   ],
   "note": ""
  },
  {
   "property": "C31",
   "status": "proved",
   "theorems": [
    "C31_exponent_bytes",
    "C31_exponent_injective",
    "C31_inverse_collision"
   ],
   "note": ""
  },
  {
   "property": "C32",
   "status": "proved",
   "theorems": [
    "C32_exponent",
    "C32_inverse",
    "C32_panic",
    "C32_bijective"
   ],
   "note": ""
  },
  {
   "property": "C33",
   "status": "proved",
   "theorems": [
    "C33_matrix",
    "C33_entries",
    "C33_mds"
   ],
   "note": ""
  },
  {
   "property": "C34",
   "status": "proved",
   "theorems": [
    "C34_equivalent_matrices",
    "C34_success",
    "C34_result"
   ],
   "note": ""
  },
  {
   "property": "C35",
   "status": "proved",
   "theorems": [
    "C35_success",
    "C35_equivalent",
    "C35_same_permutation",
    "C35_odd_refuted",
    "C35_present_library_panics"
   ],
   "note": ""
  },
  {
   "property": "C36",
   "status": "proved",
   "theorems": [
    "C36_shape",
    "C36_hash",
    "C36_textbook",
    "C36_bijective"
   ],
   "note": ""
  },
  {
   "property": "C37",
   "status": "proved",
   "theorems": [
    "C37_reproduced",
    "C37_every_width",
    "C37_round_constants",
    "C37_file"
   ],
   "note": ""
  },
  {
   "property": "C38",
   "status": "proved",
   "theorems": [
    "C38_messages",
    "C38_binding"
   ],
   "note": ""
  },
  {
   "property": "C39",
   "status": "proved",
   "theorems": [
    "C39_v1_count",
    "C39_v2_count",
    "C39_v2_prefix_of_v1",
    "C39_reduced"
   ],
   "note": ""
  },
  {
   "property": "C40",
   "status": "proved",
   "theorems": [
    "C40_v1_cheapest",
    "C40_v1_panic",
    "C40_v2_cheapest",
    "C40_v2_panic",
    "C40_v2_inverse_panics",
    "C40_v2_agrees"
   ],
   "note": ""
  },
  {
   "property": "C41",
   "status": "proved",
   "theorems": [
    "C41_margin"
   ],
   "note": ""
  },
  {
   "property": "C42",
   "status": "proved",
   "theorems": [
    "C42_selected",
    "C42_shipped"
   ],
   "note": ""
  },
  {
   "property": "C43",
   "status": "proved",
   "theorems": [
    "C43_even",
    "C43_every_width_refuted",
    "C43_large_width_panics"
   ],
   "note": ""
  },
  {
   "property": "C44",
   "status": "proved",
   "theorems": [
    "C44_bounds",
    "C44_exact",
    "C44_accuracy_refuted",
    "C44_floor_refuted"
   ],
   "note": ""
  },
  {
   "property": "C45",
   "status": "proved",
   "theorems": [
    "C45_internal",
    "C45_internal_det",
    "C45_internal_mds",
    "C45_external",
    "C45_external_unit",
    "C45_M4_unit",
    "C45_M4_mds",
    "C45_generate",
    "C45_other_widths_panic",
    "C45_returned",
    "C45_Fq"
   ],
   "note": ""
  },
  {
   "property": "C46",
   "status": "proved",
   "theorems": [
    "C46_slice",
    "C46_slice_of_vecs",
    "C46_element",
    "C46_empty",
    "C46_empty_vecs",
    "C46_empty_matrices",
    "C46_injective",
    "C46_decimal"
   ],
   "note": ""
  },
  {
   "property": "C47",
   "status": "proved",
   "theorems": [
    "C47_constant_inputs_panic"
   ],
   "note": ""
  },
  {
   "property": "C48",
   "status": "proved",
   "theorems": [
    "C48_sampled_bits",
    "C48_bias"
   ],
   "note": ""
  },
  {
   "property": "C49",
   "status": "proved",
   "theorems": [
    "C49_never_panics",
    "C49_unsupported_panics"
   ],
   "note": ""
  },
  {
   "property": "C50",
   "status": "proved",
   "theorems": [
    "C50_closed_form"
   ],
   "note": ""
  },
  {
   "property": "C51",
   "status": "proved",
   "theorems": [
    "C51_table_7",
    "C51_table_8",
    "C51_table_9"
   ],
   "note": ""
  },
  {
   "property": "C52",
   "status": "proved",
   "theorems": [
    "C52_returns",
    "C52_textbook",
    "C52_hash",
    "C52_bijective"
   ],
   "note": ""
  },
  {
   "property": "C53",
   "status": "proved",
   "theorems": [
    "C53_inverse_sbox",
    "C53_generated"
   ],
   "note": ""
  },
  {
   "property": "C54",
   "status": "proved",
   "theorems": [
    "C54_groebner",
    "C54_Fq_rounds"
   ],
   "note": ""
  },
  {
   "property": "C55",
   "status": "proved",
   "theorems": [
    "C55_file_runs",
    "C55_file_functions",
    "C55_duplicates",
    "C55_file_exists",
    "C55_printed",
    "C55_v2_panics",
    "C55_v2_nothing",
    "C55_v2_unresolved"
   ],
   "note": ""
  },
  {
   "property": "C56",
   "status": "proved",
   "theorems": [
    "C56_perm_original",
    "C56_perm",
    "C56_generator_matrices",
    "C56_generator_constants",
    "C56_shipped",
    "C56_shipped_matrices",
    "C56_shipped_constants",
    "C56_numbers",
    "C56_rate_2"
   ],
   "note": ""
  },
  {
   "property": "C57",
   "status": "proved",
   "theorems": [
    "C57_algorithm_2",
    "C57_algorithm_2_stops",
    "C57_algorithm_3",
    "C57_algorithm_1",
    "C57_algorithm_1_passes",
    "C57_algorithm_1_fails",
    "C57_accepted_sound",
    "C57_accepted_complete",
    "C57_fixed_cauchy",
    "C57_fixed_cauchy_accepted",
    "C57_generated",
    "C57_shipped",
    "C57_shipped_accepted",
    "C57_partial_rounds",
    "C57_shipped_partial_rounds",
    "C57_internal",
    "C57_internal_eigenvector_2",
    "C57_internal_eigenvector_3"
   ],
   "note": ""
  },
  {
   "property": "C58",
   "status": "proved",
   "theorems": [
    "C58_mds_branch",
    "C58_generated_branch",
    "C58_shipped_branch",
    "C58_active",
    "C58_states",
    "C58_shipped_states",
    "C58_shipped_active"
   ],
   "note": ""
  },
  {
   "property": "C59",
   "status": "proved",
   "theorems": [
    "C59_power",
    "C59_sbox",
    "C59_inverse",
    "C59_inverse_nonzero"
   ],
   "note": ""
  },
  {
   "property": "C60",
   "status": "proved",
   "theorems": [
    "C60_eigenpolynomial",
    "C60_eigenpolynomial_margin",
    "C60_root_extraction",
    "C60_root_extraction_margin"
   ],
   "note": ""
  },
  {
   "property": "C61",
   "status": "proved",
   "theorems": [
    "C61_check",
    "C61_two_rounds",
    "C61_all_rounds",
    "C61_shipped"
   ],
   "note": ""
  },
  {
   "property": "C62",
   "status": "proved",
   "theorems": [
    "C62_best",
    "C62_unsupported",
    "C62_depth",
    "C62_size"
   ],
   "note": ""
  },
  {
   "property": "C63",
   "status": "proved",
   "theorems": [
    "C63_agreement",
    "C63_closed_form",
    "C63_every_width_refuted",
    "C63_every_modulus_refuted"
   ],
   "note": ""
  },
  {
   "property": "C64",
   "status": "proved",
   "theorems": [
    "C64_alpha_17",
    "C64_alpha_11",
    "C64_bls381",
    "C64_constraints"
   ],
   "note": ""
  },
  {
   "property": "C65",
   "status": "proved",
   "theorems": [
    "C65_runs",
    "C65_sound",
    "C65_complete",
    "C65_unique",
    "C65_happy",
    "C65_unhappy",
    "C65_size",
    "C65_shape",
    "C65_domain_separator",
    "C65_test_circuit"
   ],
   "note": ""
  },
  {
   "property": "C66",
   "status": "proved",
   "theorems": [
    "C66_b_query",
    "C66_a_query",
    "C66_l_query",
    "C66_lengths"
   ],
   "note": ""
  },
  {
   "property": "C67",
   "status": "proved",
   "theorems": [
    "C67_agree",
    "C67_values",
    "C67_degree_le",
    "C67_exact",
    "C67_shipped_rounds",
    "C67_shipped_permute",
    "C67_hash",
    "C67_hash_interpolation",
    "C67_hash_no_shorter",
    "C67_hash_values",
    "C67_numbers",
    "C67_check"
   ],
   "note": ""
  },
  {
   "property": "C68",
   "status": "proved",
   "theorems": [
    "C68_line",
    "C68_roots",
    "C68_hash_line",
    "C68_hash_zero_sum",
    "C68_hash_moments",
    "C68_hash_subgroup",
    "C68_permute_zero_sum"
   ],
   "note": ""
  },
  {
   "property": "C69",
   "status": "proved",
   "theorems": [
    "C69_register",
    "C69_start",
    "C69_bits",
    "C69_constants",
    "C69_constants_state",
    "C69_zero_bits",
    "C69_matrix",
    "C69_accepted",
    "C69_vendored_constants",
    "C69_vendored_matrices",
    "C69_vendored_fields"
   ],
   "note": ""
  },
  {
   "property": "C70",
   "status": "proved",
   "theorems": [
    "C70_perm",
    "C70_test_vectors",
    "C70_bijective",
    "C70_library",
    "C70_optimized",
    "C70_optimized_bijective"
   ],
   "note": ""
  },
  {
   "property": "C71",
   "status": "proved",
   "theorems": [
    "C71_determinant",
    "C71_expected_det",
    "C71_matrix",
    "C71_mds",
    "C71_near_mds",
    "C71_near_mds_refuted",
    "C71_rounds",
    "C71_rounds_capacity",
    "C71_script_rounds",
    "C71_secure_refuted",
    "C71_secure_2",
    "C71_instance",
    "C71_shared_constants",
    "C71_sponge",
    "C71_sponge_length"
   ],
   "note": ""
  },
  {
   "property": "C72",
   "status": "proved",
   "theorems": [
    "C72_parameters",
    "C72_inverse_2x2",
    "C72_inverse_2x2_refuted",
    "C72_few_failures",
    "C72_hash",
    "C72_vs_sage",
    "C72_consistent",
    "C72_gcd",
    "C72_alpha_5",
    "C72_alpha_17",
    "C72_convert",
    "C72_cauchy_method_mds",
    "C72_calc_equivalent_matrices",
    "C72_log2",
    "C72_internal",
    "C72_external"
   ],
   "note": ""
  },
  {
   "property": "C73",
   "status": "proved",
   "theorems": [
    "C73_backwards",
    "C73_root",
    "C73_permute",
    "C73_preimage",
    "C73_preimages",
    "C73_balanced",
    "C73_fixed_separator",
    "C73_lists",
    "C73_collision"
   ],
   "note": ""
  },
  {
   "property": "C74",
   "status": "proved",
   "theorems": [
    "C74_table_7",
    "C74_table_8",
    "C74_margin_7",
    "C74_margin_8",
    "C74_table_9",
    "C74_closed_form",
    "C74_paper_primes_7",
    "C74_paper_primes_8",
    "C74_size_decides_refuted",
    "C74_bls377",
    "C74_bls381"
   ],
   "note": ""
  },
  {
   "property": "C75",
   "status": "proved",
   "theorems": [
    "C75_table_7",
    "C75_table_8",
    "C75_table_9",
    "C75_shift_7",
    "C75_shift_8",
    "C75_above_level"
   ],
   "note": ""
  },
  {
   "property": "C76",
   "status": "proved",
   "theorems": [
    "C76_permute",
    "C76_unoptimized",
    "C76_hashes",
    "C76_fewer_multiplications",
    "C76_fewer_additions",
    "C76_three_partial_rounds",
    "C76_shipped"
   ],
   "note": ""
  },
  {
   "property": "C77",
   "status": "proved",
   "theorems": [
    "C77_M4",
    "C77_external",
    "C77_generated",
    "C77_Fq",
    "C77_blocks_and_four"
   ],
   "note": ""
  },
  {
   "property": "C78",
   "status": "proved",
   "theorems": [
    "C78_stable_subspaces",
    "C78_trails",
    "C78_characteristic_polynomial",
    "C78_internal"
   ],
   "note": ""
  },
  {
   "property": "C79",
   "status": "proved",
   "theorems": [
    "C79_values",
    "C79_no_matrix",
    "C79_plain",
    "C79_moving",
    "C79_two_rounds",
    "C79_three_rounds_refuted",
    "C79_field_refuted"
   ],
   "note": "The script's constants are right for up to two partial rounds (first word replaced) and refuted for three or more; the refutations carry explicit round constants."
  },
  {
   "property": "C80",
   "status": "proved",
   "theorems": [
    "C80_padded",
    "C80_padding",
    "C80_range",
    "C80_inputs",
    "C80_matrix",
    "C80_instance",
    "C80_not_shipped"
   ],
   "note": "SHA-256 is modelled from FIPS 180-4, not from the source of hashlib; test vectors and the origin of the constants are examples."
  },
  {
   "property": "C81",
   "status": "proved",
   "theorems": [
    "C81_power_maps",
    "C81_first_word",
    "C81_two_rounds",
    "C81_rounds",
    "C81_full_round",
    "C81_round",
    "C81_neighbours",
    "C81_inputs"
   ],
   "note": ""
  },
  {
   "property": "C82",
   "status": "proved",
   "theorems": [
    "C82_power_line",
    "C82_round_line",
    "C82_two_rounds",
    "C82_state",
    "C82_zero_line",
    "C82_shipped_round",
    "C82_shipped_two",
    "C82_first_two",
    "C82_shipped_zero_line",
    "C82_zero_state",
    "C82_zero_lines",
    "C82_degree",
    "C82_hash",
    "C82_zero_hash",
    "C82_one_to_one",
    "C82_values"
   ],
   "note": ""
  }
 ]
}
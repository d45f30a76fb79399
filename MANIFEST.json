{"claims":[
{"property": "C01", "status": "proved", "theorems": ["C01_poseidon2_reference"], "note": "model p2_permutation equals the matrix reference for every field, width, degree, round number and constants"},
{"property": "C02", "status": "proved", "theorems": ["C02_poseidon2_returns_iff"], "note": ""},
{"property": "C03", "status": "proved", "theorems": ["C03_poseidon2_bijective", "C03_poseidon2_bijective_iff", "C03_bad_primes_small", "C03_internal_invertible_iff"], "note": "also the converse: the stated conditions are necessary"},
{"property": "C04", "status": "proved", "theorems": ["C04_poseidon2_shipped"], "note": "All 15 shipped objects, in every field of the declared modulus; constants generated from the source by tools/gen_instances.py; lazy_static modelled by its value."},
{"property": "C05", "status": "proved", "theorems": ["C05_external_is_matrix", "C05_external_invertible_iff"], "note": "exact list of characteristics for which the matrix is singular"},
{"property": "C06", "status": "proved", "theorems": ["C06_external_mds_iff", "C06_mds_iff_minors"], "note": "exact list of characteristics; every shipped modulus is larger than 23"},
{"property": "C07", "status": "proved", "theorems": ["C07_internal_is_matrix", "C07_small_width_diagonal"], "note": ""},
{"property": "C08", "status": "proved", "theorems": ["C08_degrees_usable_refuted", "C08_accepted_degrees"], "note": "the claim is false; refuted by d = 11"},
{"property": "C09", "status": "proved", "theorems": ["C09_new_accepts_any_lengths", "C09_short_data_panics", "C09_input_24_elements_panics", "C09_surplus_ignored"], "note": ""},
{"property": "C10", "status": "proved", "theorems": ["C10_unused_constants", "C10_mat_internal_unused"], "note": ""},
{"property": "C11", "status": "proved", "theorems": ["C11_p2_equivalent_round_constants", "C11_p2_equivalent_round_constants_returns"], "note": "Correct whenever it returns (t x t matrix, t >= 2, no usize overflow; no assumption on the constants); returns iff R_P >= 1 and all leading blocks are nonsingular on well-dimensioned data."},
{"property": "C12", "status": "proved", "theorems": ["C12_poseidon2_data_consistent"], "note": ""},
{"property": "C13", "status": "proved", "theorems": ["C13_poseidon_reference"], "note": "Both permutations, both profiles, wrong input lengths panic."},
{"property": "C14", "status": "proved", "theorems": ["C14_optimised_equals_unoptimised", "C14_optimised_equals_unoptimised_debug", "C14_every_accepted_release_refuted"], "note": "Equal outcome for all inputs for t x t mds when each partial round has >= t constants; in debug builds without any condition on constants. For release builds the unconditional claim is false (a short last row of constants is accepted): refuted with a witness."},
{"property": "C15", "status": "proved", "theorems": ["C15_poseidon_bijection_iff"], "note": "If and only if, for both permutations."},
{"property": "C16", "status": "proved", "theorems": ["C16_poseidon_new_success_iff", "C16_poseidon_new_degenerate_panics", "C16_poseidon_new_wrong_size_panics"], "note": "Factorisation matrices identified as the powers of mds without its first row and column."},
{"property": "C17", "status": "proved", "theorems": ["C17_poseidon_shipped"], "note": ""},
{"property": "C18", "status": "proved", "theorems": ["C18_mat_inverse_sound"], "note": ""},
{"property": "C19", "status": "proved", "theorems": ["C19_mat_inverse_success_iff", "C19_mat_inverse_empty", "C19_mat_inverse_not_square_panics", "C19_inverts_every_invertible_refuted"], "note": "the naive claim (every invertible matrix is inverted) is refuted in every field"},
{"property": "C20", "status": "proved", "theorems": ["C20_mat_inverse_profiles", "C20_mat_inverse_ragged_refuted", "C20_poseidon_new_profiles", "C20_poseidon_permutation_profiles", "C20_gmimc_profiles", "C20_neptune_profiles", "C20_merkle_profiles", "C20_merkle_digest_profiles", "C20_poseidon2_profiles"], "note": "mat_inverse, Poseidon2, Poseidon, GMiMC, Neptune and the four Merkle accumulators; false for ragged matrices (refuted theorem)"},
{"property": "C21", "status": "proved", "theorems": ["C21_transpose", "C21_transpose_involutive", "C21_mat_vec_mul", "C21_mat_vec_mul_debug_length", "C21_mat_mat_mul"], "note": ""},
{"property": "C22", "status": "proved", "theorems": ["C22_gmimc_optimised_equals_unoptimised"], "note": "Every input (also of wrong length), every round count including zero, both profiles."},
{"property": "C23", "status": "proved", "theorems": ["C23_gmimc_reference"], "note": "Both permutations; the random constants are an arbitrary stream."},
{"property": "C24", "status": "proved", "theorems": ["C24_gmimc_bijection"], "note": "No condition on d versus p - 1."},
{"property": "C25", "status": "proved", "theorems": ["C25_gmimc_outcome", "C25_gmimc_new_outcome"], "note": "Zero rounds also in release builds, where rounds - 1 wraps."},
{"property": "C26", "status": "proved", "theorems": ["C26_gmimc_round_numbers", "C26_formula_unique"], "note": "Over the real numbers. 15 instances (BN256, Pallas, Vesta with t <= 9) have exactly one round more than the formula, the other 28 exactly the formula."},
{"property": "C27", "status": "proved", "theorems": ["C27_neptune_sbox_formula", "C27_neptune_sbox_bijective"], "note": "Formula for every constructed instance and the whole layer; injective iff 5 is not zero in the field, then also surjective."},
{"property": "C28", "status": "proved", "theorems": ["C28_neptune_external_layer", "C28_neptune_internal_layer"], "note": "All even widths including the special cases 4 and 8."},
{"property": "C29", "status": "proved", "theorems": ["C29_neptune_reference"], "note": "Also panics on t = 0 with partial rounds."},
{"property": "C30", "status": "proved", "theorems": ["C30_neptune_bijective_iff", "C30_neptune_fixed_matrices", "C30_neptune_always_bijective_refuted"], "note": "Exact condition for bijectivity; the unconditional claim is refuted with the stream of ones."},
{"property": "C31", "status": "proved", "theorems": ["C31_neptune_round_numbers_refuted", "C31_neptune_round_numbers", "C31_formula_unique"], "note": "The claim that all instances meet the formula is refuted (BN256 and Vesta have 68 instead of 69 rounds); the exact relation is proved for all twelve."},
{"property": "C32", "status": "proved", "theorems": ["C32_neptune_params_contents", "C32_neptune_params_draws", "C32_neptune_params_outcome"], "note": "Positions of all draws are determined."},
{"property": "C33", "status": "proved", "theorems": ["C33_merkle_fp_root"], "note": "total compression function; slices up to 2^63 elements (longer ones cannot exist for a non-zero-sized type)"},
{"property": "C34", "status": "proved", "theorems": ["C34_digest_history_independent"], "note": "any digest satisfying digest_contract; histories include panicking calls"},
{"property": "C35", "status": "proved", "theorems": ["C35_orchard_levels", "C35_sapling_levels"], "note": "element type abstract"},
{"property": "C36", "status": "proved", "theorems": ["C36_panics_iff_empty"], "note": "all four variants, both profiles"},
{"property": "C37", "status": "proved", "theorems": ["C37_padding_collision", "C37_padding_collision_any", "C37_collision_free_refuted"], "note": "collision-freeness refuted"},
{"property": "C38", "status": "proved", "theorems": ["C38_same_length_collision"], "note": ""},
{"property": "C39", "status": "proved", "theorems": ["C39_path_exists", "C39_path_binding"], "note": ""},
{"property": "C40", "status": "proved", "theorems": ["C40_cross_level", "C40_untagged_collision_refuted", "C40_digest_collision_refuted", "C40_tagged_levels_differ"], "note": ""},
{"property": "C41", "status": "proved", "theorems": ["C41_poseidon2_compress", "C41_poseidon_compress", "C41_gmimc_compress", "C41_neptune_compress"], "note": ""},
{"property": "C42", "status": "proved", "theorems": ["C42_padded_size_least", "C42_size_search", "C42_doublings", "C42_overflow", "C42_digest_compressions", "C42_compressions"], "note": ""},
{"property": "C43", "status": "proved", "theorems": ["C43_from_hex_value", "C43_from_hex_round_trip", "C43_from_hex_collisions"], "note": "hex and ark-ff functions modelled from their documentation"},
{"property": "C44", "status": "proved", "theorems": ["C44_from_hex_panics_iff", "C44_prefix_not_checked"], "note": "a cut multi-byte character is a non-digit byte, so it is covered by the second disjunct"},
{"property": "C45", "status": "proved", "theorems": ["C45_without_0_returns_first_nonzero", "C45_without_0_diverges_iff", "C45_without_0_never_panics"], "note": ""},
{"property": "C46", "status": "proved", "theorems": ["C46_moduli_prime"], "note": "Pocklington certificates checked in the kernel."},
{"property": "C47", "status": "proved", "theorems": ["C47_generators_primitive"], "note": "Complete factorisations of p-1 with proven prime factors."},
{"property": "C48", "status": "proved", "theorems": ["C48_shipped_exponents"], "note": ""},
{"property": "C49", "status": "proved", "theorems": ["C49_poseidon2_collides", "C49_poseidon_collides", "C49_poseidon2_accepted", "C49_poseidon_accepted", "C49_three_not_coprime"], "note": "Records a gap: new does not check coprimality of d and p-1."},
{"property": "C50", "status": "proved", "theorems": ["C50_poseidon2_from_grain"], "note": "All 15 instances. The number of rejected diagonals is existential; the acceptance test of the script (minimal polynomials) is not part of this theorem."},
{"property": "C51", "status": "proved", "theorems": ["C51_poseidon_from_grain"], "note": "All 15 instances."},
{"property": "C52", "status": "proved", "theorems": ["C52_poseidon_shipped_mds", "C52_poseidon_shipped_branch_number"], "note": "All 15 instances; minors via the Cauchy form, and the branch number of matmul itself."},
{"property": "C53", "status": "proved", "theorems": ["C53_poseidon2_round_numbers", "C53_poseidon_round_numbers"], "note": "All 30 instances: the script's search (with exact reals instead of floating point) returns the shipped numbers, and they are the enlargement of a pair satisfying the inequalities."},
{"property": "C54", "status": "proved", "theorems": ["C54_poseidon2_get_t", "C54_poseidon_get_t", "C54_gmimc_getters", "C54_neptune_get_t"], "note": "objects are values in the model, so equal parameters trivially give equal behaviour"},
{"property": "C55", "status": "proved", "theorems": ["C55_overflow_debug", "C55_overflow_release"], "note": ""},
{"property": "C56", "status": "proved", "theorems": ["C56_poseidon2_known_answers", "C56_poseidon_known_answers"], "note": "The 14 known-answer vectors of the unit tests, for the model, in every field of the declared modulus."},
{"property": "C57", "status": "proved", "theorems": ["C57_internal_minimal_polynomials", "C57_no_invariant_subspace", "C57_width_3_refuted"], "note": "Rabin-style certificate: f(M) = 0, x^(p^t) = x and gcd(x^(i p^(t/q)) - x^i, f) = 1 for i <= 4t, computed modulo f; for t = 3 the claim is refuted with the witness (a,-a,0)"},
{"property": "C58", "status": "proved", "theorems": ["C58_poseidon2_internal_matrix_generated"], "note": "Every rejected draw has a certificate (a polynomial of degree < t that annihilates a nonzero vector); acceptance from C57 and C60."},
{"property": "C59", "status": "proved", "theorems": ["C59_poseidon2_partial_rounds", "C59_poseidon_partial_rounds"], "note": "Krylov matrices of the shipped matrices are nonsingular (certificates checked by computation in Fp); generic argument for differences."},
{"property": "C60", "status": "proved", "theorems": ["C60_poseidon2_algorithms", "C60_poseidon_algorithms", "C60_poseidon_generate_matrix", "C60_poseidon2_layers", "C60_poseidon_layers"], "note": "Sage's subspace operations are modelled by their mathematical meaning."},
{"property": "C61", "status": "proved", "theorems": ["C61_matrix_full", "C61_poseidon2_reference", "C61_poseidon_reference", "C61_poseidon2_diagonal", "C61_get_alpha", "C61_shipped_alpha", "C61_to_hex_from_hex", "C61_poseidon2_texts", "C61_poseidon_texts"], "note": "Python's hex and zfill are modelled from their documentation."},
{"property": "C62", "status": "proved", "theorems": ["C62_equivalent_matrices", "C62_equivalent_constants", "C62_script_defined_iff", "C62_shipped", "C62_same_domain_refuted"], "note": "Sage's inverse() is modelled by the defining equations of the inverse. The refuted theorem concerns the converse claim that the constructor accepts every matrix the script can factorise."},
{"property": "C63", "status": "proved", "theorems": ["C63_equal_diagonal_eigenvector", "C63_equal_diagonal_rejected", "C63_shipped_diagonals_distinct", "C63_small_entries_none", "C63_small_entries_distinct", "C63_small_entries_width_2"], "note": ""},
{"property": "C64", "status": "proved", "theorems": ["C64_algorithm_1", "C64_algorithm_2", "C64_algorithm_3", "C64_algorithm_3_implies_2", "C64_minpoly", "C64_width_2", "C64_minpoly_algorithm_3_refuted", "C64_other_implications_refuted"], "note": "Sage's subspaces are modelled by their sets of vectors. The refuted theorems concern the converse implications."},
{"property": "C65", "status": "proved", "theorems": ["C65_poseidon2_degree", "C65_poseidon_degree", "C65_gmimc_degree", "C65_neptune_degree", "C65_bound_attained"], "note": "Polynomial functions are given by coefficient lists."},
{"property": "C66", "status": "proved", "theorems": ["C66_zero_sum", "C66_poseidon2_shipped", "C66_poseidon_shipped", "C66_neptune_shipped", "C66_unbounded_refuted"], "note": "The refuted theorem shows that the bound on the degree is needed."},
{"property": "C67", "status": "proved", "theorems": ["C67_agreement", "C67_poseidon2", "C67_solutions"], "note": ""},
{"property": "C68", "status": "proved", "theorems": ["C68_benchmarks_run", "C68_moduli"], "note": "The timing harness (criterion, black_box) is left out."},
{"property": "C69", "status": "proved", "theorems": ["C69_tests_pass", "C69_neptune_consistent_perm_iff", "C69_neptune_consistent_perm_refuted", "C69_matmul_equalities_outcome", "C69_matmul_equalities_passes", "C69_matmul_equalities_refuted", "C69_input_24_elements_refuted"], "note": "The refuted theorems show tests of the repository that can fail (Neptune) or always fail (input_24_elements, poseidon2.rs:511-518: width 24 with constants for width 3)."},
{"property": "C70", "status": "proved", "theorems": ["C70_neptune_debug", "C70_neptune_release_accepts", "C70_neptune_release", "C70_poseidon", "C70_poseidon2_release"], "note": "Completes C55. A slice has at most isize::MAX bytes, so at most 2^63 rows; this is the bound on the length of the constants."},
{"property": "C71", "status": "proved", "theorems": ["C71_search_optimal", "C71_size_cost", "C71_final_numbers", "C71_poseidon2_optimal", "C71_poseidon_optimal"], "note": "The expressions of the script are read over the real numbers."},
{"property": "C72", "status": "proved", "theorems": ["C72_binding", "C72_binding_injective", "C72_binding_untagged", "C72_binding_untagged_injective", "C72_binding_digest"], "note": "Extends C37, C38 and C40 to sets of different sizes."},
{"property": "C73", "status": "proved", "theorems": ["C73_external_branch", "C73_poseidon2_round", "C73_poseidon_round", "C73_poseidon2_trail", "C73_poseidon_trail", "C73_poseidon2_shipped", "C73_poseidon_shipped", "C73_bad_prime_refuted"], "note": "In the excluded characteristics the bound can fail: C73_bad_prime_refuted."},
{"property": "C74", "status": "proved", "theorems": ["C74_poseidon2_sbox", "C74_poseidon_sbox", "C74_gmimc_sbox", "C74_neptune_internal_sbox", "C74_neptune_pair_sbox", "C74_small_field_refuted"], "note": "Without d < p the bound fails: C74_small_field_refuted."},
{"property": "C75", "status": "proved", "theorems": ["C75_security_margin", "C75_poseidon2_rounding", "C75_poseidon_rounding"], "note": "Includes the replacement of an infinite binom_log (lines 100-101)."},
{"property": "C76", "status": "proved", "theorems": ["C76_fixed_blocks_mds", "C76_round_pairs", "C76_round_diffusion", "C76_trail", "C76_shipped", "C76_word_branch", "C76_external_mds_refuted", "C76_random_blocks_refuted"], "note": "Refuted: the external matrix is MDS on words; every accepted set of draws gives MDS blocks."},
{"property": "C77", "status": "proved", "theorems": ["C77_any_sbox", "C77_bijective_sbox", "C77_shipped", "C77_same_inputs", "C77_quiet_rounds", "C77_linear_relations", "C77_width_one", "C77_cube_refuted"], "note": "Refuted: the bound 2m + 1 also holds when the power map is not a bijection."},
{"property": "C78", "status": "proved", "theorems": ["C78_poseidon2", "C78_poseidon", "C78_neptune", "C78_poseidon2_count", "C78_poseidon_count", "C78_neptune_count", "C78_poseidon2_shipped", "C78_poseidon_shipped", "C78_poseidon2_accepted_refuted", "C78_neptune_accepted_refuted"], "note": "Refuted: the constructors only accept parameters whose partial rounds see every difference."},
{"property": "C79", "status": "proved", "theorems": ["C79_poseidon2", "C79_poseidon", "C79_neptune", "C79_poseidon2_shipped", "C79_poseidon_shipped", "C79_neptune_shipped"], "note": "Full rounds from C73/C76, partial rounds from C78; the states stay different because the permutation is injective."},
{"property": "C80", "status": "proved", "theorems": ["C80_poseidon2_top", "C80_poseidon_top", "C80_gmimc_top", "C80_neptune_top", "C80_exact", "C80_poseidon2_words", "C80_poseidon_words", "C80_neptune_words"], "note": "Complements C65 (upper bound). Highest coefficients are tracked round by round; they are nonzero for the shipped matrices by computation with the matrices and homogeneity."},
{"property": "C81", "status": "proved", "theorems": ["C81_degree", "C81_not_reached", "C81_top", "C81_words"], "note": "Shows that the general bound 4^rf d^rp of C65 is not sharp for t = 4 (it is for t = 8, C80)."},
{"property": "C82", "status": "proved", "theorems": ["C82_poseidon2", "C82_poseidon", "C82_gmimc", "C82_neptune", "C82_tree", "C82_no_comparison", "C82_constructor_compares", "C82_delayed_reduction", "C82_poseidon2_expressions", "C82_poseidon_expressions", "C82_gmimc_expressions", "C82_neptune_expressions"], "note": "Branching on values at the level of the modelled code; the timing of the field operations in ark_ff is not modelled."},
{"property": "C83", "status": "proved", "theorems": ["C83_poseidon2", "C83_poseidon", "C83_neptune", "C83_gmimc", "C83_poseidon2_shipped", "C83_poseidon_shipped", "C83_poseidon_two_rows"], "note": ""},
{"property": "C84", "status": "proved", "theorems": ["C84_tables", "C84_test_vector", "C84_injective", "C84_shipped", "C84_call", "C84_call_refuted", "C84_brackets_refuted", "C84_balanced"], "note": ""},
{"property": "C85", "status": "proved", "theorems": ["C85_poseidon2", "C85_poseidon", "C85_gmimc", "C85_minus_one", "C85_poseidon2_zero_constants", "C85_poseidon_zero_constants", "C85_neptune_refuted"], "note": ""},
{"property": "C86", "status": "proved", "theorems": ["C86_vectors", "C86_poseidon2", "C86_poseidon", "C86_gmimc", "C86_neptune", "C86_poseidon2_shipped", "C86_poseidon_shipped", "C86_poseidon2_collisions", "C86_poseidon_collisions", "C86_gmimc_collisions", "C86_neptune_collisions"], "note": ""},
{"property": "C87", "status": "proved", "theorems": ["C87_diagonal_count", "C87_singular_count", "C87_bijective_draws", "C87_every_diagonal", "C87_fraction", "C87_shipped_fraction"], "note": ""},
{"property": "C88", "status": "proved", "theorems": ["C88_external_layer", "C88_internal_layer", "C88_shipped_internal_layer", "C88_permutation", "C88_equal_words", "C88_shipped_poseidon", "C88_neptune_internal_layer"], "note": ""},
{"property": "C89", "status": "proved", "theorems": ["C89_root_exponent", "C89_sbox", "C89_internal_matrix", "C89_poseidon2", "C89_poseidon", "C89_gmimc", "C89_neptune", "C89_preimages", "C89_poseidon2_shipped", "C89_poseidon_shipped"], "note": ""},
{"property": "C90", "status": "proved", "theorems": ["C90_matrix_count", "C90_invertible_count", "C90_external_draws", "C90_bijective_draws", "C90_every_draw", "C90_fraction", "C90_shipped_fraction"], "note": ""},
{"property": "C91", "status": "proved", "theorems": ["C91_one_operation", "C91_inequalities", "C91_poseidon2", "C91_poseidon", "C91_field_bits", "C91_pasta_bits_refuted"], "note": "that ceil(log(p, 2)) is the number of bits for every field is refuted for Pallas and Vesta"},
{"property": "C92", "status": "proved", "theorems": ["C92_separation", "C92_step_bijective", "C92_one_cycle", "C92_no_stall", "C92_balanced"], "note": ""},
{"property": "C93", "status": "proved", "theorems": ["C93_odd_bits", "C93_shipped_fields", "C93_constants", "C93_constants_poseidon", "C93_lists"], "note": "even bit lengths only for the moduli of the shipped fields"},
{"property": "C94", "status": "proved", "theorems": ["C94_without_0", "C94_neptune_mu", "C94_neptune_new", "C94_positive", "C94_gmimc_new"], "note": ""},
{"property": "C95", "status": "proved", "theorems": ["C95_create_mds", "C95_one_round_accepted", "C95_generated_accepted_refuted"], "note": "that PoseidonParams::new accepts every generated matrix is refuted"},
{"property": "C96", "status": "proved", "theorems": ["C96_inverse_square_part", "C96_inverse_debug_rejects", "C96_short_row_panics", "C96_accepted_iff", "C96_permutations", "C96_optimised_equals_unoptimised", "C96_every_accepted_debug"], "note": "drops the shape hypothesis of C14"},
{"property": "C97", "status": "proved", "theorems": ["C97_new_success_exactly", "C97_otherwise_panics", "C97_debug_sum"], "note": "drops the shape hypotheses of C16; sums that overflow are in C70"},
{"property": "C98", "status": "proved", "theorems": ["C98_constructors", "C98_permutations", "C98_compress", "C98_merkle", "C98_converse_refuted"], "note": "C20 without its conditions, in one direction; the other direction is refuted"},
{"property": "C99", "status": "proved", "theorems": ["C99_permutation_returns_exactly", "C99_value_or_panic", "C99_compress"], "note": "C13 without its shape conditions, with the converse"},
{"property": "C100", "status": "proved", "theorems": ["C100_release_returns_exactly", "C100_otherwise_panics"], "note": "the value for well-formed constants is in C13; sums that overflow are in C70"},
{"property": "C101", "status": "proved", "theorems": ["C101_inverse_success_exactly", "C101_inverse_otherwise_panics", "C101_constants_success_exactly", "C101_constants_otherwise_panics"], "note": "C19 and the second half of C11 without their shape conditions"},
{"property": "C102", "status": "proved", "theorems": ["C102_release_value", "C102_lost_words", "C102_every_running_release_injective_refuted"], "note": "with complete rows the value is that of C13 and the function is a bijection (C15)"}
]}

{
 "claims": [
  {
   "property": "C01",
   "status": "proved",
   "theorems": [
    "C01_representation",
    "C01_add",
    "C01_sub",
    "C01_neg",
    "C01_double",
    "C01_zero",
    "C01_eq",
    "C01_sum",
    "C01_additive_identity_refuted"
   ],
   "note": "Both fields, every reduced element. ADDITIVE_IDENTITY/Default are one, refuted as neutral."
  },
  {
   "property": "C02",
   "status": "proved",
   "theorems": [
    "C02_mul",
    "C02_one",
    "C02_square",
    "C02_square_error",
    "C02_square_refuted",
    "C02_product"
   ],
   "note": "Multiplication exact for all inputs. square is exact iff drops_carry a = false; the unconditional claim is refuted in both fields."
  },
  {
   "property": "C03",
   "status": "proved",
   "theorems": [
    "C03_prime",
    "C03_invert_none",
    "C03_invert_when_exact",
    "C03_div_when_exact",
    "C03_div_panics",
    "C03_field_laws",
    "C03_invert_refuted"
   ],
   "note": "invert/div are correct when no squaring in the exponentiation drops a carry; unconditionally false (C03_invert_refuted). Primality, field laws, None/panic conditions are unconditional."
  },
  {
   "property": "C04",
   "status": "proved",
   "theorems": [
    "C04_from_u64",
    "C04_to_mont_form",
    "C04_from_bytes_wide",
    "C04_random",
    "C04_from_limbs_refuted"
   ],
   "note": "From<[u64;4]> does not convert: refuted."
  },
  {
   "property": "C05",
   "status": "proved",
   "theorems": [
    "C05_to_bytes",
    "C05_from_bytes",
    "C05_round_trip"
   ],
   "note": ""
  },
  {
   "property": "C06",
   "status": "proved",
   "theorems": [
    "C06_pow_when_exact",
    "C06_pow_vartime_when_exact",
    "C06_pow_of_2_when_exact",
    "C06_pow_zero",
    "C06_pow_refuted"
   ],
   "note": "Conditional on carry_free; unconditional claim refuted."
  },
  {
   "property": "C07",
   "status": "proved",
   "theorems": [
    "C07_to_bits",
    "C07_base4"
   ],
   "note": ""
  },
  {
   "property": "C08",
   "status": "proved",
   "theorems": [
    "C08_to_nafs"
   ],
   "note": ""
  },
  {
   "property": "C09",
   "status": "proved",
   "theorems": [
    "C09_order",
    "C09_transitive",
    "C09_integer_order_refuted",
    "C09_is_even_refuted",
    "C09_is_odd"
   ],
   "note": ""
  },
  {
   "property": "C10",
   "status": "proved",
   "theorems": [
    "C10_fr_to_fq",
    "C10_fq_to_fr",
    "C10_not_injective",
    "C10_bit_operations"
   ],
   "note": ""
  },
  {
   "property": "C11",
   "status": "proved",
   "theorems": [
    "C11_fq_sqrt_when_exact",
    "C11_fr_sqrt_when_exact",
    "C11_some_squares",
    "C11_some_is_root",
    "C11_fr_sqrt_refuted",
    "C11_fq_sqrt_refuted"
   ],
   "note": "Tonelli-Shanks over the 28-level tower of Fr, the (q+1)/4 power in Fq. The unconditional property is refuted in both fields."
  },
  {
   "property": "C12",
   "status": "proved",
   "theorems": [
    "C12_lexicographically_largest",
    "C12_fq2"
   ],
   "note": "Fq and Fq2"
  },
  {
   "property": "C13",
   "status": "proved",
   "theorems": [
    "C13_reference_forms",
    "C13_neg_ref_diverges",
    "C13_ext_correct_forms",
    "C13_ext_add_ref_diverges",
    "C13_ext_reference_forms_refuted"
   ],
   "note": "Prime fields: all forms agree except -&a, which recurses forever. Extension fields: refuted for reference - and *, a + &b recurses forever."
  },
  {
   "property": "C14",
   "status": "proved",
   "theorems": [
    "C14_mul",
    "C14_remainder_unique",
    "C14_squares_and_small_operations",
    "C14_commutative_rings",
    "C14_coefficientwise",
    "C14_fq2_square_limbs_when_exact",
    "C14_fq2_square_refuted"
   ],
   "note": "Tower over Fq on limbs; .square() of Fq taken as x*x (C02 says when), the limb-level Fq2::square deviates exactly through it (refuted)."
  },
  {
   "property": "C15",
   "status": "proved",
   "theorems": [
    "C15_inversion",
    "C15_no_zero_divisors",
    "C15_is_zero"
   ],
   "note": "Uses base-field inversion as a mathematical inverse (C03 says when the code's invert is)."
  },
  {
   "property": "C16",
   "status": "proved",
   "theorems": [
    "C16_sparse_products",
    "C16_untwist"
   ],
   "note": ""
  },
  {
   "property": "C17",
   "status": "proved",
   "theorems": [
    "C17_frobenius_map",
    "C17_frobenius_maps",
    "C17_first_coefficients"
   ],
   "note": "All elements, all k; tables checked against powers of 9+u."
  },
  {
   "property": "C18",
   "status": "proved",
   "theorems": [
    "C18_curves",
    "C18_addition_and_doubling",
    "C18_negation_and_subtraction",
    "C18_closed",
    "C18_double_of_affine_identity_refuted"
   ],
   "note": "Over every field and constants with curve_ok; C18_curves shows G1, G2 and Grumpkin meet it. .square()/.invert() of the base field taken as exact (C02, C03)."
  },
  {
   "property": "C19",
   "status": "proved",
   "theorems": [
    "C19_equality",
    "C19_equivalence",
    "C19_conversions",
    "C19_is_on_curve",
    "C19_batch_normalize",
    "C19_invert",
    "C19_from_x_and_y"
   ],
   "note": ""
  },
  {
   "property": "C20",
   "status": "proved",
   "theorems": [
    "C20_commutative_group",
    "C20_operators",
    "C20_sum"
   ],
   "note": ""
  },
  {
   "property": "C21",
   "status": "proved",
   "theorems": [
    "C21_scalar_multiplication",
    "C21_affine_scalar_multiplication",
    "C21_multiples_add",
    "C21_distributes"
   ],
   "note": "Distributivity over field addition is stated for points killed by the scalar modulus; on G1 and Grumpkin every point is (C60)."
  },
  {
   "property": "C22",
   "status": "proved",
   "theorems": [
    "C22_reference_forms",
    "C22_affine_minus_projective_adds",
    "C22_affine_minus_projective_refuted"
   ],
   "note": ""
  },
  {
   "property": "C23",
   "status": "proved",
   "theorems": [
    "C23_complete",
    "C23_group",
    "C23_extended",
    "C23_affine",
    "C23_mixed",
    "C23_denotes_one",
    "C23_reference_subtraction_refuted",
    "C23_scalar_multiplication",
    "C23_affine_scalar_multiplication",
    "C23_conversions",
    "C23_equality",
    "C23_affine_equality",
    "C23_on_curve",
    "C23_on_curve_refuted",
    "C23_invert",
    "C23_invert_refuted"
   ],
   "note": "Over any field with exact arithmetic. The library code is generic; its only instance, Jubjub in a test file, is C69."
  },
  {
   "property": "C24",
   "status": "proved",
   "theorems": [
    "C24_msm"
   ],
   "note": "Window sizes, signed digits and bucket sums for every number of bases; result is the sum over the common prefix."
  },
  {
   "property": "C25",
   "status": "proved",
   "theorems": [
    "C25_raw_round_trip",
    "C25_raw_decodes_everything",
    "C25_rejection_refuted",
    "C25_unreduced_refuted"
   ],
   "note": "to_raw_bytes exists for Grumpkin only; from_slice_unchecked is the same text for both curves."
  },
  {
   "property": "C26",
   "status": "proved",
   "theorems": [
    "C26_new_trims",
    "C26_evaluate",
    "C26_divide",
    "C26_add",
    "C26_scale",
    "C26_sum",
    "C26_points",
    "C26_subtraction",
    "C26_subtraction_refuted",
    "C26_commit",
    "C26_setup",
    "C26_degree",
    "C26_blind"
   ],
   "note": "Coefficient subtraction returns the negated difference when the left operand is not longer (refuted as a difference, characterised exactly)."
  },
  {
   "property": "C27",
   "status": "proved",
   "theorems": [
    "C27_new",
    "C27_domain",
    "C27_dft",
    "C27_idft",
    "C27_round_trips",
    "C27_coset_dft",
    "C27_coset_idft",
    "C27_vanishing",
    "C27_coset_disjoint",
    "C27_constants",
    "C27_scalar_field",
    "C27_t"
   ],
   "note": "Exact field arithmetic; the domain is generated by ROOT_OF_UNITY^(2^(S-k))."
  },
  {
   "property": "C28",
   "status": "proved",
   "theorems": [
    "C28_rows_linear",
    "C28_repeated_wire_refuted"
   ],
   "note": ""
  },
  {
   "property": "C29",
   "status": "proved",
   "theorems": [
    "C29_is_sat_iff_gates",
    "C29_gates_appended",
    "C29_append_is_sat",
    "C29_evaluate",
    "C29_transpose",
    "C29_matrix_product"
   ],
   "note": ""
  },
  {
   "property": "C30",
   "status": "proved",
   "theorems": [
    "C30_inputize",
    "C30_inputs",
    "C30_mul",
    "C30_square",
    "C30_add",
    "C30_enforce_equal",
    "C30_conditional_enforce_equal",
    "C30_conditional_select",
    "C30_boolean",
    "C30_comparison",
    "C30_range_check",
    "C30_range_check_zero_panics",
    "C30_to_bits",
    "C30_enforce_eq_bits",
    "C30_boolean_inputs",
    "C30_boolean_conditional_enforce_equal",
    "C30_point_inputs",
    "C30_instance_select"
   ],
   "note": "Exact field arithmetic; the field and point functions are tied to the limb code by C33_bn254_driver and C33_grumpkin_driver. Point gadgets are under C33, the hash under C44."
  },
  {
   "property": "C31",
   "status": "proved",
   "theorems": [
    "C31_mul",
    "C31_add",
    "C31_enforce_equal",
    "C31_conditional_enforce_equal",
    "C31_conditional_select",
    "C31_is_neq_of_equal",
    "C31_range_check",
    "C31_range_check_short_refuted",
    "C31_bits_enforced",
    "C31_enforce_eq_bits",
    "C31_to_bits_in_range",
    "C31_boolean_conditional_enforce_equal",
    "C31_instance_select"
   ],
   "note": "Every satisfying assignment; range checks with fewer wires than the bound has bits add no constraint (refuted part)."
  },
  {
   "property": "C32",
   "status": "proved",
   "theorems": [
    "C32_boolean_outputs_refuted",
    "C32_inputize_refuted",
    "C32_is_eq_refuted",
    "C32_is_neq_refuted",
    "C32_descale_refuted",
    "C32_to_bits_refuted",
    "C32_scalar_point_refuted"
   ],
   "note": "The property is false of the code: every satisfying assignment extends to one with any chosen output."
  },
  {
   "property": "C33",
   "status": "proved",
   "theorems": [
    "C33_add",
    "C33_double",
    "C33_select",
    "C33_assert_equal",
    "C33_descale",
    "C33_scalar_point",
    "C33_bn254_driver",
    "C33_grumpkin_driver"
   ],
   "note": "For both drivers."
  },
  {
   "property": "C34",
   "status": "proved",
   "theorems": [
    "C34_setup_succeeds",
    "C34_setup_rejects",
    "C34_completeness",
    "C34_completeness_bn254",
    "C34_size_panics",
    "C34_other_sizes_refuted",
    "C34_three_gates_rejected"
   ],
   "note": "Bilinearity and non-degeneracy of the pairing, and the module laws of G1 and G2, are hypotheses on the groups (record bilinear_groups); exact field arithmetic. Constraint counts that are not powers of two are refuted."
  },
  {
   "property": "C35",
   "status": "proved",
   "theorems": [
    "C35_verify_iff",
    "C35_verify_rejects"
   ],
   "note": "In any bilinear groups."
  },
  {
   "property": "C36",
   "status": "proved",
   "theorems": [
    "C36_zero_knowledge"
   ],
   "note": "In any bilinear groups, for keys made by setup with invertible toxic waste."
  },
  {
   "property": "C37",
   "status": "proved",
   "theorems": [
    "C37_additive",
    "C37_scales",
    "C37_truncates",
    "C37_not_binding_beyond"
   ],
   "note": "For any group on which the scalars act; bn254_driver_ok and grumpkin_driver_ok show that the two curves qualify."
  },
  {
   "property": "C38",
   "status": "proved",
   "theorems": [
    "C38_folding_preserves",
    "C38_prove",
    "C38_relax",
    "C38_dummy"
   ],
   "note": ""
  },
  {
   "property": "C39",
   "status": "proved",
   "theorems": [
    "C39_verifier_agrees"
   ],
   "note": ""
  },
  {
   "property": "C40",
   "status": "proved",
   "theorems": [
    "C40_special_soundness",
    "C40_challenge_ignores_second",
    "C40_forging",
    "C40_fiat_shamir_refuted"
   ],
   "note": "Extraction is up to a collision of the Pedersen commitment."
  },
  {
   "property": "C41",
   "status": "proved",
   "theorems": [
    "C41_relaxed_check",
    "C41_strict_check",
    "C41_any_instance_accepted",
    "C41_commitments_unchecked",
    "C41_wrong_length_panics"
   ],
   "note": ""
  },
  {
   "property": "C42",
   "status": "proved",
   "theorems": [
    "C42_steps_and_acceptance",
    "C42_init_is_ahead"
   ],
   "note": "For both curves of the crate; exact field arithmetic. Step circuits are any that meet the specification step_circuit (example_step shows that the one of the crate's tests does)."
  },
  {
   "property": "C43",
   "status": "proved",
   "theorems": [
    "C43_verify_iff",
    "C43_anything_accepted",
    "C43_soundness_refuted",
    "C43_public_inputs_free"
   ],
   "note": "The property is false of the code."
  },
  {
   "property": "C44",
   "status": "proved",
   "theorems": [
    "C44_hash_agrees",
    "C44_absorb_agrees",
    "C44_hash_enforced",
    "C44_absorb_enforced",
    "C44_squeeze_low_bits",
    "C44_squeeze_agrees",
    "C44_squeeze_refuted"
   ],
   "note": "Enforcement of the truncation is refuted."
  },
  {
   "property": "C45",
   "status": "proved",
   "theorems": [
    "C45_limbs_round_trip",
    "C45_limbs_refuse",
    "C45_limbs_value_exact",
    "C45_field_nat_round_trip",
    "C45_polynomial_product",
    "C45_grouping_value"
   ],
   "note": "Grouping: with a prover that does not use the code's base the value is kept in some other base (second half of C45_grouping_value)."
  },
  {
   "property": "C46",
   "status": "proved",
   "theorems": [
    "C46_mult_mod_complete",
    "C46_red_mod_complete",
    "C46_add_sum",
    "C46_number_of_field",
    "C46_number_witness",
    "C46_select_number",
    "C46_red_mod_any_result_refuted",
    "C46_mult_mod_any_result_refuted",
    "C46_enforce_eq_complete",
    "C46_enforce_eq_sound",
    "C46_enforce_eq_lengths"
   ],
   "note": ""
  },
  {
   "property": "C47",
   "status": "proved",
   "theorems": [
    "C47_reduces",
    "C47_same",
    "C47_injective_below",
    "C47_injective_iff",
    "C47_round_trip",
    "C47_fr_to_fq",
    "C47_fq_to_fr"
   ],
   "note": ""
  },
  {
   "property": "C48",
   "status": "proved",
   "theorems": [
    "C48_failing_calls_change_nothing",
    "C48_nova_verify",
    "C48_accepted_iff",
    "C48_first_value_changes",
    "C48_second_value_changes",
    "C48_history",
    "C48_replay",
    "C48_any_signer_sets_any_value",
    "C48_honest_proof_sets"
   ],
   "note": "The framework (origins, storage, events) is modelled as data; the verifier is that of IvcModel for the last two. C48_replay and C48_any_signer_sets_any_value state the limits of the guarantee."
  },
  {
   "property": "C49",
   "status": "proved",
   "theorems": [
    "C49_values_fit",
    "C49_get_sum",
    "C49_sum_refuted"
   ],
   "note": "The unconditional sum is refuted."
  },
  {
   "property": "C50",
   "status": "proved",
   "theorems": [
    "C50_field_codec",
    "C50_extension_codecs",
    "C50_point_codecs",
    "C50_system_codecs",
    "C50_proof_codec",
    "C50_params_codec",
    "C50_unambiguous",
    "C50_field_bytes",
    "C50_canonical_refuted",
    "C50_decoded_zero_divisor"
   ],
   "note": "The rules of the external crate parity-scale-codec are modelled from its documentation; which types derive it and their fields are from the repository."
  },
  {
   "property": "C51",
   "status": "proved",
   "theorems": [
    "C51_to_repr",
    "C51_from_repr",
    "C51_round_trip",
    "C51_from_repr_canonical",
    "C51_from_repr_rejects_refuted",
    "C51_is_odd",
    "C51_to_le_bits",
    "C51_char_le_bits",
    "C51_select_and_eq",
    "C51_invert",
    "C51_invert_when_exact",
    "C51_invert_zero_refuted",
    "C51_fr_constants",
    "C51_fq_constants",
    "C51_fq_constants_refuted"
   ],
   "note": "sqrt_ratio calls a function of the ff crate and is not modelled. The inverse is exact under the carry condition of C03."
  },
  {
   "property": "C52",
   "status": "proved",
   "theorems": [
    "C52_prepared_pairs_never_panic",
    "C52_pairs_multiply",
    "C52_identity_pairs_are_skipped",
    "C52_other_lengths_panic"
   ],
   "note": "The final assert_eq of the loop (nothing left over) is part of the model's failure value."
  },
  {
   "property": "C53",
   "status": "proved",
   "theorems": [
    "C53_pairing_is_optimal_ate",
    "C53_code_digits",
    "C53_twisting_constant",
    "C53_identity_pairs_to_one"
   ],
   "note": "Stated for pairs on which no intermediate line is vertical; .square()/.invert() of Fq taken as exact (C02, C03)."
  },
  {
   "property": "C54",
   "status": "proved",
   "theorems": [
    "C54_final_exp",
    "C54_final_exp_zero_panics",
    "C54_order",
    "C54_multiplicative",
    "C54_cyclotomic_square"
   ],
   "note": ""
  },
  {
   "property": "C55",
   "status": "proved",
   "theorems": [
    "C55_sqrt_sound",
    "C55_sqrt_complete"
   ],
   "note": ""
  },
  {
   "property": "C56",
   "status": "proved",
   "theorems": [
    "C56_group_on_outputs",
    "C56_group",
    "C56_operators",
    "C56_outputs",
    "C56_pairing_outputs",
    "C56_generator",
    "C56_generator_is_pairing",
    "C56_generator_order",
    "C56_generates",
    "C56_zero_refuted",
    "C56_neg_refuted"
   ],
   "note": "Gt::invert is unimplemented!() in the code and panics on every value."
  },
  {
   "property": "C57",
   "status": "proved",
   "theorems": [
    "C57_mul_by_x",
    "C57_mul_by_x_right_iff"
   ],
   "note": "The property is false of the code; the theorems give the exact value."
  },
  {
   "property": "C58",
   "status": "proved",
   "theorems": [
    "C58_same_kind",
    "C58_order_refuted"
   ],
   "note": "The property is false of the code; the theorem gives the collision."
  },
  {
   "property": "C59",
   "status": "proved",
   "theorems": [
    "C59_algebraic_soundness",
    "C59_honest_is_algebraic"
   ],
   "note": "Algebraic provers with coefficients chosen before the toxic waste; in any bilinear groups."
  },
  {
   "property": "C60",
   "status": "proved",
   "theorems": [
    "C60_g1_cyclic",
    "C60_grumpkin_cyclic",
    "C60_g1_order",
    "C60_grumpkin_order",
    "C60_g1_scalars",
    "C60_grumpkin_scalars"
   ],
   "note": ""
  },
  {
   "property": "C61",
   "status": "proved",
   "theorems": [
    "C61_representation",
    "C61_ring_ops",
    "C61_zero",
    "C61_square_iff",
    "C61_square_when_exact",
    "C61_square_refuted",
    "C61_conversions",
    "C61_pow_when_exact",
    "C61_invert_when_exact",
    "C61_invert_none",
    "C61_little_fermat",
    "C61_bits",
    "C61_nafs"
   ],
   "note": "The modulus and its constants are parameters, as in the code; invert assumes a prime modulus. Two carries are lost in square, one more than in the 256-bit version."
  },
  {
   "property": "C62",
   "status": "proved",
   "theorems": [
    "C62_defined",
    "C62_left",
    "C62_right",
    "C62_scalars",
    "C62_g2_generator_order",
    "C62_generators",
    "C62_nondegenerate"
   ],
   "note": "For all points of E(Fq) and all multiples of the G2 generator. The pairing of the generators is computed in the kernel."
  },
  {
   "property": "C63",
   "status": "proved",
   "theorems": [
    "C63_library_groups",
    "C63_groups",
    "C63_completeness",
    "C63_soundness",
    "C63_zero_knowledge",
    "C63_verify_iff"
   ],
   "note": "No hypothesis on the groups is left; circuit size a power of two, as in C34."
  },
  {
   "property": "C64",
   "status": "proved",
   "theorems": [
    "C64_literals",
    "C64_endomorphism_refuted",
    "C64_g1_check",
    "C64_g1_refuted",
    "C64_psi_refuted",
    "C64_g2_check",
    "C64_g2_refuted"
   ],
   "note": "The property is refuted; C64_g1_check and C64_g2_check give the exact behaviour on every point of both curves."
  },
  {
   "property": "C65",
   "status": "proved",
   "theorems": [
    "C65_curves",
    "C65_addition_and_doubling_when_exact",
    "C65_is_on_curve_when_exact",
    "C65_scalar_multiplication_when_exact",
    "C65_g1_on_curve_iff",
    "C65_grumpkin_on_curve_iff",
    "C65_g1_double_iff",
    "C65_grumpkin_double_iff",
    "C65_g1_on_curve_refuted",
    "C65_g2_on_curve_refuted",
    "C65_grumpkin_on_curve_refuted",
    "C65_g1_doubling_refuted"
   ],
   "note": "The _when_exact theorems cover every operation of C18, C19 and C21 that squares; the iff theorems say that for the on-curve check and affine doubling the condition is necessary."
  },
  {
   "property": "C66",
   "status": "proved",
   "theorems": [
    "C66_reduce",
    "C66_divn",
    "C66_low_bits",
    "C66_signed_residue",
    "C66_signed_residue_panics",
    "C66_recoding_step",
    "C66_without_reduce_refuted"
   ],
   "note": "Limb level. Panics are those of a checked build; C66_signed_residue_panics gives the exact widths at which mods_2_pow_k fails."
  },
  {
   "property": "C67",
   "status": "proved",
   "theorems": [
    "C67_pure",
    "C67_linear_agree",
    "C67_linear_values",
    "C67_mul_when_exact",
    "C67_square_when_exact",
    "C67_mul_refuted",
    "C67_square_refuted",
    "C67_bn254_refuted"
   ],
   "note": "Machine level: the instruction lists of assembly.rs under a semantics of the thirteen instructions they use. The exactness of mul and square is conditional on no lost carry, and refuted without it."
  },
  {
   "property": "C68",
   "status": "proved",
   "theorems": [
    "C68_representation",
    "C68_ring_operations",
    "C68_square",
    "C68_conversions",
    "C68_bytes",
    "C68_digits",
    "C68_order",
    "C68_pow_when_exact",
    "C68_invert_when_exact",
    "C68_bls_instance",
    "C68_bls_constants",
    "C68_size_refuted"
   ],
   "note": "Over every modulus with its own constants; pow and invert under the carry-free condition of C02. C68_bls_instance shows that the Jubjub test instance meets the hypotheses."
  },
  {
   "property": "C69",
   "status": "proved",
   "theorems": [
    "C69_complete",
    "C69_constants",
    "C69_additions",
    "C69_double_iff",
    "C69_scalar_multiplication_when_exact",
    "C69_on_curve_iff",
    "C69_on_curve_refuted",
    "C69_doubling_refuted"
   ],
   "note": "On limbs, no hypothesis on the field: the modulus is proved prime (C68). The inverse in to_affine is taken as exact."
  },
  {
   "property": "C70",
   "status": "proved",
   "theorems": [
    "C70_fields",
    "C70_hash_when_exact",
    "C70_absorb_when_exact",
    "C70_circuit_agrees_when_exact",
    "C70_round_fr",
    "C70_round_fq",
    "C70_last_round",
    "C70_loss_occurs",
    "C70_one_round_refuted",
    "C70_library_constants_refuted"
   ],
   "note": "C70_library_constants_refuted uses the 46 BLAKE2b digests of MimcData.v, computed outside; everything else holds for all constants."
  },
  {
   "property": "C71",
   "status": "proved",
   "theorems": [
    "C71_invert_is_the_code",
    "C71_prepare_when_exact",
    "C71_final_exp_when_exact",
    "C71_pairing_when_exact",
    "C71_bilinear_when_exact",
    "C71_product_when_exact",
    "C71_prepare_only_if",
    "C71_prepare_refuted"
   ],
   "note": "The point of C71_prepare_refuted is on the curve; it is not claimed to be in the subgroup of order r."
  },
  {
   "property": "C72",
   "status": "proved",
   "theorems": [
    "C72_functions_are_the_code",
    "C72_new",
    "C72_dft",
    "C72_coset_dft",
    "C72_idft_when_exact",
    "C72_coset_idft_when_exact",
    "C72_round_trip_when_exact",
    "C72_z_when_exact",
    "C72_z_last",
    "C72_z_refuted",
    "C72_divide_when_exact"
   ],
   "note": ""
  },
  {
   "property": "C73",
   "status": "proved",
   "theorems": [
    "C73_refines",
    "C73_completeness",
    "C73_key_points",
    "C73_zero_knowledge",
    "C73_soundness",
    "C73_verify_iff",
    "C73_verify_total"
   ],
   "note": "Scalars and coordinates are exact field elements; C65, C71 and C72 say when the limb square and inversion agree with them."
  },
  {
   "property": "C74",
   "status": "proved",
   "theorems": [
    "C74_plain_is_C73",
    "C74_setup_when_exact",
    "C74_prove_when_exact",
    "C74_prepare_when_exact",
    "C74_verify_when_exact",
    "C74_completeness_when_exact",
    "C74_verify_iff_when_exact",
    "C74_prepare_refuted"
   ],
   "note": "The proviso is that the guarded run does not panic: the code stopped before its first wrong square, inversion or power. C74_example_run is a whole honest run, over an empty list of Miller digits; C74_example_verify uses the real digits. The bad point of C74_prepare_refuted is on the curve, not shown to be in the subgroup."
  }
 ]
}
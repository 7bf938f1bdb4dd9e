(** Every theorem of MANIFEST.json, and the assumptions of all of them together: the build prints
    "Closed under the global context".  Generated from the manifest. *)
From Verif Require ClaimsField ClaimsSqrt ClaimsExt ClaimsExtra ClaimsCurve ClaimsEdwards ClaimsMsm ClaimsCodec ClaimsPoly ClaimsR1cs ClaimsGroth16 ClaimsNova ClaimsIvc ClaimsBigNat ClaimsPallet ClaimsFf ClaimsPairing ClaimsGt ClaimsOrder ClaimsLimb6 ClaimsBilinear ClaimsGroth16Bn ClaimsTorsion ClaimsWeierSq ClaimsRecode ClaimsAsm ClaimsMacro ClaimsJubjub ClaimsHash ClaimsPairSq ClaimsFftSq ClaimsGroth16Pts ClaimsGroth16Limbs.
Definition audit_C01 := (@ClaimsField.C01_representation, @ClaimsField.C01_add, @ClaimsField.C01_sub, @ClaimsField.C01_neg, @ClaimsField.C01_double, @ClaimsField.C01_zero, @ClaimsField.C01_eq, @ClaimsField.C01_sum, @ClaimsField.C01_additive_identity_refuted).
Definition audit_C02 := (@ClaimsField.C02_mul, @ClaimsField.C02_one, @ClaimsField.C02_square, @ClaimsField.C02_square_error, @ClaimsField.C02_square_refuted, @ClaimsField.C02_product).
Definition audit_C03 := (@ClaimsField.C03_prime, @ClaimsField.C03_invert_none, @ClaimsField.C03_invert_when_exact, @ClaimsField.C03_div_when_exact, @ClaimsField.C03_div_panics, @ClaimsField.C03_field_laws, @ClaimsField.C03_invert_refuted).
Definition audit_C04 := (@ClaimsField.C04_from_u64, @ClaimsField.C04_to_mont_form, @ClaimsField.C04_from_bytes_wide, @ClaimsField.C04_random, @ClaimsField.C04_from_limbs_refuted).
Definition audit_C05 := (@ClaimsField.C05_to_bytes, @ClaimsField.C05_from_bytes, @ClaimsField.C05_round_trip).
Definition audit_C06 := (@ClaimsField.C06_pow_when_exact, @ClaimsField.C06_pow_vartime_when_exact, @ClaimsField.C06_pow_of_2_when_exact, @ClaimsField.C06_pow_zero, @ClaimsField.C06_pow_refuted).
Definition audit_C07 := (@ClaimsField.C07_to_bits, @ClaimsField.C07_base4).
Definition audit_C08 := (@ClaimsField.C08_to_nafs).
Definition audit_C09 := (@ClaimsField.C09_order, @ClaimsField.C09_transitive, @ClaimsField.C09_integer_order_refuted, @ClaimsField.C09_is_even_refuted, @ClaimsField.C09_is_odd).
Definition audit_C10 := (@ClaimsField.C10_fr_to_fq, @ClaimsField.C10_fq_to_fr, @ClaimsField.C10_not_injective, @ClaimsField.C10_bit_operations).
Definition audit_C11 := (@ClaimsSqrt.C11_fq_sqrt_when_exact, @ClaimsSqrt.C11_fr_sqrt_when_exact, @ClaimsSqrt.C11_some_squares, @ClaimsSqrt.C11_some_is_root, @ClaimsSqrt.C11_fr_sqrt_refuted, @ClaimsSqrt.C11_fq_sqrt_refuted).
Definition audit_C12 := (@ClaimsField.C12_lexicographically_largest, @ClaimsExt.C12_fq2).
Definition audit_C13 := (@ClaimsField.C13_reference_forms, @ClaimsField.C13_neg_ref_diverges, @ClaimsExt.C13_ext_correct_forms, @ClaimsExt.C13_ext_add_ref_diverges, @ClaimsExt.C13_ext_reference_forms_refuted).
Definition audit_C14 := (@ClaimsExt.C14_mul, @ClaimsExt.C14_remainder_unique, @ClaimsExt.C14_squares_and_small_operations, @ClaimsExt.C14_commutative_rings, @ClaimsExt.C14_coefficientwise, @ClaimsExt.C14_fq2_square_limbs_when_exact, @ClaimsExt.C14_fq2_square_refuted).
Definition audit_C15 := (@ClaimsExt.C15_inversion, @ClaimsExt.C15_no_zero_divisors, @ClaimsExtra.C15_is_zero).
Definition audit_C16 := (@ClaimsExt.C16_sparse_products, @ClaimsExt.C16_untwist).
Definition audit_C17 := (@ClaimsExt.C17_frobenius_map, @ClaimsExt.C17_frobenius_maps, @ClaimsExt.C17_first_coefficients).
Definition audit_C18 := (@ClaimsCurve.C18_curves, @ClaimsCurve.C18_addition_and_doubling, @ClaimsCurve.C18_negation_and_subtraction, @ClaimsCurve.C18_closed, @ClaimsCurve.C18_double_of_affine_identity_refuted).
Definition audit_C19 := (@ClaimsCurve.C19_equality, @ClaimsCurve.C19_equivalence, @ClaimsCurve.C19_conversions, @ClaimsCurve.C19_is_on_curve, @ClaimsCurve.C19_batch_normalize, @ClaimsCurve.C19_invert, @ClaimsExtra.C19_from_x_and_y).
Definition audit_C20 := (@ClaimsCurve.C20_commutative_group, @ClaimsCurve.C20_operators, @ClaimsExtra.C20_sum).
Definition audit_C21 := (@ClaimsCurve.C21_scalar_multiplication, @ClaimsCurve.C21_affine_scalar_multiplication, @ClaimsCurve.C21_multiples_add, @ClaimsCurve.C21_distributes).
Definition audit_C22 := (@ClaimsCurve.C22_reference_forms, @ClaimsCurve.C22_affine_minus_projective_adds, @ClaimsCurve.C22_affine_minus_projective_refuted).
Definition audit_C23 := (@ClaimsEdwards.C23_complete, @ClaimsEdwards.C23_group, @ClaimsEdwards.C23_extended, @ClaimsEdwards.C23_affine, @ClaimsEdwards.C23_mixed, @ClaimsEdwards.C23_denotes_one, @ClaimsEdwards.C23_reference_subtraction_refuted, @ClaimsEdwards.C23_scalar_multiplication, @ClaimsEdwards.C23_affine_scalar_multiplication, @ClaimsEdwards.C23_conversions, @ClaimsEdwards.C23_equality, @ClaimsEdwards.C23_affine_equality, @ClaimsEdwards.C23_on_curve, @ClaimsEdwards.C23_on_curve_refuted, @ClaimsEdwards.C23_invert, @ClaimsEdwards.C23_invert_refuted).
Definition audit_C24 := (@ClaimsMsm.C24_msm).
Definition audit_C25 := (@ClaimsCodec.C25_raw_round_trip, @ClaimsCodec.C25_raw_decodes_everything, @ClaimsCodec.C25_rejection_refuted, @ClaimsCodec.C25_unreduced_refuted).
Definition audit_C26 := (@ClaimsPoly.C26_new_trims, @ClaimsPoly.C26_evaluate, @ClaimsPoly.C26_divide, @ClaimsPoly.C26_add, @ClaimsPoly.C26_scale, @ClaimsPoly.C26_sum, @ClaimsPoly.C26_points, @ClaimsPoly.C26_subtraction, @ClaimsPoly.C26_subtraction_refuted, @ClaimsPoly.C26_commit, @ClaimsPoly.C26_setup, @ClaimsPoly.C26_degree, @ClaimsPoly.C26_blind).
Definition audit_C27 := (@ClaimsPoly.C27_new, @ClaimsPoly.C27_domain, @ClaimsPoly.C27_dft, @ClaimsPoly.C27_idft, @ClaimsPoly.C27_round_trips, @ClaimsPoly.C27_coset_dft, @ClaimsPoly.C27_coset_idft, @ClaimsPoly.C27_vanishing, @ClaimsPoly.C27_coset_disjoint, @ClaimsPoly.C27_constants, @ClaimsPoly.C27_scalar_field, @ClaimsExtra.C27_t).
Definition audit_C28 := (@ClaimsR1cs.C28_rows_linear, @ClaimsR1cs.C28_repeated_wire_refuted).
Definition audit_C29 := (@ClaimsR1cs.C29_is_sat_iff_gates, @ClaimsR1cs.C29_gates_appended, @ClaimsR1cs.C29_append_is_sat, @ClaimsR1cs.C29_evaluate, @ClaimsR1cs.C29_transpose, @ClaimsExtra.C29_matrix_product).
Definition audit_C30 := (@ClaimsExtra.C30_inputize, @ClaimsR1cs.C30_inputs, @ClaimsR1cs.C30_mul, @ClaimsR1cs.C30_square, @ClaimsR1cs.C30_add, @ClaimsR1cs.C30_enforce_equal, @ClaimsR1cs.C30_conditional_enforce_equal, @ClaimsR1cs.C30_conditional_select, @ClaimsR1cs.C30_boolean, @ClaimsR1cs.C30_comparison, @ClaimsR1cs.C30_range_check, @ClaimsR1cs.C30_range_check_zero_panics, @ClaimsR1cs.C30_to_bits, @ClaimsR1cs.C30_enforce_eq_bits, @ClaimsExtra.C30_boolean_inputs, @ClaimsExtra.C30_boolean_conditional_enforce_equal, @ClaimsExtra.C30_point_inputs, @ClaimsExtra.C30_instance_select).
Definition audit_C31 := (@ClaimsR1cs.C31_mul, @ClaimsR1cs.C31_add, @ClaimsR1cs.C31_enforce_equal, @ClaimsR1cs.C31_conditional_enforce_equal, @ClaimsR1cs.C31_conditional_select, @ClaimsR1cs.C31_is_neq_of_equal, @ClaimsR1cs.C31_range_check, @ClaimsR1cs.C31_range_check_short_refuted, @ClaimsR1cs.C31_bits_enforced, @ClaimsR1cs.C31_enforce_eq_bits, @ClaimsR1cs.C31_to_bits_in_range, @ClaimsExtra.C31_boolean_conditional_enforce_equal, @ClaimsExtra.C31_instance_select).
Definition audit_C32 := (@ClaimsR1cs.C32_boolean_outputs_refuted, @ClaimsR1cs.C32_inputize_refuted, @ClaimsR1cs.C32_is_eq_refuted, @ClaimsR1cs.C32_is_neq_refuted, @ClaimsR1cs.C32_descale_refuted, @ClaimsR1cs.C32_to_bits_refuted, @ClaimsR1cs.C32_scalar_point_refuted).
Definition audit_C33 := (@ClaimsR1cs.C33_add, @ClaimsR1cs.C33_double, @ClaimsR1cs.C33_select, @ClaimsR1cs.C33_assert_equal, @ClaimsR1cs.C33_descale, @ClaimsR1cs.C33_scalar_point, @ClaimsR1cs.C33_bn254_driver, @ClaimsR1cs.C33_grumpkin_driver).
Definition audit_C34 := (@ClaimsGroth16.C34_setup_succeeds, @ClaimsGroth16.C34_setup_rejects, @ClaimsGroth16.C34_completeness, @ClaimsGroth16.C34_completeness_bn254, @ClaimsGroth16.C34_size_panics, @ClaimsGroth16.C34_other_sizes_refuted, @ClaimsGroth16.C34_three_gates_rejected).
Definition audit_C35 := (@ClaimsGroth16.C35_verify_iff, @ClaimsGroth16.C35_verify_rejects).
Definition audit_C36 := (@ClaimsGroth16.C36_zero_knowledge).
Definition audit_C37 := (@ClaimsNova.C37_additive, @ClaimsNova.C37_scales, @ClaimsNova.C37_truncates, @ClaimsNova.C37_not_binding_beyond).
Definition audit_C38 := (@ClaimsNova.C38_folding_preserves, @ClaimsNova.C38_prove, @ClaimsNova.C38_relax, @ClaimsNova.C38_dummy).
Definition audit_C39 := (@ClaimsNova.C39_verifier_agrees).
Definition audit_C40 := (@ClaimsNova.C40_special_soundness, @ClaimsNova.C40_challenge_ignores_second, @ClaimsNova.C40_forging, @ClaimsNova.C40_fiat_shamir_refuted).
Definition audit_C41 := (@ClaimsNova.C41_relaxed_check, @ClaimsNova.C41_strict_check, @ClaimsNova.C41_any_instance_accepted, @ClaimsNova.C41_commitments_unchecked, @ClaimsNova.C41_wrong_length_panics).
Definition audit_C42 := (@ClaimsIvc.C42_steps_and_acceptance, @ClaimsIvc.C42_init_is_ahead).
Definition audit_C43 := (@ClaimsIvc.C43_verify_iff, @ClaimsIvc.C43_anything_accepted, @ClaimsIvc.C43_soundness_refuted, @ClaimsIvc.C43_public_inputs_free).
Definition audit_C44 := (@ClaimsIvc.C44_hash_agrees, @ClaimsIvc.C44_absorb_agrees, @ClaimsIvc.C44_hash_enforced, @ClaimsIvc.C44_absorb_enforced, @ClaimsIvc.C44_squeeze_low_bits, @ClaimsIvc.C44_squeeze_agrees, @ClaimsIvc.C44_squeeze_refuted).
Definition audit_C45 := (@ClaimsBigNat.C45_limbs_round_trip, @ClaimsBigNat.C45_limbs_refuse, @ClaimsBigNat.C45_limbs_value_exact, @ClaimsBigNat.C45_field_nat_round_trip, @ClaimsBigNat.C45_polynomial_product, @ClaimsBigNat.C45_grouping_value).
Definition audit_C46 := (@ClaimsBigNat.C46_mult_mod_complete, @ClaimsBigNat.C46_red_mod_complete, @ClaimsBigNat.C46_add_sum, @ClaimsBigNat.C46_number_of_field, @ClaimsBigNat.C46_number_witness, @ClaimsBigNat.C46_select_number, @ClaimsBigNat.C46_red_mod_any_result_refuted, @ClaimsBigNat.C46_mult_mod_any_result_refuted, @ClaimsExtra.C46_enforce_eq_complete, @ClaimsExtra.C46_enforce_eq_sound, @ClaimsExtra.C46_enforce_eq_lengths).
Definition audit_C47 := (@ClaimsNova.C47_reduces, @ClaimsNova.C47_same, @ClaimsNova.C47_injective_below, @ClaimsNova.C47_injective_iff, @ClaimsNova.C47_round_trip, @ClaimsNova.C47_fr_to_fq, @ClaimsNova.C47_fq_to_fr).
Definition audit_C48 := (@ClaimsPallet.C48_failing_calls_change_nothing, @ClaimsPallet.C48_nova_verify, @ClaimsPallet.C48_accepted_iff, @ClaimsPallet.C48_first_value_changes, @ClaimsPallet.C48_second_value_changes, @ClaimsPallet.C48_history, @ClaimsPallet.C48_replay, @ClaimsPallet.C48_any_signer_sets_any_value, @ClaimsPallet.C48_honest_proof_sets).
Definition audit_C49 := (@ClaimsPallet.C49_values_fit, @ClaimsPallet.C49_get_sum, @ClaimsPallet.C49_sum_refuted).
Definition audit_C50 := (@ClaimsCodec.C50_field_codec, @ClaimsCodec.C50_extension_codecs, @ClaimsCodec.C50_point_codecs, @ClaimsCodec.C50_system_codecs, @ClaimsCodec.C50_proof_codec, @ClaimsCodec.C50_params_codec, @ClaimsCodec.C50_unambiguous, @ClaimsCodec.C50_field_bytes, @ClaimsCodec.C50_canonical_refuted, @ClaimsCodec.C50_decoded_zero_divisor).
Definition audit_C51 := (@ClaimsFf.C51_to_repr, @ClaimsFf.C51_from_repr, @ClaimsFf.C51_round_trip, @ClaimsFf.C51_from_repr_canonical, @ClaimsFf.C51_from_repr_rejects_refuted, @ClaimsFf.C51_is_odd, @ClaimsFf.C51_to_le_bits, @ClaimsFf.C51_char_le_bits, @ClaimsFf.C51_select_and_eq, @ClaimsFf.C51_invert, @ClaimsFf.C51_invert_when_exact, @ClaimsFf.C51_invert_zero_refuted, @ClaimsFf.C51_fr_constants, @ClaimsFf.C51_fq_constants, @ClaimsFf.C51_fq_constants_refuted).
Definition audit_C52 := (@ClaimsPairing.C52_prepared_pairs_never_panic, @ClaimsPairing.C52_pairs_multiply, @ClaimsPairing.C52_identity_pairs_are_skipped, @ClaimsPairing.C52_other_lengths_panic).
Definition audit_C53 := (@ClaimsPairing.C53_pairing_is_optimal_ate, @ClaimsPairing.C53_code_digits, @ClaimsPairing.C53_twisting_constant, @ClaimsPairing.C53_identity_pairs_to_one).
Definition audit_C54 := (@ClaimsPairing.C54_final_exp, @ClaimsPairing.C54_final_exp_zero_panics, @ClaimsPairing.C54_order, @ClaimsPairing.C54_multiplicative, @ClaimsPairing.C54_cyclotomic_square).
Definition audit_C55 := (@ClaimsPairing.C55_sqrt_sound, @ClaimsPairing.C55_sqrt_complete).
Definition audit_C56 := (@ClaimsPairing.C56_group_on_outputs, @ClaimsGt.C56_group, @ClaimsGt.C56_operators, @ClaimsGt.C56_outputs, @ClaimsGt.C56_pairing_outputs, @ClaimsGt.C56_generator, @ClaimsGt.C56_generator_is_pairing, @ClaimsGt.C56_generator_order, @ClaimsGt.C56_generates, @ClaimsPairing.C56_zero_refuted, @ClaimsPairing.C56_neg_refuted).
Definition audit_C57 := (@ClaimsCurve.C57_mul_by_x, @ClaimsCurve.C57_mul_by_x_right_iff).
Definition audit_C58 := (@ClaimsR1cs.C58_same_kind, @ClaimsR1cs.C58_order_refuted).
Definition audit_C59 := (@ClaimsGroth16.C59_algebraic_soundness, @ClaimsGroth16.C59_honest_is_algebraic).
Definition audit_C60 := (@ClaimsOrder.C60_g1_cyclic, @ClaimsOrder.C60_grumpkin_cyclic, @ClaimsOrder.C60_g1_order, @ClaimsOrder.C60_grumpkin_order, @ClaimsOrder.C60_g1_scalars, @ClaimsOrder.C60_grumpkin_scalars).
Definition audit_C61 := (@ClaimsLimb6.C61_representation, @ClaimsLimb6.C61_ring_ops, @ClaimsLimb6.C61_zero, @ClaimsLimb6.C61_square_iff, @ClaimsLimb6.C61_square_when_exact, @ClaimsLimb6.C61_square_refuted, @ClaimsLimb6.C61_conversions, @ClaimsLimb6.C61_pow_when_exact, @ClaimsLimb6.C61_invert_when_exact, @ClaimsLimb6.C61_invert_none, @ClaimsLimb6.C61_little_fermat, @ClaimsLimb6.C61_bits, @ClaimsLimb6.C61_nafs).
Definition audit_C62 := (@ClaimsBilinear.C62_defined, @ClaimsBilinear.C62_left, @ClaimsBilinear.C62_right, @ClaimsBilinear.C62_scalars, @ClaimsBilinear.C62_g2_generator_order, @ClaimsBilinear.C62_generators, @ClaimsBilinear.C62_nondegenerate).
Definition audit_C63 := (@ClaimsGroth16Bn.C63_library_groups, @ClaimsGroth16Bn.C63_groups, @ClaimsGroth16Bn.C63_completeness, @ClaimsGroth16Bn.C63_soundness, @ClaimsGroth16Bn.C63_zero_knowledge, @ClaimsGroth16Bn.C63_verify_iff).
Definition audit_C64 := (@ClaimsTorsion.C64_literals, @ClaimsTorsion.C64_endomorphism_refuted, @ClaimsTorsion.C64_g1_check, @ClaimsTorsion.C64_g1_refuted, @ClaimsTorsion.C64_psi_refuted, @ClaimsTorsion.C64_g2_check, @ClaimsTorsion.C64_g2_refuted).
Definition audit_C65 := (@ClaimsWeierSq.C65_curves, @ClaimsWeierSq.C65_addition_and_doubling_when_exact, @ClaimsWeierSq.C65_is_on_curve_when_exact, @ClaimsWeierSq.C65_scalar_multiplication_when_exact, @ClaimsWeierSq.C65_g1_on_curve_iff, @ClaimsWeierSq.C65_grumpkin_on_curve_iff, @ClaimsWeierSq.C65_g1_double_iff, @ClaimsWeierSq.C65_grumpkin_double_iff, @ClaimsWeierSq.C65_g1_on_curve_refuted, @ClaimsWeierSq.C65_g2_on_curve_refuted, @ClaimsWeierSq.C65_grumpkin_on_curve_refuted, @ClaimsWeierSq.C65_g1_doubling_refuted).
Definition audit_C66 := (@ClaimsRecode.C66_reduce, @ClaimsRecode.C66_divn, @ClaimsRecode.C66_low_bits, @ClaimsRecode.C66_signed_residue, @ClaimsRecode.C66_signed_residue_panics, @ClaimsRecode.C66_recoding_step, @ClaimsRecode.C66_without_reduce_refuted).
Definition audit_C67 := (@ClaimsAsm.C67_pure, @ClaimsAsm.C67_linear_agree, @ClaimsAsm.C67_linear_values, @ClaimsAsm.C67_mul_when_exact, @ClaimsAsm.C67_square_when_exact, @ClaimsAsm.C67_mul_refuted, @ClaimsAsm.C67_square_refuted, @ClaimsAsm.C67_bn254_refuted).
Definition audit_C68 := (@ClaimsMacro.C68_representation, @ClaimsMacro.C68_ring_operations, @ClaimsMacro.C68_square, @ClaimsMacro.C68_conversions, @ClaimsMacro.C68_bytes, @ClaimsMacro.C68_digits, @ClaimsMacro.C68_order, @ClaimsMacro.C68_pow_when_exact, @ClaimsMacro.C68_invert_when_exact, @ClaimsMacro.C68_bls_instance, @ClaimsMacro.C68_bls_constants, @ClaimsMacro.C68_size_refuted).
Definition audit_C69 := (@ClaimsJubjub.C69_complete, @ClaimsJubjub.C69_constants, @ClaimsJubjub.C69_additions, @ClaimsJubjub.C69_double_iff, @ClaimsJubjub.C69_scalar_multiplication_when_exact, @ClaimsJubjub.C69_on_curve_iff, @ClaimsJubjub.C69_on_curve_refuted, @ClaimsJubjub.C69_doubling_refuted).
Definition audit_C70 := (@ClaimsHash.C70_fields, @ClaimsHash.C70_hash_when_exact, @ClaimsHash.C70_absorb_when_exact, @ClaimsHash.C70_circuit_agrees_when_exact, @ClaimsHash.C70_round_fr, @ClaimsHash.C70_round_fq, @ClaimsHash.C70_last_round, @ClaimsHash.C70_loss_occurs, @ClaimsHash.C70_one_round_refuted, @ClaimsHash.C70_library_constants_refuted).
Definition audit_C71 := (@ClaimsPairSq.C71_invert_is_the_code, @ClaimsPairSq.C71_prepare_when_exact, @ClaimsPairSq.C71_final_exp_when_exact, @ClaimsPairSq.C71_pairing_when_exact, @ClaimsPairSq.C71_bilinear_when_exact, @ClaimsPairSq.C71_product_when_exact, @ClaimsPairSq.C71_prepare_only_if, @ClaimsPairSq.C71_prepare_refuted).
Definition audit_C72 := (@ClaimsFftSq.C72_functions_are_the_code, @ClaimsFftSq.C72_new, @ClaimsFftSq.C72_dft, @ClaimsFftSq.C72_coset_dft, @ClaimsFftSq.C72_idft_when_exact, @ClaimsFftSq.C72_coset_idft_when_exact, @ClaimsFftSq.C72_round_trip_when_exact, @ClaimsFftSq.C72_z_when_exact, @ClaimsFftSq.C72_z_last, @ClaimsFftSq.C72_z_refuted, @ClaimsFftSq.C72_divide_when_exact).
Definition audit_C73 := (@ClaimsGroth16Pts.C73_refines, @ClaimsGroth16Pts.C73_completeness, @ClaimsGroth16Pts.C73_key_points, @ClaimsGroth16Pts.C73_zero_knowledge, @ClaimsGroth16Pts.C73_soundness, @ClaimsGroth16Pts.C73_verify_iff, @ClaimsGroth16Pts.C73_verify_total).
Definition audit_C74 := (@ClaimsGroth16Limbs.C74_plain_is_C73, @ClaimsGroth16Limbs.C74_setup_when_exact, @ClaimsGroth16Limbs.C74_prove_when_exact, @ClaimsGroth16Limbs.C74_prepare_when_exact, @ClaimsGroth16Limbs.C74_verify_when_exact, @ClaimsGroth16Limbs.C74_completeness_when_exact, @ClaimsGroth16Limbs.C74_verify_iff_when_exact, @ClaimsGroth16Limbs.C74_prepare_refuted).
Definition audit := (audit_C01, audit_C02, audit_C03, audit_C04, audit_C05, audit_C06, audit_C07, audit_C08, audit_C09, audit_C10, audit_C11, audit_C12, audit_C13, audit_C14, audit_C15, audit_C16, audit_C17, audit_C18, audit_C19, audit_C20, audit_C21, audit_C22, audit_C23, audit_C24, audit_C25, audit_C26, audit_C27, audit_C28, audit_C29, audit_C30, audit_C31, audit_C32, audit_C33, audit_C34, audit_C35, audit_C36, audit_C37, audit_C38, audit_C39, audit_C40, audit_C41, audit_C42, audit_C43, audit_C44, audit_C45, audit_C46, audit_C47, audit_C48, audit_C49, audit_C50, audit_C51, audit_C52, audit_C53, audit_C54, audit_C55, audit_C56, audit_C57, audit_C58, audit_C59, audit_C60, audit_C61, audit_C62, audit_C63, audit_C64, audit_C65, audit_C66, audit_C67, audit_C68, audit_C69, audit_C70, audit_C71, audit_C72, audit_C73, audit_C74).
Print Assumptions audit.

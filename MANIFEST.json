{
 "claims": [
  {
   "property": "C01",
   "status": "proved",
   "theorems": [
    "C01_m_v",
    "C01_q_v",
    "C01_transpose",
    "C01_m1_m2",
    "C01_m_q_mt",
    "C01_mt_q_m",
    "C01_mt_m",
    "C01_q_sq",
    "C01_q1_q2_q1",
    "C01_m1_m2_m1t",
    "C01_vt_m_v",
    "C01_vt_q_v",
    "C01_det"
   ],
   "note": ""
  },
  {
   "property": "C02",
   "status": "proved",
   "theorems": [
    "C02_inv_m",
    "C02_inv_m_singular"
   ],
   "note": ""
  },
  {
   "property": "C03",
   "status": "partial",
   "theorems": [
    "C03_m_sq_refuted",
    "C03_m_sq_partial",
    "C03_m_sq_error_partial"
   ],
   "note": "False of the code: element 31 uses m_33*m_33. Refuted with witness; the exact set of matrices for which the code is right, and the exact error, are proved."
  },
  {
   "property": "C04",
   "status": "proved",
   "theorems": [
    "C04_orthogonal",
    "C04_anticommutes",
    "C04_length",
    "C04_double_product",
    "C04_double_product_nested",
    "C04_projection_orthogonal",
    "C04_projection_idempotent",
    "C04_projection_not_longer",
    "C04_unity",
    "C04_norm"
   ],
   "note": ""
  },
  {
   "property": "C05",
   "status": "proved",
   "theorems": [
    "C05_m_q_inv_m",
    "C05_m1_m2_inv_m1",
    "C05_trace_det_q",
    "C05_trace_det_m",
    "C05_operator_q",
    "C05_operator_m"
   ],
   "note": ""
  },
  {
   "property": "C06",
   "status": "partial",
   "theorems": [
    "C06_mt_q_m_partial",
    "C06_q_sq_partial",
    "C06_vt_m_v_partial",
    "C06_vt_q_v_partial",
    "C06_q_v_partial",
    "C06_m_v_partial",
    "C06_double_product_partial",
    "C06_vv_partial",
    "C06_norm_partial",
    "C06_m_sq_partial",
    "C06_m_q_inv_m_partial",
    "C06_m_sq_refuted",
    "C06_q_v_refuted",
    "C06_unity_refuted",
    "C06_m_q_inv_m_refuted",
    "C06_det_flag_raises_refuted",
    "C06_det_hh_refuted",
    "C06_vt_q_v_flag_raises_refuted"
   ],
   "note": "Derivatives proved for calc_mt_q_m, calc_q_sq, calc_vt_m_v, calc_vt_q_v (v), calc_q_v (v), calc_m_v, double vector product (v2), calc_vv, calc_norm_v, calc_m_sq (all but element 31), calc_m_q_inv_m (q; last column only when det=1). Refuted: calc_m_sq element 31, calc_q_v (q), calc_unity_v, calc_m_q_inv_m last column, calc_det_m (raises; stack element 32), calc_vt_q_v (q; raises). Functions returning all-zero or None derivative placeholders (calc_m_q_mt, calc_m1_m2, calc_q1_q2_q1, calc_mt_m, calc_m1_m2_m1t, calc_vector_product_v1_v2) are not modelled for derivatives; complex dtype not modelled."
  },
  {
   "property": "C07",
   "status": "proved",
   "theorems": [
    "C07_m_g_is_metric",
    "C07_metrics_inverse",
    "C07_det_is_volume_squared",
    "C07_volume_positive",
    "C07_volumes_reciprocal",
    "C07_reciprocal_cell_metric",
    "C07_reciprocal_cell_nondegenerate",
    "C07_reciprocal_cell_volume",
    "C07_reciprocal_involution"
   ],
   "note": ""
  },
  {
   "property": "C08",
   "status": "proved",
   "theorems": [
    "C08_MtM_is_metric",
    "C08_BtB_is_reciprocal_metric",
    "C08_M_inverse",
    "C08_B_inverse",
    "C08_M_norm_inverse",
    "C08_B_norm_inverse",
    "C08_M_norm_metric",
    "C08_B_norm_metric",
    "C08_M_B_dual",
    "C08_det_M_volume",
    "C08_det_B_volume",
    "C08_inv_M_B_norm_product",
    "C08_inv_B_norm_M_product"
   ],
   "note": ""
  },
  {
   "property": "C09",
   "status": "proved",
   "theorems": [
    "C09_inv_d_squared",
    "C09_q_length",
    "C09_sthovl",
    "C09_unit_vector",
    "C09_unit_vector_000",
    "C09_inv_d_positive"
   ],
   "note": ""
  },
  {
   "property": "C10",
   "status": "proved",
   "theorems": [
    "C10_roundtrips",
    "C10_direct_form",
    "C10_reciprocal_form",
    "C10_direct_norm_form",
    "C10_reciprocal_norm_form"
   ],
   "note": ""
  },
  {
   "property": "C11",
   "status": "partial",
   "theorems": [
    "C11_phi_sq",
    "C11_phi",
    "C11_m_g",
    "C11_m_reciprocal_g_norm",
    "C11_volume_lengths_partial",
    "C11_m_g_norm_angles_partial",
    "C11_m_b_partial",
    "C11_m_m_norm_partial",
    "C11_q_ccs_partial",
    "C11_eq_ccs_partial",
    "C11_inv_d_orthogonal_partial",
    "C11_volume_alpha_refuted",
    "C11_m_b_12_beta_refuted",
    "C11_m_b_22_alpha_refuted",
    "C11_m_m_norm_11_beta_refuted",
    "C11_reciprocal_a_refuted",
    "C11_m_g_norm_refuted",
    "C11_m_reciprocal_g_refuted",
    "C11_m_m_refuted",
    "C11_inv_d_beta_refuted",
    "C11_m_inv_b_norm_raises_refuted"
   ],
   "note": "Proved: phi_sq, phi, m_g, m_reciprocal_g_norm (all parameters); partially: volume (a,b,c), m_g_norm (angles), m_b (all entries except 12/beta and 22/alpha), m_m_norm (all but element 11/angles), q_ccs and eq_ccs (parameters other than alpha, beta), 1/d (orthogonal cells). Refuted: volume/alpha, m_b 12/beta and 22/alpha, m_m_norm 11/beta, reciprocal a*, m_g_norm lengths, m_reciprocal_g, m_m (zero placeholder), 1/d beta, m_inv_b_norm (KeyError)."
  },
  {
   "property": "C12",
   "status": "proved",
   "theorems": [
    "C12_sum_value",
    "C12_sum_reduced"
   ],
   "note": ""
  },
  {
   "property": "C13",
   "status": "partial",
   "theorems": [
    "C13_sum_exact_partial",
    "C13_sum_prime_power_partial",
    "C13_sum_refuted"
   ],
   "note": "Exact when the gcds of the components form a divisibility chain, in particular when both denominators are powers of one prime; false otherwise (refuted with a witness)."
  },
  {
   "property": "C14",
   "status": "proved",
   "theorems": [
    "C14_position_fixed",
    "C14_family_fixed"
   ],
   "note": ""
  },
  {
   "property": "C15",
   "status": "proved",
   "theorems": [
    "C15_multiplicity_is_orbit_size",
    "C15_multiplicity_family"
   ],
   "note": ""
  },
  {
   "property": "C16",
   "status": "proved",
   "theorems": [
    "C16_asymmetric_unit"
   ],
   "note": ""
  },
  {
   "property": "C17",
   "status": "proved",
   "theorems": [
    "C17_image_in_range",
    "C17_image_exact",
    "C17_injective"
   ],
   "note": ""
  },
  {
   "property": "C18",
   "status": "proved",
   "theorems": [
    "C18_length",
    "C18_exactly_the_products"
   ],
   "note": ""
  },
  {
   "property": "C19",
   "status": "partial",
   "theorems": [
    "C19_all_pairs",
    "C19_composition_partial",
    "C19_pure_translation_centring_partial",
    "C19_composition_refuted"
   ],
   "note": "Proved when the rotations commute and the translation sum is exact (C13), in particular for pure-translation centrings with prime-power denominators; refuted in general."
  },
  {
   "property": "C20",
   "status": "proved",
   "theorems": [
    "C20_rows",
    "C20_members",
    "C20_same_d"
   ],
   "note": ""
  },
  {
   "property": "C21",
   "status": "proved",
   "theorems": [
    "C21_row_round_trip",
    "C21_operation_round_trip",
    "C21_any_order"
   ],
   "note": ""
  },
  {
   "property": "C22",
   "status": "partial",
   "theorems": [
    "C22_site_elements",
    "C22_result_fixed",
    "C22_atom_kept",
    "C22_family_kept_partial",
    "C22_family_kept_refuted"
   ],
   "note": "The result is fixed by the site group and the atom is kept. Other fixed positions are kept while they and the atom are in [0,1)^3; otherwise they can be moved (refuted)."
  },
  {
   "property": "C23",
   "status": "proved",
   "theorems": [
    "C23_result_invariant",
    "C23_invariant_kept",
    "C23_idempotent"
   ],
   "note": ""
  },
  {
   "property": "C24",
   "status": "proved",
   "theorems": [
    "C24_full_result_invariant",
    "C24_full_invariant_kept",
    "C24_result_invariant",
    "C24_invariant_kept"
   ],
   "note": ""
  },
  {
   "property": "C25",
   "status": "proved",
   "theorems": [
    "C25_result_invariant",
    "C25_invariant_kept",
    "C25_flags",
    "C25_determined"
   ],
   "note": ""
  },
  {
   "property": "C26",
   "status": "partial",
   "theorems": [
    "C26_cell_obeys_partial",
    "C26_cell_kept_partial",
    "C26_flags",
    "C26_determined",
    "C26_refinement_matrix_agrees",
    "C26_monoclinic_c_kept_refuted",
    "C26_monoclinic_c_obeys_refuted",
    "C26_hexagonal_refuted"
   ],
   "note": "Proved except for monoclinic unique axis a or c and primitive hexagonal lattices with a code other than h, where it is refuted."
  },
  {
   "property": "C27",
   "status": "partial",
   "theorems": [
    "C27_limits",
    "C27_enumerated",
    "C27_stored",
    "C27_frame",
    "C27_clears_internal",
    "C27_internal_current",
    "C27_internal_current_refuted",
    "C27_limits_refuted"
   ],
   "note": "Proved for arbitrary item classes and histories; refuted for assignments of None (internal attributes stay) and for nan (passes the limits)."
  },
  {
   "property": "C28",
   "status": "partial",
   "theorems": [
    "C28_angles",
    "C28_lengths_refuted",
    "C28_any_length_refuted"
   ],
   "note": "Angles proved; the lengths are not limited because the limit keys are misspelt (refuted)."
  },
  {
   "property": "C29",
   "status": "partial",
   "theorems": [
    "C29_listed",
    "C29_get",
    "C29_write_read",
    "C29_writes",
    "C29_upper_case_refuted"
   ],
   "note": "Proved for lower-case names of containers, blocks and loops; with an upper-case letter every write is lost (refuted for all such names)."
  },
  {
   "property": "C30",
   "status": "partial",
   "theorems": [
    "C30_one_per_name",
    "C30_added_found",
    "C30_add_frame",
    "C30_assigned_found",
    "C30_assign_total",
    "C30_duplicate_refuted",
    "C30_rejected_refuted",
    "C30_assign_other_name_refuted"
   ],
   "note": "One item per name and lookup proved; refuted: the first of two equal names in one call wins, a rejected item removes its namesake, assignment under another name."
  },
  {
   "property": "C31",
   "status": "partial",
   "theorems": [
    "C31_small_error",
    "C31_large_error_partial",
    "C31_two_digits_refuted",
    "C31_unit_error_refuted",
    "C31_zero_error",
    "C31_no_error_partial",
    "C31_mark_refuted",
    "C31_float_refuted"
   ],
   "note": "Errors below 1 proved to two digits; errors above one are rounded to integers; refuted: error 1, marks without error, and binary64 rounding of the value (Flocq model of the float operations used)."
  },
  {
   "property": "C32",
   "status": "partial",
   "theorems": [
    "C32_reflections_independent",
    "C32_phase_relation",
    "C32_equal_modulus",
    "C32_systematic_absences",
    "C32_anisotropic_refuted"
   ],
   "note": "Isotropic displacement as stated; with anisotropic tensors it is false (refuted)."
  },
  {
   "property": "C33",
   "status": "partial",
   "theorems": [
    "C33_reduced_equals_full",
    "C33_textbook",
    "C33_rounding_harmless",
    "C33_thirds",
    "C33_thirds_refuted",
    "C33_anisotropic_refuted"
   ],
   "note": "Isotropic displacement as stated; with anisotropic tensors it is false (refuted)."
  },
  {
   "property": "C34",
   "status": "proved",
   "theorems": [
    "C34_real_origin",
    "C34_real_up_to_phase",
    "C34_centring_absences",
    "C34_friedel"
   ],
   "note": ""
  },
  {
   "property": "C35",
   "status": "partial",
   "theorems": [
    "C35_factor_of_rotated_atom",
    "C35_factor_range",
    "C35_derivatives",
    "C35_identity_operation_partial",
    "C35_rotated_factor_refuted",
    "C35_isotropic"
   ],
   "note": "calc_dwf itself is right; the structure factor hands it the wrong rows: exponent evaluated at (k,k,l) for the identity (proved), wrong in general (refuted)."
  },
  {
   "property": "C36",
   "status": "partial",
   "theorems": [
    "C36_cached_equals_fresh_partial",
    "C36_occupancy_refuted",
    "C36_cell_refuted",
    "C36_multiplicity_refuted",
    "C36_other_reflections_refuted",
    "C36_symmetry_refuted"
   ],
   "note": "Proved under safe_history (announced changes, no change of occupancy, cell, multiplicity, reflections or symmetry); each of the excluded changes is refuted."
  },
  {
   "property": "C37",
   "status": "partial",
   "theorems": [
    "C37_in_range_and_present",
    "C37_sorted",
    "C37_complete",
    "C37_one_per_class_partial",
    "C37_multiplicity_is_class_size_partial",
    "C37_one_per_class_refuted"
   ],
   "note": "Range, presence, order, completeness for all inputs; one per class and multiplicity while |k|,|l| < 500, false beyond (refuted)."
  },
  {
   "property": "C38",
   "status": "partial",
   "theorems": [
    "C38_intensities_nonnegative",
    "C38_with_extinction_partial",
    "C38_with_extinction_refuted"
   ],
   "note": "As stated (no extinction); with extinction only without chiral scattering, refuted otherwise."
  },
  {
   "property": "C39",
   "status": "proved",
   "theorems": [
    "C39_perfect_flipper",
    "C39_unpolarised",
    "C39_nonmagnetic",
    "C39_axis_reversal",
    "C39_origin_choice",
    "C39_equal_intensities",
    "C39_asymmetry_of_ratio"
   ],
   "note": ""
  },
  {
   "property": "C40",
   "status": "proved",
   "theorems": [
    "C40_iint",
    "C40_requested_entries_present",
    "C40_intensities_by_structure_factors",
    "C40_flip_ratio_by_structure_factors",
    "C40_flip_ratio_by_iint",
    "C40_flip_ratio_by_iint_pure",
    "C40_asymmetry_by_iint",
    "C40_asymmetry_by_iint_pure"
   ],
   "note": ""
  },
  {
   "property": "C41",
   "status": "partial",
   "theorems": [
    "C41_2d_para",
    "C41_2d_ordered",
    "C41_2d_mix_plus",
    "C41_2d_mix_minus_partial",
    "C41_2d_mix_minus_refuted",
    "C41_1d_para",
    "C41_1d_ordered",
    "C41_1d_mix_partial",
    "C41_1d_mix_minus_refuted",
    "C41_unsymmetric_tensor_refuted"
   ],
   "note": "Proved against the Riemann integral; the minus channels of the mixed formulas are off by an explicit term (refuted), p_1 needs |sigma_12| = |sigma_21| (refuted otherwise)."
  },
  {
   "property": "C42",
   "status": "partial",
   "theorems": [
    "C42_para",
    "C42_ordered",
    "C42_mix_partial"
   ],
   "note": "para and ordered; mixed: plus channels; the minus channels differ by the errors of C41."
  },
  {
   "property": "C43",
   "status": "partial",
   "theorems": [
    "C43_para_terms",
    "C43_ordered_terms",
    "C43_mix_terms_partial",
    "C43_m_sq_mix_refuted",
    "C43_chiral_sin_sq_mix_refuted",
    "C43_chiral_cos_sq_mix_refuted",
    "C43_iint_1d_para",
    "C43_iint_2d_para",
    "C43_iint_1d_ordered",
    "C43_iint_2d_ordered_partial",
    "C43_iint_2d_ordered_f_nucl_refuted",
    "C43_iint_2d_ordered_flipper_refuted",
    "C43_iint_1d_mix_partial",
    "C43_iint_1d_mix_raises_refuted",
    "C43_requested_para_terms",
    "C43_requested_other_terms",
    "C43_requested_1d_para",
    "C43_iint_1d_mix_missing_refuted"
   ],
   "note": "All entries of para and ordered terms and of the intensities built from them; mixed terms except three entries that are refuted; missing keys and raising branches are stated as such."
  },
  {
   "property": "C44",
   "status": "partial",
   "theorems": [
    "C44_gauss_shape",
    "C44_lorentz_shape",
    "C44_lorentz_normalised",
    "C44_width_bounds",
    "C44_eta_range",
    "C44_gauss_width_positive",
    "C44_profile_positive",
    "C44_profile_symmetric_refuted"
   ],
   "note": "Pseudo-Voigt positive, widths, eta, Lorentzian area; exact symmetry about the reflection is false since the widths are those of the measured angle (refuted)."
  },
  {
   "property": "C45",
   "status": "partial",
   "theorems": [
    "C45_asymmetry",
    "C45_asymmetry_parameters",
    "C45_lorentz_factor_partial",
    "C45_lorentz_factor_refuted",
    "C45_gauss_width",
    "C45_gauss_position_refuted",
    "C45_gauss_position_partial",
    "C45_lorentz_position",
    "C45_lorentz_width_refuted",
    "C45_h_g_partial",
    "C45_h_g_clamp_refuted",
    "C45_h_l",
    "C45_h_pv_refuted",
    "C45_h_pv_partial",
    "C45_eta",
    "C45_coeff_phi"
   ],
   "note": "Each entry proved, or proved under the guard that makes it right, or refuted."
  },
  {
   "property": "C46",
   "status": "proved",
   "theorems": [
    "C46_same_direction",
    "C46_same_direction_back",
    "C46_round_trip",
    "C46_round_trip_back"
   ],
   "note": ""
  },
  {
   "property": "C47",
   "status": "partial",
   "theorems": [
    "C47_lorentz_range",
    "C47_primary_range_partial",
    "C47_primary_range_refuted",
    "C47_gauss_range_partial",
    "C47_gauss_range_low_angle_partial",
    "C47_gauss_monotone_refuted",
    "C47_sphere_range_partial",
    "C47_no_crystal",
    "C47_decreasing_partial",
    "C47_order_kept_primary"
   ],
   "note": "Lorentz always; primary for cos(2theta) >= -0.67 (NaN otherwise: refuted); Gauss for cos(2theta) <= 0.8, in general either in range or 1+Bx<=0, where the NaN is replaced by 1 and monotonicity is lost (refuted)."
  },
  {
   "property": "C48",
   "status": "partial",
   "theorems": [
    "C48_primary",
    "C48_sphere_f_sq",
    "C48_usable_in_intensities",
    "C48_gauss_radius_refuted",
    "C48_gauss_mosaicity_refuted",
    "C48_gauss_volume_refuted",
    "C48_lorentz_mosaicity_refuted"
   ],
   "note": "Primary and F^2 derivatives proved; radius, mosaicity and volume derivatives of the secondary corrections are wrong for every crystal (refuted)."
  },
  {
   "property": "C49",
   "status": "proved",
   "theorems": [
    "C49_u_beta_u",
    "C49_parameters_roundtrip",
    "C49_b_beta_roundtrip",
    "C49_beta_definition",
    "C49_isotropic_consistent",
    "C49_conversion_derivatives"
   ],
   "note": ""
  },
  {
   "property": "C50",
   "status": "proved",
   "theorems": [
    "C50_no_texture",
    "C50_positive",
    "C50_mixture",
    "C50_derivatives",
    "C50_derivatives_2d",
    "C50_2d_contains_1d",
    "C50_normalised"
   ],
   "note": ""
  },
  {
   "property": "C51",
   "status": "partial",
   "theorems": [
    "C51_hamilton_step",
    "C51_iteration_keeps_constraints",
    "C51_step_optimal_refuted"
   ],
   "note": "The constraints hold exactly after the step, for any number of parameters; optimality of the step is refuted (H used for its inverse)."
  },
  {
   "property": "C52",
   "status": "partial",
   "theorems": [
    "C52_not_worse",
    "C52_store_consistent",
    "C52_strict_progress",
    "C52_fixed_parameters",
    "C52_constraints_kept",
    "C52_returned_data_of_rejected_point",
    "C52_returned_data_refuted"
   ],
   "note": "Proved for any chi-square function and any number of iterations; the data left in the dictionary can be those of a rejected point (refuted)."
  },
  {
   "property": "C53",
   "status": "partial",
   "theorems": [
    "C53_marked_parameters_tied",
    "C53_equal_moduli_partial",
    "C53_residual_partial",
    "C53_general_refuted",
    "C53_evaluation_succeeds"
   ],
   "note": "Parameters tied by marks and constraints with equal moduli; the exact residual otherwise, nonzero in general (refuted)."
  },
  {
   "property": "C54",
   "status": "partial",
   "theorems": [
    "C54_diffrn_excluded",
    "C54_diffrn_value",
    "C54_diffrn_gradient",
    "C54_diffrn_hessian",
    "C54_diffrn_derivatives_with_exclusion_refuted",
    "C54_pd_sum_excluded",
    "C54_pd_sum_value",
    "C54_pd_zero_sigma_refuted",
    "C54_pd_difference_value",
    "C54_pd_difference_refuted",
    "C54_pd2d_sum_excluded",
    "C54_pd2d_sum_value",
    "C54_pd2d_difference_refuted"
   ],
   "note": "diffrn and the sum term of pd and pd2d; refuted: derivatives raise when a reflection is excluded, excluded points without error bar, and the difference term."
  },
  {
   "property": "C55",
   "status": "partial",
   "theorems": [
    "C55_piecewise_linear",
    "C55_value_unique",
    "C55_table_points",
    "C55_linear_in_intensities",
    "C55_derivative_refuted",
    "C55_bilinear_2d",
    "C55_derivative_2d_refuted",
    "C55_cosines",
    "C55_cosines_derivative"
   ],
   "note": "Values in 1D, 2D and cosines; the derivative by the intensities is an array of zeros (refuted), except for cosines."
  },
  {
   "property": "C56",
   "status": "proved",
   "theorems": [
    "C56_assembly"
   ],
   "note": ""
  },
  {
   "property": "C57",
   "status": "proved",
   "theorems": [
    "C57_col_normalised",
    "C57_col_idempotent",
    "C57_col_nonnegative",
    "C57_col_uniform",
    "C57_chi_normalised",
    "C57_chi_idempotent",
    "C57_chi_nonnegative",
    "C57_chi_uniform"
   ],
   "note": ""
  },
  {
   "property": "C58",
   "status": "partial",
   "theorems": [
    "C58_distance_attained",
    "C58_minimal_orthogonal",
    "C58_minimal_half_cell",
    "C58_pair_consistent_one_atom",
    "C58_pair_consistent_one_operation",
    "C58_pair_on_ties_refuted",
    "C58_oblique_cell_refuted",
    "C58_basins"
   ],
   "note": "The distance is attained and minimal for orthogonal cells or within half a cell; pairs proved for one atom or one operation; ties and oblique cells refuted."
  },
  {
   "property": "C59",
   "status": "partial",
   "theorems": [
    "C59_hm_short",
    "C59_schoenflies",
    "C59_hall",
    "C59_hm_full",
    "C59_hm_full_missing",
    "C59_hm_extended",
    "C59_hm_extended_refuted",
    "C59_crystal_system",
    "C59_default_setting_partial",
    "C59_built_by_name",
    "C59_built_by_extended_name",
    "C59_built_by_number_and_code",
    "C59_other_code_ignored",
    "C59_point_group_partial",
    "C59_point_group_refuted"
   ],
   "note": "Tables and lookups decided over all rows; refuted: one extended symbol, point group of 183-186; the default setting is offered exactly for groups that are not primitive trigonal."
  },
  {
   "property": "C60",
   "status": "partial",
   "theorems": [
    "C60_sigma_squared",
    "C60_unit_diagonal",
    "C60_symmetric",
    "C60_matrix_recovered",
    "C60_bounded",
    "C60_negative_diagonal",
    "C60_labels_sorted_and_kept",
    "C60_matrix_from_correlation",
    "C60_text_variance",
    "C60_text_sigma_refuted",
    "C60_estimate_symmetric",
    "C60_estimate_quadratic",
    "C60_gradient_refuted"
   ],
   "note": "Matrix clauses proved for any size; sigma after reading the text and the first derivatives of the numerical estimate are refuted."
  },
  {
   "property": "C61",
   "status": "partial",
   "theorems": [
    "C61_at_zero",
    "C61_j0_derivatives",
    "C61_lande_derivative",
    "C61_spin_only_derivatives_partial",
    "C61_derivative_error_partial",
    "C61_j2_derivative_refuted"
   ],
   "note": "Values and j0, Lande derivatives; j2 chain rule lacks 2 s / kappa (exact error proved, refuted)."
  },
  {
   "property": "C62",
   "status": "proved",
   "theorems": [
    "C62_rotation_to_scattering_vector",
    "C62_zero_reflection_quits"
   ],
   "note": ""
  },
  {
   "property": "C63",
   "status": "partial",
   "theorems": [
    "C63_flags_kept_refuted",
    "C63_general_position_partial"
   ],
   "note": "False (refuted on a mirror); true for atoms on general positions."
  },
  {
   "property": "C64",
   "status": "partial",
   "theorems": [
    "C64_case_number_partial",
    "C64_case7_refuted"
   ],
   "note": "Case numbers proved for the site symmetries the code recognises; case 7 is never found (refuted)."
  },
  {
   "property": "C65",
   "status": "partial",
   "theorems": [
    "C65_last_point_remains",
    "C65_best_point_refuted"
   ],
   "note": "What is left is the last point evaluated (proved), which need not be the best (refuted)."
  },
  {
   "property": "C66",
   "status": "partial",
   "theorems": [
    "C66_increase_of_chi_square",
    "C66_one_sigma_refuted"
   ],
   "note": "The increase of chi-square for the reported error is computed exactly; it is not one (refuted)."
  },
  {
   "property": "C67",
   "status": "partial",
   "theorems": [
    "C67_after_internal",
    "C67_flags",
    "C67_unique_axis_refuted",
    "C67_hexagonal_refuted",
    "C67_after_assignment_refuted"
   ],
   "note": "True after an internal attribute is read; false right after an assignment (refuted)."
  },
  {
   "property": "C68",
   "status": "partial",
   "theorems": [
    "C68_builds_partial",
    "C68_builds_refuted",
    "C68_group_partial",
    "C68_group_refuted",
    "C68_hall_partial",
    "C68_hall_refuted",
    "C68_dictionary"
   ],
   "note": "All offered settings decided by kernel computation. Exceptions, listed exactly: settings that raise, 48 with origin 1 (no group), 144 (operations of 145), 228 (raises)."
  },
  {
   "property": "C69",
   "status": "partial",
   "theorems": [
    "C69_settings_partial",
    "C69_settings_refuted"
   ],
   "note": "All settings but those of misplaced_centre; one of these refuted."
  },
  {
   "property": "C70",
   "status": "partial",
   "theorems": [
    "C70_orbits_partial",
    "C70_coordinate_strings_partial",
    "C70_coordinate_strings_refuted"
   ],
   "note": "All positions of all settings but those of odd_position / misprinted_position; a misprinted one refuted."
  },
  {
   "property": "C71",
   "status": "partial",
   "theorems": [
    "C71_total",
    "C71_multiplicity_partial",
    "C71_smallest_partial",
    "C71_multiplicity_refuted",
    "C71_moved_atom_refuted",
    "C71_first_call"
   ],
   "note": "Total; multiplicity at least the orbit size, not larger than that of any position the atom is on except doubled ones; refuted: an atom of P3m1 on a mirror gets 6 for 3, and the position is not looked for again after the atom is moved."
  },
  {
   "property": "C72",
   "status": "partial",
   "theorems": [
    "C72_metric_partial",
    "C72_metric_refuted"
   ],
   "note": "All settings but monoclinic ones with unique axis a or c (refuted for c)."
  },
  {
   "property": "C73",
   "status": "partial",
   "theorems": [
    "C73_flags",
    "C73_equivalent_partial",
    "C73_equivalent_refuted"
   ],
   "note": "Flags and the case where the coordinates are parameters of an expression up to order and sign; otherwise the atom can jump (refuted)."
  },
  {
   "property": "C74",
   "status": "partial",
   "theorems": [
    "C74_item_text",
    "C74_item_text_refuted"
   ],
   "note": "For values the writer can put in a form the grammar has (words, quotable texts, text blocks); refuted for labels such as \"#1\", \"\", \"_a\"."
  },
  {
   "property": "C75",
   "status": "partial",
   "theorems": [
    "C75_item_round_trip",
    "C75_string",
    "C75_none",
    "C75_number",
    "C75_fixed_format",
    "C75_refined",
    "C75_digits_partial",
    "C75_digits_refuted",
    "C75_sigma_refuted",
    "C75_lines_refuted"
   ],
   "note": "The reader pycifstar is external: its place is taken by the CIF grammar. Proved for values that survive their own text, with lemmas for texts, None, numbers, fixed formats and refined parameters; refuted: digits behind the format, errors of parameters that are not refined, texts of several lines."
  },
  {
   "property": "C76",
   "status": "partial",
   "theorems": [
    "C76_loop_text",
    "C76_loop_round_trip",
    "C76_first_item_refuted",
    "C76_other_item_refuted",
    "C76_no_item_refuted",
    "C76_lines_refuted",
    "C76_prefix_refuted"
   ],
   "note": "Proved when all items define the same attributes; refuted: attributes missing in the first or another item, empty loop, line ends, the atom_site loop after the atom_site_aniso loop."
  },
  {
   "property": "C77",
   "status": "proved",
   "theorems": [
    "C77_data_text",
    "C77_global_text"
   ],
   "note": "Composition of texts each of which is CIF."
  },
  {
   "property": "C78",
   "status": "proved",
   "theorems": [
    "C78_prefix",
    "C78_common",
    "C78_separator"
   ],
   "note": "Names that begin with an underscore, as CIF names do."
  },
  {
   "property": "C79",
   "status": "proved",
   "theorems": [
    "C79_textbook",
    "C79_reflections_independent",
    "C79_covariant",
    "C79_reduced_equals_full",
    "C79_symmetric",
    "C79_friedel",
    "C79_real_up_to_phase",
    "C79_centring_absences"
   ],
   "note": "Isotropic displacement only (with anisotropic displacement the defect of C35 applies as for C32/C33)."
  },
  {
   "property": "C80",
   "status": "partial",
   "theorems": [
    "C80_perpendicular",
    "C80_projection",
    "C80_linear_in_field",
    "C80_covariant",
    "C80_equal_modulus",
    "C80_flag_eq_ccs_refuted"
   ],
   "note": "Proved; the derivative over the scattering vector raises KeyError (refuted)."
  },
  {
   "property": "C81",
   "status": "partial",
   "theorems": [
    "C81_cached_equals_fresh_partial",
    "C81_only_orbital_refuted",
    "C81_multiplicity_refuted",
    "C81_symmetry_refuted",
    "C81_empty_dictionary_refuted"
   ],
   "note": "Proved under m_safe_history: reflections known to the dictionary, same symmetry, announced changes, no change of multiplicity, a change of flag_only_orbital accompanied by a flag; each excluded change is refuted."
  },
  {
   "property": "C82",
   "status": "partial",
   "theorems": [
    "C82_derivative_partial",
    "C82_derivative_refuted",
    "C82_centrosymmetric_partial",
    "C82_centrosymmetric_refuted"
   ],
   "note": "Noncentrosymmetric, proper rotations: reported = (1+i) times the derivative, so wrong; refuted both with and without inversion centre. With an inversion centre at the origin the derivative is the real part of what is reported (C82_centrosymmetric_partial)."
  },
  {
   "property": "C83",
   "status": "partial",
   "theorems": [
    "C83_textbook_partial",
    "C83_unequal_axes_refuted"
   ],
   "note": "Proved where operations mix only axes of equal length, isotropic displacement; refuted for a permitted cell where they mix axes of different lengths."
  },
  {
   "property": "C84",
   "status": "proved",
   "theorems": [
    "C84_textbook",
    "C84_invariant"
   ],
   "note": "Proved without stored data."
  },
  {
   "property": "C85",
   "status": "partial",
   "theorems": [
    "C85_distance_of_time_partial",
    "C85_time_of_distance",
    "C85_distance_of_time_refuted",
    "C85_later_is_longer",
    "C85_range_partial",
    "C85_min_max",
    "C85_range_refuted",
    "C85_epithermal_range_refuted"
   ],
   "note": "Thermal neutrons, dtt2 <= 0 (range: dtt2 <> 0); refuted: dtt2 > 0 gives the negative root, dtt2 = 0 gives no range, the epithermal range misses measured reflections."
  },
  {
   "property": "C86",
   "status": "partial",
   "theorems": [
    "C86_convolution",
    "C86_area",
    "C86_positive",
    "C86_zcode_same",
    "C86_zcode_area",
    "C86_zcode_normal",
    "C86_zcode_gauss_area",
    "C86_zcode_lorentz_area",
    "C86_gauss_area",
    "C86_lorentz_area",
    "C86_pseudo_voigt_area",
    "C86_width_same",
    "C86_mixing_same",
    "C86_tof_mixing_refuted"
   ],
   "note": "Gaussian parts proved for parameters that do not vary over the peak; the Lorentzian time-of-flight parts (exponential integral of a complex argument) are not modelled; refuted: eta from the standard deviation."
  },
  {
   "property": "C87",
   "status": "partial",
   "theorems": [
    "C87_roots_are_zeros",
    "C87_bisect",
    "C87_all_found_partial",
    "C87_end_refuted",
    "C87_once_refuted",
    "C87_all_found_refuted"
   ],
   "note": "Every returned value is a zero; all zeros when f is strictly monotone between grid points and f(b) <> 0; refuted: f(b) = 0 never ends, duplicates, zeros rejected as poles."
  },
  {
   "property": "C88",
   "status": "partial",
   "theorems": [
    "C88_interpolation",
    "C88_interpolation_unique",
    "C88_nodes_partial",
    "C88_nodes_refuted",
    "C88_bilinear_exact",
    "C88_bounds",
    "C88_additive",
    "C88_to_ttheta_phi",
    "C88_to_gamma_nu",
    "C88_transfers",
    "C88_unequal_steps_refuted"
   ],
   "note": "Proved for grids of equal steps; refuted: last row and column, unequal steps."
  },
  {
   "property": "C89",
   "status": "partial",
   "theorems": [
    "C89_u_is_squared_moment",
    "C89_u_is_adp_of_square",
    "C89_drawn_surface",
    "C89_u_derivative_refuted",
    "C89_axes",
    "C89_principal_partial",
    "C89_paramagnet",
    "C89_opposite_pair_refuted",
    "C89_ellipsoid_factor_partial",
    "C89_ellipsoid_factor_refuted",
    "C89_moment_sigma_refuted",
    "C89_symmetry_equivalent_tensor",
    "C89_symmetry_derivative_raises_refuted"
   ],
   "note": "numpy.linalg.eigh by its contract (is_eigh). Principal susceptibilities when the tensor has no two opposite ones; factor for tensors without negative principal values; refuted: opposite pair, factor outside [-1, 1], zero derivatives."
  },
  {
   "property": "C90",
   "status": "proved",
   "theorems": [
    "C90_isotropic",
    "C90_other_types_untouched",
    "C90_idempotent",
    "C90_invariant",
    "C90_principal_moments"
   ],
   "note": "Proved for one item."
  },
  {
   "property": "C91",
   "status": "partial",
   "theorems": [
    "C91_found",
    "C91_exact_partial",
    "C91_group_partial",
    "C91_near_mirror_refuted"
   ],
   "note": "Exact when every other image differs by at least 0.0032 in one coordinate; refuted: an atom at 0.251 next to the mirror at 1/4 gets the mirror alone."
  },
  {
   "property": "C92",
   "status": "partial",
   "theorems": [
    "C92_other_types",
    "C92_allowed_kept",
    "C92_general_position",
    "C92_solutions_kept",
    "C92_free_elements_partial",
    "C92_one_application_refuted",
    "C92_near_mirror_refuted"
   ],
   "note": "Allowed tensors kept to 10 digits, other types and general positions untouched (with tolerance and rounding of the code); the structure of free and dependent elements for exact arithmetic without tolerance; refuted: one application does not give an allowed tensor (three-fold axis), tensor lost next to a mirror."
  },
  {
   "property": "C93",
   "status": "partial",
   "theorems": [
    "C93_euler_matrix",
    "C93_euler_angles",
    "C93_around_axis",
    "C93_sense",
    "C93_one_sense_refuted",
    "C93_two_vectors",
    "C93_named_axes_refuted",
    "C93_vector_angle",
    "C93_zero_vector_refuted"
   ],
   "note": "Refuted: the sense of rotation differs between axes, the axes named by the caller are ignored, a zero vector gives not-a-number."
  },
  {
   "property": "C94",
   "status": "partial",
   "theorems": [
    "C94_product",
    "C94_rcrt",
    "C94_product_vector",
    "C94_determinant",
    "C94_inverse",
    "C94_inverse_negative",
    "C94_inverse_refuted"
   ],
   "note": "Inverse proved for determinants from 1e-12 up; every matrix of negative determinant gets the zero matrix (refuted)."
  },
  {
   "property": "C95",
   "status": "proved",
   "theorems": [
    "C95_value",
    "C95_grid_points",
    "C95_periodic",
    "C95_bounds",
    "C95_affine"
   ],
   "note": "Proved."
  },
  {
   "property": "C96",
   "status": "partial",
   "theorems": [
    "C96_cell",
    "C96_u",
    "C96_types",
    "C96_from_ccsl_refuted",
    "C96_e_up",
    "C96_e_up_zero",
    "C96_q2"
   ],
   "note": "Refuted: going back from the CCSL frame always raises AttributeError."
  },
  {
   "property": "C97",
   "status": "proved",
   "theorems": [
    "C97_angles",
    "C97_none",
    "C97_frame"
   ],
   "note": "Proved."
  },
  {
   "property": "C98",
   "status": "partial",
   "theorems": [
    "C98_agrees",
    "C98_positions",
    "C98_length",
    "C98_orthogonalised",
    "C98_reciprocal_length",
    "C98_k_loc",
    "C98_matrix_t",
    "C98_matrix_t_zero_refuted",
    "C98_hkl_in_range",
    "C98_closest_orthogonal_partial",
    "C98_closest_refuted"
   ],
   "note": "Closest distance proved for right angles, refuted for a hexagonal cell; calc_matrix_t of 000 stops the interpreter."
  },
  {
   "property": "C99",
   "status": "proved",
   "theorems": [
    "C99_members",
    "C99_multiplicity",
    "C99_same_class",
    "C99_all_groups"
   ],
   "note": "Proved."
  },
  {
   "property": "C100",
   "status": "partial",
   "theorems": [
    "C100_sound",
    "C100_complete",
    "C100_count",
    "C100_order",
    "C100_below_one_refuted"
   ],
   "note": "Count for images that differ by more than 1e-5; refuted: a coordinate above 0.999995 is listed as 1."
  },
  {
   "property": "C101",
   "status": "partial",
   "theorems": [
    "C101_in_range_and_present",
    "C101_sorted",
    "C101_complete",
    "C101_multiplicity",
    "C101_one_per_class_partial",
    "C101_one_per_class_refuted"
   ],
   "note": "One per class when k and l stay below 50; refuted otherwise."
  },
  {
   "property": "C102",
   "status": "partial",
   "theorems": [
    "C102_p1_members",
    "C102_p1_rejected",
    "C102_p1_whole",
    "C102_p1_axes_refuted",
    "C102_map_rows",
    "C102_map_invariant",
    "C102_map_total",
    "C102_map_chi",
    "C102_points_partial",
    "C102_points_refuted"
   ],
   "note": "Points of the whole cell from operations with whole translations only in transform_density_point_to_p1 (it truncates fractional ones, refuted); numbers of steps that do not fit the rotations are accepted (refuted)."
  },
  {
   "property": "C103",
   "status": "partial",
   "theorems": [
    "C103_round_trip_partial",
    "C103_recalc_whole",
    "C103_recalc_angles_refuted",
    "C103_shift_refuted",
    "C103_sign_refuted"
   ],
   "note": "Files as lists of tokens, the fixed widths not modelled. Refuted: angles are written as given and read as degrees, so recalc_den_file_to_p1 destroys them; denominators of shifts are dropped; negative densities have two conventions."
  },
  {
   "property": "C104",
   "status": "partial",
   "theorems": [
    "C104_points",
    "C104_density_channel",
    "C104_chi_channel",
    "C104_stored_density",
    "C104_stored_chi",
    "C104_other_points_refuted"
   ],
   "note": "Proved for symmetric densities, a covariant susceptibility and reflections other than 000. Refuted: with other points and the same reflections the stored multiplicities are used."
  },
  {
   "property": "C105",
   "status": "partial",
   "theorems": [
    "C105_gradient_chi",
    "C105_gradient_plus",
    "C105_gradient_minus",
    "C105_best_of_tried",
    "C105_stops",
    "C105_stays_normalised",
    "C105_asymmetry_sigma_refuted",
    "C105_descent_col",
    "C105_descent_chi"
   ],
   "note": "Proved for real arithmetic; a division by a zero sum (NaN in the code) is modelled as no result. Refuted: the uncertainty of the asymmetry is sqrt(2) sigma sqrt(R^2+1)/(R+1)^2 instead of 2 sigma/(R+1)^2."
  },
  {
   "property": "C106",
   "status": "partial",
   "theorems": [
    "C106_off_diagonal",
    "C106_error_matrix_partial",
    "C106_sigma_partial",
    "C106_error_matrix_refuted",
    "C106_negative_refuted"
   ],
   "note": "Proved for simplices along the positive axes only, and there the distance to the minimum is twice the right one. Refuted for other simplices: the function values at the vertices given are used with vertices moved to the axes (l.45); a negative variance is possible."
  },
  {
   "property": "C107",
   "status": "partial",
   "theorems": [
    "C107_charge",
    "C107_neutral",
    "C107_isotope",
    "C107_isotope_charge_refuted",
    "C107_bare_sign_refuted"
   ],
   "note": "Proved for name + number + sign, for names alone and for isotope + name. Refuted: isotope + name + number + sign (the docstring's own example \"13C2-\") never gives the element, because the position of the charge already counts the isotope digits and they are added again; a sign without a number (Na+) becomes part of the name with charge 0. ASCII text only; int() of underscores is not modelled."
  },
  {
   "property": "C108",
   "status": "partial",
   "theorems": [
    "C108_cation",
    "C108_anion",
    "C108_any_charge",
    "C108_elements_partial",
    "C108_ion_electrons",
    "C108_unknown",
    "C108_oganesson_refuted"
   ],
   "note": "Proved for every configuration text and charge, and for the elements 1-117 of the table read from database.pickle. Partial/refuted: Og (118) is written without the number of its last electrons and raises ValueError; the largest negative charge of an element is stated as existing, not computed (the room of the sub-shells named in the table). D raises KeyError."
  },
  {
   "property": "C109",
   "status": "partial",
   "theorems": [
    "C109_j0",
    "C109_density",
    "C109_normalised",
    "C109_bounded",
    "C109_jl_partial",
    "C109_jl_refuted",
    "C109_high_order"
   ],
   "note": "Partial: the integral is proved for all orders l below the sums of the quantum numbers of the pairs of terms, at all angles including 0. For l not less than these sums calc_jl returns 0 (C109_high_order), which is not the integral: refuted for <j2> of a 1s orbital. The two functions use different Bohr radii (0.529177 and 0.52918): C109_jl_partial and C109_density state each. The list of 17 numbers of calc_transs is modelled without its end (n up to 8)."
  },
  {
   "property": "C110",
   "status": "partial",
   "theorems": [
    "C110_elements_partial",
    "C110_silicon_refuted",
    "C110_ions",
    "C110_derivative",
    "C110_decreasing_partial",
    "C110_decreasing_refuted"
   ],
   "note": "Partial: proved for the elements 1-98 without silicon, whose keys are 'Siv' and 'Sival': 'Si' raises KeyError (refuted); any ion is proved right or KeyError. Monotonicity is proved for all angles except for eight ions with a term of the other sign; for K1+ it is refuted at large angles. The table is the decimals of the pickled floats."
  },
  {
   "property": "C111",
   "status": "partial",
   "theorems": [
    "C111_forward_partial",
    "C111_unknown_refuted"
   ],
   "note": "Partial: proved to 0.006 for the 98 ions of the table. Refuted for all others: the form factor is 0 at every angle, without a warning (Si, Fe5+, or U without a charge). The tables <j4>, <j6> are not modelled, they are never read."
  },
  {
   "property": "C112",
   "status": "partial",
   "theorems": [
    "C112_forward_partial",
    "C112_atoms_partial",
    "C112_molybdenum_refuted",
    "C112_proton_refuted"
   ],
   "note": "Partial: proved to a thousandth for all ions of the elements up to krypton except neon (2s normalised to 0.964); neutral K, Ca, Ga, Ge, As, Se, Kr raise a warning, their valence orbitals are not in the table. Refuted for Mo (more than 53 electrons in place of 42) and for H1+ (IndexError). The rest of the table is not modelled; outside the model 28 of its 437 orbitals were found off by more than a thousandth (Sr, Y, Zr, Nb, Mo, Ru, Rh, Pd, Cd, Tb, Yb, Ne)."
  },
  {
   "property": "C113",
   "status": "partial",
   "theorems": [
    "C113_rows",
    "C113_forward_partial",
    "C113_unknown_refuted",
    "C113_lost_refuted"
   ],
   "note": "Partial: the forward value is proved for neutral atoms up to krypton but neon, to 0.06 electrons (elements beyond krypton are not in the model's table). Refuted: a symbol that is no element (D) raises KeyError, so get_dictionary fails for the whole crystal, also for neutron data; one ion with neither orbitals nor tabulated amplitude (K1-) removes the table for all atoms. The dispersion table of the same loop is not modelled."
  },
  {
   "property": "C114",
   "status": "partial",
   "theorems": [
    "C114_background",
    "C114_fit",
    "C114_same_partial",
    "C114_time_max_refuted",
    "C114_range_refuted",
    "C114_flags",
    "C114_written_back",
    "C114_spectrum",
    "C114_spectrum_positive",
    "C114_incident_refuted"
   ],
   "note": "Partial: the two backgrounds agree when time_max is the longest measured time. Refuted: the fit ignores time_max and takes the longest measured time, so the fitted coefficients belong to another curve than the object shows, and cutting the range changes the background at the times that are kept; an experiment with a tof_intensity_incident raises NameError in get_dictionary and cannot be fitted."
  },
  {
   "property": "C115",
   "status": "partial",
   "theorems": [
    "C115_same_partial",
    "C115_half_height",
    "C115_negative_refuted"
   ],
   "note": "Partial: proved where the square of the Gaussian width is at least machine epsilon and the Lorentzian width is not negative. Refuted: where the square is negative the object gives NaN and the fit goes on with the width 1.5e-8."
  }
 ]
}
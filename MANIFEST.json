{
 "claims": [
  {
   "property": "C01",
   "status": "proved",
   "theorems": [
    "C01_components_complete",
    "C01_buffer_exactly_filled",
    "C01_harmonic_combinations_complete"
   ],
   "note": ""
  },
  {
   "property": "C02",
   "status": "proved",
   "theorems": [
    "C02_orders_coincide",
    "C02_position_of_component"
   ],
   "note": ""
  },
  {
   "property": "C03",
   "status": "proved",
   "theorems": [
    "C03_lookup_found",
    "C03_lookup_missing"
   ],
   "note": ""
  },
  {
   "property": "C04",
   "status": "proved",
   "theorems": [
    "C04_binomial_exact_or_zero",
    "C04_choose_is_factorial_quotient"
   ],
   "note": ""
  },
  {
   "property": "C05",
   "status": "proved",
   "theorems": [
    "C05_factorial",
    "C05_factorial_ratio",
    "C05_double_factorial"
   ],
   "note": ""
  },
  {
   "property": "C06",
   "status": "proved",
   "theorems": [
    "C06_new_shell_owns_copies",
    "C06_deep_copy_independent"
   ],
   "note": ""
  },
  {
   "property": "C07",
   "status": "proved",
   "theorems": [
    "C07_shrink_keeps_exactly_large",
    "C07_shrink_idempotent",
    "C07_shrink_value_error"
   ],
   "note": ""
  },
  {
   "property": "C08",
   "status": "proved",
   "theorems": [
    "C08_constructor_keeps_terms",
    "C08_shrink_keeps_terms",
    "C08_value_is_radial_sum",
    "C08_constructor_value_error",
    "C08_shrink_value_error"
   ],
   "note": ""
  },
  {
   "property": "C09",
   "status": "proved",
   "theorems": [
    "C09_client_program_safe_and_leak_free",
    "C09_client_contents",
    "C09_delete_null"
   ],
   "note": ""
  },
  {
   "property": "C10",
   "status": "partial",
   "theorems": [
    "C10_capacity_overflow",
    "C10_capacity_refuted"
   ],
   "note": "false of the code; refuted with a witness"
  },
  {
   "property": "C11",
   "status": "partial",
   "theorems": [
    "C11_reset_same_local_refuted"
   ],
   "note": "false of the code; refuted with a witness"
  },
  {
   "property": "C12",
   "status": "proved",
   "theorems": [
    "C12_complete_when_reported",
    "C12_tables_built_once",
    "C12_harmonic_tables_built_once_ever",
    "C12_no_deadlock",
    "C12_executions_bounded"
   ],
   "note": ""
  },
  {
   "property": "C13",
   "status": "proved",
   "theorems": [
    "C13_flag_follows_last_call",
    "C13_answers_right",
    "C13_constructions_counted",
    "C13_sequential_history",
    "C13_histories_complete"
   ],
   "note": ""
  },
  {
   "property": "C14",
   "status": "proved",
   "theorems": [
    "C14_parameters_sticky",
    "C14_bad_order_aborts",
    "C14_from_program_start",
    "C14_defaults_restore_the_start"
   ],
   "note": ""
  },
  {
   "property": "C15",
   "status": "partial",
   "theorems": [
    "C15_ignored",
    "C15_refuted"
   ],
   "note": "false of the code: the type-2 tables ignore the tolerance; refuted with a witness"
  },
  {
   "property": "C16",
   "status": "partial",
   "theorems": [
    "C16_safe_up_to_L9_partial",
    "C16_overrun_at_L10",
    "C16_documented_maximum_refuted"
   ],
   "note": "proved for L <= 9; refuted at the documented maximum L = 10"
  },
  {
   "property": "C17",
   "status": "proved",
   "theorems": [
    "C17_overlap_is_the_integral"
   ],
   "note": ""
  },
  {
   "property": "C18",
   "status": "proved",
   "theorems": [
    "C18_exchange_transposes",
    "C18_overlap_symmetric"
   ],
   "note": ""
  },
  {
   "property": "C19",
   "status": "proved",
   "theorems": [
    "C19_kinetic_symmetric",
    "C19_kinetic_is_the_integral"
   ],
   "note": ""
  },
  {
   "property": "C20",
   "status": "proved",
   "theorems": [
    "C20_momentum_antisymmetric",
    "C20_momentum_is_the_integral"
   ],
   "note": ""
  },
  {
   "property": "C21",
   "status": "proved",
   "theorems": [
    "C21_translation_invariance"
   ],
   "note": ""
  },
  {
   "property": "C22",
   "status": "proved",
   "theorems": [
    "C22_additive_in_bra",
    "C22_additive_in_ket",
    "C22_homogeneous_in_bra",
    "C22_homogeneous_in_ket"
   ],
   "note": ""
  },
  {
   "property": "C23",
   "status": "proved",
   "theorems": [
    "C23_self_overlap",
    "C23_s_normalised"
   ],
   "note": ""
  },
  {
   "property": "C24",
   "status": "proved",
   "theorems": [
    "C24_differentiated_shells"
   ],
   "note": ""
  },
  {
   "property": "C25",
   "status": "proved",
   "theorems": [
    "C25_overlap_gradient_is_the_derivative",
    "C25_separately_created_shells_are_separate"
   ],
   "note": ""
  },
  {
   "property": "C26",
   "status": "partial",
   "theorems": [
    "C26_s_bra_is_safe_partial",
    "C26_every_other_bra_overruns",
    "C26_overlap_gradient_memory_refuted"
   ],
   "note": "safe only for s-type bra shells; refuted for every bra shell with L > 0"
  },
  {
   "property": "C27",
   "status": "partial",
   "theorems": [
    "C27_threads_with_own_bra_shells_partial",
    "C27_executions_complete",
    "C27_shared_bra_shell_refuted"
   ],
   "note": "proved when no bra shell is shared; refuted for a shared bra shell"
  },
  {
   "property": "C28",
   "status": "proved",
   "theorems": [
    "C28_sum_of_parts",
    "C28_missing_parts",
    "C28_library_not_initialised"
   ],
   "note": "the averaged and spin-orbit integral routines enter as a record of functions; the driver is modelled on the heap"
  },
  {
   "property": "C29",
   "status": "proved",
   "theorems": [
    "C29_derivatives",
    "C29_zero",
    "C29_translation"
   ],
   "note": "the routines for averaged and spin-orbit potentials enter as functions with a stated accuracy; the local and outercore routines of the library are instantiated under C30"
  },
  {
   "property": "C30",
   "status": "proved",
   "theorems": [
    "C30_with_own_dawson",
    "C30_local",
    "C30_averaged",
    "C30_spin_orbit",
    "C30_outercore",
    "C30_local_own_routine",
    "C30_local_gaussian",
    "C30_outercore_own_routine"
   ],
   "note": "for the local and outercore terms also proved with the library routine itself"
  },
  {
   "property": "C31",
   "status": "partial",
   "theorems": [
    "C31_bounds_checked",
    "C31_refuted"
   ],
   "note": "false of the code: matrices of the lowered shell are read outside their bounds whenever a shell with L > 0 is differentiated; refuted with a witness, exact condition proved"
  },
  {
   "property": "C32",
   "status": "proved",
   "theorems": [
    "C32_real_harmonics",
    "C32_complex_harmonics"
   ],
   "note": ""
  },
  {
   "property": "C33",
   "status": "proved",
   "theorems": [
    "C33_sphere_monomials",
    "C33_value_unique"
   ],
   "note": ""
  },
  {
   "property": "C34",
   "status": "partial",
   "theorems": [
    "C34_no_abort_partial",
    "C34_abort",
    "C34_refuted"
   ],
   "note": "proved for L_A + L <= 14; refuted for every documented pair with L_A + L >= 15"
  },
  {
   "property": "C35",
   "status": "proved",
   "theorems": [
    "C35_substitution",
    "C35_quadrature",
    "C35_table"
   ],
   "note": ""
  },
  {
   "property": "C36",
   "status": "proved",
   "theorems": [
    "C36_quadrature",
    "C36_doublings"
   ],
   "note": ""
  },
  {
   "property": "C37",
   "status": "proved",
   "theorems": [
    "C37_type1_entries",
    "C37_type1_bounds",
    "C37_type2_entries",
    "C37_type2_one_center"
   ],
   "note": ""
  },
  {
   "property": "C38",
   "status": "proved",
   "theorems": [
    "C38_columns",
    "C38_lookup"
   ],
   "note": ""
  },
  {
   "property": "C39",
   "status": "proved",
   "theorems": [
    "C39_difference",
    "C39_outside"
   ],
   "note": ""
  },
  {
   "property": "C40",
   "status": "proved",
   "theorems": [
    "C40_expansion"
   ],
   "note": ""
  },
  {
   "property": "C41",
   "status": "proved",
   "theorems": [
    "C41_gaussian_terms"
   ],
   "note": ""
  },
  {
   "property": "C42",
   "status": "proved",
   "theorems": [
    "C42_sum_over_terms",
    "C42_null_potential",
    "C42_other_powers",
    "C42_other_power_first",
    "C42_library_not_initialised"
   ],
   "note": ""
  },
  {
   "property": "C43",
   "status": "proved",
   "theorems": [
    "C43_coulomb_derivatives",
    "C43_inverse_square_derivatives"
   ],
   "note": ""
  },
  {
   "property": "C44",
   "status": "proved",
   "theorems": [
    "C44_accuracy",
    "C44_values",
    "C44_abort",
    "C44_outside"
   ],
   "note": ""
  },
  {
   "property": "C45",
   "status": "proved",
   "theorems": [
    "C45_clenshaw",
    "C45_chebyshev_polynomials",
    "C45_dawson_odd",
    "C45_dawson_total"
   ],
   "note": ""
  },
  {
   "property": "C46",
   "status": "proved",
   "theorems": [
    "C46_recurrence",
    "C46_series",
    "C46_small",
    "C46_large"
   ],
   "note": ""
  },
  {
   "property": "C47",
   "status": "proved",
   "theorems": [
    "C47_conditions_determine_potential",
    "C47_charged_ball",
    "C47_gaussian",
    "C47_fermi",
    "C47_fermi_bubble",
    "C47_fermi_bubble_norm"
   ],
   "note": ""
  },
  {
   "property": "C48",
   "status": "partial",
   "theorems": [
    "C48_general_routine",
    "C48_point_charge_routine",
    "C48_convenience_routines_partial",
    "C48_last_parameter_ignored",
    "C48_convenience_routines_refuted"
   ],
   "note": "general routine and point-charge routine proved; the other convenience routines pass shifted parameters: what they compute is proved, the claim itself is refuted"
  },
  {
   "property": "C49",
   "status": "proved",
   "theorems": [
    "C49_exchange",
    "C49_selection"
   ],
   "note": ""
  },
  {
   "property": "C50",
   "status": "partial",
   "theorems": [
    "C50_radial"
   ],
   "note": "proved for powers 2L+n <= 31; for larger even powers the process is stopped by an assertion (proved)"
  },
  {
   "property": "C51",
   "status": "partial",
   "theorems": [
    "C51_limit",
    "C51_refuted"
   ],
   "note": "false of the code: safe exactly for L <= 19; refuted with a witness"
  },
  {
   "property": "C52",
   "status": "proved",
   "theorems": [
    "C52_equality_test",
    "C52_reflexive",
    "C52_symmetric",
    "C52_not_transitive",
    "C52_distance"
   ],
   "note": ""
  },
  {
   "property": "C53",
   "status": "proved",
   "theorems": [
    "C53_objects",
    "C53_one_electron",
    "C53_nuclear_attraction",
    "C53_local",
    "C53_semilocal",
    "C53_outercore_diagonal",
    "C53_outercore_pair",
    "C53_local_gradient",
    "C53_semilocal_gradient",
    "C53_spin_orbit_gradient",
    "C53_single_overlap"
   ],
   "note": ""
  },
  {
   "property": "C54",
   "status": "proved",
   "theorems": [
    "C54_tables",
    "C54_coefficients",
    "C54_evaluation",
    "C54_array_evaluation",
    "C54_orthonormal"
   ],
   "note": ""
  },
  {
   "property": "C55",
   "status": "proved",
   "theorems": [
    "C55_matrix_product",
    "C55_vector_update"
   ],
   "note": ""
  },
  {
   "property": "C56",
   "status": "partial",
   "theorems": [
    "C56_unknown_code_partial",
    "C56_unknown_code_without_significant_pair",
    "C56_unknown_code_refuted",
    "C56_library_not_initialised"
   ],
   "note": "proved when a primitive pair is not screened out; refuted otherwise (zero matrix returned)"
  },
  {
   "property": "C57",
   "status": "proved",
   "theorems": [
    "C57_ball_rms",
    "C57_gaussian_rms",
    "C57_fermi_rms",
    "C57_fermi_bubble_rms",
    "C57_estimated_parameters",
    "C57_estimate_refused"
   ],
   "note": ""
  },
  {
   "property": "C58",
   "status": "proved",
   "theorems": [
    "C58_angular_type1",
    "C58_angular_type2"
   ],
   "note": ""
  },
  {
   "property": "C59",
   "status": "proved",
   "theorems": [
    "C59_with_own_type1",
    "C59_operator",
    "C59_radial_norm"
   ],
   "note": ""
  },
  {
   "property": "C60",
   "status": "proved",
   "theorems": [
    "C60_accuracy",
    "C60_high_orders"
   ],
   "note": ""
  },
  {
   "property": "C61",
   "status": "proved",
   "theorems": [
    "C61_with_own_dawson",
    "C61_kernel_1",
    "C61_kernel_2",
    "C61_local_integrals",
    "C61_local_integrals_range"
   ],
   "note": ""
  },
  {
   "property": "C62",
   "status": "proved",
   "theorems": [
    "C62_point_charge"
   ],
   "note": ""
  },
  {
   "property": "C63",
   "status": "partial",
   "theorems": [
    "C63_coulomb_abort",
    "C63_point_charge_abort",
    "C63_L10",
    "C63_refuted"
   ],
   "note": "false of the code: aborts for L_A+L_B >= 16 and Boys arguments above 30, overruns a table at L = 10; refuted with a witness"
  },
  {
   "property": "C64",
   "status": "proved",
   "theorems": [
    "C64_semilocal",
    "C64_at_the_centre",
    "C64_bound_exists"
   ],
   "note": ""
  },
  {
   "property": "C65",
   "status": "proved",
   "theorems": [
    "C65_spin_orbit",
    "C65_at_the_centre"
   ],
   "note": ""
  },
  {
   "property": "C66",
   "status": "proved",
   "theorems": [
    "C66_angular_momentum"
   ],
   "note": ""
  },
  {
   "property": "C67",
   "status": "proved",
   "theorems": [
    "C67_radial_norm"
   ],
   "note": ""
  },
  {
   "property": "C68",
   "status": "partial",
   "theorems": [
    "C68_finite_nucleus_partial",
    "C68_bounds_exist",
    "C68_models_are_charge_like",
    "C68_integral_is_unique",
    "C68_large_momenta_abort",
    "C68_finite_nucleus_refuted"
   ],
   "note": "proved for L_A+L_B <= 14 and pairs whose direction is resolved by the code (vector zero or longer than 1e-14/2); false for L_A+L_B >= 15, where an assertion fails, refuted with a witness"
  },
  {
   "property": "C69",
   "status": "proved",
   "theorems": [
    "C69_tabulated_function",
    "C69_other_orders_abort",
    "C69_positive_arguments",
    "C69_direct_summation"
   ],
   "note": ""
  },
  {
   "property": "C70",
   "status": "proved",
   "theorems": [
    "C70_fermi_density",
    "C70_fermi_bubble_density",
    "C70_fermi_radius",
    "C70_fermi_bubble_radius",
    "C70_fermi_potential",
    "C70_fermi_bubble_potential"
   ],
   "note": ""
  },
  {
   "property": "C71",
   "status": "proved",
   "theorems": [
    "C71_attractive_and_weaker_than_a_point_charge"
   ],
   "note": ""
  },
  {
   "property": "C72",
   "status": "partial",
   "theorems": [
    "C72_documented_accuracy_refuted"
   ],
   "note": "false of the code: the error of S_7 just below 0 exceeds 2e-11 (refuted with a witness); the bound that does hold is C69"
  },
  {
   "property": "C73",
   "status": "proved",
   "theorems": [
    "C73_dawson_accuracy",
    "C73_g_functions"
   ],
   "note": ""
  },
  {
   "property": "C74",
   "status": "proved",
   "theorems": [
    "C74_table",
    "C74_routine"
   ],
   "note": ""
  },
  {
   "property": "C75",
   "status": "partial",
   "theorems": [
    "C75_digits_refuted"
   ],
   "note": "false of the code: the entry for order 2 at x = 0.28 has a relative error above 1e-12 (refuted with a witness); the absolute bound that does hold is C74"
  },
  {
   "property": "C76",
   "status": "proved",
   "theorems": [
    "C76_limit",
    "C76_rate",
    "C76_semilocal",
    "C76_semilocal_own",
    "C76_local",
    "C76_local_own"
   ],
   "note": ""
  },
  {
   "property": "C77",
   "status": "partial",
   "theorems": [
    "C77_accepted_refuted",
    "C77_table_refuted"
   ],
   "note": "false of the code: two tight s functions at one point give a value accepted after two grids and wrong by more than 1/8, for every tolerance (refuted with a witness); the convergence that does hold is C76"
  },
  {
   "property": "C78",
   "status": "proved",
   "theorems": [
    "C78_integrals",
    "C78_gradient",
    "C78_semilocal_gradient",
    "C78_spin_orbit_gradient",
    "C78_bilinear",
    "C78_errors_exist"
   ],
   "note": "own type-1, type-2, spin-orbit and outercore routines composed with the driver and the gradient; the accuracy of the radial integrals enters as eps U (C76, C77); local powers 0..2, outercore powers 2"
  },
  {
   "property": "C79",
   "status": "proved",
   "theorems": [
    "C79_double_precision"
   ],
   "note": "every floating point operation rounded; no contraction into fused multiply-add"
  },
  {
   "property": "C80",
   "status": "proved",
   "theorems": [
    "C80_overlap_double_precision",
    "C80_s_normalised_double"
   ],
   "note": "double precision model of overlap.c, norm_gaussian.c and daxpy (Flocq binary64, no fused operations); the accuracy of exp and pow of the C library is a hypothesis, met by a correctly rounding library (C80_library); overflow of an operation is a fault of the model and shown not to happen."
  },
  {
   "property": "C81",
   "status": "proved",
   "theorems": [
    "C81_positive_definite",
    "C81_cauchy_schwarz"
   ],
   "note": ""
  },
  {
   "property": "C82",
   "status": "proved",
   "theorems": [
    "C82_rigid_motion",
    "C82_momentum_is_a_vector",
    "C82_blocks"
   ],
   "note": ""
  },
  {
   "property": "C83",
   "status": "proved",
   "theorems": [
    "C83_hermitian"
   ],
   "note": "up to the errors of the two calls, as the property says; exact symmetry does not hold since a screening threshold is applied to the bra factor only"
  },
  {
   "property": "C84",
   "status": "proved",
   "theorems": [
    "C84_operator",
    "C84_blocks",
    "C84_errors_exist"
   ],
   "note": "up to the errors of the two calls, as the property says; the operator itself is covariant exactly"
  },
  {
   "property": "C85",
   "status": "partial",
   "theorems": [
    "C85_threads_partial",
    "C85_finish",
    "C85_shared_operator_refuted"
   ],
   "note": "false when two threads use one operator at different centres (refuted with a concrete schedule); proved for threads which share outercore shells at one centre only"
  },
  {
   "property": "C86",
   "status": "partial",
   "theorems": [
    "C86_outercore",
    "C86_gradient_refuted",
    "C86_scalars",
    "C86_fermi_parameters"
   ],
   "note": "the outercore integrals and the entry points for scalars agree; the outercore gradient of the module has an empty body (refuted)"
  },
  {
   "property": "C87",
   "status": "proved",
   "theorems": [
    "C87_attractive",
    "C87_symmetric",
    "C87_rigid_motion"
   ],
   "note": "up to the explicit errors of C62; expectation values and rigid motions for contractions in which no product of coefficients is skipped"
  },
  {
   "property": "C88",
   "status": "proved",
   "theorems": [
    "C88_attractive",
    "C88_symmetric",
    "C88_rigid_motion",
    "C88_order",
    "C88_point_nucleus_attracts_most"
   ],
   "note": "up to the explicit errors of C68, which are given by the accuracy of the radial integrals"
  },
  {
   "property": "C89",
   "status": "proved",
   "theorems": [
    "C89_coordinates",
    "C89_superpositions",
    "C89_overlap",
    "C89_local_potential",
    "C89_point_charge",
    "C89_two_routines",
    "C89_finite_nuclei_attract_less"
   ],
   "note": "the errors are those of C61, C62 and C68"
  },
  {
   "property": "C90",
   "status": "proved",
   "theorems": [
    "C90_combinations",
    "C90_repulsive",
    "C90_order",
    "C90_between_local_potentials",
    "C90_spin_orbit_vanishes"
   ],
   "note": "the errors are those of C78; radial accuracies are parameters as there"
  },
  {
   "property": "C91",
   "status": "proved",
   "theorems": [
    "C91_only_contained_channels_matter",
    "C91_vanishes"
   ],
   "note": "the errors are those of C78; radial accuracies are parameters as there"
  },
  {
   "property": "C92",
   "status": "proved",
   "theorems": [
    "C92_overlap_gradient_is_momentum"
   ],
   "note": "as for C25 the routine may read outside the matrix of the lowered shell; the value read there is arbitrary and does not matter"
  },
  {
   "property": "C93",
   "status": "proved",
   "theorems": [
    "C93_kinetic_double_precision",
    "C93_momentum_double_precision",
    "C93_kinetic_energy_of_s"
   ],
   "note": "for L_A + L_B <= 14 (kinetic energy) and <= 16 (momentum)"
  },
  {
   "property": "C94",
   "status": "proved",
   "theorems": [
    "C94_double_precision",
    "C94_values"
   ],
   "note": "absolute error; arguments up to 1e9"
  },
  {
   "property": "C95",
   "status": "proved",
   "theorems": [
    "C95_double_precision"
   ],
   "note": "radii 1e-10..1e4; the scale does not contain the exponentials, so the bound is absolute in the tail"
  },
  {
   "property": "C96",
   "status": "proved",
   "theorems": [
    "C96_normcoef",
    "C96_same_function",
    "C96_twice",
    "C96_working_copy",
    "C96_inputs"
   ],
   "note": "also shows that the list of primitives in the model of the type-2 radial integrals is what the heap operations leave in the working copies"
  },
  {
   "property": "C97",
   "status": "proved",
   "theorems": [
    "C97_uphill",
    "C97_estimate",
    "C97_one_centre"
   ],
   "note": "with exact Bessel functions; that the estimate does not bound the integral is C15"
  },
  {
   "property": "C98",
   "status": "proved",
   "theorems": [
    "C98_overlap",
    "C98_kinetic",
    "C98_momentum"
   ],
   "note": "same ranges of inputs as C80 and C93"
  },
  {
   "property": "C99",
   "status": "proved",
   "theorems": [
    "C99_double_precision"
   ],
   "note": "L up to 9, coefficients up to 1e6, exponents 1e-8..1e10"
  }
 ]
}
{
 "claims": [
  {
   "property": "C01",
   "status": "proved",
   "theorems": [
    "C01_projection_is_probability_vector"
   ],
   "note": ""
  },
  {
   "property": "C02",
   "status": "proved",
   "theorems": [
    "C02_projection_is_nearest"
   ],
   "note": ""
  },
  {
   "property": "C03",
   "status": "proved",
   "theorems": [
    "C03_projection_laws"
   ],
   "note": ""
  },
  {
   "property": "C04",
   "status": "proved",
   "theorems": [
    "C04_rows_columns",
    "C04_rows_columns_stochastic"
   ],
   "note": ""
  },
  {
   "property": "C05",
   "status": "proved",
   "theorems": [
    "C05_alpha_safeguards"
   ],
   "note": ""
  },
  {
   "property": "C06",
   "status": "proved",
   "theorems": [
    "C06_step_shrinks"
   ],
   "note": ""
  },
  {
   "property": "C07",
   "status": "proved",
   "theorems": [
    "C07_line_search_terminates"
   ],
   "note": ""
  },
  {
   "property": "C08",
   "status": "proved",
   "theorems": [
    "C08_line_search_exit"
   ],
   "note": ""
  },
  {
   "property": "C09",
   "status": "proved",
   "theorems": [
    "C09_furthest_sum_distinct",
    "C09_negative_start"
   ],
   "note": ""
  },
  {
   "property": "C10",
   "status": "proved",
   "theorems": [
    "C10_furthest_sum_errors",
    "C10_furthest_sum_total"
   ],
   "note": ""
  },
  {
   "property": "C11",
   "status": "proved",
   "theorems": [
    "C11_furthest_sum_greedy"
   ],
   "note": ""
  },
  {
   "property": "C12",
   "status": "proved",
   "theorems": [
    "C12_random_stochastic"
   ],
   "note": ""
  },
  {
   "property": "C13",
   "status": "proved",
   "theorems": [
    "C13_validation"
   ],
   "note": ""
  },
  {
   "property": "C14",
   "status": "proved",
   "theorems": [
    "C14_fit_weights_stochastic",
    "C14_transform_weights_stochastic"
   ],
   "note": ""
  },
  {
   "property": "C15",
   "status": "proved",
   "theorems": [
    "C15_reported_cost"
   ],
   "note": ""
  },
  {
   "property": "C16",
   "status": "proved",
   "theorems": [
    "C16_cost_decreases",
    "C16_guard"
   ],
   "note": ""
  },
  {
   "property": "C17",
   "status": "proved",
   "theorems": [
    "C17_penalty_is_spread",
    "C17_cost_nonneg"
   ],
   "note": ""
  },
  {
   "property": "C18",
   "status": "proved",
   "theorems": [
    "C18_dictionary_gradient",
    "C18_weights_gradient"
   ],
   "note": ""
  },
  {
   "property": "C19",
   "status": "proved",
   "theorems": [
    "C19_weights_direction",
    "C19_dictionary_direction"
   ],
   "note": ""
  },
  {
   "property": "C20",
   "status": "proved",
   "theorems": [
    "C20_weights_update_descends",
    "C20_dictionary_update_descends",
    "C20_fit_guard_never_fires",
    "C20_transform_guard_never_fires"
   ],
   "note": ""
  },
  {
   "property": "C21",
   "status": "proved",
   "theorems": [
    "C21_aa_iterations",
    "C21_aa_transform_iterations",
    "C21_fembv_iterations",
    "C21_fembv_transform_iterations",
    "C21_gpnh_iterations",
    "C21_gpnh_transform_iterations",
    "C21_mtd_iterations",
    "C21_mtd_transform_iterations"
   ],
   "note": ""
  },
  {
   "property": "C22",
   "status": "proved",
   "theorems": [
    "C22_aa_stopping",
    "C22_crom_stopping",
    "C22_fembv_stopping",
    "C22_gpnh_stopping",
    "C22_mtd_stopping"
   ],
   "note": ""
  },
  {
   "property": "C23",
   "status": "proved",
   "theorems": [
    "C23_transform_keeps_fit",
    "C23_dictionary_attribute",
    "C23_inverse_transform_hull",
    "C23_inverse_transform_range"
   ],
   "note": ""
  },
  {
   "property": "C24",
   "status": "proved",
   "theorems": [
    "C24_aa_custom_transform_fails",
    "C24_crom_custom_predict_fails",
    "C24_gpnh_custom_transform_fails",
    "C24_mtd_custom_transform_fails",
    "C24_mtd_custom_predict_fails"
   ],
   "note": ""
  },
  {
   "property": "C25",
   "status": "proved",
   "theorems": [
    "C25_aa_history_independent",
    "C25_aa_refit",
    "C25_crom_history_independent",
    "C25_crom_history_configuration",
    "C25_fembv_kmeans_history_independent",
    "C25_fembv_kmeans_history_configuration",
    "C25_gpnh_history_independent",
    "C25_gpnh_history_configuration",
    "C25_mtd_history_independent",
    "C25_mtd_history_configuration"
   ],
   "note": ""
  },
  {
   "property": "C26",
   "status": "proved",
   "theorems": [
    "C26_aa_validation",
    "C26_aa_resolution",
    "C26_aa_constructor",
    "C26_crom_validation",
    "C26_fembv_validation",
    "C26_fembv_resolution",
    "C26_gpnh_validation",
    "C26_gpnh_resolution",
    "C26_mtd_validation",
    "C26_mtd_resolution",
    "C26_varx_memory",
    "C26_varx_memory_raises",
    "C26_varx_negative_memory"
   ],
   "note": ""
  },
  {
   "property": "C27",
   "status": "proved",
   "theorems": [
    "C27_cost_is_reconstruction_error",
    "C27_fit_cost",
    "C27_archetypal_is_kernel"
   ],
   "note": ""
  },
  {
   "property": "C28",
   "status": "proved",
   "theorems": [
    "C28_fit_stochastic",
    "C28_transform_stochastic"
   ],
   "note": ""
  },
  {
   "property": "C29",
   "status": "proved",
   "theorems": [
    "C29_weights_gradient",
    "C29_dictionary_gradient",
    "C29_scale_gradient"
   ],
   "note": ""
  },
  {
   "property": "C30",
   "status": "proved",
   "theorems": [
    "C30_delta_has_no_effect",
    "C30_scale_factors_one"
   ],
   "note": ""
  },
  {
   "property": "C31",
   "status": "proved",
   "theorems": [
    "C31_cached_cost_is_cost",
    "C31_reported_cost"
   ],
   "note": ""
  },
  {
   "property": "C32",
   "status": "proved",
   "theorems": [
    "C32_furthest_sum_dictionary",
    "C32_gpnh_furthest_sum_dictionary",
    "C32_dissimilarities_are_distances"
   ],
   "note": ""
  },
  {
   "property": "C33",
   "status": "proved",
   "theorems": [
    "C33_fit_stochastic"
   ],
   "note": ""
  },
  {
   "property": "C34",
   "status": "proved",
   "theorems": [
    "C34_predicted_weights",
    "C34_predicted_stochastic"
   ],
   "note": ""
  },
  {
   "property": "C35",
   "status": "proved",
   "theorems": [
    "C35_dictionary_gradient",
    "C35_weights_gradient",
    "C35_parameters_gradient"
   ],
   "note": ""
  },
  {
   "property": "C36",
   "status": "proved",
   "theorems": [
    "C36_cost_of_current_parameters",
    "C36_reported_cost",
    "C36_cost_decreases",
    "C36_guard"
   ],
   "note": ""
  },
  {
   "property": "C37",
   "status": "proved",
   "theorems": [
    "C37_crom_nan_rows",
    "C37_crom_forecast",
    "C37_crom_zero_horizon",
    "C37_crom_predict_keeps_model",
    "C37_nan_rows",
    "C37_forecast",
    "C37_zero_horizon",
    "C37_predict_keeps_model"
   ],
   "note": ""
  },
  {
   "property": "C38",
   "status": "proved",
   "theorems": [
    "C38_crom_lags",
    "C38_crom_components",
    "C38_mtd_lags"
   ],
   "note": ""
  },
  {
   "property": "C39",
   "status": "proved",
   "theorems": [
    "C39_weights_and_dictionary_of_the_fit",
    "C39_fit_stochastic",
    "C39_residuals",
    "C39_gradient"
   ],
   "note": ""
  },
  {
   "property": "C40",
   "status": "proved",
   "theorems": [
    "C40_constraints_meaning",
    "C40_projection",
    "C40_sizes"
   ],
   "note": ""
  },
  {
   "property": "C41",
   "status": "proved",
   "theorems": [
    "C41_update",
    "C41_clip",
    "C41_fit",
    "C41_varx_fit"
   ],
   "note": ""
  },
  {
   "property": "C42",
   "status": "proved",
   "theorems": [
    "C42_cost_not_increased",
    "C42_feasible_bounded",
    "C42_nearest"
   ],
   "note": ""
  },
  {
   "property": "C43",
   "status": "proved",
   "theorems": [
    "C43_centroids_optimal",
    "C43_cost_not_increased",
    "C43_empty_component_nan",
    "C43_empty_component_cost"
   ],
   "note": ""
  },
  {
   "property": "C44",
   "status": "proved",
   "theorems": [
    "C44_guard",
    "C44_stopping"
   ],
   "note": ""
  },
  {
   "property": "C45",
   "status": "proved",
   "theorems": [
    "C45_cost_decreases",
    "C45_guard_never_fires"
   ],
   "note": ""
  },
  {
   "property": "C46",
   "status": "proved",
   "theorems": [
    "C46_transform_ignores_fit",
    "C46_transform_overwrites",
    "C46_constructor_init_ignored",
    "C46_custom_weights",
    "C46_custom_centroids"
   ],
   "note": ""
  },
  {
   "property": "C47",
   "status": "proved",
   "theorems": [
    "C47_design_matrix",
    "C47_validation"
   ],
   "note": ""
  },
  {
   "property": "C48",
   "status": "proved",
   "theorems": [
    "C48_residuals",
    "C48_components"
   ],
   "note": ""
  },
  {
   "property": "C49",
   "status": "proved",
   "theorems": [
    "C49_fit_minimises",
    "C49_update_not_increased",
    "C49_cost_decreases",
    "C49_guard_never_fires"
   ],
   "note": ""
  },
  {
   "property": "C50",
   "status": "proved",
   "theorems": [
    "C50_external_raises",
    "C50_unequal_memories"
   ],
   "note": ""
  },
  {
   "property": "C51",
   "status": "proved",
   "theorems": [
    "C51_transition_frequencies",
    "C51_unvisited_nan"
   ],
   "note": ""
  },
  {
   "property": "C52",
   "status": "proved",
   "theorems": [
    "C52_prediction",
    "C52_composition",
    "C52_horizon",
    "C52_one_unvisited_all_nan"
   ],
   "note": ""
  },
  {
   "property": "C53",
   "status": "proved",
   "theorems": [
    "C53_before_fit",
    "C53_stale"
   ],
   "note": ""
  },
  {
   "property": "C54",
   "status": "proved",
   "theorems": [
    "C54_predictors",
    "C54_rejected",
    "C54_single_factor_row_repeated"
   ],
   "note": ""
  },
  {
   "property": "C55",
   "status": "proved",
   "theorems": [
    "C55_residuals",
    "C55_covariance"
   ],
   "note": ""
  },
  {
   "property": "C56",
   "status": "proved",
   "theorems": [
    "C56_single_column_rejected",
    "C56_others_reach_clusterer"
   ],
   "note": ""
  },
  {
   "property": "C57",
   "status": "proved",
   "theorems": [
    "C57_arrays_keep_contents",
    "C57_results_are_new",
    "C57_objects_independent",
    "C57_every_program",
    "C57_gpnh_fit_transform",
    "C57_gpnh_transform",
    "C57_aa_fit_transform",
    "C57_aa_transform",
    "C57_arch_fit_transform",
    "C57_arch_transform",
    "C57_mtd_fit_transform",
    "C57_mtd_transform",
    "C57_mtd_predict",
    "C57_crom_fit_transform",
    "C57_crom_transform",
    "C57_crom_predict",
    "C57_inverse_transform"
   ],
   "note": ""
  },
  {
   "property": "C58",
   "status": "proved",
   "theorems": [
    "C58_aa_terminates",
    "C58_aa_transform_terminates",
    "C58_crom_terminates",
    "C58_fembv_kmeans_terminates",
    "C58_fembv_kmeans_transform_terminates",
    "C58_gpnh_terminates",
    "C58_mtd_terminates",
    "C58_fembv_varx_terminates",
    "C58_fembv_varx_transform_terminates"
   ],
   "note": ""
  },
  {
   "property": "C59",
   "status": "proved",
   "theorems": [
    "C59_transform_needs_same_sample_count",
    "C59_transform_uses_new_samples",
    "C59_transform_ignores_training_data"
   ],
   "note": ""
  },
  {
   "property": "C60",
   "status": "proved",
   "theorems": [
    "C60_fit_guard_never_fires",
    "C60_transform_guard_never_fires",
    "C60_guard_only_source"
   ],
   "note": ""
  },
  {
   "property": "C61",
   "status": "proved",
   "theorems": [
    "C61_inverse_transform",
    "C61_inverse_transform_errors"
   ],
   "note": ""
  },
  {
   "property": "C62",
   "status": "proved",
   "theorems": [
    "C62_step_minimises_interpolant"
   ],
   "note": ""
  },
  {
   "property": "C63",
   "status": "proved",
   "theorems": [
    "C63_fixed_parameters",
    "C63_transform",
    "C63_weights_irrelevant"
   ],
   "note": ""
  },
  {
   "property": "C64",
   "status": "proved",
   "theorems": [
    "C64_varx_history"
   ],
   "note": ""
  },
  {
   "property": "C65",
   "status": "proved",
   "theorems": [
    "C65_components_optimal"
   ],
   "note": ""
  },
  {
   "property": "C66",
   "status": "proved",
   "theorems": [
    "C66_transform_training",
    "C66_before_fit",
    "C66_refit",
    "C66_stale_factor_coefficients"
   ],
   "note": ""
  },
  {
   "property": "C67",
   "status": "proved",
   "theorems": [
    "C67_weights_stationary_iff_optimal",
    "C67_dictionary_stationary_iff_optimal"
   ],
   "note": ""
  },
  {
   "property": "C68",
   "status": "proved",
   "theorems": [
    "C68_weights_stationary_iff_optimal",
    "C68_dictionary_stationary_iff_optimal"
   ],
   "note": ""
  },
  {
   "property": "C69",
   "status": "proved",
   "theorems": [
    "C69_weights_stationary_iff_optimal",
    "C69_dictionary_stationary_iff_optimal",
    "C69_parameters_stationary_iff_optimal",
    "C69_crom_stationary_iff_optimal"
   ],
   "note": ""
  },
  {
   "property": "C70",
   "status": "proved",
   "theorems": [
    "C70_integer_factors_never_fit",
    "C70_integer_factors_type_error",
    "C70_other_dtypes_agree",
    "C70_transform_agrees"
   ],
   "note": ""
  },
  {
   "property": "C71",
   "status": "proved",
   "theorems": [
    "C71_integer_kernel_never_fits",
    "C71_integer_kernel_exception",
    "C71_other_dtypes_agree",
    "C71_default_on_integer_data"
   ],
   "note": ""
  },
  {
   "property": "C72",
   "status": "proved",
   "theorems": [
    "C72_integer_arrays_never_fit",
    "C72_integer_arrays_type_error",
    "C72_other_dtypes_agree",
    "C72_integer_data"
   ],
   "note": ""
  },
  {
   "property": "C73",
   "status": "proved",
   "theorems": [
    "C73_crom_integer_data_never_fits",
    "C73_crom_float_data_agrees"
   ],
   "note": ""
  },
  {
   "property": "C74",
   "status": "proved",
   "theorems": [
    "C74_weights_update_descends",
    "C74_dictionary_update_descends",
    "C74_parameters_update_descends",
    "C74_fit_guard_never_fires",
    "C74_transform_guard_never_fires",
    "C74_crom_update_descends",
    "C74_crom_guard_never_fires"
   ],
   "note": ""
  },
  {
   "property": "C75",
   "status": "proved",
   "theorems": [
    "C75_gpnh_custom_arrays",
    "C75_kernel_aa_custom_arrays",
    "C75_mtd_custom_arrays"
   ],
   "note": ""
  },
  {
   "property": "C76",
   "status": "proved",
   "theorems": [
    "C76_reported_cost",
    "C76_blind",
    "C76_binary",
    "C76_guard_fixed_parameters",
    "C76_guard_fires"
   ],
   "note": ""
  },
  {
   "property": "C77",
   "status": "proved",
   "theorems": [
    "C77_weights_lost",
    "C77_binary_data",
    "C77_reported"
   ],
   "note": ""
  },
  {
   "property": "C78",
   "status": "proved",
   "theorems": [
    "C78_same_coefficients",
    "C78_residuals",
    "C78_covariance"
   ],
   "note": ""
  },
  {
   "property": "C79",
   "status": "proved",
   "theorems": [
    "C79_binary64",
    "C79_rounded_projection",
    "C79_projection_binary64",
    "C79_sum_not_exact"
   ],
   "note": ""
  },
  {
   "property": "C80",
   "status": "proved",
   "theorems": [
    "C80_rounded_stochastic",
    "C80_draws_pass_validation_binary64",
    "C80_rounded_validation"
   ],
   "note": ""
  },
  {
   "property": "C81",
   "status": "proved",
   "theorems": [
    "C81_gpnh_ends",
    "C81_aa_ends",
    "C81_mtd_ends",
    "C81_crom_ends",
    "C81_gpnh_returns"
   ],
   "note": ""
  },
  {
   "property": "C82",
   "status": "proved",
   "theorems": [
    "C82_gpnh_nonnegative",
    "C82_aa_nonnegative",
    "C82_mtd_nonnegative",
    "C82_crom_nonnegative",
    "C82_predicted_nonnegative"
   ],
   "note": ""
  },
  {
   "property": "C83",
   "status": "proved",
   "theorems": [
    "C83_large_entries_vanish",
    "C83_binary64"
   ],
   "note": ""
  },
  {
   "property": "C84",
   "status": "proved",
   "theorems": [
    "C84_projection_nan",
    "C84_gpnh_fit",
    "C84_gpnh_any_fit",
    "C84_gpnh_transform",
    "C84_aa_fit",
    "C84_aa_any_fit",
    "C84_arch_fit",
    "C84_aa_transform",
    "C84_mtd_fit",
    "C84_mtd_any_fit",
    "C84_mtd_transform"
   ],
   "note": "Over Num_E (exact arithmetic with IEEE NaN/infinity rules, no rounding). Draws are assumed to lie in (0, 1]; a row of zero draws would give NaN weights. Random initialisation for existence; any initialisation for the description of completed fits."
  },
  {
   "property": "C85",
   "status": "proved",
   "theorems": [
    "C85_covariance",
    "C85_sign",
    "C85_unit_weights"
   ],
   "note": "The least-squares and inverse routines are oracles (only the shape of the least-squares result is assumed). Entries are described when the divisor is not 0."
  },
  {
   "property": "C86",
   "status": "proved",
   "theorems": [
    "C86_shape",
    "C86_positive",
    "C86_raises",
    "C86_negative_model",
    "C86_negative_fit",
    "C86_terminates"
   ],
   "note": "fit only; predict with lags that are not positive is not modelled. C86_positive compares two models by functional extensionality."
  },
  {
   "property": "C87",
   "status": "proved",
   "theorems": [
    "C87_mtd_fit",
    "C87_mtd_any_fit",
    "C87_mtd_transform",
    "C87_crom_fit",
    "C87_crom_forecast"
   ],
   "note": "In the theorems over the reals (C30-C40) the same series has normalization 1/0 = 0; C87 is the statement that applies to it. One component is not covered. C87_crom_fit assumes that the preceding convex coding returns, C87_crom_forecast that the weights and the dictionary are real."
  },
  {
   "property": "C88",
   "status": "proved",
   "theorems": [
    "C88_short_fit",
    "C88_short_transform",
    "C88_short_crom"
   ],
   "note": "Over exact reals. C88_short_fit is for drawn starting values with all three updates on; C88_short_transform for an object whose transition model is stochastic (C33 gives that after a fit). C88_short_crom assumes that the convex coding returned."
  },
  {
   "property": "C89",
   "status": "proved",
   "theorems": [
    "C89_distances_exact"
   ],
   "note": "Over exact reals; in floating point the products and sums of integers are exact only below 2^53. When a local model has a single row of residuals after the presample, numpy broadcasts it to all times, and the statement says so."
  },
  {
   "property": "C90",
   "status": "proved",
   "theorems": [
    "C90_exclusions"
   ],
   "note": "Generic over the number type and without axioms. Start indices out of range or excluded are covered by C10, negative ones by C09_negative_start."
  },
  {
   "property": "C91",
   "status": "proved",
   "theorems": [
    "C91_units_offset_diagonal"
   ],
   "note": "Over exact reals, where the shift cannot change ties; in floating point rounding can. The example shows that a negative scale and squaring do change the choice."
  },
  {
   "property": "C92",
   "status": "proved",
   "theorems": [
    "C92_aa_dictionary",
    "C92_gpnh_same_samples",
    "C92_gpnh_affine"
   ],
   "note": "Over exact reals; in floating point rounding can decide ties differently. The kernel statement asks for non-negative squared distances, since numpy's square root of a negative number is NaN and the model over R is not meant for it; the proof does not use this."
  },
  {
   "property": "C93",
   "status": "proved",
   "theorems": [
    "C93_transform_keeps_fit",
    "C93_transform_repeatable"
   ],
   "note": "Generic over the number type and without axioms. ArchetypalAnalysis.transform runs the same code on the kernel of the data. Without an integer random_state the generator advances and later calls differ."
  }
 ]
}
# Assumptions of the property theorems

As reported by `Print Assumptions`; generated by `tools/assumptions.py`.

## Closed under the global context (no axioms)

* `Props_aa.C21_aa_iterations`
* `Props_aa.C21_aa_transform_iterations`
* `Props_aa.C22_aa_stopping`
* `Props_aa.C24_aa_custom_transform_fails`
* `Props_aa.C25_aa_history_independent`
* `Props_aa.C25_aa_refit`
* `Props_aa.C26_aa_constructor`
* `Props_aa.C26_aa_resolution`
* `Props_aa.C26_aa_validation`
* `Props_aa.C27_archetypal_is_kernel`
* `Props_aa.C59_transform_ignores_training_data`
* `Props_aa.C59_transform_needs_same_sample_count`
* `Props_aa.C60_guard_only_source`
* `Props_aa.C61_inverse_transform_errors`
* `Props_aa_keep.C93_transform_keeps_fit`
* `Props_aa_keep.C93_transform_repeatable`
* `Props_base.C04_rows_columns`
* `Props_base.C09_furthest_sum_distinct`
* `Props_base.C09_negative_start`
* `Props_base.C10_furthest_sum_errors`
* `Props_base.C10_furthest_sum_total`
* `Props_crom.C22_crom_stopping`
* `Props_crom.C24_crom_custom_predict_fails`
* `Props_crom.C25_crom_history_configuration`
* `Props_crom.C25_crom_history_independent`
* `Props_crom.C26_crom_validation`
* `Props_crom.C37_crom_nan_rows`
* `Props_crom.C37_crom_predict_keeps_model`
* `Props_crom.C37_crom_zero_horizon`
* `Props_crom.C38_crom_components`
* `Props_crom.C38_crom_lags`
* `Props_crom.C39_weights_and_dictionary_of_the_fit`
* `Props_dtype.C70_integer_factors_never_fit`
* `Props_dtype.C70_integer_factors_type_error`
* `Props_dtype.C70_other_dtypes_agree`
* `Props_dtype.C70_transform_agrees`
* `Props_dtype.C71_default_on_integer_data`
* `Props_dtype.C71_integer_kernel_exception`
* `Props_dtype.C71_integer_kernel_never_fits`
* `Props_dtype.C71_other_dtypes_agree`
* `Props_dtype.C72_integer_arrays_never_fit`
* `Props_dtype.C72_integer_arrays_type_error`
* `Props_dtype.C72_integer_data`
* `Props_dtype.C72_other_dtypes_agree`
* `Props_dtype.C73_crom_float_data_agrees`
* `Props_dtype.C73_crom_integer_data_never_fits`
* `Props_exclude.C90_exclusions`
* `Props_fembv.C21_fembv_iterations`
* `Props_fembv.C21_fembv_transform_iterations`
* `Props_fembv.C22_fembv_stopping`
* `Props_fembv.C25_fembv_kmeans_history_configuration`
* `Props_fembv.C25_fembv_kmeans_history_independent`
* `Props_fembv.C26_fembv_resolution`
* `Props_fembv.C26_fembv_validation`
* `Props_fembv.C40_sizes`
* `Props_fembv.C44_stopping`
* `Props_fembv.C46_constructor_init_ignored`
* `Props_fembv.C46_custom_centroids`
* `Props_fembv.C46_custom_weights`
* `Props_fembv.C46_transform_ignores_fit`
* `Props_fembv.C46_transform_overwrites`
* `Props_gpnh.C16_guard`
* `Props_gpnh.C21_gpnh_iterations`
* `Props_gpnh.C21_gpnh_transform_iterations`
* `Props_gpnh.C22_gpnh_stopping`
* `Props_gpnh.C23_dictionary_attribute`
* `Props_gpnh.C23_transform_keeps_fit`
* `Props_gpnh.C24_gpnh_custom_transform_fails`
* `Props_gpnh.C25_gpnh_history_configuration`
* `Props_gpnh.C25_gpnh_history_independent`
* `Props_gpnh.C26_gpnh_resolution`
* `Props_gpnh.C26_gpnh_validation`
* `Props_heap.C57_aa_fit_transform`
* `Props_heap.C57_aa_transform`
* `Props_heap.C57_arch_fit_transform`
* `Props_heap.C57_arch_transform`
* `Props_heap.C57_arrays_keep_contents`
* `Props_heap.C57_crom_fit_transform`
* `Props_heap.C57_crom_predict`
* `Props_heap.C57_crom_transform`
* `Props_heap.C57_every_program`
* `Props_heap.C57_gpnh_fit_transform`
* `Props_heap.C57_gpnh_transform`
* `Props_heap.C57_inverse_transform`
* `Props_heap.C57_mtd_fit_transform`
* `Props_heap.C57_mtd_predict`
* `Props_heap.C57_mtd_transform`
* `Props_heap.C57_objects_independent`
* `Props_heap.C57_results_are_new`
* `Props_int_pw.C78_same_coefficients`
* `Props_lags.C86_shape`
* `Props_markov.C52_horizon`
* `Props_markov.C53_before_fit`
* `Props_markov.C53_stale`
* `Props_mtd.C21_mtd_iterations`
* `Props_mtd.C21_mtd_transform_iterations`
* `Props_mtd.C22_mtd_stopping`
* `Props_mtd.C24_mtd_custom_predict_fails`
* `Props_mtd.C24_mtd_custom_transform_fails`
* `Props_mtd.C25_mtd_history_configuration`
* `Props_mtd.C25_mtd_history_independent`
* `Props_mtd.C26_mtd_resolution`
* `Props_mtd.C26_mtd_validation`
* `Props_mtd.C36_guard`
* `Props_mtd.C37_nan_rows`
* `Props_mtd.C37_predict_keeps_model`
* `Props_mtd.C37_zero_horizon`
* `Props_mtd.C38_mtd_lags`
* `Props_pwvarx.C54_predictors`
* `Props_pwvarx.C54_rejected`
* `Props_pwvarx.C54_single_factor_row_repeated`
* `Props_pwvarx.C56_others_reach_clusterer`
* `Props_pwvarx.C56_single_column_rejected`
* `Props_pwvarx.C66_before_fit`
* `Props_pwvarx.C66_refit`
* `Props_pwvarx.C66_stale_factor_coefficients`
* `Props_pwvarx.C66_transform_training`
* `Props_varx.C26_varx_memory`
* `Props_varx.C26_varx_memory_raises`
* `Props_varx.C26_varx_negative_memory`
* `Props_varx.C47_design_matrix`
* `Props_varx.C47_validation`
* `Props_varx.C50_external_raises`
* `Props_varx.C50_unequal_memories`
* `Props_varx.C63_fixed_parameters`
* `Props_varx.C63_transform`
* `Props_varx.C64_varx_history`

## `ClassicalDedekindReals.sig_forall_dec`, `ClassicalDedekindReals.sig_not_dec`, `FunctionalExtensionality.functional_extensionality_dep`

* `Props_aa.C27_cost_is_reconstruction_error`
* `Props_aa.C27_fit_cost`
* `Props_aa.C28_fit_stochastic`
* `Props_aa.C28_transform_stochastic`
* `Props_aa.C29_dictionary_gradient`
* `Props_aa.C29_scale_gradient`
* `Props_aa.C29_weights_gradient`
* `Props_aa.C30_delta_has_no_effect`
* `Props_aa.C30_scale_factors_one`
* `Props_aa.C31_cached_cost_is_cost`
* `Props_aa.C31_reported_cost`
* `Props_aa.C32_dissimilarities_are_distances`
* `Props_aa.C32_furthest_sum_dictionary`
* `Props_aa.C32_gpnh_furthest_sum_dictionary`
* `Props_aa.C58_aa_terminates`
* `Props_aa.C58_aa_transform_terminates`
* `Props_aa.C59_transform_uses_new_samples`
* `Props_aa.C60_fit_guard_never_fires`
* `Props_aa.C60_transform_guard_never_fires`
* `Props_aa.C61_inverse_transform`
* `Props_base.C01_projection_is_probability_vector`
* `Props_base.C02_projection_is_nearest`
* `Props_base.C03_projection_laws`
* `Props_base.C04_rows_columns_stochastic`
* `Props_base.C05_alpha_safeguards`
* `Props_base.C06_step_shrinks`
* `Props_base.C07_line_search_terminates`
* `Props_base.C08_line_search_exit`
* `Props_base.C11_furthest_sum_greedy`
* `Props_base.C12_random_stochastic`
* `Props_base.C13_validation`
* `Props_base.C62_step_minimises_interpolant`
* `Props_cov.C85_covariance`
* `Props_cov.C85_sign`
* `Props_cov.C85_unit_weights`
* `Props_crom.C37_crom_forecast`
* `Props_crom.C39_fit_stochastic`
* `Props_crom.C39_gradient`
* `Props_crom.C39_residuals`
* `Props_crom.C58_crom_terminates`
* `Props_edge.C87_crom_fit`
* `Props_edge.C87_crom_forecast`
* `Props_edge.C87_mtd_any_fit`
* `Props_edge.C87_mtd_fit`
* `Props_edge.C87_mtd_transform`
* `Props_fembv.C40_constraints_meaning`
* `Props_fembv.C40_projection`
* `Props_fembv.C41_clip`
* `Props_fembv.C41_fit`
* `Props_fembv.C41_update`
* `Props_fembv.C42_cost_not_increased`
* `Props_fembv.C42_feasible_bounded`
* `Props_fembv.C42_nearest`
* `Props_fembv.C43_centroids_optimal`
* `Props_fembv.C43_cost_not_increased`
* `Props_fembv.C43_empty_component_cost`
* `Props_fembv.C43_empty_component_nan`
* `Props_fembv.C44_guard`
* `Props_fembv.C45_cost_decreases`
* `Props_fembv.C45_guard_never_fires`
* `Props_fembv.C58_fembv_kmeans_terminates`
* `Props_fembv.C58_fembv_kmeans_transform_terminates`
* `Props_fs_affine.C91_units_offset_diagonal`
* `Props_fs_data.C92_aa_dictionary`
* `Props_fs_data.C92_gpnh_affine`
* `Props_fs_data.C92_gpnh_same_samples`
* `Props_gpnh.C14_fit_weights_stochastic`
* `Props_gpnh.C14_transform_weights_stochastic`
* `Props_gpnh.C15_reported_cost`
* `Props_gpnh.C16_cost_decreases`
* `Props_gpnh.C17_cost_nonneg`
* `Props_gpnh.C17_penalty_is_spread`
* `Props_gpnh.C18_dictionary_gradient`
* `Props_gpnh.C18_weights_gradient`
* `Props_gpnh.C19_dictionary_direction`
* `Props_gpnh.C19_weights_direction`
* `Props_gpnh.C20_dictionary_update_descends`
* `Props_gpnh.C20_fit_guard_never_fires`
* `Props_gpnh.C20_transform_guard_never_fires`
* `Props_gpnh.C20_weights_update_descends`
* `Props_gpnh.C23_inverse_transform_hull`
* `Props_gpnh.C23_inverse_transform_range`
* `Props_gpnh.C58_gpnh_terminates`
* `Props_guard.C74_crom_guard_never_fires`
* `Props_guard.C74_crom_update_descends`
* `Props_guard.C74_dictionary_update_descends`
* `Props_guard.C74_fit_guard_never_fires`
* `Props_guard.C74_parameters_update_descends`
* `Props_guard.C74_transform_guard_never_fires`
* `Props_guard.C74_weights_update_descends`
* `Props_init.C75_gpnh_custom_arrays`
* `Props_init.C75_kernel_aa_custom_arrays`
* `Props_init.C75_mtd_custom_arrays`
* `Props_int.C76_binary`
* `Props_int.C76_blind`
* `Props_int.C76_guard_fires`
* `Props_int.C76_guard_fixed_parameters`
* `Props_int.C76_reported_cost`
* `Props_int_dist.C89_distances_exact`
* `Props_int_pw.C78_covariance`
* `Props_int_pw.C78_residuals`
* `Props_int_varx.C77_binary_data`
* `Props_int_varx.C77_reported`
* `Props_int_varx.C77_weights_lost`
* `Props_lags.C86_negative_fit`
* `Props_lags.C86_negative_model`
* `Props_lags.C86_raises`
* `Props_lags.C86_terminates`
* `Props_markov.C51_transition_frequencies`
* `Props_markov.C51_unvisited_nan`
* `Props_markov.C52_composition`
* `Props_markov.C52_one_unvisited_all_nan`
* `Props_markov.C52_prediction`
* `Props_mtd.C33_fit_stochastic`
* `Props_mtd.C34_predicted_stochastic`
* `Props_mtd.C34_predicted_weights`
* `Props_mtd.C35_dictionary_gradient`
* `Props_mtd.C35_parameters_gradient`
* `Props_mtd.C35_weights_gradient`
* `Props_mtd.C36_cost_decreases`
* `Props_mtd.C36_cost_of_current_parameters`
* `Props_mtd.C36_reported_cost`
* `Props_mtd.C37_forecast`
* `Props_mtd.C58_mtd_terminates`
* `Props_nan.C84_aa_any_fit`
* `Props_nan.C84_aa_fit`
* `Props_nan.C84_aa_transform`
* `Props_nan.C84_arch_fit`
* `Props_nan.C84_gpnh_any_fit`
* `Props_nan.C84_gpnh_fit`
* `Props_nan.C84_gpnh_transform`
* `Props_nan.C84_mtd_any_fit`
* `Props_nan.C84_mtd_fit`
* `Props_nan.C84_mtd_transform`
* `Props_nan.C84_projection_nan`
* `Props_opt.C67_dictionary_stationary_iff_optimal`
* `Props_opt.C67_weights_stationary_iff_optimal`
* `Props_opt.C68_dictionary_stationary_iff_optimal`
* `Props_opt.C68_weights_stationary_iff_optimal`
* `Props_opt.C69_crom_stationary_iff_optimal`
* `Props_opt.C69_dictionary_stationary_iff_optimal`
* `Props_opt.C69_parameters_stationary_iff_optimal`
* `Props_opt.C69_weights_stationary_iff_optimal`
* `Props_pwvarx.C55_covariance`
* `Props_pwvarx.C55_residuals`
* `Props_pwvarx.C65_components_optimal`
* `Props_rnd.C79_projection_binary64`
* `Props_rnd.C79_rounded_projection`
* `Props_rnd.C79_sum_not_exact`
* `Props_rnd.C80_draws_pass_validation_binary64`
* `Props_rnd.C80_rounded_stochastic`
* `Props_rnd.C80_rounded_validation`
* `Props_rnd_run.C81_aa_ends`
* `Props_rnd_run.C81_crom_ends`
* `Props_rnd_run.C81_gpnh_ends`
* `Props_rnd_run.C81_gpnh_returns`
* `Props_rnd_run.C81_mtd_ends`
* `Props_rnd_run.C82_aa_nonnegative`
* `Props_rnd_run.C82_crom_nonnegative`
* `Props_rnd_run.C82_gpnh_nonnegative`
* `Props_rnd_run.C82_mtd_nonnegative`
* `Props_rnd_run.C82_predicted_nonnegative`
* `Props_rnd_run.C83_binary64`
* `Props_rnd_run.C83_large_entries_vanish`
* `Props_short.C88_short_crom`
* `Props_short.C88_short_fit`
* `Props_short.C88_short_transform`
* `Props_varx.C41_varx_fit`
* `Props_varx.C48_components`
* `Props_varx.C48_residuals`
* `Props_varx.C49_cost_decreases`
* `Props_varx.C49_fit_minimises`
* `Props_varx.C49_guard_never_fires`
* `Props_varx.C49_update_not_increased`
* `Props_varx.C58_fembv_varx_terminates`
* `Props_varx.C58_fembv_varx_transform_terminates`
* `Props_varx.C63_weights_irrelevant`

## `ClassicalDedekindReals.sig_forall_dec`, `FunctionalExtensionality.functional_extensionality_dep`

* `Props_rnd.C79_binary64`

## `FunctionalExtensionality.functional_extensionality_dep`

* `Props_lags.C86_positive`

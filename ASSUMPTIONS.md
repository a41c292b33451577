# What `Print Assumptions` lists

Generated from the output of the `Print Assumptions` command beneath each theorem of
`rocq/theories/Prop*.v`.  All axioms are from Coq's standard library.

## Closed under the global context (112 theorems)

C01_logpdf, C02_bounds_dim, C02_rvs, C13_absorbed_step_diverges, C13_periodic_float_diverges, C23_append_only_log, C23_get_variants, C23_only_pop_of_empty_fails, C24_results_after_error, C24_results_first_access, C24_results_frozen, C24_results_stale, C25_empty_history_raises, C27_only_valid, C28_binary64_prior_size_refuted, C31_resumed_run, C31_run, C32_any_arithmetic, C33_binary64_refuted, C34_converged_any_arithmetic, C34_second_run, C35_particles_are_consistent, C36_history_is_rectangular, C38_likelihood_in_support_evidence, C38_likelihood_in_support_mcmc, C39_calls_counted, C39_iteration, C40_evaluations_observable, C40_steps_and_evaluations, C40_terminates, C44_no_uninitialised_memory, C44_probability_binary64, C44_undefined_rejected, C44_undefined_zero, C45_iter_record, C45_iteration, C47_resampling_copies_particles, C48_all_infinite, C48_infinite_rows_are_replaced, C49_binary64_nan, C49_iteration_fails, C49_posterior, C49_returned, C49_weights, C50_no_blobs, C50_rows_are_particles, C53_any_arithmetic, C53_before_run, C54_attributes_unique, C54_load, C54_nothing_lost, C54_sampler_with_pool, C54_saved_attributes, C56_crash_safe, C56_no_parents, C56_other_files, C56_returned, C56_temp_refuted, C57_checkpoints, C57_nothing_written, C59_prior_batches_are_repeated, C61_each_task_once, C61_results_in_task_order, C61_workers, C62_every_fair_schedule_returns, C62_fair_schedule_exists, C62_messages_and_reuse, C62_no_deadlock, C62_no_worker_never_returns, C63_close_no_deadlock, C63_close_on_worker, C63_every_worker_exits, C63_one_message_each, C63_second_close_unread, C64_mpi_pool, C64_pool_any_result, C64_serial_pool_vectorised_agree, C65_bare_tuple_raises, C65_blobs_aligned, C65_blobs_misaligned, C66_geometry_fitted, C66_interrupted_refuted, C67_training_schedule, C68_nu_finite, C69_covariance_kind, C69_random_walk_raises, C69_tpcn_unaffected, C70_names, C70_other_names_raise, C70_width, C71_empty_set_raises, C71_epoch_uses_all, C71_partition, C74_weight_names, C75_float32_or_rejected, C75_result_is_float32, C78_training_options, C79_files_of_a_run, C79_killed_run, C93_warm_up, C94_step_size_recorded, C96_copied_attributes, C96_evaluation, C96_pooled, C96_serial, C97_display_only, C97_first_run, C97_later_run, C97_nothing_added, C97_recorded_calls_refuted, C97_resumed_nothing_added, C97_resumed_run

## `FunctionalExtensionality.functional_extensionality_dep` (5 theorems)

C38_likelihood_in_support_iterations, C38_run, C55_pool_discarded, C58_resumed_run_continues, C60_pre_run_state

## `ClassicalDedekindReals.sig_forall_dec`, `FunctionalExtensionality.functional_extensionality_dep` (2 theorems)

C74_penalty_nonneg, C74_penalty_zero

## `ClassicalDedekindReals.sig_forall_dec`, `ClassicalDedekindReals.sig_not_dec`, `FunctionalExtensionality.functional_extensionality_dep` (19 theorems)

C01_logpdf_exact, C07_interval_check, C14_effective_sample_size, C15_unique_sample_size, C16_trim_weights, C17_trim_nan, C17_trim_unattainable, C18_systematic_counts, C19_systematic_unbiased, C20_systematic_index_error, C20_systematic_index_error_reachable, C21_systematic_positive_weight, C21_systematic_zero_offset, C42_detailed_balance, C42_proposal_density, C42_reversible_noise, C43_proposal_density, C77_multinomial_draws, C77_multinomial_error

## `ClassicalDedekindReals.sig_forall_dec`, `ClassicalDedekindReals.sig_not_dec`, `Classical_Prop.classic`, `FunctionalExtensionality.functional_extensionality_dep` (107 theorems)

C03_inverse_of_forward, C04_forward_of_inverse, C05_strictly_inside, C06_jacobian, C06_jacobian_full, C07_fit, C07_forward, C08_boundary_infinite, C09_bounds_none_unusable, C10_periodic, C11_reflective, C12_boundary_conditions_no_effect, C13_periodic_infinite_diverges, C22_compute_ess_increment_logz, C25_balance_weights, C26_prior_only, C26_rescaling, C27_validation, C28_derived_defaults, C29_one_dimension, C29_step_defaults, C30_integer_pool, C30_pool_object, C31_temperatures_binary64, C31_temperatures_exact, C32_temperature_step, C33_search_terminates, C34_converged, C34_second_run_smaller, C35_binary64_arithmetic, C35_exact_arithmetic, C35_particles_are_consistent_exact, C37_support_binary64, C37_support_exact, C41_preconditioned_rwm_decreases, C41_preconditioned_rwm_negative_refuted, C41_scale_range, C41_scale_range_step, C42_preconditioned_rwm_step, C42_rwm_step, C43_detailed_balance, C43_pcn_step, C43_preconditioned_pcn_step, C43_reversible_noise, C44_probability, C46_dynamic_adjustment, C49_exact_nan, C49_iteration_raises, C49_run_raises, C50_weights, C51_trimmed_log_weights, C52_importance_evidence, C53_smc_evidence, C68_fit_succeeds, C68_geometry_fit, C68_student_fit, C71_split_counts, C71_validation_fraction_refuted, C72_best_model_on_exhaustion_refuted, C72_training, C72_training_returns, C73_mean_nearest_distance_refuted, C73_noise_last_sample, C74_penalty, C76_constant_coordinate_nan, C76_fit_standardises, C80_pcn_chain, C80_preconditioned_pcn_chain, C80_preconditioned_rwm_chain, C80_rwm_chain, C81_pcn_at_least_n_steps, C81_preconditioned_pcn_at_least_n_steps, C83_pcn_returns, C83_preconditioned_pcn_returns, C83_preconditioned_rwm_returns, C83_rwm_returns, C84_crank_nicolson, C84_preconditioned_crank_nicolson, C84_preconditioned_random_walk, C84_random_walk, C85_fitted_geometry, C85_iterations, C85_run, C85_survivors, C85_throughout, C86_flow_iteration_returns, C86_iteration_returns, C86_later_run_raises_nothing, C86_loop_raises_nothing, C86_plain_iteration_returns, C86_resumed_run_raises_nothing, C86_run_raises_nothing, C87_recorded_evidence, C88_evidence_range, C88_recorded_range, C89_run, C89_state, C90_run, C90_state, C91_fit_data, C92_geometry_fit, C92_iteration, C92_student_fit, C94_next_iteration, C94_step_size, C95_evidence_error, C97_efficiency_exact


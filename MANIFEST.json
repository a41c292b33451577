{
 "claims": [
  {
   "property": "C01",
   "status": "proved",
   "theorems": [
    "C01_logpdf",
    "C01_logpdf_exact"
   ],
   "note": ""
  },
  {
   "property": "C02",
   "status": "proved",
   "theorems": [
    "C02_rvs",
    "C02_bounds_dim"
   ],
   "note": ""
  },
  {
   "property": "C03",
   "status": "proved",
   "theorems": [
    "C03_inverse_of_forward"
   ],
   "note": ""
  },
  {
   "property": "C04",
   "status": "proved",
   "theorems": [
    "C04_forward_of_inverse"
   ],
   "note": ""
  },
  {
   "property": "C05",
   "status": "proved",
   "theorems": [
    "C05_strictly_inside"
   ],
   "note": ""
  },
  {
   "property": "C06",
   "status": "proved",
   "theorems": [
    "C06_jacobian",
    "C06_jacobian_full"
   ],
   "note": "Diagonal scaling: sum of log-derivatives proved outright. Full covariance: the reported log|det L| is numpy's value (argument), the rest proved."
  },
  {
   "property": "C07",
   "status": "proved",
   "theorems": [
    "C07_interval_check",
    "C07_forward",
    "C07_fit"
   ],
   "note": ""
  },
  {
   "property": "C08",
   "status": "proved",
   "theorems": [
    "C08_boundary_infinite"
   ],
   "note": "Finding: the clip in the 'both' branch is discarded, boundary points map to infinities."
  },
  {
   "property": "C09",
   "status": "proved",
   "theorems": [
    "C09_bounds_none_unusable"
   ],
   "note": "Finding: bounds=None gives NaN bounds, every checked call raises ValueError."
  },
  {
   "property": "C10",
   "status": "proved",
   "theorems": [
    "C10_periodic"
   ],
   "note": ""
  },
  {
   "property": "C11",
   "status": "proved",
   "theorems": [
    "C11_reflective"
   ],
   "note": "Finding: one reflection only; excursions beyond one width below or two widths above stay out of range. Exact characterisation proved."
  },
  {
   "property": "C12",
   "status": "proved",
   "theorems": [
    "C12_boundary_conditions_no_effect"
   ],
   "note": "Finding: proposals are already strictly inside, so the declared boundary conditions never act on them."
  },
  {
   "property": "C13",
   "status": "proved",
   "theorems": [
    "C13_periodic_float_diverges",
    "C13_periodic_infinite_diverges",
    "C13_absorbed_step_diverges"
   ],
   "note": "Finding: divergence for every fuel, in binary64 for any libm, and for infinite inputs in exact arithmetic."
  },
  {
   "property": "C14",
   "status": "proved",
   "theorems": [
    "C14_effective_sample_size"
   ],
   "note": ""
  },
  {
   "property": "C15",
   "status": "proved",
   "theorems": [
    "C15_unique_sample_size"
   ],
   "note": ""
  },
  {
   "property": "C16",
   "status": "proved",
   "theorems": [
    "C16_trim_weights"
   ],
   "note": ""
  },
  {
   "property": "C17",
   "status": "proved",
   "theorems": [
    "C17_trim_unattainable",
    "C17_trim_nan"
   ],
   "note": "ess > 1 and NaN weights always end in IndexError."
  },
  {
   "property": "C18",
   "status": "proved",
   "theorems": [
    "C18_systematic_counts"
   ],
   "note": ""
  },
  {
   "property": "C19",
   "status": "proved",
   "theorems": [
    "C19_systematic_unbiased"
   ],
   "note": ""
  },
  {
   "property": "C20",
   "status": "proved",
   "theorems": [
    "C20_systematic_index_error",
    "C20_systematic_index_error_reachable"
   ],
   "note": "Finding: weights whose sum is below 1 within the tolerance are not renormalised, so IndexError is reachable; exact characterisation proved."
  },
  {
   "property": "C21",
   "status": "proved",
   "theorems": [
    "C21_systematic_positive_weight",
    "C21_systematic_zero_offset"
   ],
   "note": "Finding: offset 0 always selects particle 0, even with weight 0."
  },
  {
   "property": "C22",
   "status": "proved",
   "theorems": [
    "C22_compute_ess_increment_logz"
   ],
   "note": ""
  },
  {
   "property": "C23",
   "status": "proved",
   "theorems": [
    "C23_append_only_log",
    "C23_only_pop_of_empty_fails",
    "C23_get_variants"
   ],
   "note": ""
  },
  {
   "property": "C24",
   "status": "proved",
   "theorems": [
    "C24_results_frozen",
    "C24_results_first_access",
    "C24_results_stale",
    "C24_results_after_error"
   ],
   "note": ""
  },
  {
   "property": "C25",
   "status": "proved",
   "theorems": [
    "C25_balance_weights",
    "C25_empty_history_raises"
   ],
   "note": ""
  },
  {
   "property": "C26",
   "status": "proved",
   "theorems": [
    "C26_rescaling",
    "C26_prior_only"
   ],
   "note": ""
  },
  {
   "property": "C27",
   "status": "proved",
   "theorems": [
    "C27_only_valid",
    "C27_validation"
   ],
   "note": ""
  },
  {
   "property": "C28",
   "status": "proved",
   "theorems": [
    "C28_derived_defaults",
    "C28_binary64_prior_size_refuted"
   ],
   "note": ""
  },
  {
   "property": "C29",
   "status": "proved",
   "theorems": [
    "C29_step_defaults",
    "C29_one_dimension"
   ],
   "note": ""
  },
  {
   "property": "C30",
   "status": "proved",
   "theorems": [
    "C30_integer_pool",
    "C30_pool_object"
   ],
   "note": ""
  },
  {
   "property": "C31",
   "status": "proved",
   "theorems": [
    "C31_temperatures_binary64",
    "C31_temperatures_exact",
    "C31_run",
    "C31_resumed_run"
   ],
   "note": ""
  },
  {
   "property": "C32",
   "status": "proved",
   "theorems": [
    "C32_temperature_step",
    "C32_any_arithmetic"
   ],
   "note": "Exact arithmetic (three cases with the 1% band); any arithmetic for the computed sample sizes, where the search may also end because its bracket collapsed at 1."
  },
  {
   "property": "C33",
   "status": "proved",
   "theorems": [
    "C33_search_terminates",
    "C33_binary64_refuted"
   ],
   "note": "Proved in exact arithmetic (continuity of both metrics, intermediate values); refuted in binary64: C33_binary64_refuted is a reachable state on which the bisection never ends."
  },
  {
   "property": "C34",
   "status": "proved",
   "theorems": [
    "C34_converged_any_arithmetic",
    "C34_converged",
    "C34_second_run",
    "C34_second_run_smaller"
   ],
   "note": "Same target: any arithmetic; smaller target: exact arithmetic (the order of the integers is needed)."
  },
  {
   "property": "C35",
   "status": "proved",
   "theorems": [
    "C35_exact_arithmetic",
    "C35_binary64_arithmetic",
    "C35_particles_are_consistent",
    "C35_particles_are_consistent_exact"
   ],
   "note": "For every arithmetic that is float_like (instances proved: exact extended reals, binary64 with any libm where exp(-inf)=+0 and exp(NaN)=NaN). For a prior draw u is the image of x and logdetj that of u; in exact arithmetic x is also the image of u."
  },
  {
   "property": "C36",
   "status": "proved",
   "theorems": [
    "C36_history_is_rectangular"
   ],
   "note": ""
  },
  {
   "property": "C37",
   "status": "proved",
   "theorems": [
    "C37_support_binary64",
    "C37_support_exact"
   ],
   "note": "Exact arithmetic: full statement. binary64: everything except that the logdetj of a prior draw may overflow when x is extremely close to a bound (it is finite for every accepted proposal)."
  },
  {
   "property": "C38",
   "status": "proved",
   "theorems": [
    "C38_likelihood_in_support_iterations",
    "C38_likelihood_in_support_evidence",
    "C38_run",
    "C38_likelihood_in_support_mcmc"
   ],
   "note": "Kernels: C38_likelihood_in_support_mcmc. Runs: replacing the likelihood outside the support changes nothing. For the evidence estimate the code checks only that the log-prior is finite; that the coordinates are finite follows for priors whose log-density is finite at finite points only (the second disjunct of the hypothesis)."
  },
  {
   "property": "C39",
   "status": "proved",
   "theorems": [
    "C39_calls_counted",
    "C39_iteration"
   ],
   "note": ""
  },
  {
   "property": "C40",
   "status": "proved",
   "theorems": [
    "C40_steps_and_evaluations",
    "C40_evaluations_observable",
    "C40_terminates"
   ],
   "note": "For every number type (binary64 included). Termination assumes the user's functions, the linear algebra and the boundary-condition loops end (C13)."
  },
  {
   "property": "C41",
   "status": "proved",
   "theorems": [
    "C41_scale_range",
    "C41_scale_range_step",
    "C41_preconditioned_rwm_negative_refuted",
    "C41_preconditioned_rwm_decreases"
   ],
   "note": "Exact arithmetic. The preconditioned random walk part of the claim is a finding: _refuted shows a negative scale."
  },
  {
   "property": "C42",
   "status": "proved",
   "theorems": [
    "C42_rwm_step",
    "C42_preconditioned_rwm_step",
    "C42_detailed_balance",
    "C42_proposal_density",
    "C42_reversible_noise",
    "C80_rwm_chain",
    "C80_preconditioned_rwm_chain"
   ],
   "note": "Exact arithmetic; kernel steps follow the Metropolis-Hastings rule, and the rule with that proposal satisfies detailed balance (density form and noise form)."
  },
  {
   "property": "C43",
   "status": "proved",
   "theorems": [
    "C43_pcn_step",
    "C43_preconditioned_pcn_step",
    "C43_detailed_balance",
    "C43_proposal_density",
    "C43_reversible_noise",
    "C80_pcn_chain",
    "C80_preconditioned_pcn_chain"
   ],
   "note": "Exact arithmetic, for fixed mean, covariance, degrees of freedom and scale; the gamma draw is an oracle, its density enters the balance equation."
  },
  {
   "property": "C44",
   "status": "proved",
   "theorems": [
    "C44_probability",
    "C44_probability_binary64",
    "C44_undefined_rejected",
    "C44_undefined_zero",
    "C44_no_uninitialised_memory"
   ],
   "note": "Exact and binary64 arithmetic; in binary64 exp is an oracle that is NaN or non-negative."
  },
  {
   "property": "C45",
   "status": "proved",
   "theorems": [
    "C45_iter_record",
    "C45_iteration"
   ],
   "note": "Finding: the theorem states what is recorded (the index of the last warm-up batch, repeated)."
  },
  {
   "property": "C46",
   "status": "proved",
   "theorems": [
    "C46_dynamic_adjustment"
   ],
   "note": ""
  },
  {
   "property": "C47",
   "status": "proved",
   "theorems": [
    "C47_resampling_copies_particles"
   ],
   "note": ""
  },
  {
   "property": "C48",
   "status": "proved",
   "theorems": [
    "C48_infinite_rows_are_replaced",
    "C48_all_infinite"
   ],
   "note": "NaN log-likelihoods are kept (nisinf NaN = false); all rows infinite: never Ok, ValueError unless a user function raised."
  },
  {
   "property": "C49",
   "status": "proved",
   "theorems": [
    "C49_exact_nan",
    "C49_binary64_nan",
    "C49_weights",
    "C49_iteration_fails",
    "C49_posterior",
    "C49_returned",
    "C49_iteration_raises",
    "C49_run_raises"
   ],
   "note": ""
  },
  {
   "property": "C50",
   "status": "proved",
   "theorems": [
    "C50_rows_are_particles",
    "C50_weights",
    "C50_no_blobs"
   ],
   "note": ""
  },
  {
   "property": "C51",
   "status": "proved",
   "theorems": [
    "C51_trimmed_log_weights"
   ],
   "note": ""
  },
  {
   "property": "C52",
   "status": "proved",
   "theorems": [
    "C52_importance_evidence"
   ],
   "note": "Finding: draws of zero prior density are dropped from the denominator; the theorem states the resulting bias ln(n/kept), and NaN when none is kept."
  },
  {
   "property": "C53",
   "status": "proved",
   "theorems": [
    "C53_smc_evidence",
    "C53_any_arithmetic",
    "C53_before_run"
   ],
   "note": ""
  },
  {
   "property": "C54",
   "status": "proved",
   "theorems": [
    "C54_saved_attributes",
    "C54_sampler_with_pool",
    "C54_load",
    "C54_attributes_unique",
    "C54_nothing_lost"
   ],
   "note": ""
  },
  {
   "property": "C55",
   "status": "proved",
   "theorems": [
    "C55_pool_discarded"
   ],
   "note": ""
  },
  {
   "property": "C56",
   "status": "proved",
   "theorems": [
    "C56_crash_safe",
    "C56_other_files",
    "C56_returned",
    "C56_temp_refuted",
    "C56_no_parents"
   ],
   "note": ""
  },
  {
   "property": "C57",
   "status": "proved",
   "theorems": [
    "C57_checkpoints",
    "C57_nothing_written"
   ],
   "note": ""
  },
  {
   "property": "C58",
   "status": "proved",
   "theorems": [
    "C58_resumed_run_continues"
   ],
   "note": ""
  },
  {
   "property": "C59",
   "status": "proved",
   "theorems": [
    "C59_prior_batches_are_repeated"
   ],
   "note": ""
  },
  {
   "property": "C60",
   "status": "proved",
   "theorems": [
    "C60_pre_run_state"
   ],
   "note": ""
  },
  {
   "property": "C61",
   "status": "proved",
   "theorems": [
    "C61_workers",
    "C61_results_in_task_order",
    "C61_each_task_once"
   ],
   "note": ""
  },
  {
   "property": "C62",
   "status": "proved",
   "theorems": [
    "C62_no_deadlock",
    "C62_every_fair_schedule_returns",
    "C62_fair_schedule_exists",
    "C62_messages_and_reuse",
    "C62_no_worker_never_returns"
   ],
   "note": ""
  },
  {
   "property": "C63",
   "status": "proved",
   "theorems": [
    "C63_close_no_deadlock",
    "C63_one_message_each",
    "C63_every_worker_exits",
    "C63_close_on_worker",
    "C63_second_close_unread"
   ],
   "note": ""
  },
  {
   "property": "C64",
   "status": "proved",
   "theorems": [
    "C64_serial_pool_vectorised_agree",
    "C64_pool_any_result",
    "C64_mpi_pool"
   ],
   "note": ""
  },
  {
   "property": "C65",
   "status": "proved",
   "theorems": [
    "C65_blobs_aligned",
    "C65_blobs_misaligned",
    "C65_bare_tuple_raises"
   ],
   "note": ""
  },
  {
   "property": "C66",
   "status": "proved",
   "theorems": [
    "C66_geometry_fitted",
    "C66_interrupted_refuted"
   ],
   "note": "Holds unless an exception interrupts the training of the flow and the sampler is used again: C66_interrupted_refuted."
  },
  {
   "property": "C67",
   "status": "proved",
   "theorems": [
    "C67_training_schedule"
   ],
   "note": ""
  },
  {
   "property": "C68",
   "status": "proved",
   "theorems": [
    "C68_nu_finite",
    "C68_student_fit",
    "C68_fit_succeeds",
    "C68_geometry_fit"
   ],
   "note": "np.linalg.solve, scipy psi and bisect are oracles with the stated specifications; also proved: positive definiteness and success for samples not in a hyperplane."
  },
  {
   "property": "C69",
   "status": "proved",
   "theorems": [
    "C69_covariance_kind",
    "C69_random_walk_raises",
    "C69_tpcn_unaffected"
   ],
   "note": "Finding: rwm and preconditioned_rwm raise LinAlgError for n_dim=1."
  },
  {
   "property": "C70",
   "status": "proved",
   "theorems": [
    "C70_width",
    "C70_names",
    "C70_other_names_raise"
   ],
   "note": ""
  },
  {
   "property": "C71",
   "status": "proved",
   "theorems": [
    "C71_partition",
    "C71_split_counts",
    "C71_validation_fraction_refuted",
    "C71_epoch_uses_all",
    "C71_empty_set_raises"
   ],
   "note": "Finding: validation_split is the training fraction; refutation of the documented meaning included. An empty set makes training raise."
  },
  {
   "property": "C72",
   "status": "proved",
   "theorems": [
    "C72_training",
    "C72_best_model_on_exhaustion_refuted",
    "C72_training_returns"
   ],
   "note": "Finding: on running out of epochs the last, not the best, parameters are kept; witness included. C72_training_returns: training raises nothing."
  },
  {
   "property": "C73",
   "status": "proved",
   "theorems": [
    "C73_noise_last_sample",
    "C73_mean_nearest_distance_refuted"
   ],
   "note": "Finding: the noise scale uses the last sample only; witness included."
  },
  {
   "property": "C74",
   "status": "proved",
   "theorems": [
    "C74_penalty",
    "C74_penalty_nonneg",
    "C74_penalty_zero",
    "C74_weight_names"
   ],
   "note": "Weights are those of the hyper-networks whose name ends in weight; scales non-zero."
  },
  {
   "property": "C75",
   "status": "proved",
   "theorems": [
    "C75_float32_or_rejected",
    "C75_result_is_float32"
   ],
   "note": "Finding: float64 with warn=False raises."
  },
  {
   "property": "C76",
   "status": "proved",
   "theorems": [
    "C76_fit_standardises",
    "C76_constant_coordinate_nan"
   ],
   "note": "Finding: constant coordinate gives NaN."
  },
  {
   "property": "C77",
   "status": "proved",
   "theorems": [
    "C77_multinomial_draws",
    "C77_multinomial_error"
   ],
   "note": ""
  },
  {
   "property": "C78",
   "status": "proved",
   "theorems": [
    "C78_training_options"
   ],
   "note": ""
  },
  {
   "property": "C79",
   "status": "proved",
   "theorems": [
    "C79_files_of_a_run",
    "C79_killed_run"
   ],
   "note": ""
  },
  {
   "property": "C80",
   "status": "proved",
   "theorems": [
    "C80_rwm_chain",
    "C80_preconditioned_rwm_chain",
    "C80_pcn_chain",
    "C80_preconditioned_pcn_chain"
   ],
   "note": "Exact arithmetic, bijective flow, likelihood nowhere +infinity, particles of positive density. Detailed balance of the single step is C42 and C43."
  },
  {
   "property": "C81",
   "status": "proved",
   "theorems": [
    "C81_pcn_at_least_n_steps",
    "C81_preconditioned_pcn_at_least_n_steps",
    "C80_rwm_chain",
    "C80_preconditioned_rwm_chain",
    "C80_pcn_chain",
    "C80_preconditioned_pcn_chain"
   ],
   "note": "Conjuncts mean_value and stops of the chain theorems, and the lower bound they imply."
  },
  {
   "property": "C82",
   "status": "proved",
   "theorems": [
    "C80_rwm_chain",
    "C80_preconditioned_rwm_chain",
    "C80_pcn_chain",
    "C80_preconditioned_pcn_chain"
   ],
   "note": "Conjuncts adapts and follows of the chain theorems; result_of for what is reported."
  },
  {
   "property": "C83",
   "status": "proved",
   "theorems": [
    "C83_rwm_returns",
    "C83_preconditioned_rwm_returns",
    "C83_pcn_returns",
    "C83_preconditioned_pcn_returns"
   ],
   "note": "The likelihood is assumed to return on every batch, the empty one included."
  },
  {
   "property": "C84",
   "status": "proved",
   "theorems": [
    "C84_random_walk",
    "C84_preconditioned_random_walk",
    "C84_crank_nicolson",
    "C84_preconditioned_crank_nicolson"
   ],
   "note": "Exact arithmetic, one theorem per kernel. That the proposal distribution is proper is a hypothesis here; C85 gives it."
  },
  {
   "property": "C85",
   "status": "proved",
   "theorems": [
    "C85_fitted_geometry",
    "C85_survivors",
    "C85_throughout",
    "C85_iterations",
    "C85_run"
   ],
   "note": "The answers of cholesky, inv, the linear solver of the fit and the root search are assumed to be right (good_linalg, good_solve, good_bisect). C85_throughout and C85_run cover iterations that do not train the flow; they start from an untrained flow and exclude exceptions caught in between (finding of C66)."
  },
  {
   "property": "C86",
   "status": "proved",
   "theorems": [
    "C86_iteration_returns",
    "C86_flow_iteration_returns",
    "C86_loop_raises_nothing",
    "C86_plain_iteration_returns",
    "C86_run_raises_nothing",
    "C86_later_run_raises_nothing",
    "C86_resumed_run_raises_nothing"
   ],
   "note": "C86_iteration_returns: every kernel; the fit is assumed to return and to be proper (C85 gives the latter from what the fit returned). C86_plain_iteration_returns and C86_flow_iteration_returns: without and with the flow; nothing is assumed of the training or of the fit except that the linear algebra answers on positive definite matrices and that the points the fit is given are not all in one hyperplane. C86_loop_raises_nothing: every number of iterations of the loop. C86_run_raises_nothing: the whole run of a new sampler, from the prior draws to the evidence; whether the loop ends is not claimed."
  },
  {
   "property": "C87",
   "status": "proved",
   "theorems": [
    "C87_recorded_evidence"
   ],
   "note": ""
  },
  {
   "property": "C88",
   "status": "proved",
   "theorems": [
    "C88_recorded_range",
    "C88_evidence_range"
   ],
   "note": ""
  },
  {
   "property": "C89",
   "status": "proved",
   "theorems": [
    "C89_run",
    "C89_state"
   ],
   "note": ""
  },
  {
   "property": "C90",
   "status": "proved",
   "theorems": [
    "C90_run",
    "C90_state"
   ],
   "note": ""
  },
  {
   "property": "C91",
   "status": "proved",
   "theorems": [
    "C91_fit_data"
   ],
   "note": ""
  },
  {
   "property": "C92",
   "status": "proved",
   "theorems": [
    "C92_student_fit",
    "C92_geometry_fit",
    "C92_iteration"
   ],
   "note": "The answers of the linear solver and the root search are assumed to be right (good_solve, good_bisect), psi to be the derivative of a function lgamma (digamma)."
  },
  {
   "property": "C93",
   "status": "proved",
   "theorems": [
    "C93_warm_up"
   ],
   "note": ""
  },
  {
   "property": "C94",
   "status": "proved",
   "theorems": [
    "C94_step_size_recorded",
    "C94_step_size",
    "C94_next_iteration"
   ],
   "note": ""
  },
  {
   "property": "C95",
   "status": "proved",
   "theorems": [
    "C95_evidence_error"
   ],
   "note": ""
  },
  {
   "property": "C96",
   "status": "proved",
   "theorems": [
    "C96_copied_attributes",
    "C96_serial",
    "C96_pooled",
    "C96_evaluation"
   ],
   "note": "Finding: the copy of a sampler with a pool cannot evaluate the likelihood. dill/pickle is assumed to restore what it wrote."
  },
  {
   "property": "C97",
   "status": "proved",
   "theorems": [
    "C97_first_run",
    "C97_efficiency_exact",
    "C97_later_run",
    "C97_recorded_calls_refuted",
    "C97_nothing_added",
    "C97_resumed_run",
    "C97_resumed_nothing_added",
    "C97_display_only"
   ],
   "note": "Finding: in a later run the bar and the recorded number of calls differ by the calls spent on an earlier importance estimate of the evidence (C97_recorded_calls_refuted). The efficiency on the bar is computed with np.sqrt, the recorded one with ** 0.5: stated where they agree, proved to agree in exact arithmetic (C97_efficiency_exact)."
  }
 ]
}
{
 "claims": [
  {
   "property": "C01",
   "status": "proved",
   "theorems": [
    "C01_memory_newest"
   ],
   "note": ""
  },
  {
   "property": "C02",
   "status": "proved",
   "theorems": [
    "C02_legal_accepted",
    "C02_malformed_rejected"
   ],
   "note": "Assertions are checked in program order in the model; TensorFlow may report any violated one."
  },
  {
   "property": "C03",
   "status": "proved",
   "theorems": [
    "C03_episode_index"
   ],
   "note": ""
  },
  {
   "property": "C04",
   "status": "proved",
   "theorems": [
    "C04_recent_episodes"
   ],
   "note": ""
  },
  {
   "property": "C05",
   "status": "proved",
   "theorems": [
    "C05_replay_episodes"
   ],
   "note": ""
  },
  {
   "property": "C06",
   "status": "partial",
   "theorems": [
    "C06_recent_timesteps_partial",
    "C06_replay_timesteps_partial",
    "C06_timesteps_refuted"
   ],
   "note": "Proved while the episode count does not exceed the number of timesteps with full context; otherwise false of the code (max(..., episode_count) in retrieve_timesteps), witness in C06_timesteps_refuted."
  },
  {
   "property": "C07",
   "status": "proved",
   "theorems": [
    "C07_predecessors"
   ],
   "note": ""
  },
  {
   "property": "C08",
   "status": "proved",
   "theorems": [
    "C08_successors"
   ],
   "note": ""
  },
  {
   "property": "C09",
   "status": "proved",
   "theorems": [
    "C09_same_log",
    "C09_split_batch"
   ],
   "note": ""
  },
  {
   "property": "C10",
   "status": "proved",
   "theorems": [
    "C10_reset"
   ],
   "note": ""
  },
  {
   "property": "C11",
   "status": "proved",
   "theorems": [
    "C11_finished_return",
    "C11_both_implementations"
   ],
   "note": "Exact arithmetic (any field), discount and horizon constant, baseline without on-policy past horizon."
  },
  {
   "property": "C12",
   "status": "proved",
   "theorems": [
    "C12_abort_bootstraps",
    "C12_terminal_no_bootstrap"
   ],
   "note": "For discount != 0 when the episode is aborted (the iterative code divides by the discount)."
  },
  {
   "property": "C13",
   "status": "proved",
   "theorems": [
    "C13_stored_estimates",
    "C13_one_go",
    "C13_chunking_irrelevant"
   ],
   "note": "Reward-estimation settings and baseline constant during the run, discount != 0, trace_decay only with episodes of at least two timesteps; early (not late) horizon values."
  },
  {
   "property": "C14",
   "status": "partial",
   "theorems": [
    "C14_lambda_return_partial",
    "C14_lambda_one",
    "C14_single_timestep_refuted"
   ],
   "note": "Proved for episodes of at least two timesteps. False for a single timestep: the code indexes an empty vector (C14_single_timestep_refuted)."
  },
  {
   "property": "C15",
   "status": "proved",
   "theorems": [
    "C15_gae_no_leak"
   ],
   "note": "The scan over a batch of consecutive timesteps (episodes batch unit or recent memory); advantages are inputs."
  },
  {
   "property": "C16",
   "status": "proved",
   "theorems": [
    "C16_accepted",
    "C16_every_timestep_once"
   ],
   "note": "Histories following the calling rules; the only possible failure is an update finding too little data."
  },
  {
   "property": "C17",
   "status": "proved",
   "theorems": [
    "C17_act_after_observe",
    "C17_observe_after_act",
    "C17_act_rejected",
    "C17_observe_rejected"
   ],
   "note": "For every history (not only legal ones) whose calls so far succeeded."
  },
  {
   "property": "C18",
   "status": "proved",
   "theorems": [
    "C18_passes_on",
    "C18_exactly_once",
    "C18_batches",
    "C18_flushed_at_end"
   ],
   "note": "Between agent and model object; batches of buffer_observe observations."
  },
  {
   "property": "C19",
   "status": "proved",
   "theorems": [
    "C19_counters"
   ],
   "note": "For every history whose calls succeeded; without saving/loading."
  },
  {
   "property": "C20",
   "status": "proved",
   "theorems": [
    "C20_actions_of_own_calls",
    "C20_other_streams_irrelevant",
    "C20_episodes_of_own_calls"
   ],
   "note": "Policy output per batch row depends only on that row; preprocessing layers with shared state are outside this model (see C44/C45)."
  },
  {
   "property": "C21",
   "status": "proved",
   "theorems": [
    "C21_length_and_return",
    "C21_complete_at_end",
    "C21_zero_between"
   ],
   "note": "Exact arithmetic; without reward processing layers."
  },
  {
   "property": "C22",
   "status": "partial",
   "theorems": [
    "C22_limit_partial",
    "C22_rejected_partial",
    "C22_refuted"
   ],
   "note": "The limit holds for unfinished episodes; one extra timestep is accepted if it ends the episode (C22_refuted), which overwrites a circular buffer."
  },
  {
   "property": "C23",
   "status": "partial",
   "theorems": [
    "C23_recurrent_state_partial",
    "C23_refuted"
   ],
   "note": "Without resets in the middle of an episode; with them it is false (C23_refuted): reset leaves previous_internals."
  },
  {
   "property": "C24",
   "status": "partial",
   "theorems": [
    "C24_episodes",
    "C24_timesteps_start_partial",
    "C24_timesteps_apart_partial",
    "C24_timesteps_horizon_partial",
    "C24_start_refuted",
    "C24_spacing_refuted"
   ],
   "note": "Unit episodes proved in full for constant start/frequency. Unit timesteps: proved for horizon \"episode\"; with a horizon in timesteps the start is ignored after the first episode and the spacing around its end is too short (C24_start_refuted, C24_spacing_refuted)."
  },
  {
   "property": "C25",
   "status": "partial",
   "theorems": [
    "C25_unchanged_partial",
    "C25_removable_partial",
    "C25_preprocessing_refuted"
   ],
   "note": "Proved for counters, buffers, internals and the recorder. Refuted for preprocessing: Sequence and Deltafier remember the states of independent acts."
  },
  {
   "property": "C26",
   "status": "partial",
   "theorems": [
    "C26_files_partial",
    "C26_from_first",
    "C26_single_stream",
    "C26_earlier_files_partial",
    "C26_every_file_partial",
    "C26_no_failure_partial",
    "C26_start_refuted",
    "C26_columns_refuted",
    "C26_reset_refuted"
   ],
   "note": "Proved in full for start=0 (any number of parallel streams and interleaving) and for one stream (any start), without resets and max-traces; in general under clean_start: no stream within an episode when recording begins. False otherwise: observe may raise (C26_start_refuted) or write columns of different lengths (C26_columns_refuted); a reset discards unwritten episodes (C26_reset_refuted). File numbers below 10^9."
  },
  {
   "property": "C27",
   "status": "partial",
   "theorems": [
    "C27_newest_partial",
    "C27_one_refuted",
    "C27_earlier_run_refuted"
   ],
   "note": "Proved for max-traces >= 2 and an initially empty directory. False for max-traces=1, which removes nothing (C27_one_refuted), and in a directory with traces of an earlier run (C27_earlier_run_refuted)."
  },
  {
   "property": "C28",
   "status": "proved",
   "theorems": [
    "C28_episodes",
    "C28_incomplete_rejected",
    "C28_mid_episode_rejected"
   ],
   "note": ""
  },
  {
   "property": "C29",
   "status": "proved",
   "theorems": [
    "C29_finishes_at_most",
    "C29_finishes_at_least",
    "C29_finishes_exactly",
    "C29_stops"
   ],
   "note": "For separate environments (not vectorised ones), also with batched calls, synchronised episodes and an evaluation environment. With sync_episodes at most max(N, number of training environments) episodes; the evaluation environment's episodes are not counted."
  },
  {
   "property": "C30",
   "status": "partial",
   "theorems": [
    "C30_executes_exactly",
    "C30_parallel",
    "C30_evaluation_refuted"
   ],
   "note": "Proved for one training environment, with bounds T and T+k-1 for k environments. Refuted for a single evaluation environment: its last episode is not aborted."
  },
  {
   "property": "C31",
   "status": "partial",
   "theorems": [
    "C31_protocol",
    "C31_batched_limit_refuted"
   ],
   "note": "Proved for unbatched calls with any limits and callbacks, and for batched calls without timestep/update limits. Refuted for batched calls with a timestep limit: the aborted episode is never closed for the agent. Vectorised environments are not modelled."
  },
  {
   "property": "C32",
   "status": "proved",
   "theorems": [
    "C32_statistics"
   ],
   "note": "Under the same conditions as C31; in the refuted case of C31 a return is recorded for an episode the agent was not told to be finished."
  },
  {
   "property": "C33",
   "status": "partial",
   "theorems": [
    "C33_episode_limit_partial",
    "C33_never_stops_refuted"
   ],
   "note": "Proved for a limit on episodes. Refuted in general: without one, sync_episodes never stops, whatever the timestep and update limits and the callback."
  },
  {
   "property": "C34",
   "status": "partial",
   "theorems": [
    "C34_limit",
    "C34_exact",
    "C34_at_most",
    "C34_closed",
    "C34_shaped_parallel_refuted"
   ],
   "note": "Wrapper model with arbitrary environments, single or parallel, with or without reward shaping. Step count, aborted flag at the limit, unchanged answers otherwise, errors after the end (C34_exact, C34_at_most, C34_closed). Refuted: with a shaping function, parallel execution never returns."
  },
  {
   "property": "C35",
   "status": "partial",
   "theorems": [
    "C35_same_results_partial",
    "C35_step_completes",
    "C35_ends_at_error",
    "C35_lost_error_refuted",
    "C35_none_attribute_refuted",
    "C35_set_method_refuted"
   ],
   "note": "Arbitrary interleaving of user, worker process and thread over a reliable connection; single environments. The results agree with direct use up to the first error for users who receive what they started. Refuted: in non-blocking mode errors are never reported, an attribute None reads as a function, setting a method calls it. Seconds and vectorised use are not modelled."
  },
  {
   "property": "C36",
   "status": "partial",
   "theorems": [
    "C36_never_wrong",
    "C36_small_unsplit_partial",
    "C36_large_refuted",
    "C36_split_refuted"
   ],
   "note": "Every message received is the one sent, for all sizes and all ways of splitting (C36_never_wrong); messages below 4096 bytes which are not split are all received. Refuted: messages of 4096 bytes or more, and replies arriving in pieces, are never received."
  },
  {
   "property": "C37",
   "status": "proved",
   "theorems": [
    "C37_get_after_set",
    "C37_set_other",
    "C37_contains",
    "C37_no_overwrite",
    "C37_pop",
    "C37_items",
    "C37_items_after_set",
    "C37_insertion_order",
    "C37_copy",
    "C37_fmap"
   ],
   "note": "Key syntax (splitting a string at '/') is represented by lists of components; that copy shares no mutable storage is not part of a functional model, only that its entries are the same."
  },
  {
   "property": "C38",
   "status": "partial",
   "theorems": [
    "C38_roundtrip",
    "C38_roundtrip_outputs",
    "C38_order",
    "C38_to_list_partial",
    "C38_to_list_dict_partial",
    "C38_to_list_refuted",
    "C38_missing_refuted",
    "C38_double_refuted"
   ],
   "note": "Round trip proved for signatures without a singleton directly inside a singleton (C38_double_refuted). Order proved for every signature. to_list agrees except for singletons of dictionaries (C38_to_list_refuted). A missing keyword is not always rejected (C38_missing_refuted)."
  },
  {
   "property": "C39",
   "status": "partial",
   "theorems": [
    "C39_make_partial",
    "C39_bound_shape",
    "C39_ordered_bounds",
    "C39_converted_entries",
    "C39_accepts_partial",
    "C39_result_partial",
    "C39_open_rejected",
    "C39_from_tensor",
    "C39_in_out",
    "C39_np_assert_partial",
    "C39_conversion_refuted",
    "C39_bounds_refuted",
    "C39_rounded_bound_refuted",
    "C39_batch_axis_refuted"
   ],
   "note": "Exactly the described values for values of the right type, bounds that are numbers or arrays of the full shape, and batches with a batch axis. False otherwise: values of other types are converted silently, 1.7 to the integer 1 (C39_conversion_refuted); an array of bounds for leading axes is compared along the last axes (C39_bounds_refuted); fractional bounds of integers are truncated (C39_rounded_bound_refuted); a number passes as a batch (C39_batch_axis_refuted)."
  },
  {
   "property": "C40",
   "status": "partial",
   "theorems": [
    "C40_upper_arrays",
    "C40_lower_arrays",
    "C40_arrays_refuted",
    "C40_unify_partial",
    "C40_max_refuted",
    "C40_num_refuted",
    "C40_rank_refuted"
   ],
   "note": "Proved for numeric bounds and known rank while no bound is lost (no_loss). False in general: of two max_values the larger is kept (C40_max_refuted), min/max_value are dropped if the other side has num_values (C40_num_refuted), open rank reverses the other shape (C40_rank_refuted). Array bounds: of arrays of one shape and type float the smaller lower and the larger upper entries are kept, so C40 is refuted for them, also for lower bounds."
  },
  {
   "property": "C41",
   "status": "proved",
   "theorems": [
    "C41_merge",
    "C41_error_means_conflict"
   ],
   "note": "Values of sequences are compared as the code does (lists of equal content count as equal to tuples). Source dictionaries have distinct keys, as Python dictionaries do."
  },
  {
   "property": "C42",
   "status": "partial",
   "theorems": [
    "C42_decaying_partial",
    "C42_constant_partial",
    "C42_inverse_partial",
    "C42_others",
    "C42_inverse_time_refuted",
    "C42_restarts_refuted",
    "C42_noisy_refuted",
    "C42_inverse_refuted"
   ],
   "note": "Proved for constant, random, Ornstein-Uhlenbeck and piecewise parameters, and for decaying ones without inverse whose decay is not one of those refuted; with inverse, the lower bound holds up to epsilon. Refuted: inverse_time with rate 1 is taken to be constant; cosine_restarts with m_mul > 1 exceeds the initial value; the noise of linear_cosine_noisy is unbounded; with inverse, the value falls below the minimum by epsilon. Floats are real numbers; TensorFlow's schedules are given by their documented formulas; a negative power is excluded."
  },
  {
   "property": "C43",
   "status": "proved",
   "theorems": [
    "C43_switches",
    "C43_total",
    "C43_rejects"
   ],
   "note": "Equal boundaries are accepted, although the documentation asks for strictly increasing ones; an empty list is an IndexError."
  },
  {
   "property": "C44",
   "status": "partial",
   "theorems": [
    "C44_sequence_partial",
    "C44_episode_only",
    "C44_batched",
    "C44_streams_refuted",
    "C44_agent_reset_refuted",
    "C44_experience_refuted"
   ],
   "note": "Proved for one stream and acts which are not independent, from the start or after any terminal observe; for all stacks of layers, nothing before the last terminal observe matters. Refuted: the remembered states are shared by parallel streams, changed by independent acts (C25), kept by Agent.reset() and after experience()."
  },
  {
   "property": "C45",
   "status": "partial",
   "theorems": [
    "C45_deltafier_partial",
    "C45_batched",
    "C45_streams_refuted",
    "C45_agent_reset_refuted",
    "C45_experience_refuted"
   ],
   "note": "Proved for one stream and acts which are not independent, from the start or after any terminal observe. Refuted as for C44."
  },
  {
   "property": "C46",
   "status": "proved",
   "theorems": [
    "C46_linear",
    "C46_range",
    "C46_rejects"
   ],
   "note": "Floats are real numbers; the bounds are given per entry (broadcasting is numpy's)."
  },
  {
   "property": "C47",
   "status": "proved",
   "theorems": [
    "C47_reported_change",
    "C47_global"
   ],
   "note": "Floats are real numbers; TensorFlow keeps shapes; source and global variables have the shapes of the trained ones (asserted by the code). All eleven optimizer classes in any nesting."
  },
  {
   "property": "C48",
   "status": "proved",
   "theorems": [
    "C48_doublecheck",
    "C48_wrapper"
   ],
   "note": "For losses which give the same value when evaluated again on the same arguments and variables."
  },
  {
   "property": "C49",
   "status": "partial",
   "theorems": [
    "C49_search",
    "C49_evaluations",
    "C49_evaluations_refuted",
    "C49_changing_factor_refuted"
   ],
   "note": "Proved for a constant backtracking factor in [0,1]: point b^k on the line, k at most max_iterations + 1, never worse than the full step, variables left there; at most max_iterations + 3 evaluations. Refuted: max_iterations does not bound the evaluations; with a factor which changes between iterations the accepted point can lie outside the line."
  },
  {
   "property": "C50",
   "status": "proved",
   "theorems": [
    "C50_clipped",
    "C50_wrapper",
    "C50_multi"
   ],
   "note": "Threshold constant during the step and positive; real-number norms."
  },
  {
   "property": "C51",
   "status": "proved",
   "theorems": [
    "C51_schedule"
   ],
   "note": "Constant frequency; the counter starts at its initial value 0; arbitrary variable values between updates."
  },
  {
   "property": "C52",
   "status": "proved",
   "theorems": [
    "C52_subsampled"
   ],
   "note": "Indices are arbitrary numbers below the batch size; horizons must lie inside the states."
  },
  {
   "property": "C53",
   "status": "proved",
   "theorems": [
    "C53_residual",
    "C53_solution"
   ],
   "note": "Linear operator, constant damping, starting point 0."
  },
  {
   "property": "C54",
   "status": "partial",
   "theorems": [
    "C54_mode",
    "C54_value_policy",
    "C54_sample",
    "C54_many_actions_refuted",
    "C54_random",
    "C54_exploration"
   ],
   "note": "Proved for greedy selection, value policies, random exploration and, with at most 10^6 actions, sampling; reals instead of floats, allowed values above -2^120. Refuted for sampling among more actions: all probabilities can be below epsilon, then a masked action can win."
  },
  {
   "property": "C55",
   "status": "partial",
   "theorems": [
    "C55_gaussian",
    "C55_beta",
    "C55_exploration",
    "C55_inverse",
    "C55_preimage",
    "C55_inverse_refuted"
   ],
   "note": "Bounds proved for every admitted transform, Beta and exploration noise. The inverse transform is exact where the transform does not saturate; refuted beyond. Reals instead of floats."
  },
  {
   "property": "C56",
   "status": "partial",
   "theorems": [
    "C56_dash",
    "C56_dash_refuted",
    "C56_newest",
    "C56_latest_save",
    "C56_checkpoint",
    "C56_h5_refuted",
    "C56_other_agent_refuted"
   ],
   "note": "Proved for directories whose only files resembling saved files of the agent are its numbered files, for every order of the listing and every series of saves. Refuted with \".h5\" files (the counter is cut) and with a second agent in the directory. C56_dash: files of an agent whose name only has a dash more are ignored when numbered from 1; refuted for number 0."
  },
  {
   "property": "C57",
   "status": "partial",
   "theorems": [
    "C57_late_completion_partial",
    "C57_late_refuted"
   ],
   "note": "Proved except for the timestep at distance exactly h before a true terminal, where the completed value lacks g^h V(s_{T-1}); witness C57_late_refuted."
  },
  {
   "property": "C59",
   "status": "partial",
   "theorems": [
    "C59_same_lengths_partial",
    "C59_refuted"
   ],
   "note": "False: zip stops at the shorter sequence (C59_refuted); proved if sequences have equal lengths."
  },
  {
   "property": "C60",
   "status": "partial",
   "theorems": [
    "C60_sound_partial",
    "C60_reflexive_partial",
    "C60_read_listed_refuted",
    "C60_symmetric_refuted"
   ],
   "note": "Reflexive, and True implies equal content. Not symmetric, may raise (C60_symmetric_refuted); reading a name listed for a nested singleton gives a dictionary (C60_read_listed_refuted)."
  },
  {
   "property": "C61",
   "status": "partial",
   "theorems": [
    "C61_point_refuted",
    "C61_common_values_partial",
    "C61_scalar_refuted"
   ],
   "note": "Completeness of a successful unify proved for numeric bounds and known rank; success is not guaranteed: two specifications of shape () always raise IndexError (C61_scalar_refuted)."
  },
  {
   "property": "C62",
   "status": "partial",
   "theorems": [
    "C62_evaluation_internals",
    "C62_sync_episodes_refuted"
   ],
   "note": "Proved without sync_episodes; refuted with it: internals are not reset for the next evaluation episode."
  },
  {
   "property": "C63",
   "status": "partial",
   "theorems": [
    "C63_saved_when_better",
    "C63_first_refuted"
   ],
   "note": "Proved for all scores but the first; refuted: the first evaluation is never saved, so that if it is the best, nothing is."
  },
  {
   "property": "C64",
   "status": "partial",
   "theorems": [
    "C64_final_partial",
    "C64_final_refuted",
    "C64_linear_partial",
    "C64_linear_refuted",
    "C64_initial_partial",
    "C64_initial_refuted"
   ],
   "note": "Proved: a linear schedule is a straight line to the final value at step num_steps + 1; all schedules but linear_cosine start at the initial value (without increasing, inverse, scale). Refuted: the final value is not reached at num_steps; linear_cosine with default beta starts above the initial value. MoreProps: final_value() is the value from step num_steps+1 on for polynomial schedules without cycle and inverse; refuted for cosine (KeyError)."
  },
  {
   "property": "C65",
   "status": "proved",
   "theorems": [
    "C65_exponential_range",
    "C65_independent",
    "C65_moving_mean",
    "C65_instance",
    "C65_clipping"
   ],
   "note": "Floats are real numbers; one group of entries with common statistics at a time."
  },
  {
   "property": "C66",
   "status": "partial",
   "theorems": [
    "C66_default",
    "C66_by_name_partial",
    "C66_by_type_refuted"
   ],
   "note": "Proved for specifications by name and for the default, if no state is called like a type. Refuted: a dictionary by type is taken for the specification of a single layer for all states."
  },
  {
   "property": "C67",
   "status": "partial",
   "theorems": [
    "C67_kl_bound_partial",
    "C67_kl_learning_rate_refuted"
   ],
   "note": "Refuted for every learning rate between 1e-5 and 1/2: the estimate is at most the square of (learning rate + epsilon), hence below 2/3 of the learning rate. Partial: that bound, and non-negativity, for every positive learning rate, with only_positive_updates."
  },
  {
   "property": "C68",
   "status": "proved",
   "theorems": [
    "C68_mean_of_signed_perturbations"
   ],
   "note": "Constant learning rate and number of samples; deterministic loss; the random draws are arbitrary."
  },
  {
   "property": "C69",
   "status": "partial",
   "theorems": [
    "C69_aligned",
    "C69_fewer_variables_refuted"
   ],
   "note": "Proved for networks with equally many variables whose names are found and differ. Refuted if the other network has fewer variables."
  },
  {
   "property": "C70",
   "status": "partial",
   "theorems": [
    "C70_reachable",
    "C70_one_sided_refuted"
   ],
   "note": "Proved without bounds and for two bounds. Refuted for the clipping transform with one bound, which also clips to [-1, 1]."
  },
  {
   "property": "C71",
   "status": "partial",
   "theorems": [
    "C71_gaussian_lower_partial",
    "C71_beta",
    "C71_equal",
    "C71_lower_bound",
    "C71_gaussian_refuted",
    "C71_negative_refuted"
   ],
   "note": "Zero at equality for Categorical, Bernoulli and Beta; at least -n * epsilon for Categorical and -2 * epsilon for Bernoulli. Refuted: a Gaussian's divergence from itself is negative, and so can be that of two categoricals. Not covered: sign for Beta (lgamma and digamma are arbitrary functions here). DistMoreProps: Gaussian divergence at least the share of the means minus epsilon/s + epsilon/(2 s^2) (partial: not exactly non-negative, at least -312 epsilon); Beta divergence non-negative for any lgamma, digamma for which the logarithm of the Beta function is convex."
  },
  {
   "property": "C72",
   "status": "partial",
   "theorems": [
    "C72_bernoulli_sample",
    "C72_gaussian",
    "C72_tanh_refuted",
    "C72_categorical",
    "C72_advantage",
    "C72_masked_state_value_refuted",
    "C72_bernoulli"
   ],
   "note": "Proved; advantages without mask. Refuted with mask, since the state value ignores it (as a comment in the code says). DistMoreProps: the share of uniform draws giving true for any temperature; action value minus state value is the log-likelihood for Gaussian without tanh, refuted with tanh (the derivative term is missing in action_value)."
  },
  {
   "property": "C73",
   "status": "partial",
   "theorems": [
    "C73_separate",
    "C73_greedy_value",
    "C73_greedy_bool",
    "C73_mean",
    "C73_policy_value",
    "C73_separate_refuted"
   ],
   "note": "Proved for the modes implicit and separate. Refuted for the policy's state value in the mode separate, which is the mean of the action values. Mode separate-per-action is not modelled. DistMoreProps: mode separate, the policy's state value is the mean action value of each component."
  },
  {
   "property": "C74",
   "status": "proved",
   "theorems": [
    "C74_reverted"
   ],
   "note": "Proved over the reals; float addition and subtraction do not cancel exactly."
  },
  {
   "property": "C75",
   "status": "partial",
   "theorems": [
    "C75_zero_temperature",
    "C75_mode",
    "C75_beta_refuted",
    "C75_tanh_refuted"
   ],
   "note": "Proved for Categorical, Bernoulli and the Gaussian without transform or with two-sided clipping. Refuted for Beta, whose mode is the mean, and for tanh."
  },
  {
   "property": "C76",
   "status": "proved",
   "theorems": [
    "C76_exploration"
   ],
   "note": "Proved for global exploration; exploration given per action fails in the code (tensorforce.py 1183) and is not modelled."
  },
  {
   "property": "C77",
   "status": "partial",
   "theorems": [
    "C77_roundtrip",
    "C77_checkpoint",
    "C77_data_file",
    "C77_h5",
    "C77_named_refuted",
    "C77_index_refuted",
    "C77_h5_refuted"
   ],
   "note": "Proved with the returned path and no format given. Refuted when the format is given and another number extends the one named, and for the name of an index file. File contents are dictionaries of values; checkpoint contents follow the documented behaviour of tf.train.Checkpoint."
  },
  {
   "property": "C78",
   "status": "partial",
   "theorems": [
    "C78_complete",
    "C78_unchanged_refuted",
    "C78_checkpoint_refuted"
   ],
   "note": "First half proved for NumPy and HDF5 files, refuted for TensorFlow checkpoints (missing variables are skipped). Second half refuted: variables assigned before the failing one keep the new value."
  },
  {
   "property": "C79",
   "status": "partial",
   "theorems": [
    "C79_hidden",
    "C79_spec",
    "C79_other_name",
    "C79_checkpoint_refuted",
    "C79_dot_refuted"
   ],
   "note": "Proved for NumPy and HDF5 files and names without a dot. Refuted for numbered TensorFlow checkpoints, whose path ends in two numbers, and for names with a dot. C79_hidden: hidden files."
  },
  {
   "property": "C80",
   "status": "partial",
   "theorems": [
    "C80_ambiguous",
    "C80_silent_refuted"
   ],
   "note": "Proved for numbered files. Refuted for files without a number: one format silently takes precedence."
  },
  {
   "property": "C81",
   "status": "partial",
   "theorems": [
    "C81_gaussian",
    "C81_beta",
    "C81_categorical",
    "C81_bernoulli",
    "C81_bounded_refuted"
   ],
   "note": "Gaussian: with the expectation given by mean and variance (quadratic polynomials), exact up to epsilon/(2(s^2+epsilon)); Beta: for the expectations of logarithms given by digamma; categorical and Bernoulli: sums. Refuted for bounded Gaussian actions: entropy ignores the bounds and exceeds the maximum ln(hi-lo)."
  },
  {
   "property": "C82",
   "status": "partial",
   "theorems": [
    "C82_gaussian",
    "C82_range_refuted",
    "C82_beta_sample"
   ],
   "note": "Unbounded Gaussian: closed form of the density. Refuted for Beta (alpha=beta=2): total probability over [lo,hi] is (hi-lo)(1+6 epsilon+6 epsilon^2), the change of variables from [0,1] is missing."
  },
  {
   "property": "C83",
   "status": "proved",
   "theorems": [
    "C83_weighted",
    "C83_bounded",
    "C83_absolute"
   ],
   "note": "All draws, any length; absolute=True: sign and the step without draw."
  },
  {
   "property": "C84",
   "status": "proved",
   "theorems": [
    "C84_order",
    "C84_nested"
   ],
   "note": "Over the preprocessor model (Register/Retrieve layers not modelled)."
  },
  {
   "property": "C85",
   "status": "proved",
   "theorems": [
    "C85_multi",
    "C85_none"
   ],
   "note": "For every nesting and TensorFlow optimizer; C48_wrapper: doublecheck_update with any number of steps never increases the loss."
  },
  {
   "property": "C86",
   "status": "partial",
   "theorems": [
    "C86_pessimistic",
    "C86_unclipped",
    "C86_flat",
    "C86_gain",
    "C86_slope",
    "C86_zero_refuted"
   ],
   "note": "For real numbers and ratios inside the numerically safe interval. Refuted for clipping value 0.0, which is accepted."
  },
  {
   "property": "C87",
   "status": "proved",
   "theorems": [
    "C87_plain",
    "C87_reference"
   ],
   "note": "For every number of components."
  },
  {
   "property": "C88",
   "status": "partial",
   "theorems": [
    "C88_zero",
    "C88_zero_refuted",
    "C88_huber",
    "C88_mean",
    "C88_own_partial",
    "C88_own_refuted",
    "C88_defined_refuted"
   ],
   "note": "Refuted for threshold 0.0 (accepted; nothing is learned), and for the action-value variant without early_reduce with actions of shape (): every instance is compared with all targets, or there is no loss at all. C88_own_partial excludes this."
  },
  {
   "property": "C89",
   "status": "partial",
   "theorems": [
    "C89_plus",
    "C89_deterministic",
    "C89_no_baseline_refuted",
    "C89_components"
   ],
   "note": "Refuted without a separate baseline: the deterministic policy gradient then has no loss."
  },
  {
   "property": "C90",
   "status": "partial",
   "theorems": [
    "C90_fit",
    "C90_shared_refuted",
    "C90_main",
    "C90_main_refuted"
   ],
   "note": "Proved for a baseline with its own optimizer and for a policy that is its own baseline without advantages. Refuted for a separate baseline with a loss weight instead of an optimizer (the A2C default): it never changes; and for a policy that is its own baseline with advantages: values are fitted to advantages."
  },
  {
   "property": "C91",
   "status": "proved",
   "theorems": [
    "C91_gae",
    "C91_default",
    "C91_joint",
    "C91_early",
    "C91_late",
    "C91_advantage"
   ],
   "note": "For every configuration with a separate baseline and its own optimizer."
  },
  {
   "property": "C92",
   "status": "partial",
   "theorems": [
    "C92_sum",
    "C92_episode",
    "C92_horizon_refuted"
   ],
   "note": "Refuted that decay 1.0 gives return minus value with returns over more than one step."
  },
  {
   "property": "C93",
   "status": "proved",
   "theorems": [
    "C93_weight",
    "C93_start",
    "C93_l2",
    "C93_loss",
    "C93_shared",
    "C93_main"
   ],
   "note": "C93_shared: with a separate baseline and loss weight w its penalty counts 1 + w times."
  },
  {
   "property": "C94",
   "status": "partial",
   "theorems": [
    "C94_critic_refuted",
    "C94_shared_objective_refuted",
    "C94_defined"
   ],
   "note": "Proved for baselines with their own optimizer. Refuted for the documented setting without baseline objective."
  },
  {
   "property": "C95",
   "status": "proved",
   "theorems": [
    "C95_target"
   ],
   "note": "For every mixture function, hence every update weight."
  },
  {
   "property": "C96",
   "status": "partial",
   "theorems": [
    "C96_same_partial",
    "C96_double_dqn_refuted",
    "C96_same_refuted",
    "C96_trpo_refuted"
   ],
   "note": "Proved for all classes but DoubleDQN, provided the arguments missing in the specification (reward_processing; for TRPO also linesearch_iterations and subsampling_fraction) have their default values. Refuted otherwise: DoubleDQN's specification is the one of a DQN (shown for every DoubleDQN), reward processing and TRPO's line search are lost."
  },
  {
   "property": "C97",
   "status": "partial",
   "theorems": [
    "C97_accepted",
    "C97_path_refuted"
   ],
   "note": "Acceptance proved. Refuted: a summary directory whose path contains 'labels' is rejected as deprecated option."
  },
  {
   "property": "C98",
   "status": "proved",
   "theorems": [
    "C98_order",
    "C98_default"
   ],
   "note": "All classes; errors are included (the same error is raised)."
  },
  {
   "property": "C99",
   "status": "partial",
   "theorems": [
    "C99_unchanged_refuted",
    "C99_precedence"
   ],
   "note": "Precedence proved for named agents. Refuted: the passed dictionary is updated with the keyword arguments, a second call gives another agent."
  },
  {
   "property": "C100",
   "status": "partial",
   "theorems": [
    "C100_arguments",
    "C100_memory",
    "C100_base",
    "C100_a2c_refuted",
    "C100_baseline_refuted"
   ],
   "note": "Proved with a table of places for every class. Refuted: A2C ignores advantage_processing (for all arguments), and so do PPO, TRPO and VPG without a baseline."
  },
  {
   "property": "C101",
   "status": "partial",
   "theorems": [
    "C101_buffer",
    "C101_relative_refuted"
   ],
   "note": "Proved for update frequencies which are numbers of timesteps. Refuted for frequencies relative to the batch size, which are not checked."
  },
  {
   "property": "C102",
   "status": "partial",
   "theorems": [
    "C102_again",
    "C102_other",
    "C102_saver_refuted",
    "C102_arguments",
    "C102_restored_once"
   ],
   "note": "Arguments and restoring proved. Refuted: saver[load]=False is not noticed since the key is looked up in the agent's arguments."
  },
  {
   "property": "C103",
   "status": "proved",
   "theorems": [
    "C103_settings",
    "C103_baseline",
    "C103_false"
   ],
   "note": "For every accepted set of arguments; PPO, TRPO, VPG with and without baseline."
  },
  {
   "property": "C104",
   "status": "proved",
   "theorems": [
    "C104_existing"
   ],
   "note": "Equality of values is an arbitrary relation (Python's ==), as is >= for parallel_interactions."
  },
  {
   "property": "C105",
   "status": "partial",
   "theorems": [
    "C105_sequences",
    "C105_equal_lengths_partial",
    "C105_output_refuted"
   ],
   "note": "States proved for all batches. Outputs proved for the rows whose sequence is the longest of the batch (all rows if the lengths are equal); for the others the code applies the cell to the last input once more, so the statement about outputs is refuted (the output is not masked in iterative_body)."
  },
  {
   "property": "C106",
   "status": "partial",
   "theorems": [
    "C106_update",
    "C106_output_refuted"
   ],
   "note": "States proved for every content of the queue memory; the statement about outputs is refuted by a batch whose sequences have different lengths."
  },
  {
   "property": "C107",
   "status": "partial",
   "theorems": [
    "C107_states",
    "C107_output_refuted"
   ],
   "note": "States proved; outputs refuted, see C105."
  },
  {
   "property": "C108",
   "status": "partial",
   "theorems": [
    "C108_zero_horizon_refuted",
    "C108_zero_horizon_state_refuted"
   ],
   "note": "Refuted for every layer and batch: with the default assertions nothing is returned (UnboundLocalError: the checked variables do not exist), without them the states are returned unchanged. AutoNetwork(rnn=0) runs into it."
  },
  {
   "property": "C109",
   "status": "partial",
   "theorems": [
    "C109_longer_refuted",
    "C109_longer_states"
   ],
   "note": "Refuted with the default assertions (the final indices of a trimmed batch fail the check); without them the states are proved to be those of the trimmed sequences."
  },
  {
   "property": "C110",
   "status": "partial",
   "theorems": [
    "C110_once_refuted",
    "C110_dropout_refuted",
    "C110_size_zero_refuted"
   ],
   "note": "Refuted: bias and activation are applied twice, dropout fails, size 0 fails."
  },
  {
   "property": "C111",
   "status": "partial",
   "theorems": [
    "C111_check",
    "C111_hidden_refuted",
    "C111_branches_refuted",
    "C111_sequential"
   ],
   "note": "Composition, untouched internals and the check for successive recurrent layers proved. Refuted: two recurrent layers separated by register/retrieve, and branches of which one is recurrent, work while acting and fail on every batch with a longer sequence."
  },
  {
   "property": "C112",
   "status": "partial",
   "theorems": [
    "C112_action_embedding_refuted"
   ],
   "note": "Refuted for every layered network: LayerbasedNetwork.__init__ drops the argument outputs, so every action gets the network output."
  },
  {
   "property": "C113",
   "status": "partial",
   "theorems": [
    "C113_layer_output_as_declared_partial",
    "C113_retrieve_output_as_declared_partial",
    "C113_crelu_refuted",
    "C113_dropout_refuted",
    "C113_linear_scalar_refuted"
   ],
   "note": "Proved for layers without dropout, without crelu, without softmax of scalars, and with windows that fit. Refuted: crelu doubles the last axis but is declared to keep the shape (or the batch axis for scalars); dropout of transformation layers calls Dropout.apply without its argument deterministic and always fails; Linear cannot be created for scalars. Floats are an arbitrary type with arbitrary operations. Not modelled: Conv transposes, attention, Keras, Function, Block/Reuse, sizes of weights."
  },
  {
   "property": "C114",
   "status": "partial",
   "theorems": [
    "C114_layer_instances_partial",
    "C114_softmax_scalar_refuted"
   ],
   "note": "Proved under the same conditions as C113. Refuted for softmax of scalars, which normalises over the batch."
  },
  {
   "property": "C115",
   "status": "partial",
   "theorems": [
    "C115_network_output_as_declared_partial",
    "C115_network_instances_partial"
   ],
   "note": "Proved by induction over the layers for lists of the modelled layers, under the conditions of C113 for every layer; recurrent layers are in C105-C112."
  },
  {
   "property": "C116",
   "status": "partial",
   "theorems": [
    "C116_auto_network_partial",
    "C116_auto_network_instances_partial",
    "C116_auto_network_rejects"
   ],
   "note": "Proved without the rnn argument; with one state, only for final_size None and final_depth None or 1, as the code asserts. The output size is that of the embedding, or of the final layers, or the sum of all embeddings if final_depth is 0 or not given (as documented)."
  },
  {
   "property": "C117",
   "status": "partial",
   "theorems": [
    "C117_dense_value",
    "C117_flatten_value",
    "C117_reshape_flatten_inverse",
    "C117_embedding_value",
    "C117_conv1d_value_partial",
    "C117_conv1d_valid_value",
    "C117_conv2d_valid_value",
    "C117_linear_value",
    "C117_pool1d_valid_value",
    "C117_pool2d_valid_value",
    "C117_valid_windows",
    "C117_pooling_value",
    "C117_activation_value"
   ],
   "note": "Values of dense layers, one- and two-dimensional convolutions and poolings, global pooling and activations: for all window sizes, strides and dilations with padding 'valid' (LayValProps.v); with padding 'same' only for stride and dilation one, for Conv1d also odd windows. Exact arithmetic (addition associative)."
  },
  {
   "property": "C118",
   "status": "partial",
   "theorems": [
    "C118_concat_value",
    "C118_stack_value",
    "C118_concat_scalars_refuted"
   ],
   "note": "Values proved for all accepted calls. Refuted: concatenation of scalars and sums/products of shapes that are declared to be broadcast are accepted at creation and fail when applied."
  },
  {
   "property": "C119",
   "status": "partial",
   "theorems": [
    "C119_other_inputs_ignored_refuted",
    "C119_accepted_refuted"
   ],
   "note": "Refuted: the specification is that of the first input whatever the others are, so the documented error (first layer has to be retrieve) is never raised and all other inputs are ignored."
  },
  {
   "property": "C120",
   "status": "partial",
   "theorems": [
    "C120_small_table_refuted",
    "C120_default_table"
   ],
   "note": "Exact for the default. Refuted if num_embeddings is given: a table smaller than num_values is accepted, since the comparison is only made when num_embeddings is None."
  },
  {
   "property": "C121",
   "status": "proved",
   "theorems": [
    "C121_parallel_is_single",
    "C121_single_step"
   ],
   "note": "C121_parallel_is_single relates complete executions of any length; all rows share the physics drawn once, as in the code. Floats are real numbers."
  },
  {
   "property": "C122",
   "status": "partial",
   "theorems": [
    "C122_states_within",
    "C122_terminal_iff",
    "C122_initial_state_refuted",
    "C122_terminal_state_refuted",
    "C122_hidden_end_refuted"
   ],
   "note": "Proved for parallel executions and for states that are not terminal; refuted for drawn initial states (state_initial_max_angle is not checked against the bound), for the last state of an episode of a single environment, and, without velocities in the state, for the reason of the end."
  },
  {
   "property": "C123",
   "status": "proved",
   "theorems": [
    "C123_mirror",
    "C123_initial_states"
   ],
   "note": "For parallel executions of any length, hence by C121 for single ones."
  },
  {
   "property": "C124",
   "status": "proved",
   "theorems": [
    "C124_ranges",
    "C124_motion",
    "C124_declared_actions"
   ],
   "note": "The equations are stated implicitly (Newton's laws of cart and pole); existence and uniqueness of the accelerations is proved for all physics in the ranges of an accepted environment, so no divisor is zero."
  },
  {
   "property": "C125",
   "status": "partial",
   "theorems": [
    "C125_accepted_iff",
    "C125_light_pole",
    "C125_valid_rejected_refuted",
    "C125_negative_timedelta_refuted"
   ],
   "note": "C125_accepted_iff characterises acceptance; poles at most as heavy as the cart are accepted. Refuted in general: valid ranges such as pole_mass=(0.05, 2.0) and a pole of mass 10 on a cart of mass 1 are rejected by the assertion on the bounds, and a negative time step can be accepted."
  },
  {
   "property": "C126",
   "status": "partial",
   "theorems": [
    "C126_upright_angle",
    "C126_upright_location_refuted",
    "C126_first_push_refuted"
   ],
   "note": "Proved for the angular velocity. Refuted for the velocity of the cart: the formula subtracts the reaction of the pole where it has to be added, and the first push from rest can end the episode."
  },
  {
   "property": "C127",
   "status": "partial",
   "theorems": [
    "C127_actions_kept",
    "C127_actions_modified_refuted"
   ],
   "note": "Proved for discrete actions; refuted for continuous actions, which are scaled in place (in parallel mode the array passed by the caller)."
  },
  {
   "property": "C128",
   "status": "partial",
   "theorems": [
    "C128_declared",
    "C128_clash_refuted"
   ],
   "note": "C128_declared covers all spaces whose dictionaries have distinct names without underscore. Refuted in general: names with an underscore can clash (a_b, and b in a), one specification is lost."
  },
  {
   "property": "C129",
   "status": "partial",
   "theorems": [
    "C129_actions",
    "C129_many_refuted",
    "C129_underscore_refuted",
    "C129_tuple_refuted"
   ],
   "note": "C129_actions covers single tensors, arrays of up to ten different numbers of values, tuples of single tensors and dictionaries of these nested to any depth. Refuted: arrays of eleven or more different numbers always fail, names with underscores are split, tuples of anything but single tensors fail or lose their inner structure."
  },
  {
   "property": "C130",
   "status": "partial",
   "theorems": [
    "C130_states",
    "C130_declared",
    "C130_infinite",
    "C130_multi_refuted",
    "C130_nested_refuted"
   ],
   "note": "C130_states covers single tensors, tuples and dictionaries of single tensors. Refuted: states with arrays of different numbers of values are returned unsplit, nested tuples and dictionaries always fail (not considered: inner names equal to the keys of a specification such as 'type')."
  },
  {
   "property": "C131",
   "status": "partial",
   "theorems": [
    "C131_actions",
    "C131_million_refuted",
    "C131_mixed_refuted",
    "C131_clipped",
    "C131_replaced",
    "C131_states",
    "C131_contradiction_refuted",
    "C131_other_refuted"
   ],
   "note": "C131_actions holds for bounds below a million in size or infinite. Refuted: larger finite bounds are forgotten, partly infinite action boxes are rejected while completely infinite ones are accepted, min_value above an upper bound of the space declares contradicting bounds, min_value with other than box spaces raises KeyError."
  },
  {
   "property": "C132",
   "status": "partial",
   "theorems": [
    "C132_drop",
    "C132_negative_refuted",
    "C132_bounds_refuted"
   ],
   "note": "C132_drop holds for distinct indices within the state. Refuted: a negative index repeats entries, and bounds of single entries are not removed."
  },
  {
   "property": "C133",
   "status": "partial",
   "theorems": [
    "C133_episode",
    "C133_overrun",
    "C133_limit_refuted"
   ],
   "note": "C133_episode covers episodes of any length. Refuted: a failure exactly at the limit is reported as the limit and gets no terminal_reward."
  },
  {
   "property": "C134",
   "status": "partial",
   "theorems": [
    "C134_registry",
    "C134_version",
    "C134_exact",
    "C134_limit",
    "C134_found",
    "C134_unlimited_refuted"
   ],
   "note": "Refuted: without a limit the first version is taken even if another one is unlimited, and every creation registers one more level (the comparison of False with None never matches). Entries with limit zero are excluded."
  },
  {
   "property": "C135",
   "status": "proved",
   "theorems": [
    "C135_twice",
    "C135_empty",
    "C135_unknown",
    "C135_state",
    "C135_array",
    "C135_internals"
   ],
   "note": "A dictionary of arrays for many states returns arrays instead of lists, see C136_arrays."
  },
  {
   "property": "C136",
   "status": "partial",
   "theorems": [
    "C136_list",
    "C136_arrays",
    "C136_nested_refuted",
    "C136_mask_refuted"
   ],
   "note": "For nested actions refuted (names 'a/b' for lists, nested dictionaries for a single state); also refuted: a mask that is missing in the first state of a list is ignored in the others."
  },
  {
   "property": "C137",
   "status": "proved",
   "theorems": [
    "C137_form",
    "C137_step",
    "C137_steps",
    "C137_extra",
    "C137_missing"
   ],
   "note": "For actions that are not nested."
  },
  {
   "property": "C138",
   "status": "partial",
   "theorems": [
    "C138_streams",
    "C138_one",
    "C138_list",
    "C138_default_refuted",
    "C138_negative_refuted",
    "C138_twice_refuted"
   ],
   "note": "Refuted: a list of states cannot be used with the default parallel=0 or any single number; a negative number is rejected but closes the stream counted from the end; the same stream twice is accepted."
  },
  {
   "property": "C139",
   "status": "partial",
   "theorems": [
    "C139_kept",
    "C139_order",
    "C139_rejected_refuted"
   ],
   "note": "Refuted: a state rejected for its values leaves the stream waiting for an observation, so the next correct act fails."
  },
  {
   "property": "C140",
   "status": "partial",
   "theorems": [
    "C140_default",
    "C140_single",
    "C140_given",
    "C140_record_refuted",
    "C140_nested_refuted"
   ],
   "note": "Refuted: an agent with a state 'a' and an int action 'a/b' can never act; while recording, a single state with a mask is rejected."
  },
  {
   "property": "C141",
   "status": "partial",
   "theorems": [
    "C141_forms",
    "C141_accepted",
    "C141_streams",
    "C141_kept",
    "C141_long_refuted",
    "C141_extended_refuted",
    "C141_twice_refuted"
   ],
   "note": "Refuted: an observation rejected as too long still completes the stream and counts the timestep; a single nonzero reward, terminal True or 0, or stream other than 0 is not extended to lists; the same stream twice is accepted."
  },
  {
   "property": "C142",
   "status": "partial",
   "theorems": [
    "C142_admissible_partial",
    "C142_options",
    "C142_unsupported",
    "C142_one_bound_refuted",
    "C142_largest_refuted",
    "C142_single_option_refuted",
    "C142_leading_bounds_refuted"
   ],
   "note": "For exact draws. Refuted: one bound only is not implemented; without masks the largest number or last option is never drawn and a single option fails; bounds for a leading axis are applied along the last one."
  },
  {
   "property": "C143",
   "status": "partial",
   "theorems": [
    "C143_constant_partial",
    "C143_values",
    "C143_ignored_refuted",
    "C143_forbidden_refuted",
    "C143_integers_refuted",
    "C143_arrays_refuted",
    "C143_infinite_refuted"
   ],
   "note": "For exact floats. Refuted: values for unknown names are ignored, also 'action' for a single action; given values ignore masks; integers between two bounds and floats with arrays of bounds have no constant; undefined values are accepted but cannot be returned."
  },
  {
   "property": "C144",
   "status": "partial",
   "theorems": [
    "C144_checked_partial",
    "C144_no_option",
    "C144_no_option_refuted",
    "C144_bounded_int_refuted"
   ],
   "note": "With masking and assertions on. Refuted: without assertions, an entry without allowed options gets the option of another entry; integers with bounds instead of num_values cannot be used in the default configuration."
  },
  {
   "property": "C145",
   "status": "partial",
   "theorems": [
    "C145_file",
    "C145_keyword",
    "C145_dictionary",
    "C145_conflict",
    "C145_twice_refuted",
    "C145_type_refuted",
    "C145_import",
    "C145_level",
    "C145_message_refuted",
    "C145_level_argument_refuted",
    "C145_terminates",
    "C145_cycle_refuted",
    "C145_names",
    "C145_numbers",
    "C145_types",
    "C145_gym",
    "C145_errors"
   ],
   "note": "Files, imports and constructors are arbitrary functions. Refuted: a limit or shaping given as argument and in the dictionary raises even if equal; 'type' is dropped beside 'environment'; every error of a gym level is reported as unknown environment, and an argument 'level' raises TypeError; a file referring to itself recurses forever. Equal numbers and booleans do not conflict."
  },
  {
   "property": "C146",
   "status": "partial",
   "theorems": [
    "C146_class",
    "C146_object",
    "C146_limit",
    "C146_existing",
    "C146_idempotent",
    "C146_ignored_refuted",
    "C146_again_refuted",
    "C146_positive_refuted",
    "C146_values",
    "C146_shaping",
    "C146_remote"
   ],
   "note": "Refuted: a reward shaping for an existing wrapper is ignored, as are further arguments for an environment object; creating a wrapper changes the limit of the environment object, so it cannot be wrapped again with a larger one; limits which are not positive are accepted."
  },
  {
   "property": "C147",
   "status": "partial",
   "theorems": [
    "C147_local",
    "C147_process",
    "C147_sockets",
    "C147_mode",
    "C147_specified",
    "C147_ignored_refuted",
    "C147_delayed_refuted",
    "C147_blocking"
   ],
   "note": "What processes and sockets do afterwards is another area (C35, C36). Refuted: a client ignores reward_shaping and a server ignores host; a process is started for a specification which cannot be created."
  },
  {
   "property": "C148",
   "status": "partial",
   "theorems": [
    "C148_module_partial",
    "C148_derives",
    "C148_path",
    "C148_modules_refuted"
   ],
   "note": "For modules whose names stand for different classes. Refuted: a second name of the class hides it; modules which import both parents or define a chain of classes are ambiguous; by path Environment itself is accepted; a wrong name in a module raises AttributeError."
  },
  {
   "property": "C149",
   "status": "proved",
   "theorems": [
    "C149_forms",
    "C149_fed",
    "C149_episodes"
   ],
   "note": "For states, actions and internals that conform to the specifications. Conversions of values, the test for terminal and the model's own experience are arbitrary functions."
  },
  {
   "property": "C150",
   "status": "partial",
   "theorems": [
    "C150_split",
    "C150_unfinished",
    "C150_atomic_refuted"
   ],
   "note": "Refuted: a call is not atomic, an episode whose values are rejected leaves the episodes before it in the model."
  },
  {
   "property": "C151",
   "status": "partial",
   "theorems": [
    "C151_alone_refuted",
    "C151_arrays_refuted",
    "C151_single_refuted",
    "C151_named_refuted",
    "C151_number_refuted",
    "C151_busy",
    "C151_values",
    "C151_rewards",
    "C151_internals_steps",
    "C151_internals_arrays"
   ],
   "note": "Refuted: without internals, one timestep alone is rejected if there are internals, a dictionary of arrays if an internal is not a number; a list of values of a single state cannot be combined with a dictionary of actions; an only action called 'action' and a single action given as a number are rejected."
  },
  {
   "property": "C152",
   "status": "partial",
   "theorems": [
    "C152_auxiliaries",
    "C152_removed",
    "C152_pretrain",
    "C152_missing",
    "C152_empty",
    "C152_busy",
    "C152_recorded",
    "C152_recording",
    "C152_single_refuted",
    "C152_internals_refuted"
   ],
   "note": "Random choices are any permutations. Refuted: the recordings of a single state with several named actions, and those used for an agent some internal of which is not a number, are always rejected, as the recorder writes no internals."
  },
  {
   "property": "C153",
   "status": "partial",
   "theorems": [
    "C153_class",
    "C153_file",
    "C153_keyword",
    "C153_dictionary",
    "C153_import",
    "C153_conflict",
    "C153_reserved_refuted",
    "C153_ends",
    "C153_cycle_refuted"
   ],
   "note": "Refuted: entries called name, module, modules, default_module or disable_first_arg are rejected even if the module has such an argument; a file containing its own name recurses for ever. Ending is proved for files without cycles. Files and imports are arbitrary functions."
  },
  {
   "property": "C154",
   "status": "partial",
   "theorems": [
    "C154_value",
    "C154_none",
    "C154_string",
    "C154_unknown",
    "C154_type_refuted",
    "C154_required",
    "C154_first_refuted"
   ],
   "note": "Refuted: a number or sequence as 'type' is taken as first argument of the default; if the first module of the table is a function (objectives), an unknown string raises AttributeError."
  },
  {
   "property": "C155",
   "status": "partial",
   "theorems": [
    "C155_layer",
    "C155_given",
    "C155_several",
    "C155_tensors",
    "C155_named",
    "C155_value_refuted",
    "C155_l2",
    "C155_l2_refuted",
    "C155_l2_dictionary",
    "C155_l2_decay_refuted"
   ],
   "note": "Refuted: in a network a value for a module with default is always an AssertionError, so l2_regularization given as a number is rejected for layered and automatic networks; a dictionary for a schedule with a function raises an error there."
  },
  {
   "property": "C156",
   "status": "partial",
   "theorems": [
    "C156_names",
    "C156_objects",
    "C156_distinct",
    "C156_block",
    "C156_accepted",
    "C156_duplicate_refuted",
    "C156_internals",
    "C156_shared_refuted"
   ],
   "note": "Refuted: a network accepts several layers with the same given name, and two temporal layers with the same name share one entry of the internals, that of the last."
  },
  {
   "property": "C157",
   "status": "partial",
   "theorems": [
    "C157_applied",
    "C157_reused",
    "C157_last",
    "C157_unique",
    "C157_unknown",
    "C157_known",
    "C157_later_refuted",
    "C157_self_refuted",
    "C157_cycle_refuted"
   ],
   "note": "Proved: the last layer created with this name in the whole agent. Refuted: a later network with a layer of this name takes its place; a reuse layer cannot have the name it reuses; reuse layers naming each other are accepted and never end."
  },
  {
   "property": "C158",
   "status": "partial",
   "theorems": [
    "C158_stack",
    "C158_use",
    "C158_first",
    "C158_kept",
    "C158_exception",
    "C158_built",
    "C158_alone",
    "C158_initialize",
    "C158_initialize_once",
    "C158_close",
    "C158_describe",
    "C158_closed_refuted",
    "C158_other_refuted",
    "C158_interleaved_refuted"
   ],
   "note": "Proved for all sequences of events: the stack of modules is restored by every call, also by ones which raise; calls of one agent work as long as the last construction was not followed by a closing; graphs keep their layers once built; with one agent only, its own layers are used. Refuted in general: closing one agent makes all others unusable until a further agent is constructed, a graph which is not built yet uses the layers of the agent constructed last, and an agent cannot be initialized after another one was constructed."
  },
  {
   "property": "C159",
   "status": "partial",
   "theorems": [
    "C159_accepted",
    "C159_names",
    "C159_warnings",
    "C159_warnings_determined",
    "C159_bounds",
    "C159_collision",
    "C159_infinite_refuted",
    "C159_single_refuted"
   ],
   "note": "Exact characterisation of acceptance, names, warnings and the reported error. Refuted: an infinite max_value of an action is accepted if it has no min_value, and the error for a single action which collides does not show its name."
  },
  {
   "property": "C160",
   "status": "partial",
   "theorems": [
    "C160_accepted",
    "C160_result",
    "C160_labels",
    "C160_tracking",
    "C160_graph",
    "C160_string_refuted",
    "C160_all_refuted",
    "C160_path_refuted"
   ],
   "note": "Exact characterisation of accepted configurations and of the labels selected. Refuted: a single label given as a string is accepted, but its letters are the labels, so it is not recorded; 'all' in a list selects nothing else; a path containing 'labels' is rejected as summarizer."
  },
  {
   "property": "C161",
   "status": "partial",
   "theorems": [
    "C161_register",
    "C161_written",
    "C161_calls",
    "C161_restored_refuted"
   ],
   "note": "Each further call is characterised by the calls before it, for all sequences. Refuted: after counters were set back (restoring an earlier checkpoint) nothing is written until they exceed their former values."
  },
  {
   "property": "C162",
   "status": "partial",
   "theorems": [
    "C162_values",
    "C162_shown",
    "C162_general",
    "C162_created",
    "C162_nested_refuted"
   ],
   "note": "Proved for modules whose names and tracked names contain no '/' and are distinct. Refuted in general: the distributions of actions 'a_b' and 'a/b' have the same name and only one of them is shown; in the other order the agent is rejected."
  },
  {
   "property": "C163",
   "status": "partial",
   "theorems": [
    "C163_newest",
    "C163_same_refuted",
    "C163_empty_refuted"
   ],
   "note": "Proved for agents at different times and directories with one file each. Refuted otherwise: two agents in the same second share a directory, whose removal later raises an error; an empty directory makes all further initializations fail."
  },
  {
   "property": "C164",
   "status": "partial",
   "theorems": [
    "C164_update",
    "C164_rejected",
    "C164_relative",
    "C164_never_refuted",
    "C164_more_refuted",
    "C164_frequency"
   ],
   "note": "Effect of every accepted specification, rejection of all others. Refuted: with frequency 'never' (documented) the constructor succeeds but initialization always fails (AttributeError: no attribute update_frequency), and a frequency of 2 is accepted for batches of 1."
  },
  {
   "property": "C165",
   "status": "partial",
   "theorems": [
    "C165_horizon",
    "C165_values",
    "C165_decays",
    "C165_rejected",
    "C165_late",
    "C165_none_refuted",
    "C165_unknown_refuted",
    "C165_integer_refuted"
   ],
   "note": "Effect of every accepted specification, rejection of all others. Refuted: None for predict_horizon_values differs from leaving it out; other strings than 'early' and 'late' are accepted; a discount of 1 instead of 1.0 is rejected."
  },
  {
   "property": "C166",
   "status": "partial",
   "theorems": [
    "C166_policy",
    "C166_baseline",
    "C166_warnings",
    "C166_entropy",
    "C166_rejected",
    "C166_leak_refuted",
    "C166_warning_refuted"
   ],
   "note": "Classes, warnings and the entropy check for all arguments. Refuted: a separate baseline for state values is not of the class for state values if no values are predicted, since the functions of the policy are counted for it; a warning about the default class is shown although another class was given."
  },
  {
   "property": "C167",
   "status": "partial",
   "theorems": [
    "C167_capacity",
    "C167_rejected",
    "C167_unlimited_refuted",
    "C167_buffers",
    "C167_buffers_refuted"
   ],
   "note": "Space for batches and episodes, and buffers if episodes are bounded or batches are timesteps and not smaller than the buffer. Refuted: without bound on episodes and with whole episodes as buffer every capacity is rejected; the buffers may be larger than the memory if batches are episodes without bound."
  },
  {
   "property": "C168",
   "status": "partial",
   "theorems": [
    "C168_exploration",
    "C168_probabilities",
    "C168_rejected",
    "C168_global_refuted",
    "C168_type_refuted",
    "C168_own_refuted"
   ],
   "note": "Effect of every accepted specification, rejection of all others. Refuted: a global exploration above 1 is accepted for actions which are not float; exploration per type of action (documented) is rejected; exploration of an action named like a type is used for other actions, too."
  },
  {
   "property": "C169",
   "status": "proved",
   "theorems": [
    "C169_accepted",
    "C169_weight",
    "C169_initialize"
   ],
   "note": "Equivalence of success of the constructor with the conditions, for dictionaries with distinct keys."
  },
  {
   "property": "C170",
   "status": "partial",
   "theorems": [
    "C170_steps",
    "C170_losses",
    "C170_total",
    "C170_actions",
    "C170_negative_refuted",
    "C170_bonus_refuted"
   ],
   "note": "Flags and rewards of all calls, total reward. Refuted: a life lost after a bonus life is not noticed; negative values (documented as penalty) change no reward."
  },
  {
   "property": "C171",
   "status": "proved",
   "theorems": [
    "C171_numbers",
    "C171_factored",
    "C171_visualized",
    "C171_run"
   ],
   "note": "All combinations of buttons, all sequences of actions; the comparison with visualization assumes that make_action repeats the action."
  },
  {
   "property": "C172",
   "status": "partial",
   "theorems": [
    "C172_until_over",
    "C172_states_refuted",
    "C172_states",
    "C172_levels",
    "C172_reset",
    "C172_levels_refuted",
    "C172_execute_refuted"
   ],
   "note": "Calls until the game is over, accepted levels. Refuted: states always fails for games with a game state; documented levels of OpenSim are rejected; execute of OpenSim always fails since an attribute has another name."
  },
  {
   "property": "C173",
   "status": "partial",
   "theorems": [
    "C173_control",
    "C173_actors",
    "C173_reward",
    "C173_total",
    "C173_train",
    "C173_soft_refuted",
    "C173_render_refuted",
    "C173_constructed"
   ],
   "note": "Control, rewards of all sequences of events, flags of an episode. Refuted: a soft reset always fails (no spawn point is kept); without rendering the default sensors cannot be made."
  },
  {
   "property": "C174",
   "status": "partial",
   "theorems": [
    "C174_accepted",
    "C174_name",
    "C174_variance",
    "C174_factor",
    "C174_constant_refuted",
    "C174_scalar_refuted"
   ],
   "note": "Exactly the accepted variables, their names and values. Refuted: 'constant' without a scale passes all checks but always fails; 'normal' fails for a single number."
  },
  {
   "property": "C175",
   "status": "partial",
   "theorems": [
    "C175_script",
    "C175_accepted",
    "C175_words",
    "C175_words_back",
    "C175_agent_refuted",
    "C175_recorded",
    "C175_rectangular",
    "C175_longer"
   ],
   "note": "All arguments and recorded returns. Refuted: without an agent, which is documented as optional, only a server works."
  },
  {
   "property": "C176",
   "status": "partial",
   "theorems": [
    "C176_accepted",
    "C176_limit_refuted",
    "C176_made",
    "C176_weight",
    "C176_runs",
    "C176_candidates",
    "C176_loss",
    "C176_loss_constant",
    "C176_loss_short",
    "C176_loss_final",
    "C176_clipping",
    "C176_parallel"
   ],
   "note": "All configurations of the space, budgets, candidates and the loss. Refuted: configurations of the space are rejected if the limit of episodes is below the longest horizon or unknown."
  },
  {
   "property": "C177",
   "status": "partial",
   "theorems": [
    "C177_direct",
    "C177_only",
    "C177_pending",
    "C177_order",
    "C177_failed_refuted",
    "C177_vectorized_refuted"
   ],
   "note": "All sequences of calls and failures. Refuted: after an exception in execute the next start fails and the old action is executed again, a reset does not help; a vectorized reset is never received (undefined name)."
  },
  {
   "property": "C178",
   "status": "partial",
   "theorems": [
    "C178_first_reset",
    "C178_later_resets",
    "C178_first",
    "C178_later_refuted",
    "C178_single",
    "C178_several",
    "C178_batched_refuted"
   ],
   "note": "Exactly the accepted first outputs. Refuted: later outputs are not checked; batches of several named states are checked as if they were single states. The same for resets through the wrapper: only the first one which succeeds is checked."
  },
  {
   "property": "C179",
   "status": "proved",
   "theorems": [
    "C179_reset",
    "C179_alone",
    "C179_begin",
    "C179_episodes",
    "C179_rejected",
    "C179_missing"
   ],
   "note": "For agents which act for each instance by itself and environments which execute each instance by itself, from a reset until the end of all episodes."
  },
  {
   "property": "C180",
   "status": "partial",
   "theorems": [
    "C180_vectorizable",
    "C180_actors",
    "C180_rounds",
    "C180_other_limits_refuted",
    "C180_exact_refuted"
   ],
   "note": "The exact number for every number of instances and episodes. Refuted: fewer episodes than instances are not kept to; without a number of episodes, whatever other limit is given, there is always a further reset."
  }
 ]
}
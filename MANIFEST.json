{
 "claims": [
  {
   "property": "C01",
   "status": "proved",
   "theorems": [
    "C01_predictor_agrees_with_machine",
    "C01_predictor_agrees_totals",
    "C01_merge_overflow_refuted"
   ],
   "note": "Closed. Model: scalar dense blocks over the flat memory written by the python transfer loop, any split and padding. C01_merge_overflow_refuted shows the merged-weight hypothesis is needed."
  },
  {
   "property": "C02",
   "status": "proved",
   "theorems": [
    "C02_ruleset_shape",
    "C02_votes_mod",
    "C02_votes_exact"
   ],
   "note": "Closed."
  },
  {
   "property": "C03",
   "status": "proved",
   "theorems": [
    "C03_predict_first_argmax"
   ],
   "note": "Closed; totals assumed to fit int32 (the code accumulates in int32)."
  },
  {
   "property": "C04",
   "status": "proved",
   "theorems": [
    "C04_literal_explanations",
    "C04_unknown_name",
    "C04_compiled_rules_distinct"
   ],
   "note": "Closed; sums assumed to fit int32. Literal explanations only (feature explanations cannot be constructed, see C46)."
  },
  {
   "property": "C05",
   "status": "proved",
   "theorems": [
    "C05_predict_history",
    "C05_explain_history"
   ],
   "note": "Closed. Calls of set_target_names are excluded from the history, since they rename the answer on purpose."
  },
  {
   "property": "C06",
   "status": "partial",
   "theorems": [
    "C06_simple_c_partial",
    "C06_empty_rule_refuted",
    "C06_refused"
   ],
   "note": "Proved for rule sets without an empty rule (every compiled rule set is one, see C58), over the characters of the exported file. For a hand-made rule set with an empty rule the claim is false: C06_empty_rule_refuted shows the written text 'if(){' is not a program while the predictor answers."
  },
  {
   "property": "C07",
   "status": "proved",
   "theorems": [
    "C07_topographical_c",
    "C07_construction_terminates"
   ],
   "note": "Over the characters of the exported file, for every tie-breaking choice; C07_construction_terminates for every rule set."
  },
  {
   "property": "C08",
   "status": "proved",
   "theorems": [
    "C08_block_count",
    "C08_block_list"
   ],
   "note": "Closed."
  },
  {
   "property": "C09",
   "status": "partial",
   "theorems": [
    "C09_round_robin_partial",
    "C09_dealt_budget",
    "C09_empty_s_refuted"
   ],
   "note": "Proved for machines with at least one s value and no trainable flags. False for s=[] (C09_empty_s_refuted) and after stale trainable flags (C55_flags_refuted)."
  },
  {
   "property": "C10",
   "status": "proved",
   "theorems": [
    "C10_state_roundtrip",
    "C10_blocks_roundtrip",
    "C10_blocks_hold_state",
    "C10_read_frame",
    "C10_write_frame"
   ],
   "note": "Closed."
  },
  {
   "property": "C11",
   "status": "proved",
   "theorems": [
    "C11_round_trip",
    "C11_acceptance",
    "C11_suffix",
    "C11_load_state"
   ],
   "note": "Closed. np.savez/np.load are modelled as storing and returning named arrays; I/O errors are not modelled. Wrong dtypes are refused, but with a TypeError from the faulty error message."
  },
  {
   "property": "C12",
   "status": "proved",
   "theorems": [
    "C12_avx_states_in_range",
    "C12_avx_initial",
    "C12_avx_no_jump",
    "C12_states_in_range",
    "C12_no_jump"
   ],
   "note": "Closed. Scalar dense backend (any program of epochs and evaluations, [-128,127] and [-127,127]) and AVX2 backend (C12_avx_*: padding lanes included, initialisation, any program, any buffers; one step moves an automaton by at most two)."
  },
  {
   "property": "C13",
   "status": "partial",
   "theorems": [
    "C13_type1a_direction",
    "C13_type1b_direction",
    "C13_type2_direction",
    "C13_boost_negated_refuted"
   ],
   "note": "Directions proved for the scalar backend. The boosting clause is false for negated literals there (C13_boost_negated_refuted); it is proved for positive literals."
  },
  {
   "property": "C14",
   "status": "proved",
   "theorems": [
    "C14_weight_updates"
   ],
   "note": "Closed; scalar dense backend."
  },
  {
   "property": "C15",
   "status": "proved",
   "theorems": [
    "C15_avx_over_budget",
    "C15_over_budget_not_reinforced",
    "C15_sparse_over_budget"
   ],
   "note": "Closed; scalar dense backend, AVX2 backend and sparse backend (C15_sparse_over_budget)."
  },
  {
   "property": "C16",
   "status": "proved",
   "theorems": [
    "C16_train_output",
    "C16_eval_output",
    "C16_matches_means",
    "C16_fires_means"
   ],
   "note": "Closed."
  },
  {
   "property": "C17",
   "status": "proved",
   "theorems": [
    "C17_train",
    "C17_eval",
    "C17_eval_data",
    "C17_step_weights",
    "C17_type2",
    "C17_predictor_agrees"
   ],
   "note": "Closed. Outputs, votes and counts of firing clauses in training and evaluation, whole data sets, weight updates, Type II, and C01 carried over to AVX2 blocks. The literal counts of clauses that do not fire may differ (the AVX2 code leaves them stale); C17_step_weights shows that this has no effect."
  },
  {
   "property": "C18",
   "status": "proved",
   "theorems": [
    "C18_true_class",
    "C18_true_class_decreasing",
    "C18_negative_mirror",
    "C18_floating_point"
   ],
   "note": "Closed. Exact rationals, plus C18_floating_point for any monotone rounding that fixes 0 and 1."
  },
  {
   "property": "C19",
   "status": "partial",
   "theorems": [
    "C19_negative_class_partial",
    "C19_zero_draw_refuted",
    "C19_every_class_reachable",
    "C19_uniform",
    "C19_uniform_stops",
    "C19_one_class_refuted",
    "C19_multi_label"
   ],
   "note": "Proved for draws in (0,1]; false for a draw of exactly 0 with label 0 (C19_zero_draw_refuted; harmless by C54). The uniform block never returns with one class (C19_one_class_refuted). Rounding of the cumulative sums inside std::discrete_distribution is not modelled. With the engine of libstdc++ the draw 0 does not occur and the loops end (C131)."
  },
  {
   "property": "C20",
   "status": "proved",
   "theorems": [
    "C20_epoch_is_permutation",
    "C20_epoch_runs_order",
    "C20_epoch_accuracy",
    "C20_accuracy_in_unit_interval"
   ],
   "note": "Closed."
  },
  {
   "property": "C21",
   "status": "proved",
   "theorems": [
    "C21_train_schedule_independent",
    "C21_eval_schedule_independent",
    "C21_steps_reduce_work",
    "C21_schedules_complete",
    "C21_train_run_exists",
    "C21_any_block",
    "C21_process_ok"
   ],
   "note": "Closed. Atomic steps: block computation, vote registration under the lock; wait_for_tasks is a barrier. C++ memory model below lock granularity is not modelled."
  },
  {
   "property": "C22",
   "status": "proved",
   "theorems": [
    "C22_eval_pure",
    "C22_evals_do_not_matter",
    "C22_eval_pointwise",
    "C22_length_mismatch"
   ],
   "note": "Closed; dense scalar blocks."
  },
  {
   "property": "C23",
   "status": "proved",
   "theorems": [
    "C23_logs_and_best",
    "C23_best_of_log"
   ],
   "note": "For every backend (epoch function, score function, callback). Floats with NaN and infinities; 'best' is first_best."
  },
  {
   "property": "C24",
   "status": "proved",
   "theorems": [
    "C24_early_exit"
   ],
   "note": "For every backend and threshold, NaN included."
  },
  {
   "property": "C25",
   "status": "proved",
   "theorems": [
    "C25_best_state",
    "C25_last_state",
    "C25_no_score"
   ],
   "note": "Both cases; C25_no_score shows what happens outside the claim (no score above -1): a stale or missing state is installed. For the dense machine see C58."
  },
  {
   "property": "C26",
   "status": "proved",
   "theorems": [
    "C26_folds"
   ],
   "note": "scikit-learn's StratifiedKFold enters as an arbitrary assignment of test folds in range (hypothesis 'splits')."
  },
  {
   "property": "C27",
   "status": "partial",
   "theorems": [
    "C27_n_jobs_partial",
    "C27_not_clamped_refuted"
   ],
   "note": "Requests below -cpus are neither rejected nor clamped: C27_not_clamped_refuted."
  },
  {
   "property": "C28",
   "status": "partial",
   "theorems": [
    "C28_acceptance_partial",
    "C28_effect",
    "C28_other_kinds_refuted",
    "C28_mixture_does_not_train"
   ],
   "note": "Exact for dense arrays and csr matrices; other matrix kinds pass the checks when the opposite side is unset (C28_other_kinds_refuted) and are only caught in train() (C28_mixture_does_not_train)."
  },
  {
   "property": "C29",
   "status": "partial",
   "theorems": [
    "C29_constructor_partial",
    "C29_scalar_s",
    "C29_nan_refuted"
   ],
   "note": "Exact acceptance condition proved; not-a-number s values are accepted (C29_nan_refuted)."
  },
  {
   "property": "C30",
   "status": "partial",
   "theorems": [
    "C30_csr_row",
    "C30_csr_equals_dense",
    "C30_training_equal",
    "C30_input_block_refines",
    "C30_sparse_block_row",
    "C30_stored_zero_refuted"
   ],
   "note": "Proved for every CSR matrix whose stored values are positive, every past of the block and every example order, up to whole training passes. For explicitly stored zeros the claim is false (C30_stored_zero_refuted): they are presented as 1."
  },
  {
   "property": "C31",
   "status": "proved",
   "theorems": [
    "C31_get_after_set",
    "C31_set_after_get",
    "C31_save_after_load",
    "C31_load_after_save",
    "C31_ragged_refuted",
    "C31_copy_refuted"
   ],
   "note": "Closed; block level for every CSR triple and clause list. The whole-machine round trip (C31_save_after_load) needs active literal lists of equal length per block: otherwise writing the state back raises TypeError (C31_ragged_refuted). C31_copy_refuted: SparseState.copy drops n_literals."
  },
  {
   "property": "C32",
   "status": "proved",
   "theorems": [
    "C32_history",
    "C32_initial",
    "C32_history_weights"
   ],
   "note": "Closed; invariant over every program of training and evaluation calls. active_literals_size >= 1 is assumed for a new block (C32_initial)."
  },
  {
   "property": "C33",
   "status": "partial",
   "theorems": [
    "C33_exact",
    "C33_holds_fires",
    "C33_fires_partial",
    "C33_last_excluded_refuted",
    "C33_count",
    "C33_evaluation",
    "C33_one_sided_refuted"
   ],
   "note": "Refuted as stated (C33_last_excluded_refuted; evaluation: C33_one_sided_refuted). C33_exact gives the exact firing condition for every clause and sorted example; C33_fires_partial is the iff where the last positive literal is included or the example reaches past the included ones. One direction holds always (C33_holds_fires)."
  },
  {
   "property": "C34",
   "status": "partial",
   "theorems": [
    "C34_rule_votes",
    "C34_votes_partial",
    "C34_predictor_partial",
    "C34_one_sided_refuted",
    "C34_state_zero_refuted",
    "C34_all_excluded_refuted",
    "C34_last_excluded_refuted"
   ],
   "note": "Refuted as stated, in four ways (C34_*_refuted: one-sided clause, state 0, everything excluded, last literal excluded). C34_votes_partial / C34_predictor_partial: agreement for all states and inputs where every clause is plain (sp_plain). C34_rule_votes holds for every legal state."
  },
  {
   "property": "C35",
   "status": "proved",
   "theorems": [
    "C35_training_output",
    "C35_patch_reachable",
    "C35_evaluation_output",
    "C35_prediction"
   ],
   "note": "Closed; scalar convolutional block, any stale arrays and draws. C35_patch_reachable: every matching patch is chosen by some draw. C35_prediction: the executor answers the first class with the largest (int16) vote total. The AVX2 convolutional variant is not modelled."
  },
  {
   "property": "C36",
   "status": "proved",
   "theorems": [
    "C36_windows",
    "C36_positions_distinct",
    "C36_non_square_refuted"
   ],
   "note": "Square images as stated. For non-square images the function swaps width and height (C36_non_square_refuted)."
  },
  {
   "property": "C37",
   "status": "proved",
   "theorems": [
    "C37_xor_dataset",
    "C37_result_or_error"
   ],
   "note": "For every integer and float stream; the pseudo random generator itself is not modelled."
  },
  {
   "property": "C38",
   "status": "partial",
   "theorems": [
    "C38_best_refuted",
    "C38_last_score_partial"
   ],
   "note": "The objective returns the last evaluation score, not the best (C38_best_refuted); C38_last_score_partial gives what is returned and that it is the best after an early exit."
  },
  {
   "property": "C39",
   "status": "partial",
   "theorems": [
    "C39_int_budget_partial",
    "C39_int_accepted",
    "C39_list_ignored_refuted",
    "C39_list_unchecked_refuted",
    "C39_list_no_budget_refuted",
    "C39_rejected_kept_refuted"
   ],
   "note": "Integer budgets proved. False in the code for lists (C39_list_*_refuted); a rejected integer is stored and used (C39_rejected_kept_refuted)."
  },
  {
   "property": "C40",
   "status": "proved",
   "theorems": [
    "C40_block_split",
    "C40_votes"
   ],
   "note": "Closed."
  },
  {
   "property": "C41",
   "status": "partial",
   "theorems": [
    "C41_last_block_partial",
    "C41_last_block_predicts_partial",
    "C41_votes_refuted",
    "C41_evaluation_exact",
    "C41_outputs_refuted",
    "C41_outputs_partial",
    "C41_predictions_partial"
   ],
   "note": "False in general. C41_votes_refuted: votes of several blocks do not add up, register_votes overwrites, so only the last block is heard (C41_last_block_partial, C41_last_block_predicts_partial). C41_outputs_refuted: evaluation tests state > 0 where the native code tests >= 0, so a clause with an automaton in state 0 can differ either way; C41_evaluation_exact says exactly what is computed. True part: without an automaton in state 0 outputs agree (C41_outputs_partial) and with one block all predictions agree (C41_predictions_partial)."
  },
  {
   "property": "C42",
   "status": "partial",
   "theorems": [
    "C42_kept",
    "C42_half_partial",
    "C42_removed_partial",
    "C42_neighbours_refuted"
   ],
   "note": "Refuted as stated (C42_neighbours_refuted): prune_clause skips the neighbour of a removed automaton. Proved: those at or above are kept in order (C42_kept), at least half of those below go (C42_half_partial), all go when no two neighbours are below (C42_removed_partial)."
  },
  {
   "property": "C43",
   "status": "partial",
   "theorems": [
    "C43_over_budget_partial",
    "C43_one_patch_partial",
    "C43_over_budget_refuted"
   ],
   "note": "False as stated: C43_over_budget_refuted, for every stale array content - literal_counts[k] is read from literal_counts_per_patch at the position in the list of matching patches instead of at the patch number. Proved when the matching patches come first (C43_over_budget_partial), in particular with one patch (C43_one_patch_partial)."
  },
  {
   "property": "C44",
   "status": "partial",
   "theorems": [
    "C44_failed_call_partial",
    "C44_early_refusals",
    "C44_retry_refuted"
   ],
   "note": "False in the code (C44_retry_refuted). Proved: a failed call leaves either the old sizes or invalid ones, and which refusals happen before the store."
  },
  {
   "property": "C45",
   "status": "partial",
   "theorems": [
    "C45_seeds_partial",
    "C45_positive_seed_starts",
    "C45_seed_zero_refuted"
   ],
   "note": "Seeds proved distinct and consecutive; positive seeds start. False for seed 0, the Trainer's default (C45_seed_zero_refuted)."
  },
  {
   "property": "C46",
   "status": "partial",
   "theorems": [
    "C46_explain_all_partial",
    "C46_names_refuted",
    "C46_features_refuted"
   ],
   "note": "False in the code: explain('all') raises with target names (C46_names_refuted) and feature explanations cannot be built (C46_features_refuted); the part that works is C46_explain_all_partial."
  },
  {
   "property": "C47",
   "status": "proved",
   "theorems": [
    "C47_resume"
   ],
   "note": "Closed; any backend initialiser and padding."
  },
  {
   "property": "C48",
   "status": "proved",
   "theorems": [
    "C48_weight_mod",
    "C48_weight_exact",
    "C48_programs",
    "C48_process_valid",
    "C48_wrap_refuted"
   ],
   "note": "Closed; C48_wrap_refuted shows the bound is exact."
  },
  {
   "property": "C49",
   "status": "partial",
   "theorems": [
    "C49_folds_share_state_refuted",
    "C49_first_fold_partial"
   ],
   "note": "False in the code: folds share the machine state (C49_folds_share_state_refuted holds for every run with k >= 2). Only the first fold is clean (C49_first_fold_partial)."
  },
  {
   "property": "C50",
   "status": "proved",
   "theorems": [
    "C50_initialisation",
    "C50_only_seed_zero_fails",
    "C50_junk_irrelevant"
   ],
   "note": "Closed."
  },
  {
   "property": "C51",
   "status": "proved",
   "theorems": [
    "C51_type1a_exact",
    "C51_type1b_exact"
   ],
   "note": "Closed; scalar dense backend."
  },
  {
   "property": "C52",
   "status": "proved",
   "theorems": [
    "C52_counts_irrelevant",
    "C52_initialisation"
   ],
   "note": "Closed; scalar dense backend."
  },
  {
   "property": "C53",
   "status": "proved",
   "theorems": [
    "C53_one_history"
   ],
   "note": "Closed; scalar dense blocks, any feedback rule."
  },
  {
   "property": "C54",
   "status": "proved",
   "theorems": [
    "C54_label_as_negative"
   ],
   "note": "Closed."
  },
  {
   "property": "C55",
   "status": "proved",
   "theorems": [
    "C55_all_clauses_built",
    "C55_flags_refuted"
   ],
   "note": "Closed. set_trainable_flags always raises, so it is outside the claim; C55_flags_refuted shows what happens if its exception is caught."
  },
  {
   "property": "C56",
   "status": "partial",
   "theorems": [
    "C56_failed_train",
    "C56_folds_refuted"
   ],
   "note": "Proved without folds; false with folds (C56_folds_refuted)."
  },
  {
   "property": "C57",
   "status": "partial",
   "theorems": [
    "C57_fresh_results_partial",
    "C57_no_epochs_refuted"
   ],
   "note": "Proved for n_epochs >= 1; with n_epochs < 1 the previous results come back (C57_no_epochs_refuted)."
  },
  {
   "property": "C58",
   "status": "proved",
   "theorems": [
    "C58_exported_program_agrees_with_machine"
   ],
   "note": "Composition of C01, C02, C06 and C07; no additional restriction."
  },
  {
   "property": "C59",
   "status": "proved",
   "theorems": [
    "C59_type1a",
    "C59_type1b",
    "C59_type2",
    "C59_boost_all"
   ],
   "note": "Closed. The generator XorShift128plus4G is an arbitrary stream of 32-byte vectors."
  },
  {
   "property": "C60",
   "status": "proved",
   "theorems": [
    "C60_threshold",
    "C60_never_certain",
    "C60_exact_refuted"
   ],
   "note": "Closed. s is an exact rational; the double rounding of 1/s*255 is not modelled. C60_exact_refuted: the probability is 254/256 at s=1 and 2/256 for very large s."
  },
  {
   "property": "C61",
   "status": "proved",
   "theorems": [
    "C61_type1a",
    "C61_type1b",
    "C61_type2",
    "C61_weights",
    "C61_other_clauses",
    "C61_active_literals"
   ],
   "note": "Closed; exact rational draws. Automata pushed below the threshold may be pruned in the same update, which the statement allows (kept)."
  },
  {
   "property": "C62",
   "status": "proved",
   "theorems": [
    "C62_matching_clause",
    "C62_silent_clause",
    "C62_weights",
    "C62_delta",
    "C62_within_budget_refuted"
   ],
   "note": "Closed. The budget part needs the matching patches to come first; C62_within_budget_refuted shows a clause within the budget that is not reinforced because an earlier clause left a larger count."
  },
  {
   "property": "C63",
   "status": "proved",
   "theorems": [
    "C63_history",
    "C63_initialized",
    "C63_needs_patches"
   ],
   "note": "Closed; conv_good spelled out in ProofsConvStep.v."
  },
  {
   "property": "C64",
   "status": "proved",
   "theorems": [
    "C64_one_patch_evaluation",
    "C64_one_patch_step"
   ],
   "note": "Closed; literal_counts of non-matching clauses differ (never read)."
  },
  {
   "property": "C65",
   "status": "proved",
   "theorems": [
    "C65_training_outputs",
    "C65_training_meaning"
   ],
   "note": "Closed. No condition on the automata."
  },
  {
   "property": "C66",
   "status": "proved",
   "theorems": [
    "C66_update",
    "C66_weight_limit_refuted"
   ],
   "note": "Closed. Existence of native generators, for every Python generator. C66_weight_limit_refuted shows why the weight range is needed: 127 becomes -128."
  },
  {
   "property": "C67",
   "status": "proved",
   "theorems": [
    "C67_history",
    "C67_initialized"
   ],
   "note": "Closed."
  },
  {
   "property": "C68",
   "status": "proved",
   "theorems": [
    "C68_negative_class",
    "C68_one_class"
   ],
   "note": "Closed. Exact rationals; eps = 1e-16 as in the source."
  },
  {
   "property": "C69",
   "status": "proved",
   "theorems": [
    "C69_predicted",
    "C69_native_refuted",
    "C69_counters"
   ],
   "note": "Closed. C69_native_refuted: a vote vector on which the two backends count different classes."
  },
  {
   "property": "C70",
   "status": "proved",
   "theorems": [
    "C70_unit_interval",
    "C70_zero_once",
    "C70_period",
    "C70_states_distinct",
    "C70_rounding",
    "C70_seeding",
    "C70_rounds_to_one"
   ],
   "note": "Closed. std::mt19937_64, which makes the first state from the seed, is not modelled: the first state is arbitrary. Conversion uint64 to double is modelled as round-to-nearest-even. That some state actually gives a draw of exactly 1 is not shown."
  },
  {
   "property": "C71",
   "status": "proved",
   "theorems": [
    "C71_part1_unused",
    "C71_repeats",
    "C71_seeds_collide",
    "C71_vectors"
   ],
   "note": "Closed. C71_vectors: the generator meets the hypothesis vrng_ok of the AVX2 theorems. The matrix power is computed by the kernel (vm_compute)."
  },
  {
   "property": "C72",
   "status": "proved",
   "theorems": [
    "C72_equal_halves",
    "C72_reversible",
    "C72_seeds_apart",
    "C72_never_zero",
    "C72_seeding"
   ],
   "note": "Closed. The build without FAKE_NEON_PRNG."
  },
  {
   "property": "C73",
   "status": "proved",
   "theorems": [
    "C73_train",
    "C73_step_weights",
    "C73_type2"
   ],
   "note": "Block-level refinement of the scalar block, vectors of 16 bytes, remainder masks included."
  },
  {
   "property": "C74",
   "status": "proved",
   "theorems": [
    "C74_eval_exact",
    "C74_scalar_iff"
   ],
   "note": "Exact characterisation, and necessary and sufficient condition for agreement with the scalar block."
  },
  {
   "property": "C75",
   "status": "partial",
   "theorems": [
    "C75_same_predictions_refuted",
    "C75_same_predictions_partial"
   ],
   "note": "False: an empty clause after a non-empty one votes and decides the class (refuted). Proved when every empty clause stands before all clauses with literals."
  },
  {
   "property": "C76",
   "status": "proved",
   "theorems": [
    "C76_type1a",
    "C76_type1b",
    "C76_type2",
    "C76_states_in_range",
    "C76_initial",
    "C76_over_budget",
    "C76_no_jump"
   ],
   "note": "Per byte, and by an invariant over any call sequence."
  },
  {
   "property": "C77",
   "status": "proved",
   "theorems": [
    "C77_twins"
   ],
   "note": "Invariant over any executor program; generator instantiated with Xoshiro128Plus."
  },
  {
   "property": "C78",
   "status": "partial",
   "theorems": [
    "C78_no_budget_refuted",
    "C78_budget_partial"
   ],
   "note": "False: without a budget literal_counts is null and the first clause writes through it (refuted for every block with a clause). With a budget the output pass is always defined."
  },
  {
   "property": "C79",
   "status": "proved",
   "theorems": [
    "C79_best_state_scores",
    "C79_last_state_scores",
    "C79_accuracy",
    "C79_last_fold"
   ],
   "note": "End to end: trainer, state copy, rule compiler and inference composed over one invariant of the running backend. With folds the reported best may belong to another fold (example)."
  },
  {
   "property": "C80",
   "status": "proved",
   "theorems": [
    "C80_usable",
    "C80_resume"
   ],
   "note": "Invariant over call sequences. Calls that raise are not covered: a failing set_num_clause_blocks leaves wrong sizes behind (C56)."
  },
  {
   "property": "C81",
   "status": "proved",
   "theorems": [
    "C81_schedule_independent",
    "C81_n_jobs_independent"
   ],
   "note": "Simulation between the trainer on the pool and on one thread. Without set sizes n_jobs becomes the number of blocks and the run is another one (example)."
  },
  {
   "property": "C82",
   "status": "proved",
   "theorems": [
    "C82_import",
    "C82_machine_class",
    "C82_inference_class",
    "C82_isa_built"
   ],
   "note": "Invariant of the shared registry over all programs."
  },
  {
   "property": "C83",
   "status": "partial",
   "theorems": [
    "C83_vendor_refuted",
    "C83_detects_refuted",
    "C83_exact_partial",
    "C83_same_machine_partial"
   ],
   "note": "Refuted: it tests bit 5 of EDX of leaf 0, a letter of the vendor's name, so AVX2 builds say yes on every Intel and AMD processor. Proved: what it computes, and that it is right on the Linux machine that built it."
  },
  {
   "property": "C84",
   "status": "partial",
   "theorems": [
    "C84_training_refuted",
    "C84_training_keyerror_refuted",
    "C84_predicting_refuted",
    "C84_setup_partial"
   ],
   "note": "Refuted for every program: training never starts and every predictor raises KeyError, since the keys with flags exist only in the core's half. Proved: construction and data checks work."
  },
  {
   "property": "C85",
   "status": "partial",
   "theorems": [
    "C85_two_machines_refuted",
    "C85_sequential_partial",
    "C85_default_flags_partial"
   ],
   "note": "Refuted for all flags but one: after training one of two equal sparse machines the other raises TypeError (the registry entry it is compared with was overwritten). Proved: works as long as no other sparse machine is trained after its creation, and always if all sparse machines have the flags of the default class."
  },
  {
   "property": "C86",
   "status": "proved",
   "theorems": [
    "C86_dense",
    "C86_dense_data",
    "C86_started"
   ],
   "note": "Safety of the registry: interference (C85) ends in an exception, never in training on wrongly decoded data."
  },
  {
   "property": "C87",
   "status": "partial",
   "theorems": [
    "C87_trains_refuted",
    "C87_error_refuted",
    "C87_multi_label_refuted"
   ],
   "note": "Refuted: without AVX2 the registry holds a one-element tuple and training raises TypeError; multi_label is passed in the place of boost_true_positives. With AVX2 the blocks refuse to initialise since nothing sets the number of patches, and the executor raises RuntimeError; so training never starts on any build. Only construction works."
  },
  {
   "property": "C88",
   "status": "partial",
   "theorems": [
    "C88_train_partial",
    "C88_eval_partial",
    "C88_step_partial",
    "C88_train_ragged_refuted",
    "C88_eval_ragged_refuted"
   ],
   "note": "Proved for one patch of any size and for patches of whole 32-byte vectors (without the literal budget the scalar block also fills its scratch array of counts, which the AVX2 block does not). Refuted otherwise: with several patches of any other size every training example loads the second patch with an aligned load from an unaligned address (undefined), and evaluation does so exactly when some clause does not fire on the first patch."
  },
  {
   "property": "C89",
   "status": "proved",
   "theorems": [
    "C89_matching_clause",
    "C89_silent_clause",
    "C89_delta"
   ],
   "note": "Includes the padding of the rows."
  },
  {
   "property": "C90",
   "status": "proved",
   "theorems": [
    "C90_history",
    "C90_initialized",
    "C90_needs_patches",
    "C90_prediction"
   ],
   "note": "Two-phase invariant: between train_example and train_update every clause with output 1 has an active patch inside the example; after evaluations the active patches are stale but not read."
  },
  {
   "property": "C91",
   "status": "proved",
   "theorems": [
    "C91_one_patch_blocks",
    "C91_one_patch_predictions"
   ],
   "note": "Simulation between the two executors."
  },
  {
   "property": "C92",
   "status": "proved",
   "theorems": [
    "C92_each_once_in_order",
    "C92_barrier",
    "C92_mutual_exclusion",
    "C92_never_pops_empty",
    "C92_fork_join"
   ],
   "note": "Sequentially consistent interleaving of the individual reads and writes; less than 2^64 outstanding tasks."
  },
  {
   "property": "C93",
   "status": "proved",
   "theorems": [
    "C93_never_stuck",
    "C93_can_finish",
    "C93_bounded"
   ],
   "note": "The votes lock is part of the model: tasks are sequences of atomic steps lock, load, store, ..., unlock."
  },
  {
   "property": "C94",
   "status": "proved",
   "theorems": [
    "C94_answers",
    "C94_answers_before_destruction",
    "C94_dense",
    "C94_avx2",
    "C94_neon",
    "C94_sparse",
    "C94_conv",
    "C94_no_sharing"
   ],
   "note": "C21 with the thread pool's code in place of an abstract one; instances for the dense, AVX2, NEON, sparse and convolutional blocks; also with the destructor running afterwards."
  },
  {
   "property": "C95",
   "status": "partial",
   "theorems": [
    "C95_destructor_returns_refuted",
    "C95_destructor_after_use_refuted",
    "C95_only_lost_wakeup_partial",
    "C95_returns_otherwise_partial"
   ],
   "note": "Refuted: running is cleared and workers notified without holding the mutex, so a wake-up can be lost and join() blocks for ever, for every number of threads. Proved: this is the only way to hang (the client joins a sleeping worker) and it does not happen when no worker is between its test and its blocking at notify_all."
  },
  {
   "property": "C96",
   "status": "partial",
   "theorems": [
    "C96_training_exact",
    "C96_training_partial",
    "C96_training_refuted",
    "C96_evaluation",
    "C96_evaluation_refuted",
    "C96_more_classes",
    "C96_more_classes_training"
   ],
   "note": "Refuted by trained machines: training skips a clause whose list number k + n_classes is empty (line 294), evaluation runs over range(n_classes) (line 315). Proved: the exact outputs in both modes, the claim itself when n_classes = n_clauses, IndexError with more classes than clauses."
  },
  {
   "property": "C97",
   "status": "partial",
   "theorems": [
    "C97_history",
    "C97_initialized",
    "C97_bound_refuted"
   ],
   "note": "The upper bound is refuted: for every N a history takes an automaton above N (upper_state is never used). Everything else is proved."
  },
  {
   "property": "C98",
   "status": "proved",
   "theorems": [
    "C98_pruning"
   ],
   "note": ""
  },
  {
   "property": "C99",
   "status": "proved",
   "theorems": [
    "C99_type1a",
    "C99_type1b",
    "C99_type2",
    "C99_nothing",
    "C99_active"
   ],
   "note": "Weights wrap around as int8."
  },
  {
   "property": "C100",
   "status": "partial",
   "theorems": [
    "C100_budget_ignored_partial",
    "C100_initialized",
    "C100_budget_refuted"
   ],
   "note": "Refuted: literal_counts is never written. Proved: with any budget that is not negative every history is the one without a budget."
  },
  {
   "property": "C101",
   "status": "proved",
   "theorems": [
    "C101_initialize",
    "C101_train_outputs",
    "C101_eval_outputs",
    "C101_votes",
    "C101_update",
    "C101_train",
    "C101_eval",
    "C101_get_state",
    "C101_set_state",
    "C101_get_weights",
    "C101_set_weights",
    "C101_new_input"
   ],
   "note": "The heap model (numbered allocations, offsets, uninitialised cells, new[]/malloc kinds, int range) refines the list model step by step."
  },
  {
   "property": "C102",
   "status": "partial",
   "theorems": [
    "C102_session",
    "C102_cycle",
    "C102_leak_grows",
    "C102_release_refuted",
    "C102_cleanup_twice",
    "C102_running"
   ],
   "note": "Refuted: CleanupTM never frees clause_outputs. Proved: a session of n blocks is defined throughout and ends with exactly n allocations more than before; k cycles on one object leave k; a second cleanup does nothing; training and evaluation neither allocate nor release."
  },
  {
   "property": "C103",
   "status": "proved",
   "theorems": [
    "C103_clause_array",
    "C103_weight_array",
    "C103_example_offset",
    "C103_label",
    "C103_seed_zero"
   ],
   "note": "None of these is checked by the python layer (labels, num_clauses * num_literals * 2, number of examples * number of literals, seed 0 with a loaded state)."
  },
  {
   "property": "C104",
   "status": "partial",
   "theorems": [
    "C104_reachable",
    "C104_votes_partial",
    "C104_probability_partial",
    "C104_accuracy_partial",
    "C104_blind_refuted",
    "C104_refuted"
   ],
   "note": "Refuted: register_votes runs over the number of labels, half of the votes. Proved: the ON votes are the sums (mod 2^16), the OFF votes are 0 for every history, an OFF class is always updated with probability 1/2, the accuracy compares ON votes with 0, and machines that differ only in OFF weights get the same feedback."
  },
  {
   "property": "C105",
   "status": "partial",
   "theorems": [
    "C105_returns_refuted",
    "C105_matrix",
    "C105_flat_refuted",
    "C105_one_label_refuted"
   ],
   "note": "Refuted: with at least one epoch it never returns. A label matrix of the right width is read in bounds, then eval_predict_multi calls exit(1) after the first epoch; a label vector or a single column is read past its end in the first epoch; with one label the redraw loop never ends. [Spin] is a redraw loop longer than the given fuel. With the engine of libstdc++ and two or more labels every redraw loop ends (C131_multi_label)."
  },
  {
   "property": "C106",
   "status": "partial",
   "theorems": [
    "C106_accepts",
    "C106_single_label",
    "C106_multi_label",
    "C106_vector_refuted"
   ],
   "note": "Refuted for vectors and single columns with a multi-label machine (see C105_flat_refuted). Proved: the exact condition; several columns never reach a single-label machine; a multi-label machine rejects every width above 1 other than its number of labels."
  },
  {
   "property": "C107",
   "status": "partial",
   "theorems": [
    "C107_defined",
    "C107_balance_partial",
    "C107_cycles_refuted",
    "C107_outputs",
    "C107_no_cleanup",
    "C107_is_init"
   ],
   "note": "Refuted: no cleanup releases clause_outputs; k cycles leave k arrays in every backend. Proved: no sequence of calls is undefined, the exact number of live arrays after any sequence, clause_outputs is the only member left, initialize without cleanup leaves everything, m_is_init."
  },
  {
   "property": "C108",
   "status": "partial",
   "theorems": [
    "C108_safe",
    "C108_padded",
    "C108_unpadded_partial",
    "C108_unpadded_refuted"
   ],
   "note": "Refuted for the dense AVX2 block, which calls aligned_alloc itself: true exactly when the number of classes is a multiple of 16. Proved for safe_aligned_alloc and for padded weights (convolutional AVX2)."
  },
  {
   "property": "C109",
   "status": "partial",
   "theorems": [
    "C109_copied",
    "C109_folds",
    "C109_uncopied_partial",
    "C109_uncopied_only_partial",
    "C109_refuted",
    "C109_reversed_refuted",
    "C109_input_block"
   ],
   "note": "Refuted for copy_training_data=False: Fortran order presents other bits, x[::-1] is read past its end. Proved with the copy, for evaluation data and for folds; without the copy for C-contiguous arrays, and that these are the only layouts that always work."
  },
  {
   "property": "C110",
   "status": "partial",
   "theorems": [
    "C110_exact_partial",
    "C110_overflow",
    "C110_refuted"
   ],
   "note": "Refuted: index * m_num_literals is an int product (100000 x 30000). Proved: all examples are presented iff (n-1)*m <= 2^31-1."
  },
  {
   "property": "C111",
   "status": "partial",
   "theorems": [
    "C111_example",
    "C111_refused",
    "C111_short_refuted",
    "C111_size_refuted"
   ],
   "note": "Refuted: contiguous arrays are not checked; shorter ones are read past the end, longer ones cut, of a matrix only the first row is used. Proved: right sizes in any layout, and non-contiguous arrays of the wrong size are refused."
  },
  {
   "property": "C112",
   "status": "partial",
   "theorems": [
    "C112_exact_partial",
    "C112_windows_partial",
    "C112_refuted"
   ],
   "note": "Refuted: total memory is an int product (60000 images of 28x28 with 10x10 windows). Proved: all integer computations stay in range iff images * patches * literals per patch <= 2^31-32, and then the offsets are those of the window model."
  },
  {
   "property": "C113",
   "status": "partial",
   "theorems": [
    "C113_in_memory",
    "C113_contents",
    "C113_refuted",
    "C113_one_block_refuted",
    "C113_predictor_partial",
    "C113_training_partial",
    "C113_training_refuted"
   ],
   "note": "Refuted: if all blocks have the same number of clauses (one block in particular) the rows of the file come back as lists, compile raises AttributeError, training TypeError. Proved: contents survive; the predictor is the same if the numbers of clauses differ between blocks; training continues the same if also the numbers of automata differ."
  },
  {
   "property": "C114",
   "status": "proved",
   "theorems": [
    "C114_train",
    "C114_eval",
    "C114_update",
    "C114_history",
    "C114_set_state",
    "C114_class_refuted",
    "C114_no_active_refuted",
    "C114_short_active_refuted"
   ],
   "note": "Access by access, operator[] out of range separate from at(). The limits are proved too: a label that is not a class reads past the active literals, no room for an active literal throws, an active literals array with a row too few is read past its end."
  },
  {
   "property": "C115",
   "status": "partial",
   "theorems": [
    "C115_same",
    "C115_more_blocks",
    "C115_silent",
    "C115_exact"
   ],
   "note": "Refuted: with more blocks the transfer raises IndexError, with other sizes in at most as many blocks it ends silently and a block reads outside its vectors on every example. Proved: it works exactly if the blocks have the same sizes."
  },
  {
   "property": "C116",
   "status": "proved",
   "theorems": [
    "C116_initialize",
    "C116_sizes",
    "C116_history",
    "C116_call",
    "C116_read",
    "C116_buffer",
    "C116_no_literals_refuted",
    "C116_index_refuted",
    "C116_class_refuted"
   ],
   "note": "Access by access. The limits are proved too: the sizes that overflow an int, exactly; a block without literals loads from before its arrays; a label that is not a class leaves the weights; index * num_literals above 2^31 - 1 is not an int."
  },
  {
   "property": "C117",
   "status": "partial",
   "theorems": [
    "C117_spaces_partial",
    "C117_reaches",
    "C117_fixed_int_s_refuted",
    "C117_no_data_refuted",
    "C117_pair_s_refuted"
   ],
   "note": "The full statement is false: a pair for s steps by 0.1 (2.1 is tried), and a fixed s that is an int raises TypeError. Proved: all trials use points of the spaces with step 0.1 for pairs of s, and every point is reached."
  },
  {
   "property": "C118",
   "status": "partial",
   "theorems": [
    "C118_best",
    "C118_completes_partial",
    "C118_refuted",
    "C118_aborts"
   ],
   "note": "The full statement is false: a trial with fewer clauses than n_jobs raises and aborts the search, and best_trials is never set. Proved when every clause count is at least n_jobs, for every k_folds (StratifiedKFold assumed to give k_folds non-empty folds when some class has k_folds examples) and the default accuracy score; the characterisation of best_trials holds for all backends and scores."
  },
  {
   "property": "C119",
   "status": "partial",
   "theorems": [
    "C119_classes_partial",
    "C119_refuted"
   ],
   "note": "False: n_classes is the number of different labels, so labels 0 and 2 give two classes. Proved: it holds exactly if the labels are 0, 1, ..., k-1."
  },
  {
   "property": "C120",
   "status": "partial",
   "theorems": [
    "C120_constructed",
    "C120_memory_partial",
    "C120_predict_partial",
    "C120_compiled",
    "C120_target_refuted",
    "C120_short_example_refuted",
    "C120_no_class_refuted",
    "C120_stale_clauses_refuted",
    "C120_too_many_literals_refuted"
   ],
   "note": "The full statement is false: a target class that does not exist, an example that is too short, an object without classes, more than 2^30 literals, or explaining between set_rules and the next predict leave the arrays. Proved for every history without these, with rules whose absolute weights sum to at most 2^31-1 per class; rule sets compiled from at most 65535 clauses are such."
  },
  {
   "property": "C121",
   "status": "partial",
   "theorems": [
    "C121_importance_partial",
    "C121_literals",
    "C121_per_rule_refused",
    "C121_more_rules_refuted",
    "C121_unset_refuted",
    "C121_predictor_refuted"
   ],
   "note": "The full statement is false: set_features demands as many lists as there are features while the lists are used by rule number, so more rules than features read past the end, unset features are not noticed, and Predictor always asks for -1 features, which throws. Proved when there are at most as many rules as features; literal importance without that restriction."
  },
  {
   "property": "C122",
   "status": "partial",
   "theorems": [
    "C122_votes_partial",
    "C122_refuted",
    "C122_names_refuted"
   ],
   "note": "The full statement is false: is_multi_label is stored and never used, predict returns one of the 2n class numbers, which does not determine the labels, and with n target names an OFF class that wins raises IndexError. Proved: get_votes after predict are the exact ON and OFF votes, from which the labels follow."
  },
  {
   "property": "C123",
   "status": "partial",
   "theorems": [
    "C123_new",
    "C123_again_partial",
    "C123_again",
    "C123_twice",
    "C123_refuted"
   ],
   "note": "The full statement is false: cleanup leaves active_literals and initialize only resizes it, so the old active literals take part in the new training. Proved: everything else is as new, and all of it exactly when there were no active literals."
  },
  {
   "property": "C124",
   "status": "proved",
   "theorems": [
    "C124_parameters"
   ],
   "note": "Finite s; what an infinite s gives is in C09 and the model's comment."
  },
  {
   "property": "C125",
   "status": "partial",
   "theorems": [
    "C125_csr_run_partial",
    "C125_refuted"
   ],
   "note": "The full statement is false with k_folds > 1, where csr data raises ValueError (C125_refuted); without folds it is proved."
  },
  {
   "property": "C126",
   "status": "partial",
   "theorems": [
    "C126_initialize",
    "C126_sizes",
    "C126_history",
    "C126_call",
    "C126_read",
    "C126_buffer",
    "C126_budget_refuted",
    "C126_no_literals_refuted",
    "C126_weights_refuted",
    "C126_class_refuted"
   ],
   "note": "Proved for the sizes that fit (C126_sizes: exactly these), at least one literal, labels that are classes and, in training, a literal budget; each limit has a refuted theorem: no budget (literal_counts is written unguarded), no literals, 2^30 weights (32 bytes are allocated), other labels."
  },
  {
   "property": "C127",
   "status": "proved",
   "theorems": [
    "C127_best_state_scores",
    "C127_last_state_scores",
    "C127_accuracy",
    "C127_last_fold",
    "C127_usable",
    "C127_resume",
    "C127_schedule_independent",
    "C127_n_jobs_independent",
    "C127_parameters"
   ],
   "note": "The only condition on the vector generator is that it returns whole vectors; scores are about predictors whose int16 votes do not overflow (votes_fit). Machines without literals are outside."
  },
  {
   "property": "C128",
   "status": "partial",
   "theorems": [
    "C128_parameters",
    "C128_constructor",
    "C128_construct",
    "C128_best_state_scores_partial",
    "C128_last_state_scores_partial",
    "C128_usable",
    "C128_resume",
    "C128_resume_exact",
    "C128_folds",
    "C128_schedule_independent",
    "C128_n_jobs_independent",
    "C128_resume_refuted"
   ],
   "note": "A second call of train fails with a TypeError exactly when the active literal lists of a block differ in length (C128_resume_refuted, C128_resume_exact), and k_folds > 1 never works on csr data (C128_folds). Scores: where evaluation and rule set read the clauses alike (C34's condition all_plain) and the votes fit int16."
  },
  {
   "property": "C129",
   "status": "partial",
   "theorems": [
    "C129_life",
    "C129_calls_partial",
    "C129_no_trace_partial",
    "C129_no_patches",
    "C129_trace_refuted",
    "C129_unwritten_refuted"
   ],
   "note": "Accesses, values and release for all inputs (C129_life, one array is not released as in C102). Independence of new memory is false with a literal budget and more than one patch (C129_trace_refuted: literal_counts_per_patch is read at the storage index) and holds otherwise (C129_no_trace_partial); reads of unwritten elements happen in any case before the first match (C129_unwritten_refuted) and not once the arrays are written (C129_calls_partial)."
  },
  {
   "property": "C130",
   "status": "partial",
   "theorems": [
    "C130_initialize",
    "C130_history_partial",
    "C130_call_partial",
    "C130_safe_partial",
    "C130_ragged_refuted",
    "C130_no_trace_partial",
    "C130_trace_refuted"
   ],
   "note": "The accesses are modelled one by one and agree with the list model everywhere, undefined exactly where it is (C130_history_partial, C130_call_partial). Safe exactly as far as patches are whole vectors or there is one patch (C130_safe_partial); otherwise the first training example is loaded from an odd address (C130_ragged_refuted). Independence of new memory holds without a budget or with one patch (C130_no_trace_partial) and is false otherwise (C130_trace_refuted). Addresses are offsets from arrays assumed 32-byte aligned, as the allocator gives them."
  },
  {
   "property": "C131",
   "status": "proved",
   "theorems": [
    "C131_period",
    "C131_negative_class",
    "C131_uniform",
    "C131_multi_label",
    "C131_first_other",
    "C131_share",
    "C131_one_class"
   ],
   "note": "Closes the zero-draw gap of C19 and the fuel of the redraw loops for this engine. std::minstd_rand0, the rejection loop of uniform_int_distribution and generate_canonical are modelled as in libstdc++ up to gcc 14; probabilities are exact rationals. C131_one_class is the excluded case."
  },
  {
   "property": "C132",
   "status": "partial",
   "theorems": [
    "C132_follows_init_refuted",
    "C132_one_seed_refuted",
    "C132_neighbours_refuted",
    "C132_first_automaton_refuted",
    "C132_apart_partial",
    "C132_collision_refuted"
   ],
   "note": "Refuted. Feedback block, shuffle and first clause block are seeded with the same number (C132_one_seed_refuted); as long as no engine value is rejected, draw j of the feedback block is below 1073741822/2147483646 exactly if automaton 2j+1 of the first block started at -1 (C132_follows_init_refuted). Neighbouring blocks stay at a distance that does not depend on the seed (C132_neighbours_refuted); the first automaton is -1 for every seed from 1 to 63886 (C132_first_automaton_refuted). Distinct seeds below 2^31-1 give engines that never meet (C132_apart_partial), larger ones repeat (C132_collision_refuted). Engine as in C131."
  },
  {
   "property": "C133",
   "status": "partial",
   "theorems": [
    "C133_orders_refuted",
    "C133_any_shuffle_refuted",
    "C133_draws_partial"
   ],
   "note": "Refuted from 13 examples on: the index set is reset before every shuffle and the engine has fewer states than there are orders, so for every shuffle algorithm some order never occurs, by no seed and in no epoch (C133_orders_refuted, C133_any_shuffle_refuted). With suitable draws the shuffle gives every order (C133_draws_partial). The engine has the states of C131."
  },
  {
   "property": "C134",
   "status": "proved",
   "theorems": [
    "C134_best_state_scores",
    "C134_last_state_scores",
    "C134_last_fold",
    "C134_usable",
    "C134_n_jobs_independent",
    "C134_uniform_ends",
    "C134_negative_differs",
    "C134_refused"
   ],
   "note": "C134_uniform_ends says that the run does not depend on what would follow an endless loop; engine as in C131. With one class the loop never ends (C131_one_class). The scalar backend."
  },
  {
   "property": "C135",
   "status": "partial",
   "theorems": [
    "C135_best_state_scores_partial",
    "C135_last_state_scores_partial",
    "C135_last_fold_partial",
    "C135_usable",
    "C135_resume",
    "C135_schedule_independent",
    "C135_n_jobs_independent",
    "C135_parameters",
    "C135_best_state_scores_refuted"
   ],
   "note": "Usability, resuming, schedules, n_jobs and parameters are proved in full. The reported score is that of the exported predictor for states whose clauses without literals stand before those with one (C135_*_partial); in general it is not (C135_best_state_scores_refuted: 2/4 reported, 3/4 of the exported predictor), because EvalClauseOutputNeon never resets its flag for included literals (C75). Machines without a literal budget write through a null pointer (C78) and are left out."
  },
  {
   "property": "C136",
   "status": "partial",
   "theorems": [
    "C136_features_partial",
    "C136_completes_partial",
    "C136_unselected_refuted",
    "C136_unselected_error",
    "C136_index_from_refuted"
   ],
   "note": "Proved for num_words >= 2, index_from >= 2 and selection of features, with existence of the result (C136_features_partial, C136_completes_partial). Without selection (SKB=False) no call returns (C136_unselected_refuted: UnboundLocalError, C136_unselected_error); with index_from=1 the most frequent word reads as the unknown marker (C136_index_from_refuted). keras and sklearn enter through what their documentation says."
  },
  {
   "property": "C137",
   "status": "partial",
   "theorems": [
    "C137_settled_partial",
    "C137_avx2_partial",
    "C137_neon_partial",
    "C137_sparse_partial",
    "C137_conv_partial",
    "C137_threads_partial",
    "C137_uniform_step",
    "C137_undecided_moves",
    "C137_settled_refuted"
   ],
   "note": "Proved for draws of at least 1e-16 on five blocks (C137_settled_partial, C137_avx2_partial, C137_neon_partial, C137_sparse_partial, C137_conv_partial; not convolution with AVX2) and for the thread pool (C137_threads_partial). False without that: 1e-16 is added to the update probability of the other class, so a draw of 0, which Wyhash64 does return (C70), changes a settled machine (C137_settled_refuted). C137_uniform_step: the same probabilities with uniform feedback. C137_undecided_moves: sharpness. The sparse theorem assumes the votes registered, C33 says which clauses cast them."
  },
  {
   "property": "C138",
   "status": "proved",
   "theorems": [
    "C138_conjunction",
    "C138_machine",
    "C138_function",
    "C138_window",
    "C138_closed"
   ],
   "note": "C138_conjunction: one clause, everything else left alone. C138_machine: all clauses and weights. C138_function: every classification. C138_window: the probabilities of FeedbackBlock::process are strictly between 0 and 1 while the votes are within the threshold. C138_closed: with probabilities 0 clauses and weights stay."
  },
  {
   "property": "C139",
   "status": "proved",
   "theorems": [
    "C139_simulates_unboosted",
    "C139_function",
    "C139_boost_refuted"
   ],
   "note": "C139_function: every classification, boosted or not. C139_simulates_unboosted: every scalar training without boosting. C139_boost_refuted: a boosted scalar step no AVX2 step can make."
  },
  {
   "property": "C140",
   "status": "proved",
   "theorems": [
    "C140_function",
    "C140_initialised",
    "C140_relearn"
   ],
   "note": "C140_function: from every good state. C140_initialised: from the block InitializeAlignedNeon makes. C140_relearn: after any training. The literal budget is on (without it the NEON block writes through a null pointer, see ModelNeon.v)."
  },
  {
   "property": "C141",
   "status": "partial",
   "theorems": [
    "C141_eval",
    "C141_training_partial",
    "C141_step_partial",
    "C141_draws",
    "C141_exists",
    "C141_boost_refuted"
   ],
   "note": "C141_training_partial, C141_step_partial: without boosting, all runs. C141_eval: the votes. C141_draws, C141_exists: the exchange is a permutation within pairs, and every block has a mirror image. C141_boost_refuted: a boosted step the mirror image cannot make with any draws. Missing: boosting, where the claim is false."
  },
  {
   "property": "C142",
   "status": "partial",
   "theorems": [
    "C142_training",
    "C142_chance",
    "C142_predict_partial",
    "C142_tie_refuted",
    "C142_zero_draw_refuted",
    "C142_exists"
   ],
   "note": "C142_training: whole trainings over any list of examples with all blocks. C142_chance: equal intervals of draws. C142_predict_partial: predictions without ties. C142_exists: every block has a renamed one. C142_tie_refuted, C142_zero_draw_refuted: false for ties and for a draw of exactly zero. Missing: ties, where the claim is false."
  },
  {
   "property": "C143",
   "status": "partial",
   "theorems": [
    "C143_avx2",
    "C143_neon",
    "C143_predict_avx2_partial",
    "C143_predict_neon_partial",
    "C143_exists",
    "C143_tie_refuted"
   ],
   "note": "C143_avx2, C143_neon: whole trainings over any list of examples with all blocks, NEON with the literal budget on (without it the kernel writes through a null pointer). C143_predict_avx2_partial, C143_predict_neon_partial: predictions without ties. C143_exists: every block has a renamed one. C143_tie_refuted: false for ties. Missing: ties, where the claim is false. That the draws are as likely is C142_chance, which is about the feedback block all backends share."
  },
  {
   "property": "C144",
   "status": "partial",
   "theorems": [
    "C144_sparse",
    "C144_conv",
    "C144_predict_sparse_partial",
    "C144_predict_conv_partial",
    "C144_sparse_exists",
    "C144_conv_exists",
    "C144_tie_refuted"
   ],
   "note": "C144_sparse, C144_conv: whole trainings over any list of examples with all blocks. C144_predict_sparse_partial, C144_predict_conv_partial: predictions without ties. C144_sparse_exists, C144_conv_exists: every block has a renamed one. C144_tie_refuted: false for ties. Missing: ties, where the claim is false. That the draws are as likely is C142_chance, which is about the feedback block all backends share."
  },
  {
   "property": "C145",
   "status": "proved",
   "theorems": [
    "C145_dense",
    "C145_avx2",
    "C145_neon",
    "C145_sparse",
    "C145_conv",
    "C145_loop",
    "C145_chance",
    "C145_draws_exist"
   ],
   "note": "C145_dense, C145_avx2, C145_neon, C145_sparse, C145_conv: whole trainings over any list of examples with all blocks. C145_loop: one example. C145_chance: the draws for a class and those for the renamed class are intervals of the same length. C145_draws_exist: the hypothesis about the draws can always be met. An example whose loop does not stop within the bound gets no feedback, as in ModelTrainerFeedback.v. Predictions, and their ties, are C142 to C144, which do not depend on the feedback."
  }
 ]
}
{
 "claims": [
  {
   "property": "C01",
   "status": "proved",
   "theorems": [
    "C01_generated_pipelines_in_search_space",
    "C01_mutation_in_search_space",
    "C01_crossover_in_search_space"
   ],
   "note": ""
  },
  {
   "property": "C02",
   "status": "proved",
   "theorems": [
    "C02_creation_length"
   ],
   "note": ""
  },
  {
   "property": "C03",
   "status": "proved",
   "theorems": [
    "C03_mutation_max_length"
   ],
   "note": ""
  },
  {
   "property": "C04",
   "status": "partial",
   "theorems": [
    "C04_mate_max_length_refuted",
    "C04_mate_length_partial"
   ],
   "note": "The statement is false of the code: mate ignores the order random_crossover returns, so the returned individual can exceed the limit (refuted by a computed witness). Proved instead: the exact length bound that does hold."
  },
  {
   "property": "C05",
   "status": "proved",
   "theorems": [
    "C05_crossover_first_result"
   ],
   "note": ""
  },
  {
   "property": "C06",
   "status": "proved",
   "theorems": [
    "C06_mutate_leaves_parents",
    "C06_mate_leaves_parents",
    "C06_individuals_never_change"
   ],
   "note": ""
  },
  {
   "property": "C07",
   "status": "proved",
   "theorems": [
    "C07_shrink_by",
    "C07_shrink_random"
   ],
   "note": ""
  },
  {
   "property": "C08",
   "status": "proved",
   "theorems": [
    "C08_insert"
   ],
   "note": ""
  },
  {
   "property": "C09",
   "status": "proved",
   "theorems": [
    "C09_replace_terminal"
   ],
   "note": ""
  },
  {
   "property": "C10",
   "status": "proved",
   "theorems": [
    "C10_replace_primitive"
   ],
   "note": ""
  },
  {
   "property": "C11",
   "status": "proved",
   "theorems": [
    "C11_crossover_terminals"
   ],
   "note": ""
  },
  {
   "property": "C12",
   "status": "proved",
   "theorems": [
    "C12_crossover_primitives"
   ],
   "note": ""
  },
  {
   "property": "C13",
   "status": "partial",
   "theorems": [
    "C13_replace_terminal_refuted",
    "C13_replace_terminal_partial"
   ],
   "note": "False at one position: position = number of hyperparameters is accepted silently without effect. All other positions are settled."
  },
  {
   "property": "C14",
   "status": "partial",
   "theorems": [
    "C14_replace_primitive_refuted",
    "C14_replace_primitive_partial"
   ],
   "note": "False out of range: position = number of steps appends the node. In range the full statement is proved."
  },
  {
   "property": "C15",
   "status": "partial",
   "theorems": [
    "C15_mutation_exists_refuted",
    "C15_mutation_exists_partial"
   ],
   "note": "False: with max_length 1 a single-step pipeline with at most one tunable hyperparameter cannot be mutated. The partial theorem shows this is the only failure (search spaces with real alternatives, limit >= 1)."
  },
  {
   "property": "C16",
   "status": "partial",
   "theorems": [
    "C16_mutate_overlong_refuted",
    "C16_mutate_in_place_overlong_partial"
   ],
   "note": "False: OperatorSet.mutate raises AttributeError on every over-long individual. The in-place mutation does cut to exactly the limit."
  },
  {
   "property": "C17",
   "status": "proved",
   "theorems": [
    "C17_mutate_avoids_duplicates",
    "C17_mate_avoids_duplicates",
    "C17_compared_text",
    "C17_same_text_same_pipeline"
   ],
   "note": ""
  },
  {
   "property": "C18",
   "status": "proved",
   "theorems": [
    "C18_valid_crossovers",
    "C18_random_crossover"
   ],
   "note": ""
  },
  {
   "property": "C19",
   "status": "proved",
   "theorems": [
    "C19_round_trip",
    "C19_round_trip_in_search"
   ],
   "note": ""
  },
  {
   "property": "C20",
   "status": "proved",
   "theorems": [
    "C20_strict",
    "C20_not_strict"
   ],
   "note": ""
  },
  {
   "property": "C21",
   "status": "partial",
   "theorems": [
    "C21_round_trip_all_values_refuted",
    "C21_other_pipeline_refuted",
    "C21_round_trip_partial"
   ],
   "note": "False: values whose text contains an opening bracket or a comma, and two function values with one __name__, do not come back. Proved instead: the round trip whenever the entries used by the pipeline are recognisable from their text."
  },
  {
   "property": "C22",
   "status": "proved",
   "theorems": [
    "C22_no_dominated_item"
   ],
   "note": ""
  },
  {
   "property": "C23",
   "status": "proved",
   "theorems": [
    "C23_front_covers",
    "C23_front_from_offers",
    "C23_since_clear",
    "C23_same_arity_accepted"
   ],
   "note": ""
  },
  {
   "property": "C24",
   "status": "partial",
   "theorems": [
    "C24_update_result",
    "C24_other_arity_partial",
    "C24_other_arity_error_refuted"
   ],
   "note": "False for items without a length: building the message of the ValueError raises TypeError instead. For items with a length the full statement is proved."
  },
  {
   "property": "C25",
   "status": "proved",
   "theorems": [
    "C25_eliminate",
    "C25_only_one"
   ],
   "note": ""
  },
  {
   "property": "C26",
   "status": "partial",
   "theorems": [
    "C26_best_survives_refuted",
    "C26_best_survives_partial"
   ],
   "note": "False: with the length objective the pipeline with the best score can be the one eliminated. Proved: an individual at least as good as some other one in all objectives, and better than it in one, is kept in favour of that other one."
  },
  {
   "property": "C27",
   "status": "proved",
   "theorems": [
    "C27_fronts",
    "C27_one_empty_front"
   ],
   "note": ""
  },
  {
   "property": "C28",
   "status": "proved",
   "theorems": [
    "C28_selection",
    "C28_no_better_left_out",
    "C28_least_crowded",
    "C28_errors"
   ],
   "note": ""
  },
  {
   "property": "C29",
   "status": "proved",
   "theorems": [
    "C29_pairs",
    "C29_too_few",
    "C29_tournament"
   ],
   "note": ""
  },
  {
   "property": "C30",
   "status": "partial",
   "theorems": [
    "C30_rank_refuted",
    "C30_rank_partial"
   ],
   "note": "False: fronts 0 and 1 both get rank 1, so a tournament between them is decided by crowding distance alone (refuted by a computed population). Proved: from the second front on the rank is the front number, and the first front has rank 1."
  },
  {
   "property": "C31",
   "status": "proved",
   "theorems": [
    "C31_crowding",
    "C31_empty"
   ],
   "note": ""
  },
  {
   "property": "C32",
   "status": "proved",
   "theorems": [
    "C32_best_kept",
    "C32_no_exception"
   ],
   "note": ""
  },
  {
   "property": "C33",
   "status": "proved",
   "theorems": [
    "C33_n_best",
    "C33_n_best_all"
   ],
   "note": ""
  },
  {
   "property": "C34",
   "status": "proved",
   "theorems": [
    "C34_top_readable"
   ],
   "note": ""
  },
  {
   "property": "C35",
   "status": "partial",
   "theorems": [
    "C35_repeated_refuted",
    "C35_repeated_partial"
   ],
   "note": "False: evaluations of one individual share a cache file. When a second successful evaluation pushes the first out of the top, the file both share is removed: the predictions of the top evaluation raise FileNotFoundError, and the next save_evaluation that removes it raises too, losing it. Proved instead: the guarantee as long as at most one evaluation per individual is successful (as with ASHA)."
  },
  {
   "property": "C36",
   "status": "proved",
   "theorems": [
    "C36_lookup",
    "C36_lookup_position",
    "C36_last"
   ],
   "note": ""
  },
  {
   "property": "C37",
   "status": "proved",
   "theorems": [
    "C37_sample",
    "C37_every_sample"
   ],
   "note": ""
  },
  {
   "property": "C38",
   "status": "proved",
   "theorems": [
    "C38_exactly_once",
    "C38_progress",
    "C38_delivery"
   ],
   "note": ""
  },
  {
   "property": "C39",
   "status": "partial",
   "theorems": [
    "C39_own_call_refuted",
    "C39_own_call_partial",
    "C39_own_call_no_defaults"
   ],
   "note": "False as stated: keyword arguments passed to submit are overridden by the evaluator's class-level defaults (refuted by a computed run). Proved: the future carries the outcome of its own function and positional arguments, keywords as submitted unless the defaults contain the same key; exactly its own call when there are no defaults."
  },
  {
   "property": "C40",
   "status": "proved",
   "theorems": [
    "C40_wait_error",
    "C40_waiting"
   ],
   "note": ""
  },
  {
   "property": "C41",
   "status": "partial",
   "theorems": [
    "C41_no_loss_refuted",
    "C41_no_loss_partial",
    "C41_only_largest",
    "C41_exceeded"
   ],
   "note": "False: the worker stopped for memory loses the future it executes, and wait_next then waits for ever (refuted; proved for every continuation). Proved: every other outstanding future stays outstanding or is returned by every step."
  },
  {
   "property": "C42",
   "status": "partial",
   "theorems": [
    "C42_any_result_refuted",
    "C42_any_result_partial"
   ],
   "note": "False: a true result without an error field, or with an undetermined truth value, ends the worker and is never delivered. Proved: an outcome is delivered exactly when it is of the accepted kinds."
  },
  {
   "property": "C43",
   "status": "proved",
   "theorems": [
    "C43_pool_size",
    "C43_enter_twice",
    "C43_closed"
   ],
   "note": ""
  },
  {
   "property": "C44",
   "status": "proved",
   "theorems": [
    "C44_queue_size",
    "C44_stopped"
   ],
   "note": ""
  },
  {
   "property": "C45",
   "status": "partial",
   "theorems": [
    "C45_population_partial",
    "C45_population_refuted"
   ],
   "note": "False at one point: the time limit can arrive after a member was added and before another one is removed; the population kept then has population_size + 1 members (refuted by a computed run of the search phase). Proved: whenever the search waits and in the population returned there are at most population_size members, all successes since the last restart; after any exception at most one more."
  },
  {
   "property": "C46",
   "status": "proved",
   "theorems": [
    "C46_exact",
    "C46_at_most",
    "C46_rejects",
    "C46_fuel"
   ],
   "note": ""
  },
  {
   "property": "C47",
   "status": "partial",
   "theorems": [
    "C47_result_partial",
    "C47_without_restart",
    "C47_result_refuted"
   ],
   "note": "False: a restart that coincides with the last evaluation returns an empty population. Proved: the exact size of the population returned, hence not empty if something succeeded since the last restart; the full statement without a restart_callback."
  },
  {
   "property": "C48",
   "status": "partial",
   "theorems": [
    "C48_keeps_running_partial",
    "C48_starved",
    "C48_keeps_running_refuted"
   ],
   "note": "False: with at most two candidates more than workers the first evaluation ends the search with ValueError, whatever its outcome (proved for all such inputs). Proved: with at least four more than workers, enough early successes and working operators it runs until the budget is used up."
  },
  {
   "property": "C49",
   "status": "partial",
   "theorems": [
    "C49_second_fit_fails",
    "C49_second_fit_refuted",
    "C49_warm_start_partial",
    "C49_random_search_partial",
    "C49_asha_partial"
   ],
   "note": "False for the default search: async_ea empties the list it is about to start from and then waits for a job that does not exist; the second fit raises RuntimeError for every non-empty first result. Proved: a separate warm_start list, random search and ASHA do start from the given individuals."
  },
  {
   "property": "C50",
   "status": "proved",
   "theorems": [
    "C50_every_result",
    "C50_keeps_running",
    "C50_fuel"
   ],
   "note": ""
  },
  {
   "property": "C51",
   "status": "proved",
   "theorems": [
    "C51_promotion",
    "C51_at_most",
    "C51_eager"
   ],
   "note": ""
  },
  {
   "property": "C52",
   "status": "proved",
   "theorems": [
    "C52_jobs",
    "C52_top",
    "C52_no_rungs",
    "C52_fuel"
   ],
   "note": ""
  },
  {
   "property": "C53",
   "status": "partial",
   "theorems": [
    "C53_highest_partial",
    "C53_timeout_partial",
    "C53_full",
    "C53_highest_refuted"
   ],
   "note": "False when ASHA is stopped by anything but its time limit: the finally clause raises UnboundLocalError and the results are lost. Proved: what is returned is always the highest rung with results; stopped by its time limit ASHA fails only if nothing was recorded."
  },
  {
   "property": "C54",
   "status": "proved",
   "theorems": [
    "C54_total_weight",
    "C54_history",
    "C54_empty_library",
    "C54_refused"
   ],
   "note": ""
  },
  {
   "property": "C55",
   "status": "proved",
   "theorems": [
    "C55_greedy",
    "C55_initial",
    "C55_whole"
   ],
   "note": ""
  },
  {
   "property": "C56",
   "status": "proved",
   "theorems": [
    "C56_between",
    "C56_distribution",
    "C56_class",
    "C56_majority",
    "C56_unseen",
    "C56_pickle"
   ],
   "note": ""
  },
  {
   "property": "C57",
   "status": "partial",
   "theorems": [
    "C57_aligned_partial",
    "C57_downsample_refuted",
    "C57_zero_refuted"
   ],
   "note": "Refuted: EnsembleClassifier samples the targets twice when its metric needs probabilities and the library keeps more than downsample_to rows (IndexError or misaligned targets), and downsample_to=0 drops all targets but no predictions. Proved for label metrics, regression, and whenever no downsampling is needed."
  },
  {
   "property": "C58",
   "status": "proved",
   "theorems": [
    "C58_steps",
    "C58_names",
    "C58_total"
   ],
   "note": ""
  },
  {
   "property": "C59",
   "status": "proved",
   "theorems": [
    "C59_held_out",
    "C59_same_folds_needed"
   ],
   "note": ""
  },
  {
   "property": "C60",
   "status": "partial",
   "theorems": [
    "C60_subsample_refuted",
    "C60_size_partial"
   ],
   "note": "False: the positions sampled within the training fold are used as row numbers of the whole data, so an estimator can be trained on its own test rows (witness). Proved instead: exactly which rows are used, and that every fold is tested on its own test rows."
  },
  {
   "property": "C61",
   "status": "partial",
   "theorems": [
    "C61_failed_refuted",
    "C61_failed_partial",
    "C61_training_error",
    "C61_not_a_pipeline",
    "C61_pipeline",
    "C61_outer",
    "C61_contained",
    "C61_success"
   ],
   "note": "False: an error while predicting, or a timeout after the scores were computed, is reported together with the real scores (witnesses). Proved instead: scores are all -inf unless every fold was fitted and scored; -inf whenever splitting, fitting or scoring fails; enclosing timeouts and Ctrl-C are never turned into results."
  },
  {
   "property": "C62",
   "status": "proved",
   "theorems": [
    "C62_score",
    "C62_limit",
    "C62_expired"
   ],
   "note": ""
  },
  {
   "property": "C63",
   "status": "partial",
   "theorems": [
    "C63_primitives",
    "C63_values_partial",
    "C63_values_refuted",
    "C63_errors",
    "C63_faults",
    "C63_checks",
    "C63_search_space",
    "C63_can_start"
   ],
   "note": "Proved: the primitives are exactly the configured algorithms with exactly their hyperparameters, invalid keys are refused with a TypeError, a configuration is accepted iff every entry is valid, and complete configurations can generate individuals. False as stated for value lists: two classes with the same __name__ share the key Class.param and mix their values (C63_values_refuted); proved under distinct names (C63_values_partial)."
  },
  {
   "property": "C64",
   "status": "partial",
   "theorems": [
    "C64_options_kept_partial",
    "C64_exactly_the_options_partial",
    "C64_refused",
    "C64_inputs_unchanged_refuted",
    "C64_shared_option_refuted",
    "C64_checks_refuted"
   ],
   "note": "False as stated: merging writes into the inner dictionaries of the first configuration (importing gama.logging.GamaReport does this to the default classification search space), an algorithm using shared values loses them when the other configuration lists its own, and only one of two param_checks survives parsing. Proved: every explicit option of both configurations is kept; exactly the union when no inner dictionary is used twice; the second configuration and all other dictionaries are unchanged."
  },
  {
   "property": "C65",
   "status": "partial",
   "theorems": [
    "C65_checks_ignored_refuted",
    "C65_violation_refuted",
    "C65_checks_partial"
   ],
   "note": "False: the parsed checks are never consulted when pipelines are created. Proved: every pipeline of the space, including ones that violate a check, can be generated, and a concrete configuration with such a pipeline; and conversely, spaces whose combinations all pass are safe."
  },
  {
   "property": "C66",
   "status": "partial",
   "theorems": [
    "C66_aligned",
    "C66_numpy",
    "C66_inputs",
    "C66_text_labels_refuted"
   ],
   "note": "Proved for format_x_y on all data whose indices agree, in particular all numpy data. Refuted for GamaClassifier.fit with text labels: the label encoder runs first and turns the missing label into a class of its own, so no row is dropped (C66_text_labels_refuted)."
  },
  {
   "property": "C67",
   "status": "partial",
   "theorems": [
    "C67_alignment_refuted",
    "C67_error_refuted",
    "C67_all_labelled_partial"
   ],
   "note": "False: x.loc[~unlabeled] aligns by index label while features and labels are paired by position afterwards (C67_alignment_refuted), and indices that do not match raise (C67_error_refuted). Proved: without missing labels nothing is changed."
  },
  {
   "property": "C68",
   "status": "proved",
   "theorems": [
    "C68_one_encoder",
    "C68_imputation"
   ],
   "note": ""
  },
  {
   "property": "C69",
   "status": "proved",
   "theorems": [
    "C69_labels_decoded",
    "C69_labels_accepted",
    "C69_classes",
    "C69_unknown"
   ],
   "note": ""
  },
  {
   "property": "C70",
   "status": "proved",
   "theorems": [
    "C70_split",
    "C70_readers",
    "C70_extension"
   ],
   "note": ""
  },
  {
   "property": "C71",
   "status": "partial",
   "theorems": [
    "C71_rejected",
    "C71_nothing_left_partial",
    "C71_left_behind_refuted",
    "C71_accepted"
   ],
   "note": "C71_rejected gives the complete list of reasons for a ValueError: besides the four named also an unknown preset and a length limit above one without preprocessing steps. C71_nothing_left_partial: the directory is removed when times or n_jobs are rejected. The title is false for the other reasons (C71_left_behind_refuted): the directory stays, with the cache in it, and blocks a second attempt. How scoring and the search space are parsed enters as arguments (C63-C65, C85)."
  },
  {
   "property": "C72",
   "status": "partial",
   "theorems": [
    "C72_one_cpu_refuted",
    "C72_default_jobs_partial",
    "C72_given"
   ],
   "note": "False on one processor: n_jobs=None becomes 1 // 2 = 0 and is rejected (C72_one_cpu_refuted, for all other arguments). Proved for two or more processors."
  },
  {
   "property": "C73",
   "status": "partial",
   "theorems": [
    "C73_zero_limit_refuted",
    "C73_default_limit_partial",
    "C73_default_value"
   ],
   "note": "False for totals of 1 to 5 seconds: the default is 0 and every evaluation raises ValueError (C73_zero_limit_refuted). Proved for six seconds and more, and for explicit limits. Times are whole seconds."
  },
  {
   "property": "C74",
   "status": "proved",
   "theorems": [
    "C74_stored",
    "C74_foreign",
    "C74_unknown_store",
    "C74_failed_search"
   ],
   "note": "The directory holds log files and the cache, as the modelled code writes them; C74_foreign and C74_unknown_store say what happens otherwise."
  },
  {
   "property": "C75",
   "status": "proved",
   "theorems": [
    "C75_all_called",
    "C75_timeout"
   ],
   "note": "A KeyboardInterrupt is treated like a timeout: it is no Exception and is not caught (C75_timeout)."
  },
  {
   "property": "C76",
   "status": "proved",
   "theorems": [
    "C76_best",
    "C76_exists",
    "C76_sorted"
   ],
   "note": "Scores are not NaN (evaluate_pipeline reports -inf for failures, C61)."
  },
  {
   "property": "C77",
   "status": "partial",
   "theorems": [
    "C77_last_created_refuted",
    "C77_interfere_refuted",
    "C77_own_partial"
   ],
   "note": "False: the class attribute is wrapped in a partialmethod per instance, the last one created wins (C77_last_created_refuted for every session). Proved when no instance was created in between."
  },
  {
   "property": "C78",
   "status": "proved",
   "theorems": [
    "C78_time_remaining",
    "C78_wall_clock",
    "C78_no_total",
    "C78_current_activity",
    "C78_all_histories",
    "C78_nested_count_twice"
   ],
   "note": "Proved for every history of entering and leaving activities; the wall clock bound for consecutive ones (C78_nested_count_twice shows it needs that)."
  },
  {
   "property": "C79",
   "status": "partial",
   "theorems": [
    "C79_raised_refuted",
    "C79_ended_partial"
   ],
   "note": "False when the body raises: start_activity resets current_activity only after a normal exit (C79_raised_refuted). Proved for normal exits."
  },
  {
   "property": "C80",
   "status": "proved",
   "theorems": [
    "C80_read_back",
    "C80_exactly"
   ],
   "note": ""
  },
  {
   "property": "C81",
   "status": "partial",
   "theorems": [
    "C81_error_messages_refuted",
    "C81_error_messages_partial"
   ],
   "note": "Refuted: for every log, an error message containing ';' or a line break makes the rows read back differ from the rows logged. Proved for clean messages (partial)."
  },
  {
   "property": "C82",
   "status": "partial",
   "theorems": [
    "C82_every_row_once_partial",
    "C82_finished",
    "C82_forced",
    "C82_failed_update_refuted",
    "C82_ragged",
    "C82_no_column"
   ],
   "note": "Proved for rows the report can read (partial). Refuted when some row cannot be read (e.g. a pipeline of another search space): update raises after advancing its position, so all rows read by that update, readable ones too, never appear."
  },
  {
   "property": "C83",
   "status": "partial",
   "theorems": [
    "C83_init_line_partial",
    "C83_search_space_refuted"
   ],
   "note": "Refuted: this version's INIT line contains the repr of the search space, which init_to_hps refuses with ValueError as soon as it has a comma-delimited text without '=' (any option list of three values). Proved for lines whose arguments are plain texts or objects (search and post-processing methods as their __str__ writes them) with any hyperparameters that have plain values; the last argument must not be an object (in this version it is 'store')."
  },
  {
   "property": "C84",
   "status": "partial",
   "theorems": [
    "C84_one_console_handler_partial",
    "C84_tagged_handler_refuted"
   ],
   "note": "Proved when the handlers of others have no attribute 'tag' (partial). Refuted otherwise: any tagged stream handler is removed."
  },
  {
   "property": "C85",
   "status": "partial",
   "theorems": [
    "C85_precedence_partial",
    "C85_classes",
    "C85_none_refuted",
    "C85_asha_dropped_refuted",
    "C85_asha_lost_refuted",
    "C85_asha_other",
    "C85_unknown"
   ],
   "note": "Precedence proved for all names, values and overwrites when None means not given; explicit None (documented for max_models and hillclimb_size) yields the static default (C85_none_refuted), and ASHA drops a user's maximum_resource above the row count (C85_asha_dropped_refuted), for every later fit too (C85_asha_lost_refuted); its other options are kept (C85_asha_other)."
  },
  {
   "property": "C86",
   "status": "partial",
   "theorems": [
    "C86_collections_partial",
    "C86_single",
    "C86_type_error",
    "C86_unknown_name",
    "C86_generator_refuted"
   ],
   "note": "Proved for names, Metrics and collections; a generator gives an empty tuple (C86_generator_refuted)."
  },
  {
   "property": "C87",
   "status": "proved",
   "theorems": [
    "C87_probabilities",
    "C87_unchanged",
    "C87_total"
   ],
   "note": ""
  },
  {
   "property": "C88",
   "status": "partial",
   "theorems": [
    "C88_first_fit_partial",
    "C88_same_extension_partial",
    "C88_private_module_refuted",
    "C88_order",
    "C88_refit_refuted",
    "C88_unfitted"
   ],
   "note": "Proved for a first fit and for later fits with the same fixed steps; individuals carried over to a second fit keep the old fixed steps while the script shows the new ones (C88_refit_refuted), and a class of a private top-level module is imported from nowhere (C88_private_module_refuted). str() of a transformer is taken as given: scikit-learn abbreviates long lists there."
  },
  {
   "property": "C89",
   "status": "partial",
   "theorems": [
    "C89_loops_refuted",
    "C89_example_refuted",
    "C89_terminates_partial",
    "C89_declarations_partial"
   ],
   "note": "False: files without a data line are read forever, for example an empty file or one that ends in @data without newline. Proved: termination on every file with such a line, non-termination without one (unless a declaration is malformed), and the declarations are returned."
  },
  {
   "property": "C90",
   "status": "partial",
   "theorems": [
    "C90_separator_refuted",
    "C90_capitals_refuted",
    "C90_run_partial",
    "C90_refused"
   ],
   "note": "False: -sep on a csv file always raises AttributeError (C90_separator_refuted), and paths are lower-cased (C90_capitals_refuted). Proved for lower-case paths without -sep. argparse itself is not modelled."
  },
  {
   "property": "C91",
   "status": "proved",
   "theorems": [
    "C91_new_individual"
   ],
   "note": ""
  },
  {
   "property": "C92",
   "status": "proved",
   "theorems": [
    "C92_mutate",
    "C92_mate"
   ],
   "note": ""
  },
  {
   "property": "C93",
   "status": "proved",
   "theorems": [
    "C93_create",
    "C93_individual",
    "C93_mutations",
    "C93_random_mutation",
    "C93_crossover"
   ],
   "note": ""
  },
  {
   "property": "C94",
   "status": "partial",
   "theorems": [
    "C94_categorical_partial",
    "C94_boolean_refuted"
   ],
   "note": "False: boolean, unsigned and complex columns raise AttributeError (bool and int have no is_integer before Python 3.12). Proved for all other dtypes."
  },
  {
   "property": "C95",
   "status": "partial",
   "theorems": [
    "C95_names_partial",
    "C95_no_header_refuted",
    "C95_uppercase_refuted",
    "C95_other_files"
   ],
   "note": "False for files without header, whose columns are numbered by ints while their names are listed as strings, and for upper-case extensions. Proved for files with a header (no quoting; separator and header as sniffed)."
  },
  {
   "property": "C96",
   "status": "partial",
   "theorems": [
    "C96_format_y_partial",
    "C96_classifier_refuses",
    "C96_frames",
    "C96_refuses",
    "C96_tables_refuted"
   ],
   "note": "Proved for vectors, indicator matrices, Series and one-column tables with other than one row. False for a table with one row (AttributeError) and for tables with several columns, which stay tables."
  },
  {
   "property": "C97",
   "status": "proved",
   "theorems": [
    "C97_ensemble_script"
   ],
   "note": "Members are individuals bound to the fixed steps of the current fit, as after a first fit (see C88)."
  },
  {
   "property": "C98",
   "status": "partial",
   "theorems": [
    "C98_scores_partial",
    "C98_one_score_refuted",
    "C98_regularize_length_refuted"
   ],
   "note": "Refuted for one score per evaluation (regularize_length=False): '(0.5,)' is split into '0.5' and '', float('') raises; and the text 'False' of regularize_length is truthy. Proved for two or more scores."
  },
  {
   "property": "C99",
   "status": "proved",
   "theorems": [
    "C99_phases",
    "C99_refused"
   ],
   "note": "float() and strptime of the STOP line are kept as text."
  },
  {
   "property": "C100",
   "status": "partial",
   "theorems": [
    "C100_own_log_refuted",
    "C100_own_log_partial"
   ],
   "note": "Refuted: file handlers are never detached, so the file of an instance receives the messages of all later instances. Proved: it holds exactly the messages emitted since the instance was created, in order."
  },
  {
   "property": "C101",
   "status": "partial",
   "theorems": [
    "C101_nothing_refuted",
    "C101_models_lost_refuted",
    "C101_not_saved_refuted",
    "C101_full_refuted",
    "C101_others_partial",
    "C101_again_partial"
   ],
   "note": "False for 'nothing' (C101_nothing_refuted: memory.log cannot be opened) and, with stored models, for 'logs' (C101_models_lost_refuted, C101_not_saved_refuted). Proved for 'all' and 'models'."
  },
  {
   "property": "C102",
   "status": "proved",
   "theorems": [
    "C102_search_time",
    "C102_post_time"
   ],
   "note": ""
  },
  {
   "property": "C103",
   "status": "proved",
   "theorems": [
    "C103_start",
    "C103_final"
   ],
   "note": ""
  },
  {
   "property": "C104",
   "status": "partial",
   "theorems": [
    "C104_excluded",
    "C104_later_fits_refuted"
   ],
   "note": "Proved for each fit. False over several fits: the shared search space is changed in place (C104_later_fits_refuted)."
  },
  {
   "property": "C105",
   "status": "partial",
   "theorems": [
    "C105_ea_partial",
    "C105_random_search_partial",
    "C105_asha_partial",
    "C105_supplied_refuted"
   ],
   "note": "False: ASHA starts 8 evaluations however many workers there are, and the other methods have no more outstanding than they were given candidates (50 by default), so with more workers some idle. Proved: exactly how many are outstanding at every wait, for each method; async_ea keeps at least min(candidates, workers + 2)."
  },
  {
   "property": "C106",
   "status": "partial",
   "theorems": [
    "C106_stopped_partial",
    "C106_random_search",
    "C106_stopped_refuted"
   ],
   "note": "False for ASHA stopped by Ctrl-C: UnboundLocalError, its results are lost. Proved for async_ea and random search started from given candidates: no exception gets out and at most the result collected last is missing. An interruption while the first 50 candidates are made is not caught by the code and not covered."
  },
  {
   "property": "C107",
   "status": "proved",
   "theorems": [
    "C107_turn",
    "C107_distinct",
    "C107_worst_leaves"
   ],
   "note": ""
  },
  {
   "property": "C108",
   "status": "partial",
   "theorems": [
    "C108_index_refuted",
    "C108_index_partial",
    "C108_default",
    "C108_order_refuted"
   ],
   "note": "Refuted: y_train[train] looks the row numbers up among the labels of y. If any training row number is not a label (unlabelled rows were dropped, or y was cut out of a larger table) every subsampled evaluation fails with KeyError and -inf scores; with permuted labels the sampler stratifies by the targets of other rows. Proved: with any permutation of the row numbers as labels the evaluation succeeds whenever the library calls do, and with the default labels the sampler sees the matching targets."
  },
  {
   "property": "C109",
   "status": "partial",
   "theorems": [
    "C109_cells_partial",
    "C109_accepted",
    "C109_truncated_refuted",
    "C109_missing_refuted",
    "C109_columns"
   ],
   "note": "False: fractions in a column that held integers in training are cut off, and a missing value there raises ValueError although the model imputes (gama.py:352-360 casts every column to the training dtype). Proved: shape, order and the exact rule for every kind of column."
  },
  {
   "property": "C110",
   "status": "proved",
   "theorems": [
    "C110_training_rows"
   ],
   "note": ""
  },
  {
   "property": "C111",
   "status": "partial",
   "theorems": [
    "C111_frames",
    "C111_arrays",
    "C111_empty_refuted"
   ],
   "note": "Proved for at least one row; with no rows a classifier raises IndexError (GamaClassifier.py:40-57 looks at y[0])."
  },
  {
   "property": "C112",
   "status": "partial",
   "theorems": [
    "C112_arguments_refuted",
    "C112_sign_refuted",
    "C112_score_partial"
   ],
   "note": "False: Metric.score is the bare _score_func, so arguments such as average='macro' are lost (ValueError or another value) and the sign of neg_ metrics is dropped. Proved for metrics whose arguments make no difference, up to sign."
  },
  {
   "property": "C113",
   "status": "partial",
   "theorems": [
    "C113_multiclass_refuted",
    "C113_plain_partial"
   ],
   "note": "False for metrics whose arguments matter: e.g. recall_macro with three classes always leaves the ensemble unfitted and predicting raises TypeError. Proved for metrics whose arguments make no difference."
  },
  {
   "property": "C114",
   "status": "partial",
   "theorems": [
    "C114_options_refuted",
    "C114_size_partial",
    "C114_bad_size"
   ],
   "note": "False: hillclimb_size and max_models are never passed on. Proved: ensemble_size is honoured (regression, at most 10000 rows with kept predictions)."
  },
  {
   "property": "C115",
   "status": "partial",
   "theorems": [
    "C115_files",
    "C115_options_refuted"
   ],
   "note": "Proved for predict_from_file and score_from_file with any reader options and predict_proba_from_file without; the last takes no reader options at all."
  },
  {
   "property": "C116",
   "status": "proved",
   "theorems": [
    "C116_fitted",
    "C116_best",
    "C116_no_post",
    "C116_rows",
    "C116_history"
   ],
   "note": "C116_fitted is the statement for every post-processing; with NoPostProcessing the fit succeeds but leaves no model, so predict raises (C116_no_post)."
  },
  {
   "property": "C117",
   "status": "partial",
   "theorems": [
    "C117_mixed",
    "C117_failed_fit_refuted",
    "C117_refused_partial",
    "C117_unfitted_partial"
   ],
   "note": "Refuted: a failed second fit leaves the old model with the new encoders, types and classes, and predictions change silently (C117_mixed, C117_failed_fit_refuted). Proved parts: a fit refused because of its targets changes no answer; an object never fitted successfully keeps refusing to predict."
  },
  {
   "property": "C118",
   "status": "partial",
   "theorems": [
    "C118_limits_partial",
    "C118_share",
    "C118_total",
    "C118_recorded",
    "C118_no_time",
    "C118_negative_refuted"
   ],
   "note": "Refuted part: if the search overruns its limit the limit given to post-processing is negative. Proved: the limits are non-negative and within max_total_time when each phase keeps its limit; what is recorded; no time left raises RuntimeError."
  },
  {
   "property": "C119",
   "status": "partial",
   "theorems": [
    "C119_labels_partial",
    "C119_missing_refuted"
   ],
   "note": "Refuted for numeric targets with missing values: the labels contain NaN, which scikit-learn refuses (assumed of the search: no evaluation succeeds with such labels), so fit raises IndexError. Proved when no target is missing."
  },
  {
   "property": "C120",
   "status": "partial",
   "theorems": [
    "C120_regressor_partial",
    "C120_classifier_refuted"
   ],
   "note": "Refuted for GamaClassifier, whose fit returns None; proved for regressors."
  },
  {
   "property": "C121",
   "status": "partial",
   "theorems": [
    "C121_first_fit_partial",
    "C121_random_search",
    "C121_again_refuted"
   ],
   "note": "Proved for a search method whose output list is empty (the first fit), for all three methods, all schedules and stop points. Refuted for later fits with RandomSearch, which keeps the individuals of earlier fits with their old scores (C121_random_search)."
  },
  {
   "property": "C122",
   "status": "proved",
   "theorems": [
    "C122_usable",
    "C122_shipped",
    "C122_shipped_search"
   ],
   "note": "The shipped configurations are transcribed by tools/mkship.py from the source; which scikit-learn classes are transformers, classifiers or regressors, the texts of floats and the expansion of np.arange are contracts of the libraries. The theorems hold for every metaclass the classes may have (pset_from_config sorts by it)."
  },
  {
   "property": "C123",
   "status": "proved",
   "theorems": [
    "C123_mutation"
   ],
   "note": "Exact: mutation fails only with length limit 1 for pipelines that are just GaussianNB or just LassoLarsCV."
  },
  {
   "property": "C124",
   "status": "partial",
   "theorems": [
    "C124_violations",
    "C124_default_refuted",
    "C124_regression_refuted"
   ],
   "note": "Which steps break the restrictions is characterised exactly. That no such pipeline is generated is false (the recorded checks are never consulted): refuted for the default spaces of both GamaClassifier and GamaRegressor."
  },
  {
   "property": "C125",
   "status": "partial",
   "theorems": [
    "C125_report",
    "C125_defaults_partial",
    "C125_default_changed_refuted",
    "C125_again_refuted"
   ],
   "note": "Reading back is proved for every pipeline of both default spaces. That the import leaves the defaults alone is false for GamaClassifier (its SelectFwe and SelectPercentile then offer f_regression) and importing twice (reload) raises a TypeError; what does stay is proved in C125_defaults_partial."
  },
  {
   "property": "C126",
   "status": "partial",
   "theorems": [
    "C126_some_fit_partial",
    "C126_first_fit_partial",
    "C126_earlier_fit_refuted",
    "C126_other_rows_refuted"
   ],
   "note": "Proved for the first fit of an object; afterwards every estimator was trained in some fit of the object. False for later fits: the evaluation library is never emptied, so when an earlier pipeline scored better than all of the current ones the model contains it, and when the data have another number of rows building the ensemble fails and predict raises TypeError."
  },
  {
   "property": "C127",
   "status": "proved",
   "theorems": [
    "C127_async_ea",
    "C127_random_search",
    "C127_asha",
    "C127_population"
   ],
   "note": "Proved for evaluators without a memory limit (the default). The time limit arrives between statements of the search (also directly before and after a wait), not inside the loop of wait_next."
  },
  {
   "property": "C128",
   "status": "partial",
   "theorems": [
    "C128_not_in_vain_partial",
    "C128_stalls",
    "C128_progress_refuted"
   ],
   "note": "False: a job whose worker died stays outstanding for ever, and async_ea only makes new individuals while at most n_jobs + 1 jobs are outstanding; n_jobs + 2 such jobs stop it for good (C128_stalls, for every schedule). Proved: with fewer lost jobs it never waits in vain."
  },
  {
   "property": "C129",
   "status": "proved",
   "theorems": [
    "C129_no_model",
    "C129_unfitted",
    "C129_regressor"
   ],
   "note": ""
  },
  {
   "property": "C130",
   "status": "proved",
   "theorems": [
    "C130_policy",
    "C130_only_then"
   ],
   "note": ""
  },
  {
   "property": "C131",
   "status": "proved",
   "theorems": [
    "C131_stopwatch",
    "C131_monotone"
   ],
   "note": ""
  },
  {
   "property": "C132",
   "status": "proved",
   "theorems": [
    "C132_cummax",
    "C132_relative_end"
   ],
   "note": ""
  },
  {
   "property": "C133",
   "status": "proved",
   "theorems": [
    "C133_successful",
    "C133_failed"
   ],
   "note": ""
  },
  {
   "property": "C134",
   "status": "partial",
   "theorems": [
    "C134_str_refuted",
    "C134_str_partial"
   ],
   "note": "Refuted for every ensemble with members: __str__ reads validation_score and name, which Evaluation does not have, so str() raises AttributeError; after pickling the same ensemble claims to have no models. What holds: an ensemble without members says so."
  },
  {
   "property": "C135",
   "status": "proved",
   "theorems": [
    "C135_refused",
    "C135_algorithm",
    "C135_value",
    "C135_no_data"
   ],
   "note": ""
  },
  {
   "property": "C136",
   "status": "partial",
   "theorems": [
    "C136_table_partial",
    "C136_shared_refuted",
    "C136_no_value"
   ],
   "note": "Rows fit the header as long as no logger with extra_fields is made from the dictionary object this logger uses (C136_table_partial); C136_shared_refuted is the failing case. File writes are taken to succeed."
  },
  {
   "property": "C137",
   "status": "partial",
   "theorems": [
    "C137_columns",
    "C137_default",
    "C137_nested",
    "C137_callers_dictionary_refuted",
    "C137_dictionaries_partial"
   ],
   "note": "C137_callers_dictionary_refuted: EvaluationLogger(fields=d, extra_fields=x) adds the columns of x to d itself. All other dictionaries are left alone (C137_dictionaries_partial)."
  },
  {
   "property": "C138",
   "status": "proved",
   "theorems": [
    "C138_provenance",
    "C138_asha"
   ],
   "note": ""
  },
  {
   "property": "C139",
   "status": "partial",
   "theorems": [
    "C139_arff",
    "C139_malformed",
    "C139_declared_refuted"
   ],
   "note": "C139_arff and C139_malformed are the table; C139_declared_refuted: the categories are those that occur, so a declared value without a row becomes missing at prediction."
  },
  {
   "property": "C140",
   "status": "partial",
   "theorems": [
    "C140_options",
    "C140_sep_alone_refuted",
    "C140_same_kind_refuted",
    "C140_fewer_rows_partial"
   ],
   "note": "C140_options proved. C140_sep_alone_refuted: a given separator does not help when sniffing fails. C140_same_kind_refuted: 11 different integers against 10 of them. C140_fewer_rows_partial: categorical is inherited by files with fewer rows; missing is the other direction, which is false."
  },
  {
   "property": "C141",
   "status": "partial",
   "theorems": [
    "C141_bounded",
    "C141_released",
    "C141_left",
    "C141_returns_partial",
    "C141_calm",
    "C141_one_each",
    "C141_hangs",
    "C141_returns_refuted"
   ],
   "note": "C141_bounded, C141_released and C141_left hold for every interleaving. C141_returns_partial: __exit__ can always go on to its end unless a process that is gone left a queue locked; C141_calm: never the case without stopped or crashed workers. C141_returns_refuted, C141_hangs: a worker stopped for memory while it holds the lock of the queue of jobs makes clear_queue loop for ever (get(timeout) raises Empty, which is suppressed, while empty() stays false). The semantics of multiprocessing.Queue locks is part of the model."
  },
  {
   "property": "C142",
   "status": "partial",
   "theorems": [
    "C142_others_partial",
    "C142_served",
    "C142_starved",
    "C142_restart_refuted"
   ],
   "note": "C142_others_partial and C142_served: true unless the stopped worker is just reading a queue. C142_restart_refuted, C142_starved: otherwise no job is ever started again, whatever happens."
  },
  {
   "property": "C143",
   "status": "partial",
   "theorems": [
    "C143_async_ea_partial",
    "C143_random_search_partial",
    "C143_asha_partial",
    "C143_two_workers_refuted",
    "C143_seed_refuted",
    "C143_asha_refuted"
   ],
   "note": "The documented recipe (random_state and n_jobs=1) works for AsyncEA and RandomSearch if fit directly follows the constructor; refuted when the process-wide generators are used in between (seeded only in __init__, gama.py:277-279), with two workers, and for ASHA (ties are broken by the iteration order of a set of individuals hashed by uuid4). Evaluations are assumed to end the same way for the k-th job (so no per-evaluation timeouts near the limit)."
  },
  {
   "property": "C144",
   "status": "partial",
   "theorems": [
    "C144_in_search_space",
    "C144_results",
    "C144_length_partial",
    "C144_length_refuted"
   ],
   "note": "C144_in_search_space and C144_results hold in full. C144_length_partial bounds lengths by max(m, 2m-2); C144_length_refuted: the limit m itself is exceeded."
  },
  {
   "property": "C145",
   "status": "proved",
   "theorems": [
    "C145_bred",
    "C145_submitted",
    "C145_once"
   ],
   "note": ""
  },
  {
   "property": "C146",
   "status": "partial",
   "theorems": [
    "C146_not_evaluated_before_partial",
    "C146_not_evaluated_before_refuted",
    "C146_in_flight_refuted",
    "C146_later_fit_refuted"
   ],
   "note": "Either new (against this fit and the earlier fits on the object), or all 50 attempts gave evaluated pipelines; refuted: always new (C146_not_evaluated_before_refuted), different from pipelines in flight (C146_in_flight_refuted), and a later fit exploring as a new object (C146_later_fit_refuted)."
  },
  {
   "property": "C147",
   "status": "partial",
   "theorems": [
    "C147_exceptions_partial",
    "C147_breakdown",
    "C147_keeps_running_partial",
    "C147_keeps_running_refuted"
   ],
   "note": "Proved for max_pipeline_length None, 2, or 1 with enough alternatives (roomy); C147_keeps_running_refuted: with limit 3 the search can raise AttributeError. C147_breakdown: all exceptions, for every limit and number of scores."
  },
  {
   "property": "C148",
   "status": "proved",
   "theorems": [
    "C148_in_search_space",
    "C148_candidates_then_new",
    "C148_results",
    "C148_once",
    "C148_keeps_running"
   ],
   "note": "Interrupted only while waiting for a result; Search (C45-C47) has interruption anywhere, on individuals without pipelines. start_ok: given start candidates are pipelines of the search space with known ids."
  },
  {
   "property": "C149",
   "status": "proved",
   "theorems": [
    "C149_in_search_space",
    "C149_first_rung",
    "C149_promoted",
    "C149_promotions_first",
    "C149_results",
    "C149_once",
    "C149_keeps_running"
   ],
   "note": "Interrupted only while waiting for a result; what asha returns is C52-C53, the choice among the unpromoted is C51."
  },
  {
   "property": "C150",
   "status": "proved",
   "theorems": [
    "C150_best",
    "C150_always"
   ],
   "note": ""
  },
  {
   "property": "C151",
   "status": "partial",
   "theorems": [
    "C151_best_partial",
    "C151_best_refuted",
    "C151_always_partial"
   ],
   "note": "False in general: with a full population, elimination can remove the pipeline with the best score (C151_best_refuted, see C26). Proved: the model is the best of the final population, which consists of successes since the last restart, and the best of all of these if they were at most population_size. C151_always_partial: fit succeeds under the conditions of C147."
  },
  {
   "property": "C152",
   "status": "proved",
   "theorems": [
    "C152_best",
    "C152_always"
   ],
   "note": ""
  },
  {
   "property": "C153",
   "status": "proved",
   "theorems": [
    "C153_ensemble",
    "C153_nothing"
   ],
   "note": ""
  },
  {
   "property": "C154",
   "status": "proved",
   "theorems": [
    "C154_ensemble",
    "C154_nothing",
    "C154_lookup",
    "C154_lookup_later"
   ],
   "note": ""
  },
  {
   "property": "C155",
   "status": "partial",
   "theorems": [
    "C155_ensemble_partial",
    "C155_nothing",
    "C155_lower_rungs_refuted"
   ],
   "note": "False as stated: evaluations on lower rungs are marked 'Not a full evaluation.' and are not used for the ensemble, so a search stopped before anything succeeded on the top rung leaves fit with an empty ensemble and predict raises TypeError (C155_lower_rungs_refuted, C155_nothing). Proved in full when an evaluation on the top rung succeeded."
  },
  {
   "property": "C156",
   "status": "partial",
   "theorems": [
    "C156_later_fit_refuted",
    "C156_kept_partial"
   ],
   "note": "False for the default store 'logs' (C156_later_fit_refuted, for every history: the files of the first call's models are removed, the library still refers to them, and building the ensemble fails silently). Proved in full for 'all' and 'models'. With 'nothing' a second call raises FileNotFoundError (C101)."
  },
  {
   "property": "C157",
   "status": "proved",
   "theorems": [
    "C157_order",
    "C157_start_list",
    "C157_sequence"
   ],
   "note": ""
  },
  {
   "property": "C158",
   "status": "proved",
   "theorems": [
    "C158_listed",
    "C158_cleared"
   ],
   "note": ""
  },
  {
   "property": "C159",
   "status": "proved",
   "theorems": [
    "C159_short_name",
    "C159_text"
   ],
   "note": ""
  },
  {
   "property": "C160",
   "status": "proved",
   "theorems": [
    "C160_schedule",
    "C160_results",
    "C160_in_search_space",
    "C160_exceptions",
    "C160_breakdown"
   ],
   "note": ""
  },
  {
   "property": "C161",
   "status": "proved",
   "theorems": [
    "C161_random",
    "C161_random_results",
    "C161_random_runs",
    "C161_asha",
    "C161_asha_results"
   ],
   "note": ""
  },
  {
   "property": "C162",
   "status": "partial",
   "theorems": [
    "C162_random",
    "C162_random_always",
    "C162_evolutionary_partial",
    "C162_asha",
    "C162_asha_always"
   ],
   "note": "For the evolutionary search: the best of the final population, and of all successes since the last restart if the population can hold them; otherwise false, see C151_best_refuted."
  },
  {
   "property": "C163",
   "status": "partial",
   "theorems": [
    "C163_random",
    "C163_evolutionary",
    "C163_asha_partial"
   ],
   "note": "Proved for random search and the evolutionary search; for ASHA only when an evaluation on the top rung succeeded, see C155_lower_rungs_refuted."
  },
  {
   "property": "C164",
   "status": "partial",
   "theorems": [
    "C164_random",
    "C164_evolutionary",
    "C164_asha_partial",
    "C164_random_ensemble",
    "C164_evolutionary_ensemble",
    "C164_more_is_not_worse",
    "C164_two_workers_refuted"
   ],
   "note": "Proved for random search and the evolutionary search, with BestFit and ensemble post-processing, one worker process. ASHA: given the same iteration order of sets (part of the random numbers in the model); Python's set order is not fixed by the random state (C143). Refuted with two workers."
  },
  {
   "property": "C165",
   "status": "proved",
   "theorems": [
    "C165_random_in_search_space",
    "C165_random_results",
    "C165_random_runs",
    "C165_asha_in_search_space",
    "C165_asha_results",
    "C165_asha_promoted",
    "C165_asha_runs",
    "C165_evolutionary_in_search_space",
    "C165_evolutionary_results"
   ],
   "note": ""
  },
  {
   "property": "C166",
   "status": "partial",
   "theorems": [
    "C166_random",
    "C166_random_always",
    "C166_evolutionary_partial",
    "C166_asha",
    "C166_asha_always"
   ],
   "note": "Proved: the model is the best of the results delivered (random search, ASHA), or of the final population (AsyncEA), whichever workers the limit stops; with random search and ASHA fit fails only without results or when a worker is gone when its memory is read. Missing, because false (see C151): the best of all successes with AsyncEA."
  },
  {
   "property": "C167",
   "status": "partial",
   "theorems": [
    "C167_goes_on_refuted"
   ],
   "note": "Refuted: a job of a worker that was stopped stays outstanding forever (async_evaluator.py:303, the todo) and random search submits only when a result arrives. Witness: one worker, one candidate; proved for every continuation."
  },
  {
   "property": "C168",
   "status": "partial",
   "theorems": [
    "C168_random",
    "C168_asha",
    "C168_evolutionary_partial"
   ],
   "note": "Random search and ASHA: proved. AsyncEA: _partial, because the best of the final population need not be the best evaluated one (C151) and children may exceed the length limit (C144)."
  },
  {
   "property": "C169",
   "status": "proved",
   "theorems": [
    "C169_ready",
    "C169_space",
    "C169_random"
   ],
   "note": ""
  },
  {
   "property": "C170",
   "status": "partial",
   "theorems": [
    "C170_anew_partial",
    "C170_steps_refuted",
    "C170_space_refuted"
   ],
   "note": "Refuted: a second fit starts from the pipelines of the first, which keep the fixed steps made for the earlier data and may contain excluded algorithms. Holds for fits that start from new individuals (C170_anew_partial)."
  },
  {
   "property": "C171",
   "status": "proved",
   "theorems": [
    "C171_random",
    "C171_asha",
    "C171_evolutionary"
   ],
   "note": "AsyncEA in terms of its final population: a restart just before the end may leave it empty."
  },
  {
   "property": "C172",
   "status": "partial",
   "theorems": [
    "C172_random",
    "C172_random_ends",
    "C172_asha",
    "C172_evolutionary",
    "C172_evolutionary_ends",
    "C172_killed_refuted",
    "C172_restart_refuted"
   ],
   "note": "C172_random, C172_random_ends, C172_asha: in every round each worker takes a job, executes it and hands over the result; the search gets at least one result per round, so that it reaches its limit. C172_evolutionary and C172_evolutionary_ends: the same for AsyncEA, for every length limit from 1 and any number of scores, with restarts one result per S pop_size rounds, and with the exceptions of C160 (breakdown) as the only other outcomes. C172_restart_refuted: with restarts one result per round is too much to ask. C172_killed_refuted: a killed worker is not replaced as long as its memory use can be read."
  },
  {
   "property": "C173",
   "status": "partial",
   "theorems": [
    "C173_random",
    "C173_asha",
    "C173_evolutionary_partial",
    "C173_restart_refuted"
   ],
   "note": "C173_random and C173_asha: fit as a whole (Whole) under schedules that begin with enough rounds (long_enough); failing evaluations may be anywhere. C173_evolutionary_partial: without restarts, for every length limit from 1 and any number of scores; the exceptions of C160 remain, each with the options it needs. C173_restart_refuted: with restarts fit can fail with IndexError although results were delivered."
  },
  {
   "property": "C174",
   "status": "proved",
   "theorems": [
    "C174_results",
    "C174_top",
    "C174_ends",
    "C174_reaches",
    "C174_fit",
    "C174_fit_top"
   ],
   "note": "results_needed is the bound: per rung the scores_needed for m scores on the top rung (one of every eta goes up, eight are under way, failing ones lost). C174_results holds for every schedule; C174_ends and C174_fit for schedules that begin with that many rounds (for C174_fit one more)."
  },
  {
   "property": "C175",
   "status": "proved",
   "theorems": [
    "C175_evolutionary",
    "C175_random",
    "C175_asha",
    "C175_fit",
    "C175_goes_on"
   ],
   "note": "C175_random, C175_evolutionary, C175_asha: the same result, state of the search and trace; C175_fit for fit with BestFitPostProcessing; C175_goes_on is C172_random with such a limit. in_use sums the readings of the main process and the n workers in one turn of wait_next."
  },
  {
   "property": "C176",
   "status": "partial",
   "theorems": [
    "C176_random",
    "C176_evolutionary_partial",
    "C176_asha_partial",
    "C176_evolutionary_refuted"
   ],
   "note": "Proved for random search, with and without max_evaluations. Partial: with the evolutionary search (any length limit from 1, any number of scores) fit can raise the exceptions of C160, C176_evolutionary_refuted; with ASHA only evaluations on the top rung count (C155), for which C174 bounds the rounds."
  },
  {
   "property": "C177",
   "status": "proved",
   "theorems": [
    "C177_random",
    "C177_asha",
    "C177_evolutionary",
    "C177_fit_random",
    "C177_fit_evolutionary",
    "C177_fit_asha",
    "C177_random_goes_on",
    "C177_asha_goes_on",
    "C177_evolutionary_goes_on"
   ],
   "note": "C177_random, C177_asha, C177_evolutionary: with readings within the limit (keeps_within) the search with the limit ends with the same outcome and the same state as the one without; C177_fit_*: so does fit. C177_*_goes_on: with C172, so many results as rounds. C177_ex shows runs on both sides, and that they differ when the limit is exceeded."
  },
  {
   "property": "C178",
   "status": "proved",
   "theorems": [
    "C178_random",
    "C178_asha",
    "C178_evolutionary"
   ],
   "note": "Both runs use the model of Limit (any memory limit, also none); the shorter plan is a prefix of the longer one."
  },
  {
   "property": "C179",
   "status": "partial",
   "theorems": [
    "C179_random_partial",
    "C179_random_still",
    "C179_asha_refuted",
    "C179_evolutionary_refuted",
    "C179_fit_asha_refuted",
    "C179_fit_evolutionary_refuted"
   ],
   "note": "Proved for random search (C179_random_partial, C179_random_still). False for ASHA (C179_asha_refuted: a promoted pipeline evaluated on the next rung replaces a better one found meanwhile on the lower rung) and for AsyncEA without restarts (C179_evolutionary_refuted: the best pipeline is eliminated from the population): the pipeline of the later model has a worse score in all of its evaluations. C179_fit_asha_refuted and C179_fit_evolutionary_refuted show the same of the model of the whole of fit: every pipeline from which the longer fit chooses has a lower score than one from which the shorter fit chose."
  },
  {
   "property": "C180",
   "status": "proved",
   "theorems": [
    "C180_random",
    "C180_asha",
    "C180_evolutionary",
    "C180_fit"
   ],
   "note": "Both runs use the model of Limit (any memory limit, also none) with the same plan. Within Gama only AsyncEA lets the user set its limit (max_n_evaluations); random_search and asha take theirs when they are called directly."
  },
  {
   "property": "C181",
   "status": "proved",
   "theorems": [
    "C181_more_time",
    "C181_higher_limit",
    "C181_more_time_returns",
    "C181_higher_limit_returns"
   ],
   "note": "Random search only: for ASHA and the evolutionary search it is false (C179)."
  }
 ]
}
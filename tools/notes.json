{
 "C04": "The statement is false of the code: mate ignores the order random_crossover returns, so the returned individual can exceed the limit (refuted by a computed witness). Proved instead: the exact length bound that does hold.",
 "C100": "Refuted: file handlers are never detached, so the file of an instance receives the messages of all later instances. Proved: it holds exactly the messages emitted since the instance was created, in order.",
 "C101": "False for 'nothing' (C101_nothing_refuted: memory.log cannot be opened) and, with stored models, for 'logs' (C101_models_lost_refuted, C101_not_saved_refuted). Proved for 'all' and 'models'.",
 "C104": "Proved for each fit. False over several fits: the shared search space is changed in place (C104_later_fits_refuted).",
 "C105": "False: ASHA starts 8 evaluations however many workers there are, and the other methods have no more outstanding than they were given candidates (50 by default), so with more workers some idle. Proved: exactly how many are outstanding at every wait, for each method; async_ea keeps at least min(candidates, workers + 2).",
 "C106": "False for ASHA stopped by Ctrl-C: UnboundLocalError, its results are lost. Proved for async_ea and random search started from given candidates: no exception gets out and at most the result collected last is missing. An interruption while the first 50 candidates are made is not caught by the code and not covered.",
 "C108": "Refuted: y_train[train] looks the row numbers up among the labels of y. If any training row number is not a label (unlabelled rows were dropped, or y was cut out of a larger table) every subsampled evaluation fails with KeyError and -inf scores; with permuted labels the sampler stratifies by the targets of other rows. Proved: with any permutation of the row numbers as labels the evaluation succeeds whenever the library calls do, and with the default labels the sampler sees the matching targets.",
 "C109": "False: fractions in a column that held integers in training are cut off, and a missing value there raises ValueError although the model imputes (gama.py:352-360 casts every column to the training dtype). Proved: shape, order and the exact rule for every kind of column.",
 "C111": "Proved for at least one row; with no rows a classifier raises IndexError (GamaClassifier.py:40-57 looks at y[0]).",
 "C112": "False: Metric.score is the bare _score_func, so arguments such as average='macro' are lost (ValueError or another value) and the sign of neg_ metrics is dropped. Proved for metrics whose arguments make no difference, up to sign.",
 "C113": "False for metrics whose arguments matter: e.g. recall_macro with three classes always leaves the ensemble unfitted and predicting raises TypeError. Proved for metrics whose arguments make no difference.",
 "C114": "False: hillclimb_size and max_models are never passed on. Proved: ensemble_size is honoured (regression, at most 10000 rows with kept predictions).",
 "C115": "Proved for predict_from_file and score_from_file with any reader options and predict_proba_from_file without; the last takes no reader options at all.",
 "C116": "C116_fitted is the statement for every post-processing; with NoPostProcessing the fit succeeds but leaves no model, so predict raises (C116_no_post).",
 "C117": "Refuted: a failed second fit leaves the old model with the new encoders, types and classes, and predictions change silently (C117_mixed, C117_failed_fit_refuted). Proved parts: a fit refused because of its targets changes no answer; an object never fitted successfully keeps refusing to predict.",
 "C118": "Refuted part: if the search overruns its limit the limit given to post-processing is negative. Proved: the limits are non-negative and within max_total_time when each phase keeps its limit; what is recorded; no time left raises RuntimeError.",
 "C119": "Refuted for numeric targets with missing values: the labels contain NaN, which scikit-learn refuses (assumed of the search: no evaluation succeeds with such labels), so fit raises IndexError. Proved when no target is missing.",
 "C120": "Refuted for GamaClassifier, whose fit returns None; proved for regressors.",
 "C121": "Proved for a search method whose output list is empty (the first fit), for all three methods, all schedules and stop points. Refuted for later fits with RandomSearch, which keeps the individuals of earlier fits with their old scores (C121_random_search).",
 "C122": "The shipped configurations are transcribed by tools/mkship.py from the source; which scikit-learn classes are transformers, classifiers or regressors, the texts of floats and the expansion of np.arange are contracts of the libraries. The theorems hold for every metaclass the classes may have (pset_from_config sorts by it).",
 "C123": "Exact: mutation fails only with length limit 1 for pipelines that are just GaussianNB or just LassoLarsCV.",
 "C124": "Which steps break the restrictions is characterised exactly. That no such pipeline is generated is false (the recorded checks are never consulted): refuted for the default spaces of both GamaClassifier and GamaRegressor.",
 "C125": "Reading back is proved for every pipeline of both default spaces. That the import leaves the defaults alone is false for GamaClassifier (its SelectFwe and SelectPercentile then offer f_regression) and importing twice (reload) raises a TypeError; what does stay is proved in C125_defaults_partial.",
 "C126": "Proved for the first fit of an object; afterwards every estimator was trained in some fit of the object. False for later fits: the evaluation library is never emptied, so when an earlier pipeline scored better than all of the current ones the model contains it, and when the data have another number of rows building the ensemble fails and predict raises TypeError.",
 "C127": "Proved for evaluators without a memory limit (the default). The time limit arrives between statements of the search (also directly before and after a wait), not inside the loop of wait_next.",
 "C128": "False: a job whose worker died stays outstanding for ever, and async_ea only makes new individuals while at most n_jobs + 1 jobs are outstanding; n_jobs + 2 such jobs stop it for good (C128_stalls, for every schedule). Proved: with fewer lost jobs it never waits in vain.",
 "C13": "False at one position: position = number of hyperparameters is accepted silently without effect. All other positions are settled.",
 "C134": "Refuted for every ensemble with members: __str__ reads validation_score and name, which Evaluation does not have, so str() raises AttributeError; after pickling the same ensemble claims to have no models. What holds: an ensemble without members says so.",
 "C136": "Rows fit the header as long as no logger with extra_fields is made from the dictionary object this logger uses (C136_table_partial); C136_shared_refuted is the failing case. File writes are taken to succeed.",
 "C137": "C137_callers_dictionary_refuted: EvaluationLogger(fields=d, extra_fields=x) adds the columns of x to d itself. All other dictionaries are left alone (C137_dictionaries_partial).",
 "C139": "C139_arff and C139_malformed are the table; C139_declared_refuted: the categories are those that occur, so a declared value without a row becomes missing at prediction.",
 "C14": "False out of range: position = number of steps appends the node. In range the full statement is proved.",
 "C140": "C140_options proved. C140_sep_alone_refuted: a given separator does not help when sniffing fails. C140_same_kind_refuted: 11 different integers against 10 of them. C140_fewer_rows_partial: categorical is inherited by files with fewer rows; missing is the other direction, which is false.",
 "C141": "C141_bounded, C141_released and C141_left hold for every interleaving. C141_returns_partial: __exit__ can always go on to its end unless a process that is gone left a queue locked; C141_calm: never the case without stopped or crashed workers. C141_returns_refuted, C141_hangs: a worker stopped for memory while it holds the lock of the queue of jobs makes clear_queue loop for ever (get(timeout) raises Empty, which is suppressed, while empty() stays false). The semantics of multiprocessing.Queue locks is part of the model.",
 "C142": "C142_others_partial and C142_served: true unless the stopped worker is just reading a queue. C142_restart_refuted, C142_starved: otherwise no job is ever started again, whatever happens.",
 "C143": "The documented recipe (random_state and n_jobs=1) works for AsyncEA and RandomSearch if fit directly follows the constructor; refuted when the process-wide generators are used in between (seeded only in __init__, gama.py:277-279), with two workers, and for ASHA (ties are broken by the iteration order of a set of individuals hashed by uuid4). Evaluations are assumed to end the same way for the k-th job (so no per-evaluation timeouts near the limit).",
 "C144": "C144_in_search_space and C144_results hold in full. C144_length_partial bounds lengths by max(m, 2m-2); C144_length_refuted: the limit m itself is exceeded.",
 "C146": "Either new (against this fit and the earlier fits on the object), or all 50 attempts gave evaluated pipelines; refuted: always new (C146_not_evaluated_before_refuted), different from pipelines in flight (C146_in_flight_refuted), and a later fit exploring as a new object (C146_later_fit_refuted).",
 "C147": "Proved for max_pipeline_length None, 2, or 1 with enough alternatives (roomy); C147_keeps_running_refuted: with limit 3 the search can raise AttributeError. C147_breakdown: all exceptions, for every limit and number of scores.",
 "C148": "Interrupted only while waiting for a result; Search (C45-C47) has interruption anywhere, on individuals without pipelines. start_ok: given start candidates are pipelines of the search space with known ids.",
 "C149": "Interrupted only while waiting for a result; what asha returns is C52-C53, the choice among the unpromoted is C51.",
 "C15": "False: with max_length 1 a single-step pipeline with at most one tunable hyperparameter cannot be mutated. The partial theorem shows this is the only failure (search spaces with real alternatives, limit >= 1).",
 "C151": "False in general: with a full population, elimination can remove the pipeline with the best score (C151_best_refuted, see C26). Proved: the model is the best of the final population, which consists of successes since the last restart, and the best of all of these if they were at most population_size. C151_always_partial: fit succeeds under the conditions of C147.",
 "C155": "False as stated: evaluations on lower rungs are marked 'Not a full evaluation.' and are not used for the ensemble, so a search stopped before anything succeeded on the top rung leaves fit with an empty ensemble and predict raises TypeError (C155_lower_rungs_refuted, C155_nothing). Proved in full when an evaluation on the top rung succeeded.",
 "C156": "False for the default store 'logs' (C156_later_fit_refuted, for every history: the files of the first call's models are removed, the library still refers to them, and building the ensemble fails silently). Proved in full for 'all' and 'models'. With 'nothing' a second call raises FileNotFoundError (C101).",
 "C16": "False: OperatorSet.mutate raises AttributeError on every over-long individual. The in-place mutation does cut to exactly the limit.",
 "C160": "",
 "C162": "For the evolutionary search: the best of the final population, and of all successes since the last restart if the population can hold them; otherwise false, see C151_best_refuted.",
 "C163": "Proved for random search and the evolutionary search; for ASHA only when an evaluation on the top rung succeeded, see C155_lower_rungs_refuted.",
 "C164": "Proved for random search and the evolutionary search, with BestFit and ensemble post-processing, one worker process. ASHA: given the same iteration order of sets (part of the random numbers in the model); Python's set order is not fixed by the random state (C143). Refuted with two workers.",
 "C166": "Proved: the model is the best of the results delivered (random search, ASHA), or of the final population (AsyncEA), whichever workers the limit stops; with random search and ASHA fit fails only without results or when a worker is gone when its memory is read. Missing, because false (see C151): the best of all successes with AsyncEA.",
 "C167": "Refuted: a job of a worker that was stopped stays outstanding forever (async_evaluator.py:303, the todo) and random search submits only when a result arrives. Witness: one worker, one candidate; proved for every continuation.",
 "C168": "Random search and ASHA: proved. AsyncEA: _partial, because the best of the final population need not be the best evaluated one (C151) and children may exceed the length limit (C144).",
 "C170": "Refuted: a second fit starts from the pipelines of the first, which keep the fixed steps made for the earlier data and may contain excluded algorithms. Holds for fits that start from new individuals (C170_anew_partial).",
 "C171": "AsyncEA in terms of its final population: a restart just before the end may leave it empty.",
 "C172": "C172_random, C172_random_ends, C172_asha: in every round each worker takes a job, executes it and hands over the result; the search gets at least one result per round, so that it reaches its limit. C172_evolutionary and C172_evolutionary_ends: the same for AsyncEA, for every length limit from 1 and any number of scores, with restarts one result per S pop_size rounds, and with the exceptions of C160 (breakdown) as the only other outcomes. C172_restart_refuted: with restarts one result per round is too much to ask. C172_killed_refuted: a killed worker is not replaced as long as its memory use can be read.",
 "C173": "C173_random and C173_asha: fit as a whole (Whole) under schedules that begin with enough rounds (long_enough); failing evaluations may be anywhere. C173_evolutionary_partial: without restarts, for every length limit from 1 and any number of scores; the exceptions of C160 remain, each with the options it needs. C173_restart_refuted: with restarts fit can fail with IndexError although results were delivered.",
 "C174": "results_needed is the bound: per rung the scores_needed for m scores on the top rung (one of every eta goes up, eight are under way, failing ones lost). C174_results holds for every schedule; C174_ends and C174_fit for schedules that begin with that many rounds (for C174_fit one more).",
 "C175": "C175_random, C175_evolutionary, C175_asha: the same result, state of the search and trace; C175_fit for fit with BestFitPostProcessing; C175_goes_on is C172_random with such a limit. in_use sums the readings of the main process and the n workers in one turn of wait_next.",
 "C176": "Proved for random search, with and without max_evaluations. Partial: with the evolutionary search (any length limit from 1, any number of scores) fit can raise the exceptions of C160, C176_evolutionary_refuted; with ASHA only evaluations on the top rung count (C155), for which C174 bounds the rounds.",
 "C177": "C177_random, C177_asha, C177_evolutionary: with readings within the limit (keeps_within) the search with the limit ends with the same outcome and the same state as the one without; C177_fit_*: so does fit. C177_*_goes_on: with C172, so many results as rounds. C177_ex shows runs on both sides, and that they differ when the limit is exceeded.",
 "C178": "Both runs use the model of Limit (any memory limit, also none); the shorter plan is a prefix of the longer one.",
 "C179": "Proved for random search (C179_random_partial, C179_random_still). False for ASHA (C179_asha_refuted: a promoted pipeline evaluated on the next rung replaces a better one found meanwhile on the lower rung) and for AsyncEA without restarts (C179_evolutionary_refuted: the best pipeline is eliminated from the population): the pipeline of the later model has a worse score in all of its evaluations. C179_fit_asha_refuted and C179_fit_evolutionary_refuted show the same of the model of the whole of fit: every pipeline from which the longer fit chooses has a lower score than one from which the shorter fit chose.",
 "C180": "Both runs use the model of Limit (any memory limit, also none) with the same plan. Within Gama only AsyncEA lets the user set its limit (max_n_evaluations); random_search and asha take theirs when they are called directly.",
 "C181": "Random search only: for ASHA and the evolutionary search it is false (C179).",
 "C21": "False: values whose text contains an opening bracket or a comma, and two function values with one __name__, do not come back. Proved instead: the round trip whenever the entries used by the pipeline are recognisable from their text.",
 "C24": "False for items without a length: building the message of the ValueError raises TypeError instead. For items with a length the full statement is proved.",
 "C26": "False: with the length objective the pipeline with the best score can be the one eliminated. Proved: an individual at least as good as some other one in all objectives, and better than it in one, is kept in favour of that other one.",
 "C30": "False: fronts 0 and 1 both get rank 1, so a tournament between them is decided by crowding distance alone (refuted by a computed population). Proved: from the second front on the rank is the front number, and the first front has rank 1.",
 "C35": "False: evaluations of one individual share a cache file. When a second successful evaluation pushes the first out of the top, the file both share is removed: the predictions of the top evaluation raise FileNotFoundError, and the next save_evaluation that removes it raises too, losing it. Proved instead: the guarantee as long as at most one evaluation per individual is successful (as with ASHA).",
 "C39": "False as stated: keyword arguments passed to submit are overridden by the evaluator's class-level defaults (refuted by a computed run). Proved: the future carries the outcome of its own function and positional arguments, keywords as submitted unless the defaults contain the same key; exactly its own call when there are no defaults.",
 "C41": "False: the worker stopped for memory loses the future it executes, and wait_next then waits for ever (refuted; proved for every continuation). Proved: every other outstanding future stays outstanding or is returned by every step.",
 "C42": "False: a true result without an error field, or with an undetermined truth value, ends the worker and is never delivered. Proved: an outcome is delivered exactly when it is of the accepted kinds.",
 "C45": "False at one point: the time limit can arrive after a member was added and before another one is removed; the population kept then has population_size + 1 members (refuted by a computed run of the search phase). Proved: whenever the search waits and in the population returned there are at most population_size members, all successes since the last restart; after any exception at most one more.",
 "C47": "False: a restart that coincides with the last evaluation returns an empty population. Proved: the exact size of the population returned, hence not empty if something succeeded since the last restart; the full statement without a restart_callback.",
 "C48": "False: with at most two candidates more than workers the first evaluation ends the search with ValueError, whatever its outcome (proved for all such inputs). Proved: with at least four more than workers, enough early successes and working operators it runs until the budget is used up.",
 "C49": "False for the default search: async_ea empties the list it is about to start from and then waits for a job that does not exist; the second fit raises RuntimeError for every non-empty first result. Proved: a separate warm_start list, random search and ASHA do start from the given individuals.",
 "C53": "False when ASHA is stopped by anything but its time limit: the finally clause raises UnboundLocalError and the results are lost. Proved: what is returned is always the highest rung with results; stopped by its time limit ASHA fails only if nothing was recorded.",
 "C57": "Refuted: EnsembleClassifier samples the targets twice when its metric needs probabilities and the library keeps more than downsample_to rows (IndexError or misaligned targets), and downsample_to=0 drops all targets but no predictions. Proved for label metrics, regression, and whenever no downsampling is needed.",
 "C60": "False: the positions sampled within the training fold are used as row numbers of the whole data, so an estimator can be trained on its own test rows (witness). Proved instead: exactly which rows are used, and that every fold is tested on its own test rows.",
 "C61": "False: an error while predicting, or a timeout after the scores were computed, is reported together with the real scores (witnesses). Proved instead: scores are all -inf unless every fold was fitted and scored; -inf whenever splitting, fitting or scoring fails; enclosing timeouts and Ctrl-C are never turned into results.",
 "C63": "Proved: the primitives are exactly the configured algorithms with exactly their hyperparameters, invalid keys are refused with a TypeError, a configuration is accepted iff every entry is valid, and complete configurations can generate individuals. False as stated for value lists: two classes with the same __name__ share the key Class.param and mix their values (C63_values_refuted); proved under distinct names (C63_values_partial).",
 "C64": "False as stated: merging writes into the inner dictionaries of the first configuration (importing gama.logging.GamaReport does this to the default classification search space), an algorithm using shared values loses them when the other configuration lists its own, and only one of two param_checks survives parsing. Proved: every explicit option of both configurations is kept; exactly the union when no inner dictionary is used twice; the second configuration and all other dictionaries are unchanged.",
 "C65": "False: the parsed checks are never consulted when pipelines are created. Proved: every pipeline of the space, including ones that violate a check, can be generated, and a concrete configuration with such a pipeline; and conversely, spaces whose combinations all pass are safe.",
 "C66": "Proved for format_x_y on all data whose indices agree, in particular all numpy data. Refuted for GamaClassifier.fit with text labels: the label encoder runs first and turns the missing label into a class of its own, so no row is dropped (C66_text_labels_refuted).",
 "C67": "False: x.loc[~unlabeled] aligns by index label while features and labels are paired by position afterwards (C67_alignment_refuted), and indices that do not match raise (C67_error_refuted). Proved: without missing labels nothing is changed.",
 "C71": "C71_rejected gives the complete list of reasons for a ValueError: besides the four named also an unknown preset and a length limit above one without preprocessing steps. C71_nothing_left_partial: the directory is removed when times or n_jobs are rejected. The title is false for the other reasons (C71_left_behind_refuted): the directory stays, with the cache in it, and blocks a second attempt. How scoring and the search space are parsed enters as arguments (C63-C65, C85).",
 "C72": "False on one processor: n_jobs=None becomes 1 // 2 = 0 and is rejected (C72_one_cpu_refuted, for all other arguments). Proved for two or more processors.",
 "C73": "False for totals of 1 to 5 seconds: the default is 0 and every evaluation raises ValueError (C73_zero_limit_refuted). Proved for six seconds and more, and for explicit limits. Times are whole seconds.",
 "C74": "The directory holds log files and the cache, as the modelled code writes them; C74_foreign and C74_unknown_store say what happens otherwise.",
 "C75": "A KeyboardInterrupt is treated like a timeout: it is no Exception and is not caught (C75_timeout).",
 "C76": "Scores are not NaN (evaluate_pipeline reports -inf for failures, C61).",
 "C77": "False: the class attribute is wrapped in a partialmethod per instance, the last one created wins (C77_last_created_refuted for every session). Proved when no instance was created in between.",
 "C78": "Proved for every history of entering and leaving activities; the wall clock bound for consecutive ones (C78_nested_count_twice shows it needs that).",
 "C79": "False when the body raises: start_activity resets current_activity only after a normal exit (C79_raised_refuted). Proved for normal exits.",
 "C81": "Refuted: for every log, an error message containing ';' or a line break makes the rows read back differ from the rows logged. Proved for clean messages (partial).",
 "C82": "Proved for rows the report can read (partial). Refuted when some row cannot be read (e.g. a pipeline of another search space): update raises after advancing its position, so all rows read by that update, readable ones too, never appear.",
 "C83": "Refuted: this version's INIT line contains the repr of the search space, which init_to_hps refuses with ValueError as soon as it has a comma-delimited text without '=' (any option list of three values). Proved for lines whose arguments are plain texts or objects (search and post-processing methods as their __str__ writes them) with any hyperparameters that have plain values; the last argument must not be an object (in this version it is 'store').",
 "C84": "Proved when the handlers of others have no attribute 'tag' (partial). Refuted otherwise: any tagged stream handler is removed.",
 "C85": "Precedence proved for all names, values and overwrites when None means not given; explicit None (documented for max_models and hillclimb_size) yields the static default (C85_none_refuted), and ASHA drops a user's maximum_resource above the row count (C85_asha_dropped_refuted), for every later fit too (C85_asha_lost_refuted); its other options are kept (C85_asha_other).",
 "C86": "Proved for names, Metrics and collections; a generator gives an empty tuple (C86_generator_refuted).",
 "C88": "Proved for a first fit and for later fits with the same fixed steps; individuals carried over to a second fit keep the old fixed steps while the script shows the new ones (C88_refit_refuted), and a class of a private top-level module is imported from nowhere (C88_private_module_refuted). str() of a transformer is taken as given: scikit-learn abbreviates long lists there.",
 "C89": "False: files without a data line are read forever, for example an empty file or one that ends in @data without newline. Proved: termination on every file with such a line, non-termination without one (unless a declaration is malformed), and the declarations are returned.",
 "C90": "False: -sep on a csv file always raises AttributeError (C90_separator_refuted), and paths are lower-cased (C90_capitals_refuted). Proved for lower-case paths without -sep. argparse itself is not modelled.",
 "C94": "False: boolean, unsigned and complex columns raise AttributeError (bool and int have no is_integer before Python 3.12). Proved for all other dtypes.",
 "C95": "False for files without header, whose columns are numbered by ints while their names are listed as strings, and for upper-case extensions. Proved for files with a header (no quoting; separator and header as sniffed).",
 "C96": "Proved for vectors, indicator matrices, Series and one-column tables with other than one row. False for a table with one row (AttributeError) and for tables with several columns, which stay tables.",
 "C97": "Members are individuals bound to the fixed steps of the current fit, as after a first fit (see C88).",
 "C98": "Refuted for one score per evaluation (regularize_length=False): '(0.5,)' is split into '0.5' and '', float('') raises; and the text 'False' of regularize_length is truthy. Proved for two or more scores.",
 "C99": "float() and strptime of the STOP line are kept as text."
}
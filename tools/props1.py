import json
P=[]
def p(id,title,statement,quantifier,why,anchors):
    P.append(dict(id=id,title=title,statement=statement,quantifier=quantifier,why_tests_cant=why,anchors=anchors))
GP="gama/genetic_programming/"
C=GP+"components/"
# ---------------- genetic programming operators
p("C01","Generated pipelines stay inside the search space",
 "Every pipeline obtained from create_random_expression, random_valid_mutation_in_place or random_crossover (in any order, any number of times) consists of one predictor followed by zero or more preprocessors, all taken from the search space, and each of them carries exactly one value for each of its declared hyperparameters, taken from the values declared for that hyperparameter.",
 "every search space whose declared hyperparameters have values, every conforming parent, every random draw, every sequence of operations",
 "tests sample a handful of random draws on one configuration; the claim ranges over all draws, all search spaces and all operation histories",
 [GP+"operations.py:create_random_expression",GP+"mutation.py:random_valid_mutation_in_place",GP+"crossover.py:random_crossover"])
p("C02","Random pipelines respect the length bounds",
 "create_random_expression(pset, min_length, max_length) returns a pipeline with at least min_length and at most max_length steps, ending in a predictor; if min_length > max_length it raises ValueError and creates nothing.",
 "all search spaces, bounds and random draws","a random test cannot exclude an unlucky draw",[GP+"operations.py:create_random_expression"])
p("C03","Mutation never exceeds max_length",
 "random_valid_mutation_in_place(ind, pset, max_length=m) leaves ind with at most m steps whenever it returns, for parents of any length (longer parents are cut down to exactly m).",
 "all individuals, search spaces, max_length values and draws","needs all draws and lengths",[GP+"mutation.py:random_valid_mutation_in_place",GP+"mutation.py:mut_shrink",GP+"mutation.py:mut_insert"])
p("C04","OperatorSet.mate respects max_pipeline_length",
 "The individual returned by OperatorSet.mate (the only one that gets evaluated) has at most max_pipeline_length steps whenever both parents do.",
 "all parents within the limit and all draws","the violating draw is rare; a test that samples draws can miss it",[GP+"operator_set.py:OperatorSet.mate",GP+"crossover.py:random_crossover","gama/gama.py:Gama.__init__"])
p("C05","random_crossover's first result respects max_length",
 "If both individuals have at most max_length steps, the first individual returned by random_crossover has at most max_length steps; if either is longer, ValueError is raised and nothing is modified.",
 "all individuals and draws","needs all draws",[GP+"crossover.py:random_crossover"])
p("C06","Operators never modify the parents",
 "OperatorSet.mutate and OperatorSet.mate leave every node reachable from the parents (and from any other existing individual) untouched and return an individual with a new id that shares no node with any existing individual.",
 "all heaps of existing individuals, all draws, any number of retries","aliasing between pipelines only shows up in particular combinations of copies and edits",[GP+"operator_set.py:OperatorSet.mutate",GP+"operator_set.py:OperatorSet.mate",C+"individual.py:Individual.copy_as_new",C+"primitive_node.py:PrimitiveNode.copy"])
p("C07","Shrinking removes exactly the requested steps from the preprocessing end",
 "mut_shrink(ind, shrink_by=k) with k < length keeps exactly the first length-k steps (counted from the predictor) unchanged; with k >= length it raises ValueError and changes nothing; without shrink_by at least one step is removed and the predictor is kept, and a single-step pipeline is rejected with ValueError.",
 "all individuals and k, all draws","all lengths and k",[GP+"mutation.py:mut_shrink"])
p("C08","Insertion adds exactly one preprocessing step",
 "mut_insert adds exactly one new preprocessor from the search space somewhere below the predictor; all existing steps keep their order, hyperparameters and the predictor stays the predictor.",
 "all individuals, search spaces and draws","all positions and draws",[GP+"mutation.py:mut_insert"])
p("C09","Terminal mutation changes exactly one hyperparameter value",
 "mut_replace_terminal changes exactly one hyperparameter value of the pipeline to a different value declared for the same hyperparameter, and changes nothing else; it raises ValueError exactly when no hyperparameter of the pipeline has more than one declared value.",
 "all individuals, search spaces and draws","all draws",[GP+"mutation.py:mut_replace_terminal",C+"individual.py:Individual.replace_terminal"])
p("C10","Primitive mutation replaces exactly one step by a different algorithm of the same type",
 "mut_replace_primitive replaces exactly one step with a different primitive with the same output type and freshly drawn hyperparameters; all other steps are kept unchanged and in order.",
 "all individuals, search spaces and draws","all draws",[GP+"mutation.py:mut_replace_primitive",C+"individual.py:Individual.replace_primitive"])
p("C11","Terminal crossover swaps one pair of hyperparameter values",
 "crossover_terminals exchanges exactly one hyperparameter value of ind1 with one of ind2; both belong to the same hyperparameter and have different values; everything else in both pipelines is unchanged.",
 "all pairs of node-disjoint individuals and all draws","all pairs and draws",[GP+"crossover.py:crossover_terminals",GP+"crossover.py:_shared_terminals"])
p("C12","Primitive crossover exchanges preprocessing tails",
 "crossover_primitives exchanges non-empty preprocessing tails of two node-disjoint pipelines of length >= 2: each child keeps its own predictor, no step is lost or duplicated, and the total length is conserved.",
 "all pairs of node-disjoint individuals and all draws","all pairs and draws",[GP+"crossover.py:crossover_primitives"])
p("C13","replace_terminal rejects bad requests without side effects",
 "replace_terminal(position, t) replaces exactly the terminal at `position` when it belongs to the same hyperparameter as t, and raises ValueError without changing anything when the hyperparameter differs or when position is out of range.",
 "all individuals, positions and terminals","boundary position found only by exhaustive position choice",[C+"individual.py:Individual.replace_terminal"])
p("C14","replace_primitive only replaces",
 "replace_primitive(position, node) replaces exactly the step at `position` by a node of the same output type and never adds, drops or reorders steps; it rejects a node with a different output type without changing anything.",
 "all individuals, positions and nodes","boundary position",[C+"individual.py:Individual.replace_primitive"])
p("C15","A valid mutation always exists",
 "random_valid_mutation_in_place succeeds on every individual that conforms to the search space.",
 "all conforming individuals, all max_length >= 1","only particular shapes of individual and max_length fail",[GP+"mutation.py:random_valid_mutation_in_place"])
p("C16","OperatorSet.mutate repairs over-long individuals",
 "OperatorSet.mutate on an individual longer than max_pipeline_length returns an individual of length max_pipeline_length.",
 "all over-long individuals","needs an over-long individual (only warm_start gives one)",[GP+"operator_set.py:OperatorSet.mutate",GP+"mutation.py:random_valid_mutation_in_place"])
p("C17","Duplicate avoidance",
 "mate/mutate return an individual whose pipeline was not evaluated before, unless max_retry attempts in a row all gave an already evaluated pipeline, in which case the last attempt is returned; the operator is called at least once and at most max_retry times.",
 "all evaluation histories, all sequences of operator results, all max_retry >= 1","all histories",[GP+"operator_set.py:OperatorSet.try_until_new"])
p("C18","Mating is attempted only when a crossover exists",
 "_valid_crossover_functions lists crossover_terminals exactly when the two individuals share a hyperparameter with different values, and crossover_primitives exactly when both have at least two steps; random_crossover raises ValueError exactly when the list is empty (or the length limit is exceeded) and otherwise succeeds.",
 "all pairs of individuals and draws","all pairs",[GP+"crossover.py:_valid_crossover_functions",GP+"crossover.py:random_crossover",GP+"selection.py:create_from_population"])
# ---------------- string round trip
p("C19","Pipeline strings round-trip",
 "Individual.from_string(ind.pipeline_str(), pset) rebuilds exactly ind, for every individual over a search space in which names and value texts contain no '(' , ')' , '=' or ', ' and no primitive name contains 'data', and in which names and value texts are unique.",
 "all individuals of any length over any such search space","string ambiguity only appears for particular names, values or nestings",[C+"primitive_node.py:PrimitiveNode.__str__",C+"primitive_node.py:PrimitiveNode.from_string",C+"terminal.py:Terminal.__repr__",C+"individual.py:Individual.from_string"])
p("C20","Strict parsing rejects incomplete pipelines",
 "from_string with strict=True raises ValueError for a pipeline string in which some primitive lacks a declared hyperparameter, and with strict=False accepts it with the hyperparameters present.",
 "all pipeline strings printed from incomplete individuals","all shapes of incompleteness",[C+"primitive_node.py:PrimitiveNode.from_string"])
p("C21","Pipeline strings round-trip for every value",
 "from_string(pipeline_str()) rebuilds the individual for every hyperparameter value a search space may contain (tuples, strings with '=' or ', ', ...).",
 "all hyperparameter values","the default configuration contains no such value",[C+"primitive_node.py:PrimitiveNode.from_string"])
# ---------------- pareto / selection
p("C22","The Pareto front never contains a dominated item",
 "After any sequence of update calls no item of the front is component-wise <= another item of the front (in particular the front has no two items with equal values).",
 "all sequences of updates with values of equal arity (including infinities and NaN)","all update orders",["gama/utilities/generic/paretofront.py:ParetoFront.update"])
p("C23","The Pareto front covers every item offered",
 "After any sequence of updates every item ever offered is itself in the front or is component-wise <= some item of the front, and every item of the front was offered.",
 "all sequences of updates","all update orders",["gama/utilities/generic/paretofront.py:ParetoFront.update","gama/utilities/generic/paretofront.py:ParetoFront.__init__"])
p("C24","update reports whether the front changed",
 "update returns True exactly when the new item was added, False exactly when the front is left unchanged because an item of the front is at least as good in every component; an item of different arity raises ValueError and leaves the front unchanged.",
 "all fronts and items","all fronts",["gama/utilities/generic/paretofront.py:ParetoFront.update"])
p("C25","Elimination never removes an individual that dominates another",
 "eliminate_from_pareto(pop, 1) returns exactly one member of pop, and no other member of pop is at most as good in all objectives and worse in one; n != 1 raises NotImplementedError.",
 "all populations with fitness of equal arity and all draws","all populations and draws",[GP+"selection.py:eliminate_from_pareto"])
p("C26","Elimination keeps the best scoring individual",
 "eliminate_from_pareto never selects the individual with the strictly best first objective while the population has another member.",
 "all populations and draws","depends on the trade-off between score and length",[GP+"selection.py:eliminate_from_pareto","gama/search_methods/async_ea.py:async_ea"])
p("C27","Non-dominated sorting partitions the population into fronts",
 "fast_non_dominated_sort returns fronts which together contain every individual exactly once; no individual of a front is dominated by one of the same or a later front; every individual outside the first front is dominated by one of the front directly before it.",
 "all populations of any size and any metric values","all dominance graphs",[GP+"nsga2.py:fast_non_dominated_sort",GP+"nsga2.py:NSGAMeta.dominates"])
p("C28","nsga2 selects exactly n individuals, earlier fronts first",
 "nsga2(population, n, metrics) returns exactly n distinct members (positions) of the population, and if it returns a member of a later front it returns all members of every earlier front; n = 0 or n > len(population) raises ValueError.",
 "all populations, n and metric values","all dominance structures",[GP+"nsga2.py:nsga2"])
p("C29","Parent pairs consist of two different parents",
 "nsga2_select(population, n, metrics) returns exactly n pairs, each of two different members (positions) of the population; fewer than 3 individuals raises ValueError.",
 "all populations, n and draws","all draws",[GP+"nsga2.py:nsga2_select"])
p("C30","Rank reflects the front an individual belongs to",
 "After fast_non_dominated_sort an individual in an earlier front has a strictly smaller rank than one in a later front, so tournaments prefer it.",
 "all populations","shows only for particular pairs of fronts",[GP+"nsga2.py:fast_non_dominated_sort",GP+"nsga2.py:NSGAMeta.crowd_compare"])
p("C31","Crowding distance favours the extremes",
 "crowding_distance_assignment gives infinite distance to an individual with the smallest and to one with the largest value of every metric, and a finite non-negative distance otherwise.",
 "all fronts of finite metric values","all value distributions",[GP+"nsga2.py:crowding_distance_assignment"])
EL="gama/utilities/evaluation_library.py:"
p("C32","The library keeps exactly the m best evaluations",
 "After any sequence of save_evaluation calls, top_evaluations together with other_evaluations contain every saved evaluation exactly once; top has min(m, number of successful evaluations) members, all successful, and no successful evaluation outside top is strictly better than one inside.",
 "all sequences of evaluations with non-NaN scores, all m including None and 0","all histories and ties",[EL+"EvaluationLibrary.save_evaluation"])
p("C33","n_best returns the best evaluations in order",
 "n_best(n) for n <= m returns the min(n, available) best successful evaluations in non-increasing score order, after any history.",
 "all histories and n","all histories",[EL+"EvaluationLibrary.n_best"])
p("C34","Predictions are kept for exactly the top evaluations",
 "After any history of evaluations of distinct individuals, every evaluation in the top can still produce the predictions (sampled) and estimators that were saved, every other evaluation holds none, and the cache directory contains exactly one file per top evaluation.",
 "all histories of distinct individuals, all m","all eviction orders",[EL+"EvaluationLibrary.save_evaluation",EL+"Evaluation.to_disk",EL+"Evaluation.remove_from_disk",EL+"Evaluation.predictions"])
p("C35","Predictions stay available when an individual is evaluated again",
 "The guarantee of C34 for the top evaluations also holds when the same individual is evaluated more than once (e.g. a second call of fit, warm start).",
 "all histories including repeated individuals","needs a repeated id that is later evicted",[EL+"Evaluation.to_disk",EL+"Evaluation.remove_from_disk"])
p("C36","Every saved evaluation can be looked up",
 "After any history, lookup maps the pipeline string of every saved evaluation to the last evaluation saved for that string, and no other string is mapped.",
 "all histories","all histories",[EL+"EvaluationLibrary.save_evaluation"])
p("C37","Sample indices are valid and of the requested size",
 "determine_sample_indices selects exactly n distinct valid row indices when n is smaller than the number of predictions, keeps all predictions otherwise, and rejects calls that do not give exactly one of prediction_size and stratify.",
 "all n, sizes and draws","all sizes",[EL+"EvaluationLibrary.determine_sample_indices"])
AE="gama/utilities/generic/async_evaluator.py:"
p("C38","Every submitted job is delivered exactly once",
 "With no memory limit and results the worker accepts, under every interleaving of submissions, workers and waits: each future returned by wait_next was submitted and not returned before, and every submitted future is either already returned or still queued, running or finished-but-not-collected.",
 "all schedules of any number of workers","schedules cannot be enumerated by tests",[AE+"AsyncEvaluator.submit",AE+"AsyncEvaluator.wait_next",AE+"evaluator_daemon"])
p("C39","A returned future carries the outcome of its own call",
 "The future returned by wait_next holds the result, or the exception, of executing exactly its own fn(*args, **kwargs).",
 "all schedules and jobs","result/job mismatch needs particular interleavings",[AE+"AsyncEvaluator.wait_next",AE+"AsyncFuture.execute",AE+"evaluator_daemon"])
p("C40","wait_next fails only when nothing is outstanding",
 "wait_next raises RuntimeError exactly when every submitted future has been returned.",
 "all schedules","all schedules",[AE+"AsyncEvaluator.wait_next"])
p("C41","No job is lost under a memory limit",
 "With a memory limit, every submitted future is still eventually delivered (possibly with an error) as long as workers keep running.",
 "all schedules with memory-triggered restarts","requires a kill at the wrong moment",[AE+"AsyncEvaluator._control_memory_usage"])
p("C42","Arbitrary functions can be evaluated",
 "Any picklable function result is delivered by wait_next (the class documentation says arbitrary functions can be evaluated).",
 "all result values","depends on the truthiness and attributes of the result",[AE+"evaluator_daemon"])
p("C43","Worker pool size stays between 1 and n_workers",
 "Inside the context the number of worker processes never exceeds n_workers and never drops below 1, whatever the memory usage; after __exit__ it is 0; entering twice raises RuntimeError.",
 "all memory readings, all sequences of waits, submits","all memory traces",[AE+"AsyncEvaluator._control_memory_usage",AE+"AsyncEvaluator.__enter__",AE+"AsyncEvaluator.__exit__"])
p("C44","job_queue_size accounting",
 "Without worker kills, job_queue_size always equals (submitted - collected) - n_workers.",
 "all schedules","all schedules",[AE+"AsyncEvaluator.submit",AE+"AsyncEvaluator.wait_next"])
SM="gama/search_methods/"
p("C45","Population size never exceeds population_size",
 "At every step of async_ea the population has at most population_size members, each one a successfully evaluated individual of this run.",
 "all sequences of evaluation outcomes, restarts and eliminations","all histories",[SM+"async_ea.py:async_ea"])
p("C46","max_n_evaluations is respected",
 "async_ea with max_n_evaluations=N collects exactly N evaluations before returning (if not interrupted) and rejects N <= 0 with ValueError.",
 "all outcome sequences and restart patterns","all restart patterns",[SM+"async_ea.py:async_ea"])
p("C47","async_ea's result is non-empty after a successful evaluation",
 "If at least one individual was evaluated successfully, the population async_ea returns is not empty.",
 "all outcome sequences and restart patterns","needs a restart on the very last evaluation",[SM+"async_ea.py:async_ea"])
p("C48","Search works with any non-empty warm start",
 "async_ea started from any non-empty list of valid individuals keeps running until its budget is used up.",
 "all sizes of start_candidates and numbers of workers","depends on the ratio of candidates to workers",[SM+"async_ea.py:async_ea",GP+"nsga2.py:nsga2_select"])
p("C49","fit can be called repeatedly",
 "A second fit call (without warm_start) continues from the population found by the first one.",
 "all first-run results","list aliasing between two calls",["gama/gama.py:Gama._search_phase",SM+"async_ea.py:AsyncEA.search"])
p("C50","Random search reports every evaluated individual",
 "random_search's output contains exactly the individuals whose evaluation returned a result, in completion order, and stops after max_evaluations of them.",
 "all outcome sequences","all histories",[SM+"random_search.py:random_search"])
p("C51","ASHA promotes at most the best 1/eta of each rung",
 "In asha, the number of individuals promoted from a rung never exceeds floor(evaluated on that rung / reduction_factor), no evaluation result is promoted twice, and a promoted individual is the best not yet promoted one of its rung at that time.",
 "all histories of job completions","all histories",[SM+"asha.py:asha"])
p("C52","ASHA jobs run on existing rungs with the right resources",
 "Every job asha starts is at a rung between minimum_early_stopping_rate and max_rung with resource min(minimum_resource * eta^rung, maximum_resource); the top rung is never promoted from; an individual runs on a higher rung only after being evaluated on the rung below.",
 "all histories and parameters","all histories",[SM+"asha.py:asha"])
p("C53","ASHA returns the highest rung reached",
 "asha returns the individuals of the highest rung in which at least one individual has been evaluated.",
 "all histories and interruption points","all interruption points",[SM+"asha.py:asha"])
EN="gama/postprocessing/ensemble.py:"
p("C54","The ensemble has the requested total weight",
 "With a non-empty library of scored models and ensemble_size >= 1, build_fit_ensemble gives an ensemble of total weight max(ensemble_size, min(10 or 1, available models)), every weight a positive integer, every member from the library.",
 "all libraries, sizes and scores","all libraries",[EN+"build_fit_ensemble",EN+"Ensemble.build_initial_ensemble",EN+"Ensemble.expand_ensemble",EN+"Ensemble._add_model"])
p("C55","Greedy expansion is optimal at each step",
 "Each model added by expand_ensemble gives an ensemble score at least as high as adding any other library model would, and the recorded score is the score of the weighted average including that model.",
 "all libraries, predictions and scoring functions","all libraries",[EN+"Ensemble.expand_ensemble"])
p("C56","Ensemble predictions are weighted means",
 "The prediction of a fitted ensemble for a row lies between the smallest and largest prediction of its members for that row, and class probabilities stay non-negative and sum to one.",
 "all member predictions and weights","all values",[EN+"Ensemble._get_weighted_mean_predictions"])
p("C57","Ensembles can be built for any hillclimb_size",
 "EnsembleClassifier can be constructed for every library sample size and every downsample_to, with y aligned to the stored predictions.",
 "all sizes","default sizes hide it",[EN+"EnsembleClassifier.__init__",EN+"Ensemble.__init__"])
SK=GP+"compilers/scikitlearn.py:"
p("C58","Compiled pipelines apply preprocessing first and the predictor last",
 "compile_individual yields preprocessing_steps in the given order, then the individual's steps from the one nearest the data to the predictor, with every step built with exactly its own hyperparameters; step names are unique.",
 "all individuals and preprocessing steps","all lengths",[SK+"compile_individual",SK+"primitive_node_to_sklearn"])
p("C59","Validation predictions come from models that did not see the row",
 "In evaluate_pipeline without subsampling, the prediction stored for each row is made by the estimator whose training set does not contain the row, and every row gets exactly one prediction.",
 "all splits that partition the rows, all models","all splits",[SK+"evaluate_pipeline"])
p("C60","Subsampled evaluation trains only on training rows",
 "With `subsample`, each fold's estimator is trained on a subset of that fold's training rows (never on its test rows).",
 "all splits and subsamples","depends on the split layout",[SK+"evaluate_pipeline"])
p("C61","Failed evaluations score -inf",
 "evaluate_pipeline returns -inf for every metric whenever it reports an error.",
 "all points at which fitting, scoring, predicting or the timeout can fail","all failure points",[SK+"evaluate_pipeline"])
p("C62","Scores have one entry per metric plus length",
 "evaluate_individual returns a score with one entry per metric, followed by minus the number of steps iff add_length_to_score, stores the same tuple as the individual's fitness, and never lets the evaluation run past timeout or deadline.",
 "all individuals, outcomes, timeouts and deadlines","all combinations",[SK+"evaluate_individual"])
CP="gama/configuration/parser.py:"
p("C63","The parsed search space contains exactly what was configured",
 "pset_from_config registers for each algorithm exactly one primitive of the right type listing all its hyperparameters, and for each hyperparameter exactly the configured values; unknown keys raise TypeError.",
 "all configurations","all configurations",[CP+"pset_from_config"])
p("C64","Merging configurations keeps every option and does not modify its inputs",
 "merge_configurations(c1, c2) contains every option of both and leaves c1 and c2 unchanged.",
 "all configurations","aliasing of nested dictionaries",[CP+"merge_configurations"])
p("C65","param_check restrictions are enforced",
 "No generated pipeline violates a param_check of the search space.",
 "all search spaces and draws","random sampling may miss it",[CP+"pset_from_config","gama/gama.py:Gama.__init__"])
DF="gama/data_formatting.py:"
p("C66","Unlabelled rows are dropped and rows stay aligned",
 "format_x_y keeps exactly the rows whose label is not missing, in order, and feature row i still belongs to label i.",
 "all data with x and y sharing the same unique index, any pattern of missing labels","all patterns",[DF+"remove_unlabeled_rows",DF+"format_x_y"])
p("C67","Rows stay aligned for differently indexed x and y",
 "format_x_y keeps features and labels of the same position together whatever the pandas indices of x and y are.",
 "all indices","index permutations are not in the test data",[DF+"remove_unlabeled_rows"])
p("C68","Every categorical feature gets exactly one encoder",
 "basic_encoding and basic_pipeline_extension together assign each categorical column exactly one of ordinal, one-hot and target encoding, by its number of factors, and no non-categorical column any.",
 "all data frames","all cardinalities",["gama/utilities/preprocessing.py:basic_encoding","gama/utilities/preprocessing.py:basic_pipeline_extension","gama/utilities/preprocessing.py:select_categorical_columns"])
p("C69","Predicted labels are the user's labels",
 "GamaClassifier.predict returns labels from the set of labels passed to fit: whatever the type of labels, decoding the model's output gives the original label.",
 "all label sets and model outputs","all label sets",["gama/GamaClassifier.py:GamaClassifier.fit","gama/GamaClassifier.py:GamaClassifier._predict"])
p("C70","The target column is separated from the features",
 "X_y_from_file returns the named (or last) column as y and all other columns, in order, as x; an unknown name raises ValueError.",
 "all tables","all tables",["gama/data_loading.py:X_y_from_file"])
G="gama/gama.py:"
p("C71","Invalid hyperparameters are rejected and leave nothing behind",
 "Gama.__init__ raises ValueError exactly when max_total_time is missing or not positive, max_eval_time is not positive, n_jobs is 0 or below -1, or the output directory is non-empty; when it rejects times or n_jobs the output directory is removed.",
 "all argument values","all values",[G+"Gama.__init__",G+"Gama.cleanup"])
p("C72","Default n_jobs is always usable",
 "With n_jobs=None, Gama can be constructed on every machine.",
 "all cpu counts","depends on the machine",[G+"Gama.__init__"])
p("C73","Default max_eval_time is positive",
 "With max_eval_time=None every allowed max_total_time gives an evaluation time limit under which pipelines can be evaluated.",
 "all positive max_total_time","boundary values",[G+"Gama.__init__",SK+"evaluate_pipeline"])
p("C74","store decides what is left on disk",
 "After a successful fit the output directory contains: nothing (and is gone) for 'nothing', exactly the log files for 'logs', exactly the model cache for 'models', both for 'all'.",
 "all sets of log and cache files","all directory contents",[G+"Gama.fit",G+"Gama.cleanup"])
p("C75","Callback failures are isolated",
 "On each completed evaluation every registered callback is called exactly once, in registration order, whatever exceptions other callbacks raise, unless a timeout occurs.",
 "all callback lists and behaviours","all behaviours",[G+"Gama._on_evaluation_completed",G+"Gama._safe_outside_call"])
p("C76","The best individual of the final population becomes the model",
 "With BestFitPostProcessing fit trains the pipeline of an individual whose fitness is maximal (lexicographically) in the final population.",
 "all final populations","all populations",[G+"Gama.fit","gama/postprocessing/best_fit.py:BestFitPostProcessing.post_process"])
p("C77","Instances do not interfere",
 "An instance's fit uses its own n_jobs and memory limit, whatever other instances were created.",
 "all creation and fit orders","needs several instances",[G+"Gama.__init__",AE+"AsyncEvaluator.__init__"])
p("C78","Time accounting",
 "total_time_remaining equals the total minus the time spent in all started activities; for consecutive activities it is never less than the total minus the wall time since the start.",
 "all monotone clocks and sequences of activities","all clocks",["gama/utilities/generic/timekeeper.py:TimeKeeper","gama/utilities/generic/stopwatch.py:Stopwatch"])
p("C79","No activity is current after it ends",
 "After leaving an activity (normally or through an exception) no activity is in progress.",
 "all bodies","needs an exception in the body",["gama/utilities/generic/timekeeper.py:TimeKeeper.start_activity"])
LG="gama/logging/"
p("C80","Evaluation log lines can be read back",
 "Each logged evaluation occupies one line whose fields, split at the separator, are exactly the logged values, as long as no value contains the separator or a newline.",
 "all field values","all values",[LG+"evaluation_logger.py:EvaluationLogger.log_line"])
p("C81","Error messages do not corrupt the log",
 "The statement of C80 for every evaluation, including failed ones with arbitrary error messages.",
 "all error messages","depends on messages of third-party libraries",[LG+"evaluation_logger.py:EvaluationLogger.log_evaluation"])
p("C82","A report sees every logged evaluation once",
 "After any interleaving of complete log writes and GamaReport.update calls (on an unfinished log), the report contains every line logged before the last update exactly once, in order, numbered 0,1,2,...",
 "all interleavings","all interleavings",[LG+"GamaReport.py:GamaReport.update"])
p("C83","GamaReport reads the INIT line of this version",
 "init_to_hps parses the INIT line written by Gama.__init__.",
 "all search spaces","the test uses static logs of old versions",[LG+"GamaReport.py:init_to_hps",G+"Gama.__init__"])
p("C84","At most one console handler",
 "After any number of register_stream_log calls there is exactly one tagged stream handler, with the last verbosity, and handlers not registered by GAMA are kept.",
 "all call sequences","all sequences",[LG+"utility_functions.py:register_stream_log"])
p("C85","User-set hyperparameters win over dynamic and static defaults",
 "hyperparameters returns for each name the user's value if one was given (including None where None is documented as a value), else the dynamic default if set, else the static default.",
 "all names, values and sequences of overwrites","all sequences",[SM+"base_search.py:BaseSearch.hyperparameters","gama/postprocessing/base_post_processing.py:BasePostProcessing.hyperparameters"])
p("C86","scoring accepts every iterable of metrics",
 "scoring_to_metric returns one Metric per given scorer, in order, for every iterable of strings or Metrics, and raises TypeError for anything else.",
 "all iterables","one-shot iterables",["gama/utilities/metrics.py:scoring_to_metric"])
p("C87","Probability metrics exclude classifiers without predict_proba",
 "If any metric needs probabilities, no classifier lacking predict_proba is in the search space; otherwise the search space is unchanged.",
 "all search spaces and metrics","all search spaces",["gama/GamaClassifier.py:GamaClassifier.__init__"])
p("C88","The exported script has the fitted pipeline's steps",
 "export_script's pipeline for BestFit lists the encoding steps, the fixed preprocessing steps and then the individual's steps, in the order and under the names in which they are applied by the fitted model.",
 "all individuals and preprocessing steps","all lengths",["gama/postprocessing/best_fit.py:BestFitPostProcessing.to_code","gama/utilities/export.py:imports_and_steps_for_individual",G+"Gama.export_script"])
p("C89","ARFF metadata loading terminates",
 "load_feature_metadata_from_arff terminates on every file.",
 "all files","a test that does not terminate is never written",["gama/data_loading.py:load_feature_metadata_from_arff"])
p("C90","The command line honours its options",
 "For every accepted command line: the mode is the requested one or derived from the target type, -sep is used for csv files, the given file is the one read.",
 "all command lines and files","all combinations",["gama/utilities/cli.py:main"])
with open("/verif/properties.jsonl","w") as f:
    for x in P: f.write(json.dumps(x)+"\n")
print(len(P))

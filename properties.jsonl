{"id": "C01", "title": "Generated pipelines stay inside the search space", "statement": "Every pipeline obtained from create_random_expression, random_valid_mutation_in_place or random_crossover (in any order, any number of times) consists of one predictor followed by zero or more preprocessors, all taken from the search space, and each of them carries exactly one value for each of its declared hyperparameters, taken from the values declared for that hyperparameter.", "quantifier": "every search space whose declared hyperparameters have values, every conforming parent, every random draw, every sequence of operations", "why_tests_cant": "tests sample a handful of random draws on one configuration; the claim ranges over all draws, all search spaces and all operation histories", "anchors": ["gama/genetic_programming/operations.py:create_random_expression", "gama/genetic_programming/mutation.py:random_valid_mutation_in_place", "gama/genetic_programming/crossover.py:random_crossover"]}
{"id": "C02", "title": "Random pipelines respect the length bounds", "statement": "create_random_expression(pset, min_length, max_length) returns a pipeline with at least min_length and at most max_length steps, ending in a predictor; if min_length > max_length it raises ValueError and creates nothing.", "quantifier": "all search spaces, bounds and random draws", "why_tests_cant": "a random test cannot exclude an unlucky draw", "anchors": ["gama/genetic_programming/operations.py:create_random_expression"]}
{"id": "C03", "title": "Mutation never exceeds max_length", "statement": "random_valid_mutation_in_place(ind, pset, max_length=m) leaves ind with at most m steps whenever it returns, for parents of any length (longer parents are cut down to exactly m).", "quantifier": "all individuals, search spaces, max_length values and draws", "why_tests_cant": "needs all draws and lengths", "anchors": ["gama/genetic_programming/mutation.py:random_valid_mutation_in_place", "gama/genetic_programming/mutation.py:mut_shrink", "gama/genetic_programming/mutation.py:mut_insert"]}
{"id": "C04", "title": "OperatorSet.mate respects max_pipeline_length", "statement": "The individual returned by OperatorSet.mate (the only one that gets evaluated) has at most max_pipeline_length steps whenever both parents do.", "quantifier": "all parents within the limit and all draws", "why_tests_cant": "the violating draw is rare; a test that samples draws can miss it", "anchors": ["gama/genetic_programming/operator_set.py:OperatorSet.mate", "gama/genetic_programming/crossover.py:random_crossover", "gama/gama.py:Gama.__init__"]}
{"id": "C05", "title": "random_crossover's first result respects max_length", "statement": "If both individuals have at most max_length steps, the first individual returned by random_crossover has at most max_length steps; if either is longer, ValueError is raised and nothing is modified.", "quantifier": "all individuals and draws", "why_tests_cant": "needs all draws", "anchors": ["gama/genetic_programming/crossover.py:random_crossover"]}
{"id": "C06", "title": "Operators never modify the parents", "statement": "OperatorSet.mutate and OperatorSet.mate leave every node reachable from the parents (and from any other existing individual) untouched and return an individual with a new id that shares no node with any existing individual.", "quantifier": "all heaps of existing individuals, all draws, any number of retries", "why_tests_cant": "aliasing between pipelines only shows up in particular combinations of copies and edits", "anchors": ["gama/genetic_programming/operator_set.py:OperatorSet.mutate", "gama/genetic_programming/operator_set.py:OperatorSet.mate", "gama/genetic_programming/components/individual.py:Individual.copy_as_new", "gama/genetic_programming/components/primitive_node.py:PrimitiveNode.copy"]}
{"id": "C07", "title": "Shrinking removes exactly the requested steps from the preprocessing end", "statement": "mut_shrink(ind, shrink_by=k) with k < length keeps exactly the first length-k steps (counted from the predictor) unchanged; with k >= length it raises ValueError and changes nothing; without shrink_by at least one step is removed and the predictor is kept, and a single-step pipeline is rejected with ValueError.", "quantifier": "all individuals and k, all draws", "why_tests_cant": "all lengths and k", "anchors": ["gama/genetic_programming/mutation.py:mut_shrink"]}
{"id": "C08", "title": "Insertion adds exactly one preprocessing step", "statement": "mut_insert adds exactly one new preprocessor from the search space somewhere below the predictor; all existing steps keep their order, hyperparameters and the predictor stays the predictor.", "quantifier": "all individuals, search spaces and draws", "why_tests_cant": "all positions and draws", "anchors": ["gama/genetic_programming/mutation.py:mut_insert"]}
{"id": "C09", "title": "Terminal mutation changes exactly one hyperparameter value", "statement": "mut_replace_terminal changes exactly one hyperparameter value of the pipeline to a different value declared for the same hyperparameter, and changes nothing else; it raises ValueError exactly when no hyperparameter of the pipeline has more than one declared value.", "quantifier": "all individuals, search spaces and draws", "why_tests_cant": "all draws", "anchors": ["gama/genetic_programming/mutation.py:mut_replace_terminal", "gama/genetic_programming/components/individual.py:Individual.replace_terminal"]}
{"id": "C10", "title": "Primitive mutation replaces exactly one step by a different algorithm of the same type", "statement": "mut_replace_primitive replaces exactly one step with a different primitive with the same output type and freshly drawn hyperparameters; all other steps are kept unchanged and in order.", "quantifier": "all individuals, search spaces and draws", "why_tests_cant": "all draws", "anchors": ["gama/genetic_programming/mutation.py:mut_replace_primitive", "gama/genetic_programming/components/individual.py:Individual.replace_primitive"]}
{"id": "C11", "title": "Terminal crossover swaps one pair of hyperparameter values", "statement": "crossover_terminals exchanges exactly one hyperparameter value of ind1 with one of ind2; both belong to the same hyperparameter and have different values; everything else in both pipelines is unchanged.", "quantifier": "all pairs of node-disjoint individuals and all draws", "why_tests_cant": "all pairs and draws", "anchors": ["gama/genetic_programming/crossover.py:crossover_terminals", "gama/genetic_programming/crossover.py:_shared_terminals"]}
{"id": "C12", "title": "Primitive crossover exchanges preprocessing tails", "statement": "crossover_primitives exchanges non-empty preprocessing tails of two node-disjoint pipelines of length >= 2: each child keeps its own predictor, no step is lost or duplicated, and the total length is conserved.", "quantifier": "all pairs of node-disjoint individuals and all draws", "why_tests_cant": "all pairs and draws", "anchors": ["gama/genetic_programming/crossover.py:crossover_primitives"]}
{"id": "C13", "title": "replace_terminal rejects bad requests without side effects", "statement": "replace_terminal(position, t) replaces exactly the terminal at `position` when it belongs to the same hyperparameter as t, and raises ValueError without changing anything when the hyperparameter differs or when position is out of range.", "quantifier": "all individuals, positions and terminals", "why_tests_cant": "boundary position found only by exhaustive position choice", "anchors": ["gama/genetic_programming/components/individual.py:Individual.replace_terminal"]}
{"id": "C14", "title": "replace_primitive only replaces", "statement": "replace_primitive(position, node) replaces exactly the step at `position` by a node of the same output type and never adds, drops or reorders steps; it rejects a node with a different output type without changing anything.", "quantifier": "all individuals, positions and nodes", "why_tests_cant": "boundary position", "anchors": ["gama/genetic_programming/components/individual.py:Individual.replace_primitive"]}
{"id": "C15", "title": "A valid mutation always exists", "statement": "random_valid_mutation_in_place succeeds on every individual that conforms to the search space.", "quantifier": "all conforming individuals, all max_length >= 1", "why_tests_cant": "only particular shapes of individual and max_length fail", "anchors": ["gama/genetic_programming/mutation.py:random_valid_mutation_in_place"]}
{"id": "C16", "title": "OperatorSet.mutate repairs over-long individuals", "statement": "OperatorSet.mutate on an individual longer than max_pipeline_length returns an individual of length max_pipeline_length.", "quantifier": "all over-long individuals", "why_tests_cant": "needs an over-long individual (only warm_start gives one)", "anchors": ["gama/genetic_programming/operator_set.py:OperatorSet.mutate", "gama/genetic_programming/mutation.py:random_valid_mutation_in_place"]}
{"id": "C17", "title": "Duplicate avoidance", "statement": "mate/mutate return an individual whose pipeline was not evaluated before, unless max_retry attempts in a row all gave an already evaluated pipeline, in which case the last attempt is returned; the operator is called at least once and at most max_retry times.", "quantifier": "all evaluation histories, all sequences of operator results, all max_retry >= 1", "why_tests_cant": "all histories", "anchors": ["gama/genetic_programming/operator_set.py:OperatorSet.try_until_new"]}
{"id": "C18", "title": "Mating is attempted only when a crossover exists", "statement": "_valid_crossover_functions lists crossover_terminals exactly when the two individuals share a hyperparameter with different values, and crossover_primitives exactly when both have at least two steps; random_crossover raises ValueError exactly when the list is empty (or the length limit is exceeded) and otherwise succeeds.", "quantifier": "all pairs of individuals and draws", "why_tests_cant": "all pairs", "anchors": ["gama/genetic_programming/crossover.py:_valid_crossover_functions", "gama/genetic_programming/crossover.py:random_crossover", "gama/genetic_programming/selection.py:create_from_population"]}
{"id": "C19", "title": "Pipeline strings round-trip", "statement": "Individual.from_string(ind.pipeline_str(), pset) rebuilds exactly ind, for every individual over a search space in which names and value texts contain no '(' , ')' , '=' or ', ' and no primitive name contains 'data', and in which names and value texts are unique.", "quantifier": "all individuals of any length over any such search space", "why_tests_cant": "string ambiguity only appears for particular names, values or nestings", "anchors": ["gama/genetic_programming/components/primitive_node.py:PrimitiveNode.__str__", "gama/genetic_programming/components/primitive_node.py:PrimitiveNode.from_string", "gama/genetic_programming/components/terminal.py:Terminal.__repr__", "gama/genetic_programming/components/individual.py:Individual.from_string"]}
{"id": "C20", "title": "Strict parsing rejects incomplete pipelines", "statement": "from_string with strict=True raises ValueError for a pipeline string in which some primitive lacks a declared hyperparameter, and with strict=False accepts it with the hyperparameters present.", "quantifier": "all pipeline strings printed from incomplete individuals", "why_tests_cant": "all shapes of incompleteness", "anchors": ["gama/genetic_programming/components/primitive_node.py:PrimitiveNode.from_string"]}
{"id": "C21", "title": "Pipeline strings round-trip for every value", "statement": "from_string(pipeline_str()) rebuilds the individual for every hyperparameter value a search space may contain (tuples, strings with '=' or ', ', ...).", "quantifier": "all hyperparameter values", "why_tests_cant": "the default configuration contains no such value", "anchors": ["gama/genetic_programming/components/primitive_node.py:PrimitiveNode.from_string"]}
{"id": "C22", "title": "The Pareto front never contains a dominated item", "statement": "After any sequence of update calls no item of the front is component-wise <= another item of the front (in particular the front has no two items with equal values).", "quantifier": "all sequences of updates with values of equal arity (including infinities and NaN)", "why_tests_cant": "all update orders", "anchors": ["gama/utilities/generic/paretofront.py:ParetoFront.update"]}
{"id": "C23", "title": "The Pareto front covers every item offered", "statement": "After any sequence of updates every item ever offered is itself in the front or is component-wise <= some item of the front, and every item of the front was offered.", "quantifier": "all sequences of updates", "why_tests_cant": "all update orders", "anchors": ["gama/utilities/generic/paretofront.py:ParetoFront.update", "gama/utilities/generic/paretofront.py:ParetoFront.__init__"]}
{"id": "C24", "title": "update reports whether the front changed", "statement": "update returns True exactly when the new item was added, False exactly when the front is left unchanged because an item of the front is at least as good in every component; an item of different arity raises ValueError and leaves the front unchanged.", "quantifier": "all fronts and items", "why_tests_cant": "all fronts", "anchors": ["gama/utilities/generic/paretofront.py:ParetoFront.update"]}
{"id": "C25", "title": "Elimination never removes an individual that dominates another", "statement": "eliminate_from_pareto(pop, 1) returns exactly one member of pop, and no other member of pop is at most as good in all objectives and worse in one; n != 1 raises NotImplementedError.", "quantifier": "all populations with fitness of equal arity and all draws", "why_tests_cant": "all populations and draws", "anchors": ["gama/genetic_programming/selection.py:eliminate_from_pareto"]}
{"id": "C26", "title": "Elimination keeps the best scoring individual", "statement": "eliminate_from_pareto never selects the individual with the strictly best first objective while the population has another member.", "quantifier": "all populations and draws", "why_tests_cant": "depends on the trade-off between score and length", "anchors": ["gama/genetic_programming/selection.py:eliminate_from_pareto", "gama/search_methods/async_ea.py:async_ea"]}
{"id": "C27", "title": "Non-dominated sorting partitions the population into fronts", "statement": "fast_non_dominated_sort returns fronts which together contain every individual exactly once; no individual of a front is dominated by one of the same or a later front; every individual outside the first front is dominated by one of the front directly before it.", "quantifier": "all populations of any size and any metric values", "why_tests_cant": "all dominance graphs", "anchors": ["gama/genetic_programming/nsga2.py:fast_non_dominated_sort", "gama/genetic_programming/nsga2.py:NSGAMeta.dominates"]}
{"id": "C28", "title": "nsga2 selects exactly n individuals, earlier fronts first", "statement": "nsga2(population, n, metrics) returns exactly n distinct members (positions) of the population, and if it returns a member of a later front it returns all members of every earlier front; n = 0 or n > len(population) raises ValueError.", "quantifier": "all populations, n and metric values", "why_tests_cant": "all dominance structures", "anchors": ["gama/genetic_programming/nsga2.py:nsga2"]}
{"id": "C29", "title": "Parent pairs consist of two different parents", "statement": "nsga2_select(population, n, metrics) returns exactly n pairs, each of two different members (positions) of the population; fewer than 3 individuals raises ValueError.", "quantifier": "all populations, n and draws", "why_tests_cant": "all draws", "anchors": ["gama/genetic_programming/nsga2.py:nsga2_select"]}
{"id": "C30", "title": "Rank reflects the front an individual belongs to", "statement": "After fast_non_dominated_sort an individual in an earlier front has a strictly smaller rank than one in a later front, so tournaments prefer it.", "quantifier": "all populations", "why_tests_cant": "shows only for particular pairs of fronts", "anchors": ["gama/genetic_programming/nsga2.py:fast_non_dominated_sort", "gama/genetic_programming/nsga2.py:NSGAMeta.crowd_compare"]}
{"id": "C31", "title": "Crowding distance favours the extremes", "statement": "crowding_distance_assignment gives infinite distance to an individual with the smallest and to one with the largest value of every metric, and a finite non-negative distance otherwise.", "quantifier": "all fronts of finite metric values", "why_tests_cant": "all value distributions", "anchors": ["gama/genetic_programming/nsga2.py:crowding_distance_assignment"]}
{"id": "C32", "title": "The library keeps exactly the m best evaluations", "statement": "After any sequence of save_evaluation calls, top_evaluations together with other_evaluations contain every saved evaluation exactly once; top has min(m, number of successful evaluations) members, all successful, and no successful evaluation outside top is strictly better than one inside.", "quantifier": "all sequences of evaluations with non-NaN scores whose successful members belong to different individuals, all m including None and 0", "why_tests_cant": "all histories and ties", "anchors": ["gama/utilities/evaluation_library.py:EvaluationLibrary.save_evaluation"]}
{"id": "C33", "title": "n_best returns the best evaluations in order", "statement": "n_best(n) for n <= m returns the min(n, available) best successful evaluations in non-increasing score order, after any history.", "quantifier": "all histories and n", "why_tests_cant": "all histories", "anchors": ["gama/utilities/evaluation_library.py:EvaluationLibrary.n_best"]}
{"id": "C34", "title": "Predictions are kept for exactly the top evaluations", "statement": "After any history of evaluations of distinct individuals, every evaluation in the top can still produce the predictions (sampled) and estimators that were saved, every other evaluation holds none, and the cache directory contains exactly one file per top evaluation.", "quantifier": "all histories of distinct individuals, all m", "why_tests_cant": "all eviction orders", "anchors": ["gama/utilities/evaluation_library.py:EvaluationLibrary.save_evaluation", "gama/utilities/evaluation_library.py:Evaluation.to_disk", "gama/utilities/evaluation_library.py:Evaluation.remove_from_disk", "gama/utilities/evaluation_library.py:Evaluation.predictions"]}
{"id": "C35", "title": "Predictions stay available when an individual is evaluated again", "statement": "The guarantee of C34 for the top evaluations also holds when the same individual is successfully evaluated more than once (e.g. a second call of fit, warm start), and saving such an evaluation does not raise.", "quantifier": "all histories including repeated individuals", "why_tests_cant": "needs a repeated id that is later evicted", "anchors": ["gama/utilities/evaluation_library.py:Evaluation.to_disk", "gama/utilities/evaluation_library.py:Evaluation.remove_from_disk"]}
{"id": "C36", "title": "Every saved evaluation can be looked up", "statement": "After any history, lookup maps the pipeline string of every saved evaluation to the last evaluation saved for that string, and no other string is mapped.", "quantifier": "all histories", "why_tests_cant": "all histories", "anchors": ["gama/utilities/evaluation_library.py:EvaluationLibrary.save_evaluation"]}
{"id": "C37", "title": "Sample indices are valid and of the requested size", "statement": "determine_sample_indices selects exactly n distinct valid row indices when n is smaller than the number of predictions, keeps all predictions otherwise, and rejects calls that do not give exactly one of prediction_size and stratify.", "quantifier": "all n, sizes and draws", "why_tests_cant": "all sizes", "anchors": ["gama/utilities/evaluation_library.py:EvaluationLibrary.determine_sample_indices"]}
{"id": "C38", "title": "Every submitted job is delivered exactly once", "statement": "With no memory limit and results the worker accepts, under every interleaving of submissions, workers and waits: each future returned by wait_next was submitted and not returned before, and every submitted future is either already returned or still queued, running or finished-but-not-collected.", "quantifier": "all schedules of any number of workers", "why_tests_cant": "schedules cannot be enumerated by tests", "anchors": ["gama/utilities/generic/async_evaluator.py:AsyncEvaluator.submit", "gama/utilities/generic/async_evaluator.py:AsyncEvaluator.wait_next", "gama/utilities/generic/async_evaluator.py:evaluator_daemon"]}
{"id": "C39", "title": "A returned future carries the outcome of its own call", "statement": "The future returned by wait_next holds the result, or the exception, of executing exactly its own fn(*args, **kwargs).", "quantifier": "all schedules and jobs", "why_tests_cant": "result/job mismatch needs particular interleavings", "anchors": ["gama/utilities/generic/async_evaluator.py:AsyncEvaluator.wait_next", "gama/utilities/generic/async_evaluator.py:AsyncFuture.execute", "gama/utilities/generic/async_evaluator.py:evaluator_daemon"]}
{"id": "C40", "title": "wait_next fails only when nothing is outstanding", "statement": "wait_next raises RuntimeError exactly when every submitted future has been returned.", "quantifier": "all schedules", "why_tests_cant": "all schedules", "anchors": ["gama/utilities/generic/async_evaluator.py:AsyncEvaluator.wait_next"]}
{"id": "C41", "title": "No job is lost under a memory limit", "statement": "With a memory limit, every submitted future is still eventually delivered (possibly with an error) as long as workers keep running.", "quantifier": "all schedules with memory-triggered restarts", "why_tests_cant": "requires a kill at the wrong moment", "anchors": ["gama/utilities/generic/async_evaluator.py:AsyncEvaluator._control_memory_usage"]}
{"id": "C42", "title": "Arbitrary functions can be evaluated", "statement": "Any picklable function result is delivered by wait_next (the class documentation says arbitrary functions can be evaluated).", "quantifier": "all result values", "why_tests_cant": "depends on the truthiness and attributes of the result", "anchors": ["gama/utilities/generic/async_evaluator.py:evaluator_daemon"]}
{"id": "C43", "title": "Worker pool size stays between 1 and n_workers", "statement": "Inside the context the number of worker processes never exceeds n_workers and never drops below 1, whatever the memory usage; after __exit__ it is 0; entering twice raises RuntimeError.", "quantifier": "all memory readings, all sequences of waits, submits", "why_tests_cant": "all memory traces", "anchors": ["gama/utilities/generic/async_evaluator.py:AsyncEvaluator._control_memory_usage", "gama/utilities/generic/async_evaluator.py:AsyncEvaluator.__enter__", "gama/utilities/generic/async_evaluator.py:AsyncEvaluator.__exit__"]}
{"id": "C44", "title": "job_queue_size accounting", "statement": "Without worker kills, job_queue_size always equals (submitted - collected) - n_workers.", "quantifier": "all schedules", "why_tests_cant": "all schedules", "anchors": ["gama/utilities/generic/async_evaluator.py:AsyncEvaluator.submit", "gama/utilities/generic/async_evaluator.py:AsyncEvaluator.wait_next"]}
{"id": "C45", "title": "Population size never exceeds population_size", "statement": "At every step of async_ea the population has at most population_size members, each one a successfully evaluated individual of this run.", "quantifier": "all sequences of evaluation outcomes, restarts and eliminations", "why_tests_cant": "all histories", "anchors": ["gama/search_methods/async_ea.py:async_ea"]}
{"id": "C46", "title": "max_n_evaluations is respected", "statement": "async_ea with max_n_evaluations=N collects exactly N evaluations before returning (if not interrupted) and rejects N <= 0 with ValueError.", "quantifier": "all outcome sequences and restart patterns", "why_tests_cant": "all restart patterns", "anchors": ["gama/search_methods/async_ea.py:async_ea"]}
{"id": "C47", "title": "async_ea's result is non-empty after a successful evaluation", "statement": "If at least one individual was evaluated successfully, the population async_ea returns is not empty.", "quantifier": "all outcome sequences and restart patterns", "why_tests_cant": "needs a restart on the very last evaluation", "anchors": ["gama/search_methods/async_ea.py:async_ea"]}
{"id": "C48", "title": "Search works with any non-empty warm start", "statement": "async_ea started from any non-empty list of valid individuals keeps running until its budget is used up.", "quantifier": "all sizes of start_candidates and numbers of workers", "why_tests_cant": "depends on the ratio of candidates to workers", "anchors": ["gama/search_methods/async_ea.py:async_ea", "gama/genetic_programming/nsga2.py:nsga2_select"]}
{"id": "C49", "title": "fit can be called repeatedly", "statement": "A second fit call (without warm_start) continues from the population found by the first one.", "quantifier": "all first-run results", "why_tests_cant": "list aliasing between two calls", "anchors": ["gama/gama.py:Gama._search_phase", "gama/search_methods/async_ea.py:AsyncEA.search"]}
{"id": "C50", "title": "Random search reports every evaluated individual", "statement": "random_search's output contains exactly the individuals whose evaluation returned a result, in completion order, and stops after max_evaluations of them.", "quantifier": "all outcome sequences", "why_tests_cant": "all histories", "anchors": ["gama/search_methods/random_search.py:random_search"]}
{"id": "C51", "title": "ASHA promotes at most the best 1/eta of each rung", "statement": "In asha, the number of individuals promoted from a rung never exceeds floor(evaluated on that rung / reduction_factor), no evaluation result is promoted twice, and a promoted individual is the best not yet promoted one of its rung at that time.", "quantifier": "all histories of job completions", "why_tests_cant": "all histories", "anchors": ["gama/search_methods/asha.py:asha"]}
{"id": "C52", "title": "ASHA jobs run on existing rungs with the right resources", "statement": "Every job asha starts is at a rung between minimum_early_stopping_rate and max_rung with resource min(minimum_resource * eta^rung, maximum_resource); the top rung is never promoted from; an individual runs on a higher rung only after being evaluated on the rung below.", "quantifier": "all histories and parameters", "why_tests_cant": "all histories", "anchors": ["gama/search_methods/asha.py:asha"]}
{"id": "C53", "title": "ASHA returns the highest rung reached", "statement": "asha returns the individuals of the highest rung in which at least one individual has been evaluated.", "quantifier": "all histories and interruption points", "why_tests_cant": "all interruption points", "anchors": ["gama/search_methods/asha.py:asha"]}
{"id": "C54", "title": "The ensemble has the requested total weight", "statement": "With a non-empty library of scored models and ensemble_size >= 1, build_fit_ensemble gives an ensemble of total weight max(ensemble_size, min(10 or 1, available models)), every weight a positive integer, every member from the library.", "quantifier": "all libraries, sizes and scores", "why_tests_cant": "all libraries", "anchors": ["gama/postprocessing/ensemble.py:build_fit_ensemble", "gama/postprocessing/ensemble.py:Ensemble.build_initial_ensemble", "gama/postprocessing/ensemble.py:Ensemble.expand_ensemble", "gama/postprocessing/ensemble.py:Ensemble._add_model"]}
{"id": "C55", "title": "Greedy expansion is optimal at each step", "statement": "Each model added by expand_ensemble gives an ensemble score at least as high as adding any other library model would, and the recorded score is the score of the weighted average including that model.", "quantifier": "all libraries, predictions and scoring functions", "why_tests_cant": "all libraries", "anchors": ["gama/postprocessing/ensemble.py:Ensemble.expand_ensemble"]}
{"id": "C56", "title": "Ensemble predictions are weighted means", "statement": "The prediction of a fitted ensemble for a row lies between the smallest and largest prediction of its members for that row, and class probabilities stay non-negative and sum to one.", "quantifier": "all member predictions and weights", "why_tests_cant": "all values", "anchors": ["gama/postprocessing/ensemble.py:Ensemble._get_weighted_mean_predictions"]}
{"id": "C57", "title": "Ensembles can be built for any hillclimb_size", "statement": "EnsembleClassifier can be constructed for every library sample size and every downsample_to, with y aligned to the stored predictions.", "quantifier": "all sizes", "why_tests_cant": "default sizes hide it", "anchors": ["gama/postprocessing/ensemble.py:EnsembleClassifier.__init__", "gama/postprocessing/ensemble.py:Ensemble.__init__"]}
{"id": "C58", "title": "Compiled pipelines apply preprocessing first and the predictor last", "statement": "compile_individual yields preprocessing_steps in the given order, then the individual's steps from the one nearest the data to the predictor, with every step built with exactly its own hyperparameters; step names are unique whenever those of preprocessing_steps are and none of these is the number of a step.", "quantifier": "all individuals and preprocessing steps", "why_tests_cant": "all lengths", "anchors": ["gama/genetic_programming/compilers/scikitlearn.py:compile_individual", "gama/genetic_programming/compilers/scikitlearn.py:primitive_node_to_sklearn"]}
{"id": "C59", "title": "Validation predictions come from models that did not see the row", "statement": "In evaluate_pipeline without subsampling, the prediction stored for each row is made by the estimator whose training set does not contain the row, and every row gets exactly one prediction.", "quantifier": "all splits that partition the rows, all models", "why_tests_cant": "all splits", "anchors": ["gama/genetic_programming/compilers/scikitlearn.py:evaluate_pipeline"]}
{"id": "C60", "title": "Subsampled evaluation trains only on training rows", "statement": "With `subsample`, each fold's estimator is trained on a subset of that fold's training rows (never on its test rows).", "quantifier": "all splits and subsamples", "why_tests_cant": "depends on the split layout", "anchors": ["gama/genetic_programming/compilers/scikitlearn.py:evaluate_pipeline"]}
{"id": "C61", "title": "Failed evaluations score -inf", "statement": "evaluate_pipeline returns -inf for every metric whenever it reports an error.", "quantifier": "all points at which fitting, scoring, predicting or the timeout can fail", "why_tests_cant": "all failure points", "anchors": ["gama/genetic_programming/compilers/scikitlearn.py:evaluate_pipeline"]}
{"id": "C62", "title": "Scores have one entry per metric plus length", "statement": "evaluate_individual returns a score with one entry per metric, followed by minus the number of steps iff add_length_to_score, stores the same tuple as the individual's fitness, and never lets the evaluation run past timeout or deadline.", "quantifier": "all individuals, outcomes, timeouts and deadlines", "why_tests_cant": "all combinations", "anchors": ["gama/genetic_programming/compilers/scikitlearn.py:evaluate_individual"]}
{"id": "C63", "title": "The parsed search space contains exactly what was configured", "statement": "pset_from_config registers for each algorithm exactly one primitive of the right type listing all its hyperparameters, and for each hyperparameter exactly the configured values; unknown keys raise TypeError.", "quantifier": "all configurations", "why_tests_cant": "all configurations", "anchors": ["gama/configuration/parser.py:pset_from_config"]}
{"id": "C64", "title": "Merging configurations keeps every option and does not modify its inputs", "statement": "merge_configurations(c1, c2) contains every option of both and leaves c1 and c2 unchanged.", "quantifier": "all configurations", "why_tests_cant": "aliasing of nested dictionaries", "anchors": ["gama/configuration/parser.py:merge_configurations"]}
{"id": "C65", "title": "param_check restrictions are enforced", "statement": "No generated pipeline violates a param_check of the search space.", "quantifier": "all search spaces and draws", "why_tests_cant": "random sampling may miss it", "anchors": ["gama/configuration/parser.py:pset_from_config", "gama/gama.py:Gama.__init__"]}
{"id": "C66", "title": "Unlabelled rows are dropped and rows stay aligned", "statement": "format_x_y keeps exactly the rows whose label is not missing, in order, and feature row i still belongs to label i.", "quantifier": "all data with x and y sharing the same unique index, any pattern of missing labels", "why_tests_cant": "all patterns", "anchors": ["gama/data_formatting.py:remove_unlabeled_rows", "gama/data_formatting.py:format_x_y"]}
{"id": "C67", "title": "Rows stay aligned for differently indexed x and y", "statement": "format_x_y keeps features and labels of the same position together whatever the pandas indices of x and y are.", "quantifier": "all indices", "why_tests_cant": "index permutations are not in the test data", "anchors": ["gama/data_formatting.py:remove_unlabeled_rows"]}
{"id": "C68", "title": "Every categorical feature gets exactly one encoder", "statement": "basic_encoding and basic_pipeline_extension together assign each categorical column exactly one of ordinal, one-hot and target encoding, by its number of factors, and no non-categorical column any.", "quantifier": "all data frames", "why_tests_cant": "all cardinalities", "anchors": ["gama/utilities/preprocessing.py:basic_encoding", "gama/utilities/preprocessing.py:basic_pipeline_extension", "gama/utilities/preprocessing.py:select_categorical_columns"]}
{"id": "C69", "title": "Predicted labels are the user's labels", "statement": "GamaClassifier.predict returns labels from the set of labels passed to fit: whatever the type of labels, decoding the model's output gives the original label.", "quantifier": "all label sets and model outputs", "why_tests_cant": "all label sets", "anchors": ["gama/GamaClassifier.py:GamaClassifier.fit", "gama/GamaClassifier.py:GamaClassifier._predict"]}
{"id": "C70", "title": "The target column is separated from the features", "statement": "X_y_from_file returns the named (or last) column as y and all other columns, in order, as x; an unknown name raises ValueError.", "quantifier": "all tables", "why_tests_cant": "all tables", "anchors": ["gama/data_loading.py:X_y_from_file"]}
{"id": "C71", "title": "Invalid hyperparameters are rejected and leave nothing behind", "statement": "Gama.__init__ raises ValueError exactly when max_total_time is missing or not positive, max_eval_time is not positive, n_jobs is 0 or below -1, or the output directory is non-empty; when it rejects times or n_jobs the output directory is removed.", "quantifier": "all argument values", "why_tests_cant": "all values", "anchors": ["gama/gama.py:Gama.__init__", "gama/gama.py:Gama.cleanup"]}
{"id": "C72", "title": "Default n_jobs is always usable", "statement": "With n_jobs=None, Gama can be constructed on every machine.", "quantifier": "all cpu counts", "why_tests_cant": "depends on the machine", "anchors": ["gama/gama.py:Gama.__init__"]}
{"id": "C73", "title": "Default max_eval_time is positive", "statement": "With max_eval_time=None every allowed max_total_time gives an evaluation time limit under which pipelines can be evaluated.", "quantifier": "all positive max_total_time", "why_tests_cant": "boundary values", "anchors": ["gama/gama.py:Gama.__init__", "gama/genetic_programming/compilers/scikitlearn.py:evaluate_pipeline"]}
{"id": "C74", "title": "store decides what is left on disk", "statement": "After a successful fit the output directory contains: nothing (and is gone) for 'nothing', exactly the log files for 'logs', exactly the model cache for 'models', both for 'all'.", "quantifier": "all sets of log and cache files", "why_tests_cant": "all directory contents", "anchors": ["gama/gama.py:Gama.fit", "gama/gama.py:Gama.cleanup"]}
{"id": "C75", "title": "Callback failures are isolated", "statement": "On each completed evaluation every registered callback is called exactly once, in registration order, whatever exceptions other callbacks raise, unless a timeout occurs.", "quantifier": "all callback lists and behaviours", "why_tests_cant": "all behaviours", "anchors": ["gama/gama.py:Gama._on_evaluation_completed", "gama/gama.py:Gama._safe_outside_call"]}
{"id": "C76", "title": "The best individual of the final population becomes the model", "statement": "With BestFitPostProcessing fit trains the pipeline of an individual whose fitness is maximal (lexicographically) in the final population.", "quantifier": "all final populations", "why_tests_cant": "all populations", "anchors": ["gama/gama.py:Gama.fit", "gama/postprocessing/best_fit.py:BestFitPostProcessing.post_process"]}
{"id": "C77", "title": "Instances do not interfere", "statement": "An instance's fit uses its own n_jobs and memory limit, whatever other instances were created.", "quantifier": "all creation and fit orders", "why_tests_cant": "needs several instances", "anchors": ["gama/gama.py:Gama.__init__", "gama/utilities/generic/async_evaluator.py:AsyncEvaluator.__init__"]}
{"id": "C78", "title": "Time accounting", "statement": "total_time_remaining equals the total minus the time spent in all started activities; for consecutive activities it is never less than the total minus the wall time since the start.", "quantifier": "all monotone clocks and sequences of activities", "why_tests_cant": "all clocks", "anchors": ["gama/utilities/generic/timekeeper.py:TimeKeeper", "gama/utilities/generic/stopwatch.py:Stopwatch"]}
{"id": "C79", "title": "No activity is current after it ends", "statement": "After leaving an activity (normally or through an exception) no activity is in progress.", "quantifier": "all bodies", "why_tests_cant": "needs an exception in the body", "anchors": ["gama/utilities/generic/timekeeper.py:TimeKeeper.start_activity"]}
{"id": "C80", "title": "Evaluation log lines can be read back", "statement": "Each logged evaluation occupies one line whose fields, split at the separator, are exactly the logged values, as long as no value contains the separator or a newline.", "quantifier": "all field values", "why_tests_cant": "all values", "anchors": ["gama/logging/evaluation_logger.py:EvaluationLogger.log_line"]}
{"id": "C81", "title": "Error messages do not corrupt the log", "statement": "The statement of C80 for every evaluation, including failed ones with arbitrary error messages.", "quantifier": "all error messages", "why_tests_cant": "depends on messages of third-party libraries", "anchors": ["gama/logging/evaluation_logger.py:EvaluationLogger.log_evaluation"]}
{"id": "C82", "title": "A report sees every logged evaluation once", "statement": "After any interleaving of complete log writes and GamaReport.update calls (on an unfinished log), the report contains every line logged before the last update exactly once, in order, numbered 0,1,2,...", "quantifier": "all interleavings", "why_tests_cant": "all interleavings", "anchors": ["gama/logging/GamaReport.py:GamaReport.update"]}
{"id": "C83", "title": "GamaReport reads the INIT line of this version", "statement": "init_to_hps parses the INIT line written by Gama.__init__.", "quantifier": "all search spaces", "why_tests_cant": "the test uses static logs of old versions", "anchors": ["gama/logging/GamaReport.py:init_to_hps", "gama/gama.py:Gama.__init__"]}
{"id": "C84", "title": "At most one console handler", "statement": "After any number of register_stream_log calls there is exactly one tagged stream handler, with the last verbosity, and handlers not registered by GAMA are kept.", "quantifier": "all call sequences", "why_tests_cant": "all sequences", "anchors": ["gama/logging/utility_functions.py:register_stream_log"]}
{"id": "C85", "title": "User-set hyperparameters win over dynamic and static defaults", "statement": "hyperparameters returns for each name the user's value if one was given (including None where None is documented as a value), else the dynamic default if set, else the static default.", "quantifier": "all names, values and sequences of overwrites", "why_tests_cant": "all sequences", "anchors": ["gama/search_methods/base_search.py:BaseSearch.hyperparameters", "gama/postprocessing/base_post_processing.py:BasePostProcessing.hyperparameters"]}
{"id": "C86", "title": "scoring accepts every iterable of metrics", "statement": "scoring_to_metric returns one Metric per given scorer, in order, for every iterable of strings or Metrics, and raises TypeError for anything else.", "quantifier": "all iterables", "why_tests_cant": "one-shot iterables", "anchors": ["gama/utilities/metrics.py:scoring_to_metric"]}
{"id": "C87", "title": "Probability metrics exclude classifiers without predict_proba", "statement": "If any metric needs probabilities, no classifier lacking predict_proba is in the search space; otherwise the search space is unchanged.", "quantifier": "all search spaces and metrics", "why_tests_cant": "all search spaces", "anchors": ["gama/GamaClassifier.py:GamaClassifier.__init__"]}
{"id": "C88", "title": "The exported script has the fitted pipeline's steps", "statement": "export_script's pipeline for BestFit lists the encoding steps, the fixed preprocessing steps and then the individual's steps, in the order and under the names in which they are applied by the fitted model.", "quantifier": "all individuals and preprocessing steps", "why_tests_cant": "all lengths", "anchors": ["gama/postprocessing/best_fit.py:BestFitPostProcessing.to_code", "gama/utilities/export.py:imports_and_steps_for_individual", "gama/gama.py:Gama.export_script"]}
{"id": "C89", "title": "ARFF metadata loading terminates", "statement": "load_feature_metadata_from_arff terminates on every file.", "quantifier": "all files", "why_tests_cant": "a test that does not terminate is never written", "anchors": ["gama/data_loading.py:load_feature_metadata_from_arff"]}
{"id": "C90", "title": "The command line honours its options", "statement": "For every accepted command line: the mode is the requested one or derived from the target type, -sep is used for csv files, the given file is the one read.", "quantifier": "all command lines and files", "why_tests_cant": "all combinations", "anchors": ["gama/utilities/cli.py:main"]}
{"id": "C91", "title": "New individuals are valid, fresh and within the start length", "statement": "OperatorSet.individual returns a pipeline of the search space with at least one step and at most max_pipeline_length steps (three without a limit), a fresh id, no parents and origin 'new', and changes no existing individual; a limit below one is a ValueError.", "quantifier": "all search spaces, limits, random numbers and populations", "why_tests_cant": "all random choices and search spaces", "anchors": ["gama/genetic_programming/operator_set.py:OperatorSet.individual", "gama/genetic_programming/operations.py:create_random_expression", "gama/gama.py:Gama.__init__"]}
{"id": "C92", "title": "mutate and mate return what they log", "statement": "The individual returned by OperatorSet.mutate differs from its recorded parent by exactly one mutation, the one whose name is recorded as origin; the individual returned by OperatorSet.mate is an offspring of a crossover of its two recorded parents, in that order, with origin 'cx'; ids are fresh.", "quantifier": "all individuals, limits, retries, evaluated sets and random numbers", "why_tests_cant": "all random choices and parents", "anchors": ["gama/genetic_programming/operator_set.py:OperatorSet.mutate", "gama/genetic_programming/operator_set.py:OperatorSet.mate"]}
{"id": "C93", "title": "Every pipeline and every change is possible", "statement": "For every pipeline of the search space within the length limits there are random numbers for which creation returns it; for every single mutation (any position, any alternative value, algorithm or length) and every crossover there are random numbers for which it is the one performed; random_valid_mutation_in_place can choose each of them (replacements when the pipeline has at least two replaceable places).", "quantifier": "all search spaces, individuals and target pipelines", "why_tests_cant": "existence of a random sequence for each of unboundedly many outcomes", "anchors": ["gama/genetic_programming/operations.py:create_random_expression", "gama/genetic_programming/mutation.py:random_valid_mutation_in_place", "gama/genetic_programming/crossover.py:random_crossover"]}
{"id": "C94", "title": "Guessing categorical columns", "statement": "For numpy and csv input every column of objects, and every numeric column of whole numbers with at most ten different values, becomes categorical; no other column does, no value changes, and the call never fails.", "quantifier": "all tables with columns of any dtype", "why_tests_cant": "All dtypes, numbers of distinct values and patterns of missing values matter; tests cover a few columns.", "anchors": ["gama/data_formatting.py:series_looks_categorical", "gama/data_formatting.py:infer_categoricals_inplace", "gama/data_formatting.py:numpy_to_dataframe"]}
{"id": "C95", "title": "Listed column names can be used", "statement": "Every column name reported by load_feature_metadata_from_file for a file is accepted as split_column by X_y_from_file for that file.", "quantifier": "all csv files", "why_tests_cant": "Depends on every header, separator and file name.", "anchors": ["gama/data_loading.py:load_csv_header", "gama/data_loading.py:load_feature_metadata_from_file", "gama/data_loading.py:X_y_from_file"]}
{"id": "C96", "title": "Targets of every accepted shape give one label per row", "statement": "format_y turns a vector, indicator matrix, Series or table into the labels of the rows: the entries, the positions of the indicators, or the first column.", "quantifier": "all accepted targets", "why_tests_cant": "All shapes and sizes, including a single row.", "anchors": ["gama/data_formatting.py:format_y", "gama/data_formatting.py:format_x_y"]}
{"id": "C97", "title": "The exported ensemble script has every member", "statement": "export_script for an ensemble defines one pipeline per distinct member, in order, with the member's weight; the fixed preprocessing followed by that pipeline has the steps the fitted member applies, under the same names, and every class used is imported, except classes of a private top-level module (see C88).", "quantifier": "all ensembles and preprocessing steps", "why_tests_cant": "A test exports a few ensembles; the correspondence must hold for every member list, weight and step list.", "anchors": ["gama/postprocessing/ensemble.py:EnsemblePostProcessing.to_code", "gama/utilities/export.py:imports_and_steps_for_individual", "gama/utilities/export.py:format_pipeline"]}
{"id": "C98", "title": "A report shows the logged scores", "statement": "For every log written by GAMA, GamaReport can be constructed and its metric columns hold, for each evaluation, the scores it was logged with, in order.", "quantifier": "all logged scores and scoring settings", "why_tests_cant": "the tests use a few static logs with two metrics", "anchors": ["gama/logging/GamaReport.py:GamaReport.update", "gama/logging/evaluation_logger.py:EvaluationLogger.log_evaluation"]}
{"id": "C99", "title": "A report recovers the phases of a run", "statement": "The phases of a GamaReport are the activities that finished according to gama.log, in order, with name, algorithm and duration; the report counts as incomplete exactly when fewer than three activities finished.", "quantifier": "all logs made of INIT, STOP and other lines", "why_tests_cant": "all logs", "anchors": ["gama/logging/GamaReport.py:GamaReport.__init__", "gama/utilities/generic/timekeeper.py:TimeKeeper.start_activity"]}
{"id": "C100", "title": "A log file describes one instance", "statement": "The gama.log in an instance's output directory contains that instance's messages and no other's.", "quantifier": "all sequences of instances and messages", "why_tests_cant": "needs several instances in one process", "anchors": ["gama/gama.py:Gama.__init__"]}
{"id": "C101", "title": "fit can be repeated", "statement": "After a successful fit the same instance can be fitted again, whatever value store has: a second fit does not fail because of what the first one removed, and keeps the best evaluations readable.", "quantifier": "all store values, directories, searches and evaluation histories", "why_tests_cant": "needs every store value and every history", "anchors": ["gama/gama.py:Gama.fit", "gama/gama.py:Gama.cleanup", "gama/utilities/generic/async_evaluator.py:AsyncEvaluator.__enter__", "gama/utilities/evaluation_library.py:EvaluationLibrary.save_evaluation"]}
{"id": "C102", "title": "The time budget is split", "statement": "The search is given (1 - fraction) of the time left after preprocessing, rounded down to whole seconds, so that search and post-processing together never get more than what is left; with no time left fit raises RuntimeError.", "quantifier": "all fractions in [0, 1] and remaining times", "why_tests_cant": "all times", "anchors": ["gama/gama.py:Gama.fit"]}
{"id": "C103", "title": "Warm start and final population", "statement": "The search starts from warm_start if it has individuals (TypeError if it has anything else), from the final population of the previous fit if warm_start is None, else from 50 new individuals; the final population is the search's output also if the search ran out of time or was interrupted by the user.", "quantifier": "all warm starts, previous populations and search outcomes", "why_tests_cant": "all lists and outcomes", "anchors": ["gama/gama.py:Gama._search_phase"]}
{"id": "C104", "title": "Large data excludes exactly the memory hungry components", "statement": "A fit that stores pipelines searches without KNN models iff the data has more than 6,000,000 cells and without PolynomialFeatures iff it has more than 50 columns; everything else stays in the search space.", "quantifier": "all data sizes, search spaces and sequences of fits", "why_tests_cant": "all sizes; needs several fits", "anchors": ["gama/gama.py:Gama.fit"]}
{"id": "C105", "title": "Search keeps its workers supplied", "statement": "Whenever a search method waits for a result, at least as many evaluations are outstanding as there are workers, provided it was given that many candidates to start from.", "quantifier": "all search methods, numbers of workers, start candidates, outcomes, orders of completion and interruption points", "why_tests_cant": "a worker without work is invisible in the results, and every order of completion has to be covered", "anchors": ["gama/search_methods/async_ea.py:async_ea", "gama/search_methods/random_search.py:random_search", "gama/search_methods/asha.py:asha", "gama/utilities/generic/async_evaluator.py:AsyncEvaluator.job_queue_size"]}
{"id": "C106", "title": "Stopping a search keeps its results", "statement": "When the time limit or Ctrl-C stops a search, the search phase ends without an exception and the evaluated individuals collected so far are kept, but for at most the one collected last.", "quantifier": "all search methods, histories and interruption points", "why_tests_cant": "the interruption may arrive between any two statements", "anchors": ["gama/gama.py:Gama._search_phase", "gama/search_methods/base_search.py:BaseSearch.output"]}
{"id": "C107", "title": "Who joins and who leaves the population", "statement": "In async_ea a failed evaluation leaves the population unchanged; a successful one joins it, and if the population was full exactly one member leaves, one that is not better than any other member (it dominates none); no individual is ever in it twice.", "quantifier": "all histories of evaluation outcomes, all populations and random choices", "why_tests_cant": "all histories and choices", "anchors": ["gama/search_methods/async_ea.py:async_ea", "gama/genetic_programming/selection.py:eliminate_from_pareto"]}
{"id": "C108", "title": "Evaluation on part of the rows and the row labels of y", "statement": "Evaluating a pipeline on a part of the rows (as the successive-halving search does) works for every pandas index of y: whether it succeeds, and the targets the stratified sample is drawn by, depend on the rows of y and not on how they are labelled.", "quantifier": "all row labels of y, folds, sample sizes, pipelines and metrics", "why_tests_cant": "test data is loaded with the default labels, under which a look-up by label and by position agree; only labels left behind by dropping or shuffling rows tell them apart", "anchors": ["gama/genetic_programming/compilers/scikitlearn.py:evaluate_pipeline", "gama/data_formatting.py:remove_unlabeled_rows"]}
{"id": "C109", "title": "Predictions use the numbers that are given", "statement": "predict, predict_proba and score on a numpy array use the values of the array: same rows, columns and order; a value is only changed by the documented rule that a categorical value never seen in training counts as missing. Arrays with too few columns are refused.", "quantifier": "every fitted object, every column type found in training, every array and every converter of text to numbers", "why_tests_cant": "the training column's type decides what happens to each later value, so a test sees only the pairs of training and prediction arrays it happens to use (all shipped tests predict with the same kind of values as in training)", "anchors": ["gama/gama.py: _np_to_matching_dataframe, _prepare_for_prediction, predict", "gama/data_formatting.py: infer_categoricals_inplace"]}
{"id": "C110", "title": "Training rows look the same when predicted", "statement": "If the array that was used to fit is given to predict, every row that was trained on reaches the encoders and the model with the same column names, types and values as in training, also when rows without a target were dropped.", "quantifier": "every array of integers, floats or objects, every target with missing values", "why_tests_cant": "the two code paths (fit and predict) convert the array independently; agreement must hold for every mix of types, distinct values and missing values", "anchors": ["gama/gama.py: _np_to_matching_dataframe, fit", "gama/data_formatting.py: format_x_y, numpy_to_dataframe, infer_categoricals_inplace, remove_unlabeled_rows"]}
{"id": "C111", "title": "One prediction per row, independent of the other rows", "statement": "predict returns one answer per row in the order of the rows; the answer for a row is the same as when that row is predicted alone; a classifier's answers are labels from the training targets.", "quantifier": "every fitted encoder and model that treat rows by themselves, every DataFrame with the training header, every accepted array", "why_tests_cant": "depends on the decoding of predictions, which looks at the first prediction only; holds for every batch and position, not for a sampled one", "anchors": ["gama/gama.py: predict", "gama/GamaClassifier.py: _predict"]}
{"id": "C112", "title": "score() reports the chosen metric", "statement": "score(x, y) is the value of the first metric in scoring on the predictions for x, the same value (with the same orientation) that the search maximises.", "quantifier": "every metric (with any arguments and sign), every fitted object, data and targets", "why_tests_cant": "a test checks a few metrics on a few data sets; whether arguments and sign reach the function depends on the metric, the number of classes and their names", "anchors": ["gama/gama.py: score", "gama/utilities/metrics.py: Metric.__init__, maximizable_score, __call__"]}
{"id": "C113", "title": "The ensemble is tuned for the chosen metric", "statement": "The post-processing ensemble is built by maximising the metric the user chose.", "quantifier": "every library of evaluations, metric, target and ensemble size", "why_tests_cant": "an error in the metric is caught and logged and shows only at prediction time; the failure depends on metric and number of classes", "anchors": ["gama/postprocessing/ensemble.py: EnsembleClassifier._ensemble_validation_score, EnsembleRegressor._ensemble_validation_score, build_fit_ensemble, Ensemble.predict", "gama/utilities/metrics.py: maximizable_score"]}
{"id": "C114", "title": "The options of the ensemble are honoured", "statement": "EnsemblePostProcessing(ensemble_size, hillclimb_size, max_models) builds an ensemble of ensemble_size members (counting weights) from at most max_models models, tuned on at most hillclimb_size rows.", "quantifier": "every search history, option values, metric and targets", "why_tests_cant": "an option without effect is invisible unless one compares all pairs of values", "anchors": ["gama/postprocessing/ensemble.py: EnsemblePostProcessing.__init__, post_process, build_fit_ensemble, Ensemble.__init__"]}
{"id": "C115", "title": "Calls on files agree with calls on data in memory", "statement": "predict_from_file, predict_proba_from_file and score_from_file give what predict, predict_proba and score give for the DataFrame of the file's columns other than the target; the target's values do not matter for predictions; options are passed to the reader.", "quantifier": "every file content, reader options, target column and fitted object", "why_tests_cant": "tests use a few files with the target in the last column", "anchors": ["gama/gama.py: predict_from_file, score_from_file", "gama/GamaClassifier.py: predict_proba_from_file", "gama/data_loading.py: X_y_from_file, file_to_pandas"]}
{"id": "C116", "title": "A successful fit answers with a model built in that fit", "statement": "If fit returns normally, the object afterwards predicts with a model that post-processing built, in this call, from the individuals the search of this call left (best first) and from the encoded labelled rows of the data given to this call; predictions go through the encoders, column types and classes determined in this same call, whatever was fitted before.", "quantifier": "every GAMA object with any history of earlier fits, every data set, target form, search outcome, clock and post-processing result", "why_tests_cant": "Histories of fits are unbounded; a test fixes one history, one data set and one schedule.", "anchors": ["gama/gama.py:Gama.fit", "gama/gama.py:Gama._search_phase", "gama/GamaClassifier.py:GamaClassifier.fit", "gama/postprocessing/best_fit.py:BestFitPostProcessing.post_process"]}
{"id": "C117", "title": "A fit that raises leaves earlier answers alone", "statement": "If a call of fit raises, later predictions are those of the last successful fit or raise; they never combine the old model with encoders, column types or class labels of the data of the failed call.", "quantifier": "every object with an earlier successful fit, every later call of fit that raises at any point", "why_tests_cant": "The exception may occur at any point of preprocessing, search or post-processing; tests inject a few.", "anchors": ["gama/gama.py:Gama.fit", "gama/GamaClassifier.py:GamaClassifier.fit", "gama/gama.py:Gama._prepare_for_prediction"]}
{"id": "C118", "title": "Time limits of the phases stay within max_total_time", "statement": "The limits given to the search and to post-processing are never negative and add up, with the time already used, to no more than max_total_time; the durations recorded for the phases are what they took.", "quantifier": "every max_total_time, post-processing share and every behaviour of the clock that does not go back", "why_tests_cant": "Depends on how long each phase happens to take; a test sees one timing.", "anchors": ["gama/gama.py:Gama.fit", "gama/utilities/generic/timekeeper.py:TimeKeeper"]}
{"id": "C119", "title": "Scoring functions are told the classes of the training targets", "statement": "A classifier tells its scoring functions exactly the class labels of the rows it is trained on, so that evaluations work whichever rows lack a target.", "quantifier": "every vector of targets, with or without missing values, of any length", "why_tests_cant": "Depends on which of arbitrarily many rows lack a target.", "anchors": ["gama/GamaClassifier.py:GamaClassifier.fit", "gama/gama.py:Gama.fit"]}
{"id": "C120", "title": "fit returns the fitted object", "statement": "Every call of fit that does not raise returns the object it was called on, as the scikit-learn convention and the annotation of Gama.fit promise.", "quantifier": "every classifier and regressor and every call of fit that succeeds", "why_tests_cant": "Must hold for all inputs and outcomes of the search.", "anchors": ["gama/gama.py:Gama.fit", "gama/GamaClassifier.py:GamaClassifier.fit"]}
{"id": "C121", "title": "Only individuals evaluated in this fit are considered", "statement": "The individuals handed to post-processing were all evaluated, with a result, during the search of the same call of fit.", "quantifier": "every search method, every start population, every order of completions, every failure and every point at which the search is stopped, in the first and in later fits", "why_tests_cant": "Ranges over schedules, stop points and histories of fits.", "anchors": ["gama/gama.py:Gama._search_phase", "gama/search_methods/async_ea.py:AsyncEA", "gama/search_methods/random_search.py:RandomSearch", "gama/search_methods/asha.py:AsynchronousSuccessiveHalving"]}
{"id": "C122", "title": "The shipped search spaces are usable", "statement": "Each configuration shipped with GAMA (the defaults of GamaClassifier and GamaRegressor and the test configuration) is accepted, offers at least one estimator and one preprocessing step, has a value for every hyperparameter, and writes every pipeline in a text that is read back as exactly that pipeline; so with it individuals can always be created and every individual of a search is read back from its text.", "quantifier": "every shipped configuration, every length limit, every sequence of search operations and random choices", "why_tests_cant": "The default configurations have millions of pipelines, and the claim ranges over all histories of operations on them.", "anchors": ["gama/configuration/classification.py:clf_config", "gama/configuration/regression.py:reg_config", "gama/configuration/testconfiguration.py:clf_config", "gama/configuration/parser.py:pset_from_config"]}
{"id": "C123", "title": "Every pipeline of a shipped search space can be mutated", "statement": "With a shipped configuration a random mutation of any pipeline succeeds, except under a length limit of one for the pipelines that consist of an estimator with fewer than two hyperparameters that can be changed.", "quantifier": "every shipped configuration, every pipeline of its search space, every length limit and every random choice", "why_tests_cant": "Millions of pipelines and unboundedly long ones.", "anchors": ["gama/genetic_programming/mutation.py:random_valid_mutation_in_place", "gama/configuration/classification.py:clf_config", "gama/configuration/regression.py:reg_config"]}
{"id": "C124", "title": "Combinations of hyperparameters the shipped configurations forbid", "statement": "The restrictions in the shipped configurations forbid for LinearSVC l1 with hinge or with the dual, and l2 with hinge without the dual; for FeatureAgglomeration ward linkage with a distance other than euclidean; for LogisticRegression l1 with the dual. No pipeline that breaks them is generated.", "quantifier": "every shipped configuration, every step of its search space, every random choice", "why_tests_cant": "Whether a forbidden combination can be generated ranges over all random choices.", "anchors": ["gama/configuration/classification.py:clf_config", "gama/configuration/regression.py:reg_config", "gama/configuration/parser.py:pset_from_config", "gama/genetic_programming/operations.py:create_random_expression"]}
{"id": "C125", "title": "Reports can be made of default searches, and importing reports changes nothing", "statement": "Importing the report module succeeds and gives a search space in which the text of every pipeline of a search with either default configuration is read back as that pipeline; the import leaves the default search spaces of GamaClassifier and GamaRegressor as they were and can be repeated.", "quantifier": "every pipeline of either default search space and every order in which sets are enumerated", "why_tests_cant": "Ranges over all pipelines of both default spaces and over the iteration order of sets, which depends on hashing.", "anchors": ["gama/logging/GamaReport.py", "gama/configuration/parser.py:merge_configurations", "gama/configuration/classification.py:clf_config", "gama/configuration/regression.py:reg_config"]}
{"id": "C126", "title": "The model of a fit is made of pipelines trained in that fit", "statement": "After fit, with an ensemble as post-processing, every pipeline of the model was trained successfully during that call, on the data given to that call.", "quantifier": "every sequence of calls of fit on one object, every evaluation completed in each of them, every size, metric and random choice", "why_tests_cant": "Ranges over all histories of fits and evaluations on one object.", "anchors": ["gama/gama.py:Gama.__init__", "gama/gama.py:Gama.fit", "gama/GamaClassifier.py:GamaClassifier.fit", "gama/utilities/evaluation_library.py:EvaluationLibrary", "gama/postprocessing/ensemble.py:build_fit_ensemble"]}
{"id": "C127", "title": "A search does not depend on how its processes are scheduled", "statement": "Without a memory limit, a search with any of the three search methods behaves, however its worker processes take turns and whichever of them die, like a search in which the evaluations finish one at a time: same result, same population, same sequence of submissions and results. The results collected are results of executing different submitted jobs, each reported with the individual and rung it was submitted for.", "quantifier": "every number of workers, every interleaving of main and worker processes including workers that die, every outcome of the evaluations, every moment at which the time limit arrives between two statements of the search", "why_tests_cant": "Ranges over all interleavings of several processes, over crashes and over all outcomes of evaluations.", "anchors": ["gama/search_methods/async_ea.py:async_ea", "gama/search_methods/random_search.py:random_search", "gama/search_methods/asha.py:asha", "gama/utilities/generic/async_evaluator.py:AsyncEvaluator", "gama/genetic_programming/operator_set.py:OperatorSet.wait_next"]}
{"id": "C128", "title": "Dying workers do not stop a search", "statement": "An evolutionary search keeps evaluating new pipelines until its budget is used, even if some evaluations kill the worker process in which they run (dead workers are replaced).", "quantifier": "every interleaving of main and worker processes, every set of evaluations that kill their worker, every population and budget", "why_tests_cant": "Ranges over all schedules and over which evaluations kill their process; the failure needs several such evaluations in one search.", "anchors": ["gama/search_methods/async_ea.py:async_ea", "gama/utilities/generic/async_evaluator.py:AsyncEvaluator.wait_next", "gama/utilities/generic/async_evaluator.py:AsyncEvaluator._log_memory_usage"]}
{"id": "C129", "title": "No answers without a model", "statement": "Before a successful fit, predict, predict_proba and score never return a value: they raise an exception (AttributeError on an object that was never fitted). A regressor never returns class probabilities.", "quantifier": "every data argument of every kind, every object that was not fitted or whose fit failed, every scoring rule", "why_tests_cant": "Ranges over every input and over every way an object can lack a model.", "anchors": ["gama/gama.py:Gama.predict", "gama/gama.py:Gama.score", "gama/GamaClassifier.py:GamaClassifier.predict_proba", "gama/GamaRegressor.py:GamaRegressor"]}
{"id": "C130", "title": "How the memory limit changes the number of workers", "statement": "When the memory use of GAMA and its workers is above the limit, one worker is stopped. If the limit was exceeded in at least 5% of the evaluations since the number of workers was last lowered, and more than one worker is left, the number of workers is lowered by one; otherwise a new worker takes the place of the stopped one. In no other case does the number of workers change.", "quantifier": "every interleaving of the main process and the workers, every sequence of memory readings, every memory limit, in which wait_next does not raise", "why_tests_cant": "Depends on the whole history of readings and completed evaluations, over all schedules.", "anchors": ["gama/utilities/generic/async_evaluator.py:AsyncEvaluator._control_memory_usage", "gama/utilities/generic/async_evaluator.py:AsyncEvaluator.wait_next", "gama/utilities/generic/async_evaluator.py:AsyncEvaluator._get_memory_usage"]}
{"id": "C131", "title": "A stopwatch shows the time of its last block", "statement": "A Stopwatch shows 0 before its first use, while its with-block runs the time since the block was entered, and afterwards the duration of the last block, however often it was used before and whatever the time is when it is read. On a clock that does not go backwards the reading is never negative and never decreases while a block runs.", "quantifier": "every sequence of with-blocks, every clock reading", "why_tests_cant": "Ranges over all histories of use and all clock readings.", "anchors": ["gama/utilities/generic/stopwatch.py:Stopwatch"]}
{"id": "C132", "title": "Cumulative maxima and relative times of a report", "statement": "After any sequence of complete writes to an evaluation log and updates, ending in an update, the cumulative maximum a report shows for a metric at an evaluation is the best value of that metric among this evaluation and those logged before it (values that are not a number are skipped and have none), however the rows were spread over updates. The end of each evaluation is relative to the earliest start of all evaluations read.", "quantifier": "every sequence of logged evaluations and updates, every metric, infinite and NaN scores included", "why_tests_cant": "Ranges over all logs and all ways of reading them in portions.", "anchors": ["gama/logging/GamaReport.py:GamaReport.update"]}
{"id": "C133", "title": "Successful evaluations of a report", "statement": "The successful evaluations of a report are exactly the logged ones whose scores are all finite, in the order in which they were logged; failed evaluations, logged with score -inf, are never among them.", "quantifier": "every sequence of logged evaluations and updates ending in an update", "why_tests_cant": "Ranges over all logs and scores.", "anchors": ["gama/logging/GamaReport.py:GamaReport.successful_evaluations", "gama/logging/GamaReport.py:GamaReport.update"]}
{"id": "C134", "title": "Printing an ensemble", "statement": "str() of an ensemble, in particular of the model a fit with ensembling leaves behind, describes its members and does not raise.", "quantifier": "all ensembles build_fit_ensemble can return, before and after pickling", "why_tests_cant": "Ranges over all libraries and sizes an ensemble can be built from.", "anchors": ["gama/postprocessing/ensemble.py:Ensemble.__str__", "gama/utilities/evaluation_library.py:Evaluation"]}
{"id": "C135", "title": "A pipeline of another search space is refused when read", "statement": "Individual.from_string given the text of a pipeline of some other search space raises, instead of building a pipeline, whenever the given search space lacks one of its algorithms or one of its hyperparameter values. The first step (from the data end) that cannot be read decides the exception: IndexError for the algorithm, RuntimeError for the value. A text that never mentions 'data' is a ValueError. No existing pipeline is changed by a refused text.", "quantifier": "all pairs of search spaces, all pipelines whose text can be read in the first, strict or not", "why_tests_cant": "needs every combination of pipeline and missing entry", "anchors": ["gama/genetic_programming/components/primitive_node.py:PrimitiveNode.from_string", "gama/genetic_programming/components/primitive_node.py:find_primitive", "gama/genetic_programming/components/primitive_node.py:find_terminal"]}
{"id": "C136", "title": "Every row of an evaluation log fits its header", "statement": "The file of an EvaluationLogger consists of what was there before, one header line with the column names, and one row per logged evaluation with exactly one cell per column, in the order of the header; an evaluation for which some column raises adds nothing and the exception of the first such column is raised. This holds whatever other loggers and evaluations are used in between. (False as stated when the caller passes the same `fields` dictionary to another logger with extra_fields.)", "quantifier": "all column dictionaries, separators, evaluations and all interleavings of loggers and log calls", "why_tests_cant": "arbitrary histories of calls on several loggers", "anchors": ["gama/logging/evaluation_logger.py:EvaluationLogger", "gama/logging/evaluation_logger.py:EvaluationLogger.log_evaluation"]}
{"id": "C137", "title": "The columns of an evaluation logger", "statement": "A new EvaluationLogger has the columns of `fields` (or the eight default ones) in order, followed by those of extra_fields that are new; an extra column of an existing name replaces its value function in place. The default columns show the individual's id, the pid, start time, durations, scores, pipeline text and error. Dotted attribute names are followed one by one, and a missing attribute is an AttributeError. The dictionaries given by the caller are not changed (false for `fields` when extra_fields is given).", "quantifier": "all dictionaries of columns, all evaluations, all attribute paths", "why_tests_cant": "every pair of dictionaries and every object graph", "anchors": ["gama/logging/evaluation_logger.py:EvaluationLogger", "gama/logging/evaluation_logger.py:_nested_getattr"]}
{"id": "C138", "title": "The log tells where a pipeline came from", "statement": "In the evaluation log of an AsyncEA search, the columns parent0, parent1 and origin of a pipeline made by mutation show its parent and the name of the mutation, of one made by crossover both parents and 'cx', of one made at random two empty cells and 'new', and of one given by the user two empty cells and 'unknown'. In the log of an ASHA search the columns rung and subsample show the rung and subsample it was evaluated with.", "quantifier": "all evaluations, ids and mutations", "why_tests_cant": "every individual of every search", "anchors": ["gama/search_methods/async_ea.py:AsyncEA.__init__", "gama/search_methods/asha.py:AsynchronousSuccessiveHalving.__init__", "gama/genetic_programming/operator_set.py:OperatorSet.mutate"]}
{"id": "C139", "title": "The frame of an ARFF file", "statement": "arff_to_pandas returns a frame with one column per attribute of the file, in the order of the file, whose name is the attribute's name and whose values are those of that position in every row; the column is categorical if the attribute is nominal and has the type pandas finds otherwise. A file without attributes, with a row longer than the header, or with only shorter ones, is a ValueError. The categories of a nominal attribute are the values it declares (false: those that occur).", "quantifier": "all ARFF headers and rows, all type guesses of pandas", "why_tests_cant": "every header and every table", "anchors": ["gama/data_loading.py:arff_to_pandas"]}
{"id": "C140", "title": "Separator, header and feature kinds of a csv file", "statement": "csv_to_pandas uses the separator and header row it is given and guesses only the missing ones; a given separator makes the file readable even if guessing fails (false unless the header is given too). The same feature gets the same kind in two files of the same table (false: a column of more than ten different integers is numeric in one and categorical in a file with fewer rows); what is categorical in a file stays categorical in any file with some of its rows, if pandas reads it with the same type.", "quantifier": "all csv files, readers and sniffers, all subsets of rows", "why_tests_cant": "every table and every subset of its rows", "anchors": ["gama/data_loading.py:csv_to_pandas", "gama/data_loading.py:sniff_csv_meta", "gama/data_formatting.py:infer_categoricals_inplace"]}
{"id": "C141", "title": "Leaving an evaluator ends", "statement": "Leaving the context of an AsyncEvaluator ends after a number of its own steps bounded by the numbers of workers and jobs and the shutdown time, whatever the workers do meanwhile, not counting the moments in which a running worker is just reading a queue (which lasts one step of that worker). Afterwards no worker process is left, no job is in the queue, and at most wait_time_before_forced_shutdown + 1 seconds were slept. (False after a worker was terminated in the moment in which it read a queue: then it never ends.) As long as no worker is terminated or crashes, there is one stop command for every worker that still runs and none more, so that if leaving goes on before wait_time_before_forced_shutdown is over, every worker has stopped by itself.", "quantifier": "every interleaving of the main process and the workers before and during __exit__, every number of workers and jobs, every moment at which a worker is stopped or crashes", "why_tests_cant": "needs a kill at one particular instruction of a worker, and all interleavings", "anchors": ["gama/utilities/generic/async_evaluator.py:AsyncEvaluator.__exit__", "gama/utilities/generic/async_evaluator.py:AsyncEvaluator.clear_queue", "gama/utilities/generic/async_evaluator.py:evaluator_daemon"]}
{"id": "C142", "title": "Stopping one worker does not stop the others", "statement": "When a worker is stopped because of the memory limit, the jobs that wait in the queue and all other workers are unaffected, and the jobs that wait can still be started. (False if the worker was just taking a job from the queue: then no job is ever started again.)", "quantifier": "every history of the evaluator and every moment at which a worker is stopped", "why_tests_cant": "needs a kill at one particular instruction of a worker", "anchors": ["gama/utilities/generic/async_evaluator.py:AsyncEvaluator._control_memory_usage", "gama/utilities/generic/async_evaluator.py:AsyncEvaluator._stop_worker_process", "gama/utilities/generic/async_evaluator.py:evaluator_daemon"]}
{"id": "C143", "title": "Reproducible results with random_state and one worker", "statement": "Two searches with the same random_state and n_jobs=1, the same data and the same evaluations, submit the same candidates, collect the same results and have the same populations in the same order, whatever happened in the two processes before the instances were made and whatever the timing; if a time limit ends one of them earlier, the other one continues it. (This holds for the evolutionary search and random search when fit is the first thing that uses the random numbers after construction. It fails when anything, such as another fit, uses them in between; it fails with two workers; and ASHA picks among equal losses in the order of a set of objects with random hashes.)", "quantifier": "all random states, histories of the two processes before construction, operators, start candidates, outcomes of evaluations, interleavings of the worker with the main process, moments of the time limit", "why_tests_cant": "a test compares two runs with the timing of one machine; the claim is about every interleaving and every earlier use of the global generators", "anchors": ["gama/gama.py:Gama.__init__", "gama/search_methods/async_ea.py:async_ea", "gama/search_methods/random_search.py:random_search", "gama/search_methods/asha.py:asha", "gama/utilities/generic/async_evaluator.py:AsyncEvaluator"]}
{"id": "C144", "title": "Every evaluated pipeline belongs to the search space", "statement": "During the evolutionary search, whatever the options, the order and outcomes of evaluations and the random numbers, every pipeline given to a worker is a predictor followed by preprocessors of the search space, each with one value per hyperparameter; the individual in a result is a copy of one submitted before, with the same id, parents, origin and steps. With max_pipeline_length = m no pipeline is longer than m. (The last part is false: two parents of m steps can have a child of up to 2m-2; this is also the largest possible length, so the limit holds for m = 1 and 2.)", "quantifier": "all search spaces, limits, numbers of workers, population sizes, start candidates, orders and outcomes of results, random numbers, restarts", "why_tests_cant": "an over-long child needs a particular crossover after particular results; the claim is about all histories of a search", "anchors": ["gama/search_methods/async_ea.py:async_ea", "gama/genetic_programming/operator_set.py:OperatorSet", "gama/genetic_programming/selection.py:create_from_population", "gama/genetic_programming/mutation.py:random_valid_mutation_in_place", "gama/genetic_programming/crossover.py:random_crossover", "gama/gama.py:Gama._search_phase"]}
{"id": "C145", "title": "What the evolutionary search submits", "statement": "Everything given to the workers is a start candidate, or was made from the population of that moment, or is a new random pipeline (only without start candidates, or after a restart). A pipeline made from the population has parents which are successful results since the last restart, and it is exactly one mutation of its parent, or one crossover of two members at different places, under the recorded name; its id is larger than any id seen before. No id is submitted twice, and every submission is outstanding or answered once.", "quantifier": "all search spaces, options, histories of results, random numbers, restarts", "why_tests_cant": "parents and operators are recorded at one point and used much later; only a proof covers all histories", "anchors": ["gama/search_methods/async_ea.py:async_ea", "gama/genetic_programming/operator_set.py:OperatorSet", "gama/genetic_programming/selection.py:create_from_population", "gama/genetic_programming/mutation.py:random_valid_mutation_in_place", "gama/genetic_programming/crossover.py:random_crossover", "gama/gama.py:Gama._search_phase"]}
{"id": "C146", "title": "New pipelines are not among the evaluated ones", "statement": "A pipeline which the evolutionary search makes from its population is not (by its text) one whose evaluation is already in the library, whether that succeeded or failed, in this call of fit or an earlier one on the same object. (Proved: either so, or each of the 50 attempts made from this population gave an evaluated pipeline. The full statement is false, and pipelines still being evaluated are not taken into account: the same pipeline can be submitted twice. Because the evaluations of earlier calls count, a later fit need not explore what a new object explores with the same start, random numbers and results.)", "quantifier": "all search spaces, histories of results, random numbers", "why_tests_cant": "whether 50 attempts suffice depends on the random numbers and on everything evaluated before", "anchors": ["gama/search_methods/async_ea.py:async_ea", "gama/genetic_programming/operator_set.py:OperatorSet", "gama/genetic_programming/selection.py:create_from_population", "gama/genetic_programming/mutation.py:random_valid_mutation_in_place", "gama/genetic_programming/crossover.py:random_crossover", "gama/gama.py:Gama._search_phase", "gama/gama.py:Gama.__init__"]}
{"id": "C147", "title": "The evolutionary search goes on until it is stopped", "statement": "If evaluations give two scores or more (always as many), the search ends only at max_n_evaluations, or when it is stopped while waiting for a result; with at least four start candidates more than workers, a population size of at least three, and three successes among the first results, nothing else ends it, and there are always at least two jobs more than workers. (Proved for max_pipeline_length None or 2, or 1 when each predictor has two hyperparameters with alternatives; otherwise a starved search can raise ValueError with fewer than three members. False for max_pipeline_length = 3, where an over-long child in the population makes the search raise AttributeError.) With any limit and any number of scores, the exceptions that end the search are: ValueError with fewer than three members, IndexError with a single score, AttributeError or ValueError with a member longer than the limit (of 3 or more), IndexError with a limit of 1 and a member without alternatives.", "quantifier": "all search spaces, numbers of workers, population sizes, orders and outcomes of results, random numbers", "why_tests_cant": "the exception needs an over-long child to become a parent with particular random numbers", "anchors": ["gama/search_methods/async_ea.py:async_ea", "gama/genetic_programming/operator_set.py:OperatorSet", "gama/genetic_programming/selection.py:create_from_population", "gama/genetic_programming/mutation.py:random_valid_mutation_in_place", "gama/genetic_programming/crossover.py:random_crossover", "gama/gama.py:Gama._search_phase"]}
{"id": "C148", "title": "Random search runs the candidates, then new pipelines of the search space", "statement": "Random search gives to the workers the start candidates in their order, and after them only new random pipelines; all are pipelines of the search space within max_pipeline_length. Every result is for a pipeline given to a worker before, with the same id, parents, origin and steps; every pipeline has one result or is outstanding, each id at most once. The output is the individuals of the evaluations in order of arrival. The search never fails, keeps as many jobs outstanding as there were candidates (50 without given ones), and ends exactly when max_evaluations evaluations are there, if ever.", "quantifier": "all search spaces, start candidates, orders and outcomes of results, numbers of results before it is stopped, random numbers", "why_tests_cant": "holds for every order of results and all random numbers", "anchors": ["gama/search_methods/random_search.py:random_search", "gama/genetic_programming/operator_set.py:OperatorSet", "gama/gama.py:Gama._search_phase"]}
{"id": "C149", "title": "ASHA on pipelines: candidates, promotions and jobs", "statement": "ASHA gives to the workers, on the first rung, the start candidates from the last to the first and after them only new random pipelines, and on another rung only pipelines which have a score on the rung below, at most one for every reduction_factor scores there, always the best of those not yet promoted; nothing that may be promoted is left waiting for another job of the same or a lower rung; no pipeline twice on a rung; all within the search space and max_pipeline_length. Every result is for a pipeline given to a worker for that rung before, with the same id, parents, origin and steps. Eight jobs are always outstanding, and the search ends only when max_full_evaluations pipelines have a score on the top rung.", "quantifier": "all search spaces, start candidates, reduction factors, rungs, orders and outcomes of results, iteration orders of sets, numbers of results before it is stopped, random numbers", "why_tests_cant": "holds for every order of results, every iteration order of sets and all random numbers", "anchors": ["gama/search_methods/asha.py:asha", "gama/genetic_programming/operator_set.py:OperatorSet", "gama/gama.py:Gama._search_phase"]}
{"id": "C150", "title": "After random search the model is the best pipeline evaluated", "statement": "When fit with random search and BestFitPostProcessing returns, the model has the fixed preprocessing steps followed by the steps of a pipeline that was evaluated during this fit, is in the search space and within max_pipeline_length, each step made from its class with exactly its hyperparameters; no evaluated pipeline has a better score (first metric first). If pipelines can be made and constructed, fit fails only if no evaluation finished before the time limit.", "quantifier": "all search spaces, fixed steps, start candidates, orders and outcomes of results, numbers of results before the time limit, random numbers", "why_tests_cant": "holds for every order and every score of the results and all random numbers", "anchors": ["gama/gama.py:Gama.fit", "gama/postprocessing/best_fit.py:BestFitPostProcessing", "gama/search_methods/random_search.py:random_search", "gama/genetic_programming/compilers/scikitlearn.py:compile_individual"]}
{"id": "C151", "title": "After the evolutionary search the model is the best pipeline found", "statement": "When fit with the evolutionary search and BestFitPostProcessing returns, the model has the fixed preprocessing steps followed by the steps of a pipeline of the search space that was evaluated successfully since the last restart, and no pipeline evaluated successfully since then has a better score. (False in general: elimination from a full population can remove the best one; true of the final population, and as long as the successes are at most as many as the population holds.)", "quantifier": "all search spaces, fixed steps, options, start candidates, orders and outcomes of results, numbers of results before the time limit, random numbers", "why_tests_cant": "holds for every order and every score of the results and all random numbers", "anchors": ["gama/gama.py:Gama.fit", "gama/postprocessing/best_fit.py:BestFitPostProcessing", "gama/search_methods/async_ea.py:async_ea", "gama/genetic_programming/selection.py:eliminate_from_pareto", "gama/genetic_programming/compilers/scikitlearn.py:compile_individual"]}
{"id": "C152", "title": "After ASHA the model is the best pipeline of the highest rung reached", "statement": "When fit with ASHA and BestFitPostProcessing returns, the model has the fixed preprocessing steps followed by the steps of a pipeline of the search space within max_pipeline_length that has a result on the highest rung with any result, and no other pipeline with a result on that rung has a better score there. If pipelines can be made and constructed, fit fails only if there is no result on any rung before the time limit.", "quantifier": "all search spaces, fixed steps, start candidates, reduction factors, rungs, orders and outcomes of results, iteration orders of sets, numbers of results before the time limit, random numbers", "why_tests_cant": "holds for every order and every score of the results, every iteration order of sets and all random numbers", "anchors": ["gama/gama.py:Gama.fit", "gama/postprocessing/best_fit.py:BestFitPostProcessing", "gama/search_methods/asha.py:asha", "gama/genetic_programming/compilers/scikitlearn.py:compile_individual"]}
{"id": "C153", "title": "After random search the ensemble consists of the best pipelines evaluated", "statement": "When fit with random search and EnsemblePostProcessing is over and at least one evaluation succeeded, the model is an ensemble with the requested total weight; each member is a pipeline of the search space within max_pipeline_length whose evaluation succeeded during this fit, with fewer than max_models better ones; no pipeline is a member twice; what predicts are the estimators of the members' evaluations with their weights. When none succeeded, predict raises TypeError.", "quantifier": "all search spaces, options, training data sizes, start candidates, orders and outcomes of results, numbers of results before the time limit, predictions and metrics, sample rows, random numbers", "why_tests_cant": "holds for every order and every score of the results, any number of them, and all random numbers", "anchors": ["gama/gama.py:Gama.fit", "gama/gama.py:Gama._on_evaluation_completed", "gama/postprocessing/ensemble.py:EnsemblePostProcessing.post_process", "gama/postprocessing/ensemble.py:build_fit_ensemble", "gama/utilities/evaluation_library.py:EvaluationLibrary.save_evaluation", "gama/search_methods/random_search.py:random_search"]}
{"id": "C154", "title": "After the evolutionary search the ensemble consists of the best pipelines evaluated", "statement": "The same for the evolutionary search, unless the search itself fails: pipelines that left the population, or were evaluated before a restart, count as well. The pipelines the search takes for already evaluated are exactly those the evaluation library can look up, in the first fit and, with all that earlier fits left in the library, in every later one; when the library rejects an evaluation, the search may know more than the library but never less.", "quantifier": "all search spaces, options, training data sizes, start candidates, orders and outcomes of results, numbers of results before the time limit, predictions and metrics, sample rows, random numbers", "why_tests_cant": "holds for every order and every score of the results, any number of them, and all random numbers", "anchors": ["gama/gama.py:Gama.fit", "gama/gama.py:Gama._on_evaluation_completed", "gama/postprocessing/ensemble.py:EnsemblePostProcessing.post_process", "gama/postprocessing/ensemble.py:build_fit_ensemble", "gama/utilities/evaluation_library.py:EvaluationLibrary.save_evaluation", "gama/search_methods/async_ea.py:async_ea", "gama/utilities/evaluation_library.py:EvaluationLibrary.lookup"]}
{"id": "C155", "title": "After ASHA the ensemble consists of the best complete evaluations", "statement": "When fit with ASHA and EnsemblePostProcessing is over and at least one evaluation succeeded, the model is an ensemble as in C153, of evaluations on the highest rung only. (False when evaluations succeeded on lower rungs only: fit returns, and predict raises TypeError. True when at least one evaluation on the highest rung succeeded.)", "quantifier": "all search spaces, options, training data sizes, start candidates, orders and outcomes of results, numbers of results before the time limit, predictions and metrics, sample rows, random numbers", "why_tests_cant": "holds for every order and every score of the results, any number of them, and all random numbers", "anchors": ["gama/gama.py:Gama.fit", "gama/gama.py:Gama._on_evaluation_completed", "gama/postprocessing/ensemble.py:EnsemblePostProcessing.post_process", "gama/postprocessing/ensemble.py:build_fit_ensemble", "gama/utilities/evaluation_library.py:EvaluationLibrary.save_evaluation", "gama/search_methods/asha.py:asha", "gama/search_methods/asha.py:evaluate_on_rung"]}
{"id": "C156", "title": "A second fit on the same object gives a usable ensemble", "statement": "If fit with EnsemblePostProcessing is called again on the same object and a pipeline has been scored in some call so far, the call ends with a fitted ensemble of the requested size, made of estimators trained in some call of fit. (False for the default store=\"logs\": what was kept of the first call can no longer be read afterwards, so until that many new pipelines pushed all of it out no later call ends with a usable ensemble - never, if there was room left; fit returns all the same and predict raises TypeError. True for store=\"all\" and \"models\".)", "quantifier": "all numbers of calls, evaluations and outcomes in each of them, limits on kept models and rows, predictions and metrics, ensemble sizes, random numbers", "why_tests_cant": "depends on the whole history of calls and on which evaluations succeed in each of them", "anchors": ["gama/gama.py:Gama.fit", "gama/gama.py:Gama.cleanup", "gama/utilities/evaluation_library.py:EvaluationLibrary.save_evaluation", "gama/utilities/evaluation_library.py:Evaluation.to_disk", "gama/postprocessing/ensemble.py:build_fit_ensemble"]}
{"id": "C157", "title": "A Pareto front is a sequence in order of arrival", "statement": "The items of a ParetoFront are those offered since it was last cleared, some left out, the others in the order in which they were offered, whatever the calls were (also calls that raise); a front made from a list is the one that offering its items one by one gives. len, positive and negative indices, loops, reversed and 'in' agree about its items, and indices outside raise IndexError.", "quantifier": "all histories of update and clear, all items, all indices", "why_tests_cant": "A test tries a few histories; the order must be kept through every sequence of insertions, removals and rejected items.", "anchors": ["gama/utilities/generic/paretofront.py:ParetoFront.__init__", "gama/utilities/generic/paretofront.py:ParetoFront.update", "gama/utilities/generic/paretofront.py:ParetoFront.__getitem__", "gama/utilities/generic/paretofront.py:ParetoFront.__len__"]}
{"id": "C158", "title": "The evaluations of a library", "statement": "EvaluationLibrary.evaluations lists every evaluation that was saved exactly once, with the individual, pipeline, score and error that were reported, also if pipelines were evaluated several times, as long as no call of save_evaluation raised. clear_cache leaves no file behind and changes neither the list nor the reports; the models and predictions of the kept evaluations can then not be read any more, and a second call raises FileNotFoundError.", "quantifier": "all histories of saved evaluations with scores other than NaN", "why_tests_cant": "Evaluations move between two containers as better ones arrive; none may be lost or doubled in any history.", "anchors": ["gama/utilities/evaluation_library.py:EvaluationLibrary.evaluations", "gama/utilities/evaluation_library.py:EvaluationLibrary.save_evaluation", "gama/utilities/evaluation_library.py:EvaluationLibrary.clear_cache"]}
{"id": "C159", "title": "Texts of an individual", "statement": "short_name of an individual is the names of its steps in the order in which they are applied, joined by the separator; for a one-character separator that is not part of a name, two individuals have the same short name exactly if their steps have the same names in the same order. Two individuals are printed alike exactly if identifier, pipeline text and fitness text are the same (none of the first two containing a line break).", "quantifier": "all individuals, separators of one character, identifiers and fitness texts", "why_tests_cant": "All lengths and names.", "anchors": ["gama/genetic_programming/components/individual.py:Individual.short_name", "gama/genetic_programming/components/individual.py:Individual.__str__"]}
{"id": "C160", "title": "The evolutionary search on pipelines, on worker processes", "statement": "With real worker processes, which take turns in any order, may hang in the middle of an evaluation or die, the evolutionary search behaves like one in which evaluations finish one after the other, with scores of evaluations; the results it collects are those of different submissions, for each of which a worker's call ended with this outcome, and belong to a pipeline with the id, parents, origin and steps of the submitted one. Every pipeline given to a worker is in the search space. With a search space with alternatives, no limit or one the operators can respect and always the same number (at least two) of scores, the only exception that ends it is that of selecting from fewer than three pipelines. With any limit and any number of scores the other exceptions are those listed in C147.", "quantifier": "all search spaces, start candidates, random numbers, numbers of workers, orders in which the workers take turns, their deaths, outcomes of evaluations, moments at which it is stopped", "why_tests_cant": "Holds for every interleaving of the main process with the workers and every crash of them.", "anchors": ["gama/search_methods/async_ea.py:async_ea", "gama/utilities/generic/async_evaluator.py:AsyncEvaluator", "gama/gama.py:Gama._search_phase"]}
{"id": "C161", "title": "Random search and ASHA on pipelines, on worker processes", "statement": "With real worker processes, which take turns in any order, may hang or die, random search and ASHA behave like searches in which evaluations finish one after the other, with scores of evaluations; their results are those of different submissions (for ASHA: for that rung), for each of which a worker's call ended with this outcome, and belong to a pipeline with the id, parents, origin and steps of the submitted one. Random search ends with no exception, and the number of submissions is that of the results plus that of the start candidates.", "quantifier": "all search spaces, start candidates, random numbers, reduction factors and rungs, numbers of workers, orders in which the workers take turns, their deaths, outcomes of evaluations, moments at which it is stopped", "why_tests_cant": "Holds for every interleaving of the main process with the workers and every crash of them.", "anchors": ["gama/search_methods/random_search.py:random_search", "gama/search_methods/asha.py:asha", "gama/utilities/generic/async_evaluator.py:AsyncEvaluator", "gama/gama.py:Gama._search_phase"]}
{"id": "C162", "title": "fit on worker processes: the model is the best of what the workers delivered", "statement": "Whatever the worker processes do, and whenever the search is stopped, if fit returns then its model has the steps of a pipeline of the search space for which a worker's call ended, and which is the best of all results delivered by the workers (random search), of all successes since the last restart (evolutionary search), or of those for the highest rung for which there is one (ASHA). With random search or ASHA, fit fails only if there is no such result.", "quantifier": "all search spaces, start candidates, random numbers, estimators, numbers of workers, orders in which the workers take turns, their deaths, outcomes of evaluations, moments at which the search is stopped", "why_tests_cant": "Holds for every interleaving, every crash of a worker and every moment at which the time is up.", "anchors": ["gama/gama.py:Gama.fit", "gama/postprocessing/best_fit.py:BestFitPostProcessing.post_process", "gama/utilities/generic/async_evaluator.py:AsyncEvaluator", "gama/gama.py:Gama._search_phase"]}
{"id": "C163", "title": "fit with an ensemble on worker processes", "statement": "Whatever the worker processes do and whenever the search is stopped, when fit with EnsemblePostProcessing is over and at least one evaluation delivered by the workers succeeded, the model is an ensemble of the requested total weight made of the best of them (as in C153-C155), each of a pipeline of the search space for which a worker's call ended; when none succeeded, predict raises TypeError. With the evolutionary search, unless the search itself fails; with ASHA only evaluations on the top rung count (false that evaluations on lower rungs are enough for a model).", "quantifier": "all search spaces, options, training data sizes, start candidates, random numbers, numbers of workers, orders in which the workers take turns, their deaths, outcomes of evaluations, moments at which the search is stopped, predictions and metrics", "why_tests_cant": "interleavings and deaths of worker processes, and all scores and predictions", "anchors": ["gama/gama.py:Gama.fit", "gama/gama.py:Gama._search_phase", "gama/postprocessing/ensemble.py:EnsemblePostProcessing.post_process", "gama/utilities/generic/async_evaluator.py:AsyncEvaluator.wait_next", "gama/search_methods/async_ea.py:async_ea", "gama/search_methods/random_search.py:random_search", "gama/search_methods/asha.py:asha"]}
{"id": "C164", "title": "fit with one worker is reproducible", "statement": "Two calls of fit with n_jobs=1 that start from the same random numbers, search space and data, and whose evaluations end in the same way, behave alike whatever the timing of the worker process, the moment the time runs out and whether they keep a log: the one that got more results submitted and collected, in the same order, everything the other did, the same pipelines included; with as many results they return the same model (or ensemble, given the same post-processing inputs) or raise the same exception. More results never make the model of random search worse. (With ASHA this also needs sets to be iterated in the same order, which the random state does not fix; and with two workers two runs with equally many results can return different models.)", "quantifier": "all pairs of schedules of the worker process without a killed process, search spaces, warm starts, random numbers, data evaluations and limits", "why_tests_cant": "The claim compares two runs under every pair of timings of the worker, its queues and the time limit; a test observes a handful of timings on one machine.", "anchors": ["gama/gama.py: fit, _search_phase", "gama/utilities/generic/async_evaluator.py: AsyncEvaluator", "gama/search_methods/random_search.py: random_search", "gama/search_methods/async_ea.py: async_ea", "gama/search_methods/asha.py: asha", "gama/postprocessing/best_fit.py", "gama/postprocessing/ensemble.py"]}
{"id": "C165", "title": "searches with a limit on memory use", "statement": "With max_memory_mb set, whichever workers are stopped (and replaced or not) while the search waits: every pipeline given to a worker is from the search space and within the length limit (with AsyncEA at most max(m, 2m-2) steps), every result collected is the result of a worker's call for a different submitted pipeline, ASHA promotes as without a limit, and random search and ASHA fail only with the evaluator's ValueError, which is raised only if there are no workers or a worker no longer exists when its memory use is to be read.", "quantifier": "all search spaces, options, start candidates, random numbers, numbers of workers, orders in which they take turns, their deaths, memory readings and limits, outcomes of evaluations, and moments at which the search is stopped", "why_tests_cant": "which worker is over the limit, and when, depends on the schedule of processes and their memory use; every history of readings, stops and restarts must be covered", "anchors": ["gama/gama.py: fit, _search_phase", "gama/utilities/generic/async_evaluator.py: AsyncEvaluator.wait_next, _control_memory_usage, _stop_worker", "gama/search_methods/random_search.py: random_search", "gama/search_methods/async_ea.py: async_ea", "gama/search_methods/asha.py: asha"]}
{"id": "C166", "title": "fit with a limit on memory use", "statement": "With max_memory_mb set, whichever workers are stopped, when fit returns, the model's steps are those of the best of the results the workers delivered (random search), the best of the final population (AsyncEA; of all successes since the last restart if the population can hold them), or the best result of the highest rung reached (ASHA). fit with random search or ASHA fails only if no result was delivered in time, or because a worker no longer existed when its memory use was to be read (ValueError; with ASHA UnboundLocalError).", "quantifier": "all search spaces, options, start candidates, random numbers, numbers of workers, orders in which they take turns, their deaths, memory readings and limits, outcomes of evaluations, and moments at which the search is stopped", "why_tests_cant": "which worker is over the limit, and when, depends on the schedule of processes and their memory use; every history of readings, stops and restarts must be covered", "anchors": ["gama/gama.py: fit, _search_phase", "gama/utilities/generic/async_evaluator.py: AsyncEvaluator.wait_next, _control_memory_usage, _stop_worker", "gama/search_methods/random_search.py: random_search", "gama/search_methods/async_ea.py: async_ea", "gama/search_methods/asha.py: asha", "gama/postprocessing/best_fit.py: BestFitPostProcessing.post_process"]}
{"id": "C167", "title": "a search with a limit on memory use goes on", "statement": "With max_memory_mb set and at least one worker, evaluations that all succeed and readings that never fail, a random search that is waiting for a result can still get one. (False: a pipeline whose worker is stopped is not evaluated again and nothing is submitted in its place; when all outstanding ones are lost, the search idles until the time is up.)", "quantifier": "all search spaces, options, start candidates, random numbers, numbers of workers, orders in which they take turns, their deaths, memory readings and limits, outcomes of evaluations, and moments at which the search is stopped", "why_tests_cant": "it says that some continuation of every history makes progress; its failure is a state from which no continuation does", "anchors": ["gama/gama.py: fit, _search_phase", "gama/utilities/generic/async_evaluator.py: AsyncEvaluator.wait_next, _control_memory_usage, _stop_worker", "gama/search_methods/random_search.py: random_search", "gama/search_methods/async_ea.py: async_ea", "gama/search_methods/asha.py: asha"]}
{"id": "C168", "title": "fit, from the data to the answers", "statement": "When fit returns (with BestFitPostProcessing), predict and predict_proba answer with the model made from the best of the pipelines that this fit's own search evaluated successfully (ASHA: of the highest rung reached): it was evaluated by a worker process on the encoded rows of this call, is a pipeline of the search space within the length limit, was trained on the same rows, and has before its own steps the fixed preprocessing steps of this call (or those it already had, if it was given as a start).", "quantifier": "all data, targets, warm starts, search spaces, options, clocks, encoders, estimators, random numbers, numbers of workers, orders in which they take turns, their deaths, outcomes and scores of evaluations, and moments at which the search is stopped", "why_tests_cant": "it ties together data preparation, search, worker schedule and post-processing: no test covers all data together with all schedules of the workers", "anchors": ["gama/gama.py: Gama.fit, _search_phase, predict", "gama/GamaClassifier.py: GamaClassifier.fit", "gama/search_methods/random_search.py: random_search", "gama/search_methods/async_ea.py: async_ea", "gama/search_methods/asha.py: asha", "gama/utilities/generic/async_evaluator.py: AsyncEvaluator", "gama/genetic_programming/operator_set.py: OperatorSet.individual", "gama/genetic_programming/components/individual.py: Individual.pipeline, copy_as_new", "gama/postprocessing/best_fit.py: BestFitPostProcessing.post_process"]}
{"id": "C169", "title": "every fit of a series", "statement": "After any number of calls of fit, failed or not, with any data, none of which excludes algorithms from the search space, the next search starts from different, intact pipelines of the search space, so that C168 holds for each fit. Nothing is excluded when the evaluated pipelines are not stored.", "quantifier": "all series of calls; for each call: all data, targets, warm starts, search spaces, options, clocks, encoders, estimators, random numbers, numbers of workers, orders in which they take turns, their deaths, outcomes and scores of evaluations, and moments at which the search is stopped", "why_tests_cant": "an invariant over unbounded histories of calls, each with any worker schedule", "anchors": ["gama/gama.py: Gama.fit, _search_phase, predict", "gama/GamaClassifier.py: GamaClassifier.fit", "gama/search_methods/random_search.py: random_search", "gama/search_methods/async_ea.py: async_ea", "gama/search_methods/asha.py: asha", "gama/utilities/generic/async_evaluator.py: AsyncEvaluator", "gama/genetic_programming/operator_set.py: OperatorSet.individual", "gama/genetic_programming/components/individual.py: Individual.pipeline, copy_as_new", "gama/postprocessing/best_fit.py: BestFitPostProcessing.post_process"]}
{"id": "C170", "title": "a model of this fit only", "statement": "The model of a successful fit is made of the fixed preprocessing steps chosen for the data of this call and of algorithms in the search space of this call. (False for a second fit without warm_start=[]: pipelines of the fit before keep its steps and may contain algorithms that this fit excludes.)", "quantifier": "all series of calls; for each call: all data, targets, warm starts, search spaces, options, clocks, encoders, estimators, random numbers, numbers of workers, orders in which they take turns, their deaths, outcomes and scores of evaluations, and moments at which the search is stopped", "why_tests_cant": "it depends on the whole history of the object; the state that breaks it is left by an earlier call", "anchors": ["gama/gama.py: Gama.fit, _search_phase, predict", "gama/GamaClassifier.py: GamaClassifier.fit", "gama/search_methods/random_search.py: random_search", "gama/search_methods/async_ea.py: async_ea", "gama/search_methods/asha.py: asha", "gama/utilities/generic/async_evaluator.py: AsyncEvaluator", "gama/genetic_programming/operator_set.py: OperatorSet.individual", "gama/genetic_programming/components/individual.py: Individual.pipeline, copy_as_new", "gama/postprocessing/best_fit.py: BestFitPostProcessing.post_process"]}
{"id": "C171", "title": "when fit returns", "statement": "If its arguments are accepted (data that can be formatted and preprocessed in time, a tidy output directory), pipelines can be made from the search space, and estimators can be built and trained, fit returns if and only if the workers delivered a result before the search ended. Otherwise it fails with the exception of a search without results: IndexError for random search, UnboundLocalError for ASHA. For AsyncEA the same is said of its final population, unless the search itself breaks down: ValueError when it has to select from fewer than three pipelines; IndexError with a single score per evaluation, or with a length limit of 1 and a pipeline without alternatives; AttributeError or ValueError with a limit of 3 or more and a member longer than it.", "quantifier": "one call of fit of any object: all data, targets, warm starts, search spaces, options, clocks, encoders, estimators, random numbers, numbers of workers, orders in which they take turns, their deaths, outcomes and scores of evaluations, and moments at which the search is stopped", "why_tests_cant": "it says which runs fail, over every schedule and every death of the workers", "anchors": ["gama/gama.py: Gama.fit, _search_phase, predict", "gama/GamaClassifier.py: GamaClassifier.fit", "gama/search_methods/random_search.py: random_search", "gama/search_methods/async_ea.py: async_ea", "gama/search_methods/asha.py: asha", "gama/utilities/generic/async_evaluator.py: AsyncEvaluator", "gama/genetic_programming/operator_set.py: OperatorSet.individual", "gama/genetic_programming/components/individual.py: Individual.pipeline, copy_as_new", "gama/postprocessing/best_fit.py: BestFitPostProcessing.post_process"]}
{"id": "C172", "title": "searches go on and come to their end", "statement": "If there is at least one worker, no worker process is killed, evaluations end, and the operating system lets every worker take a job, execute it and hand over the result again and again, then a search gets results for as long as this goes on: at least one in every round in which each worker had these three turns (whatever happens later, even if workers are killed then). Random search therefore ends after at most max_evaluations rounds when every evaluation yields scores, and AsyncEA after at most max_n_evaluations rounds, unless it raises the ValueError of selecting from fewer than three pipelines or one of the other exceptions it has for single scores and certain length limits (C147); with restarts, each of which submits a whole population before the next result is awaited, there is at least one result in every population size + 1 rounds. (False when a worker is killed: it is not replaced as long as its process can still be read, and a search without workers waits forever.)", "quantifier": "all numbers of workers, all schedules with any number of such rounds (with anything between the turns of a worker), all outcomes and scores of evaluations, search spaces, warm starts, options and random numbers", "why_tests_cant": "a liveness property over every fair schedule; a test sees a few schedules, and cannot tell a search that is stuck from a slow one", "anchors": ["gama/utilities/generic/async_evaluator.py: AsyncEvaluator.submit, wait_next, evaluator_daemon", "gama/search_methods/random_search.py: random_search", "gama/search_methods/async_ea.py: async_ea", "gama/search_methods/asha.py: asha"]}
{"id": "C173", "title": "fit succeeds when its workers get their turns", "statement": "If fit accepts its arguments (data that can be prepared in time, a warm start of individuals, a tidy output directory), pipelines can be made from the search space, estimators can be built and trained, there is at least one worker, and the workers get enough turns before one of them is killed or the time is up - the first candidates can be submitted, and then there are more rounds (each worker takes a job, executes it and hands over the result) than failing evaluations - then fit with random search or ASHA returns, whatever happens afterwards. With AsyncEA without restarts it returns, or raises the ValueError of selecting from fewer than three pipelines, or one of the other exceptions the search has for single scores or a limit of one step (IndexError) and for limits of three or more steps (AttributeError, ValueError). (False with restarts: a restart forgets all pipelines, and fit fails if no result arrives after it.)", "quantifier": "all data, search spaces, numbers of workers, schedules with such a beginning, sets of failing evaluations, limits, warm starts and earlier fits of the object", "why_tests_cant": "a liveness property of the whole of fit over every fair schedule and every place of the failing evaluations", "anchors": ["gama/gama.py: Gama.fit, _search_phase", "gama/utilities/generic/async_evaluator.py: AsyncEvaluator", "gama/search_methods/random_search.py: random_search", "gama/search_methods/asha.py: asha", "gama/search_methods/async_ea.py: async_ea", "gama/postprocessing/best_fit.py: BestFitPostProcessing.post_process"]}
{"id": "C174", "title": "ASHA comes to its end", "statement": "With max_full_evaluations set to m, ASHA gets only a bounded number of results before it ends: a bound that is computed from the reduction factor, the number of rungs, m and the number of evaluations that fail (28 results for one full evaluation with a reduction factor of 3 and two rungs, when none fails), whatever the scores and the order of the results. So when there is a worker and the workers get that many rounds (each takes a job, executes it and hands over the result), the search ends, with at least m pipelines evaluated on the top rung; and fit then returns, with the model of the best of the pipelines that were evaluated on the top rung, that is, on all the data, whatever happens to the workers afterwards. Without max_full_evaluations (the default) the search goes on until it is stopped, but so many results are enough for m pipelines on the top rung; so fit returns a model of the top rung as soon as there was time for the results that bring one pipeline there.", "quantifier": "all reduction factors, rungs, limits, search spaces, candidates, scores, sets of failing evaluations, orders of results, numbers of workers and schedules", "why_tests_cant": "it is a bound over all interleavings of results of all rungs, and needs an invariant of the promotions", "anchors": ["gama/search_methods/asha.py: asha, get_job, start_new_job", "gama/utilities/generic/async_evaluator.py: AsyncEvaluator", "gama/gama.py: Gama.fit, _search_phase"]}
{"id": "C175", "title": "a limit on memory use that is not reached changes nothing", "statement": "As long as no worker is killed, evaluations end, and the memory in use (of the main process and the workers together) is never above max_memory_mb, each of the searches and fit behave exactly as without max_memory_mb: the same pipelines are submitted and collected in the same order, and the same model is returned or the same exception raised. In particular such a search goes on (as in C172).", "quantifier": "all limits, numbers of workers, schedules without killed workers, readings within the limit, outcomes of evaluations, search spaces, warm starts, options and random numbers", "why_tests_cant": "two programs are compared on every schedule and every sequence of readings", "anchors": ["gama/utilities/generic/async_evaluator.py: AsyncEvaluator._control_memory_usage, _get_memory_usage, wait_next", "gama/gama.py: Gama.__init__, fit, _search_phase", "gama/search_methods/async_ea.py: async_ea", "gama/search_methods/random_search.py: random_search", "gama/search_methods/asha.py: asha"]}
{"id": "C176", "title": "fit with an ensemble succeeds when its workers get their turns", "statement": "fit with the ensemble as post-processing returns an ensemble of the requested size of the best evaluations, fitted with their estimators: when there is a worker, all evaluations end, and those that do not succeed are fewer than the rounds (in each of which the workers take a job, execute it and hand over the result), and fewer than max_evaluations; whatever happens to the workers after the rounds. With random search and with the evolutionary search; for the evolutionary search also with restarts (then S pop_size times as many rounds are needed), since the ensemble, unlike the best-fit post-processing (C173), is made from all evaluations and not from those since the last restart; it can still end by the exceptions of C160. With ASHA, when the rounds are enough for more scores on the top rung than there are failing evaluations.", "quantifier": "all search spaces, candidates, scores, predictions, metrics, sets of failing evaluations, ensemble sizes, numbers of workers and schedules", "why_tests_cant": "it composes the progress of the asynchronous search, over all schedules, with the library of evaluations and the ensemble construction over all scores", "anchors": ["gama/gama.py: Gama.fit, _search_phase, _postprocess_phase", "gama/postprocessing/ensemble.py: EnsemblePostProcessing, build_fit_ensemble", "gama/utilities/evaluation_library.py: EvaluationLibrary", "gama/search_methods/random_search.py: random_search", "gama/search_methods/async_ea.py: async_ea", "gama/search_methods/asha.py: asha"]}
{"id": "C177", "title": "a memory limit that is not exceeded changes nothing", "statement": "If the memory use of every process can be read whenever wait_next controls it, and the main process together with the workers stays within max_memory_mb, then a search with this limit does exactly what it does without one: the same results in the same order, the same pipelines, the same exception or end; and fit gives the same model or raises the same exception. In particular the searches then go on and come to their end as without a limit (compare C167, where the limit is exceeded).", "quantifier": "all limits, numbers of workers, schedules, deaths of workers, readings within the limit, outcomes and scores of evaluations, search spaces, options, warm starts and random numbers; random search, ASHA and AsyncEA", "why_tests_cant": "it compares two programs on every schedule and every sequence of readings", "anchors": ["gama/utilities/generic/async_evaluator.py: AsyncEvaluator._control_memory_usage, wait_next", "gama/gama.py: Gama.__init__, fit, _search_phase", "gama/search_methods/random_search.py: random_search", "gama/search_methods/async_ea.py: async_ea", "gama/search_methods/asha.py: asha"]}
{"id": "C178", "title": "a search that is stopped has done what it would have done with more time", "statement": "Compare two runs of a search with the same random numbers, options and behaviour of the worker processes, one of which is given more time. Either the shorter one was stopped, and then all it submitted and all results it received, in order, are the beginning of those of the longer run (for random search also the list it returns); or it came to its end (or to an exception), and then the longer run ends in exactly the same way, with the same state.", "quantifier": "all search spaces, options, warm starts, random numbers, numbers of workers, memory limits, outcomes and scores of evaluations, schedules, memory readings and deaths of workers, all lengths of the two runs; random search, ASHA and AsyncEA", "why_tests_cant": "it compares two runs for every schedule and every moment at which the shorter one is stopped", "anchors": ["gama/gama.py: Gama.fit, _search_phase", "gama/utilities/generic/async_evaluator.py: AsyncEvaluator.wait_next, submit", "gama/search_methods/random_search.py: random_search", "gama/search_methods/async_ea.py: async_ea", "gama/search_methods/asha.py: asha"]}
{"id": "C179", "title": "more time does not give a worse model", "statement": "If fit (best pipeline as post-processing) is given more time, everything else being the same, the pipeline of its model does not have a worse score than that of the model of the shorter fit; and if the shorter fit returned a model so does the longer one (unless the memory use of processes cannot be read in the extra time, ValueError).", "quantifier": "all search spaces, options, warm starts, random numbers, numbers of workers, memory limits, outcomes and scores of evaluations, schedules and moments at which the shorter fit is stopped", "why_tests_cant": "it compares two runs for every schedule and every moment at which the shorter one is stopped", "anchors": ["gama/gama.py: Gama.fit, _search_phase", "gama/postprocessing/best_fit.py: BestFitPostProcessing", "gama/search_methods/random_search.py: random_search", "gama/search_methods/async_ea.py: async_ea", "gama/search_methods/asha.py: asha"]}
{"id": "C180", "title": "a higher limit on the number of evaluations goes on from where the lower one ended", "statement": "Compare two runs of a search function that differ only in the limit on the number of evaluations (max_evaluations of random_search, max_n_evaluations of async_ea, max_full_evaluations of asha; None: no limit). If the run with the lower limit reached it, all it submitted and all results it received, in order, are the beginning of those of the run with the higher limit; otherwise (stopped, or an exception) the other run is the same, with the same end. With random search the model made from the results with the higher limit is not worse.", "quantifier": "all pairs of limits, search spaces, options, warm starts, random numbers, numbers of workers, memory limits, outcomes and scores of evaluations, schedules, memory readings and deaths of workers; random search, ASHA and AsyncEA", "why_tests_cant": "it compares two runs for every schedule and every pair of limits", "anchors": ["gama/search_methods/random_search.py: random_search", "gama/search_methods/async_ea.py: async_ea", "gama/search_methods/asha.py: asha", "gama/utilities/generic/async_evaluator.py: AsyncEvaluator.wait_next, submit", "gama/postprocessing/best_fit.py: BestFitPostProcessing"]}
{"id": "C181", "title": "fit with random search, from the data to the answers, does not get worse with more time or a higher evaluation limit", "statement": "Take an object of any history and call fit with random search twice with the same arguments and in the same circumstances, except that in the second call the worker processes get to do more before the search is stopped (or the limit on the number of evaluations is higher, or none). If both calls return, both used the same search space, the same fixed preprocessing steps, the same training rows and the same start of the search; the pipelines evaluated in the first call are, with their scores, the first ones of the second; and each object answers predict with the model of the best pipeline of its call, trained on those rows. So the score of the second's model is not lower. And if the first call returned, so does the second, provided estimators can be made and trained.", "quantifier": "all data and targets, object histories, options, warm starts, number of workers, behaviours of the worker processes and scores, all continuations of what the workers do, all pairs of limits", "why_tests_cant": "It compares two whole calls of fit for every schedule of the worker processes and every continuation; a test runs one schedule, and two real runs are not comparable because timing differs.", "anchors": ["gama/gama.py: fit, _search_phase", "gama/search_methods/random_search.py: random_search", "gama/utilities/generic/async_evaluator.py: AsyncEvaluator", "gama/postprocessing/best_fit.py: BestFitPostProcessing"]}

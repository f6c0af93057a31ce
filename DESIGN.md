# Formal model of openml-labs/gama in Coq: design

## 1. Method

* The model lives in `rocq/theories` (logical name `Verif`). Each domain `X` of
  the code has
  * `X_Model.v`: definitions only. Every definition carries a comment that cites
    the file and lines of /repo it models and says where it simplifies;
  * `X_Spec.v`: the vocabulary the theorems are stated in, independent of the
    helpers of the model;
  * `X_Proofs*.v`: lemmas (`X_Examples.v`: concrete cases, where they are shared);
  * `X_Main.v`: the property theorems with their proofs;
  * `X_Props.v`: generated by `tools/mkprops.py`. It restates every property
    theorem, closes it by `exact`, and prints its assumptions. Start reading
    here: the statements, the comment before each, and `X_Spec.v` are enough to
    compare a theorem with its English property.
* Python exceptions are values (`res A := Ok a | Err e`). Stateful code is a
  state transformer whose state survives an exception, so that "nothing is
  changed on error" can be stated.
* Randomness: every function which draws takes a stream of naturals; each draw
  consumes one and reduces it modulo the number of choices. Quantifying over
  all streams covers all executions of Python's `random`.
* Concurrency: a labelled step relation (`Async`) or an arbitrary list of events
  given to the driver loop (`Search`). Quantifying over all step sequences and
  event lists covers all schedules, completion orders, failures and stop points.
* Loops that may run for ever have explicit fuel and return `Diverges` when it
  is used up; termination is a theorem, and so is non-termination.
* Objects that are shared or modified in place (pipelines, configuration
  dictionaries, the library, handlers, directories) are cells of an explicit
  heap or fields of an explicit state, so that aliasing can be stated.
* Scores are `pyfloat` (NaN, -inf, a rational, +inf) with IEEE comparison; the
  rounding of floating point arithmetic is not modelled (exact rationals).
* When a property is false of the code, the negation is proved with a concrete
  witness (`..._refuted`), and the largest true part next to it (`..._partial`,
  or a theorem without suffix when that part is a full property of its own).
  MANIFEST.json reports such properties as `partial`; the note says what is
  false and what is proved instead.

## 2. Properties: what is modelled and how it is proved

| id | domain | model | proof |
|----|--------|-------|-------|
| C01 | Gp | heap of primitive nodes, search space, operations/mutation/crossover | refinement to lists of steps; conformance invariant, induction over operation sequences |
| C02, C03, C05 | Gp | same | refinement lemma per operator gives the exact list effect, lengths follow |
| C04 | Gp | same | refuted by a concrete draw; partial: bound that holds |
| C06 | Gp | heap with allocation counter | frame theorem: cells of existing objects unchanged, result freshly allocated |
| C07-C12 | Gp | same | operator = list-level specification (`firstn`, insertion, one-place update, tail exchange) |
| C13, C14 | Gp | same | in-range theorem + refutation at the boundary position |
| C15, C16 | Gp | same | exact characterisation of when the operator fails; refutation |
| C17 | Gp | `try_until_new` over an arbitrary operator and lookup | induction on max_retry |
| C18 | Gp | `_valid_crossover_functions` | iff theorems |
| C19-C21 | Str | printer and the `split`/`find`-based parser on Coq strings | inversion by induction on the pipeline; refutation with a tuple value |
| C22-C26 | Par | `ParetoFront.update` loop, `eliminate_from_pareto` | invariant over lists of updates |
| C27-C31 | Nsga | NSGA-II: counters and dominated lists as in the code | invariants on the peeling loop |
| C32-C37 | Heap, Lib | heapq as a binary heap on a list, library state, cache directory as a finite map | invariants over histories; specification = the m largest |
| C38-C44 | Async | AsyncEvaluator: queues, futures, workers, kills | invariants on the step relation; refutations by schedules |
| C45-C53, C105-C107, C121 | Search | driver loops of async_ea, random search and ASHA over arbitrary events | invariants by induction on the events |
| C54-C57 | Ens | hill climbing over an abstract scorer, rational predictions | induction on additions |
| C58-C62, C108 | Eval | compile_individual, evaluate_pipeline, evaluate_individual over abstract estimators | equational, case analysis on the failure point |
| C63-C65 | Conf | configuration dictionaries as association lists, merging on a heap of dictionaries | induction on the configuration |
| C66-C70, C89, C94-C96 | Data | tables as lists of labelled rows, arff and csv text | induction on rows and lines |
| C71-C77, C101-C104 | Fac | Gama facade: constructor, fit phases, directory, callbacks | case analysis, induction on callbacks and fits |
| C78, C79 | Tk | TimeKeeper with clock readings as arguments | induction over activities |
| C80-C84, C98-C100 | Log | logger, report, handlers | induction over histories; text inversion |
| C85-C88, C90, C97 | Misc | hyperparameters, metrics, export, command line | case analysis, induction |
| C91-C93 | Cov (on Gp) | reachability: which results some random stream produces | construction of streams |
| C109-C115 | Pred | predict, score and the file variants on top of Data and Ens | case analysis, row-wise induction |
| C116-C120 | Fit | a whole call of fit as a state transformer over Fac, Data, Tk, Pred | composition of the phase theorems, induction over fits |
| C122-C125 | Ship (on Conf, Gp, Str) | the shipped configurations, generated by `tools/mkship.py` from the source | a boolean decision of "usable" that is proved correct and then evaluated once per configuration; the theorems about searches and pipelines follow from the general ones |
| C126 | Hist (on Lib, Ens) | the evaluation library over several calls of `fit` on one object: `gama.py:290-300`, `GamaClassifier.py:133` | an invariant on where estimators in library and ensemble come from; without sampling a sequence of fits is one history of saves, so C32-C34, C54, C55 apply |
| C127, C128 | Sys (on Search, Async) | the search methods (`async_ea.py`, `random_search.py`, `asha.py`) running on the evaluator with its worker processes (`async_evaluator.py`), instead of on its interface | simulation: every operation of the evaluator corresponds to one of the interface, with the finished job as event; C38-C44 as invariants; then all of C45-C53 applies; for C128 counting of jobs that are never returned |
| C129 | Pred | the entry checks of `predict`, `predict_proba`, `score` | case analysis over the state of the object and the kind of data |
| C130 | Async | `_control_memory_usage`, `_get_memory_usage`, `wait_next` | the counters of the evaluator equal counts of observable events, by induction over the schedule |
| C131 | Tk | `stopwatch.py` | induction over the blocks |
| C132, C133 | Rep (on Log) | the columns `GamaReport.update` derives, `successful_evaluations` | induction over the rows with the best value so far; C82 for the rows |
| C134 | Ens | `Ensemble.__str__` | refuted: the attributes it reads do not exist on `Evaluation`; partial: an ensemble without members |
| C135 | Str | `from_string` on texts of another search space | IndexError / RuntimeError / ValueError, decided by the first step that cannot be read |
| C136 | Elog | `EvaluationLogger` rows | partial: as long as nobody adds columns to the logger's dictionary; refuted: shared `fields` dictionary |
| C137 | Elog | `EvaluationLogger` columns | proved for the columns; refuted: the caller's `fields` dictionary is changed |
| C138 | Elog | extra columns of AsyncEA and ASHA | proved |
| C139 | Load | `arff_to_pandas` | proved for the frame; refuted: categories are those that occur, not the declared ones |
| C140 | Load | `csv_to_pandas` options and kinds | options proved; refuted: separator alone when sniffing fails, same kind in every file; partial: fewer rows |
| C141 | Stop | `__exit__`, `clear_queue` against the workers, with the queues' locks | partial: while no lock is left by a process that is gone; refuted: a worker stopped while it takes a job |
| C142 | Stop | stopping one worker | partial: unless it is reading a queue; refuted: then no job is ever started again |
| C143 | Det | the seeding of gama.py:277-279 and the searches of Sys with one worker | partial: AsyncEA, RandomSearch directly after the constructor; refuted: draws in between, two workers, ASHA |
| C144 | Evo | async_ea with the operators on pipelines, in _search_phase | search space proved; partial: lengths up to max(m, 2m-2), m refuted |
| C145 | Evo | same | proved |
| C146 | Evo | same, with the lookup table, earlier fits included | partial: or 50 attempts failed; refuted: always new; pipelines in flight; a later fit does what a new object does |
| C147 | Evo | same | goes on: partial (no limit, 2, or 1), refuted for limit 3; the complete list of exceptions is proved for all limits |
| C148 | Rnd | random_search with OperatorSet.individual, in _search_phase | proved |
| C149 | Rnd | the loop of asha with OperatorSet.individual, in _search_phase | proved (the choice of the best is C51) |
| C150 | End | fit with random_search and BestFitPostProcessing, down to the steps of the model | proved |
| C151 | End | the same with async_ea | partial: false in general (elimination can remove the best); true of the final population |
| C152 | End | the same with asha | proved |
| C153 | Mix | random search, library and ensemble together: who is in the ensemble | proved |
| C154 | Mix | the same with async_ea; the search and the library agree on what was evaluated | proved |
| C155 | Mix | the same with asha | partial: lower rungs do not count |
| C156 | Twice | ensembles of later calls of fit | partial: not with the default store |
| C157 | Seq | a Pareto front is a sequence in order of arrival | proved |
| C158 | Seq | the list of evaluations of a library; clear_cache | proved |
| C159 | Seq | short name and text of an individual | proved |
| C160 | Proc | evolutionary search on pipelines, on worker processes | proved |
| C161 | Proc | random search and ASHA on pipelines, on worker processes | proved |
| C162 | Proc | fit on worker processes | partial: C151 |
| C163 | Team | fit with an ensemble, on worker processes | partial: with ASHA lower rungs do not count (C155) |
| C164 | Again | fit of Proc and Team with one worker process, two runs compared | partial: random search, AsyncEA; ASHA given the order of its sets; refuted: two workers |
| C165-C167 | Limit | random search, AsyncEA, ASHA and fit on worker processes with a memory limit | C165 proved, C166 partial (AsyncEA as C151), C167 refuted |
| C168-C171 | Whole | fit as a whole: data, search on worker processes, best-fit model, answers; series of fits; when fit returns | C168 partial (AsyncEA as C151), C169 proved, C170 refuted with partial, C171 proved |
| C172 | Live | the searches of Proc under schedules in which every worker gets its turns | all searches proved (AsyncEA with its exceptions as in C160), refuted: killed workers, one result per round with restarts |
| C173 | Done | fit of Whole under schedules as in C172 | random search and ASHA proved, AsyncEA partial (no restarts; its exceptions as in C160), refuted: restarts |
| C174 | Top | number of results ASHA needs, for the end and for the top rung, with and without max_full_evaluations; fit then | proved |
| C175 | Ample | the searches and fit of Limit compared with those of Proc, memory use within the limit | proved |
| C176 | Crew | fit with an ensemble succeeds under schedules as in C172 | partial (the exception of C160; ASHA: on the top rung) |
| C177 | Quota | the searches and fit of Limit against those of Proc, by simulation | proved |
| C178 | Later | two runs of the searches of Limit, one with a longer plan, by simulation | proved |
| C179 | Later | the two models of fit; ASHA: the promotion replaces a better pipeline, AsyncEA: elimination | random search proved; false for ASHA and AsyncEA (also of the whole fit, Long) |
| C180 | More | two runs of the searches of Limit with different limits on evaluations, by simulation | proved |
| C181 | Long | two calls of fit (Whole) of one object that differ in what the workers get to do, or in the limit on evaluations; C178/C180 | proved |

## 3. Which parts of the code are modelled

`python3 tools/coverage.py -v` lists every function of /repo/gama and how many
of its statements some model comment cites. In words:

* genetic_programming: everything except `object_is_valid_pipeline`, the textual
  `short_name`/`__str__` of individuals, and the storing of arguments in
  `OperatorSet.__init__`.
* search_methods, postprocessing, utilities, logging, configuration,
  data_loading, data_formatting, GamaClassifier, GamaRegressor, gama.py: every
  function with behaviour of its own; listed by the tool are only accessors,
  abstract methods and `__repr__`-like texts.
* gama/dashboard (the dash application), documentation, examples and tests are
  not modelled.

Contracts of the libraries, which the theorems take as given (each is stated in
the comment of the definition that uses it; several are arguments of the
theorems and so hold for every behaviour of the library):

* Python: dict order, `list.sort` stability, `str.split`, `repr`/`str` of numbers
  and functions, `random.choice` and friends as draws from a stream, set order
  as an arbitrary permutation (`lists_set`).
* Eval: estimators are arbitrary functions that may fail at any point; the
  row labels of y are integers; the stratified sampler refuses unequal lengths.
* Data: category encoders and imputers are fitted column-wise functions; pandas
  boolean indexing aligns by label; LabelEncoder sorts the distinct labels and
  gives NaN its own class; csv without quoting.
* Pred: `astype`, recall_score and mean_squared_error as written in Pred_Spec.
* Ens: predictions are rational matrices; the scorer is an arbitrary function.
* Async: `multiprocessing` queues deliver in order and lose nothing; a killed
  process stops between two of its steps.  Stop: the same queues with the lock of
  their readers, as in CPython's `multiprocessing/queues.py` (`get` without waiting
  raises Empty if the lock is taken; a killed process does not release it).
* Det: `random.seed`/`np.random.seed` determine all later draws of the process; worker
  results do not depend on the random numbers of the main process.
* Evo: the evaluator through its interface (a job's result is any of the outstanding
  ones, as proved of Async); unpickling makes new objects with the same contents; the
  search stops only while it waits for a result.  A search begins with a `setting`: objects,
  random numbers and ids, and the texts of the pipelines that earlier fits of the object
  evaluated (any list; that it is what the library can look up, after every fit, is in Mix, C154).
* Rnd: as Evo; the evaluation library is left out (neither search reads it), max_rung is any
  integer, the order in which a set is iterated is arbitrary, and what asha returns, and the
  resources of a rung, are in Search.
* End: one call of fit (what earlier calls leave behind is the `setting`); the search phase as in Evo and Rnd, with the time limit only
  while it waits for a result; the model is the list of steps of the pipeline, its training
  is left out; constructing an estimator is a parameter.
* Mix: the library is filled after the search, from the results in the order of their
  arrival, and has its own stream of random numbers; estimators and predictions of an
  evaluation are a parameter.
* Twice: as Hist, with the removal of the cache directory between the calls; a search is the
  list of the evaluations it completed.
* Seq: the sequence interface of ParetoFront without slices; a loop over a front that changes
  meanwhile is not modelled; clear_cache with nothing in the directory but the library's files.
* Proc: the searches of Evo and Rnd on top of the worker processes of Async (without a memory
  limit), as Sys does for the searches on abstract individuals; what the workers and the
  operating system do is a plan, one turn for each submission and each look for a result.
* Team: fit with an ensemble, the searches of Proc followed by the library and the ensemble of Mix.
* Again: no new model. Two runs of the fit functions of Proc and Team with one worker process are compared;
  the evaluations are assumed to end the same way in both runs and no process is killed (as in Det).
* Limit: the programs of Proc with an evaluator that has a memory limit (`Async_Model.control`); memory readings
  are arbitrary functions of the process in every turn (`None`: the process no longer exists).
* Whole: `Fit_Model.fit` with the new individuals, searches (Proc) and post-processing (End) of the other models
  instead of arbitrary ones. An individual comes with the memory it lives in. Building and training estimators are
  arbitrary functions; what an evaluation does is an arbitrary function of the data, labels, deadline and pipeline.
  BestFitPostProcessing only, no memory limit. If a new individual cannot be made, the exception is
  raised by the search.
* Live: no model of its own; properties of the runs of Proc. A round is a piece of the schedule in which every worker
  takes a job, executes it and hands over its result, in this order, and after which results are visible to the main process.
* Done: no model of its own; Whole under the schedules of Live.
* Top: no model of its own; ASHA of Rnd, Proc and Whole.
* Ample: no new model; Limit against Proc. `lim` (proofs only) is the evaluator with another limit; `blind` programs do not notice it.
* Crew: no model of its own; the fits of Team with the schedules of Live and the bound of Top.
* Quota: no model of its own; Limit against Proc.
* Later: no model of its own; two runs of Limit, where the plan of one is the beginning of the plan of the other (what is done after the plan of the shorter one is over is not part of it: it is stopped while it waits).
* More: no model of its own; two runs of Limit with different limits on the number of evaluations.
* Long: no model of its own; two calls of fit of Whole on the same object, with more turns of the workers or a higher limit on the number of evaluations.
* Lib: files are a finite map from names; pickling is the identity.
* Log: `read_csv` without quoting; `float` and the pipeline parser of a report are
  parameters.
* Fac, Fit: times are whole seconds (`round(0.1 * total)` is exact below 2^50);
  search, post-processing, sampling and the clock are arbitrary functions of the
  call; log_loss refuses NaN labels.
* Misc: `str` of a scikit-learn transformer, the table of scorers; argparse is
  not modelled (its result is).
* Ship: which scikit-learn classes are transformers, classifiers or regressors;
  `np.arange` expanded with the usual rounding and `str` of the floats computed by
  the generator; two numbers are the same value iff `==`.

## 4. Trusted base

* The kernel of Coq 8.16.1, including its `vm_compute` conversion. No kernel
  check is switched off and no plugin is used.
* `Print Assumptions` after every theorem in the `*_Props.v` files reports
  "Closed under the global context": no axioms, neither our own nor of the
  standard library. (vcheck lists seven names of `Coq.ssr.ssrunder`; they are the
  opaque module of the standard ssreflect library, loaded through `Require`, and
  no theorem uses them.) Libraries used: the standard library only.
* The faithfulness of the `*_Model.v` files to /repo, argued by the line
  citations, and for `Ship_Model.v` the generator `tools/mkship.py`.
* That the statements in `*_Props.v` say what properties.jsonl says. This was
  tested with wrong programs: see the next section.

## 5. Wrong programs

`seeded/mutants_*.jsonl` holds edits of the model that correspond to realistic
bugs, `tools/mutate.py` and `tools/mutall.py` apply each one to a scratch copy,
rebuild and report which property theorems no longer go through.
`seeded/LOG.jsonl` has one line per attempt. Lemmas that fail are replaced by an
assumption in the scratch copy only, and a property theorem counts as failed when
its proof fails or depends on such a lemma; so the list can name more theorems
than those whose statement is false of the edited program. For every entry at
least one of the listed theorems was checked to be false of it. Where none was,
the statement was strengthened (field `tightened`).

(** Metrics (utilities/metrics.py), hyperparameters of search and post-processing
    (search_methods/base_search.py, asha.py, async_ea.py, postprocessing), the
    search space filter of GamaClassifier, code export (utilities/export.py) and
    the command line (utilities/cli.py). *)
From Verif Require Import Base Gp_Model Str_Model Data_Model.
Open Scope string_scope.
Open Scope list_scope.

(** * Metrics *)

(** metrics.py:7-10 *)
Definition averages : list string := ["macro"; "micro"; "samples"; "weighted"].
Definition classification_metrics : list string :=
  ["accuracy"; "roc_auc"; "average_precision"; "neg_log_loss"] ++
  flat_map (fun m => map (fun a => (m ++ "_" ++ a)%string) averages) ["precision"; "recall"; "f1"].
(** metrics.py:12-19 *)
Definition regression_metrics : list string :=
  ["explained_variance"; "r2"; "neg_mean_absolute_error"; "neg_mean_squared_log_error";
   "neg_median_absolute_error"; "neg_mean_squared_error"].
Definition mem (s : string) (l : list string) : bool := existsb (String.eqb s) l.

(** metrics.py:25-29 *)
Inductive task := Classification | Regression.
(** metrics.py:32-57.  [m_scorer] identifies the scorer object. *)
Record metric := mkMetric { m_name : string; m_task : task; m_proba : bool }.

(** Metric.__init__ with the name of a scorer (metrics.py:35-57).  [scorers]
    stands for scikit-learn's SCORERS: name and whether it is a _ProbaScorer.
    Simplification: the reverse lookup by [repr] finds the same name. *)
Definition metric_of_name (scorers : list (string * bool)) (n : string) : res metric :=
  match find (fun p => String.eqb n (fst p)) scorers with
  | None => Err ValueError
  | Some (_, proba) =>
    let p := proba || String.eqb n "roc_auc" in
    if mem n classification_metrics then Ok (mkMetric n Classification p)
    else if mem n regression_metrics then Ok (mkMetric n Regression p)
    else Err ValueError
  end.

(** What a user can pass as [scoring]: [one_pass] tells a generator or other
    iterator from a collection. *)
Inductive item := IName (n : string) | IMetric (m : metric) | IOther.
Inductive scoring := SName (n : string) | SMetric (m : metric) | SIter (one_pass : bool) (l : list item) | SOther.
Definition item_ok (i : item) : bool := match i with IOther => false | _ => true end.
Definition item_metric scorers (i : item) : res metric :=
  match i with IName n => metric_of_name scorers n | IMetric m => Ok m | IOther => Err TypeError end.
(** scoring_to_metric (metrics.py:66-83): [all(...)] goes through the iterable
    once; an iterator is then exhausted, so that the second pass sees nothing. *)
Definition scoring_to_metric (scorers : list (string * bool)) (s : scoring) : res (list metric) :=
  match s with
  | SName n => do m <- metric_of_name scorers n; Ok [m]
  | SMetric m => Ok [m]
  | SIter one_pass l =>
    if forallb item_ok l then rmap (item_metric scorers) (if one_pass then [] else l) else Err TypeError
  | SOther => Err TypeError
  end.

(** * Hyperparameters *)

(** Values: None, a number, any other object. *)
Inductive pyval := VNone | VNum (q : Q) | VObj (n : nat).
Definition is_none (v : pyval) : bool := match v with VNone => true | _ => false end.
(** base_search.py:18, base_post_processing.py:28: name -> (set value, default) *)
Definition hps := list (string * (pyval * pyval)).
(** base_search.py:36-48, base_post_processing.py:43-53 *)
Definition hyperparameters (h : hps) : list (string * pyval) :=
  map (fun p => (fst p, if is_none (fst (snd p)) then snd (snd p) else fst (snd p))) h.
Definition hp (h : hps) (n : string) : option pyval :=
  option_map snd (find (fun p => String.eqb n (fst p)) (hyperparameters h)).
(** _overwrite_hyperparameter_default, base_search.py:50-52,
    base_post_processing.py:55-57 *)
Fixpoint overwrite (n : string) (v : pyval) (h : hps) : res hps :=
  match h with
  | [] => Err KeyError
  | (m, (s, d)) :: h' => if String.eqb n m then Ok ((m, (s, v)) :: h') else do r <- overwrite n v h'; Ok ((m, (s, d)) :: r)
  end.
Fixpoint overwrites (ops : list (string * pyval)) (h : hps) : res hps :=
  match ops with [] => Ok h | (n, v) :: ops' => do h' <- overwrite n v h; overwrites ops' h' end.
(** AsyncEA.__init__, async_ea.py:32-45; not given arguments are None *)
Definition async_ea_hps (population_size max_n_evaluations restart_callback : pyval) : hps :=
  [("population_size", (population_size, VNum 50)); ("restart_callback", (restart_callback, VNone));
   ("max_n_evaluations", (max_n_evaluations, VNone))].
(** AsynchronousSuccessiveHalving.__init__, asha.py:39-53 *)
Definition asha_hps (reduction_factor minimum_resource maximum_resource minimum_early_stopping_rate : pyval) : hps :=
  [("reduction_factor", (reduction_factor, VNum 3)); ("minimum_resource", (minimum_resource, VNum (1 # 8)));
   ("maximum_resource", (maximum_resource, VNum 1)); ("minimum_early_stopping_rate", (minimum_early_stopping_rate, VNum 0))].
(** AsynchronousSuccessiveHalving.dynamic_defaults, asha.py:64-74; [rows] is
    len(y).  Comparing len(y) with an object that is no number raises TypeError. *)
Definition asha_dynamic (rows : nat) (h : hps) : res hps :=
  match find (fun p => String.eqb "maximum_resource" (fst p)) h with
  | None => Err KeyError
  | Some (_, (VNone, _)) => Ok h
  | Some (_, (VObj _, _)) => Err TypeError
  | Some (_, (VNum q, d)) =>
    if Qle_bool q (inject_Z (Z.of_nat rows)) then Ok h
    else Ok (map (fun p => if String.eqb "maximum_resource" (fst p) then (fst p, (VNone, d)) else p) h)
  end.
(** EnsemblePostProcessing.__init__, ensemble.py:31-62; the signature's defaults
    are 25, 10000 and 200 *)
Definition ensemble_hps (ensemble_size hillclimb_size max_models : pyval) : hps :=
  [("ensemble_size", (ensemble_size, VNum 25)); ("metric", (VNone, VNone)); ("evaluation_library", (VNone, VNone));
   ("hillclimb_size", (hillclimb_size, VNum 10000)); ("max_models", (max_models, VNum 200))].
(** EnsemblePostProcessing.dynamic_defaults, ensemble.py:65-69 *)
Definition ensemble_dynamic (metric library : pyval) (h : hps) : res hps :=
  overwrites [("metric", metric); ("evaluation_library", library)] h.

(** * Search space filter *)

(** A key of the search space: the name of shared options, or a class.  [k_new]
    is what calling the class without arguments gives: whether the object has
    predict_proba, or an exception. *)
Inductive key := KName (s : string) | KClass (id : nat) (is_classifier : bool) (k_new : res bool).
(** the condition of GamaClassifier.py:30-34 *)
Definition lacks_proba (k : key) : res bool :=
  match k with KClass _ true new => do b <- new; Ok (negb b) | _ => Ok false end.
Fixpoint keep_proba {B} (space : list (key * B)) : res (list (key * B)) :=
  match space with
  | [] => Ok []
  | (k, v) :: r => do l <- lacks_proba k; do r' <- keep_proba r; Ok (if l then r' else (k, v) :: r')
  end.
(** GamaClassifier.__init__, GamaClassifier.py:18-35: the metrics and the search
    space passed on to Gama.__init__.  [default] stands for clf_config, taken
    when the argument is None or empty. *)
Definition classifier_space {B} scorers (default : list (key * B)) (arg : option (list (key * B))) (s : scoring)
  : res (list metric * list (key * B)) :=
  let space := match arg with Some (x :: l) => x :: l | _ => default end in
  do ms <- scoring_to_metric scorers s;
  do space' <- (if existsb m_proba ms then keep_proba space else Ok space);
  Ok (ms, space').

(** * Code export *)

(** [", ".join(l)] *)
Fixpoint join (sep : string) (l : list string) : string :=
  match l with
  | [] => ""
  | [x] => x
  | x :: r => (x ++ sep ++ join sep r)%string
  end.
(** A preprocessing transformer: its class, and its [str] once a fitted mapping
    is removed (export.py:8-14).  *)
Record transformer := mkTrans { tr_module : string; tr_class : string; tr_str : string }.
(** A node of an individual, main node first (individual.py:63-71): its
    primitive and its terminals. *)
Definition node := (primitive * list terminal)%type.
(** An estimator in a pipeline: one made from a node, by calling the class with
    keyword arguments, or a preprocessing transformer. *)
Inductive est := Made (p : primitive) (kwargs : list (string * value)) | Fixed (t : transformer).
(** A dict built from (key, value) pairs in order: a repeated key keeps its
    place and gets the last value. *)
Fixpoint dset (k : string) (v : value) (d : list (string * value)) : list (string * value) :=
  match d with
  | [] => [(k, v)]
  | (k', v') :: r => if String.eqb k k' then (k, v) :: r else (k', v') :: dset k v r
  end.
Definition dict_of (l : list (string * value)) : list (string * value) := fold_left (fun d p => dset (fst p) (snd p) d) l [].
(** primitive_node_to_sklearn, compilers/scikitlearn.py:26-30 *)
Definition node_to_est (n : node) : est := Made (fst n) (dict_of (map (fun t => (t_output t, t_value t)) (snd n))).
(** compile_individual, scikitlearn.py:33-44; the extra preprocessing steps are
    bound when the individual is created (operator_set.py:75-80, gama.py:547) *)
Definition compile (ind : list node) (pre : list (string * transformer)) : list (string * est) :=
  rev (map (fun ip => (str_of_nat (fst ip), node_to_est (snd ip))) (enumerate ind) ++
       rev (map (fun p => (fst p, Fixed (snd p))) pre)).
(** PrimitiveNode.str_nonrecursive, primitive_node.py:41-49 *)
Definition str_nonrecursive (n : node) : string :=
  (p_name (fst n) ++ "(" ++ join ", " (map term_str (snd n)) ++ ")")%string.
(** format_import, export.py:17-23 *)
Definition format_import (module name : string) : string :=
  let parts := split "." module in
  ("from " ++ (if starts_with "_" (last parts "") then join "." (removelast parts) else module) ++ " import " ++ name)%string.
(** format_pipeline, export.py:26-28 *)
Definition format_pipeline (steps : list (string * string)) (name : string) : string :=
  (name ++ " = Pipeline([" ++ join (",
" : string) (map (fun s => "('" ++ fst s ++ "', " ++ snd s ++ ")")%string steps) ++ "])
")%string.
Section Export.
(** [class_module]: the module of a primitive's class; [value_module]: the
    module of a callable value *)
Context (class_module : nat -> string) (value_module : value -> string).
Definition est_import (e : est) : string :=
  match e with
  | Made p _ => format_import (class_module (p_class p)) (p_name p)
  | Fixed t => format_import (tr_module t) (tr_class t)
  end.
Definition callable_import (t : terminal) : list string :=
  match v_kind (t_value t) with
  | KCallable => [("from " ++ value_module (t_value t) ++ " import " ++ v_text (t_value t))%string]
  | _ => []
  end.
(** An individual with the preprocessing steps its [pipeline] uses. *)
Record bound := mkBound { b_nodes : list node; b_pre : list (string * transformer) }.
Definition pipeline (i : bound) : list (string * est) := compile (b_nodes i) (b_pre i).
(** The individuals of a fit: those it starts from (gama.py:626-633), new ones,
    which get the preprocessing steps of this fit (operator_set.py:75-80,
    gama.py:547-550), and copies, which keep those of the original
    (individual.py:135-137). *)
Inductive created (extension : list (string * transformer)) (start : list bound) : bound -> Prop :=
| cr_start i : In i start -> created extension start i
| cr_new nodes : created extension start (mkBound nodes extension)
| cr_copy i nodes : created extension start i -> created extension start (mkBound nodes (b_pre i)).
(** imports_and_steps_for_individual, export.py:31-54 (the set as a list) *)
Definition imports_and_steps (i : bound) : list string * list (string * string) :=
  (["from numpy import nan"; "from sklearn.pipeline import Pipeline"] ++
   map (fun s => est_import (snd s)) (pipeline i) ++
   flat_map (fun ip => flat_map callable_import (snd (snd ip))) (rev (enumerate (b_nodes i))),
   map (fun ip => (str_of_nat (fst ip), str_nonrecursive (snd ip))) (rev (enumerate (b_nodes i)))).
(** The set of import lines is written out in some order. *)
Definition as_set (order : list string -> list string) (l : list string) : list string := order (nodup string_dec l).
(** BestFitPostProcessing.to_code, best_fit.py:28-43 *)
Definition best_fit_code order (selected : option bound) (pre : option (list (string * transformer))) : res string :=
  match selected with
  | None => Err RuntimeError
  | Some i =>
    let (imports, steps) := imports_and_steps i in
    let '(imports, steps) := match pre with
      | Some l => (imports ++ map (fun p => format_import (tr_module (snd p)) (tr_class (snd p))) l,
                   combine (map fst l) (map (fun p => tr_str (snd p)) l) ++ steps)
      | None => (imports, steps)
      end in
    Ok (join "
" (as_set order imports) ++ "

" ++ format_pipeline steps "pipeline")%string
  end.
(** Gama.export_script, gama.py:663-714, up to writing the file: [model] tells
    whether a fit completed, [encoding] the steps of the encoding pipeline *)
Definition export_script order (model : bool) (selected : option bound)
    (encoding : option (list (string * transformer))) (extension : list (string * transformer)) : res string :=
  if model then best_fit_code order selected (Some (match encoding with Some e => e ++ extension | None => extension end))
  else Err RuntimeError.
(** EnsemblePostProcessing.to_code, ensemble.py:84-132: [models] are the members
    with their weights in the order of the ensemble; [classifier] tells an
    EnsembleClassifier, with whether its metric needs probabilities *)
Definition str_weights (ws : list nat) : string := ("[" ++ join ", " (map str_of_nat ws) ++ "]")%string.
Definition ensemble_code order (classifier : option bool) (models : list (bound * nat)) (pre : option (list (string * transformer))) : string :=
  let voter := match classifier with Some _ => "VotingClassifier" | None => "VotingRegressor" end in
  let imports := [("from sklearn.ensemble import " ++ voter)%string; "from sklearn.pipeline import Pipeline"] ++
    flat_map (fun m => fst (imports_and_steps (fst m))) models ++
    match pre with Some l => map (fun p => format_import (tr_module (snd p)) (tr_class (snd p))) l | None => [] end in
  let pipelines := map (fun im => format_pipeline (snd (imports_and_steps (fst (snd im)))) ("pipeline_" ++ str_of_nat (fst im))%string) (enumerate models) in
  let estimators := join "," (map (fun i => "('" ++ str_of_nat i ++ "', pipeline_" ++ str_of_nat i ++ ")")%string (seq 0 (length pipelines))) in
  let voting := match classifier with Some true => ", voting='soft'" | Some false => ", voting='hard'" | None => "" end in
  (join "
" (as_set order imports) ++ "

" ++ join "

" pipelines ++ "
" ++ "ensemble = " ++ voter ++ "([" ++ estimators ++ "]" ++ voting ++ ", weights=" ++ str_weights (map snd models) ++ ")
" ++ match pre with
     | Some l => format_pipeline (combine (map fst l) (map (fun p => tr_str (snd p)) l) ++ [("ensemble", "ensemble")]) "pipeline"
     | None => ""
     end)%string.
End Export.

(** * Command line *)

(** cli.py:14-129: the parsed arguments *)
Record args := mkArgs {
  a_input : string; a_sep : option string; a_target : option string; a_output : string; a_python : option string;
  a_mode : option string; a_metric : option string; a_short : bool; a_time : Z; a_eval_time : Z; a_jobs : Z;
  a_outdir : option string; a_verbose : bool; a_dry : bool }.
(** the keyword arguments of cli.py:161-171 *)
Record cfg := mkCfg {
  g_regularize : bool; g_total : Z; g_eval : Z; g_jobs : Z; g_info : bool; g_outdir : option string;
  g_store : string; g_scoring : option string }.
Inductive automl := AClassifier | ARegressor.
(** Visible effects, in order: reading a data file, constructing Gama, fit,
    writing the model, exporting code, removing the output directory. *)
Inductive effect := Read (path : string) (sep target : option string) | Construct (c : automl) (k : cfg)
  | Fit | Dump (path : string) | Export (path : string) | Cleanup.
(** main, cli.py:132-193.  [exists_] is os.path.exists; [load] X_y_from_file,
    giving whether the target is categorical; [build] and [fit] the outcome of
    the constructor and of fit.  [args.seperator] is not an attribute. *)
Definition cli_main (exists_ : string -> bool) (load : string -> option string -> option string -> res bool)
    (build : automl -> cfg -> res unit) (fit : res unit) (a : args) : list effect * res unit :=
  let path := lower (a_input a) in
  if negb (exists_ path) then ([], Err FileNotFoundError)
  else if negb (mem (last (split "." path) "") ["csv"; "arff"]) then ([], Err ValueError)
  else if ends_with ".csv" path && match a_sep a with Some _ => true | None => false end then ([], Err AttributeError)
  else
    let e0 := [Read path None (a_target a)] in
    match load path None (a_target a) with
    | Err e => (e0, Err e)
    | Ok categorical =>
      let mode := match a_mode a with Some m => m | None => if categorical then "classification" else "regression" end in
      let k := mkCfg (a_short a) (a_time a * 60) (a_eval_time a * 60) (a_jobs a) (a_verbose a) (a_outdir a)
                     (if a_dry a then "nothing" else "logs") (match a_metric a with Some "" => None | m => m end) in
      if String.eqb mode "regression" || String.eqb mode "classification" then
        let c := if String.eqb mode "regression" then ARegressor else AClassifier in
        let e1 := e0 ++ [Construct c k] in
        match build c k with
        | Err e => (e1, Err e)
        | Ok _ =>
          if a_dry a then (e1 ++ [Cleanup], Ok tt)
          else match fit with
               | Err e => (e1 ++ [Fit], Err e)
               | Ok _ => (e1 ++ [Fit; Dump (a_output a)] ++ match a_python a with Some p => [Export p] | None => [] end, Ok tt)
               end
        end
      else (e0, Err ValueError)
    end.

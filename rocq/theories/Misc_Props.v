(** Property theorems; proofs in Misc_Main.v. *)
From Verif Require Import Base Gp_Model Str_Model Str_Spec Data_Model Misc_Model Misc_Spec.
Open Scope string_scope.
Open Scope list_scope.
From Verif Require Import Misc_Main.

(** C85, where None means "not given": for every hyperparameter the user's
    value, else the last dynamic default, else the static one, after any
    sequence of overwrites. *)
Theorem C85_precedence_partial :
  forall h ops h' n user static,
    NoDup (map fst h) -> In (n, (user, static)) h -> overwrites ops h = Ok h' ->
    hp h' n = Some (effective user static n ops).
Proof. exact C85_precedence_partial_main. Qed.
Print Assumptions C85_precedence_partial.

(** The classes of the package: what they are constructed with is what they
    return, with the static defaults of the documentation; dynamic defaults of
    the ensemble set the metric and the library. *)
Theorem C85_classes :
  forall a b c d,
    (let h := async_ea_hps a b c in
     hp h "population_size" = Some (effective a (VNum 50) "population_size" []) /\
     hp h "max_n_evaluations" = Some b /\ hp h "restart_callback" = Some c) /\
    (let h := asha_hps a b c d in
     hp h "reduction_factor" = Some (effective a (VNum 3) "" []) /\
     hp h "minimum_resource" = Some (effective b (VNum (1 # 8)) "" []) /\
     hp h "maximum_resource" = Some (effective c (VNum 1) "" []) /\
     hp h "minimum_early_stopping_rate" = Some (effective d (VNum 0) "" [])) /\
    (forall metric lib, exists h, ensemble_dynamic metric lib (ensemble_hps a b c) = Ok h /\
     hp h "metric" = Some metric /\ hp h "evaluation_library" = Some lib /\
     hp h "ensemble_size" = Some (effective a (VNum 25) "" []) /\
     hp h "hillclimb_size" = Some (effective b (VNum 10000) "" []) /\
     hp h "max_models" = Some (effective c (VNum 200) "" [])).
Proof. exact C85_classes_main. Qed.
Print Assumptions C85_classes.

(** C85 is false where None is a documented value: "If None, use all" of
    max_models and hillclimb_size gives the static default. *)
Theorem C85_none_refuted :
  forall size h metric lib,
    ensemble_dynamic metric lib (ensemble_hps size VNone VNone) = Ok h ->
    hp h "max_models" = Some (VNum 200) /\ hp h "hillclimb_size" = Some (VNum 10000).
Proof. exact C85_none_refuted_main. Qed.
Print Assumptions C85_none_refuted.

(** ASHA drops the user's maximum_resource exactly when it exceeds the rows. *)
Theorem C85_asha_dropped_refuted :
  forall rows a b q d, exists h, asha_dynamic rows (asha_hps a b (VNum q) d) = Ok h /\
    hp h "maximum_resource" = Some (VNum (if Qle_bool q (inject_Z (Z.of_nat rows)) then q else 1)).
Proof. exact C85_asha_dropped_refuted_main. Qed.
Print Assumptions C85_asha_dropped_refuted.

(** And it stays dropped for later fits, however many rows these have. *)
Theorem C85_asha_lost_refuted :
  forall rows rows' a b q d h, Qle_bool q (inject_Z (Z.of_nat rows)) = false ->
    asha_dynamic rows (asha_hps a b (VNum q) d) = Ok h -> asha_dynamic rows' h = Ok h /\ hp h "maximum_resource" = Some (VNum 1).
Proof. exact C85_asha_lost_refuted_main. Qed.
Print Assumptions C85_asha_lost_refuted.

(** A maximum_resource that is not a number is refused with TypeError; without one
    nothing is changed. *)
Theorem C85_asha_other :
  forall rows a b n d, asha_dynamic rows (asha_hps a b (VObj n) d) = Err TypeError /\
    asha_dynamic rows (asha_hps a b VNone d) = Ok (asha_hps a b VNone d).
Proof. exact C85_asha_other_main. Qed.
Print Assumptions C85_asha_other.

(** An unknown name is refused. *)
Theorem C85_unknown :
  forall h n v, ~ In n (map fst h) -> overwrite n v h = Err KeyError.
Proof. exact C85_unknown_main. Qed.
Print Assumptions C85_unknown.

Example C85_ex :
  exists h', overwrites [("metric", VObj 1); ("max_models", VNum 7); ("metric", VObj 2)] (ensemble_hps VNone (VNum 5) VNone) = Ok h' /\
  hp h' "metric" = Some (VObj 2) /\ hp h' "max_models" = Some (VNum 7) /\ hp h' "hillclimb_size" = Some (VNum 5) /\
  NoDup (map fst (ensemble_hps VNone (VNum 5) VNone)) /\
  exists h2, asha_dynamic 500 (asha_hps VNone VNone (VNum 1000) VNone) = Ok h2 /\ hp h2 "maximum_resource" = Some (VNum 1).
Proof. exact C85_ex_main. Qed.

(** C86, for a name, a Metric, and collections that can be iterated twice: one
    metric per item, in order, with the right task type. *)
Theorem C86_collections_partial :
  forall scorers l, Forall (good_item scorers) l ->
    exists ms, scoring_to_metric scorers (SIter false l) = Ok ms /\ Forall2 (is_metric_of scorers) l ms.
Proof. exact C86_collections_partial_main. Qed.
Print Assumptions C86_collections_partial.

Theorem C86_single :
  forall scorers n m,
    scoring_to_metric scorers (SMetric m) = Ok [m] /\
    (known scorers n -> exists m', scoring_to_metric scorers (SName n) = Ok [m'] /\ is_metric_of scorers (IName n) m') /\
    (~ known scorers n -> scoring_to_metric scorers (SName n) = Err ValueError).
Proof. exact C86_single_main. Qed.
Print Assumptions C86_single.

(** A TypeError for anything that is no iterable, or holds an item that is
    neither a name nor a Metric; a ValueError for unknown names in a collection. *)
Theorem C86_type_error :
  forall scorers s, s = SOther \/ (exists b l, s = SIter b l /\ In IOther l) -> scoring_to_metric scorers s = Err TypeError.
Proof. exact C86_type_error_main. Qed.
Print Assumptions C86_type_error.

Theorem C86_unknown_name :
  forall scorers l n, ~ In IOther l -> In (IName n) l -> ~ known scorers n -> scoring_to_metric scorers (SIter false l) = Err ValueError.
Proof. exact C86_unknown_name_main. Qed.
Print Assumptions C86_unknown_name.

(** C86 is false for generators and other iterators: the result is empty. *)
Theorem C86_generator_refuted :
  forall scorers l, Forall (good_item scorers) l -> scoring_to_metric scorers (SIter true l) = Ok [].
Proof. exact C86_generator_refuted_main. Qed.
Print Assumptions C86_generator_refuted.

Example C86_ex :
  let scorers := [("accuracy", false); ("neg_log_loss", true); ("r2", false); ("roc_auc", false); ("max_error", false)] in
  Forall (good_item scorers) [IName "neg_log_loss"; IMetric (mkMetric "f1_macro" Classification false); IName "r2"] /\
  scoring_to_metric scorers (SIter false [IName "neg_log_loss"; IMetric (mkMetric "f1_macro" Classification false); IName "r2"]) =
    Ok [mkMetric "neg_log_loss" Classification true; mkMetric "f1_macro" Classification false; mkMetric "r2" Regression false] /\
  scoring_to_metric scorers (SName "roc_auc") = Ok [mkMetric "roc_auc" Classification true] /\
  ~ known scorers "max_error".
Proof. exact C86_ex_main. Qed.

(** C87: when a metric needs probabilities, exactly the classifiers that lack
    them are left out, in order, hyperparameters untouched. *)
Theorem C87_probabilities :
  forall B scorers (default : list (key * B)) arg s ms space,
    classifier_space scorers default arg s = Ok (ms, space) -> (exists m, In m ms /\ m_proba m = true) ->
    let given := match arg with Some (x :: l) => x :: l | _ => default end in
    (forall k v, In (k, v) space <-> In (k, v) given /\ ~ no_probabilities k) /\
    (forall id new v, In (KClass id true new, v) space -> new = Ok true) /\
    (exists keep : key * B -> bool, space = filter keep given) /\
    scoring_to_metric scorers s = Ok ms.
Proof. exact C87_probabilities_main. Qed.
Print Assumptions C87_probabilities.

Theorem C87_unchanged :
  forall B scorers (default : list (key * B)) arg s ms,
    scoring_to_metric scorers s = Ok ms -> (forall m, In m ms -> m_proba m = false) ->
    classifier_space scorers default arg s = Ok (ms, match arg with Some (x :: l) => x :: l | _ => default end).
Proof. exact C87_unchanged_main. Qed.
Print Assumptions C87_unchanged.

(** The constructor only fails here on the metric, or on a classifier whose
    class cannot be called without arguments. *)
Theorem C87_total :
  forall B scorers (default : list (key * B)) arg s ms,
    scoring_to_metric scorers s = Ok ms ->
    (forall id e v, ~ In (KClass id true (Err e), v) (match arg with Some (x :: l) => x :: l | _ => default end)) ->
    exists space, classifier_space scorers default arg s = Ok (ms, space).
Proof. exact C87_total_main. Qed.
Print Assumptions C87_total.

Example C87_ex :
  let scorers := [("accuracy", false); ("neg_log_loss", true)] in
  let space := [(KName "alpha", 0); (KClass 1 true (Ok true), 1); (KClass 2 true (Ok false), 2); (KClass 3 false (Err TypeError), 3)] in
  classifier_space scorers [] (Some space) (SName "neg_log_loss") =
    Ok ([mkMetric "neg_log_loss" Classification true], [(KName "alpha", 0); (KClass 1 true (Ok true), 1); (KClass 3 false (Err TypeError), 3)]) /\
  classifier_space scorers space None (SName "accuracy") = Ok ([mkMetric "accuracy" Classification false], space).
Proof. exact C87_ex_main. Qed.

(** C88, for individuals created by a first fit: the exported script defines the
    pipeline of the steps the fitted model applies (encoding, fixed steps, then
    the individual's), in order, under the same names; every class and callable
    it mentions is imported. *)
Theorem C88_first_fit_partial :
  forall class_module value_module order encoding extension i,
    created extension [] i -> distinct_args i -> reorders order ->
    exists imports,
      export_script class_module value_module order true (Some i) (Some encoding) extension =
        Ok (join "
" imports ++ "

" ++ pipeline_text "pipeline" (step_texts (applied encoding i)))%string /\
      (forall s, In s (applied encoding i) -> ~ top_private (fst (est_class class_module (snd s))) ->
         exists line, In line imports /\ imports_class (est_class class_module (snd s)) line) /\
      (forall n t, In n (b_nodes i) -> In t (snd n) -> v_kind (t_value t) = KCallable ->
         In ("from " ++ value_module (t_value t) ++ " import " ++ v_text (t_value t))%string imports) /\
      In "from numpy import nan" imports /\ In "from sklearn.pipeline import Pipeline" imports.
Proof. exact C88_first_fit_partial_main. Qed.
Print Assumptions C88_first_fit_partial.

(** The same for later fits, when the fixed steps did not change. *)
Theorem C88_same_extension_partial :
  forall class_module value_module order encoding extension start i,
    Forall (fun j => b_pre j = extension) start -> created extension start i -> distinct_args i -> reorders order ->
    exists imports,
      export_script class_module value_module order true (Some i) (Some encoding) extension =
        Ok (join "
" imports ++ "

" ++ pipeline_text "pipeline" (step_texts (applied encoding i)))%string /\
      (forall s, In s (applied encoding i) -> ~ top_private (fst (est_class class_module (snd s))) ->
         exists line, In line imports /\ imports_class (est_class class_module (snd s)) line).
Proof. exact C88_same_extension_partial_main. Qed.
Print Assumptions C88_same_extension_partial.

(** Nothing else is imported for a class in a private module of its own: the
    line lacks the module, so the script does not even parse. *)
Theorem C88_private_module_refuted :
  forall class_module value_module order encoding i s,
    distinct_args i -> reorders order -> In s (applied encoding i) -> top_private (fst (est_class class_module (snd s))) ->
    exists imports,
      export_script class_module value_module order true (Some i) (Some encoding) (b_pre i) =
        Ok (join "
" imports ++ "

" ++ pipeline_text "pipeline" (step_texts (applied encoding i)))%string /\
      In ("from  import " ++ snd (est_class class_module (snd s)))%string imports.
Proof. exact C88_private_module_refuted_main. Qed.
Print Assumptions C88_private_module_refuted.

Example C88_private_module_ex : top_private "_mine" /\ ~ top_private "mine._mine" /\ private_in "mine" "mine._mine" /\
  export_script (fun _ => "_mine") (fun _ => "") (fun l => l) true (Some (mkBound [(mkPrim [] "prediction" 1 "Tree", [])] [])) (Some []) [] =
  Ok "from numpy import nan
from sklearn.pipeline import Pipeline
from  import Tree

pipeline = Pipeline([('0', Tree())])
".
Proof. exact C88_private_module_ex_main. Qed.

(** Steps of the fitted pipeline: main node last, numbered from the end. *)
Theorem C88_order :
  forall encoding i, distinct_args i ->
    map fst (applied encoding i) = map fst encoding ++ map fst (b_pre i) ++ rev (map str_of_nat (seq 0 (length (b_nodes i)))) /\
    map snd (applied encoding i) = map (fun p => Fixed (snd p)) encoding ++ map (fun p => Fixed (snd p)) (b_pre i) ++
      rev (map (fun n => Made (fst n) (map (fun t => (t_output t, t_value t)) (snd n))) (b_nodes i)).
Proof. exact C88_order_main. Qed.
Print Assumptions C88_order.

(** C88 is false for a second fit whose fixed steps differ: individuals taken
    over from the first fit still apply the old ones; the script has the new. *)
Theorem C88_refit_refuted :
  exists ext1 ext2 i, created ext1 [] i /\ created ext2 [i] i /\ distinct_args i /\
    forall cm vm, exists imports, export_script cm vm (fun l => l) true (Some i) (Some []) ext2 =
      Ok (join "
" imports ++ "

" ++ pipeline_text "pipeline" (fixed_texts ext2 ++ [("0", "LinearSVR(C=1)")]))%string /\
    step_texts (applied [] i) = fixed_texts ext1 ++ [("0", "LinearSVR(C=1)")] /\ fixed_texts ext1 <> fixed_texts ext2.
Proof. exact C88_refit_refuted_main. Qed.
Print Assumptions C88_refit_refuted.

(** Before a fit, and before the post-processing has selected an individual, there is
    nothing to export. *)
Theorem C88_unfitted :
  forall cm vm order model sel enc ext, model = false \/ sel = None -> export_script cm vm order model sel enc ext = Err RuntimeError.
Proof. exact C88_unfitted_main. Qed.
Print Assumptions C88_unfitted.

Example C88_ex :
  exists i, created [("imputation", mkTrans "sklearn.impute._base" "SimpleImputer" "SimpleImputer(strategy='median')")] [] i /\
    distinct_args i /\ length (b_nodes i) = 2 /\
    export_script (fun c => if c =? 1 then "sklearn.naive_bayes" else "sklearn.decomposition._pca")%nat (fun _ => "") (fun l => l) true (Some i)
      (Some [("ord-enc", mkTrans "category_encoders.ordinal" "OrdinalEncoder" "OrdinalEncoder(cols=[])")])
      [("imputation", mkTrans "sklearn.impute._base" "SimpleImputer" "SimpleImputer(strategy='median')")] =
    Ok "from numpy import nan
from sklearn.pipeline import Pipeline
from sklearn.decomposition import PCA
from sklearn.naive_bayes import BernoulliNB
from category_encoders.ordinal import OrdinalEncoder
from sklearn.impute import SimpleImputer

pipeline = Pipeline([('ord-enc', OrdinalEncoder(cols=[])),
('imputation', SimpleImputer(strategy='median')),
('1', PCA(svd_solver='randomized')),
('0', BernoulliNB(alpha=0.1, fit_prior=True))])
".
Proof. exact C88_ex_main. Qed.

(** C97: the script of an ensemble defines one pipeline per member, in order,
    with its weight; put after the fixed steps it applies what the fitted
    member applies. *)
Theorem C97_ensemble_script :
  forall class_module value_module order classifier models encoding extension,
    Forall (fun m => b_pre (fst m) = extension /\ distinct_args (fst m)) models ->
    exists imports member_steps,
      ensemble_code class_module value_module order classifier models (Some (encoding ++ extension)) =
        (join "
" imports ++ "

" ++ join "

" (map (fun im => pipeline_text ("pipeline_" ++ str_of_nat (fst im)) (snd im)) (enumerate member_steps)) ++ "
ensemble = " ++ match classifier with Some _ => "VotingClassifier" | None => "VotingRegressor" end ++
        "([" ++ join "," (map (fun i => "('" ++ str_of_nat i ++ "', pipeline_" ++ str_of_nat i ++ ")") (seq 0 (length models))) ++ "]" ++
        match classifier with Some true => ", voting='soft'" | Some false => ", voting='hard'" | None => "" end ++
        ", weights=[" ++ join ", " (map (fun m => str_of_nat (snd m)) models) ++ "])
" ++ pipeline_text "pipeline" (fixed_texts (encoding ++ extension) ++ [("ensemble", "ensemble")]))%string /\
      Forall2 (fun m steps => fixed_texts (encoding ++ extension) ++ steps = step_texts (applied encoding (fst m))) models member_steps /\
      (reorders order -> forall m s, In m models -> In s (applied encoding (fst m)) -> ~ top_private (fst (est_class class_module (snd s))) ->
         exists line, In line imports /\ imports_class (est_class class_module (snd s)) line) /\
      (reorders order -> In ("from sklearn.ensemble import " ++ match classifier with Some _ => "VotingClassifier" | None => "VotingRegressor" end)%string imports /\
         In "from sklearn.pipeline import Pipeline" imports).
Proof. exact C97_ensemble_script_main. Qed.
Print Assumptions C97_ensemble_script.

Example C97_ex :
  exists models, Forall (fun m => b_pre (fst m) = [] /\ distinct_args (fst m)) models /\
    ensemble_code (fun _ => "m") (fun _ => "") (fun l => l) (Some true) models None =
"from sklearn.ensemble import VotingClassifier
from m import A
from numpy import nan
from sklearn.pipeline import Pipeline
from m import B

pipeline_0 = Pipeline([('0', A())])


pipeline_1 = Pipeline([('0', B())])

ensemble = VotingClassifier([('0', pipeline_0),('1', pipeline_1)], voting='soft', weights=[2, 1])
".
Proof. exact C97_ex_main. Qed.

(** C90 is false: every csv file given with -sep fails. *)
Theorem C90_separator_refuted :
  forall exists_ load build fit a s,
    a_sep a = Some s -> (exists stem, lower (a_input a) = (stem ++ ".csv")%string) ->
    cli_main exists_ load build fit a = ([], Err AttributeError) \/ cli_main exists_ load build fit a = ([], Err FileNotFoundError).
Proof. exact C90_separator_refuted_main. Qed.
Print Assumptions C90_separator_refuted.

(** C90 is false: an existing file whose path has capitals is not read. *)
Theorem C90_capitals_refuted :
  forall exists_ load build fit a, lower (a_input a) <> a_input a ->
    exists_ (a_input a) = true ->
    (exists_ (lower (a_input a)) = false -> cli_main exists_ load build fit a = ([], Err FileNotFoundError)) /\
    (forall sep target, ~ In (Read (a_input a) sep target) (fst (cli_main exists_ load build fit a))).
Proof. exact C90_capitals_refuted_main. Qed.
Print Assumptions C90_capitals_refuted.

(** Otherwise the given file is read, the mode is the requested one or follows
    from the target, the options reach the constructor, and the model and the
    code are written where asked, or nothing is fitted in a dry run. *)
Theorem C90_run_partial :
  forall exists_ load build fit a categorical,
    lower (a_input a) = a_input a -> exists_ (a_input a) = true -> In (last (split "." (a_input a)) "") ["csv"; "arff"] -> a_sep a = None ->
    load (a_input a) None (a_target a) = Ok categorical ->
    let c := mode_of a categorical in
    exists k, g_regularize k = a_short a /\ g_total k = (a_time a * 60)%Z /\ g_eval k = (a_eval_time a * 60)%Z /\ g_jobs k = a_jobs a /\
      g_info k = a_verbose a /\ g_outdir k = a_outdir a /\ (a_metric a <> Some "" -> g_scoring k = a_metric a) /\
      g_store k = (if a_dry a then "nothing" else "logs") /\
    (c <> "classification" -> c <> "regression" -> cli_main exists_ load build fit a = ([Read (a_input a) None (a_target a)], Err ValueError)) /\
    (forall cls, cls = (if String.eqb c "regression" then ARegressor else AClassifier) -> c = "classification" \/ c = "regression" ->
       (forall e, build cls k = Err e -> cli_main exists_ load build fit a = ([Read (a_input a) None (a_target a); Construct cls k], Err e)) /\
       (build cls k = Ok tt ->
         (a_dry a = true -> cli_main exists_ load build fit a = ([Read (a_input a) None (a_target a); Construct cls k; Cleanup], Ok tt)) /\
         (a_dry a = false -> forall e, fit = Err e -> cli_main exists_ load build fit a = ([Read (a_input a) None (a_target a); Construct cls k; Fit], Err e)) /\
         (a_dry a = false -> fit = Ok tt -> cli_main exists_ load build fit a =
            ([Read (a_input a) None (a_target a); Construct cls k; Fit; Dump (a_output a)] ++ match a_python a with Some p => [Export p] | None => [] end, Ok tt)))).
Proof. exact C90_run_partial_main. Qed.
Print Assumptions C90_run_partial.

(** Files that do not exist, or of another type, are refused before anything
    else happens. *)
Theorem C90_refused :
  forall exists_ load build fit a,
    (exists_ (lower (a_input a)) = false -> cli_main exists_ load build fit a = ([], Err FileNotFoundError)) /\
    (exists_ (lower (a_input a)) = true ->
     (forall stem ext, lower (a_input a) = (stem ++ "." ++ ext)%string -> ~ contains "." ext -> ext <> "csv" -> ext <> "arff" ->
        cli_main exists_ load build fit a = ([], Err ValueError))).
Proof. exact C90_refused_main. Qed.
Print Assumptions C90_refused.

Example C90_ex :
  let a f sep mode dry := mkArgs f sep None "m.pkl" (Some "p.py") mode None true 60 5 1 None false dry in
  let run := cli_main (fun p => mem p ["iris.csv"; "Iris.csv"]) (fun _ _ _ => Ok true) (fun _ _ => Ok tt) (Ok tt) in
  (exists k, run (a "iris.csv" None None false) = ([Read "iris.csv" None None; Construct AClassifier k; Fit; Dump "m.pkl"; Export "p.py"], Ok tt)) /\
  (exists k, run (a "iris.csv" None (Some "regression") true) = ([Read "iris.csv" None None; Construct ARegressor k; Cleanup], Ok tt)) /\
  run (a "iris.csv" (Some ";") None false) = ([], Err AttributeError) /\
  (exists k, run (a "Iris.csv" None None false) = ([Read "iris.csv" None None; Construct AClassifier k; Fit; Dump "m.pkl"; Export "p.py"], Ok tt)).
Proof. exact C90_ex_main. Qed.

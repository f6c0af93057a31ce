(** Property theorems; proofs in Ship_Main.v. *)
From Verif Require Import Base Gp_Model Gp_Spec Str_Model Str_Spec Cov_Spec Conf_Model Conf_Spec Ship_Model Ship_Spec Gp_Examples Conf_Examples.
Require Import Ascii Permutation Sorted.
Open Scope string_scope.
Open Scope list_scope.
Open Scope nat_scope.
From Verif Require Import Ship_Main.

(** C122: a configuration that is complete, unambiguous and made of plain names
    and values gives a search space with everything the other theorems about
    search spaces ask for. *)
Theorem C122_usable :
  forall cfg, usable cfg ->
    exists d ch, pset_from_config cfg = Ok (d, ch) /\
      pset_typed (pset_of d) /\ pset_inhabited (pset_of d) /\ pset_named (pset_of d) /\ pset_readable (pset_of d) /\ pset_rich (pset_of d).
Proof. exact C122_usable_main. Qed.
Print Assumptions C122_usable.

(** The configurations shipped with GAMA are like that, whatever the metaclasses
    of the scikit-learn classes. *)
Theorem C122_shipped :
  forall meta s, In s [clf_config meta; reg_config meta; test_config meta] -> usable (as_config s).
Proof. exact C122_shipped_main. Qed.
Print Assumptions C122_shipped.

(** So in every search with a shipped configuration: new individuals can always
    be created, and every individual ever created is a pipeline of the search
    space that is read back exactly from its text. *)
Theorem C122_shipped_search :
  forall meta s d ch max_length max_retry r calls,
    In s [clf_config meta; reg_config meta; test_config meta] ->
    pset_from_config (as_config s) = Ok (d, ch) -> 0 < max_retry ->
    let w := gp_run (pset_of d) max_length max_retry (empty_world r) calls in
    (match max_length with Some m => (1 <= m)%Z | None => True end ->
       exists ind s', op_individual (pset_of d) max_length (w_st w) = (Ok ind, s')) /\
    (forall i ind, nth_error (w_pool w) i = Some ind ->
       exists str ls ss ind' s' ls',
         pipeline (s_heap (w_st w)) ind ls ss /\ pipeline_ok (pset_of d) ss /\
         pipeline_str ind (w_st w) = (Ok str, w_st w) /\
         individual_from_string str (pset_of d) true (w_st w) = (Ok ind', s') /\
         pipeline (s_heap s') ind' ls' ss /\ pipeline_str ind' s' = (Ok str, s')).
Proof. exact C122_shipped_search_main. Qed.
Print Assumptions C122_shipped_search.

Example C122_ex : forall meta,
  usable (as_config (clf_config meta)) /\
  (exists d ch, pset_from_config (as_config (clf_config meta)) = Ok (d, ch)) /\
  length (algorithms (as_config (clf_config meta)) "prediction") = 10 /\ length (algorithms (as_config (clf_config meta)) "data") = 15 /\
  length (algorithms (as_config (reg_config meta)) "prediction") = 9.
Proof. exact C122_ex_main. Qed.

(** C123: with a shipped configuration every pipeline can be mutated, except that
    under a length limit of 1 pipelines that consist only of GaussianNB (no
    hyperparameters) or only of LassoLarsCV (one) cannot. *)
Theorem C123_mutation :
  forall meta s d ch max_length ind st ls ss,
    In s [clf_config meta; reg_config meta; test_config meta] ->
    pset_from_config (as_config s) = Ok (d, ch) ->
    wf_heap (s_heap st) -> pipeline (s_heap st) ind ls ss -> pipeline_ok (pset_of d) ss ->
    match max_length with Some m => (1 <= m)%Z | None => True end ->
    ((exists ind' m s', random_valid_mutation ind (pset_of d) max_length st = (Ok (ind', m), s')) <->
     ~ (max_length = Some 1%Z /\ exists step, ss = [step] /\ (p_name (fst step) = "GaussianNB" \/ p_name (fst step) = "LassoLarsCV"))).
Proof. exact C123_mutation_main. Qed.
Print Assumptions C123_mutation.

(** the exception exists: both are pipelines of shipped configurations *)
Example C123_ex : forall meta,
  (exists d ch ss, pset_from_config (as_config (clf_config meta)) = Ok (d, ch) /\ pipeline_ok (pset_of d) ss /\ text ss = "GaussianNB(data)") /\
  (exists d ch ss, pset_from_config (as_config (reg_config meta)) = Ok (d, ch) /\ pipeline_ok (pset_of d) ss /\ text ss = "LassoLarsCV(data, LassoLarsCV.normalize=True)").
Proof. exact C123_ex_main. Qed.

(** C124: which steps of a shipped search space break the restriction configured
    for them (which hyperparameter values may not be combined). *)
Theorem C124_violations :
  forall meta s d ch k step,
    In s [clf_config meta; reg_config meta; test_config meta] -> pset_from_config (as_config s) = Ok (d, ch) -> step_ok (pset_of d) k step ->
    (violates shipped_check ch step <->
     (p_name (fst step) = "LinearSVC" /\ (sets step "penalty" "l1" /\ (sets step "loss" "hinge" \/ sets step "dual" "True") \/
                                          sets step "penalty" "l2" /\ sets step "loss" "hinge" /\ sets step "dual" "False")) \/
     (p_name (fst step) = "FeatureAgglomeration" /\ sets step "linkage" "ward" /\ ~ sets step "affinity" "euclidean") \/
     (p_name (fst step) = "LogisticRegression" /\ sets step "penalty" "l1" /\ sets step "dual" "True")).
Proof. exact C124_violations_main. Qed.
Print Assumptions C124_violations.

(** They are not avoided: in the default search space of GamaClassifier, a
    pipeline of which both steps break their restriction can be generated as a
    new individual. *)
Theorem C124_default_refuted :
  forall meta h u, wf_heap h -> exists d ch ss,
    pset_from_config (as_config (clf_config meta)) = Ok (d, ch) /\
    text ss = "LinearSVC(FeatureAgglomeration(data, FeatureAgglomeration.affinity='l1', FeatureAgglomeration.linkage='ward'), LinearSVC.C=0.0001, LinearSVC.dual=True, LinearSVC.loss='hinge', LinearSVC.penalty='l1', LinearSVC.tol=1e-05)" /\
    Forall (violates shipped_check ch) ss /\
    possible (op_individual (pset_of d) None) h u (fun ind h' => exists ls ss', pipeline h' ind ls ss' /\ equivalent ss ss').
Proof. exact C124_default_refuted_main. Qed.
Print Assumptions C124_default_refuted.

(** The same in the default search space of GamaRegressor. *)
Theorem C124_regression_refuted :
  forall meta h u, wf_heap h -> exists d ch ss step,
    pset_from_config (as_config (reg_config meta)) = Ok (d, ch) /\ In step ss /\
    p_name (fst step) = "FeatureAgglomeration" /\ violates shipped_check ch step /\
    possible (op_individual (pset_of d) None) h u (fun ind h' => exists ls ss', pipeline h' ind ls ss' /\ equivalent ss ss').
Proof. exact C124_regression_refuted_main. Qed.
Print Assumptions C124_regression_refuted.

(** C125: importing gama.logging.GamaReport merges the two default
    configurations.  That succeeds whatever order sets have, gives a usable
    search space, and every pipeline of a search with either default
    configuration is read back from its text in it, so reports can be made of
    both. *)
Theorem C125_report :
  forall meta set_list, lists_set set_list ->
    exists m h', merge_configurations set_list (loaded meta) (clf_refs meta) (reg_refs meta) = (Ok m, h') /\ usable (view h' m) /\
      forall s d0 ch0 d ch ss st,
        In s [clf_config meta; reg_config meta] -> pset_from_config (as_config s) = Ok (d0, ch0) -> pset_from_config (view h' m) = Ok (d, ch) ->
        pipeline_ok (pset_of d0) ss -> wf_heap (s_heap st) ->
        exists ind st' ls ss', individual_from_string (text ss) (pset_of d) true st = (Ok ind, st') /\
          pipeline (s_heap st') ind ls ss' /\ same_pipeline ss ss' /\ extends st st'.
Proof. exact C125_report_main. Qed.
Print Assumptions C125_report.

(** The merge leaves GamaRegressor's default as it was; GamaClassifier's still
    gives a usable search space, with every pipeline it had before. *)
Theorem C125_defaults_partial :
  forall meta set_list m h', lists_set set_list ->
    merge_configurations set_list (loaded meta) (clf_refs meta) (reg_refs meta) = (Ok m, h') ->
    view (loaded meta) (clf_refs meta) = as_config (clf_config meta) /\
    view (loaded meta) (reg_refs meta) = as_config (reg_config meta) /\
    view h' (reg_refs meta) = as_config (reg_config meta) /\
    usable (view h' (clf_refs meta)) /\
    forall d0 ch0 d ch ss, pset_from_config (as_config (clf_config meta)) = Ok (d0, ch0) -> pset_from_config (view h' (clf_refs meta)) = Ok (d, ch) ->
      pipeline_ok (pset_of d0) ss -> pipeline_ok (pset_of d) ss.
Proof. exact C125_defaults_partial_main. Qed.
Print Assumptions C125_defaults_partial.

(** But it is no longer the same: it now has pipelines that select features with
    a score for regression, which it had not before. *)
Theorem C125_default_changed_refuted :
  forall meta set_list, lists_set set_list -> exists m h' d0 ch0 d ch ss,
    merge_configurations set_list (loaded meta) (clf_refs meta) (reg_refs meta) = (Ok m, h') /\
    pset_from_config (view (loaded meta) (clf_refs meta)) = Ok (d0, ch0) /\ pset_from_config (view h' (clf_refs meta)) = Ok (d, ch) /\
    text ss = "GaussianNB(SelectFwe(data, SelectFwe.alpha=0.0, SelectFwe.score_func=f_regression))" /\
    pipeline_ok (pset_of d) ss /\ ~ pipeline_ok (pset_of d0) ss.
Proof. exact C125_default_changed_refuted_main. Qed.
Print Assumptions C125_default_changed_refuted.

(** And it cannot be done twice: merging the same two configurations again raises
    a TypeError. *)
Theorem C125_again_refuted :
  forall meta set_list m h', merge_configurations set_list (loaded meta) (clf_refs meta) (reg_refs meta) = (Ok m, h') ->
    exists h'', merge_configurations set_list h' (clf_refs meta) (reg_refs meta) = (Err TypeError, h'').
Proof. exact C125_again_refuted_main. Qed.
Print Assumptions C125_again_refuted.

(** the hypotheses are met: an order of sets exists, and pipelines of either
    default exist that a report has to read *)
Example C125_ex : forall meta,
  lists_set ex_set /\
  (exists d ch ss, pset_from_config (as_config (clf_config meta)) = Ok (d, ch) /\ pipeline_ok (pset_of d) ss /\ text ss = "GaussianNB(data)") /\
  (exists d ch ss, pset_from_config (as_config (reg_config meta)) = Ok (d, ch) /\ pipeline_ok (pset_of d) ss /\ text ss = "LassoLarsCV(data, LassoLarsCV.normalize=True)").
Proof. exact C125_ex_main. Qed.

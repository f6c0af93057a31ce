(*IMPORTS*)
From Verif Require Import Base Gp_Model Str_Model Str_Spec Data_Model Misc_Model Misc_Spec.
Open Scope string_scope.
Open Scope list_scope.
(*END*)
From Verif Require Import Misc_Proofs.
From Verif Require Data_Proofs2.

(** C85, where None means "not given": for every hyperparameter the user's
    value, else the last dynamic default, else the static one, after any
    sequence of overwrites. *)
Lemma C85_precedence_partial_main :
  forall h ops h' n user static,
    NoDup (map fst h) -> In (n, (user, static)) h -> overwrites ops h = Ok h' ->
    hp h' n = Some (effective user static n ops).
Proof. intros h ops h' n s d. apply precedence. Qed.
(** The classes of the package: what they are constructed with is what they
    return, with the static defaults of the documentation; dynamic defaults of
    the ensemble set the metric and the library. *)
Lemma C85_classes_main :
  forall a b c d,
    (let h := async_ea_hps a b c in
     hp h "population_size" = Some (effective a (VNum 50) "population_size" []) /\
     hp h "max_n_evaluations" = Some b /\ hp h "restart_callback" = Some c) /\
    (let h := asha_hps a b c d in
     hp h "reduction_factor" = Some (effective a (VNum 3) "" []) /\
     hp h "minimum_resource" = Some (effective b (VNum (1 # 8)) "" []) /\
     hp h "maximum_resource" = Some (effective c (VNum 1) "" []) /\
     hp h "minimum_early_stopping_rate" = Some (effective d (VNum 0) "" [])) /\
    (forall metric lib, exists h, ensemble_dynamic metric lib (ensemble_hps a b c) = Ok h /\
     hp h "metric" = Some metric /\ hp h "evaluation_library" = Some lib /\
     hp h "ensemble_size" = Some (effective a (VNum 25) "" []) /\
     hp h "hillclimb_size" = Some (effective b (VNum 10000) "" []) /\
     hp h "max_models" = Some (effective c (VNum 200) "" [])).
Proof.
  intros a b c d. split; [|split].
  - repeat split; destruct a, b, c; reflexivity.
  - repeat split; destruct a, b, c, d; reflexivity.
  - intros m l. eexists. split; [reflexivity|]. repeat split; destruct a, b, c; reflexivity.
Qed.
(** C85 is false where None is a documented value: "If None, use all" of
    max_models and hillclimb_size gives the static default. *)
Lemma C85_none_refuted_main :
  forall size h metric lib,
    ensemble_dynamic metric lib (ensemble_hps size VNone VNone) = Ok h ->
    hp h "max_models" = Some (VNum 200) /\ hp h "hillclimb_size" = Some (VNum 10000).
Proof. intros size h m l E. injection E as <-. split; reflexivity. Qed.
(** ASHA drops the user's maximum_resource exactly when it exceeds the rows. *)
Lemma C85_asha_dropped_refuted_main :
  forall rows a b q d, exists h, asha_dynamic rows (asha_hps a b (VNum q) d) = Ok h /\
    hp h "maximum_resource" = Some (VNum (if Qle_bool q (inject_Z (Z.of_nat rows)) then q else 1)).
Proof. intros rows a b q d. unfold asha_dynamic. simpl. destruct (Qle_bool q _); eexists; split; reflexivity. Qed.
(** And it stays dropped for later fits, however many rows these have. *)
Lemma C85_asha_lost_refuted_main :
  forall rows rows' a b q d h, Qle_bool q (inject_Z (Z.of_nat rows)) = false ->
    asha_dynamic rows (asha_hps a b (VNum q) d) = Ok h -> asha_dynamic rows' h = Ok h /\ hp h "maximum_resource" = Some (VNum 1).
Proof. intros rows rows' a b q d h Q E. unfold asha_dynamic in E. cbn [asha_hps find fst snd] in E. simpl in E. rewrite Q in E. injection E as <-. split; reflexivity. Qed.
(** A maximum_resource that is not a number is refused with TypeError; without one
    nothing is changed. *)
Lemma C85_asha_other_main :
  forall rows a b n d, asha_dynamic rows (asha_hps a b (VObj n) d) = Err TypeError /\
    asha_dynamic rows (asha_hps a b VNone d) = Ok (asha_hps a b VNone d).
Proof. split; reflexivity. Qed.
(** An unknown name is refused. *)
Lemma C85_unknown_main :
  forall h n v, ~ In n (map fst h) -> overwrite n v h = Err KeyError.
Proof. exact overwrite_unknown. Qed.
Example C85_ex_main :
  exists h', overwrites [("metric", VObj 1); ("max_models", VNum 7); ("metric", VObj 2)] (ensemble_hps VNone (VNum 5) VNone) = Ok h' /\
  hp h' "metric" = Some (VObj 2) /\ hp h' "max_models" = Some (VNum 7) /\ hp h' "hillclimb_size" = Some (VNum 5) /\
  NoDup (map fst (ensemble_hps VNone (VNum 5) VNone)) /\
  exists h2, asha_dynamic 500 (asha_hps VNone VNone (VNum 1000) VNone) = Ok h2 /\ hp h2 "maximum_resource" = Some (VNum 1).
Proof.
  eexists. split; [reflexivity|]. split; [reflexivity|]. split; [reflexivity|]. split; [reflexivity|]. split; [|eexists; split; reflexivity].
  repeat constructor; simpl; intuition discriminate.
Qed.

(** C86, for a name, a Metric, and collections that can be iterated twice: one
    metric per item, in order, with the right task type. *)
Lemma C86_collections_partial_main :
  forall scorers l, Forall (good_item scorers) l ->
    exists ms, scoring_to_metric scorers (SIter false l) = Ok ms /\ Forall2 (is_metric_of scorers) l ms.
Proof.
  intros scorers l G. unfold scoring_to_metric. rewrite (good_item_ok _ _ G). apply items_ok. exact G.
Qed.
Lemma C86_single_main :
  forall scorers n m,
    scoring_to_metric scorers (SMetric m) = Ok [m] /\
    (known scorers n -> exists m', scoring_to_metric scorers (SName n) = Ok [m'] /\ is_metric_of scorers (IName n) m') /\
    (~ known scorers n -> scoring_to_metric scorers (SName n) = Err ValueError).
Proof.
  intros scorers n m. split; [reflexivity|]. split; intros K; simpl.
  - destruct (metric_of_name_ok _ _ K) as (m' & E). exists m'. rewrite E. split; [reflexivity|]. exact (metric_of_name_is _ _ _ E).
  - rewrite (metric_of_name_bad _ _ K). reflexivity.
Qed.
(** A TypeError for anything that is no iterable, or holds an item that is
    neither a name nor a Metric; a ValueError for unknown names in a collection. *)
Lemma C86_type_error_main :
  forall scorers s, s = SOther \/ (exists b l, s = SIter b l /\ In IOther l) -> scoring_to_metric scorers s = Err TypeError.
Proof.
  intros scorers s [-> | (b & l & -> & I)]; [reflexivity|]. simpl. destruct (forallb item_ok l) eqn:F; auto.
  rewrite forallb_forall in F. apply F in I. discriminate.
Qed.
Lemma C86_unknown_name_main :
  forall scorers l n, ~ In IOther l -> In (IName n) l -> ~ known scorers n -> scoring_to_metric scorers (SIter false l) = Err ValueError.
Proof.
  intros scorers l n O I K. unfold scoring_to_metric.
  assert (F : forallb item_ok l = true). { apply forallb_forall. intros x Hx. destruct x; try reflexivity. contradiction. }
  rewrite F. clear F. induction l as [|x l IH]; [destruct I|]. destruct I as [-> | I].
  - simpl. rewrite (metric_of_name_bad _ _ K). reflexivity.
  - cbn [rmap]. rewrite IH by (auto; intros H; apply O; right; exact H). destruct x as [m|m|]; simpl.
    + destruct (metric_of_name scorers m) as [y|e] eqn:E; [reflexivity|]. simpl. unfold metric_of_name in E. destruct (find _ scorers) as [[? ?]|]; [destruct (mem m _); [discriminate|destruct (mem m _); [discriminate|]]|]; injection E as <-; reflexivity.
    + reflexivity.
    + exfalso. apply O. left. reflexivity.
Qed.
(** C86 is false for generators and other iterators: the result is empty. *)
Lemma C86_generator_refuted_main :
  forall scorers l, Forall (good_item scorers) l -> scoring_to_metric scorers (SIter true l) = Ok [].
Proof. intros scorers l G. unfold scoring_to_metric. rewrite (good_item_ok _ _ G). reflexivity. Qed.
Example C86_ex_main :
  let scorers := [("accuracy", false); ("neg_log_loss", true); ("r2", false); ("roc_auc", false); ("max_error", false)] in
  Forall (good_item scorers) [IName "neg_log_loss"; IMetric (mkMetric "f1_macro" Classification false); IName "r2"] /\
  scoring_to_metric scorers (SIter false [IName "neg_log_loss"; IMetric (mkMetric "f1_macro" Classification false); IName "r2"]) =
    Ok [mkMetric "neg_log_loss" Classification true; mkMetric "f1_macro" Classification false; mkMetric "r2" Regression false] /\
  scoring_to_metric scorers (SName "roc_auc") = Ok [mkMetric "roc_auc" Classification true] /\
  ~ known scorers "max_error".
Proof.
  split; [|split; [reflexivity|split; [reflexivity|]]].
  - repeat constructor; simpl; tauto.
  - intros (_ & [H|H]); apply mem_in in H; discriminate.
Qed.

(** C87: when a metric needs probabilities, exactly the classifiers that lack
    them are left out, in order, hyperparameters untouched. *)
Lemma C87_probabilities_main :
  forall B scorers (default : list (key * B)) arg s ms space,
    classifier_space scorers default arg s = Ok (ms, space) -> (exists m, In m ms /\ m_proba m = true) ->
    let given := match arg with Some (x :: l) => x :: l | _ => default end in
    (forall k v, In (k, v) space <-> In (k, v) given /\ ~ no_probabilities k) /\
    (forall id new v, In (KClass id true new, v) space -> new = Ok true) /\
    (exists keep : key * B -> bool, space = filter keep given) /\
    scoring_to_metric scorers s = Ok ms.
Proof.
  intros B scorers default arg s ms space E P given. unfold classifier_space in E. fold given in E.
  destruct (scoring_to_metric scorers s) as [ms'|] eqn:S; [|discriminate]. cbn [rbind] in E.
  destruct (existsb m_proba ms') eqn:P'.
  - destruct (keep_proba given) as [sp|] eqn:K; [|discriminate]. cbn [rbind] in E. injection E as <- <-. destruct (keep_filter _ _ K) as (F & C). split; [|split; [|split; [|reflexivity]]].
    + intros k v. rewrite F, filter_In. split; intros (I & H); split; auto.
      * intros (id & ->). discriminate.
      * unfold keepb. simpl. destruct k as [|id [|] [[|]|]]; auto. exfalso. apply H. exists id. reflexivity.
    + intros id new v I. eapply C; eauto.
    + exists keepb. exact F.
  - cbn [rbind] in E. injection E as <- <-. assert (X : existsb m_proba ms' = true) by (apply existsb_exists; exact P). congruence.
Qed.
Lemma C87_unchanged_main :
  forall B scorers (default : list (key * B)) arg s ms,
    scoring_to_metric scorers s = Ok ms -> (forall m, In m ms -> m_proba m = false) ->
    classifier_space scorers default arg s = Ok (ms, match arg with Some (x :: l) => x :: l | _ => default end).
Proof.
  intros B scorers default arg s ms E P. unfold classifier_space. rewrite E. cbn [rbind].
  destruct (existsb m_proba ms) eqn:X; [|reflexivity]. apply existsb_exists in X. destruct X as (m & I & Y). rewrite (P m I) in Y. discriminate.
Qed.
(** The constructor only fails here on the metric, or on a classifier whose
    class cannot be called without arguments. *)
Lemma C87_total_main :
  forall B scorers (default : list (key * B)) arg s ms,
    scoring_to_metric scorers s = Ok ms ->
    (forall id e v, ~ In (KClass id true (Err e), v) (match arg with Some (x :: l) => x :: l | _ => default end)) ->
    exists space, classifier_space scorers default arg s = Ok (ms, space).
Proof.
  intros B scorers default arg s ms E H. unfold classifier_space. rewrite E. cbn [rbind]. destruct (existsb m_proba ms); [|eexists; reflexivity].
  destruct (keep_total _ H) as (l' & K). rewrite K. eexists. reflexivity.
Qed.
Example C87_ex_main :
  let scorers := [("accuracy", false); ("neg_log_loss", true)] in
  let space := [(KName "alpha", 0); (KClass 1 true (Ok true), 1); (KClass 2 true (Ok false), 2); (KClass 3 false (Err TypeError), 3)] in
  classifier_space scorers [] (Some space) (SName "neg_log_loss") =
    Ok ([mkMetric "neg_log_loss" Classification true], [(KName "alpha", 0); (KClass 1 true (Ok true), 1); (KClass 3 false (Err TypeError), 3)]) /\
  classifier_space scorers space None (SName "accuracy") = Ok ([mkMetric "accuracy" Classification false], space).
Proof. split; reflexivity. Qed.

(** C88, for individuals created by a first fit: the exported script defines the
    pipeline of the steps the fitted model applies (encoding, fixed steps, then
    the individual's), in order, under the same names; every class and callable
    it mentions is imported. *)
Lemma C88_first_fit_partial_main :
  forall class_module value_module order encoding extension i,
    created extension [] i -> distinct_args i -> reorders order ->
    exists imports,
      export_script class_module value_module order true (Some i) (Some encoding) extension =
        Ok (join "
" imports ++ "

" ++ pipeline_text "pipeline" (step_texts (applied encoding i)))%string /\
      (forall s, In s (applied encoding i) -> ~ top_private (fst (est_class class_module (snd s))) ->
         exists line, In line imports /\ imports_class (est_class class_module (snd s)) line) /\
      (forall n t, In n (b_nodes i) -> In t (snd n) -> v_kind (t_value t) = KCallable ->
         In ("from " ++ value_module (t_value t) ++ " import " ++ v_text (t_value t))%string imports) /\
      In "from numpy import nan" imports /\ In "from sklearn.pipeline import Pipeline" imports.
Proof.
  intros cm vm order enc ext i C D O. rewrite <- (created_first _ _ C). destruct (export_shape cm vm order enc i D O) as (im & A & B & K & M). exists im. split; [exact A|].
  split; [|split; [|exact M]].
  - intros s I T. exists (est_import cm (snd s)). split; [auto|]. rewrite est_import_class. rewrite (surjective_pairing (est_class cm (snd s))) at 1. apply import_ok. exact T.
  - intros n t In_ It V. apply (K n t In_ It). unfold callable_import. rewrite V. left. reflexivity.
Qed.
(** The same for later fits, when the fixed steps did not change. *)
Lemma C88_same_extension_partial_main :
  forall class_module value_module order encoding extension start i,
    Forall (fun j => b_pre j = extension) start -> created extension start i -> distinct_args i -> reorders order ->
    exists imports,
      export_script class_module value_module order true (Some i) (Some encoding) extension =
        Ok (join "
" imports ++ "

" ++ pipeline_text "pipeline" (step_texts (applied encoding i)))%string /\
      (forall s, In s (applied encoding i) -> ~ top_private (fst (est_class class_module (snd s))) ->
         exists line, In line imports /\ imports_class (est_class class_module (snd s)) line).
Proof.
  intros cm vm order enc ext start i F C D O. rewrite <- (created_same _ _ F _ C).
  destruct (export_shape cm vm order enc i D O) as (im & A & B & _). exists im. split; [exact A|].
  intros s I T. exists (est_import cm (snd s)). split; [auto|]. rewrite est_import_class. rewrite (surjective_pairing (est_class cm (snd s))) at 1. apply import_ok. exact T.
Qed.
(** Nothing else is imported for a class in a private module of its own: the
    line lacks the module, so the script does not even parse. *)
Lemma C88_private_module_refuted_main :
  forall class_module value_module order encoding i s,
    distinct_args i -> reorders order -> In s (applied encoding i) -> top_private (fst (est_class class_module (snd s))) ->
    exists imports,
      export_script class_module value_module order true (Some i) (Some encoding) (b_pre i) =
        Ok (join "
" imports ++ "

" ++ pipeline_text "pipeline" (step_texts (applied encoding i)))%string /\
      In ("from  import " ++ snd (est_class class_module (snd s)))%string imports.
Proof.
  intros cm vm order enc i s D O I T. destruct (export_shape cm vm order enc i D O) as (im & A & B & _). exists im. split; [exact A|].
  rewrite <- (import_top _ _ T), <- est_import_class. auto.
Qed.
Example C88_private_module_ex_main : top_private "_mine" /\ ~ top_private "mine._mine" /\ private_in "mine" "mine._mine" /\
  export_script (fun _ => "_mine") (fun _ => "") (fun l => l) true (Some (mkBound [(mkPrim [] "prediction" 1 "Tree", [])] [])) (Some []) [] =
  Ok "from numpy import nan
from sklearn.pipeline import Pipeline
from  import Tree

pipeline = Pipeline([('0', Tree())])
".
Proof.
  assert (N : ~ contains "." "mine") by (intros K; apply Str_Proofs.contains_char_in in K; discriminate).
  split; [exists "mine"; split; auto|]. split; [|split; [exists "mine"; split; auto|vm_compute; reflexivity]].
  intros (r & E & K). discriminate.
Qed.
(** Steps of the fitted pipeline: main node last, numbered from the end. *)
Lemma C88_order_main :
  forall encoding i, distinct_args i ->
    map fst (applied encoding i) = map fst encoding ++ map fst (b_pre i) ++ rev (map str_of_nat (seq 0 (length (b_nodes i)))) /\
    map snd (applied encoding i) = map (fun p => Fixed (snd p)) encoding ++ map (fun p => Fixed (snd p)) (b_pre i) ++
      rev (map (fun n => Made (fst n) (map (fun t => (t_output t, t_value t)) (snd n))) (b_nodes i)).
Proof.
  intros enc i D.
  assert (M : map (fun n => Made (fst n) (map (fun t => (t_output t, t_value t)) (snd n))) (b_nodes i) = map node_to_est (b_nodes i)).
  { apply map_ext_in. intros n I. unfold node_to_est. rewrite dict_nodup; [reflexivity|]. rewrite map_map. unfold distinct_args in D. rewrite Forall_forall in D. exact (D n I). }
  rewrite M. clear M D. unfold applied, pipeline, compile. rewrite rev_app_distr, rev_involutive, !map_app, !map_map, <- !map_rev, !map_map. cbn [fst snd].
  assert (E : map fst (enumerate (b_nodes i)) = seq 0 (length (b_nodes i)) /\ map snd (enumerate (b_nodes i)) = b_nodes i).
  { unfold enumerate. generalize 0. induction (b_nodes i) as [|x l IH]; intros k; simpl; auto. destruct (IH (S k)) as (A & B). split; f_equal; auto. }
  destruct E as (E1 & E2). split; f_equal; f_equal.
  - rewrite <- E1 at 1. rewrite <- map_rev, map_map. reflexivity.
  - rewrite <- E2 at 2. rewrite <- map_rev, map_map. reflexivity.
Qed.
(** C88 is false for a second fit whose fixed steps differ: individuals taken
    over from the first fit still apply the old ones; the script has the new. *)
Lemma C88_refit_refuted_main :
  exists ext1 ext2 i, created ext1 [] i /\ created ext2 [i] i /\ distinct_args i /\
    forall cm vm, exists imports, export_script cm vm (fun l => l) true (Some i) (Some []) ext2 =
      Ok (join "
" imports ++ "

" ++ pipeline_text "pipeline" (fixed_texts ext2 ++ [("0", "LinearSVR(C=1)")]))%string /\
    step_texts (applied [] i) = fixed_texts ext1 ++ [("0", "LinearSVR(C=1)")] /\ fixed_texts ext1 <> fixed_texts ext2.
Proof.
  exists [("target_enc", mkTrans "category_encoders.target_encoder" "TargetEncoder" "TargetEncoder(cols=['a'])")],
         [("target_enc", mkTrans "category_encoders.target_encoder" "TargetEncoder" "TargetEncoder(cols=[])")],
         (mkBound [(mkPrim ["C"] "prediction" 1 "LinearSVR", [mkTerm (mkValue KOther "1" 1) "C" "C"])]
                  [("target_enc", mkTrans "category_encoders.target_encoder" "TargetEncoder" "TargetEncoder(cols=['a'])")]).
  split; [apply cr_new|]. split; [apply cr_start; left; reflexivity|]. split; [repeat constructor; simpl; tauto|].
  intros cm vm. eexists. split; [reflexivity|]. split; [reflexivity|]. intros H. discriminate.
Qed.
(** Before a fit, and before the post-processing has selected an individual, there is
    nothing to export. *)
Lemma C88_unfitted_main :
  forall cm vm order model sel enc ext, model = false \/ sel = None -> export_script cm vm order model sel enc ext = Err RuntimeError.
Proof. intros cm vm order model sel enc ext [->| ->]; [reflexivity|]. destruct model; reflexivity. Qed.
Example C88_ex_main :
  exists i, created [("imputation", mkTrans "sklearn.impute._base" "SimpleImputer" "SimpleImputer(strategy='median')")] [] i /\
    distinct_args i /\ length (b_nodes i) = 2 /\
    export_script (fun c => if c =? 1 then "sklearn.naive_bayes" else "sklearn.decomposition._pca")%nat (fun _ => "") (fun l => l) true (Some i)
      (Some [("ord-enc", mkTrans "category_encoders.ordinal" "OrdinalEncoder" "OrdinalEncoder(cols=[])")])
      [("imputation", mkTrans "sklearn.impute._base" "SimpleImputer" "SimpleImputer(strategy='median')")] =
    Ok "from numpy import nan
from sklearn.pipeline import Pipeline
from sklearn.decomposition import PCA
from sklearn.naive_bayes import BernoulliNB
from category_encoders.ordinal import OrdinalEncoder
from sklearn.impute import SimpleImputer

pipeline = Pipeline([('ord-enc', OrdinalEncoder(cols=[])),
('imputation', SimpleImputer(strategy='median')),
('1', PCA(svd_solver='randomized')),
('0', BernoulliNB(alpha=0.1, fit_prior=True))])
".
Proof.
  exists (mkBound [(mkPrim ["alpha"; "fit_prior"] "prediction" 1 "BernoulliNB", [mkTerm (mkValue KOther "0.1" 1) "alpha" "alpha"; mkTerm (mkValue KOther "True" 2) "fit_prior" "fit_prior"]);
                   (mkPrim ["svd_solver"] "data" 2 "PCA", [mkTerm (mkValue KStr "randomized" 3) "svd_solver" "svd_solver"])]
                  [("imputation", mkTrans "sklearn.impute._base" "SimpleImputer" "SimpleImputer(strategy='median')")]).
  split; [apply cr_new|]. split; [repeat constructor; simpl; intuition discriminate|]. split; [reflexivity|]. vm_compute. reflexivity.
Qed.

(** C97: the script of an ensemble defines one pipeline per member, in order,
    with its weight; put after the fixed steps it applies what the fitted
    member applies. *)
Lemma C97_ensemble_script_main :
  forall class_module value_module order classifier models encoding extension,
    Forall (fun m => b_pre (fst m) = extension /\ distinct_args (fst m)) models ->
    exists imports member_steps,
      ensemble_code class_module value_module order classifier models (Some (encoding ++ extension)) =
        (join "
" imports ++ "

" ++ join "

" (map (fun im => pipeline_text ("pipeline_" ++ str_of_nat (fst im)) (snd im)) (enumerate member_steps)) ++ "
ensemble = " ++ match classifier with Some _ => "VotingClassifier" | None => "VotingRegressor" end ++
        "([" ++ join "," (map (fun i => "('" ++ str_of_nat i ++ "', pipeline_" ++ str_of_nat i ++ ")") (seq 0 (length models))) ++ "]" ++
        match classifier with Some true => ", voting='soft'" | Some false => ", voting='hard'" | None => "" end ++
        ", weights=[" ++ join ", " (map (fun m => str_of_nat (snd m)) models) ++ "])
" ++ pipeline_text "pipeline" (fixed_texts (encoding ++ extension) ++ [("ensemble", "ensemble")]))%string /\
      Forall2 (fun m steps => fixed_texts (encoding ++ extension) ++ steps = step_texts (applied encoding (fst m))) models member_steps /\
      (reorders order -> forall m s, In m models -> In s (applied encoding (fst m)) -> ~ top_private (fst (est_class class_module (snd s))) ->
         exists line, In line imports /\ imports_class (est_class class_module (snd s)) line) /\
      (reorders order -> In ("from sklearn.ensemble import " ++ match classifier with Some _ => "VotingClassifier" | None => "VotingRegressor" end)%string imports /\
         In "from sklearn.pipeline import Pipeline" imports).
Proof.
  intros cm vm order cls models enc ext F.
  exists (as_set order ([("from sklearn.ensemble import " ++ match cls with Some _ => "VotingClassifier" | None => "VotingRegressor" end)%string; "from sklearn.pipeline import Pipeline"] ++
    flat_map (fun m => fst (imports_and_steps cm vm (fst m))) models ++ map (fun p => format_import (tr_module (snd p)) (tr_class (snd p))) (enc ++ ext))).
  exists (map (fun m => snd (imports_and_steps cm vm (fst m))) models).
  assert (M : reorders order -> forall l x, In x (as_set order l) <-> In x l). { intros O l x. unfold as_set. rewrite (O (nodup string_dec l) x). apply nodup_In. }
  split; [|split; [|split; [|intros O; split; apply (M O); simpl; auto]]].
  - unfold ensemble_code. rewrite map_length. unfold str_weights. rewrite map_map, combine_fixed.
    assert (L : forall {A} (l : list A) k, length (enum_from k l) = length l) by (intros A l; induction l; intros; simpl; auto).
    assert (P : forall k, map (fun im : nat * (bound * nat) => format_pipeline (snd (imports_and_steps cm vm (fst (snd im)))) ("pipeline_" ++ str_of_nat (fst im))%string) (enum_from k models)
              = map (fun im => format_pipeline (snd im) ("pipeline_" ++ str_of_nat (fst im))%string) (enum_from k (map (fun m => snd (imports_and_steps cm vm (fst m))) models))).
    { clear. induction models as [|m l IH]; intros k; simpl; auto. f_equal. apply IH. }
    unfold enumerate. rewrite L, P. rewrite !Data_Proofs2.append_assoc. reflexivity.
  - clear -F. induction F as [|m l (A & B) F IH]; constructor; auto. rewrite (applied_texts enc (fst m) B), A. reflexivity.
  - intros O m s Im Is T. exists (est_import cm (snd s)). split; [|rewrite est_import_class; rewrite (surjective_pairing (est_class cm (snd s))) at 1; apply import_ok; exact T].
    apply (M O). right. right. cbn [app]. apply in_or_app. unfold applied in Is. apply in_app_or in Is. destruct Is as [Is|Is].
    + right. apply in_map_iff in Is. destruct Is as ((n & t) & E & I). subst s. apply in_map_iff. exists (n, t). split; auto. apply in_or_app. left. exact I.
    + left. apply in_flat_map. exists m. split; auto. right. right. cbn [app]. apply in_or_app. left. apply in_map_iff. exists s. auto.
Qed.
Example C97_ex_main :
  exists models, Forall (fun m => b_pre (fst m) = [] /\ distinct_args (fst m)) models /\
    ensemble_code (fun _ => "m") (fun _ => "") (fun l => l) (Some true) models None =
"from sklearn.ensemble import VotingClassifier
from m import A
from numpy import nan
from sklearn.pipeline import Pipeline
from m import B

pipeline_0 = Pipeline([('0', A())])


pipeline_1 = Pipeline([('0', B())])

ensemble = VotingClassifier([('0', pipeline_0),('1', pipeline_1)], voting='soft', weights=[2, 1])
".
Proof.
  exists [(mkBound [(mkPrim [] "prediction" 1 "A", [])] [], 2); (mkBound [(mkPrim [] "prediction" 2 "B", [])] [], 1)].
  split; [repeat constructor|]. vm_compute. reflexivity.
Qed.

(** C90 is false: every csv file given with -sep fails. *)
Lemma C90_separator_refuted_main :
  forall exists_ load build fit a s,
    a_sep a = Some s -> (exists stem, lower (a_input a) = (stem ++ ".csv")%string) ->
    cli_main exists_ load build fit a = ([], Err AttributeError) \/ cli_main exists_ load build fit a = ([], Err FileNotFoundError).
Proof.
  intros ex load build fit a s S (stem & P).
  assert (L : last (split "." (lower (a_input a))) "" = "csv").
  { rewrite P. change ".csv" with (String (Ascii.ascii_of_nat 46) "csv"). rewrite Log_Proofs3.split_last; [apply last_last|]. intros K. apply Str_Proofs.contains_char_in in K. discriminate. }
  assert (E : ends_with ".csv" (lower (a_input a)) = true).
  { rewrite P. clear. induction stem as [|c stem IH]; [reflexivity|]. change (String c stem ++ ".csv")%string with (String c (stem ++ ".csv")). cbn [ends_with]. rewrite IH. apply orb_true_r. }
  unfold cli_main. destruct (ex _); simpl; auto. rewrite L, S, E. simpl. auto.
Qed.
(** C90 is false: an existing file whose path has capitals is not read. *)
Lemma C90_capitals_refuted_main :
  forall exists_ load build fit a, lower (a_input a) <> a_input a ->
    exists_ (a_input a) = true ->
    (exists_ (lower (a_input a)) = false -> cli_main exists_ load build fit a = ([], Err FileNotFoundError)) /\
    (forall sep target, ~ In (Read (a_input a) sep target) (fst (cli_main exists_ load build fit a))).
Proof.
  intros ex load build fit a N E. split.
  - intros E'. unfold cli_main. rewrite E'. reflexivity.
  - intros sep target.
    assert (G : forall l : list effect, (forall x, In x l -> match x with Read p _ _ => p = lower (a_input a) | _ => True end) -> ~ In (Read (a_input a) sep target) l).
    { intros l H J. apply H in J. congruence. }
    apply G. clear G. intros x. unfold cli_main.
    repeat match goal with
    | |- context [fst (if ?c then _ else _)] => destruct c
    | |- context [fst (match ?c with Ok _ => _ | Err _ => _ end)] => destruct c
    end; destruct (a_python a); simpl; intros H; repeat (destruct H as [<- | H]; [first [reflexivity | exact Logic.I]|]); destruct H.
Qed.
(** Otherwise the given file is read, the mode is the requested one or follows
    from the target, the options reach the constructor, and the model and the
    code are written where asked, or nothing is fitted in a dry run. *)
Lemma C90_run_partial_main :
  forall exists_ load build fit a categorical,
    lower (a_input a) = a_input a -> exists_ (a_input a) = true -> In (last (split "." (a_input a)) "") ["csv"; "arff"] -> a_sep a = None ->
    load (a_input a) None (a_target a) = Ok categorical ->
    let c := mode_of a categorical in
    exists k, g_regularize k = a_short a /\ g_total k = (a_time a * 60)%Z /\ g_eval k = (a_eval_time a * 60)%Z /\ g_jobs k = a_jobs a /\
      g_info k = a_verbose a /\ g_outdir k = a_outdir a /\ (a_metric a <> Some "" -> g_scoring k = a_metric a) /\
      g_store k = (if a_dry a then "nothing" else "logs") /\
    (c <> "classification" -> c <> "regression" -> cli_main exists_ load build fit a = ([Read (a_input a) None (a_target a)], Err ValueError)) /\
    (forall cls, cls = (if String.eqb c "regression" then ARegressor else AClassifier) -> c = "classification" \/ c = "regression" ->
       (forall e, build cls k = Err e -> cli_main exists_ load build fit a = ([Read (a_input a) None (a_target a); Construct cls k], Err e)) /\
       (build cls k = Ok tt ->
         (a_dry a = true -> cli_main exists_ load build fit a = ([Read (a_input a) None (a_target a); Construct cls k; Cleanup], Ok tt)) /\
         (a_dry a = false -> forall e, fit = Err e -> cli_main exists_ load build fit a = ([Read (a_input a) None (a_target a); Construct cls k; Fit], Err e)) /\
         (a_dry a = false -> fit = Ok tt -> cli_main exists_ load build fit a =
            ([Read (a_input a) None (a_target a); Construct cls k; Fit; Dump (a_output a)] ++ match a_python a with Some p => [Export p] | None => [] end, Ok tt)))).
Proof.
  intros ex load build fit a cat L E X S Ld c.
  exists (mkCfg (a_short a) (a_time a * 60) (a_eval_time a * 60) (a_jobs a) (a_verbose a) (a_outdir a)
                     (if a_dry a then "nothing" else "logs") (match a_metric a with Some "" => None | m => m end)).
  cbn [g_regularize g_total g_eval g_jobs g_info g_outdir g_scoring g_store].
  assert (X' : mem (last (split "." (a_input a)) "") ["csv"; "arff"] = true) by (apply mem_in; exact X).
  do 6 (split; [reflexivity|]). split; [intros M; destruct (a_metric a) as [[|ch s]|]; auto; congruence|]. split; [reflexivity|].
  unfold cli_main. rewrite L, E, X', S, andb_false_r, Ld. cbn [negb]. fold (mode_of a cat). fold c. split.
  - intros N1 N2. apply String.eqb_neq in N1. apply String.eqb_neq in N2. rewrite N1, N2. reflexivity.
  - intros cls Ec C. rewrite <- Ec.
    assert (B : String.eqb c "regression" || String.eqb c "classification" = true). { destruct C as [-> | ->]; reflexivity. }
    rewrite B. split; [intros e Eb; rewrite Eb; reflexivity|]. intros Eb. rewrite Eb. split; [intros D; rewrite D; reflexivity|].
    split; [intros D e Ef; rewrite D, Ef; reflexivity|]. intros D Ef. rewrite D, Ef. reflexivity.
Qed.
(** Files that do not exist, or of another type, are refused before anything
    else happens. *)
Lemma C90_refused_main :
  forall exists_ load build fit a,
    (exists_ (lower (a_input a)) = false -> cli_main exists_ load build fit a = ([], Err FileNotFoundError)) /\
    (exists_ (lower (a_input a)) = true ->
     (forall stem ext, lower (a_input a) = (stem ++ "." ++ ext)%string -> ~ contains "." ext -> ext <> "csv" -> ext <> "arff" ->
        cli_main exists_ load build fit a = ([], Err ValueError))).
Proof.
  intros ex load build fit a. split; intros E; unfold cli_main; rewrite E; [reflexivity|]. intros stem ext P N N1 N2. rewrite P.
  change ("." ++ ext)%string with (String (Ascii.ascii_of_nat 46) ext). change "." with (String (Ascii.ascii_of_nat 46) ""). rewrite Log_Proofs3.split_last by exact N. rewrite last_last.
  apply String.eqb_neq in N1. apply String.eqb_neq in N2. unfold mem. cbn [existsb negb]. rewrite N1, N2. reflexivity.
Qed.
Example C90_ex_main :
  let a f sep mode dry := mkArgs f sep None "m.pkl" (Some "p.py") mode None true 60 5 1 None false dry in
  let run := cli_main (fun p => mem p ["iris.csv"; "Iris.csv"]) (fun _ _ _ => Ok true) (fun _ _ => Ok tt) (Ok tt) in
  (exists k, run (a "iris.csv" None None false) = ([Read "iris.csv" None None; Construct AClassifier k; Fit; Dump "m.pkl"; Export "p.py"], Ok tt)) /\
  (exists k, run (a "iris.csv" None (Some "regression") true) = ([Read "iris.csv" None None; Construct ARegressor k; Cleanup], Ok tt)) /\
  run (a "iris.csv" (Some ";") None false) = ([], Err AttributeError) /\
  (exists k, run (a "Iris.csv" None None false) = ([Read "iris.csv" None None; Construct AClassifier k; Fit; Dump "m.pkl"; Export "p.py"], Ok tt)).
Proof. split; [eexists; reflexivity|]. split; [eexists; reflexivity|]. split; [reflexivity|]. eexists; reflexivity. Qed.

(** Property theorems; proofs in Conf_Main.v. *)
From Verif Require Import Base Gp_Model Gp_Spec Cov_Spec Conf_Model Conf_Spec Conf_Examples Gp_Examples.
Require Import Ascii Permutation Sorted.
Open Scope string_scope.
Open Scope list_scope.
Open Scope nat_scope.
From Verif Require Import Conf_Main.

(** C63: the primitives of each type are exactly the configured algorithms of
    that type, once each, with all their hyperparameters. *)
Theorem C63_primitives :
  forall cfg d ch, pset_from_config cfg = Ok (d, ch) ->
    (forall k, Permutation (map p_class (prims_of (pset_of d) k)) (algorithms cfg k)) /\
    (forall k p, In p (prims_of (pset_of d) k) ->
       p_output p = k /\ exists c e items, In (KeyClass c, e) cfg /\ e_dict e = Some items /\ primitive_for c items p) /\
    (forall c e items, In (KeyClass c, e) cfg -> e_dict e = Some items ->
       exists k p, role c = Some k /\ In p (prims_of (pset_of d) k) /\ primitive_for c items p).
Proof. exact C63_primitives_main. Qed.
Print Assumptions C63_primitives.

(** The values of each hyperparameter are the configured ones, in order;
    nothing else has values. *)
Theorem C63_values_partial :
  forall cfg d ch, pset_from_config cfg = Ok (d, ch) -> unambiguous cfg ->
    (forall s e vs, In (KeyStr s, e) cfg -> e_iter e = Some vs ->
       terms_of (pset_of d) s = map (fun x => mkTerm x s s) vs) /\
    (forall c e items n v, In (KeyClass c, e) cfg -> e_dict e = Some items -> In (n, v) items -> ~ shared v -> n <> "param_check" ->
       terms_of (pset_of d) (c_name c ++ "." ++ n) = map (fun x => mkTerm x n (c_name c ++ "." ++ n)) (hv_items v)) /\
    (forall k, terms_of (pset_of d) k <> [] ->
       In k (string_keys cfg) \/ exists c e items n v, In (KeyClass c, e) cfg /\ e_dict e = Some items /\ In (n, v) items /\ ~ shared v /\ n <> "param_check" /\ k = (c_name c ++ "." ++ n)%string).
Proof. exact C63_values_partial_main. Qed.
Print Assumptions C63_values_partial.

(** Without that assumption it is false: values of algorithms that have the same
    class name are mixed. *)
Theorem C63_values_refuted :
  exists cfg d ch c e items n v,
    pset_from_config cfg = Ok (d, ch) /\ In (KeyClass c, e) cfg /\ e_dict e = Some items /\ In (n, v) items /\ ~ shared v /\ n <> "param_check" /\
    exists t, In t (terms_of (pset_of d) (c_name c ++ "." ++ n)) /\ ~ In (t_value t) (hv_items v).
Proof. exact C63_values_refuted_main. Qed.
Print Assumptions C63_values_refuted.

(** Keys that are neither strings nor suitable classes are refused with a
    TypeError; a configuration is accepted exactly when all entries are valid. *)
Theorem C63_errors :
  forall cfg,
    ((exists r, pset_from_config cfg = Ok r) <-> Forall valid_entry cfg) /\
    (Forall (fun ke => valid_entry ke \/ bad_key ke) cfg -> Exists bad_key cfg -> pset_from_config cfg = Err TypeError).
Proof. exact C63_errors_main. Qed.
Print Assumptions C63_errors.

(** C63: and the exception tells the kind of mistake: TypeError for values that
    cannot be iterated over (or a bad key), AttributeError for an algorithm whose
    entry is no dictionary, KeyError or IndexError for a param_check without a
    first element. *)
Theorem C63_faults :
  forall cfg x, Forall (fun ke => valid_entry ke \/ fault ke x) cfg -> Exists (fun ke => fault ke x) cfg -> pset_from_config cfg = Err x.
Proof. exact C63_faults_main. Qed.
Print Assumptions C63_faults.

(** The check recorded for an algorithm is the first value of its param_check. *)
Theorem C63_checks :
  forall cfg d ch c e items, pset_from_config cfg = Ok (d, ch) -> unambiguous cfg -> In (KeyClass c, e) cfg -> e_dict e = Some items ->
    (forall v f, In ("param_check", v) items -> first_value v f -> get_check ch (c_name c) = Some f) /\
    (~ In "param_check" (map fst items) -> get_check ch (c_name c) = None).
Proof. exact C63_checks_main. Qed.
Print Assumptions C63_checks.

(** The resulting search space has the properties the other theorems assume. *)
Theorem C63_search_space :
  forall cfg d ch, pset_from_config cfg = Ok (d, ch) ->
    pset_typed (pset_of d) /\
    (complete cfg -> pset_inhabited (pset_of d)) /\
    (unambiguous cfg ->
     (forall s, In s (string_keys cfg) -> has_char "="%char s = false) ->
     (forall c e items n v, In (KeyClass c, e) cfg -> e_dict e = Some items -> In (n, v) items ->
        has_char "="%char n = false /\ (shared v -> has_char "."%char n = false)) ->
     pset_named (pset_of d)).
Proof. exact C63_search_space_main. Qed.
Print Assumptions C63_search_space.

(** A complete configuration with a predictor and a preprocessor can generate
    individuals, always. *)
Theorem C63_can_start :
  forall cfg d ch max_length s, pset_from_config cfg = Ok (d, ch) -> complete cfg -> wf_heap (s_heap s) ->
    algorithms cfg "prediction" <> [] -> algorithms cfg "data" <> [] ->
    match max_length with Some m => (1 <= m)%Z | None => True end ->
    exists ind s', op_individual (pset_of d) max_length s = (Ok ind, s').
Proof. exact C63_can_start_main. Qed.
Print Assumptions C63_can_start.

Example C63_ex : unambiguous ex_cfg /\ complete ex_cfg /\ Forall valid_entry ex_cfg /\
  exists d ch, pset_from_config ex_cfg = Ok (d, ch) /\ get_check ch "SVC" = Some vcheck /\ algorithms ex_cfg "prediction" = [0; 1] /\
    map p_input (prims_of (pset_of d) "prediction") = [["SVC.dual"; "SVC.penalty"]; ["alpha"; "BNB.fit_prior"]] /\
    Exists bad_key [(KeyOther "<class 'int'>" 3, cfg_alpha)].
Proof. exact C63_ex_main. Qed.

(** One algorithm with a number instead of a list of values; one with a
    param_check that is an empty range. *)
Example C63_faults_ex :
  fault (KeyClass cPCA, mkEntry None (Some [("power", mkHval HScalar [])])) TypeError /\
  pset_from_config [(KeyClass cPCA, mkEntry None (Some [("power", mkHval HScalar [])])); (KeyClass cPCA, cfg_pca)] = Err TypeError /\
  fault (KeyClass cPCA, mkEntry None (Some [("param_check", mkHval HRange [])])) IndexError /\
  fault (KeyClass cPCA, mkEntry (Some []) None) AttributeError /\ fault (KeyStr "alpha", mkEntry None None) TypeError.
Proof. exact C63_faults_ex_main. Qed.

(** C64: merging keeps every option of both configurations (values up to ==). *)
Theorem C64_options_kept_partial :
  forall set_list h c1 c2 m h',
    lists_set set_list -> merge_configurations set_list h c1 c2 = (Ok m, h') ->
    (forall k n v, offers h c1 k n v \/ offers h c2 k n v -> offers h' m k n v) /\
    (forall s v, offers_shared c1 s v \/ offers_shared c2 s v -> offers_shared m s v).
Proof. exact C64_options_kept_partial_main. Qed.
Print Assumptions C64_options_kept_partial.

(** When no inner dictionary is used twice, nothing is invented, and only inner
    dictionaries of the first configuration are modified. *)
Theorem C64_exactly_the_options_partial :
  forall set_list h c1 c2 m h',
    lists_set set_list -> merge_configurations set_list h c1 c2 = (Ok m, h') ->
    distinct_keys c2 -> separate c1 c2 -> distinct_names h c2 ->
    (forall k n v, offers h' m k n v <-> offers h c1 k n v \/ offers h c2 k n v) /\
    (forall s v, offers_shared m s v <-> offers_shared c1 s v \/ offers_shared c2 s v) /\
    view h' c2 = view h c2 /\
    (forall l, ~ In l (dictionaries c1) -> h' l = h l).
Proof. exact C64_exactly_the_options_partial_main. Qed.
Print Assumptions C64_exactly_the_options_partial.

(** Merging is refused exactly when something given in both cannot be combined:
    values in containers of different types (for instance a list and a range), a
    shared hyperparameter that is not a list, or the same key for an algorithm
    and a shared hyperparameter.  The error is a TypeError or AttributeError. *)
Theorem C64_refused :
  forall set_list h c1 c2,
    distinct_keys c2 -> separate c1 c2 -> distinct_names h c2 ->
    (mergeable h c1 c2 <-> exists m h', merge_configurations set_list h c1 c2 = (Ok m, h')) /\
    (~ mergeable h c1 c2 ->
       exists e h', merge_configurations set_list h c1 c2 = (Err e, h') /\ (e = TypeError \/ e = AttributeError) /\
         (forall l, ~ In l (dictionaries c1) -> h' l = h l)).
Proof. exact C64_refused_main. Qed.
Print Assumptions C64_refused.

Example C64_refused_ex : exists h c1 c2 c3,
  distinct_keys c2 /\ separate c1 c2 /\ distinct_names h c2 /\ mergeable h c1 c2 /\
  distinct_keys c3 /\ separate c1 c3 /\ distinct_names h c3 /\ ~ mergeable h c1 c3.
Proof. exact C64_refused_ex_main. Qed.

Example C64_ex : lists_set ex_set /\
  exists h c1 c2 m h', merge_configurations ex_set h c1 c2 = (Ok m, h') /\ distinct_keys c2 /\ separate c1 c2 /\ distinct_names h c2 /\
    offers h c2 (KeyClass cPCA) "power" (vi "9" 9) /\ offers h' m (KeyClass cPCA) "power" (vi "9" 9).
Proof. exact C64_ex_main. Qed.

(** But the first configuration IS modified: merging the classification and
    regression configurations, which importing gama.logging.GamaReport does,
    changes the default search space of GamaClassifier. *)
Theorem C64_inputs_unchanged_refuted :
  forall set_list, exists h c1 c2 m h',
    merge_configurations set_list h c1 c2 = (Ok m, h') /\ distinct_keys c1 /\ distinct_keys c2 /\ separate c1 c2 /\
    view h' c1 <> view h c1.
Proof. exact C64_inputs_unchanged_refuted_main. Qed.
Print Assumptions C64_inputs_unchanged_refuted.

(** An algorithm that used the shared values of a hyperparameter loses them when
    the other configuration gives it values of its own. *)
Theorem C64_shared_option_refuted :
  forall set_list, lists_set set_list -> exists h c1 c2 m h' n k,
    merge_configurations set_list h c1 c2 = (Ok m, h') /\ distinct_keys c1 /\ distinct_keys c2 /\ separate c1 c2 /\
    uses_shared h c1 k n /\ ~ uses_shared h' m k n.
Proof. exact C64_shared_option_refuted_main. Qed.
Print Assumptions C64_shared_option_refuted.

(** Of two param_checks only one survives parsing. *)
Theorem C64_checks_refuted :
  forall set_list, lists_set set_list -> exists h c1 c2 m h' d1 ch1 d2 ch2 d ch f1 f2,
    merge_configurations set_list h c1 c2 = (Ok m, h') /\
    pset_from_config (view h c1) = Ok (d1, ch1) /\ pset_from_config (view h c2) = Ok (d2, ch2) /\ pset_from_config (view h' m) = Ok (d, ch) /\
    get_check ch1 "SVC" = Some f1 /\ get_check ch2 "SVC" = Some f2 /\ v_eq f1 <> v_eq f2 /\
    (get_check ch "SVC" <> Some f1 \/ get_check ch "SVC" <> Some f2).
Proof. exact C64_checks_refuted_main. Qed.
Print Assumptions C64_checks_refuted.

(** C65 is false: the checks are parsed and then used nowhere.  Every pipeline of
    the search space, whether or not it violates a check, can be generated... *)
Theorem C65_checks_ignored_refuted :
  forall cfg d ch holds max_length h u ss,
    pset_from_config cfg = Ok (d, ch) -> wf_heap h -> pipeline_ok (pset_of d) ss ->
    match max_length with Some m => (Z.of_nat (length ss) <= m)%Z | None => length ss <= 3 end ->
    Exists (violates holds ch) ss ->
    possible (op_individual (pset_of d) max_length) h u
      (fun ind h' => exists ls ss', pipeline h' ind ls ss' /\ equivalent ss ss').
Proof. exact C65_checks_ignored_refuted_main. Qed.
Print Assumptions C65_checks_ignored_refuted.

(** ... and such pipelines exist, e.g. for LinearSVC's check. *)
Theorem C65_violation_refuted :
  exists cfg d ch ss, pset_from_config cfg = Ok (d, ch) /\ unambiguous cfg /\ complete cfg /\
    pipeline_ok (pset_of d) ss /\ length ss <= 3 /\ Exists (violates ex_holds ch) ss.
Proof. exact C65_violation_refuted_main. Qed.
Print Assumptions C65_violation_refuted.

(** What holds: a check can only be violated by combinations the search space
    contains, so a search space all of whose combinations are allowed is safe. *)
Theorem C65_checks_partial :
  forall cfg d ch holds max_length max_retry r calls ind,
    pset_from_config cfg = Ok (d, ch) -> 0 < max_retry ->
    (forall k s, step_ok (pset_of d) k s -> ~ violates holds ch s) ->
    In ind (w_pool (gp_run (pset_of d) max_length max_retry (empty_world r) calls)) ->
    exists ls ss, pipeline (s_heap (w_st (gp_run (pset_of d) max_length max_retry (empty_world r) calls))) ind ls ss /\
      Forall (fun s => ~ violates holds ch s) ss.
Proof. exact C65_checks_partial_main. Qed.
Print Assumptions C65_checks_partial.

(** Property theorems; proofs in Whole_Main.v. *)
Require Import ZArith QArith Qcanon.
From Verif Require Import Base Num Lib_Spec Data_Model Data_Spec Gp_Model Gp_Spec Gp_Examples Eval_Model Evo_Model Evo_Spec Rnd_Model Rnd_Spec End_Model End_Spec Pred_Model Fit_Model Fit_Spec Proc_Spec Whole_Model Whole_Spec.
From Verif Require Async_Model Sys_Model Proc_Model.
Open Scope string_scope.
Open Scope nat_scope.
Open Scope list_scope.
From Verif Require Import Whole_Main.

(** C168.  fit with random search, from the arguments to the answers: the search ran on the
    encoded rows of this call, in its search space, on worker processes; whatever they did,
    the object answers with the model of the best of the results they delivered, made
    from a pipeline of the search space within the limit, with the fixed steps of this
    call (of the individual the search was started from, if it is one that already had some),
    and trained on the same rows. *)
Theorem C168_random :
  forall E (build : nat -> list (string * value) -> res E) estimator train rate fit_transform fitted knn poly takes_labels max_n max_length n log defaults g e r g',
  history rate fit_transform fitted knn poly fitness_of takes_labels g ->
  ready (i_pset g') max_length e g -> clear_names (i_pset g') -> (forall k, Forall (fun x => x <> NaN) (e_scores e k)) ->
  fit rate fit_transform fitted knn poly fitness_of takes_labels (this_call build estimator train (RandomSearch max_n) max_length n log defaults e) g = (Ok r, g') ->
  exists xe y pop s deadline ending w p,
    let call := e_call e xe y (i_labels g') deadline in
    deadline_of rate e g' deadline /\ started_from (this_call build estimator train (RandomSearch max_n) max_length n log defaults e) g (i_pset g') pop /\
    Proc_Model.q_rs_phase call (e_scores e) (i_pset g') max_length max_n n log defaults (individuals_of pop) (Proc_Model.before_h s (e_plan e)) = (ending, (w, p)) /\
    h_from_workers call (e_scores e) defaults w /\
    model_of build estimator train fit_transform fitted (this_call build estimator train (RandomSearch max_n) max_length n log defaults e) g g' max_length xe y
      (h_objects w) (results (q_trace w)) (fun i f => own_steps pop (i_extension g') i f /\ (starts_anew e g -> f = i_extension g')).
Proof. exact C168_random_main. Qed.
Print Assumptions C168_random.

(** C168: with ASHA, the best of the results for the highest rung for which there is one. *)
Theorem C168_asha :
  forall E (build : nat -> list (string * value) -> res E) estimator train rate fit_transform fitted knn poly takes_labels eta first_rung max_rung max_full max_length n log defaults g e r g',
  history rate fit_transform fitted knn poly fitness_of takes_labels g ->
  ready (i_pset g') max_length e g -> pset_rich (i_pset g') -> allows_one max_length -> (Z.of_nat first_rung <= max_rung)%Z -> (forall k, e_scores e k <> []) ->
  clear_names (i_pset g') -> (forall k, Forall (fun x => x <> NaN) (e_scores e k)) ->
  fit rate fit_transform fitted knn poly fitness_of takes_labels (this_call build estimator train (Halving eta first_rung max_rung max_full) max_length n log defaults e) g = (Ok r, g') ->
  exists xe y pop s deadline ending w p rung,
    let call := e_call e xe y (i_labels g') deadline in
    deadline_of rate e g' deadline /\ started_from (this_call build estimator train (Halving eta first_rung max_rung max_full) max_length n log defaults e) g (i_pset g') pop /\
    Proc_Model.q_asha_phase call (e_scores e) (i_pset g') max_length eta first_rung max_rung max_full n log defaults (individuals_of pop) (Proc_Model.before_h s (e_plan e)) = (ending, (w, p)) /\
    h_from_workers call (e_scores e) defaults w /\
    (forall r', rung < r' -> scored r' (q_trace w) = []) /\
    model_of build estimator train fit_transform fitted (this_call build estimator train (Halving eta first_rung max_rung max_full) max_length n log defaults e) g g' max_length xe y
      (h_objects w) (map snd (scored rung (q_trace w))) (fun i f => own_steps pop (i_extension g') i f /\ (starts_anew e g -> f = i_extension g')).
Proof. exact C168_asha_main. Qed.
Print Assumptions C168_asha.

(** C168: with the evolutionary search, the best of the final population, and of all
    successes since the last restart if they were at most as many as the population can
    hold; its fixed steps are those of this call or of an individual the search started
    from.  The search knows what earlier fits of the object evaluated.  Missing: the best of all successes (see C151), within the limit (see C144). *)
Theorem C168_evolutionary_partial :
  forall E (build : nat -> list (string * value) -> res E) estimator train rate fit_transform fitted knn poly takes_labels max_retry pop_size max_n restart max_length n log defaults g e r g',
  history rate fit_transform fitted knn poly fitness_of takes_labels g ->
  ready (i_pset g') None e g -> pset_typed (i_pset g') -> 0 < max_retry -> clear_names (i_pset g') -> (forall k, Forall (fun x => x <> NaN) (e_scores e k)) ->
  fit rate fit_transform fitted knn poly fitness_of takes_labels (this_call build estimator train (Evolution max_retry pop_size max_n restart) max_length n log defaults e) g = (Ok r, g') ->
  exists xe y pop (s : setting) deadline ending w p,
    let call := e_call e xe y (i_labels g') deadline in
    let found := successes (since_restart (v_trace w)) in
    deadline_of rate e g' deadline /\ started_from (this_call build estimator train (Evolution max_retry pop_size max_n restart) max_length n log defaults e) g (i_pset g') pop /\
    seen_before s = seen_before (e_mem e) /\
    Proc_Model.p_search call (e_scores e) (i_pset g') max_length max_retry pop_size max_n restart n log defaults (individuals_of pop) (Proc_Model.before_search s (e_plan e)) = (ending, (w, p)) /\
    from_workers call (e_scores e) defaults w /\ incl (v_pop w) found /\ (length found <= pop_size -> v_pop w = found) /\
    model_of build estimator train fit_transform fitted (this_call build estimator train (Evolution max_retry pop_size max_n restart) max_length n log defaults e) g g' None xe y
      (objects w) (v_pop w) (fun i f => f = i_extension g' \/ ~ starts_anew e g /\ steps_of_start pop f).
Proof. exact C168_evolutionary_partial_main. Qed.
Print Assumptions C168_evolutionary_partial.

(** C169.  After any number of calls of fit, failed or not, that exclude nothing from the
    search space, the next search starts from pipelines of the search space, all different: what
    C168 asks for holds of every fit. *)
Theorem C169_ready :
  forall E (build : nat -> list (string * value) -> res E) estimator train rate fit_transform fitted knn poly takes_labels how max_length n log defaults g e,
  series build estimator train rate fit_transform fitted knn poly takes_labels how max_length n log defaults g ->
  given_ok how max_length (i_pset g) e ->
  history rate fit_transform fitted knn poly fitness_of takes_labels g /\ ready (i_pset g) (limit_kept how max_length) e g.
Proof. exact C169_ready_main. Qed.
Print Assumptions C169_ready.

(** C169: the search space stays as it is when pipelines are not stored. *)
Theorem C169_space :
  forall I rate fit_transform fitted knn poly key takes_labels (c : call I) g,
  i_stores g = false -> i_pset (snd (fit rate fit_transform fitted knn poly key takes_labels c g)) = i_pset g.
Proof. exact C169_space_main. Qed.
Print Assumptions C169_space.

(** C169: so, with random search, for every fit of such a series that succeeds: the object
    answers with the model of the best result of its own search, as in C168. *)
Theorem C169_random :
  forall E (build : nat -> list (string * value) -> res E) estimator train rate fit_transform fitted knn poly takes_labels max_n max_length n log defaults g e r g',
  series build estimator train rate fit_transform fitted knn poly takes_labels (RandomSearch max_n) max_length n log defaults g ->
  given_ok (RandomSearch max_n) max_length (i_pset g) e -> i_pset g' = i_pset g -> clear_names (i_pset g) -> (forall k, Forall (fun x => x <> NaN) (e_scores e k)) ->
  fit rate fit_transform fitted knn poly fitness_of takes_labels (this_call build estimator train (RandomSearch max_n) max_length n log defaults e) g = (Ok r, g') ->
  exists xe y pop s deadline ending w p,
    let call := e_call e xe y (i_labels g') deadline in
    deadline_of rate e g' deadline /\ started_from (this_call build estimator train (RandomSearch max_n) max_length n log defaults e) g (i_pset g') pop /\
    Proc_Model.q_rs_phase call (e_scores e) (i_pset g') max_length max_n n log defaults (individuals_of pop) (Proc_Model.before_h s (e_plan e)) = (ending, (w, p)) /\
    h_from_workers call (e_scores e) defaults w /\
    model_of build estimator train fit_transform fitted (this_call build estimator train (RandomSearch max_n) max_length n log defaults e) g g' max_length xe y
      (h_objects w) (results (q_trace w)) (own_steps pop (i_extension g')).
Proof. exact C169_random_main. Qed.
Print Assumptions C169_random.

(** C170, what holds: a fit whose search starts from new individuals (the first fit, and every fit
    with warm_start=[]) gives a model made of its own fixed steps and of algorithms of its own
    search space. *)
Theorem C170_anew_partial :
  forall E (build : nat -> list (string * value) -> res E) estimator train rate fit_transform fitted knn poly takes_labels how max_length n log defaults g e r g',
  history rate fit_transform fitted knn poly fitness_of takes_labels g -> starts_anew e g ->
  wf_heap (s_heap (e_mem e)) -> suits how max_length (i_pset g') e -> clear_names (i_pset g') -> (forall k, Forall (fun x => x <> NaN) (e_scores e k)) ->
  fit rate fit_transform fitted knn poly fitness_of takes_labels (this_call build estimator train how max_length n log defaults e) g = (Ok r, g') ->
  exists xe y objects found,
    model_of build estimator train fit_transform fitted (this_call build estimator train how max_length n log defaults e) g g' (limit_kept how max_length) xe y
      objects found (fun _ f => f = i_extension g').
Proof. exact C170_anew_partial_main. Qed.
Print Assumptions C170_anew_partial.

(** C171.  fit with random search returns if and only if the workers delivered a result in
    time: when its arguments are accepted, pipelines can be made from the search space, and
    estimators can be built and trained, the only failure is the IndexError of a search
    without results. *)
Theorem C171_random :
  forall E (build : nat -> list (string * value) -> res E) estimator train rate fit_transform fitted knn poly takes_labels max_n max_length n log defaults g e xe y r g',
  accepted rate fit_transform (this_call build estimator train (RandomSearch max_n) max_length n log defaults e) g xe y ->
  ready (i_pset g') max_length e g -> pset_rich (i_pset g') -> allows_one max_length ->
  (forall c kwargs, exists x, build c kwargs = Ok x) -> (forall made x y, exists m, train made x y = Ok m) ->
  fit rate fit_transform fitted knn poly fitness_of takes_labels (this_call build estimator train (RandomSearch max_n) max_length n log defaults e) g = (r, g') ->
  exists pop s deadline ending w p,
    started_from (this_call build estimator train (RandomSearch max_n) max_length n log defaults e) g (i_pset g') pop /\
    Proc_Model.q_rs_phase (e_call e xe y (i_labels g') deadline) (e_scores e) (i_pset g') max_length max_n n log defaults (individuals_of pop) (Proc_Model.before_h s (e_plan e)) = (ending, (w, p)) /\
    ((results (q_trace w) = [] /\ r = Err IndexError) \/ (results (q_trace w) <> [] /\ exists v, r = Ok v)).
Proof. exact C171_random_main. Qed.
Print Assumptions C171_random.

(** C171: fit with ASHA, likewise; without a result it fails with UnboundLocalError. *)
Theorem C171_asha :
  forall E (build : nat -> list (string * value) -> res E) estimator train rate fit_transform fitted knn poly takes_labels eta first_rung max_rung max_full max_length n log defaults g e xe y r g',
  accepted rate fit_transform (this_call build estimator train (Halving eta first_rung max_rung max_full) max_length n log defaults e) g xe y ->
  ready (i_pset g') max_length e g -> pset_rich (i_pset g') -> allows_one max_length -> (Z.of_nat first_rung <= max_rung)%Z -> (forall k, e_scores e k <> []) ->
  (match max_full with None => True | Some m => (0 < m)%Z end) ->
  (forall c kwargs, exists x, build c kwargs = Ok x) -> (forall made x y, exists m, train made x y = Ok m) ->
  fit rate fit_transform fitted knn poly fitness_of takes_labels (this_call build estimator train (Halving eta first_rung max_rung max_full) max_length n log defaults e) g = (r, g') ->
  exists pop s deadline ending w p,
    started_from (this_call build estimator train (Halving eta first_rung max_rung max_full) max_length n log defaults e) g (i_pset g') pop /\
    Proc_Model.q_asha_phase (e_call e xe y (i_labels g') deadline) (e_scores e) (i_pset g') max_length eta first_rung max_rung max_full n log defaults (individuals_of pop) (Proc_Model.before_h s (e_plan e)) = (ending, (w, p)) /\
    (((forall rung, scored rung (q_trace w) = []) /\ r = Err UnboundLocalError) \/ ((exists rung, scored rung (q_trace w) <> []) /\ exists v, r = Ok v)).
Proof. exact C171_asha_main. Qed.
Print Assumptions C171_asha.

(** C171: fit with the evolutionary search, likewise, with the final population in the place of
    the results, as long as the search itself does not break down; otherwise fit raises the exception of the
    search.  Those are the ValueError of selecting from fewer than three pipelines, and the ones that
    [breakdown] lists for single scores, limits of three or more steps, and a limit of one step. *)
Theorem C171_evolutionary :
  forall E (build : nat -> list (string * value) -> res E) estimator train rate fit_transform fitted knn poly takes_labels max_retry pop_size max_n restart max_length n log defaults g e xe y r g' k,
  accepted rate fit_transform (this_call build estimator train (Evolution max_retry pop_size max_n restart) max_length n log defaults e) g xe y ->
  ready (i_pset g') max_length e g -> pset_typed (i_pset g') -> pset_rich (i_pset g') -> allows_one max_length -> 0 < max_retry ->
  (forall j, length (e_scores e j) = k) -> (match max_n with Some m => (0 < m)%Z | None => True end) ->
  (forall c kwargs, exists x, build c kwargs = Ok x) -> (forall made x y, exists m, train made x y = Ok m) ->
  fit rate fit_transform fitted knn poly fitness_of takes_labels (this_call build estimator train (Evolution max_retry pop_size max_n restart) max_length n log defaults e) g = (r, g') ->
  exists pop (s : setting) deadline ending w p,
    started_from (this_call build estimator train (Evolution max_retry pop_size max_n restart) max_length n log defaults e) g (i_pset g') pop /\
    seen_before s = seen_before (e_mem e) /\
    Proc_Model.p_search (e_call e xe y (i_labels g') deadline) (e_scores e) (i_pset g') max_length max_retry pop_size max_n restart n log defaults (individuals_of pop) (Proc_Model.before_search s (e_plan e)) = (ending, (w, p)) /\
    ((ending = Ok tt \/ ending = Err Diverges) /\ (v_pop w = [] /\ r = Err IndexError \/ v_pop w <> [] /\ exists v, r = Ok v) \/
     ending = Err ValueError /\ length (v_pop w) < 3 /\ r = Err ValueError \/
     breakdown (i_pset g') max_length k w ending /\ exists ex, ending = Err ex /\ r = Err ex).
Proof. exact C171_evolutionary_main. Qed.
Print Assumptions C171_evolutionary.

(** C170 is false.  Of the steps: the column of shops has few values in the data of the first fit and many in
    those of the second.  The second search starts from the pipelines of the first, which keep the
    steps made for the first data, and so the column is not encoded. *)
Theorem C170_steps_refuted :
  ~ (forall E (build : nat -> list (string * value) -> res E) estimator train rate fit_transform fitted knn poly takes_labels how max_length n log defaults g e r g',
     series build estimator train rate fit_transform fitted knn poly takes_labels how max_length n log defaults g ->
     given_ok how max_length (i_pset g) e -> suits how max_length (i_pset g) e -> clear_names (i_pset g) -> (forall k, Forall (fun x => x <> NaN) (e_scores e k)) ->
     fit rate fit_transform fitted knn poly fitness_of takes_labels (this_call build estimator train how max_length n log defaults e) g = (Ok r, g') ->
     exists xe y objects found,
       model_of build estimator train fit_transform fitted (this_call build estimator train how max_length n log defaults e) g g' (limit_kept how max_length) xe y
         objects found (fun _ f => f = i_extension g')).
Proof. exact C170_steps_refuted_main. Qed.
Print Assumptions C170_steps_refuted.

Theorem C170_space_refuted :
  ~ (forall E (build : nat -> list (string * value) -> res E) estimator train rate fit_transform fitted knn poly takes_labels how max_length n log defaults g e r g',
     series build estimator train rate fit_transform fitted knn poly takes_labels how max_length n log defaults g ->
     given_ok how max_length (i_pset g) e -> suits how max_length (i_pset g) e -> clear_names (i_pset g) -> (forall k, Forall (fun x => x <> NaN) (e_scores e k)) ->
     fit rate fit_transform fitted knn poly fitness_of takes_labels (this_call build estimator train how max_length n log defaults e) g = (Ok r, g') ->
     exists xe y objects found,
       model_of build estimator train fit_transform fitted (this_call build estimator train how max_length n log defaults e) g g' (limit_kept how max_length) xe y
         objects found (fun _ f => True)).
Proof. exact C170_space_refuted_main. Qed.
Print Assumptions C170_space_refuted.

(** C168 applies: an object with the search space of the examples, fitted with each of the search
    methods; afterwards it answers with the model whose steps are the target encoder for
    no columns, the imputer and the three steps of the third of the new pipelines. *)
Example C168_ex :
  history 1 ex_ft ex_fitted no_prim ex_poly fitness_of true (ex_object false) /\
  ready ex_ps (Some 3%Z) few (ex_object false) /\ ready ex_ps None few (ex_object false) /\ starts_anew few (ex_object false) /\
  clear_names ex_ps /\ pset_typed ex_ps /\ pset_rich ex_ps /\ (forall k, Forall (fun x => x <> NaN) (e_scores few k)) /\
  (let z := ex_whole rs3 few (ex_object false) in
   fst z = Ok Self /\ i_pset (snd z) = ex_ps /\ ex_asked (snd z) = Ok (map ex_label [100; 100; 3; 2; 1])) /\
  (let z := ex_whole (Evolution 50 50 (Some 3%Z) false) few (ex_object false) in
   fst z = Ok Self /\ i_pset (snd z) = ex_ps /\ ex_asked (snd z) = Ok (map ex_label [100; 100; 3; 2; 1])) /\
  (let z := ex_whole (Halving 3 0 2%Z (Some 1%Z)) (ex_circ (ex_shops 2) (Some []) (ex_plan 8 20)) (ex_object false) in
   fst z = Ok Self /\ i_pset (snd z) = ex_ps /\ ex_asked (snd z) = Ok (map ex_label [100; 100; 3; 2; 1])).
Proof. exact C168_ex_main. Qed.

(** C169: two fits of one object; the second search starts from the three pipelines that
    the first has evaluated. *)
Example C169_ex :
  ex_series (snd ex_first) /\ given_ok rs3 (Some 3%Z) (i_pset (snd ex_first)) many /\ length (i_final (snd ex_first)) = 3 /\
  clear_names (i_pset (snd ex_first)) /\ (forall k, Forall (fun x => x <> NaN) (e_scores many k)) /\
  fst ex_second = Ok Self /\ ex_asked (snd ex_second) = Ok (map ex_label [100; 100; 3; 2; 1]).
Proof. exact C169_ex_main. Qed.

(** C170: with warm_start=[] the second fit encodes the column of shops. *)
Example C170_ex :
  let e := ex_circ (ex_shops 12) (Some []) (ex_plan 50 4) in
  history 1 ex_ft ex_fitted no_prim ex_poly fitness_of true (snd ex_first) /\ starts_anew e (snd ex_first) /\ wf_heap (s_heap (e_mem e)) /\
  suits rs3 (Some 3%Z) (i_pset (snd ex_first)) e /\
  fst (ex_whole rs3 e (snd ex_first)) = Ok Self /\ ex_asked (snd (ex_whole rs3 e (snd ex_first))) = Ok (map ex_label [101; 100; 3; 2; 1]).
Proof. exact C170_ex_main. Qed.

Example C171_ex :
  (forall how ml e, e = few \/ e = ex_none -> (exists xe y, accepted 1 ex_ft (this_call ex_made ex_estimator ex_trained how ml 2 true [] e) (ex_object false) xe y) /\ ready ex_ps ml e (ex_object false)) /\
  pset_typed ex_ps /\ pset_rich ex_ps /\ roomy ex_ps (Some 2%Z) /\ allows_one (Some 2%Z) /\ (forall k, length (Sys_Main.ex_scores k) = 2) /\
  (forall how e, In (how, e) [(rs3, few); (rs3, ex_none); (Evolution 50 50 (Some 3%Z) false, few); (Evolution 50 50 (Some 3%Z) false, ex_none); (Halving 3 0 2%Z (Some 1%Z), ex_none)] -> i_pset (snd (ex_short how e)) = ex_ps) /\
  fst (ex_short rs3 few) = Ok Self /\ fst (ex_short rs3 ex_none) = Err IndexError /\
  fst (ex_short (Evolution 50 50 (Some 3%Z) false) few) = Ok Self /\ fst (ex_short (Evolution 50 50 (Some 3%Z) false) ex_none) = Err IndexError /\
  fst (ex_short (Halving 3 0 2%Z (Some 1%Z)) (ex_circ (ex_shops 2) (Some []) (ex_plan 8 20))) = Ok Self /\ fst (ex_short (Halving 3 0 2%Z (Some 1%Z)) ex_none) = Err UnboundLocalError.
Proof. exact C171_ex_main. Qed.

(** Property theorems; proofs in Top_Main.v. *)
Require Import ZArith QArith Qcanon.
From Verif Require Import Base Num Lib_Spec Data_Model Data_Spec Gp_Model Gp_Spec Gp_Examples Eval_Model Evo_Model Evo_Spec Rnd_Model Rnd_Spec End_Model End_Spec Pred_Model Fit_Model Fit_Spec Proc_Spec Whole_Model Whole_Spec Done_Spec Top_Spec.
From Verif Require Async_Model Sys_Model Proc_Model Sys_Main Again_Main Whole_Main Live_Spec Live_Main Done_Main.
Open Scope string_scope.
Open Scope nat_scope.
Open Scope list_scope.
From Verif Require Import Top_Main.

(** C174.  ASHA gets at most so many results before it ends, as are enough for
    max_full_evaluations scores on the top rung, whatever the workers do; when it has not ended, fewer. *)
Theorem C174_results :
  forall call scores n log defaults ps max_length eta first_rung max_rung m warm_start s plan x w p,
  0 < eta -> (forall k, scores k <> []) ->
  wf_heap (s_heap s) -> start_ok ps max_length s warm_start -> NoDup (map i_id warm_start) -> pset_rich ps -> allows_one max_length -> (Z.of_nat first_rung <= max_rung)%Z ->
  Proc_Model.q_asha_phase call scores ps max_length eta first_rung max_rung (Some m) n log defaults warm_start (Proc_Model.before_h s plan) = (x, (w, p)) ->
  length (arrivals (q_trace w)) <= results_needed eta (lost (q_trace w)) (Z.to_nat m) (Z.to_nat max_rung - first_rung) /\
  (x <> Ok tt -> length (arrivals (q_trace w)) < results_needed eta (lost (q_trace w)) (Z.to_nat m) (Z.to_nat max_rung - first_rung)).
Proof. exact C174_results_main. Qed.
Print Assumptions C174_results.

(** C174: also without max_full_evaluations (the default), whatever the workers do: so many
    results bring [m] pipelines to the top rung. *)
Theorem C174_top :
  forall call scores n log defaults ps max_length eta first_rung max_rung max_full warm_start s plan x w p m,
  0 < eta -> (forall k, scores k <> []) ->
  wf_heap (s_heap s) -> start_ok ps max_length s warm_start -> NoDup (map i_id warm_start) -> pset_rich ps -> allows_one max_length -> (Z.of_nat first_rung <= max_rung)%Z ->
  Proc_Model.q_asha_phase call scores ps max_length eta first_rung max_rung max_full n log defaults warm_start (Proc_Model.before_h s plan) = (x, (w, p)) ->
  results_needed eta (lost (q_trace w)) m (Z.to_nat max_rung - first_rung) <= length (arrivals (q_trace w)) ->
  m <= length (scored (Z.to_nat max_rung) (q_trace w)).
Proof. exact C174_top_main. Qed.
Print Assumptions C174_top.

(** C174: when the workers get their turns, and only these evaluations fail, that many rounds
    are enough: the search comes to its end, with all the scores on the top rung. *)
Theorem C174_ends :
  forall call scores n log defaults ps max_length eta first_rung max_rung m warm_start s first_turns rounds rest x w p failing,
  0 < n -> 0 < eta -> yields call defaults failing -> Live_Spec.nobody_killed (first_turns ++ concat rounds) -> Forall (Live_Spec.late_round n) rounds -> 8 <= length first_turns ->
  (forall k, scores k <> []) -> results_needed eta (length failing) (Z.to_nat m) (Z.to_nat max_rung - first_rung) <= length rounds ->
  wf_heap (s_heap s) -> start_ok ps max_length s warm_start -> NoDup (map i_id warm_start) -> pset_rich ps -> allows_one max_length -> (Z.of_nat first_rung <= max_rung)%Z ->
  Proc_Model.q_asha_phase call scores ps max_length eta first_rung max_rung (Some m) n log defaults warm_start (Proc_Model.before_h s (first_turns ++ concat rounds ++ rest)) = (x, (w, p)) ->
  x = Ok tt /\ (m <= Z.of_nat (length (scored (Z.to_nat max_rung) (q_trace w))))%Z.
Proof. exact C174_ends_main. Qed.
Print Assumptions C174_ends.

(** C174: the same for any max_full_evaluations, or none: after so many rounds there are [m]
    scores on the top rung, unless the search has ended before that, with max_full_evaluations. *)
Theorem C174_reaches :
  forall call scores n log defaults ps max_length eta first_rung max_rung max_full warm_start s first_turns rounds rest x w p failing m,
  0 < n -> 0 < eta -> yields call defaults failing -> Live_Spec.nobody_killed (first_turns ++ concat rounds) -> Forall (Live_Spec.late_round n) rounds -> 8 <= length first_turns ->
  (forall k, scores k <> []) -> results_needed eta (length failing) m (Z.to_nat max_rung - first_rung) <= length rounds ->
  wf_heap (s_heap s) -> start_ok ps max_length s warm_start -> NoDup (map i_id warm_start) -> pset_rich ps -> allows_one max_length -> (Z.of_nat first_rung <= max_rung)%Z ->
  Proc_Model.q_asha_phase call scores ps max_length eta first_rung max_rung max_full n log defaults warm_start (Proc_Model.before_h s (first_turns ++ concat rounds ++ rest)) = (x, (w, p)) ->
  m <= length (scored (Z.to_nat max_rung) (q_trace w)) \/
  exists full, max_full = Some full /\ x = Ok tt /\ (full <= Z.of_nat (length (scored (Z.to_nat max_rung) (q_trace w))))%Z.
Proof. exact C174_reaches_main. Qed.
Print Assumptions C174_reaches.

(** C174: fit with ASHA then returns, with a model of the best of the pipelines that were
    evaluated on the top rung, that is, on all the data. *)
Theorem C174_fit :
  forall E (build : nat -> list (string * value) -> res E) estimator train rate fit_transform fitted knn poly takes_labels eta first_rung max_rung m max_length n log defaults g e xe y r g' failing,
  history rate fit_transform fitted knn poly fitness_of takes_labels g ->
  accepted rate fit_transform (this_call build estimator train (Halving eta first_rung max_rung (Some m)) max_length n log defaults e) g xe y ->
  ready (i_pset g') max_length e g -> pset_rich (i_pset g') -> allows_one max_length -> (Z.of_nat first_rung <= max_rung)%Z -> (forall k, e_scores e k <> []) ->
  clear_names (i_pset g') -> (forall k, Forall (fun x => x <> NaN) (e_scores e k)) ->
  (forall c kwargs, exists x, build c kwargs = Ok x) -> (forall made x y, exists m, train made x y = Ok m) ->
  (0 < m)%Z -> 0 < eta -> 0 < n ->
  (forall xe y labels deadline, yields (e_call e xe y labels deadline) defaults failing) ->
  long_enough n 8 (results_needed eta (length failing) (Z.to_nat m) (Z.to_nat max_rung - first_rung)) (e_plan e) ->
  fit rate fit_transform fitted knn poly fitness_of takes_labels (this_call build estimator train (Halving eta first_rung max_rung (Some m)) max_length n log defaults e) g = (r, g') ->
  exists v, r = Ok v /\
  exists xe y pop s deadline w p,
    let call := e_call e xe y (i_labels g') deadline in
    Proc_Model.q_asha_phase call (e_scores e) (i_pset g') max_length eta first_rung max_rung (Some m) n log defaults (individuals_of pop) (Proc_Model.before_h s (e_plan e)) = (Ok tt, (w, p)) /\
    h_from_workers call (e_scores e) defaults w /\
    (m <= Z.of_nat (length (scored (Z.to_nat max_rung) (q_trace w))))%Z /\
    model_of build estimator train fit_transform fitted (this_call build estimator train (Halving eta first_rung max_rung (Some m)) max_length n log defaults e) g g' max_length xe y
      (h_objects w) (map snd (scored (Z.to_nat max_rung) (q_trace w))) (fun i f => own_steps pop (i_extension g') i f /\ (starts_anew e g -> f = i_extension g')).
Proof. exact C174_fit_main. Qed.
Print Assumptions C174_fit.

(** C174: and for any max_full_evaluations, or none, the model is of the top rung as soon as
    there was time for one score on it, also when the search was stopped by the time limit. *)
Theorem C174_fit_top :
  forall E (build : nat -> list (string * value) -> res E) estimator train rate fit_transform fitted knn poly takes_labels eta first_rung max_rung max_full max_length n log defaults g e xe y r g' failing,
  history rate fit_transform fitted knn poly fitness_of takes_labels g ->
  accepted rate fit_transform (this_call build estimator train (Halving eta first_rung max_rung max_full) max_length n log defaults e) g xe y ->
  ready (i_pset g') max_length e g -> pset_rich (i_pset g') -> allows_one max_length -> (Z.of_nat first_rung <= max_rung)%Z -> (forall k, e_scores e k <> []) ->
  clear_names (i_pset g') -> (forall k, Forall (fun x => x <> NaN) (e_scores e k)) ->
  (forall c kwargs, exists x, build c kwargs = Ok x) -> (forall made x y, exists m, train made x y = Ok m) ->
  (match max_full with None => True | Some m => (0 < m)%Z end) -> 0 < eta -> 0 < n ->
  (forall xe y labels deadline, yields (e_call e xe y labels deadline) defaults failing) ->
  long_enough n 8 (results_needed eta (length failing) 1 (Z.to_nat max_rung - first_rung)) (e_plan e) ->
  fit rate fit_transform fitted knn poly fitness_of takes_labels (this_call build estimator train (Halving eta first_rung max_rung max_full) max_length n log defaults e) g = (r, g') ->
  exists v, r = Ok v /\
  exists xe y pop s deadline x w p,
    let call := e_call e xe y (i_labels g') deadline in
    Proc_Model.q_asha_phase call (e_scores e) (i_pset g') max_length eta first_rung max_rung max_full n log defaults (individuals_of pop) (Proc_Model.before_h s (e_plan e)) = (x, (w, p)) /\
    h_from_workers call (e_scores e) defaults w /\
    0 < length (scored (Z.to_nat max_rung) (q_trace w)) /\
    model_of build estimator train fit_transform fitted (this_call build estimator train (Halving eta first_rung max_rung max_full) max_length n log defaults e) g g' max_length xe y
      (h_objects w) (map snd (scored (Z.to_nat max_rung) (q_trace w))) (fun i f => own_steps pop (i_extension g') i f /\ (starts_anew e g -> f = i_extension g')).
Proof. exact C174_fit_top_main. Qed.
Print Assumptions C174_fit_top.

Example C174_ex :
  results_needed 3 0 1 1 = 28 /\ results_needed 2 0 1 1 = 19 /\ long_enough 2 8 19 (Done_Main.ex_turns 20) /\ yields Again_Main.steady_call [] [] /\
  history 1 ex_ft ex_fitted no_prim Whole_Main.ex_poly fitness_of true (Whole_Main.ex_object false) /\
  fst (ex_top (Some 1%Z) 20) = Ok Self /\ i_pset (snd (ex_top (Some 1%Z) 20)) = ex_ps /\
  fst (ex_run (Some 1%Z) 9) = Ok tt /\ length (scored 1 (q_trace (fst (snd (ex_run (Some 1%Z) 9))))) = 1 /\
  fst (ex_run (Some 1%Z) 1) = Err Diverges /\ length (arrivals (q_trace (fst (snd (ex_run (Some 1%Z) 1))))) = 2 /\ lost (q_trace (fst (snd (ex_run (Some 1%Z) 9)))) = 0 /\
  (* without max_full_evaluations *)
  fst (ex_top None 20) = Ok Self /\ fst (ex_run None 20) = Err Diverges /\ length (scored 1 (q_trace (fst (snd (ex_run None 20))))) = 11.
Proof. exact C174_ex_main. Qed.

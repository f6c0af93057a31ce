(** From the search to the ensemble: Gama.fit (gama.py:590-616) with
    EnsemblePostProcessing (postprocessing/ensemble.py:71-82), for the three searches.

    The searches are those of [Evo_Model.v] and [Rnd_Model.v], the library that of
    [Lib_Model.v], the ensemble that of [Ens_Model.v] and [Pred_Model.v].  As in
    [End_Model.v], a search without further results is stopped by the time limit.

    Simplifications.  The library is filled after the search instead of during it, from
    the results in the order in which they arrived (operator_set.py:43-50 calls it for each
    of them; the only answer the search takes from it, the set of the texts of the
    evaluated pipelines, is in [Evo_Model.v]).  The sample of rows and the search take
    their random numbers from different streams. *)
From Verif Require Import Base Num Gp_Model Evo_Model Rnd_Model End_Model.
From Verif Require Lib_Model Ens_Model Misc_Model Pred_Model.
Require Qcanon.
Open Scope nat_scope.
Open Scope list_scope.

(** A completed evaluation: its individual, the scores and the error. *)
Record report := mkRep { p_ind : individual; p_scores : list num; p_error : option string }.
(** What evaluate_individual reports (compilers/scikitlearn.py:170-212); the text of the
    error is not modelled. *)
Definition reported (i : individual) (scores : list num) (failed : bool) : report :=
  mkRep i scores (if failed then Some "failed"%string else None).
(** evaluate_on_rung, asha.py:210-221. *)
Definition evaluate_on_rung (max_rung : Z) (r : nat) (p : report) : report :=
  match p_error p with
  | None => if Z.eqb (Z.of_nat r) max_rung then p else mkRep (p_ind p) (p_scores p) (Some "Not a full evaluation."%string)
  | Some _ => p
  end.
(** The evaluations wait_next passes on (operator_set.py:43-50): futures with an exception
    have no result. *)
Definition rs_reports (t : list hitem) : list report :=
  flat_map (fun x => match x with
    | Finished i _ (Evaluated scores failed) => [reported i scores failed]
    | _ => [] end) t.
Definition asha_reports (max_rung : Z) (t : list hitem) : list report :=
  flat_map (fun x => match x with
    | Finished i r (Evaluated scores failed) => [evaluate_on_rung max_rung r (reported i scores failed)]
    | _ => [] end) t.
Definition ea_reports (t : list item) : list report :=
  flat_map (fun x => match x with
    | Collected i (Evaluated scores failed) => [reported i scores failed]
    | _ => [] end) t.

(** The Evaluation objects (evaluation_library.py:21-43).  [data k]: the fitted estimators
    of the folds and the predictions of completed evaluation number [k]. *)
Fixpoint evaluations (text : individual -> string) (data : nat -> list nat * option (list nat)) (k : nat) (l : list report)
    : list Lib_Model.ev :=
  match l with
  | [] => []
  | p :: l' =>
    Lib_Model.new_ev (i_id (p_ind p)) (text (p_ind p)) (p_scores p) (p_error p) (fst (data k)) (snd (data k))
      :: evaluations text data (S k) l'
  end.
(** The key of the library's lookup, evaluation_library.py:151-155 (individual.py:59-61). *)
Definition text_in (s : st) (i : individual) : string :=
  match fst (pipeline_str i s) with Ok x => x | Err _ => ""%string end.

Section Fit.
(** [l0]: the library before the search, [rr] and [r]: random numbers for the library and
    the ensemble; the rest as in [Pred_Model.post_process]. *)
Context {A : Type} (l0 : Lib_Model.lib) (rr : rng) (data : nat -> list nat * option (list nat))
  (row : nat -> list Qcanon.Qc) (tr : option (Ens_Model.mat -> res Ens_Model.mat))
  (metric : list A -> Ens_Model.mat -> res num) (task : option bool)
  (options : Misc_Model.hps) (y : list A) (left : num) (r : rng).

(** The library after the search.  An exception of save_evaluation is logged and
    ignored (gama.py:716-743). *)
Definition library (s : st) (l : list report) : Lib_Model.lib :=
  fst (Lib_Model.saves l0 (evaluations (text_in s) data 0 l) rr).
(** gama.py:610-616. *)
Definition ensemble_model (s : st) (l : list report) : res (Ens_Model.ens * res unit) :=
  fst (Pred_Model.post_process row tr metric task options y left (library s l) r).

(** fit with RandomSearch. *)
Definition fit_random_ens (ps : pset) (max_length max_n : option Z) (warm_start : list individual) (es : list event)
    : MH (Ens_Model.ens * res unit) := fun w =>
  let (x, w1) := rs_phase ps max_length max_n warm_start es w in
  match search_over x with
  | Err e => (Err e, w1)
  | Ok _ => (ensemble_model (q_st w1) (rs_reports (q_trace w1)), w1)
  end.
(** fit with AsyncEA. *)
Definition fit_evo_ens (ps : pset) (max_length : option Z) (max_retry workers pop_size : nat) (max_n : option Z) (restart : bool)
    (warm_start : list individual) (es : list event) : ME (Ens_Model.ens * res unit) := fun w =>
  let (x, w1) := search ps max_length max_retry workers pop_size max_n restart warm_start es w in
  match search_over x with
  | Err e => (Err e, w1)
  | Ok _ => (ensemble_model (v_st w1) (ea_reports (v_trace w1)), w1)
  end.
(** fit with AsynchronousSuccessiveHalving; what asha returns is not used, but asha may
    raise instead. *)
Definition fit_asha_ens (ps : pset) (max_length : option Z) (eta first_rung : nat) (max_rung : Z) (max_full : option Z)
    (warm_start : list individual) (es : list event) : MH (Ens_Model.ens * res unit) :=
  l <+ Rnd_Model.candidates ps max_length warm_start ;;
  fun w =>
    let (x, w1) := asha ps max_length eta first_rung max_rung max_full es (mkH (q_st w) (q_jobs w) l (q_rungs w) (q_out w) (q_trace w)) in
    match asha_output x (q_rungs w1) with
    | Err e => (Err e, w1)
    | Ok _ => (ensemble_model (q_st w1) (asha_reports max_rung (q_trace w1)), w1)
    end.
End Fit.

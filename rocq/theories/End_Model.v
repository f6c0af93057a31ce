(** From the search to the model: Gama.fit (gama.py:590-616) with
    BestFitPostProcessing (postprocessing/best_fit.py:16-29), for the three searches.

    [Fac_Model.v] has the same post-processing on individuals without pipelines.  Here the
    individuals are the objects of [Gp_Model.v], and the model is the list of steps of the
    scikit-learn pipeline (compile_individual, see [Eval_Model.v]); training it on the
    given data is not modelled.  A search that is still waiting for a result when no more
    events are given ([Diverges]) is stopped there by the time limit: the
    TimeoutException ends the search and does not leave _search_phase (gama.py:651-655). *)
From Verif Require Import Base Num Gp_Model Eval_Model Evo_Model Rnd_Model.
From Verif Require Fac_Model.
Open Scope nat_scope.
Open Scope list_scope.

Section Fit.
(** [build] as in [Eval_Model.v]; the fixed preprocessing steps (gama.py:544-550). *)
Context {E : Type} (build : nat -> list (string * value) -> res E) (fixed : list (string * E)).

(** gama.py:602-616, best_fit.py:25-29; [Individual.pipeline] (individual.py:44-51) compiles
    with the fixed steps. *)
Definition best_model (final_pop : list member) : M (list (string * E)) :=
  match Fac_Model.best_fit (Fac_Model.best_individuals m_fit final_pop) with
  | Err e => mraise e
  | Ok m => compile build (m_ind m) (Some fixed)
  end.

(** The search phase is over. *)
Definition search_over (x : res unit) : res unit :=
  match x with Err Diverges => Ok tt | _ => x end.

(** fit with RandomSearch; RandomSearch.output (random_search.py:25-28) is the list the
    search appends to. *)
Definition fit_random (ps : pset) (max_length max_n : option Z) (warm_start : list individual) (es : list event)
    : MH (list (string * E)) := fun w =>
  let (x, w1) := rs_phase ps max_length max_n warm_start es w in
  match search_over x with
  | Err e => (Err e, w1)
  | Ok _ => hgp (best_model (q_out w1)) w1
  end.

(** fit with AsyncEA; AsyncEA.output is current_population (async_ea.py:67-72,113,120). *)
Definition fit_evo (ps : pset) (max_length : option Z) (max_retry workers pop_size : nat) (max_n : option Z) (restart : bool)
    (warm_start : list individual) (es : list event) : ME (list (string * E)) := fun w =>
  let (x, w1) := search ps max_length max_retry workers pop_size max_n restart warm_start es w in
  match search_over x with
  | Err e => (Err e, w1)
  | Ok _ => gp (best_model (v_pop w1)) w1
  end.

(** What asha returns, asha.py:197-207: the individuals of the highest rung after the loop,
    of the highest rung reached when stopped by the time limit (also when that is not the
    top rung: the [return] in [finally] replaces the RuntimeWarning); any other
    exception is replaced by the UnboundLocalError of line 207.  [l]: the rungs, highest
    first. *)
Definition rung_inds (y : rung) : list member := map snd (g_inds y).
Fixpoint highest_reached (l : list rung) : option rung :=
  match l with
  | [] => None
  | y :: l' => match g_inds y with [] => highest_reached l' | _ => Some y end
  end.
Definition asha_output (x : res unit) (l : list rung) : res (list member) :=
  match x with
  | Ok _ => match l with [] => Err UnboundLocalError | y :: _ => Ok (rung_inds y) end
  | Err Diverges => match highest_reached l with None => Err UnboundLocalError | Some y => Ok (rung_inds y) end
  | Err _ => Err UnboundLocalError
  end.
(** fit with AsynchronousSuccessiveHalving; its output is what asha returns
    (asha.py:76-81). *)
Definition fit_asha (ps : pset) (max_length : option Z) (eta first_rung : nat) (max_rung : Z) (max_full : option Z)
    (warm_start : list individual) (es : list event) : MH (list (string * E)) :=
  l <+ Rnd_Model.candidates ps max_length warm_start ;;
  fun w =>
    let (x, w1) := asha ps max_length eta first_rung max_rung max_full es (mkH (q_st w) (q_jobs w) l (q_rungs w) (q_out w) (q_trace w)) in
    match asha_output x (q_rungs w1) with
    | Err e => (Err e, w1)
    | Ok pop => hgp (best_model pop) w1
    end.
End Fit.

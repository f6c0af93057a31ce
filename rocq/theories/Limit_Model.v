(** The three searches on pipelines with worker processes and a limit on memory use
    (max_memory_mb, gama.py:245-250): the programs of [Proc_Model.v] with an evaluator that
    was made with this limit (async_evaluator.py:256-303, [Async_Model.control]): a worker
    process that uses too much is stopped while wait_next waits, and replaced or not.

    What is evaluated on a stopped worker is lost: its future stays among the futures of the
    evaluator (the "todo" of async_evaluator.py:303), and job_queue_size is reduced by one
    (async_evaluator.py:253). *)
Require Import ZArith.
From Verif Require Import Base Num Gp_Model Eval_Model Evo_Model Rnd_Model End_Model Proc_Model.
From Verif Require Async_Model Sys_Model.
Open Scope nat_scope.
Open Scope list_scope.

Section Limit.
(** [call], [scores]: as in [Proc_Model.v]; [limit]: max_memory_mb. *)
Context (call : nat -> list nat -> Async_Model.kwargs -> nat -> Async_Model.outcome) (scores : nat -> list num).
Context (limit : option nat).

(** [with AsyncEvaluator() as async_] (async_evaluator.py:122-164; gama.py:245-250), as
    [Proc_Model.with_evaluator], with the limit. *)
Definition with_limit {T J A} (n : nat) (log : bool) (defaults : Async_Model.kwargs) (m : MP T J A) : MP T J A := fun y =>
  let s := Async_Model.step call (Async_Model.new_evaluator n limit log defaults) Async_Model.Enter in
  let (x, y') := m (fst y, mkPool s [] (p_plan (snd y))) in
  (x, (fst y', mkPool (Async_Model.step call (p_s (snd y')) Async_Model.Exit) (p_jobs (snd y')) (p_plan (snd y')))).

(** async_ea, async_ea.py:75-152; gama.py:622-661. *)
Section EA.
Context (ps : pset) (max_length : option Z) (max_retry pop_size : nat) (max_n : option Z) (restart : bool).
Definition l_async_ea (n : nat) (log : bool) (defaults : Async_Model.kwargs) (start : list individual) : P unit := fun y =>
  if match max_n with Some m => (m <=? 0)%Z | None => false end then (Err ValueError, y)
  else with_limit n log defaults
         (p_begin call start ;;# p_turns call scores ps max_length max_retry pop_size max_n restart (S (length (p_plan (snd y)))) 0) y.
Definition l_search (n : nat) (log : bool) (defaults : Async_Model.kwargs) (warm_start : list individual) : P unit :=
  match warm_start with
  | [] => l <# own (individuals ps max_length 50) ;; l_async_ea n log defaults l
  | _ => l_async_ea n log defaults warm_start
  end.
End EA.

(** random_search, random_search.py:31-68; asha, asha.py:125-198; gama.py:622-661. *)
Section RS.
Context (ps : pset) (max_length : option Z).
Definition l_random_search (max_n : option Z) (n : nat) (log : bool) (defaults : Async_Model.kwargs) (start : list individual) : Q unit := fun y =>
  with_limit n log defaults (q_submit_each call start ;;# q_rs_turns call scores ps max_length max_n (S (length (p_plan (snd y))))) y.
Definition l_rs_phase (max_n : option Z) (n : nat) (log : bool) (defaults : Async_Model.kwargs) (warm_start : list individual) : Q unit :=
  l <# own (candidates ps max_length warm_start) ;; l_random_search max_n n log defaults l.
Context (eta first_rung : nat) (max_rung : Z).
Definition l_asha (max_full : option Z) (n : nat) (log : bool) (defaults : Async_Model.kwargs) : Q unit := fun y =>
  (own (set_rungs (empty_rungs first_rung max_rung)) ;;#
   with_limit n log defaults (q_start_jobs call ps max_length eta first_rung max_rung 8 ;;#
     q_asha_turns call scores ps max_length eta first_rung max_rung max_full (S (length (p_plan (snd y)))))) y.
Definition l_asha_phase (max_full : option Z) (n : nat) (log : bool) (defaults : Async_Model.kwargs) (warm_start : list individual) : Q unit :=
  l <# own (candidates ps max_length warm_start) ;; own (set_start l) ;;# l_asha max_full n log defaults.
End RS.

(** fit with BestFitPostProcessing (gama.py:507-620, best_fit.py:16-29), see [End_Model.v].
    An exception from the evaluator (ValueError, when the process to stop cannot be
    determined or has already gone) ends fit: gama.py:641-657 only catches the end of the
    time and KeyboardInterrupt. *)
Section Fit.
Context {E : Type} (build : nat -> list (string * value) -> res E) (fixed : list (string * E)).
Context (ps : pset) (max_length : option Z) (n : nat) (log : bool) (defaults : Async_Model.kwargs).
Definition fit_random_l (max_n : option Z) (warm_start : list individual) : Q (list (string * E)) := fun y =>
  let (x, y1) := l_rs_phase ps max_length max_n n log defaults warm_start y in
  match search_over x with
  | Err e => (Err e, y1)
  | Ok _ => own (hgp (best_model build fixed (q_out (fst y1)))) y1
  end.
Definition fit_evo_l (max_retry pop_size : nat) (max_n : option Z) (restart : bool) (warm_start : list individual) : P (list (string * E)) := fun y =>
  let (x, y1) := l_search ps max_length max_retry pop_size max_n restart n log defaults warm_start y in
  match search_over x with
  | Err e => (Err e, y1)
  | Ok _ => own (gp (best_model build fixed (v_pop (fst y1)))) y1
  end.
Definition fit_asha_l (eta first_rung : nat) (max_rung : Z) (max_full : option Z) (warm_start : list individual) : Q (list (string * E)) :=
  l <# own (candidates ps max_length warm_start) ;;
  own (set_start l) ;;#
  fun y =>
    let (x, y1) := l_asha ps max_length eta first_rung max_rung max_full n log defaults y in
    match asha_output x (q_rungs (fst y1)) with
    | Err e => (Err e, y1)
    | Ok pop => own (hgp (best_model build fixed pop)) y1
    end.
End Fit.
End Limit.

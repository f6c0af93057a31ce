(** fit with EnsemblePostProcessing (gama.py:590-616, postprocessing/ensemble.py:71-82) on
    top of the worker processes: the searches of [Proc_Model.v], followed by what
    [Mix_Model.v] does after them.  The simplifications are those of these two files. *)
Require Import ZArith.
From Verif Require Import Base Num Gp_Model Evo_Model Rnd_Model End_Model Mix_Model Proc_Model.
From Verif Require Lib_Model Ens_Model Misc_Model.
From Verif Require Async_Model.
Require Qcanon.
Open Scope nat_scope.
Open Scope list_scope.

Section Fit.
(** As in [Proc_Model.v] and [Mix_Model.v]. *)
Context (call : nat -> list nat -> Async_Model.kwargs -> nat -> Async_Model.outcome) (scores : nat -> list num).
Context {A : Type} (l0 : Lib_Model.lib) (rr : rng) (data : nat -> list nat * option (list nat))
  (row : nat -> list Qcanon.Qc) (tr : option (Ens_Model.mat -> res Ens_Model.mat))
  (metric : list A -> Ens_Model.mat -> res num) (task : option bool)
  (options : Misc_Model.hps) (y : list A) (left : num) (r : rng).
Context (ps : pset) (max_length : option Z) (n : nat) (log : bool) (defaults : Async_Model.kwargs).

Definition team (s : st) (l : list report) : res (Ens_Model.ens * res unit) :=
  ensemble_model l0 rr data row tr metric task options y left r s l.
(** fit with RandomSearch. *)
Definition fit_random_ens_p (max_n : option Z) (warm_start : list individual) : Q (Ens_Model.ens * res unit) := fun u =>
  let (x, u1) := q_rs_phase call scores ps max_length max_n n log defaults warm_start u in
  match search_over x with
  | Err e => (Err e, u1)
  | Ok _ => (team (q_st (fst u1)) (rs_reports (q_trace (fst u1))), u1)
  end.
(** fit with AsyncEA. *)
Definition fit_evo_ens_p (max_retry pop_size : nat) (max_n : option Z) (restart : bool) (warm_start : list individual) : P (Ens_Model.ens * res unit) := fun u =>
  let (x, u1) := p_search call scores ps max_length max_retry pop_size max_n restart n log defaults warm_start u in
  match search_over x with
  | Err e => (Err e, u1)
  | Ok _ => (team (v_st (fst u1)) (ea_reports (v_trace (fst u1))), u1)
  end.
(** fit with AsynchronousSuccessiveHalving. *)
Definition fit_asha_ens_p (eta first_rung : nat) (max_rung : Z) (max_full : option Z) (warm_start : list individual) : Q (Ens_Model.ens * res unit) :=
  l <# own (Rnd_Model.candidates ps max_length warm_start) ;;
  own (set_start l) ;;#
  fun u =>
    let (x, u1) := q_asha call scores ps max_length eta first_rung max_rung max_full n log defaults u in
    match asha_output x (q_rungs (fst u1)) with
    | Err e => (Err e, u1)
    | Ok _ => (team (q_st (fst u1)) (asha_reports max_rung (q_trace (fst u1))), u1)
    end.
End Fit.

(** Vocabulary for the search methods on top of the processes. *)
Require Import ZArith QArith.
From Verif Require Import Base Num Search_Model Search_Spec.
From Verif Require Async_Model Async_Spec.
From Verif Require Import Sys_Model.
Open Scope nat_scope.

(** Before a search: lists of individuals, random numbers, when the time limit arrives;
    what the worker processes will do; what the calls of evaluate_callback will raise. *)
Definition before (lists : list (list ind)) (n : nat) (r : rng) (uid : nat) (stop : option (nat * exn))
    (plan : list turn) (calls : list (option exn)) : sys :=
  mkSys (start_world lists n [] r uid stop) (Async_Model.new_evaluator n None true []) [] plan calls.

(** What was submitted, in order; what was collected, in order. *)
Definition starts (t : list item) : list (ind * option nat) :=
  flat_map (fun x => match x with TSubmit i r _ => [(i, r)] | _ => [] end) t.
Definition dones (t : list item) : list (ind * option nat * outcome) :=
  flat_map (fun x => match x with TDone i r o => [(i, r, o)] | _ => [] end) t.
(** What the main process learns from an outcome of the call: an Evaluation with its
    scores, failed when it has an error; otherwise that there is no result. *)
Definition seen_as (scores : nat -> list num) (o : Async_Model.outcome) (x : outcome) : Prop :=
  match o with
  | Async_Model.Ret (Async_Model.VEval n e) => exists failed, x = Evaluated (scores n) failed /\ (failed = false <-> e = Async_Model.NoError)
  | _ => x = Raised
  end.
(** The result [(i, r, o)] is the result of the job numbered [k], which was submitted for
    this individual and this rung, and whose call ended. *)
Definition result_of (call : nat -> list nat -> Async_Model.kwargs -> nat -> Async_Model.outcome) (scores : nat -> list num)
    (defaults : Async_Model.kwargs) (t : list item) (k : nat) (x : ind * option nat * outcome) : Prop :=
  let '(i, r, o) := x in
  exists i0 choice, nth_error (starts t) k = Some (i0, r) /\ i_id i = i_id i0 /\
    call 0 [k] defaults choice <> Async_Model.Die /\ seen_as scores (call 0 [k] defaults choice) o.
(** The collected results are results of different submitted jobs. *)
Definition from_workers (call : nat -> list nat -> Async_Model.kwargs -> nat -> Async_Model.outcome) (scores : nat -> list num)
    (defaults : Async_Model.kwargs) (t : list item) : Prop :=
  exists ks, NoDup ks /\ Forall2 (result_of call scores defaults t) ks (dones t).

(** Vocabulary for C173. *)
Require Import ZArith.
From Verif Require Import Base Num Live_Spec.
From Verif Require Async_Model Sys_Model.
Open Scope nat_scope.
Open Scope list_scope.

(** The schedule has room for the submission of [candidates] pipelines and then more than
    [failures] rounds; until then no worker is killed, afterwards anything may happen. *)
Definition long_enough (n candidates failures : nat) (plan : list Sys_Model.turn) : Prop :=
  exists first_turns rounds rest, plan = first_turns ++ concat rounds ++ rest /\
    nobody_killed (first_turns ++ concat rounds) /\ Forall (late_round n) rounds /\
    candidates <= length first_turns /\ failures < length rounds.
(** All evaluations end; those of submissions which are not in [failing] yield an Evaluation. *)
Definition yields (call : nat -> list nat -> Async_Model.kwargs -> nat -> Async_Model.outcome) (defaults : Async_Model.kwargs) (failing : list nat) : Prop :=
  Live_Spec.answers call defaults /\
  forall k choice, ~ In k failing -> exists v e, call 0 [k] defaults choice = Async_Model.Ret (Async_Model.VEval v e).
(** ... an Evaluation without an error. *)
Definition succeeds (call : nat -> list nat -> Async_Model.kwargs -> nat -> Async_Model.outcome) (defaults : Async_Model.kwargs) (failing : list nat) : Prop :=
  Live_Spec.answers call defaults /\
  forall k choice, ~ In k failing -> exists v, call 0 [k] defaults choice = Async_Model.Ret (Async_Model.VEval v Async_Model.NoError).

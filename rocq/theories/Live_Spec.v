(** Vocabulary for progress: schedules in which every worker gets its turn. *)
Require Import ZArith.
From Verif Require Import Base Num.
From Verif Require Async_Model Sys_Model.
Open Scope nat_scope.
Open Scope list_scope.

(** The elements of [l] occur in [acts] in this order, possibly with others before, between and after them. *)
Fixpoint in_order {A} (l acts : list A) : Prop :=
  match l with
  | [] => True
  | a :: l' => exists before after, acts = before ++ a :: after /\ in_order l' after
  end.
(** A round: each of the [n] workers can take a job, execute it and hand over the result, and
    the results are then visible to the main process. *)
Definition round (n : nat) (turns : list Sys_Model.turn) : Prop :=
  (forall p, 1 <= p <= n -> exists choice,
     in_order [Async_Model.Get p; Async_Model.Exec p choice; Async_Model.Flush p] (flat_map Sys_Model.t_acts turns)) /\
  exists before t, turns = before ++ [t] /\ Sys_Model.t_ready t = true.
(** A round, after one more turn of the schedule (in which a new pipeline may be submitted). *)
Definition late_round (n : nat) (turns : list Sys_Model.turn) : Prop :=
  exists t rest, turns = t :: rest /\ round n rest.
(** Evaluations end, with an Evaluation or an exception, and not with the end of the process. *)
Definition answers (call : nat -> list nat -> Async_Model.kwargs -> nat -> Async_Model.outcome) (defaults : Async_Model.kwargs) : Prop :=
  forall k choice, (exists v e, call 0 [k] defaults choice = Async_Model.Ret (Async_Model.VEval v e)) \/
                   (exists e, call 0 [k] defaults choice = Async_Model.Exc e).
(** No process is killed. *)
Definition nobody_killed (plan : list Sys_Model.turn) : Prop :=
  forall t p, In t plan -> ~ In (Async_Model.Crash p) (Sys_Model.t_acts t).

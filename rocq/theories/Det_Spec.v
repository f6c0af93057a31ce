(** Vocabulary for reproducibility. *)
Require Import ZArith.
From Verif Require Import Base Num Search_Model Search_Spec.
From Verif Require Async_Model.
From Verif Require Import Sys_Model Sys_Spec Det_Model.
Open Scope nat_scope.

(** The evaluation of the job number [k] always ends in the same way, without ending the
    process: with an Evaluation or an exception. *)
Definition steady (call : nat -> list nat -> Async_Model.kwargs -> nat -> Async_Model.outcome) (defaults : Async_Model.kwargs) : Prop :=
  forall k, (exists v e, forall choice, call 0 [k] defaults choice = Async_Model.Ret (Async_Model.VEval v e)) \/
            (exists e, forall choice, call 0 [k] defaults choice = Async_Model.Exc e).
(** No process is killed. *)
Definition undisturbed (plan : list turn) : Prop :=
  forall t p, In t plan -> ~ In (Async_Model.Crash p) (t_acts t).
(** One history continues the other. *)
Definition comparable (t1 t2 : list item) : Prop := exists t, t2 = t1 ++ t \/ t1 = t2 ++ t.
(** The run ended because a time limit arrived, or it is not known how it goes on. *)
Definition cut_short {A} (stops : list (option (nat * exn))) (x : res A) : Prop :=
  x = Err Diverges \/ exists k e, In (Some (k, e)) stops /\ x = Err e.

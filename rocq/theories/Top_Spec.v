(** Vocabulary for C174: how many results ASHA needs. *)
From Verif Require Import Base Num Evo_Model Rnd_Model.
Open Scope nat_scope.
Open Scope list_scope.

(** Results without a score: the evaluation raised an exception. *)
Fixpoint lost (t : list hitem) : nat :=
  match t with
  | [] => 0
  | Finished _ _ (Evaluated (_ :: _) _) :: t' => lost t'
  | Finished _ _ _ :: t' => S (lost t')
  | Started _ _ :: t' => lost t'
  end.
(** So many scores on the rung [k] steps below the top rung are enough for [m] scores on the
    top rung: one of every [eta] pipelines is evaluated on the next rung, where at most eight
    are under way and at most [failures] fail. *)
Fixpoint scores_needed (eta failures m k : nat) : nat :=
  match k with
  | O => m
  | S k' => eta * (scores_needed eta failures m k' + 8 + failures)
  end.
(** So many results, with [k] rungs below the top rung, are enough. *)
Fixpoint results_needed (eta failures m k : nat) : nat :=
  scores_needed eta failures m k + match k with O => failures | S k' => results_needed eta failures m k' end.

(** Vocabulary for C163: evaluations that count for the ensemble ([Mix_Spec.v] says what an
    ensemble of the best of them is). *)
From Verif Require Import Base Num Gp_Model Evo_Model Rnd_Model Mix_Spec.
Open Scope nat_scope.

(** Completed evaluation number [k], of pipeline [i], succeeded with these scores. *)
Definition succeeded (t : list hitem) (k : nat) (i : individual) (scores : list num) : Prop :=
  exists rung, result_at t k i rung scores false.
Definition succeeded_ea (t : list item) (k : nat) (i : individual) (scores : list num) : Prop :=
  collected_at t k i scores false.
(** ... on the top rung *)
Definition succeeded_on_top (max_rung : Z) (t : list hitem) (k : nat) (i : individual) (scores : list num) : Prop :=
  exists rung, Z.of_nat rung = max_rung /\ result_at t k i rung scores false.

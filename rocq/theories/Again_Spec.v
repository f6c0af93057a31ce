(** Vocabulary for C164: one search continues another. *)
From Verif Require Import Base Num Gp_Model Gp_Spec Evo_Model Evo_Spec Rnd_Model Rnd_Spec.
Open Scope nat_scope.
Open Scope list_scope.

(** What happened in the second search begins with all that happened in the first, and the
    individuals of the first are the same pipelines in the second. *)
Definition continues (w1 w2 : evo) : Prop :=
  exists t, v_trace w2 = v_trace w1 ++ t /\ forall i ss, is_pipeline (objects w1) i ss -> is_pipeline (objects w2) i ss.
Definition h_continues (w1 w2 : hst) : Prop :=
  exists t, q_trace w2 = q_trace w1 ++ t /\ forall i ss, is_pipeline (h_objects w1) i ss -> is_pipeline (h_objects w2) i ss.

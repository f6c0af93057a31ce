(** Vocabulary for C165-C167. *)
From Verif Require Import Base.
From Verif Require Sys_Model.
Open Scope nat_scope.
Open Scope list_scope.

(** In this turn of wait_next the memory use of every process could be read. *)
Definition all_read (t : Sys_Model.turn) : Prop :=
  (forall pid, Sys_Model.t_mem t pid <> None) /\ (forall pid, Sys_Model.t_mem2 t pid <> None).
(** There are no workers, or in some turn a process no longer existed when its memory use
    was to be read. *)
Definition unreadable (n : nat) (plan : list Sys_Model.turn) : Prop :=
  n = 0 \/ exists t, In t plan /\ ~ all_read t.

(** Vocabulary for C175: memory use that stays within the limit. *)
From Verif Require Import Base.
From Verif Require Sys_Model.
Open Scope nat_scope.
Open Scope list_scope.

(** The memory in use as read in this turn of wait_next: that of the main process (number 0)
    and of the [n] workers. *)
Definition in_use (n : nat) (t : Sys_Model.turn) : nat :=
  list_sum (map (fun pid => match Sys_Model.t_mem t pid with Some m => m | None => 0 end) (seq 0 (S n))).
(** It never exceeds the limit. *)
Definition within (limit n : nat) (plan : list Sys_Model.turn) : Prop := Forall (fun t => in_use n t <= limit) plan.

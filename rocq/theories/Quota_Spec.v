(** Vocabulary for C177. *)
Require Import ZArith.
From Verif Require Import Base.
From Verif Require Sys_Model.
Open Scope nat_scope.
Open Scope list_scope.

(** What a process uses, according to the reading that counts for the limit. *)
Definition usage (t : Sys_Model.turn) (pid : nat) : nat := match Sys_Model.t_mem t pid with Some m => m | None => 0 end.
(** In this turn of wait_next the memory use of every process can be read, and the main process
    (number 0) together with any [n] worker processes keeps within the limit. *)
Definition keeps_within (limit : option nat) (n : nat) (t : Sys_Model.turn) : Prop :=
  match limit with
  | None => True
  | Some m => (forall pid, Sys_Model.t_mem t pid <> None) /\
              forall workers, NoDup workers -> ~ In 0 workers -> length workers <= n ->
              usage t 0 + list_sum (map (usage t) workers) <= m
  end.

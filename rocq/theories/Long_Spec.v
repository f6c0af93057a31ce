(** Vocabulary for C181. *)
From Verif Require Import Base Whole_Model.
From Verif Require Sys_Model.
Open Scope list_scope.

(** The same circumstances, but the workers get to do [later] as well before the search is
    stopped. *)
Definition given_longer (e : circumstances) (later : list Sys_Model.turn) : circumstances :=
  mkCirc (e_x e) (e_y e) (e_declared e) (e_warm e) (e_sampling e) (e_clock e) (e_dir e) (e_mem e) (e_call e) (e_scores e) (e_plan e ++ later).

(** Vocabulary for C156: what a call of fit leaves in the library. *)
From Verif Require Import Base Num Lib_Model Lib_Spec Hist_Model.
Open Scope nat_scope.

(** How many evaluations a library for [m] models keeps of those with a score. *)
Definition kept_of (m : option nat) (scored : list ev) : nat :=
  match m with None => successes scored | Some m => Nat.min m (successes scored) end.
(** The later calls do not find enough pipelines to push all the earlier ones out: the
    library had room left, or there are fewer of them than were kept. *)
Definition not_enough {B} (m : option nat) (kept : nat) (fs : list (fit_run (B := B))) : Prop :=
  match m with None => True | Some m => kept < m end \/ successes (concat (map f_evs fs)) < kept.

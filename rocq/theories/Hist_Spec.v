(** Vocabulary for C126: estimators and the fits they were trained in. *)
From Verif Require Import Base Num Lib_Model Lib_Spec Hist_Model.
Open Scope nat_scope.

(** the estimator was trained during that call of fit, in an evaluation that
    succeeded *)
Definition trained_in {B} (f : fit_run (B := B)) (est : nat) : Prop :=
  exists e, In e (f_evs f) /\ success e /\ In est (ev_est e).
(** every evaluation of the fit is new, has ordinary scores, has estimators and a
    prediction for each of the [k] rows of the data, and so do the targets *)
Definition on_rows {B} (k : nat) (f : fit_run (B := B)) : Prop :=
  length (f_targets f) = k /\
  Forall (fun e => ordinary e /\ (success e -> ev_est e <> []) /\ exists p, ev_pred e = Some p /\ length p = k) (f_evs f).
(** predictions of [k] rows are stored completely *)
Definition all_stored (n : option nat) (k : nat) : Prop := match n with None => True | Some n => 0 < n /\ k <= n end.

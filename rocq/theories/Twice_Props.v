(** Property theorems; proofs in Twice_Main.v. *)
Require Import Qcanon.
From Verif Require Import Base Num Lib_Model Lib_Spec Hist_Model Hist_Spec Hist_Main Twice_Model Twice_Spec.
From Verif Require Ens_Model Ens_Spec Misc_Model Mix_Spec.
Open Scope nat_scope.
Open Scope list_scope.
From Verif Require Import Twice_Main.

(** C156 is false for the default store, "logs": whatever the first call of fit kept,
    if it kept anything, no later call ends with a usable ensemble until so many new
    pipelines were found that they took the places of all the kept ones (which never
    happens if there was room left).  What the library kept of the first call
    cannot be read any more, so building the ensemble fails, which fit does not show,
    and predicting raises a TypeError. *)
Theorem C156_later_fit_refuted : forall B (split : nat -> list B -> rng -> res (list nat) * rng) classifier m n f1 l1 out fs f
    A row tr (metric : list A -> Ens_Model.mat -> res num) task options y left r e x,
  Forall ordinary (f_evs f1) -> distinct (f_evs f1) ->
  during split classifier "logs" (new_lib m n None, true) f1 = (l1, Ok out) ->
  0 < kept_of m (saved out) <= 200 -> not_enough m (kept_of m (saved out)) (fs ++ [f]) ->
  ensemble_after split classifier "logs" row tr metric task options y left r
    (afters split classifier "logs" (new_lib m n None, true) (f1 :: fs)) f = Ok (e, x) ->
  x <> Ok tt /\ Mix_Spec.useless tr e.
Proof. exact C156_later_fit_refuted_main. Qed.
Print Assumptions C156_later_fit_refuted.

(** C156, the part that holds: with store "all" or "models" every call of fit, the first
    or a later one, ends with a fitted ensemble of the requested size, if a pipeline was
    scored in some call so far.  The calls had data of the same number of rows,
    predictions are kept completely, pipelines are different objects; the time for
    post-processing is not used up. *)
Theorem C156_kept_partial : forall B (split : nat -> list B -> rng -> res (list nat) * rng) classifier store m n k c fs f
    A row tr (metric : list A -> Ens_Model.mat -> res num) task size hillclimb models y left r,
  In store ["all"; "models"]%string -> m <> Some 0 -> all_stored n k -> k <= 10000 ->
  Forall (on_rows k) (fs ++ [f]) -> distinct (concat (map f_evs (fs ++ [f]))) ->
  (exists g e, In g (fs ++ [f]) /\ In e (f_evs g) /\ success e) ->
  length y = k -> Ens_Spec.readable row tr k c -> Ens_Spec.scores k c (metric y) -> nlt (Fin 0) left ->
  exists e fitted,
    ensemble_after split classifier store row tr metric task
      (Misc_Model.ensemble_hps (Misc_Model.VNum (Zpos size # 1)) hillclimb models) y left r
      (afters split classifier store (new_lib m n None, true) fs) f = Ok (e, Ok tt) /\
    Ens_Spec.total_weight (Ens_Spec.members e) = Pos.to_nat size /\
    Ens_Model.e_fit e = Some fitted /\ fitted <> [] /\
    forall est w, In (est, w) fitted -> exists g, In g (fs ++ [f]) /\ trained_in g est.
Proof. exact C156_kept_partial_main. Qed.
Print Assumptions C156_kept_partial.

(** Two calls that find two and one pipelines: with "logs" the first ends with an
    ensemble, the second does not; with "models" both do. *)
Example C156_ex :
  Forall ordinary (f_evs run1) /\ distinct (f_evs run1) /\
  (exists l1 out, during hist_split true "logs" (new_lib (Some 200) (Some 1000) None, true) run1 = (l1, Ok out) /\
     kept_of (Some 200) (saved out) = 2 /\ not_enough (Some 200) 2 ([] ++ [run2])) /\
  (exists e, ensemble_after hist_split true "logs" once_row None once_metric (Some true) once_options [1; 0]%Qc (Fin 1) []
     (new_lib (Some 200) (Some 1000) None, true) run1 = Ok (e, Ok tt) /\ Ens_Spec.total_weight (Ens_Spec.members e) = 3) /\
  (exists e, ensemble_after hist_split true "logs" once_row None once_metric (Some true) once_options [1; 0]%Qc (Fin 1) []
     (afters hist_split true "logs" (new_lib (Some 200) (Some 1000) None, true) [run1]) run2 = Ok (e, Err FileNotFoundError)) /\
  Forall (on_rows 2) [run1; run2] /\ distinct (concat (map f_evs [run1; run2])) /\
  (exists e, ensemble_after hist_split true "models" once_row None once_metric (Some true) once_options [1; 0]%Qc (Fin 1) []
     (afters hist_split true "models" (new_lib (Some 200) (Some 1000) None, true) [run1]) run2 = Ok (e, Ok tt)).
Proof. exact C156_ex_main. Qed.

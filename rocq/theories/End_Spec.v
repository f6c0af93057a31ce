(** Vocabulary for C150-C152. *)
From Verif Require Import Base Num Gp_Model Gp_Spec Eval_Spec Evo_Model.
Open Scope nat_scope.
Open Scope list_scope.

(** No score is NaN. *)
Definition numeric (m : member) : Prop := Forall (fun x => x <> NaN) (m_fit m).
(** No algorithm of the search space gets a hyperparameter twice. *)
Definition clear_names (ps : pset) : Prop :=
  forall k p ts, In p (prims_of ps k) -> Forall2 (fun i t => In t (terms_of ps i)) (p_input p) ts -> NoDup (map t_output ts).
(** These are the steps of the scikit-learn pipeline for the pipeline with steps [ss]
    (predictor first): the fixed ones, then one for each of [ss], the predictor last, each made
    from its class with exactly its hyperparameters. *)
Definition made_from {E} (build : nat -> list (string * value) -> res E) (fixed : list (string * E))
    (ss : list step) (steps : list (string * E)) : Prop :=
  exists own, steps = fixed ++ own /\
    Forall2 (fun st ne => exists kwargs, build (p_class (fst st)) kwargs = Ok (snd ne) /\ says kwargs (snd st)) (rev ss) own.

(** Model of what several calls of fit on one object do to the evaluation library
    the ensemble is built from. *)
From Verif Require Import Base Num Lib_Model.
Open Scope nat_scope.

Section Fits.
(** [split]: scikit-learn's StratifiedShuffleSplit, see [Lib_Model.determine];
    [classifier]: the object is a GamaClassifier. *)
Context {B : Type} (split : nat -> list B -> rng -> res (list nat) * rng) (classifier : bool).

(** A call of fit as far as the library sees it: the targets as given, the
    evaluations completed during the search, in order, and the random draws made
    for the two. *)
Record fit_run := mkRun { f_targets : list B; f_draws : rng; f_evs : list ev; f_rng : rng }.

(** GamaClassifier.fit calls determine_sample_indices (GamaClassifier.py:133), a
    regressor does not.  During the search every completed evaluation is given
    to save_evaluation (gama.py:300, 741-743); what it raises is logged and
    ignored (gama.py:716-729).  Nothing else touches the library: it is made once,
    in the constructor (gama.py:290-299), and fit (gama.py:507-620) does not
    replace or empty it.  Simplification: the cache directory is still there,
    i.e. store is "all" or "models" (see C101 for the other values). *)
Definition fit_library (l : lib) (f : fit_run) : lib * res (list (ev * res unit)) :=
  if classifier then
    match determine split l None None (Some (f_targets f)) (f_draws f) with
    | (l1, Ok _, _) => let (l2, out) := saves l1 (f_evs f) (f_rng f) in (l2, Ok out)
    | (l1, Err x, _) => (l1, Err x)
    end
  else let (l2, out) := saves l (f_evs f) (f_rng f) in (l2, Ok out).
(** Calls of fit one after the other. *)
Fixpoint fits (l : lib) (fs : list fit_run) : lib :=
  match fs with [] => l | f :: fs' => fits (fst (fit_library l f)) fs' end.
End Fits.
Arguments mkRun {B}. Arguments f_targets {B}. Arguments f_draws {B}. Arguments f_evs {B}. Arguments f_rng {B}.

(** Vocabulary for C153-C155. *)
Require Import Qcanon.
From Verif Require Import Base Num Gp_Model Gp_Spec Lib_Model Lib_Spec Evo_Model Evo_Spec Rnd_Model Rnd_Spec.
From Verif Require Ens_Model Ens_Spec.
Open Scope nat_scope.
Open Scope list_scope.

(** Completed evaluation number [k] (counting from 0, in the order of arrival, failed ones
    included) was of [i] on rung [r], with these scores. *)
Definition result_at (t : list hitem) (k : nat) (i : individual) (r : nat) (scores : list num) (failed : bool) : Prop :=
  exists t1 t2, t = t1 ++ Finished i r (Evaluated scores failed) :: t2 /\ k = length (results t1).
(** The same for the evolutionary search. *)
Fixpoint n_completed (t : list item) : nat :=
  match t with
  | [] => 0
  | Collected _ (Evaluated _ _) :: t' => S (n_completed t')
  | _ :: t' => n_completed t'
  end.
Definition collected_at (t : list item) (k : nat) (i : individual) (scores : list num) (failed : bool) : Prop :=
  exists t1 t2, t = t1 ++ Collected i (Evaluated scores failed) :: t2 /\ k = n_completed t1.

(** A library for which nothing was saved yet, and which will keep predictions for at most
    10000 of the [rows] rows of the training data (hillclimb_size, 10000 by default), and at
    least one evaluation (max_models, 200 by default). *)
Definition new_library (rows : nat) (l : lib) : Prop :=
  empty_lib l /\ l_n l <> Some 0 /\ l_m l <> Some 0 /\
  match l_sample l with
  | KeepAll => rows <= 10000
  | Rows sample => Forall (fun i => i < rows) sample /\ length sample <= 10000
  | NotSet => match l_n l with None => rows <= 10000 | Some n => Nat.min n rows <= 10000 end
  end.
(** Evaluation number [k] comes with the estimators [fst (data k)] and the predictions
    [snd (data k)]: predictions are for all the rows; the evaluations in [good] have
    both. *)
Definition delivers (rows : nat) (good : nat -> individual -> list num -> Prop) (data : nat -> list nat * option (list nat)) : Prop :=
  (forall k, match snd (data k) with Some p => length p = rows | None => True end) /\
  (forall k i scores, good k i scores -> snd (data k) <> None /\ fst (data k) <> []).

(** Fewer than 200, and fewer than max_models, of the evaluations in [good] have better
    scores. *)
Definition among_best (good : nat -> individual -> list num -> Prop) (max_models : option nat) (scores : list num) : Prop :=
  forall better, NoDup better ->
  (forall k, In k better -> exists i scores', good k i scores' /\ lex_lt scores scores') ->
  length better < 200 /\ match max_models with None => True | Some m => length better < m end.
(** An ensemble of [size] models, counting their weights, from the best of the evaluations
    in [good]: no individual occurs twice, and what is fitted is the estimators of the
    members' evaluations, with their weights. *)
Definition ensemble_of (good : nat -> individual -> list num -> Prop) (data : nat -> list nat * option (list nat))
    (max_models : option nat) (size : nat) (s : Ens_Model.ens) : Prop :=
  Ens_Spec.total_weight (Ens_Spec.members s) = size /\
  NoDup (map (fun mw => Ens_Model.m_id (fst mw)) (Ens_Spec.members s)) /\
  (forall m w, In (m, w) (Ens_Spec.members s) ->
     1 <= w /\ exists k i scores, good k i scores /\ Ens_Model.m_id m = i_id i /\ among_best good max_models scores) /\
  exists fitted, Ens_Model.e_fit s = Some fitted /\ fitted <> [] /\
    forall e w, In (e, w) fitted <->
      exists m k i scores, In (m, w) (Ens_Spec.members s) /\ good k i scores /\ Ens_Model.m_id m = i_id i /\ In e (fst (data k)).
(** There is nothing to predict with. *)
Definition useless (tr : option (Ens_Model.mat -> res Ens_Model.mat)) (s : Ens_Model.ens) : Prop :=
  Ens_Spec.members s = [] /\ forall X (call : nat -> X -> res Ens_Model.mat) q, Ens_Model.predict_mean tr call q s = Err TypeError.

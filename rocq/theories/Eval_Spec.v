(** Vocabulary for the compilation and evaluation properties. *)
From Verif Require Import Base Num Gp_Model Gp_Spec Eval_Model.
Open Scope nat_scope.

(** The keyword arguments say exactly what the hyperparameters of a step say. *)
Definition says (kwargs : list (string * value)) (ts : list terminal) : Prop :=
  NoDup (map fst kwargs) /\ forall name v, In (name, v) kwargs <-> exists t, In t ts /\ t_output t = name /\ t_value t = v.
(** No hyperparameter is given twice. *)
Definition unambiguous (s : step) : Prop := NoDup (map t_output (snd s)).

(** The test sets of the folds divide the rows, and no fold tests on a row it is
    trained on. *)
Definition k_fold (rows : nat) (folds : list (list nat * list nat)) : Prop :=
  NoDup (concat (map snd folds)) /\
  (forall i, In i (concat (map snd folds)) <-> i < rows) /\
  Forall (fun f => forall i, In i (fst f) -> In i (snd f) -> False) folds.

(** The arithmetic mean. *)
Definition is_mean_of (l : list num) (x : num) : Prop :=
  (forall qs, l = map Fin qs -> l <> [] -> exists q, x = Fin q /\ (q == fold_right Qplus 0 qs / inject_Z (Z.of_nat (length qs)))%Q) /\
  (In NaN l -> x = NaN).

(** Anything but a request to stop. *)
Definition ordinary (e : exn) : Prop := e <> TimeoutException /\ e <> KeyboardInterrupt.

(** Fewer rows are asked for than there are: a smaller number, or a fraction below 1. *)
Definition part_of_rows (s : subsample) (rows : nat) : Prop :=
  match s with
  | NoSub => False
  | IntSub n => (n < Z.of_nat rows)%Z
  | FracSub q => (q < 1)%Q
  end.

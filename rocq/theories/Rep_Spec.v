(** Vocabulary for the columns of a report. *)
From Verif Require Import Base Num Log_Model Log_Spec.
Open Scope list_scope.
Open Scope nat_scope.

(** [c] is the best of [l], numbers that are not NaN *)
Definition best_of (l : list num) (c : num) : Prop :=
  In c l /\ c <> NaN /\ forall x, In x l -> x <> NaN -> nle x c.
Definition real (x : num) : Prop := exists q, x = Fin q.
(** the rows whose scores are all finite, in order *)
Inductive finite_rows : list (list string) -> list (list num) -> list (list string) -> Prop :=
| f_nil : finite_rows [] [] []
| f_yes row rows q qs l : Forall real q -> finite_rows rows qs l -> finite_rows (row :: rows) (q :: qs) (row :: l)
| f_no row rows q qs l : ~ Forall real q -> finite_rows rows qs l -> finite_rows (row :: rows) (q :: qs) l.

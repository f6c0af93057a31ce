(** Vocabulary for Pareto fronts. *)
From Verif Require Import Base Num.
Open Scope nat_scope.

(** every component of [a] is at most that of [b] *)
Definition le_all (a b : list num) : Prop := Forall2 nle a b.
(** [a] is at least as good as [b] everywhere and better somewhere *)
Definition pareto_dominates (a b : list num) : Prop :=
  le_all b a /\ exists i x y, nth_error a i = Some x /\ nth_error b i = Some y /\ nlt y x.
(** Python's == distinguishes different items *)
Definition item_eq {A} (eqb : A -> A -> bool) : Prop := forall x y, eqb x y = true <-> x = y.
(** no item of the front is at most as good as an item at another position *)
Definition antichain {A} (vals : A -> list num) (front : list A) : Prop :=
  forall i j x y, i <> j -> nth_error front i = Some x -> nth_error front j = Some y ->
    ~ le_all (vals x) (vals y).
Definition covered {A} (vals : A -> list num) (front : list A) (x : A) : Prop :=
  In x front \/ exists y, In y front /\ le_all (vals x) (vals y).

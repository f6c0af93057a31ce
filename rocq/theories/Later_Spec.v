(** Vocabulary for C178. *)
Require Import ZArith.
From Verif Require Import Base.
Open Scope list_scope.

(** [l] is the beginning of [l']. *)
Definition prefix {A} (l l' : list A) : Prop := exists rest, l' = l ++ rest.
(** The second limit on the number of evaluations is not below the first. *)
Definition no_lower (a b : option Z) : Prop :=
  match a, b with _, None => True | Some a, Some b => (a <= b)%Z | None, Some _ => False end.

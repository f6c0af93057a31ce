(** Vocabulary for loading files. *)
From Verif Require Import Base Data_Model Load_Model.
Open Scope string_scope.
Open Scope list_scope.
Open Scope nat_scope.

Definition is_nominal (a : atype) : Prop := exists values, a = Nominal values.
(** column [c] of the frame shows attribute number [j] *)
Definition shows (guess : list cell -> dtype) (rows : list (list cell)) (j : nat) (a : string * atype) (c : column) : Prop :=
  c_cname c = NStr (fst a) /\
  (length (c_cells c) = length rows /\ forall i row, nth_error rows i = Some row ->
     nth_error (c_cells c) i = Some (match nth_error row j with Some v => v | None => CMissing end)) /\
  (is_nominal (snd a) -> c_dtype c = DCategory) /\
  (~ is_nominal (snd a) -> c_dtype c = guess (c_cells c)).

(** some of the rows, in order *)
Inductive sublist {A} : list A -> list A -> Prop :=
| sub_nil : sublist [] []
| sub_skip x l k : sublist k l -> sublist k (x :: l)
| sub_keep x l k : sublist k l -> sublist (x :: k) (x :: l).

(** Vocabulary for C157-C159. *)
From Verif Require Import Base Num Par_Model Str_Spec.
Open Scope nat_scope.
Open Scope list_scope.

(** [k] is [l] with some items left out, the others in the same order. *)
Inductive subseq {A} : list A -> list A -> Prop :=
| ss_nil : subseq [] []
| ss_keep x k l : subseq k l -> subseq (x :: k) (x :: l)
| ss_skip x k l : subseq k l -> subseq k (x :: l).
(** The items offered to a front, in the order of the calls. *)
Definition offers {A} (ops : list (op (A := A))) : list A :=
  flat_map (fun o => match o with Update x => [x] | Clear => [] end) ops.
(** [x] is at some place before [y] in [l]. *)
Definition before {A} (l : list A) (x y : A) : Prop :=
  exists i j, i < j /\ nth_error l i = Some x /\ nth_error l j = Some y.

(** Python floats as used for scores: exact rationals, the two infinities and
    NaN.  Simplification: rounding of arithmetic is not modelled (comparisons,
    which all decisions are based on, are exact in Python too). *)
From Verif Require Import Base.
Inductive num := NaN | NInf | Fin (q : Q) | PInf.

Definition qltb (a b : Q) : bool := negb (Qle_bool b a).
(** [a < b]; false as soon as one side is NaN. *)
Definition nltb (a b : num) : bool :=
  match a, b with
  | NaN, _ | _, NaN => false
  | NInf, NInf => false | NInf, _ => true
  | PInf, _ => false | Fin _, PInf => true | Fin _, NInf => false
  | Fin x, Fin y => qltb x y
  end.
(** [a <= b]. *)
Definition nleb (a b : num) : bool :=
  match a, b with
  | NaN, _ | _, NaN => false
  | NInf, _ => true | _, PInf => true
  | PInf, _ => false | Fin _, NInf => false
  | Fin x, Fin y => Qle_bool x y
  end.
(** [a == b]. *)
Definition neqb (a b : num) : bool :=
  match a, b with
  | NInf, NInf | PInf, PInf => true
  | Fin x, Fin y => Qeq_bool x y
  | _, _ => false
  end.
(** [-a], [a + b], [a - b], [a / b] (the divisor is never zero where used). *)
Definition nopp (a : num) : num :=
  match a with NaN => NaN | NInf => PInf | PInf => NInf | Fin q => Fin (- q)%Q end.
Definition nadd (a b : num) : num :=
  match a, b with
  | NaN, _ | _, NaN => NaN
  | PInf, NInf | NInf, PInf => NaN
  | PInf, _ | _, PInf => PInf
  | NInf, _ | _, NInf => NInf
  | Fin x, Fin y => Fin (x + y)%Q
  end.
Definition nsub (a b : num) : num := nadd a (nopp b).
Definition ndiv (a b : num) : num :=
  match a, b with
  | Fin x, Fin y => Fin (x / y)%Q
  | Fin x, PInf | Fin x, NInf => Fin 0
  | PInf, Fin y => if qltb y 0 then NInf else PInf
  | NInf, Fin y => if qltb y 0 then PInf else NInf
  | _, _ => NaN
  end.
(** numpy.isinf. *)
Definition nisinf (a : num) : bool := match a with PInf | NInf => true | _ => false end.

(** Propositional readings. *)
Definition nle (a b : num) : Prop := nleb a b = true.
Definition nlt (a b : num) : Prop := nltb a b = true.
Definition is_nan (a : num) : Prop := a = NaN.

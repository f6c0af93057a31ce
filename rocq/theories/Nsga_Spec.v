(** Vocabulary for the selection properties, independent of nsga2.py.  A
    population is a list; an individual is a position in it. *)
From Verif Require Import Base Num.
Open Scope nat_scope.

(** The value of metric [m] for the individual at position [i]. *)
Definition value {A} (metrics : list (A -> num)) (pop : list A) (m i : nat) : num :=
  match nth_error pop i, nth_error metrics m with
  | Some x, Some f => f x
  | _, _ => NaN
  end.

(** [i] is strictly better than [j] in every metric. *)
Definition beats {A} (metrics : list (A -> num)) (pop : list A) (i j : nat) : Prop :=
  forall m, m < length metrics -> nlt (value metrics pop m j) (value metrics pop m i).

(** Individual [i] is in front number [k]. *)
Definition in_front (fronts : list (list nat)) (k i : nat) : Prop :=
  exists F, nth_error fronts k = Some F /\ In i F.

(** Extremes of a group of individuals for one quantity. *)
Definition smallest_in (v : nat -> num) (I : list nat) (p : nat) : Prop :=
  In p I /\ forall q, In q I -> nle (v p) (v q).
Definition largest_in (v : nat -> num) (I : list nat) (p : nat) : Prop :=
  In p I /\ forall q, In q I -> nle (v q) (v p).

(** The distance between the neighbours of [p] in the order by [v], relative
    to the whole range of [v]. *)
Definition relative_gap (v : nat -> num) (I : list nat) (p : nat) (d : Q) : Prop :=
  exists lo hi vlo vhi,
    smallest_in v I lo /\ largest_in v I hi /\ v lo = Fin vlo /\ v hi = Fin vhi /\
    ((vlo == vhi)%Q /\ d = 0%Q \/
     (vlo < vhi)%Q /\
     exists a c va vc, In a I /\ In c I /\ a <> p /\ c <> p /\ v a = Fin va /\ v c = Fin vc /\
       nle (v a) (v p) /\ nle (v p) (v c) /\
       (forall q, In q I -> q <> p -> nle (v q) (v a) \/ nle (v c) (v q)) /\
       d = ((vc - va) / (vhi - vlo))%Q).

Fixpoint qsum (l : list Q) : Q := match l with [] => 0 | x :: l' => x + qsum l' end.

(** [dist] are crowding distances for the group [I] of individuals compared
    on [k] quantities: for every quantity one with the smallest and one with
    the largest value are at infinite distance, only such extremes are, every
    other distance is the sum of the relative gaps (when all values are
    finite), and no distance is negative or undefined. *)
Definition crowding (k : nat) (v : nat -> nat -> num) (I : list nat) (dist : nat -> num) : Prop :=
  (forall m, m < k -> exists lo hi, smallest_in (v m) I lo /\ largest_in (v m) I hi /\
     dist lo = PInf /\ dist hi = PInf) /\
  (forall p, In p I -> dist p = PInf -> exists m, m < k /\ (smallest_in (v m) I p \/ largest_in (v m) I p)) /\
  (forall p, In p I -> dist p = PInf \/ exists q, dist p = Fin q /\ (0 <= q)%Q) /\
  ((forall m p, m < k -> In p I -> exists q, v m p = Fin q) ->
   forall p, In p I -> dist p <> PInf ->
     exists ds t, Forall2 (fun m d => relative_gap (v m) I p d) (seq 0 k) ds /\ dist p = Fin t /\ (t == qsum ds)%Q).

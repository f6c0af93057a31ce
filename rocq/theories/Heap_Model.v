(** Python's heapq, the two operations EvaluationLibrary uses
    (evaluation_library.py:236-238): the same algorithm as CPython's Lib/heapq.py.
    Simplification: heapq moves a "hole" and writes the new item at the end; here
    the new item is swapped along, which leaves the same list. *)
From Verif Require Import Base.
Open Scope nat_scope.

Section Heap.
Context {T : Type} (lt : T -> T -> bool) (d : T).

Definition swap (i j : nat) (l : list T) : list T :=
  set_nth i (nth j l d) (set_nth j (nth i l d) l).
Definition parent (i : nat) : nat := (i - 1) / 2.

(** heapq._siftdown(heap, 0, pos); the fuel bounds the iterations ([pos] halves). *)
Fixpoint siftdown (fuel pos : nat) (l : list T) : list T :=
  match fuel with
  | O => l
  | S f =>
    if pos =? 0 then l
    else if lt (nth pos l d) (nth (parent pos) l d)
         then siftdown f (parent pos) (swap pos (parent pos) l)
         else l
  end.

(** the loop of heapq._siftup(heap, pos): to a leaf along the smaller child. *)
Fixpoint to_leaf (fuel pos : nat) (l : list T) : nat * list T :=
  match fuel with
  | O => (pos, l)
  | S f =>
    let child := 2 * pos + 1 in
    if child <? length l then
      let c := if (child + 1 <? length l) && negb (lt (nth child l d) (nth (child + 1) l d))
               then child + 1 else child in
      to_leaf f c (swap pos c l)
    else (pos, l)
  end.

(** heapq.heappush. *)
Definition heappush (l : list T) (x : T) : list T :=
  siftdown (S (length l)) (length l) (l ++ [x]).
(** heapq.heappushpop: the item returned and the heap. *)
Definition heappushpop (l : list T) (x : T) : T * list T :=
  match l with
  | h :: l' =>
    if lt h x then
      let (pos, l2) := to_leaf (S (length l')) 0 (x :: l') in
      (h, siftdown (S (length l2)) pos l2)
    else (x, l)
  | [] => (x, [])
  end.
End Heap.

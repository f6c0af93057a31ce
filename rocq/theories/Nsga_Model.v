(** Model of genetic_programming/nsga2.py.  The NSGAMeta objects of one call are
    the entries of a list; an object is referred to by its position in it (the
    position of the individual in the population). *)
From Verif Require Import Base Num.
Open Scope nat_scope.

(** NSGAMeta, nsga2.py:14-23. *)
Record meta := mkMeta {
  m_vals : list num; m_rank : nat; m_dist : num; m_doms : list nat; m_count : Z }.
Definition new_meta {A} (metrics : list (A -> num)) (obj : A) : meta :=
  mkMeta (map (fun m => m obj) metrics) 0 (Fin 0) [] 0.

Definition get (ms : list meta) (i : nat) : meta := nth i ms (mkMeta [] 0 (Fin 0) [] 0).
Definition upd (i : nat) (f : meta -> meta) (ms : list meta) : list meta := set_nth i (f (get ms i)) ms.

(** NSGAMeta.dominates, nsga2.py:25-29: strictly better in every metric. *)
Fixpoint all_gt (a b : list num) : bool :=
  match a, b with
  | x :: a', y :: b' => nltb y x && all_gt a' b'
  | _, _ => true
  end.
Definition dominates (ms : list meta) (p q : nat) : bool := all_gt (m_vals (get ms p)) (m_vals (get ms q)).

(** NSGAMeta.crowd_compare, nsga2.py:31-36: is [x] better than [y]? *)
Definition better (x y : meta) : bool :=
  (m_rank x <? m_rank y) || ((m_rank x =? m_rank y) && nltb (m_dist y) (m_dist x)).

(** [itertools.combinations(P, 2)]. *)
Definition combinations2 (n : nat) : list (nat * nat) :=
  flat_map (fun p => map (fun q => (p, q)) (seq (S p) (n - S p))) (seq 0 n).

Definition add_dom (q : nat) (m : meta) : meta :=
  mkMeta (m_vals m) (m_rank m) (m_dist m) (m_doms m ++ [q]) (m_count m).
Definition add_count (d : Z) (m : meta) : meta :=
  mkMeta (m_vals m) (m_rank m) (m_dist m) (m_doms m) (m_count m + d).
Definition set_rank (r : nat) (m : meta) : meta :=
  mkMeta (m_vals m) r (m_dist m) (m_doms m) (m_count m).
Definition set_dist (d : num) (m : meta) : meta :=
  mkMeta (m_vals m) (m_rank m) d (m_doms m) (m_count m).

(** nsga2.py:122-128. *)
Definition compare_pair (ms : list meta) (pq : nat * nat) : list meta :=
  let (p, q) := pq in
  if dominates ms p q then upd q (add_count 1) (upd p (add_dom q) ms)
  else if dominates ms q p then upd p (add_count 1) (upd q (add_dom p) ms)
  else ms.
Definition compare_all (ms : list meta) : list meta :=
  fold_left compare_pair (combinations2 (length ms)) ms.

(** nsga2.py:130-133. *)
Definition first_step (st : list meta * list nat) (p : nat) : list meta * list nat :=
  let (ms, front) := st in
  if Z.eqb (m_count (get ms p)) 0 then (upd p (set_rank 1) ms, front ++ [p]) else (ms, front).
Definition first_front (ms : list meta) : list meta * list nat :=
  fold_left first_step (seq 0 (length ms)) (ms, []).

(** The body of the while loop for front number [i], nsga2.py:137-143. *)
Definition visit (i : nat) (st : list meta * list nat) (q : nat) : list meta * list nat :=
  let (ms, next) := st in
  let ms' := upd q (add_count (-1)) ms in
  if Z.eqb (m_count (get ms' q)) 0 then (upd q (set_rank (i + 1)) ms', next ++ [q])
  else (ms', next).
Definition visit_front (i : nat) (front : list nat) (ms : list meta) : list meta * list nat :=
  fold_left (fun st p => fold_left (visit i) (m_doms (get (fst st) p)) st) front (ms, []).

(** nsga2.py:135-145.  The fuel bounds the number of iterations. *)
Fixpoint sort_loop (fuel i : nat) (front : list nat) (ms : list meta) : res (list meta * list (list nat)) :=
  match front with
  | [] => Ok (ms, [[]])
  | _ =>
    match fuel with
    | O => Err Diverges
    | S f =>
      let (ms', next) := visit_front i front ms in
      do r <- sort_loop f (S i) next ms';
      Ok (fst r, front :: snd r)
    end
  end.
(** fast_non_dominated_sort, nsga2.py:119-145. *)
Definition fast_sort (ms : list meta) : res (list meta * list (list nat)) :=
  let (ms1, front) := first_front (compare_all ms) in
  sort_loop (S (length ms)) 0 front ms1.

(** [sorted(I, key=lambda x: x.values[m])], nsga2.py:152.  Simplification: with
    NaN among the keys Python's result depends on the sorting algorithm; the
    model's is one possible order. *)
Definition value_at (ms : list meta) (m : nat) (i : nat) : num := nth m (m_vals (get ms i)) NaN.
Definition sort_by (ms : list meta) (m : nat) (I : list nat) : list nat :=
  py_sorted (fun x y => negb (nltb (value_at ms m y) (value_at ms m x))) I.

(** [zip(I, I[1:], I[2:])], nsga2.py:165. *)
Fixpoint triples (I : list nat) : list (nat * nat * nat) :=
  match I with
  | a :: I' => match I' with
               | b :: c :: _ => (a, b, c) :: triples I'
               | _ => []
               end
  | [] => []
  end.

(** One iteration of the loop of crowding_distance_assignment,
    nsga2.py:152-168. *)
Definition crowd_metric (st : list nat * list meta) (m : nat) : list nat * list meta :=
  let (I0, ms) := st in
  let I := sort_by ms m I0 in
  let lo := hd 0 I in let hi := last I 0 in
  let ms1 := upd hi (set_dist PInf) (upd lo (set_dist PInf) ms) in
  let vlo := value_at ms1 m lo in let vhi := value_at ms1 m hi in
  if neqb vhi vlo || nisinf vlo || nisinf vhi then (I, ms1)
  else
    (I, fold_left (fun ms' abc =>
          let '(a, b, c) := abc in
          upd b (fun x => set_dist (nadd (m_dist x)
                   (ndiv (nsub (value_at ms1 m c) (value_at ms1 m a)) (nsub vhi vlo))) x) ms')
        (triples I) ms1).
(** crowding_distance_assignment, nsga2.py:148-168: IndexError on []. *)
Definition crowd (ms : list meta) (I : list nat) : res (list meta) :=
  match I with
  | [] => Err IndexError
  | i0 :: _ => Ok (snd (fold_left crowd_metric (seq 0 (length (m_vals (get ms i0)))) (I, ms)))
  end.

(** [sorted(front, key=cmp_to_key(crowd_compare))], nsga2.py:109-112: a stable
    sort; "less" is [better]. *)
Definition crowd_sort (ms : list meta) (I : list nat) : list nat :=
  py_sorted (fun x y => negb (better (get ms y) (get ms x))) I.

(** The while loop of nsga2, nsga2.py:102-114. *)
Fixpoint fill (fronts : list (list nat)) (n : nat) (selection : list nat) (ms : list meta)
  : res (list meta * list nat) :=
  if length selection <? n then
    match fronts with
    | [] => Err IndexError
    | front :: rest =>
      do ms' <- crowd ms front;
      if length selection + length front <? n then fill rest n (selection ++ front) ms'
      else fill rest n (selection ++ firstn (n - length selection) (crowd_sort ms' front)) ms'
    end
  else Ok (ms, selection).

(** nsga2, nsga2.py:67-116, with return_meta=True: the objects and the selected
    positions. *)
Definition nsga2 {A} (population : list A) (n : nat) (metrics : list (A -> num))
  : res (list meta * list nat) :=
  if (n =? 0) || (length population <? n) then Err ValueError
  else
    do s <- fast_sort (map (new_meta metrics) population);
    fill (snd s) n [] (fst s).

(** [random.sample(l, k)]: k elements at different positions, in any order. *)
Fixpoint rsample {A} (k : nat) (l : list A) (r : rng) : res (list A) * rng :=
  match k with
  | O => (Ok [], r)
  | S k' =>
    match l with
    | [] => (Err ValueError, r)
    | _ => let (d, r1) := draw r in
           match nth_error l (d mod length l) with
           | None => (Err ValueError, r1)
           | Some x =>
             let (xs, r2) := rsample k' (remove_nth (d mod length l) l) r1 in
             (do ys <- xs; Ok (x :: ys), r2)
           end
    end
  end.

(** select_one, nsga2.py:54-57.  The objects in [candidates] are pairwise
    different, so [!=] compares positions. *)
Definition select_one (ms : list meta) (candidates : list nat) (exclude : option nat) (r : rng)
  : res nat * rng :=
  let (sel, r') := rsample 3 candidates r in
  (do s <- sel;
   match filter (fun x => match exclude with None => true | Some e => negb (x =? e) end) s with
   | ind1 :: ind2 :: _ => Ok (if better (get ms ind1) (get ms ind2) then ind1 else ind2)
   | _ => Err ValueError
   end, r').

(** nsga2.py:59-64. *)
Fixpoint select_pairs (ms : list meta) (candidates : list nat) (n : nat) (r : rng)
  : res (list (nat * nat)) * rng :=
  match n with
  | O => (Ok [], r)
  | S n' =>
    let (first, r1) := select_one ms candidates None r in
    match first with
    | Err e => (Err e, r1)
    | Ok f =>
      let (second, r2) := select_one ms candidates (Some f) r1 in
      match second with
      | Err e => (Err e, r2)
      | Ok g => let (rest, r3) := select_pairs ms candidates n' r2 in
                (do ps <- rest; Ok ((f, g) :: ps), r3)
      end
    end
  end.

(** nsga2_select, nsga2.py:39-64; pairs of positions in the population. *)
Definition nsga2_select {A} (population : list A) (n : nat) (metrics : list (A -> num)) (r : rng)
  : res (list (nat * nat)) * rng :=
  if length population <? 3 then (Err ValueError, r)
  else match nsga2 population (length population) metrics with
       | Err e => (Err e, r)
       | Ok (ms, candidates) => select_pairs ms candidates n r
       end.

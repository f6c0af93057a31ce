(** Model of utilities/generic/paretofront.py and of eliminate_from_pareto
    (genetic_programming/selection.py). *)
From Verif Require Import Base Num.
Open Scope nat_scope.

(** [all(v1 <= v2 for v1, v2 in zip(a, b))]: zip stops at the shorter one. *)
Fixpoint all_le (a b : list num) : bool :=
  match a, b with
  | x :: a', y :: b' => nleb x y && all_le a' b'
  | _, _ => true
  end.

Section Front.
(** Items of any type: [vals] is get_values_fn (or the identity on tuples),
    [eqb] Python's [==] used by list.remove, [has_len] tells whether [len(item)]
    works (it does for tuples, not for Individuals).  Simplification: the values
    of an item do not change while it is in the front. *)
Context {A : Type} (vals : A -> list num) (eqb : A -> A -> bool) (has_len : A -> bool).

(** The loop of update, paretofront.py:66-74; None = "return False", otherwise
    the items to remove. *)
Fixpoint scan (values : list num) (front : list A) : option (list A) :=
  match front with
  | [] => Some []
  | old :: rest =>
    if all_le values (vals old) then None
    else match scan values rest with
         | None => None
         | Some to_remove =>
           Some (if all_le (vals old) values then old :: to_remove else to_remove)
         end
  end.

(** [for item in to_remove: self._front.remove(item)], paretofront.py:77-78. *)
Fixpoint remove_all (to_remove front : list A) : res (list A) :=
  match to_remove with
  | [] => Ok front
  | x :: rest =>
    match remove_first (fun y => eqb y x) front with
    | None => Err ValueError
    | Some front' => remove_all rest front'
    end
  end.

(** ParetoFront.update, paretofront.py:35-80: new front and result.  An
    exception leaves the front as it was. *)
Definition update (front : list A) (new : A) : list A * res bool :=
  match front with
  | [] => ([new], Ok true)
  | first :: _ =>
    if Nat.eqb (length (vals first)) (length (vals new)) then
      match scan (vals new) front with
      | None => (front, Ok false)
      | Some to_remove =>
        match remove_all to_remove front with
        | Ok front' => (front' ++ [new], Ok true)
        | Err e => (front, Err e)
        end
      end
    else
      (* the message itself uses len(front[0]), paretofront.py:60 *)
      (front, Err (if has_len first then ValueError else TypeError))
  end.

(** ParetoFront.__init__, paretofront.py:8-30: updates until one raises. *)
Fixpoint updates (front : list A) (items : list A) : res (list A) :=
  match items with
  | [] => Ok front
  | x :: rest => match update front x with
                 | (front', Ok _) => updates front' rest
                 | (_, Err e) => Err e
                 end
  end.

(** A history of calls on one front; exceptions are seen by the caller, who may
    go on using the front. *)
Inductive op := Update (x : A) | Clear.
Definition run_op (front : list A) (o : op) : list A :=
  match o with
  | Update x => fst (update front x)
  | Clear => [] (* paretofront.py:82-84 *)
  end.
Definition run (ops : list op) : list A := fold_left run_op ops [].
End Front.

(** eliminate_from_pareto, selection.py:32-41.  [fitness] gives fitness.values;
    Individuals have no [len]. *)
Definition eliminate {A} (eqb : A -> A -> bool) (fitness : A -> list num)
    (pop : list A) (n : Z) (r : rng) : res (list A) * rng :=
  if Z.eqb n 1 then
    match updates (fun i => map nopp (fitness i)) eqb (fun _ => false) [] pop with
    | Err e => (Err e, r)
    | Ok front =>
      let (x, r') := rchoice front r in
      (do i <- x; Ok [i], r')
    end
  else (Err NotImplementedError, r).

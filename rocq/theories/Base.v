(** Common vocabulary of the model: Python exceptions as values, random draws,
    and small list operations of Python.  No property is stated here. *)
Require Export String Arith Bool ZArith QArith List Lia.
Export ListNotations.
Open Scope nat_scope.

(** Exceptions that the modelled code can raise (builtins, plus stopit's
    TimeoutException, see gama/gama.py:5-30 and asha.py:198). [Diverges] stands
    for a loop that does not terminate; it is never a Python exception. *)
Inductive exn : Type :=
| ValueError | IndexError | KeyError | TypeError | RuntimeError
| AttributeError | NotImplementedError | UnboundLocalError | FileNotFoundError
| FileExistsError | ZeroDivisionError | TimeoutException | KeyboardInterrupt
| RuntimeWarning | NotADirectory | OtherError (n : nat) | Diverges.

(** Outcome of a Python call: a value or a raised exception. *)
Inductive res (A : Type) : Type :=
| Ok (a : A)
| Err (e : exn).
Arguments Ok {A} a.
Arguments Err {A} e.

Definition rbind {A B} (m : res A) (f : A -> res B) : res B :=
  match m with Ok a => f a | Err e => Err e end.
Notation "'do' x <- m ; k" := (rbind m (fun x => k))
  (at level 200, x pattern, m at level 100, k at level 200, right associativity).

Fixpoint rmap {A B} (f : A -> res B) (l : list A) : res (list B) :=
  match l with
  | [] => Ok []
  | x :: l' => do y <- f x; do ys <- rmap f l'; Ok (y :: ys)
  end.

(** Python's [l[i] = x] for an index in range (no effect out of range; every
    use in the model is guarded by the range check the code performs). *)
Fixpoint set_nth {A} (i : nat) (x : A) (l : list A) : list A :=
  match l, i with
  | [], _ => []
  | _ :: l', O => x :: l'
  | y :: l', S i' => y :: set_nth i' x l'
  end.

(** Python's [enumerate(l)]. *)
Fixpoint enum_from {A} (i : nat) (l : list A) : list (nat * A) :=
  match l with
  | [] => []
  | x :: l' => (i, x) :: enum_from (S i) l'
  end.
Definition enumerate {A} (l : list A) : list (nat * A) := enum_from 0 l.

(** Python's [l.remove(x)] given as removal of the first index satisfying a
    test; [None] when absent (Python raises ValueError). *)
Fixpoint remove_first {A} (f : A -> bool) (l : list A) : option (list A) :=
  match l with
  | [] => None
  | x :: l' => if f x then Some l'
               else match remove_first f l' with
                    | None => None
                    | Some r => Some (x :: r)
                    end
  end.

(** [l[:i] + l[i+1:]]. *)
Fixpoint remove_nth {A} (i : nat) (l : list A) : list A :=
  match l, i with
  | [], _ => []
  | _ :: l', O => l'
  | y :: l', S i' => y :: remove_nth i' l'
  end.

(** Python's [sorted(l, key=...)]: stable; [leb x y] is "key x <= key y";
    equal keys keep their order. *)
Fixpoint insert_sorted {A} (leb : A -> A -> bool) (x : A) (l : list A) : list A :=
  match l with
  | [] => [x]
  | y :: l' => if leb x y then x :: l else y :: insert_sorted leb x l'
  end.
Fixpoint py_sorted {A} (leb : A -> A -> bool) (l : list A) : list A :=
  match l with
  | [] => []
  | x :: l' => insert_sorted leb x (py_sorted leb l')
  end.

(** Random source: a stream of naturals, one per draw; 0 once exhausted.
    Every behaviour of Python's [random] module is one such stream. *)
Definition rng := list nat.
Definition draw (r : rng) : nat * rng :=
  match r with [] => (0, []) | x :: r' => (x, r') end.

(** [random.choice(l)]: IndexError on an empty sequence. *)
Definition rchoice {A} (l : list A) (r : rng) : res A * rng :=
  match l with
  | [] => (Err IndexError, r)
  | d :: _ => let (k, r') := draw r in
              match nth_error l (k mod length l) with
              | Some x => (Ok x, r')
              | None => (Err IndexError, r')
              end
  end.

(** [random.randint(a, b)]: ValueError on an empty range. *)
Definition rrandint (a b : Z) (r : rng) : res Z * rng :=
  if (b <? a)%Z then (Err ValueError, r)
  else let (k, r') := draw r in
       (Ok (a + Z.of_nat k mod (b - a + 1))%Z, r').

(** A Bernoulli draw such as [random.random() < 0.2]: either outcome. *)
Definition rcoin (r : rng) : bool * rng :=
  let (k, r') := draw r in (Nat.odd k, r').

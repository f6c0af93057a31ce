(** The random generators of the process, which the constructor seeds (gama.py:277-279)
    and everything that happens later in the process uses. *)
From Verif Require Import Base.
Open Scope nat_scope.

(** What happens in the process before a call of fit: an instance is made with a
    random_state or without; or something draws [k] numbers: a fit of any instance, or the
    user's own code.  Simplification: Python's [random] and [numpy.random] are seeded
    together (gama.py:278-279) and are one generator here. *)
Inductive deed := Construct (random_state : option nat) | Draws (k : nat).
Section Seeding.
(** [seeded s]: the numbers a generator produces after [seed(s)]. *)
Context (seeded : nat -> rng).
(** gama.py:277-279. *)
Definition deed_step (g : rng) (x : deed) : rng :=
  match x with
  | Construct (Some s) => seeded s
  | Construct None => g
  | Draws k => skipn k g
  end.
Definition generator (g : rng) (h : list deed) : rng := fold_left deed_step h g.
End Seeding.

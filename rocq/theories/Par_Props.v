(** Property theorems; proofs in Par_Main.v. *)
From Verif Require Import Base Num Par_Model Par_Spec.
Open Scope nat_scope.
From Verif Require Import Par_Main.

(** C22: after any history no item of the front is component-wise <= another. *)
Theorem C22_no_dominated_item :
  forall (A : Type) (vals : A -> list num) (eqb : A -> A -> bool) (has_len : A -> bool) (ops : list op),
    item_eq eqb -> antichain vals (run vals eqb has_len ops).
Proof. exact C22_no_dominated_item_main. Qed.
Print Assumptions C22_no_dominated_item.

(** C23: every item offered (and not rejected with an exception) is in the front
    or matched by one in it, until the front is cleared; and the front holds
    nothing else. *)
Theorem C23_front_covers :
  forall (A : Type) (vals : A -> list num) (eqb : A -> A -> bool) (has_len : A -> bool) (before after : list op) (x : A) (b : bool),
    item_eq eqb -> ~ In Clear after ->
    snd (update vals eqb has_len (run vals eqb has_len before) x) = Ok b ->
    covered vals (run vals eqb has_len (before ++ Update x :: after)) x.
Proof. exact C23_front_covers_main. Qed.
Print Assumptions C23_front_covers.

Theorem C23_front_from_offers :
  forall (A : Type) (vals : A -> list num) (eqb : A -> A -> bool) (has_len : A -> bool) (ops : list op) (x : A),
    item_eq eqb -> In x (run vals eqb has_len ops) -> In (Update x) ops.
Proof. exact C23_front_from_offers_main. Qed.
Print Assumptions C23_front_from_offers.

(** clearing forgets: after a clear the front holds only items offered since, and
    is the front those later offers would have produced on their own *)
Theorem C23_since_clear :
  forall (A : Type) (vals : A -> list num) (eqb : A -> A -> bool) (has_len : A -> bool) (before after : list op) (x : A),
    item_eq eqb ->
    (In x (run vals eqb has_len (before ++ Clear :: after)) -> In (Update x) after) /\
    run vals eqb has_len (before ++ Clear :: after) = run vals eqb has_len after.
Proof. exact C23_since_clear_main. Qed.
Print Assumptions C23_since_clear.

(** items of one arity are never rejected *)
Theorem C23_same_arity_accepted :
  forall (A : Type) (vals : A -> list num) (eqb : A -> A -> bool) (has_len : A -> bool) (ops : list op) (x : A) (k : nat),
    item_eq eqb -> (forall y, In (Update y) ops -> length (vals y) = k) -> length (vals x) = k ->
    exists b, snd (update vals eqb has_len (run vals eqb has_len ops) x) = Ok b.
Proof. exact C23_same_arity_accepted_main. Qed.
Print Assumptions C23_same_arity_accepted.

(** C24: what update returns. *)
Theorem C24_update_result :
  forall (A : Type) (vals : A -> list num) (eqb : A -> A -> bool) (has_len : A -> bool) (ops : list op) (x : A) (k : nat),
    item_eq eqb -> (forall y, In y (run vals eqb has_len ops) -> length (vals y) = k) -> length (vals x) = k ->
    let front := run vals eqb has_len ops in
    let (front', result) := update vals eqb has_len front x in
    (result = Ok false /\ front' = front /\ exists y, In y front /\ le_all (vals x) (vals y)) \/
    (result = Ok true /\ In x front' /\ (forall y, In y front -> ~ le_all (vals x) (vals y)) /\
     (forall y, In y front -> (In y front' <-> ~ le_all (vals y) (vals x)))).
Proof. exact C24_update_result_main. Qed.
Print Assumptions C24_update_result.

(** An item of another arity is refused and the front unchanged ... *)
Theorem C24_other_arity_partial :
  forall (A : Type) (vals : A -> list num) (eqb : A -> A -> bool) (has_len : A -> bool) (ops : list op) (x y : A),
    item_eq eqb -> In y (run vals eqb has_len ops) -> length (vals x) <> length (vals y) ->
    exists e, update vals eqb has_len (run vals eqb has_len ops) x = (run vals eqb has_len ops, Err e) /\
      (e = ValueError \/ e = TypeError) /\ ((forall i, has_len i = true) -> e = ValueError).
Proof. exact C24_other_arity_partial_main. Qed.
Print Assumptions C24_other_arity_partial.

(** ... but not always with ValueError: for items without [len] the error message
    itself fails, with TypeError. *)
Theorem C24_other_arity_error_refuted :
  exists (vals : nat -> list num) (x y : nat),
    update vals Nat.eqb (fun _ => false) (run vals Nat.eqb (fun _ => false) [Update y]) x
    = ([y], Err TypeError).
Proof. exact C24_other_arity_error_refuted_main. Qed.
Print Assumptions C24_other_arity_error_refuted.

Example C22_ex :
  item_eq Nat.eqb /\
  run ex_vals Nat.eqb (fun _ => true) (map Update [2; 0; 1; 2; 3; 4]) = [0; 1; 3; 4] /\
  run ex_vals Nat.eqb (fun _ => true) (map Update [2; 0; 1; 2; 3; 4; 5]) = [3; 4; 5] /\
  snd (update ex_vals Nat.eqb (fun _ => true) [0; 1; 3; 4] 2) = Ok false.
Proof. exact C22_ex_main. Qed.

(** C25: elimination.  [fitness] gives the objectives, all of the same number. *)
Theorem C25_eliminate :
  forall (A : Type) (eqb : A -> A -> bool) (fitness : A -> list num) (pop : list A) (k : nat) (r : rng),
    item_eq eqb -> (forall x, In x pop -> length (fitness x) = k) -> pop <> [] ->
    exists x r', eliminate eqb fitness pop 1 r = (Ok [x], r') /\ In x pop /\
      (forall y, In y pop -> ~ pareto_dominates (fitness x) (fitness y)).
Proof. exact C25_eliminate_main. Qed.
Print Assumptions C25_eliminate.

Theorem C25_only_one :
  forall (A : Type) (eqb : A -> A -> bool) (fitness : A -> list num) (pop : list A) (n : Z) (r : rng),
    n <> 1%Z -> eliminate eqb fitness pop n r = (Err NotImplementedError, r).
Proof. exact C25_only_one_main. Qed.
Print Assumptions C25_only_one.

Example C25_ex :
  exists r', eliminate Nat.eqb ex_vals [0; 1; 2; 3; 5] 1 [1] = (Ok [3], r').
Proof. exact C25_ex_main. Qed.

Theorem C26_best_survives_refuted :
  exists r r', eliminate Nat.eqb ex_fit [0; 1; 2] 1 r = (Ok [0], r') /\
    forall i, In i [1; 2] -> exists x y, hd_error (ex_fit 0) = Some x /\ hd_error (ex_fit i) = Some y /\ nlt y x.
Proof. exact C26_best_survives_refuted_main. Qed.
Print Assumptions C26_best_survives_refuted.

(** It holds with a single objective, and for whoever is not worse than someone
    else in any objective. *)
Theorem C26_best_survives_partial :
  forall (A : Type) (eqb : A -> A -> bool) (fitness : A -> list num) (pop : list A) (k : nat) (r : rng) (best other : A) (b o : num),
    item_eq eqb -> (forall x, In x pop -> length (fitness x) = k) ->
    In best pop -> In other pop -> le_all (fitness other) (fitness best) ->
    hd_error (fitness best) = Some b -> hd_error (fitness other) = Some o -> nlt o b ->
    forall x r', eliminate eqb fitness pop 1 r = (Ok [x], r') -> x <> best.
Proof. exact C26_best_survives_partial_main. Qed.
Print Assumptions C26_best_survives_partial.

Example C26_ex :
  le_all (ex_vals 2) (ex_vals 1) /\ exists r', eliminate Nat.eqb ex_vals [0; 1; 2] 1 [] = (Ok [2], r').
Proof. exact C26_ex_main. Qed.

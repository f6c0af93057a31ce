(** Vocabulary for the properties of the search methods. *)
From Verif Require Import Base Num Search_Model.
Open Scope nat_scope.

(** A search starts with a given store of lists and nothing else. *)
Definition start_world (lists : list (list ind)) (n : nat) (events : list event) (r : rng) (uid : nat) (stop : option (nat * exn)) : world :=
  mkW lists [] n events r uid stop [] [].
Definition list_at (a : nat) (w : world) : list ind := nth a (w_lists w) [].

(** The individuals whose evaluation was collected; those that did not fail; those with any result. *)
Definition collected (t : list item) : list (ind * outcome) :=
  flat_map (fun x => match x with TDone i _ o => [(i, o)] | _ => [] end) t.
Definition successes (t : list item) : list ind :=
  flat_map (fun x => match x with TDone i _ (Evaluated _ false) => [i] | _ => [] end) t.
Definition with_result (t : list item) : list ind :=
  flat_map (fun x => match x with TDone i _ (Evaluated _ _) => [i] | _ => [] end) t.
Definition submissions (t : list item) : list ind :=
  flat_map (fun x => match x with TSubmit i _ _ => [i] | _ => [] end) t.
(** What happened after the last restart. *)
Definition since_restart (t : list item) : list item :=
  fold_left (fun acc x => match x with TRestart => [] | _ => acc ++ [x] end) t [].

(** Started but not yet collected; only starts. *)
Definition running (t : list item) : nat := length (submissions t) - length (collected t).
Definition submits (t : list item) : Prop := Forall (fun x => match x with TSubmit _ _ _ => True | _ => False end) t.
(** How the population changes when the evaluation of [i] was collected: a failure
    changes nothing; otherwise [i] joins, and the population of more than
    [pop_size] loses the first one equal to the one that was picked. *)
Definition population_turn (pop_size : nat) (picked : list ind -> ind -> Prop) (pop : list ind) (i : ind) (oc : outcome) (pop' : list ind) : Prop :=
  match oc with
  | Evaluated _ false =>
    length pop < pop_size /\ pop' = pop ++ [i] \/
    pop_size <= length pop /\ exists x l1 y l2, picked (pop ++ [i]) x /\ pop ++ [i] = l1 ++ y :: l2 /\ pop' = l1 ++ l2 /\
      i_id y = i_id x /\ ~ In (i_id x) (map i_id l1)
  | _ => pop' = pop
  end.

(** Evaluations that succeeded; an evaluation after which the callback does not
    fail and which has [k] scores if it succeeded. *)
Definition succeeded (e : event) : bool := match e_out e with Evaluated _ false => true | _ => false end.
Definition n_succeeded (l : list event) : nat := length (filter succeeded l).
Definition calm (k : nat) (e : event) : Prop :=
  e_callback e = None /\ match e_out e with Evaluated s false => length s = k | _ => True end.

(** * ASHA *)
(** Every event of a history, given what came before it. *)
Definition each (P : list item -> item -> Prop) (t : list item) : Prop :=
  forall t1 x t2, t = t1 ++ x :: t2 -> P t1 x.
(** What was reported for a rung (the first score and the individual), in order;
    what was promoted from it. *)
Definition results_on (rung : nat) (t : list item) : list entry :=
  flat_map (fun x => match x with
                     | TDone i (Some r) (Evaluated (s :: _) _) => if r =? rung then [(s, i)] else []
                     | _ => []
                     end) t.
Definition promoted_from (rung : nat) (t : list item) : list entry :=
  flat_map (fun x => match x with TPromote r e _ _ => if r =? rung then [e] else [] | _ => [] end) t.
(** What was started on a rung. *)
Definition started_on (rung : nat) (t : list item) : list ind :=
  flat_map (fun x => match x with TSubmit i (Some r) _ => if r =? rung then [i] else [] | _ => [] end) t.
(** The same result: of the same individual, with the same loss. *)
Definition same_entry (x y : entry) : Prop :=
  i_id (snd x) = i_id (snd y) /\
  match fst x, fst y with
  | Fin a, Fin b => (a == b)%Q
  | a, b => a = b
  end.
(** A rung from which something is to be promoted. *)
Definition promotable (eta rung : nat) (t : list item) : Prop :=
  length (promoted_from rung t) < length (results_on rung t) / eta /\
  exists y, In y (results_on rung t) /\ forall z, In z (promoted_from rung t) -> ~ same_entry y z.

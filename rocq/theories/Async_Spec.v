(** Vocabulary for the properties of AsyncEvaluator. *)
From Verif Require Import Base Async_Model.
Open Scope nat_scope.

(** Where a job that was not returned yet can be: in the queue to the workers, in
    a worker (running, or its result on the way out), or in the queue of results. *)
Definition queued (s : st) : list nat := map fst (a_input s).
Definition held_by (w : worker) : list nat :=
  (match w_run w with Some x => [fst x] | None => [] end) ++ map fst (w_out w).
Definition in_workers (s : st) : list nat := flat_map held_by (a_live s).
Definition finished (s : st) : list nat := map fst (a_output s).
Definition returned (s : st) : list nat := map fst (a_returned s).
Definition submitted (s : st) : list nat := map fst (a_submitted s).

(** Inside the context. *)
Definition inside (s : st) : Prop := a_entered s = true /\ a_closed s = false.

(** The kinds of actions. *)
Definition is_crash (a : act) : Prop := match a with Crash _ => True | _ => False end.
Definition is_submit (a : act) : Prop := match a with Submit _ => True | _ => False end.
Definition is_worker_step (a : act) : Prop := match a with Get _ | Exec _ _ | Flush _ => True | _ => False end.

(** Every call ends in a way the worker accepts: it raises an Exception, or
    returns a false value or an object with a field [error] (possibly as first
    component of a tuple). *)
Definition good (o : outcome) : Prop :=
  match o with
  | Exc _ | Ret (VFalsy _) | Ret (VEval _ _) | Ret (VTuple []) | Ret (VTuple (VEval _ _ :: _)) => True
  | _ => False
  end.
Definition accepted (call : nat -> list nat -> kwargs -> nat -> outcome) : Prop :=
  forall fn args kw choice, good (call fn args kw choice).
(** [o] is the outcome [o'] of a call, except that a MemoryError reported in the
    field [error] is replaced by a text. *)
Definition reported (o o' : outcome) : Prop :=
  match o' with
  | Ret (VEval n MemErr) => o = Ret (VEval n MemStr)
  | Ret (VTuple (VEval n MemErr :: l)) => o = Ret (VTuple (VEval n MemStr :: l))
  | _ => o = o'
  end.
(** The memory a process is reported to use (0 when there is no report). *)
Definition reading (mem : nat -> option nat) (p : nat) : nat :=
  match mem p with Some m => m | None => 0 end.

(** Worker steps that each do something, from [s]. *)
Inductive busy (call : nat -> list nat -> kwargs -> nat -> outcome) : st -> list act -> Prop :=
| b_nil s : busy call s []
| b_cons s a l : is_worker_step a -> step call s a <> s -> busy call (step call s a) l -> busy call s (a :: l).

(** The memory reported in a turn of wait_next, of the main process and the workers
    together, is above the limit. *)
Definition exceeds (mem : nat -> option nat) (s : st) : bool :=
  match a_limit s with
  | None => false
  | Some L => L <? reading mem 0 + list_sum (map (reading mem) (a_procs s))
  end.
(** What can be counted from outside: how often the limit was exceeded, and how many
    futures were returned, both since the pool last became smaller, and how often it
    was exceeded in all. *)
Record tally := mkTally { t_over : nat; t_done : nat; t_all : nat }.
Definition count (call : nat -> list nat -> kwargs -> nat -> outcome) (s : st) (a : act) (t : tally) : tally :=
  let s' := step call s a in
  let done := length (returned s') - length (returned s) in
  if match a with Turn mem _ _ _ => a_waiting s && exceeds mem s | _ => false end then
    if length (a_procs s') <? length (a_procs s) then mkTally 0 done (S (t_all t))
    else mkTally (S (t_over t)) (t_done t + done) (S (t_all t))
  else mkTally (t_over t) (t_done t + done) (t_all t).
Fixpoint counted_over (call : nat -> list nat -> kwargs -> nat -> outcome) (s : st) (l : list act) (t : tally) : tally :=
  match l with [] => t | a :: l' => counted_over call (step call s a) l' (count call s a t) end.
Definition tallied call n limit log d l : tally :=
  counted_over call (new_evaluator n limit log d) l (mkTally 0 0 0).

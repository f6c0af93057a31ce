(** Property theorems; proofs in Stop_Main.v. *)
From Verif Require Import Base Stop_Model Stop_Spec.
Open Scope nat_scope.
From Verif Require Import Stop_Main.

(** C141.  Leaving the context takes a bounded number of steps, not counting those at
    which it finds a queue locked by somebody else: three per worker, one per second of
    the time given to the workers, two per job, and seven. *)
Theorem C141_bounded :
  forall n limit before after k,
    let s := run before (entered n limit) in
    s_main s = Inside -> exit_steps after (step Leave s) k ->
    k > 3 * n + limit + 2 * outstanding s + 7 ->
    s_main (run (before ++ Leave :: after) (entered n limit)) = Left.
Proof. exact C141_bounded_main. Qed.
Print Assumptions C141_bounded.

(** A queue is locked by a running worker only until its next step. *)
Theorem C141_released :
  forall n limit l p, let s := run l (entered n limit) in lives p s ->
    (s_ilock s = Some p -> s_ilock (step (Worker p) s) = None) /\
    (s_clock s = Some p -> s_clock (step (Worker p) s) = None).
Proof. exact C141_released_main. Qed.
Print Assumptions C141_released.

(** When it is left, no worker is running, no process and no job is left, and it slept
    at most one second more than the time given to the workers. *)
Theorem C141_left :
  forall n limit l, let s := run l (entered n limit) in s_main s = Left ->
    s_live s = [] /\ s_procs s = [] /\ s_input s = [] /\ s_slept s <= limit + 1.
Proof. exact C141_left_main. Qed.
Print Assumptions C141_left.

(** As long as nobody who is gone has left a queue locked, __exit__ can go on to its
    end, with nothing but steps of its own and of the workers. *)
Theorem C141_returns_partial :
  forall n limit l, let s := run l (entered n limit) in
    s_main s <> Inside -> ~ abandoned (s_ilock s) s -> ~ abandoned (s_clock s) s ->
    exists l', ordinary l' /\ s_main (run l' s) = Left.
Proof. exact C141_returns_partial_main. Qed.
Print Assumptions C141_returns_partial.

(** In particular when no worker was stopped for its memory use and none crashed. *)
Theorem C141_calm :
  forall n limit before after, calm before -> ordinary after ->
    s_main (run before (entered n limit)) = Inside ->
    exists l', ordinary l' /\ s_main (run (before ++ Leave :: after ++ l') (entered n limit)) = Left.
Proof. exact C141_calm_main. Qed.
Print Assumptions C141_calm.

(** Without terminations a stop command ends one worker: until the queues are emptied,
    every worker that runs has one stop command waiting, put already or still to be put,
    and there are no others.  So if __exit__ goes on before the time given to the
    workers is over, all of them have stopped by themselves. *)
Theorem C141_one_each :
  forall n limit before after, calm before -> ordinary after ->
    s_main (run before (entered n limit)) = Inside ->
    let s := run (before ++ Leave :: after) (entered n limit) in
    match s_main s with
    | Inside => False
    | Stops k => length (s_live s) = s_commands s + k
    | Waiting _ => length (s_live s) = s_commands s
    | _ => s_slept s <= limit -> s_live s = []
    end.
Proof. exact C141_one_each_main. Qed.
Print Assumptions C141_one_each.

(** C141 is false otherwise.  Once the queue of jobs is left locked with a job in it,
    the context is never left, whatever happens ... *)
Theorem C141_hangs :
  forall n limit l, let s := run l (entered n limit) in
    s_main s = Inside -> n > 0 ->
    abandoned (s_clock s) s \/ (abandoned (s_ilock s) s /\ s_input s <> []) ->
    forall l', s_main (run l' s) <> Left.
Proof. exact C141_hangs_main. Qed.
Print Assumptions C141_hangs.

Theorem C141_returns_refuted :
  exists n limit l, n > 0 /\ s_main (run l (entered n limit)) = Inside /\
    forall l', s_main (run l' (run l (entered n limit))) <> Left.
Proof. exact C141_returns_refuted_main. Qed.
Print Assumptions C141_returns_refuted.

Example C141_ex :
  let s := run ex_day (entered 2 10) in
  s_main s = Inside /\ outstanding s = 1 /\ calm ex_day /\
  s_main (run (Leave :: repeat Main 3 ++ [Worker 1; Worker 1] ++ repeat Main 20) s) = Left /\
  exists k, exit_steps (repeat Main 41) (step Leave s) k /\ k = 41.
Proof. exact C141_ex_main. Qed.

(** C142.  Stopping a worker that is not about to take something from a queue has no
    effect on the jobs and on the other workers, and leaves no queue locked. *)
Theorem C142_others_partial :
  forall n limit l p again, let s := run l (entered n limit) in
    s_main s = Inside -> In p (s_procs s) ->
    ~ In (p, HoldInput) (s_live s) -> ~ In (p, HoldCommand) (s_live s) ->
    ~ abandoned (s_ilock s) s -> ~ abandoned (s_clock s) s ->
    let s' := step (Stop p again) s in
    ~ abandoned (s_ilock s') s' /\ ~ abandoned (s_clock s') s' /\
    s_input s' = s_input s /\ s_output s' = s_output s /\ s_started s' = s_started s /\
    ~ lives p s' /\ (forall q x, q <> p -> In (q, x) (s_live s) -> In (q, x) (s_live s')).
Proof. exact C142_others_partial_main. Qed.
Print Assumptions C142_others_partial.

(** With no queue left locked, the first job in the queue can be started by the workers
    that run. *)
Theorem C142_served :
  forall n limit l j q w, let s := run l (entered n limit) in
    s_main s = Inside -> s_input s = j :: q -> lives w s -> ~ abandoned (s_ilock s) s ->
    exists l', ordinary l' /\ s_started (run l' s) = s_started s ++ [j].
Proof. exact C142_served_main. Qed.
Print Assumptions C142_served.

(** Once the queue of jobs is left locked no job is ever started again, whatever
    happens, however many workers are started. *)
Theorem C142_starved :
  forall n limit l, let s := run l (entered n limit) in
    abandoned (s_ilock s) s -> forall l', s_started (run l' s) = s_started s.
Proof. exact C142_starved_main. Qed.
Print Assumptions C142_starved.

(** C142 is false: stopping one worker for its memory use can end all work, although
    other workers run and jobs wait. *)
Theorem C142_restart_refuted :
  exists n limit l p, let s := run l (entered n limit) in
    In p (s_procs s) /\ s_input s <> [] /\ length (s_live (step (Stop p true) s)) = n /\
    forall l', s_started (run (Stop p true :: l') s) = s_started s.
Proof. exact C142_restart_refuted_main. Qed.
Print Assumptions C142_restart_refuted.

Example C142_ex :
  let s := run [Submit 7; Worker 1; Worker 1; Worker 1; Worker 1; Submit 8; Stop 1 true] (entered 2 10) in
  s_main s = Inside /\ s_input s = [8] /\ lives 2 s /\ lives 3 s /\ s_ilock s = None /\
  s_started (run [Worker 3; Worker 3; Worker 3; Worker 3] s) = [7; 8].
Proof. exact C142_ex_main. Qed.

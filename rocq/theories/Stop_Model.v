(** Leaving the context of an AsyncEvaluator, and stopping a worker while the others
    run: utilities/generic/async_evaluator.py with the locks of multiprocessing.Queue.

    Every queue has one lock for its readers.  [Queue.get(block=False)] raises Empty at
    once if somebody else holds it; [get(timeout=0.001)] raises Empty after waiting for
    it that long; a process that is terminated between taking the lock and giving it
    back leaves it locked for ever (the risk named in async_evaluator.py:271-273).
    Simplifications: a result is put on the output queue in one step, and only the main
    process reads that queue, so its lock plays no part. *)
From Verif Require Import Base.
Open Scope nat_scope.

(** Where a worker is in its loop (evaluator_daemon, async_evaluator.py:346-377):
    before the command queue, holding its lock, before the input queue, holding its
    lock, or executing a job. *)
Inductive wphase := Top | HoldCommand | Between | HoldInput | Running (j : nat).
(** Where the main process is: inside the context, or in __exit__
    (async_evaluator.py:140-164): putting [k] more stop commands, waiting for them to be
    taken (after [t] seconds), clearing the three queues, ending the processes; or
    after it. *)
Inductive mphase := Inside | Stops (k : nat) | Waiting (t : nat) | ClearInput | ClearOutput | ClearCommand | Reap | Left.

Record st := mkSt {
  s_main : mphase; s_limit : nat; s_slept : nat;
  s_procs : list nat; s_live : list (nat * wphase); s_next : nat;
  s_commands : nat; s_input : list nat; s_output : list nat;
  s_clock : option nat; s_ilock : option nat; s_started : list nat }.

Definition phase_of (p : nat) (s : st) : option wphase :=
  match find (fun w => fst w =? p) (s_live s) with Some w => Some (snd w) | None => None end.
Definition set_phase (p : nat) (x : wphase) (l : list (nat * wphase)) : list (nat * wphase) :=
  map (fun w => if fst w =? p then (p, x) else w) l.
Definition without (p : nat) (l : list (nat * wphase)) : list (nat * wphase) := filter (fun w => negb (fst w =? p)) l.

(** __enter__ with [n] workers, async_evaluator.py:122-138; [limit]:
    wait_time_before_forced_shutdown *)
Definition entered (n limit : nat) : st :=
  mkSt Inside limit 0 (seq 1 n) (map (fun p => (p, Top)) (seq 1 n)) (S n) 0 [] [] None None [].

(** One step of worker [p], async_evaluator.py:346-377. *)
Definition worker_step (p : nat) (s : st) : st :=
  match phase_of p s with
  | None => s
  | Some Top =>
    match s_clock s with
    | None => mkSt (s_main s) (s_limit s) (s_slept s) (s_procs s) (set_phase p HoldCommand (s_live s)) (s_next s)
                (s_commands s) (s_input s) (s_output s) (Some p) (s_ilock s) (s_started s)
    | Some _ => mkSt (s_main s) (s_limit s) (s_slept s) (s_procs s) (set_phase p Between (s_live s)) (s_next s)
                (s_commands s) (s_input s) (s_output s) (s_clock s) (s_ilock s) (s_started s)
    end
  | Some HoldCommand =>
    match s_commands s with
    | 0 => mkSt (s_main s) (s_limit s) (s_slept s) (s_procs s) (set_phase p Between (s_live s)) (s_next s)
             0 (s_input s) (s_output s) None (s_ilock s) (s_started s)
    | S c => mkSt (s_main s) (s_limit s) (s_slept s) (s_procs s) (without p (s_live s)) (s_next s)
             c (s_input s) (s_output s) None (s_ilock s) (s_started s)
    end
  | Some Between =>
    match s_ilock s with
    | None => mkSt (s_main s) (s_limit s) (s_slept s) (s_procs s) (set_phase p HoldInput (s_live s)) (s_next s)
                (s_commands s) (s_input s) (s_output s) (s_clock s) (Some p) (s_started s)
    | Some _ => mkSt (s_main s) (s_limit s) (s_slept s) (s_procs s) (set_phase p Top (s_live s)) (s_next s)
                (s_commands s) (s_input s) (s_output s) (s_clock s) (s_ilock s) (s_started s)
    end
  | Some HoldInput =>
    match s_input s with
    | [] => mkSt (s_main s) (s_limit s) (s_slept s) (s_procs s) (set_phase p Top (s_live s)) (s_next s)
              (s_commands s) [] (s_output s) (s_clock s) None (s_started s)
    | j :: q => mkSt (s_main s) (s_limit s) (s_slept s) (s_procs s) (set_phase p (Running j) (s_live s)) (s_next s)
              (s_commands s) q (s_output s) (s_clock s) None (s_started s ++ [j])
    end
  | Some (Running j) =>
    mkSt (s_main s) (s_limit s) (s_slept s) (s_procs s) (set_phase p Top (s_live s)) (s_next s)
      (s_commands s) (s_input s) (s_output s ++ [j]) (s_clock s) (s_ilock s) (s_started s)
  end.

(** A process is gone: terminated, crashed, or ended by its job.  It keeps what it
    locked. *)
Definition gone (p : nat) (s : st) : st :=
  mkSt (s_main s) (s_limit s) (s_slept s) (s_procs s) (without p (s_live s)) (s_next s)
    (s_commands s) (s_input s) (s_output s) (s_clock s) (s_ilock s) (s_started s).
Definition set_main (m : mphase) (s : st) : st :=
  mkSt m (s_limit s) (s_slept s) (s_procs s) (s_live s) (s_next s)
    (s_commands s) (s_input s) (s_output s) (s_clock s) (s_ilock s) (s_started s).
Definition set_procs (ps : list nat) (s : st) : st :=
  mkSt (s_main s) (s_limit s) (s_slept s) ps (s_live s) (s_next s)
    (s_commands s) (s_input s) (s_output s) (s_clock s) (s_ilock s) (s_started s).
Definition set_queues (c : nat) (i o : list nat) (s : st) : st :=
  mkSt (s_main s) (s_limit s) (s_slept s) (s_procs s) (s_live s) (s_next s)
    c i o (s_clock s) (s_ilock s) (s_started s).
Definition sleep (s : st) : st :=
  mkSt (s_main s) (s_limit s) (S (s_slept s)) (s_procs s) (s_live s) (s_next s)
    (s_commands s) (s_input s) (s_output s) (s_clock s) (s_ilock s) (s_started s).
(** _stop_worker_process and _start_worker_process, async_evaluator.py:237-254 *)
Definition stop (p : nat) (s : st) : st := set_procs (filter (fun q => negb (q =? p)) (s_procs s)) (gone p s).
Definition start (s : st) : st :=
  mkSt (s_main s) (s_limit s) (s_slept s) (s_procs s ++ [s_next s]) (s_live s ++ [(s_next s, Top)]) (S (s_next s))
    (s_commands s) (s_input s) (s_output s) (s_clock s) (s_ilock s) (s_started s).

(** One step of __exit__, async_evaluator.py:140-164; clear_queue: 166-170, one
    iteration of its loop per step. *)
Definition main_step (s : st) : st :=
  match s_main s with
  | Inside | Left => s
  | Stops (S k) => set_main (Stops k) (set_queues (S (s_commands s)) (s_input s) (s_output s) s)
  | Stops 0 => set_main (Waiting 0) s
  | Waiting t =>
    if s_limit s + 1 <=? t then set_main ClearInput s
    else if s_commands s =? 0 then set_main ClearInput s
    else set_main (Waiting (S t)) (sleep s)
  | ClearInput =>
    match s_input s, s_ilock s with
    | [], _ => set_main ClearOutput s
    | _ :: q, None => set_queues (s_commands s) q (s_output s) s
    | _, Some _ => s
    end
  | ClearOutput =>
    match s_output s with
    | [] => set_main ClearCommand s
    | _ :: q => set_queues (s_commands s) (s_input s) q s
    end
  | ClearCommand =>
    match s_commands s, s_clock s with
    | 0, _ => set_main Reap s
    | S c, None => set_queues c (s_input s) (s_output s) s
    | _, Some _ => s
    end
  | Reap =>
    match s_procs s with
    | [] => set_main Left s
    | p :: _ => stop p s
    end
  end.

(** What can happen: the user submits a job or collects a result (172-194, 196-235),
    the memory control stops a worker, and starts another or not (256-302; always if it
    was the last one), the
    context is left, __exit__ goes on, a worker goes on, a worker is gone. *)
Inductive action := Submit (j : nat) | Collect | Stop (p : nat) (again : bool) | Leave | Main | Worker (p : nat) | Ends (p : nat).
Definition step (a : action) (s : st) : st :=
  match a with
  | Worker p => worker_step p s
  | Ends p => gone p s
  | Main => main_step s
  | _ =>
    match s_main s with
    | Inside =>
      match a with
      | Submit j => set_queues (s_commands s) (s_input s ++ [j]) (s_output s) s
      | Collect => set_queues (s_commands s) (s_input s) (tl (s_output s)) s
      | Stop p again =>
        if existsb (Nat.eqb p) (s_procs s) then
          if again || (length (s_procs s) =? 1) then start (stop p s) else stop p s
        else s
      | Leave => set_main (Stops (length (s_procs s))) s
      | _ => s
      end
    | _ => s
    end
  end.
Definition run (l : list action) (s : st) : st := fold_left (fun s a => step a s) l s.

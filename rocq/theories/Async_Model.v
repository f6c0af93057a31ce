(** Model of utilities/generic/async_evaluator.py: the main process, any number
    of worker processes, the queues between them, and the memory control.  An
    execution is a list of actions of the processes in any order. *)
From Verif Require Import Base.
Require Import ZArith.
Open Scope nat_scope.

(** Results of a job, as far as the worker looks at them
    (async_evaluator.py:354-363): values that are false, values whose truth
    value raises (e.g. numpy arrays), objects with a field [error], tuples, and
    everything else. *)
Inductive errv := NoError | MemErr | MemStr | OtherErr (n : nat).
Inductive value :=
| VFalsy (n : nat) | VAmbiguous (n : nat) | VPlain (n : nat)
| VEval (n : nat) (e : errv) | VTuple (l : list value).
(** What a call does: return, raise an Exception, or end the process (an
    exception that is not an Exception, a crash). *)
Inductive outcome := Ret (v : value) | Exc (e : nat) | Die.

(** Dictionaries of keyword arguments; [{**a, **b}] (async_evaluator.py:54). *)
Definition kwargs := list (string * nat).
Fixpoint kw_get (k : string) (d : kwargs) : option nat :=
  match d with [] => None | (k', v) :: d' => if String.eqb k' k then Some v else kw_get k d' end.
Definition kw_merge (a b : kwargs) : kwargs :=
  map (fun x => (fst x, match kw_get (fst x) b with Some v => v | None => snd x end)) a ++
  filter (fun x => match kw_get (fst x) a with None => true | Some _ => false end) b.

(** AsyncFuture, async_evaluator.py:38-49: function, positional and keyword
    arguments.  Its [id] (a uuid) is the number of the submission: ids do not repeat. *)
Record job := mkJob { j_fn : nat; j_args : list nat; j_kwargs : kwargs }.

(** What the worker puts on the output queue after a call, or None when it stops
    instead (async_evaluator.py:350-377): [future.result] is tested for truth;
    if true, it (or its first component) must have a field [error], in which a
    MemoryError is replaced by a string. *)
Definition truth (v : value) : option bool :=
  match v with
  | VFalsy _ => Some false | VAmbiguous _ => None | VPlain _ => Some true
  | VEval _ _ => Some true | VTuple l => Some (match l with [] => false | _ => true end)
  end.
Definition clean (v : value) : option value :=
  match v with
  | VEval n MemErr => Some (VEval n MemStr)
  | VEval n e => Some v
  | _ => None
  end.
Definition deliver (o : outcome) : option outcome :=
  match o with
  | Exc e => Some (Exc e)
  | Die => None
  | Ret v =>
    match truth v with
    | None => None
    | Some false => Some (Ret v)
    | Some true =>
      match v with
      | VTuple (x :: l) => match clean x with Some x' => Some (Ret (VTuple (x' :: l))) | None => None end
      | _ => match clean v with Some v' => Some (Ret v') | None => None end
      end
    end
  end.

(** A live worker process: the defaults it was started with, the job it executes,
    and results on their way to the output queue (the feeder thread of
    multiprocessing.Queue). *)
Record worker := mkWorker {
  w_pid : nat; w_defaults : kwargs; w_run : option (nat * job); w_out : list (nat * outcome) }.

(** The evaluator.  [a_live] are the processes that run; [a_procs] is
    [self._processes].  [a_submitted], [a_returned] and [a_raised] record what the
    user saw: submissions, results of wait_next, and exceptions. *)
Record st := mkSt {
  a_n : nat; a_limit : option nat; a_log : bool;
  a_entered : bool; a_closed : bool; a_waiting : bool;
  a_futures : list (nat * job); a_procs : list nat; a_live : list worker;
  a_input : list (nat * job); a_output : list (nat * outcome);
  a_size : Z; a_viol : nat; a_behaved : nat; a_defaults : kwargs; a_pid : nat;
  a_submitted : list (nat * job); a_returned : list (nat * outcome); a_raised : list exn }.

(** __init__, async_evaluator.py:76-120. *)
Definition new_evaluator (n : nat) (limit : option nat) (logfile : bool) (defaults : kwargs) : st :=
  mkSt n limit logfile false false false [] [] [] [] [] (- Z.of_nat n)%Z 0 0 defaults 1 [] [] [].

Definition raise (e : exn) (s : st) : st :=
  mkSt (a_n s) (a_limit s) (a_log s) (a_entered s) (a_closed s) false (a_futures s) (a_procs s) (a_live s)
    (a_input s) (a_output s) (a_size s) (a_viol s) (a_behaved s) (a_defaults s) (a_pid s)
    (a_submitted s) (a_returned s) (a_raised s ++ [e]).
Definition set_pool (procs : list nat) (live : list worker) (size : Z) (viol behaved pid : nat) (s : st) : st :=
  mkSt (a_n s) (a_limit s) (a_log s) (a_entered s) (a_closed s) (a_waiting s) (a_futures s) procs live
    (a_input s) (a_output s) size viol behaved (a_defaults s) pid
    (a_submitted s) (a_returned s) (a_raised s).
Definition set_waiting (w : bool) (s : st) : st :=
  mkSt (a_n s) (a_limit s) (a_log s) (a_entered s) (a_closed s) w (a_futures s) (a_procs s) (a_live s)
    (a_input s) (a_output s) (a_size s) (a_viol s) (a_behaved s) (a_defaults s) (a_pid s)
    (a_submitted s) (a_returned s) (a_raised s).

(** _start_worker_process, async_evaluator.py:237-247. *)
Definition start_worker (s : st) : st :=
  set_pool (a_procs s ++ [a_pid s]) (a_live s ++ [mkWorker (a_pid s) (a_defaults s) None []])
    (a_size s) (a_viol s) (a_behaved s) (S (a_pid s)) s.
(** _stop_worker_process, async_evaluator.py:249-254.  Simplification: terminate
    and wait succeed.  [list.remove] raises ValueError for a process that is not
    in the list (process numbers are different, so it removes the only one). *)
Definition stop_worker (p : nat) (s : st) : res unit * st :=
  if existsb (Nat.eqb p) (a_procs s) then
    (Ok tt, set_pool (filter (fun q => negb (q =? p)) (a_procs s)) (filter (fun w => negb (w_pid w =? p)) (a_live s))
              (a_size s - 1)%Z (a_viol s) (a_behaved s) (a_pid s) s)
  else
    (Err ValueError, set_pool (a_procs s) (filter (fun w => negb (w_pid w =? p)) (a_live s))
              (a_size s - 1)%Z (a_viol s) (a_behaved s) (a_pid s) s).

(** __enter__, async_evaluator.py:122-138: new queues, [n] workers.
    (Writing the log file on entry has no effect on the pool: all workers live.) *)
Definition enter (s : st) : st :=
  if a_entered s then raise RuntimeError s
  else Nat.iter (a_n s) start_worker
    (mkSt (a_n s) (a_limit s) (a_log s) true false false (a_futures s) (a_procs s) (a_live s)
       [] [] (a_size s) (a_viol s) (a_behaved s) (a_defaults s) (a_pid s)
       (a_submitted s) (a_returned s) (a_raised s)).
(** __exit__, async_evaluator.py:140-164: all workers are stopped one after the
    other, the queues emptied and closed. *)
Definition exit (s : st) : st :=
  mkSt (a_n s) (a_limit s) (a_log s) (a_entered s) true false (a_futures s) []
    (filter (fun w => negb (existsb (Nat.eqb (w_pid w)) (a_procs s))) (a_live s))
    [] [] (- Z.of_nat (a_n s) - Z.of_nat (length (a_procs s)))%Z (a_viol s) (a_behaved s) (a_defaults s) (a_pid s)
    (a_submitted s) (a_returned s) (a_raised s).

(** submit, async_evaluator.py:172-194.  Putting into a closed queue raises
    ValueError, after the future was recorded. *)
Definition submit (j : job) (s : st) : st :=
  let id := length (a_submitted s) in
  if a_closed s then
    raise ValueError
      (mkSt (a_n s) (a_limit s) (a_log s) (a_entered s) (a_closed s) (a_waiting s) (a_futures s ++ [(id, j)]) (a_procs s) (a_live s)
         (a_input s) (a_output s) (a_size s) (a_viol s) (a_behaved s) (a_defaults s) (a_pid s)
         (a_submitted s ++ [(id, j)]) (a_returned s) (a_raised s))
  else
    mkSt (a_n s) (a_limit s) (a_log s) (a_entered s) (a_closed s) (a_waiting s) (a_futures s ++ [(id, j)]) (a_procs s) (a_live s)
      (a_input s ++ [(id, j)]) (a_output s) (a_size s + 1)%Z (a_viol s) (a_behaved s) (a_defaults s) (a_pid s)
      (a_submitted s ++ [(id, j)]) (a_returned s) (a_raised s).

(** _get_memory_usage, async_evaluator.py:314-323: the reading of every process,
    first the main process (number 0).  [mem] is what psutil reports; a live
    process always has a reading, for a process that ended psutil may or may not
    raise NoSuchProcess, in which case a new worker takes its place. *)
Definition alive (p : nat) (s : st) : bool := (p =? 0) || existsb (fun w => w_pid w =? p) (a_live s).
Fixpoint memory (mem : nat -> option nat) (ps : list nat) (s : st) : list (nat * nat) * st :=
  match ps with
  | [] => ([], s)
  | p :: ps' =>
    match mem p, alive p s with
    | None, false =>
      memory mem ps' (start_worker (set_pool (filter (fun q => negb (q =? p)) (a_procs s)) (a_live s)
                                      (a_size s) (a_viol s) (a_behaved s) (a_pid s) s))
    | r, _ => let (l, s') := memory mem ps' s in
              ((p, match r with Some m => m | None => 0 end) :: l, s')
    end
  end.
(** [max(l, key=lambda t: t[1])]: the first of the largest. *)
Fixpoint max_by (l : list (nat * nat)) : option (nat * nat) :=
  match l with
  | [] => None
  | x :: l' => match max_by l' with
               | None => Some x
               | Some y => if snd x <? snd y then Some y else Some x
               end
  end.
Definition total (l : list (nat * nat)) : nat := fold_right (fun x t => snd x + t) 0 l.

(** _log_memory_usage, async_evaluator.py:305-312: only the readings matter here. *)
Definition log_memory (mem : nat -> option nat) (s : st) : st :=
  if a_log s then snd (memory mem (0 :: a_procs s) s) else s.
(** _control_memory_usage, async_evaluator.py:256-303.  [fail_ratio < 0.05] is
    computed without rounding. *)
Definition control (mem mem2 : nat -> option nat) (s0 : st) : res unit * st :=
  match a_limit s0 with
  | None => (Ok tt, s0)
  | Some limit =>
    let (usage, s1) := memory mem (0 :: a_procs s0) s0 in
    if limit <? total usage then
      let s2 := log_memory mem2 s1 in
      let s3 := set_pool (a_procs s2) (a_live s2) (a_size s2) (S (a_viol s2)) (a_behaved s2) (a_pid s2) s2 in
      match max_by (tl usage) with
      | None => (Err ValueError, s3)
      | Some (p, _) =>
        if (20 * a_viol s3 <? a_viol s3 + a_behaved s3) || (length (a_procs s3) =? 1) then
          match stop_worker p s3 with
          | (Ok _, s4) => (Ok tt, start_worker s4)
          | (Err e, s4) => (Err e, s4)
          end
        else
          stop_worker p (set_pool (a_procs s3) (a_live s3) (a_size s3) 0 0 (a_pid s3) s3)
      end
    else (Ok tt, s1)
  end.

Fixpoint find_id (id : nat) (l : list (nat * job)) : option job :=
  match l with [] => None | (i, j) :: l' => if i =? id then Some j else find_id id l' end.
(** The call of wait_next: async_evaluator.py:215-216. *)
Definition wait_start (s : st) : st :=
  match a_futures s with
  | [] => raise RuntimeError s
  | _ => set_waiting true s
  end.
(** One turn of its loop: async_evaluator.py:217-235.  With nothing on the queue
    (or nothing visible yet: [ready] false) it goes round again.  Reading from a
    closed queue raises ValueError; [futures.pop] of an unknown id KeyError. *)
Definition wait_turn (mem mem2 mem3 : nat -> option nat) (ready : bool) (s0 : st) : st :=
  match control mem mem2 s0 with
  | (Err e, s1) => raise e s1
  | (Ok _, s1) =>
    let s := log_memory mem3 s1 in
    if a_closed s then raise ValueError s
    else
      match a_output s, ready with
      | (id, o) :: out, true =>
        match find_id id (a_futures s) with
        | None =>
          raise KeyError
            (mkSt (a_n s) (a_limit s) (a_log s) (a_entered s) (a_closed s) false (a_futures s) (a_procs s) (a_live s)
               (a_input s) out (a_size s - 1)%Z (a_viol s) (a_behaved s) (a_defaults s) (a_pid s)
               (a_submitted s) (a_returned s) (a_raised s))
        | Some _ =>
          mkSt (a_n s) (a_limit s) (a_log s) (a_entered s) (a_closed s) false
            (filter (fun x => negb (fst x =? id)) (a_futures s)) (a_procs s) (a_live s)
            (a_input s) out (a_size s - 1)%Z (a_viol s) (S (a_behaved s)) (a_defaults s) (a_pid s)
            (a_submitted s) (a_returned s ++ [(id, o)]) (a_raised s)
        end
      | _, _ => s
      end
  end.

(** Steps of a worker, evaluator_daemon, async_evaluator.py:326-377: take a job,
    execute it, hand over a result.  [call fn args kwargs choice] is what the call
    does; [choice] is whatever else it depends on. *)
Definition on_worker (p : nat) (f : worker -> option worker) (l : list worker) : list worker :=
  flat_map (fun w => if w_pid w =? p then match f w with Some w' => [w'] | None => [] end else [w]) l.
Definition find_worker (p : nat) (l : list worker) : option worker := find (fun w => w_pid w =? p) l.
Definition set_queues (inp : list (nat * job)) (out : list (nat * outcome)) (live : list worker) (s : st) : st :=
  mkSt (a_n s) (a_limit s) (a_log s) (a_entered s) (a_closed s) (a_waiting s) (a_futures s) (a_procs s) live
    inp out (a_size s) (a_viol s) (a_behaved s) (a_defaults s) (a_pid s)
    (a_submitted s) (a_returned s) (a_raised s).
Definition worker_get (p : nat) (s : st) : st :=
  match find_worker p (a_live s), a_input s with
  | Some w, x :: inp =>
    match w_run w with
    | None => set_queues inp (a_output s)
                (on_worker p (fun w => Some (mkWorker (w_pid w) (w_defaults w) (Some x) (w_out w))) (a_live s)) s
    | Some _ => s
    end
  | _, _ => s
  end.
Definition worker_flush (p : nat) (s : st) : st :=
  match find_worker p (a_live s) with
  | Some w =>
    match w_out w with
    | x :: out => set_queues (a_input s) (a_output s ++ [x])
                    (on_worker p (fun w => Some (mkWorker (w_pid w) (w_defaults w) (w_run w) out)) (a_live s)) s
    | [] => s
    end
  | None => s
  end.
Definition worker_crash (p : nat) (s : st) : st :=
  set_queues (a_input s) (a_output s) (on_worker p (fun _ => None) (a_live s)) s.

Section Calls.
Context (call : nat -> list nat -> kwargs -> nat -> outcome).
(** AsyncFuture.execute, async_evaluator.py:50-58, in a process with [defaults]. *)
Definition execute (j : job) (defaults : kwargs) (choice : nat) : outcome :=
  call (j_fn j) (j_args j) (kw_merge (j_kwargs j) defaults) choice.
Definition worker_exec (p choice : nat) (s : st) : st :=
  match find_worker p (a_live s) with
  | Some w =>
    match w_run w with
    | Some (id, j) =>
      set_queues (a_input s) (a_output s)
        (on_worker p (fun w => match deliver (execute j (w_defaults w) choice) with
                               | Some o => Some (mkWorker (w_pid w) (w_defaults w) None (w_out w ++ [(id, o)]))
                               | None => None
                               end) (a_live s)) s
    | None => s
    end
  | None => s
  end.

(** Actions.  The main process is single-threaded: while it waits it can only go
    round the loop or be interrupted (the time limit of gama.py:644 raises an
    exception in it; simplification: between turns of the loop). *)
Inductive act :=
| Enter | Exit | Submit (j : job) | Wait
| Turn (mem mem2 mem3 : nat -> option nat) (ready : bool) | Interrupt
| Defaults (d : kwargs)
| Get (p : nat) | Exec (p choice : nat) | Flush (p : nat) | Crash (p : nat).
Definition step (s : st) (a : act) : st :=
  match a with
  | Enter => if a_waiting s then s else enter s
  | Exit => if a_waiting s then s else if a_entered s then exit s else s
  | Submit j => if a_waiting s then s else submit j s
  | Wait => if a_waiting s then s else wait_start s
  | Turn mem mem2 mem3 ready => if a_waiting s then wait_turn mem mem2 mem3 ready s else s
  | Interrupt => set_waiting false s
  | Defaults d => if a_waiting s then s else
      mkSt (a_n s) (a_limit s) (a_log s) (a_entered s) (a_closed s) (a_waiting s) (a_futures s) (a_procs s) (a_live s)
        (a_input s) (a_output s) (a_size s) (a_viol s) (a_behaved s) d (a_pid s)
        (a_submitted s) (a_returned s) (a_raised s)
  | Get p => worker_get p s
  | Exec p c => worker_exec p c s
  | Flush p => worker_flush p s
  | Crash p => worker_crash p s
  end.
Definition run (s : st) (l : list act) : st := fold_left step l s.
End Calls.

(** Property theorems; proofs in Async_Main.v. *)
From Verif Require Import Base Async_Model Async_Spec.
Require Import Permutation ZArith.
Open Scope nat_scope.
From Verif Require Import Async_Main.

(** C38. Without a memory limit and with results the worker accepts, inside the context, whatever the
    order in which the processes run: no future is returned twice, only submitted
    futures are returned, and the submitted futures are exactly the returned ones, those in
    the queue, those in a worker and those finished but not collected. *)
Theorem C38_exactly_once : forall call n log d l,
  accepted call -> Forall (fun a => ~ is_crash a) l ->
  let s := run call (new_evaluator n None log d) (Enter :: l) in
  a_closed s = false ->
  NoDup (submitted s) /\ Permutation (submitted s) (returned s ++ queued s ++ in_workers s ++ finished s).
Proof. exact C38_exactly_once_main. Qed.
Print Assumptions C38_exactly_once.

Example C38_ex :
  let s := run ex_call (new_evaluator 2 None true []) (Enter :: ex_sched) in
  accepted ex_call /\ Forall (fun a => ~ is_crash a) ex_sched /\ a_closed s = false /\
  submitted s = [0; 1; 2] /\ returned s = [1] /\ queued s = [] /\ in_workers s = [2] /\ finished s = [0].
Proof. exact C38_ex_main. Qed.

(** C38. Delivery cannot be put off for ever: from any such state the workers can do only
    boundedly many steps that change anything, and when none of their steps does
    anything, every future that was not returned is finished. *)
Theorem C38_progress : forall call n log d l,
  accepted call -> Forall (fun a => ~ is_crash a) l -> 1 <= n ->
  let s := run call (new_evaluator n None log d) (Enter :: l) in
  a_closed s = false ->
  (forall ws, busy call s ws -> length ws <= 3 * (length (submitted s) - length (returned s))) /\
  ((forall a, is_worker_step a -> step call s a = s) -> Permutation (submitted s) (returned s ++ finished s)).
Proof. exact C38_progress_main. Qed.
Print Assumptions C38_progress.

Example C38_progress_ex :
  let s := run ex_call (new_evaluator 2 None true []) (Enter :: ex_sched) in
  busy ex_call s [Flush 2] /\ step ex_call s (Flush 2) <> s.
Proof. exact C38_progress_ex_main. Qed.

(** C38. A pending wait_next returns: in every such state in which it waits, the workers can run so that its
    next turn returns one of the futures it waits for. *)
Theorem C38_delivery : forall call n log d l,
  accepted call -> Forall (fun a => ~ is_crash a) l -> 1 <= n ->
  let s := run call (new_evaluator n None log d) (Enter :: l) in
  a_closed s = false -> a_waiting s = true -> ~ incl (submitted s) (returned s) ->
  exists ws, Forall is_worker_step ws /\ forall mem mem2 mem3, exists id o,
    In id (submitted s) /\ ~ In id (returned s) /\
    let s' := run call s (ws ++ [Turn mem mem2 mem3 true]) in
    a_returned s' = a_returned s ++ [(id, o)] /\ a_waiting s' = false.
Proof. exact C38_delivery_main. Qed.
Print Assumptions C38_delivery.

Example C38_delivery_ex :
  let s := run ex_call (new_evaluator 2 None true []) (Enter :: ex_sched) in
  a_waiting s = true /\ ~ incl (submitted s) (returned s).
Proof. exact C38_delivery_ex_main. Qed.

(** C39, where it fails: keyword arguments given to submit are overridden by the defaults of
    the evaluator. *)
Theorem C39_own_call_refuted : exists call d l i o j choice,
  let s := run call (new_evaluator 1 None false d) l in
  accepted call /\ In (i, o) (a_returned s) /\ In (i, j) (a_submitted s) /\
  (forall choice', ~ reported o (call (j_fn j) (j_args j) (j_kwargs j) choice')) /\
  o = call (j_fn j) (j_args j) d choice.
Proof. exact C39_own_call_refuted_main. Qed.
Print Assumptions C39_own_call_refuted.

(** C39. Under every schedule, with or without memory limits and crashes: a returned
    future carries the outcome of calling its own function with its own positional
    arguments and its own keywords, extended by defaults that were in
    force at some moment. A keyword has the submitted value unless these defaults have it too. *)
Theorem C39_own_call_partial : forall call n limit log d0 l i o,
  let s := run call (new_evaluator n limit log d0) l in
  In (i, o) (a_returned s) ->
  exists j d kw choice, In (i, j) (a_submitted s) /\ (d = d0 \/ In (Defaults d) l) /\
    reported o (call (j_fn j) (j_args j) kw choice) /\
    (forall k, kw_get k kw = match kw_get k d with Some v => Some v | None => kw_get k (j_kwargs j) end).
Proof. exact C39_own_call_partial_main. Qed.
Print Assumptions C39_own_call_partial.

(** C39, without defaults: the outcome of exactly its own call. *)
Theorem C39_own_call_no_defaults : forall call n limit log l i o,
  (forall d, In (Defaults d) l -> d = []) ->
  let s := run call (new_evaluator n limit log []) l in
  In (i, o) (a_returned s) ->
  exists j choice, In (i, j) (a_submitted s) /\ (forall j', In (i, j') (a_submitted s) -> j' = j) /\
    reported o (call (j_fn j) (j_args j) (j_kwargs j) choice).
Proof. exact C39_own_call_no_defaults_main. Qed.
Print Assumptions C39_own_call_no_defaults.

Example C39_ex :
  let s := run ex_call (new_evaluator 2 (Some 50) true []) (Enter :: ex_sched ++ [Flush 2; Turn (ex_mem 1) (ex_mem 1) (ex_mem 1) true; Wait; Turn (ex_mem 1) (ex_mem 1) (ex_mem 1) true]) in
  a_returned s = [(1, Exc 7); (0, Ret (VEval 5 NoError)); (2, Ret (VTuple [VEval 3 MemStr; VPlain 1]))] /\ a_raised s = [].
Proof. exact C39_ex_main. Qed.

(** C40. In every reachable state, whatever happened before: wait_next raises RuntimeError
    at once exactly when every submitted future was returned; otherwise it starts
    to wait, and while it waits it raises at most ValueError. *)
Theorem C40_wait_error : forall call n limit log d l,
  let s := run call (new_evaluator n limit log d) l in
  a_waiting s = false ->
  let s' := step call s Wait in
  (incl (submitted s) (returned s) -> a_raised s' = a_raised s ++ [RuntimeError] /\ a_waiting s' = false) /\
  (~ incl (submitted s) (returned s) -> a_raised s' = a_raised s /\ a_waiting s' = true).
Proof. exact C40_wait_error_main. Qed.
Print Assumptions C40_wait_error.

Theorem C40_waiting : forall call n limit log d l mem mem2 mem3 ready,
  let s := run call (new_evaluator n limit log d) l in
  let s' := step call s (Turn mem mem2 mem3 ready) in
  (a_raised s' = a_raised s \/ a_raised s' = a_raised s ++ [ValueError]) /\
  (inside s -> limit = None -> a_raised s' = a_raised s).
Proof. exact C40_waiting_main. Qed.
Print Assumptions C40_waiting.

Example C40_ex :
  let s := run ex_call (new_evaluator 1 None false []) [Enter; Submit (ex_job 0); Wait; Get 1; Exec 1 0; Flush 1; Turn (ex_mem 1) (ex_mem 1) (ex_mem 1) true] in
  a_waiting s = false /\ submitted s = [0] /\ returned s = [0] /\
  a_raised (step ex_call s Wait) = [RuntimeError] /\ a_waiting (run ex_call s [Submit (ex_job 1); Wait]) = true.
Proof. exact C40_ex_main. Qed.

(** C41, where it fails: when the memory limit is exceeded the worker that uses the most is
    stopped, and the future it was executing is never delivered, whatever happens
    afterwards, although a new worker runs in its place. *)
Theorem C41_no_loss_refuted : exists call n limit d l i,
  accepted call /\ Forall (fun a => ~ is_crash a) l /\ 1 <= n /\
  let s := run call (new_evaluator n (Some limit) false d) l in
  inside s /\ In i (submitted s) /\ a_live s <> [] /\ a_waiting s = true /\
  (forall l', ~ In i (returned (run call s l'))).
Proof. exact C41_no_loss_refuted_main. Qed.
Print Assumptions C41_no_loss_refuted.

(** C41, the part that holds: inside the context, every step of every process keeps each outstanding future outstanding or
    returns it, except those in a worker whose process ends in that step. *)
Theorem C41_no_loss_partial : forall call n limit log d l a i,
  let s := run call (new_evaluator n limit log d) l in
  let s' := step call s a in
  inside s -> a <> Exit -> In i (queued s ++ in_workers s ++ finished s) ->
  In i (queued s' ++ in_workers s' ++ finished s') \/ In i (returned s') \/
  exists w, In w (a_live s) /\ In i (held_by w) /\ ~ In (w_pid w) (map w_pid (a_live s')).
Proof. exact C41_no_loss_partial_main. Qed.
Print Assumptions C41_no_loss_partial.

(** C41, which worker is stopped: while wait_next waits, a worker process ends only when the memory limit is exceeded, it uses the most, and
    it is the only one; *)
Theorem C41_only_largest : forall call n limit log d l mem mem2 mem3 ready w,
  let s := run call (new_evaluator n limit log d) l in
  let s' := step call s (Turn mem mem2 mem3 ready) in
  In w (a_live s) -> ~ In (w_pid w) (map w_pid (a_live s')) ->
  (exists L, limit = Some L /\ L < reading mem 0 + list_sum (map (reading mem) (a_procs s))) /\
  (forall p, In p (a_procs s) -> reading mem p <= reading mem (w_pid w)) /\
  (forall w', In w' (a_live s) -> ~ In (w_pid w') (map w_pid (a_live s')) -> w_pid w' = w_pid w).
Proof. exact C41_only_largest_main. Qed.
Print Assumptions C41_only_largest.

(** and when the limit is exceeded and all workers run, one is stopped. *)
Theorem C41_exceeded : forall call n L log d l mem mem2 mem3 ready,
  let s := run call (new_evaluator n (Some L) log d) l in
  let s' := step call s (Turn mem mem2 mem3 ready) in
  1 <= n -> inside s -> a_waiting s = true -> incl (a_procs s) (map w_pid (a_live s)) ->
  L < reading mem 0 + list_sum (map (reading mem) (a_procs s)) ->
  exists w, In w (a_live s) /\ ~ In (w_pid w) (map w_pid (a_live s')).
Proof. exact C41_exceeded_main. Qed.
Print Assumptions C41_exceeded.

Example C41_exceeded_ex :
  let s := run ex_call (new_evaluator 2 (Some 10) true []) (Enter :: [Submit (ex_job 0); Submit (ex_job 1); Submit (ex_job 1); Wait; Get 1; Get 2; Exec 2 0; Flush 2]) in
  let mem := fun p => Some (10 * (2 - p)) in
  let s' := step ex_call s (Turn mem (ex_mem 1) (ex_mem 1) false) in
  inside s /\ a_waiting s = true /\ a_procs s = [1; 2] /\ map w_pid (a_live s) = [1; 2] /\
  reading mem 0 + list_sum (map (reading mem) (a_procs s)) = 30 /\ map w_pid (a_live s') = [2].
Proof. exact C41_exceeded_ex_main. Qed.

Example C41_ex :
  let s := run ex_call (new_evaluator 2 (Some 10) true []) (Enter :: [Submit (ex_job 0); Submit (ex_job 1); Submit (ex_job 1); Wait; Get 1; Get 2; Exec 2 0; Flush 2]) in
  let s' := step ex_call s (Turn (fun p => Some (10 * (2 - p))) (ex_mem 1) (ex_mem 1) false) in
  inside s /\ queued s = [2] /\ in_workers s = [0] /\ finished s = [1] /\
  queued s' = [2] /\ in_workers s' = [] /\ finished s' = [1] /\ map w_pid (a_live s') = [2].
Proof. exact C41_ex_main. Qed.

(** C42, where it fails: a result that is true but has no field [error] (or whose truth value cannot be
    determined, like an array) ends the worker; its future is never delivered. *)
Theorem C42_any_result_refuted : forall v, (exists m, v = VPlain m \/ v = VAmbiguous m) ->
  exists call l i,
  let s := run call (new_evaluator 1 None false []) l in
  (forall fn args kw choice, call fn args kw choice = Ret v) /\ Forall (fun a => ~ is_crash a) l /\
  inside s /\ In i (submitted s) /\ a_live s = [] /\
  (forall l', ~ In i (returned (run call s l'))).
Proof. exact C42_any_result_refuted_main. Qed.
Print Assumptions C42_any_result_refuted.

(** C42, the results that are delivered: when a worker executes a job, its outcome is on its way to the user exactly
    when it is of the accepted kinds; any other outcome is never delivered. *)
Theorem C42_any_result_partial : forall call n limit log d l w i j choice,
  let s := run call (new_evaluator n limit log d) l in
  In w (a_live s) -> w_run w = Some (i, j) ->
  let o := call (j_fn j) (j_args j) (kw_merge (j_kwargs j) (w_defaults w)) choice in
  let s' := step call s (Exec (w_pid w) choice) in
  (good o -> exists w' o', In w' (a_live s') /\ w_pid w' = w_pid w /\ In (i, o') (w_out w') /\ reported o' o) /\
  (~ good o -> ~ In (w_pid w) (map w_pid (a_live s')) /\ forall l', ~ In i (returned (run call s' l'))).
Proof. exact C42_any_result_partial_main. Qed.
Print Assumptions C42_any_result_partial.

Example C42_ex :
  let s := run ex_call (new_evaluator 2 None true []) (Enter :: [Submit (ex_job 2); Get 1]) in
  exists w, In w (a_live s) /\ w_run w = Some (0, ex_job 2) /\ good (ex_call 2 [1] [("k"%string, 5)] 0) /\ ~ good (Ret (VPlain 4)).
Proof. exact C42_ex_main. Qed.

(** C43. The number of worker processes: inside the context between 1 and the number the evaluator was made for,
    outside 0, under every schedule and all memory readings. *)
Theorem C43_pool_size : forall call n limit log d l,
  let s := run call (new_evaluator n limit log d) l in
  1 <= n ->
  (inside s -> 1 <= length (a_procs s) <= n) /\ (~ inside s -> a_procs s = []) /\
  incl (map w_pid (a_live s)) (a_procs s) /\ NoDup (a_procs s).
Proof. exact C43_pool_size_main. Qed.
Print Assumptions C43_pool_size.

(** C43. Entering a second time raises RuntimeError and changes nothing else, also after the evaluator was closed. *)
Theorem C43_enter_twice : forall call n limit log d l1,
  let s := run call (new_evaluator n limit log d) (Enter :: l1) in
  a_waiting s = false ->
  let s' := step call s Enter in
  a_raised s' = a_raised s ++ [RuntimeError] /\ a_procs s' = a_procs s /\ a_live s' = a_live s /\
  a_input s' = a_input s /\ a_output s' = a_output s /\ a_futures s' = a_futures s.
Proof. exact C43_enter_twice_main. Qed.
Print Assumptions C43_enter_twice.

(** C43. After it was closed: no worker runs, nothing is returned any more, submit raises ValueError, and wait_next, if it waits
    for anything, raises ValueError instead of waiting for ever. *)
Theorem C43_closed : forall call n limit log d l l',
  let s := run call (new_evaluator n limit log d) l in
  let s' := run call s l' in
  a_closed s = true ->
  a_closed s' = true /\ a_live s' = [] /\ a_returned s' = a_returned s /\
  (forall j, a_waiting s' = false -> a_raised (step call s' (Submit j)) = a_raised s' ++ [ValueError]) /\
  (forall mem mem2 mem3 ready, a_waiting s' = true ->
     a_raised (step call s' (Turn mem mem2 mem3 ready)) = a_raised s' ++ [ValueError] /\
     a_waiting (step call s' (Turn mem mem2 mem3 ready)) = false).
Proof. exact C43_closed_main. Qed.
Print Assumptions C43_closed.

Example C43_closed_ex :
  let s := run ex_call (new_evaluator 2 (Some 10) true []) (Enter :: ex_sched ++ [Interrupt; Exit]) in
  let s' := run ex_call s [Submit (ex_job 0); Wait] in
  a_closed s = true /\ returned s = [1] /\ a_raised s' = [ValueError] /\ a_waiting s' = true /\ length (submitted s') = 4.
Proof. exact C43_closed_ex_main. Qed.

Example C43_ex :
  let s := run ex_call (new_evaluator 3 (Some 10) false []) [Enter; Submit (ex_job 0); Wait; Turn (ex_mem 100) (ex_mem 1) (ex_mem 1) true; Turn (ex_mem 100) (ex_mem 1) (ex_mem 1) true;
    Turn (ex_mem 100) (ex_mem 1) (ex_mem 1) true; Interrupt] in
  inside s /\ a_waiting s = false /\ a_procs s = [4] /\ a_procs (step ex_call s Exit) = [] /\
  a_raised (run ex_call s [Exit; Enter]) = [RuntimeError].
Proof. exact C43_ex_main. Qed.

(** C44. Without memory limit (so that no worker is stopped), job_queue_size is the number of outstanding futures minus the number of workers, at every
    moment before the evaluator is closed. *)
Theorem C44_queue_size : forall call n log d l,
  let s := run call (new_evaluator n None log d) l in
  a_closed s = false ->
  a_size s = (Z.of_nat (length (submitted s)) - Z.of_nat (length (returned s)) - Z.of_nat n)%Z.
Proof. exact C44_queue_size_main. Qed.
Print Assumptions C44_queue_size.

Example C44_ex :
  let s := run ex_call (new_evaluator 2 None true []) (Enter :: ex_sched) in a_closed s = false /\ a_size s = 0%Z /\ length (submitted s) = 3.
Proof. exact C44_ex_main. Qed.

(** C44, with a memory limit: every time the limit is exceeded job_queue_size is lowered
    by one more, for the evaluation that was stopped. *)
Theorem C44_stopped : forall call n limit log d l,
  let s := run call (new_evaluator n limit log d) l in
  let t := tallied call n limit log d l in
  a_closed s = false -> ~ In ValueError (a_raised s) ->
  a_size s = (Z.of_nat (length (submitted s)) - Z.of_nat (length (returned s)) - Z.of_nat n - Z.of_nat (t_all t))%Z.
Proof. exact C44_stopped_main. Qed.
Print Assumptions C44_stopped.

Example C44_stopped_ex :
  let l := [Enter; Submit (ex_job 0); Submit (ex_job 1); Wait; Get 1; Turn (ex_mem 100) (ex_mem 1) (ex_mem 1) true] in
  let s := run ex_call (new_evaluator 3 (Some 10) true []) l in
  a_closed s = false /\ a_raised s = [] /\ t_all (tallied ex_call 3 (Some 10) true [] l) = 1 /\ a_size s = (-2)%Z.
Proof. exact C44_stopped_ex_main. Qed.

(** C130. What happens when the memory limit is exceeded while wait_next waits: if the
    limit was exceeded in at least one of twenty evaluations since the pool last became
    smaller (those returned and those stopped), and there is more than one worker,
    the pool becomes smaller by one; otherwise the worker is replaced. While the limit
    is not exceeded the pool keeps its size. *)
Theorem C130_policy : forall call n limit log d l mem mem2 mem3 ready,
  let s := run call (new_evaluator n limit log d) l in
  let t := tallied call n limit log d l in
  let s' := step call s (Turn mem mem2 mem3 ready) in
  let exceeded := S (t_over t) in
  a_waiting s = true -> ~ In ValueError (a_raised s') ->
  (exceeds mem s = false -> length (a_procs s') = length (a_procs s)) /\
  (exceeds mem s = true -> 1 < length (a_procs s) -> exceeded + t_done t <= 20 * exceeded -> S (length (a_procs s')) = length (a_procs s)) /\
  (exceeds mem s = true -> (length (a_procs s) = 1 \/ 20 * exceeded < exceeded + t_done t) -> length (a_procs s') = length (a_procs s)).
Proof. exact C130_policy_main. Qed.
Print Assumptions C130_policy.

(** Nothing else changes the size of the pool between entering and leaving: not
    submitting, and not the ends of workers. *)
Theorem C130_only_then : forall call n limit log d l a,
  let s := run call (new_evaluator n limit log d) l in
  a <> Enter -> a <> Exit -> (forall mem mem2 mem3 ready, a <> Turn mem mem2 mem3 ready) ->
  length (a_procs (step call s a)) = length (a_procs s).
Proof. exact C130_only_then_main. Qed.
Print Assumptions C130_only_then.

Example C130_ex :
  let over := Turn (ex_mem 100) (ex_mem 1) (ex_mem 1) false in
  let l k := Enter :: ex_rounds k ++ [Submit (ex_job 0); Wait] in
  let s k := run ex_call (new_evaluator 2 (Some 10) true []) (l k) in
  let t k := tallied ex_call 2 (Some 10) true [] (l k) in
  a_waiting (s 20) = true /\ t (20) = mkTally 0 20 0 /\ exceeds (ex_mem 100) (s 20) = true /\
  a_procs (step ex_call (s 20) over) = [2; 3] /\ a_procs (run ex_call (s 20) [over; over]) = [3] /\
  a_raised (run ex_call (s 20) [over; over]) = [] /\
  t 19 = mkTally 0 19 0 /\ a_procs (step ex_call (s 19) over) = [2].
Proof. exact C130_ex_main. Qed.

(** The three searches on pipelines, on top of the evaluator with its worker processes:
    the code of [Evo_Model.v] and [Rnd_Model.v] (async_ea.py, random_search.py, asha.py), in
    which submit, job_queue_size and wait_next are those of [Async_Model.v]
    (async_evaluator.py:172-235); and fit with the best pipeline ([End_Model.v]) after them.

    [Sys_Model.v] does the same for individuals without pipelines.  As in [Evo_Model.v] the
    search stops only while it waits for a result (when nothing more is said about what
    the worker processes do); callbacks that raise are not modelled here. *)
Require Import ZArith.
From Verif Require Import Base Num Gp_Model Eval_Model Evo_Model Rnd_Model End_Model.
From Verif Require Async_Model Sys_Model.
Open Scope nat_scope.
Open Scope list_scope.

(** The evaluator; what was submitted to it, in order; what the environment does from now
    on ([Sys_Model.turn]). *)
Record pool (J : Type) := mkPool { p_s : Async_Model.st; p_jobs : list J; p_plan : list Sys_Model.turn }.
Arguments mkPool {J}. Arguments p_s {J}. Arguments p_jobs {J}. Arguments p_plan {J}.

(** Code of a search with its own state [T] and this evaluator. *)
Definition MP (T J A : Type) := T * pool J -> res A * (T * pool J).
Definition pret {T J A} (a : A) : MP T J A := fun y => (Ok a, y).
Definition praise {T J A} (e : exn) : MP T J A := fun y => (Err e, y).
Definition pbind {T J A B} (m : MP T J A) (f : A -> MP T J B) : MP T J B :=
  fun y => match m y with (Ok a, y') => f a y' | (Err e, y') => (Err e, y') end.
Notation "x <# m ;; k" := (pbind m (fun x => k)) (at level 61, m at next level, right associativity).
Notation "m ;;# k" := (pbind m (fun _ => k)) (at level 61, right associativity).
(** Code that does not use the evaluator. *)
Definition own {T J A} (m : T -> res A * T) : MP T J A := fun y => let (x, w) := m (fst y) in (x, (w, snd y)).

Section Proc.
(** [call], [scores]: as in [Sys_Model.v]. *)
Context (call : nat -> list nat -> Async_Model.kwargs -> nat -> Async_Model.outcome) (scores : nat -> list num).

(** What the main process sees of a result (compare [Sys_Model.outcome_of]). *)
Definition outcome_of (o : Async_Model.outcome) : outcome :=
  match o with
  | Async_Model.Ret (Async_Model.VEval n Async_Model.NoError) => Evaluated (scores n) false
  | Async_Model.Ret (Async_Model.VEval n _) => Evaluated (scores n) true
  | _ => Raised
  end.

(** AsyncEvaluator.submit, async_evaluator.py:172-194; the workers go on meanwhile. *)
Definition pool_submit {J} (j : J) (p : pool J) : pool J :=
  let s := Sys_Model.workers_do call (match p_plan p with [] => [] | t :: _ => Sys_Model.t_acts t end) (p_s p) in
  mkPool (Async_Model.step call s (Async_Model.Submit (Sys_Model.future (length (p_jobs p))))) (p_jobs p ++ [j]) (tl (p_plan p)).
(** AsyncEvaluator.wait_next, async_evaluator.py:196-235: the number of the job, and its
    outcome.  [Diverges]: the loop did not end. *)
Definition pool_wait {J} (p : pool J) : res (nat * Async_Model.outcome) * pool J :=
  let s0 := Async_Model.step call (p_s p) Async_Model.Wait in
  match Sys_Model.raised_by (p_s p) s0 with
  | Some e => (Err e, mkPool s0 (p_jobs p) (p_plan p))
  | None =>
    let (s1, plan) := Sys_Model.turns call (p_plan p) s0 in
    let p' := mkPool s1 (p_jobs p) plan in
    if Async_Model.a_waiting s1 then (Err Diverges, p')
    else match Sys_Model.raised_by s0 s1, rev (Async_Model.a_returned s1) with
         | Some e, _ => (Err e, p')
         | None, x :: _ => (Ok x, p')
         | None, [] => (Err KeyError, p')
         end
  end.
(** job_queue_size, async_evaluator.py:113. *)
Definition p_size {T J} : MP T J Z := fun y => (Ok (Async_Model.a_size (p_s (snd y))), y).
(** [with AsyncEvaluator() as async_] (async_evaluator.py:122-164), see
    [Sys_Model.within_context]; without memory limit (gama.py:245-250 with
    max_memory_mb = None). *)
Definition with_evaluator {T J A} (n : nat) (log : bool) (defaults : Async_Model.kwargs) (m : MP T J A) : MP T J A := fun y =>
  let s := Async_Model.step call (Async_Model.new_evaluator n None log defaults) Async_Model.Enter in
  let (x, y') := m (fst y, mkPool s [] (p_plan (snd y))) in
  (x, (fst y', mkPool (Async_Model.step call (p_s (snd y')) Async_Model.Exit) (p_jobs (snd y')) (p_plan (snd y')))).

(** * async_ea, async_ea.py:75-152 *)
Definition P := MP evo individual.
Definition p_submit (i : individual) : P unit := fun y =>
  let (w, p) := y in
  (Ok tt, (mkEvo (v_st w) (v_pop w) (v_jobs w) (v_saved w) (v_trace w ++ [Submitted i]), pool_submit i p)).
Fixpoint p_submit_all (l : list individual) : P unit :=
  match l with
  | [] => pret tt
  | i :: l' => p_submit i ;;# p_submit_all l'
  end.
(** OperatorSet.wait_next, operator_set.py:43-50: the job [j] ended with [o]. *)
Definition collect (j : individual) (o : outcome) : ME (individual * outcome) :=
  match o with
  | Raised => note (Collected j Raised) ;;~ eret (j, Raised)
  | o => i <~ gp (unpickle j) ;; note (Collected i o) ;;~ save i ;;~ eret (i, o)
  end.
Definition p_wait_next : P (individual * outcome) := fun y =>
  let (w, p) := y in
  match pool_wait p with
  | (Err e, p') => (Err e, (w, p'))
  | (Ok (k, r), p') =>
    match nth_error (p_jobs p') k with
    | None => (Err KeyError, (w, p'))
    | Some j => own (collect j (outcome_of r)) (w, p')
    end
  end.

Section EA.
Context (ps : pset) (max_length : option Z) (max_retry pop_size : nat) (max_n : option Z) (restart : bool).
Definition saved : ME (list string) := fun w => (Ok (v_saved w), w).
(** async_ea.py:135-143. *)
Definition p_refill : P unit :=
  q <# p_size ;;
  if (q <=? 1)%Z then
    done <# own saved ;; pop <# own population ;;
    i <# own (gp (create_one ps max_length max_retry done pop)) ;; own (note (Bred i pop)) ;;# p_submit i
  else pret tt.
(** async_ea.py:119-123. *)
Definition p_begin (l : list individual) : P unit := own (set_population []) ;;# p_submit_all l.
(** async_ea.py:125-150. *)
Definition p_turn : P unit :=
  x <# p_wait_next ;;
  (match x with
   | (i, Evaluated scores false) => own (add_to_population pop_size (mkMem i scores))
   | _ => pret tt
   end) ;;#
  p_refill ;;#
  b <# (if restart then own (gp (mrandom (fun r => let (b, r') := rcoin r in (Ok b, r')))) else pret false) ;;
  if b then own (note Restarted) ;;# l <# own (individuals ps max_length pop_size) ;; p_begin l else pret tt.
Fixpoint p_turns (fuel n : nat) : P unit :=
  if below max_n n then
    match fuel with
    | O => praise Diverges
    | S f => p_turn ;;# p_turns f (S n)
    end
  else pret tt.
(** Every turn of the loop uses up a turn of the environment, so the fuel suffices. *)
Definition p_async_ea (n : nat) (log : bool) (defaults : Async_Model.kwargs) (start : list individual) : P unit := fun y =>
  if match max_n with Some m => (m <=? 0)%Z | None => false end then (Err ValueError, y)
  else with_evaluator n log defaults (p_begin start ;;# p_turns (S (length (p_plan (snd y)))) 0) y.
(** Gama._search_phase, gama.py:622-661. *)
Definition p_search (n : nat) (log : bool) (defaults : Async_Model.kwargs) (warm_start : list individual) : P unit :=
  match warm_start with
  | [] => l <# own (individuals ps max_length 50) ;; p_async_ea n log defaults l
  | _ => p_async_ea n log defaults warm_start
  end.
End EA.

(** * random_search, random_search.py:31-68 *)
Definition Q := MP hst (individual * nat).
Definition q_submit (i : individual) (r : nat) : Q unit := fun y =>
  let (w, p) := y in
  (Ok tt, (mkH (q_st w) (q_jobs w) (q_start w) (q_rungs w) (q_out w) (q_trace w ++ [Started i r]), pool_submit (i, r) p)).
Fixpoint q_submit_each (l : list individual) : Q unit :=
  match l with
  | [] => pret tt
  | i :: l' => q_submit i 0 ;;# q_submit_each l'
  end.
Definition hcollect (j : individual * nat) (o : outcome) : MH (individual * nat * outcome) :=
  match o with
  | Raised => hnote (Finished (fst j) (snd j) Raised) ;;+ hret (fst j, snd j, Raised)
  | o => i <+ hgp (unpickle (fst j)) ;; hnote (Finished i (snd j) o) ;;+ hret (i, snd j, o)
  end.
Definition q_wait_next : Q (individual * nat * outcome) := fun y =>
  let (w, p) := y in
  match pool_wait p with
  | (Err e, p') => (Err e, (w, p'))
  | (Ok (k, r), p') =>
    match nth_error (p_jobs p') k with
    | None => (Err KeyError, (w, p'))
    | Some j => own (hcollect j (outcome_of r)) (w, p')
    end
  end.
Section RS.
Context (ps : pset) (max_length : option Z).
Definition outputs : MH (list member) := fun w => (Ok (q_out w), w).
(** random_search.py:61-66. *)
Fixpoint q_rs_turns (max_n : option Z) (fuel : nat) : Q unit :=
  l <# own outputs ;;
  if below max_n (length l) then
    match fuel with
    | O => praise Diverges
    | S f =>
      x <# q_wait_next ;;
      (match x with (i, _, Evaluated scores _) => own (append_output (mkMem i scores)) | _ => pret tt end) ;;#
      i <# own (hgp (op_individual ps max_length)) ;; q_submit i 0 ;;# q_rs_turns max_n f
    end
  else pret tt.
Definition q_random_search (max_n : option Z) (n : nat) (log : bool) (defaults : Async_Model.kwargs) (start : list individual) : Q unit := fun y =>
  with_evaluator n log defaults (q_submit_each start ;;# q_rs_turns max_n (S (length (p_plan (snd y))))) y.
(** gama.py:622-661. *)
Definition q_rs_phase (max_n : option Z) (n : nat) (log : bool) (defaults : Async_Model.kwargs) (warm_start : list individual) : Q unit :=
  l <# own (candidates ps max_length warm_start) ;; q_random_search max_n n log defaults l.

(** * asha, asha.py:125-198 *)
Context (eta first_rung : nat) (max_rung : Z).
(** asha.py:172-181. *)
Definition q_start_new_job : Q unit :=
  j <# own (get_job ps max_length eta first_rung) ;;
  if existsb (Nat.eqb (snd j)) (rung_numbers first_rung max_rung) then q_submit (fst j) (snd j) else praise KeyError.
Fixpoint q_start_jobs (k : nat) : Q unit :=
  match k with O => pret tt | S k' => q_start_new_job ;;# q_start_jobs k' end.
(** asha.py:186-196. *)
Fixpoint q_asha_turns (max_full : option Z) (fuel : nat) : Q unit :=
  all <# own get_rungs ;;
  match top_below max_rung max_full all with
  | Err e => praise e
  | Ok false => pret tt
  | Ok true =>
    match fuel with
    | O => praise Diverges
    | S f => x <# q_wait_next ;; own (record_result x) ;;# q_start_new_job ;;# q_asha_turns max_full f
    end
  end.
Definition set_start (l : list individual) : MH unit := fun w =>
  (Ok tt, mkH (q_st w) (q_jobs w) l (q_rungs w) (q_out w) (q_trace w)).
Definition q_asha (max_full : option Z) (n : nat) (log : bool) (defaults : Async_Model.kwargs) : Q unit := fun y =>
  (own (set_rungs (empty_rungs first_rung max_rung)) ;;#
   with_evaluator n log defaults (q_start_jobs 8 ;;# q_asha_turns max_full (S (length (p_plan (snd y)))))) y.
Definition q_asha_phase (max_full : option Z) (n : nat) (log : bool) (defaults : Async_Model.kwargs) (warm_start : list individual) : Q unit :=
  l <# own (candidates ps max_length warm_start) ;; own (set_start l) ;;# q_asha max_full n log defaults.
End RS.

(** * fit with BestFitPostProcessing, see [End_Model.v] *)
Section Fit.
Context {E : Type} (build : nat -> list (string * value) -> res E) (fixed : list (string * E)).
Context (ps : pset) (max_length : option Z) (n : nat) (log : bool) (defaults : Async_Model.kwargs).
Definition fit_random_p (max_n : option Z) (warm_start : list individual) : Q (list (string * E)) := fun y =>
  let (x, y1) := q_rs_phase ps max_length max_n n log defaults warm_start y in
  match search_over x with
  | Err e => (Err e, y1)
  | Ok _ => own (hgp (best_model build fixed (q_out (fst y1)))) y1
  end.
Definition fit_evo_p (max_retry pop_size : nat) (max_n : option Z) (restart : bool) (warm_start : list individual) : P (list (string * E)) := fun y =>
  let (x, y1) := p_search ps max_length max_retry pop_size max_n restart n log defaults warm_start y in
  match search_over x with
  | Err e => (Err e, y1)
  | Ok _ => own (gp (best_model build fixed (v_pop (fst y1)))) y1
  end.
Definition fit_asha_p (eta first_rung : nat) (max_rung : Z) (max_full : option Z) (warm_start : list individual) : Q (list (string * E)) :=
  l <# own (candidates ps max_length warm_start) ;;
  own (set_start l) ;;#
  fun y =>
    let (x, y1) := q_asha ps max_length eta first_rung max_rung max_full n log defaults y in
    match asha_output x (q_rungs (fst y1)) with
    | Err e => (Err e, y1)
    | Ok pop => own (hgp (best_model build fixed pop)) y1
    end.
End Fit.
End Proc.

(** A process with these objects, random numbers and ids (and the texts evaluated by earlier fits); what
    the worker processes will do. *)
Definition idle {J} (plan : list Sys_Model.turn) : pool J := mkPool (Async_Model.new_evaluator 0 None true []) [] plan.
Definition before_search (s : setting) (plan : list Sys_Model.turn) : evo * pool individual := (fresh_search s, idle plan).
Definition before_h (s : st) (plan : list Sys_Model.turn) : hst * pool (individual * nat) := (fresh_h s, idle plan).

(** The search methods on top of the evaluator with its processes: the code of
    [Search_Model.v] (async_ea.py, random_search.py, asha.py), in which submit,
    job_queue_size and wait_next are those of [Async_Model.v]
    (async_evaluator.py:172-235), with worker processes that take jobs, execute them,
    hand over results and die in any order. *)
Require Import ZArith QArith.
From Verif Require Import Base Num Nsga_Model Par_Model Search_Model.
From Verif Require Async_Model.
Open Scope nat_scope.

(** What the environment does before the main process goes once round the loop of
    wait_next (async_evaluator.py:217-235), or before a job is submitted: steps of the
    workers; then what psutil reports, and whether the queue of results shows one. *)
Record turn := mkTurn {
  t_acts : list Async_Model.act;
  t_mem : nat -> option nat; t_mem2 : nat -> option nat; t_mem3 : nat -> option nat; t_ready : bool }.
(** Only steps of the workers: the main process is in the search method. *)
Definition by_worker (a : Async_Model.act) : bool :=
  match a with
  | Async_Model.Get _ | Async_Model.Exec _ _ | Async_Model.Flush _ | Async_Model.Crash _ => true
  | _ => false
  end.

(** The state: the search method's own ([y_w], whose jobs and events are not used),
    the evaluator's, what was submitted, what the environment does from now on, and what
    the calls of evaluate_callback raise from now on. *)
Record sys := mkSys {
  y_w : world; y_s : Async_Model.st; y_jobs : list job; y_plan : list turn; y_calls : list (option exn) }.
Definition MS (A : Type) := sys -> res A * sys.
Definition sret {A} (a : A) : MS A := fun y => (Ok a, y).
Definition sfail {A} (e : exn) : MS A := fun y => (Err e, y).
Definition sbind {A B} (m : MS A) (f : A -> MS B) : MS B :=
  fun y => match m y with (Ok a, y') => f a y' | (Err e, y') => (Err e, y') end.
Notation "x <~ m ;;; k" := (sbind m (fun x => k)) (at level 61, m at next level, right associativity).
Notation "m ;;; k" := (sbind m (fun _ => k)) (at level 61, right associativity).
(** Code that does not use the evaluator: as in [Search_Model.v]. *)
Definition own {A} (m : M A) : MS A := fun y =>
  let (x, w) := m (y_w y) in (x, mkSys w (y_s y) (y_jobs y) (y_plan y) (y_calls y)).
Definition trace_add (t : item) (w : world) : world :=
  mkW (w_lists w) (w_jobs w) (w_n w) (w_events w) (w_rng w) (w_uid w) (w_stop w) (w_rungs w) (w_trace w ++ [t]).

Section Sys.
(** [call]: what executing a job does (see [Async_Model.v]).  [scores n]: the scores in
    the Evaluation number [n]. *)
Context (call : nat -> list nat -> Async_Model.kwargs -> nat -> Async_Model.outcome) (scores : nat -> list num).

(** The future with number [k]: its argument stands for whatever was submitted. *)
Definition future (k : nat) : Async_Model.job := Async_Model.mkJob 0 [k] [].
(** What the main process sees of a result: evaluate and evaluate_on_rung
    (asha.py:210-221) return an Evaluation or raise an exception.  Simplification: nothing else is returned. *)
Definition outcome_of (o : Async_Model.outcome) : outcome :=
  match o with
  | Async_Model.Ret (Async_Model.VEval n Async_Model.NoError) => Evaluated (scores n) false
  | Async_Model.Ret (Async_Model.VEval n _) => Evaluated (scores n) true
  | _ => Raised
  end.

Definition workers_do (l : list Async_Model.act) (s : Async_Model.st) : Async_Model.st :=
  Async_Model.run call s (filter by_worker l).
(** AsyncEvaluator.submit, async_evaluator.py:172-194. *)
Definition s_submit (i : ind) (r : option nat) (resource : option Q) : MS unit := fun y =>
  let s := workers_do (match y_plan y with [] => [] | t :: _ => t_acts t end) (y_s y) in
  (Ok tt, mkSys (trace_add (TSubmit i r resource) (y_w y))
            (Async_Model.step call s (Async_Model.Submit (future (length (y_jobs y))))) (y_jobs y ++ [mkJob i r])
            (tl (y_plan y)) (y_calls y)).
(** job_queue_size, async_evaluator.py:113. *)
Definition s_queue_size : MS Z := fun y => (Ok (Async_Model.a_size (y_s y)), y).
(** The loop of wait_next; it may go on for as long as the environment is described. *)
Fixpoint turns (plan : list turn) (s : Async_Model.st) : Async_Model.st * list turn :=
  match plan with
  | [] => (s, [])
  | t :: plan' =>
    let s' := Async_Model.step call (workers_do (t_acts t) s) (Async_Model.Turn (t_mem t) (t_mem2 t) (t_mem3 t) (t_ready t)) in
    if Async_Model.a_waiting s' then turns plan' s' else (s', plan')
  end.
(** Did a call of the evaluator raise an exception? *)
Definition raised_by (s s' : Async_Model.st) : option exn :=
  if length (Async_Model.a_raised s) <? length (Async_Model.a_raised s')
  then Some (last (Async_Model.a_raised s') RuntimeError) else None.
(** OperatorSet.wait_next, operator_set.py:43-50, with AsyncEvaluator.wait_next,
    async_evaluator.py:196-235.  [Diverges]: the loop did not end. *)
Definition s_wait_next : MS (ind * option nat * outcome) := fun y =>
  let s0 := Async_Model.step call (y_s y) Async_Model.Wait in
  match raised_by (y_s y) s0 with
  | Some e => (Err e, mkSys (y_w y) s0 (y_jobs y) (y_plan y) (y_calls y))
  | None =>
    let (s1, plan) := turns (y_plan y) s0 in
    if Async_Model.a_waiting s1 then (Err Diverges, mkSys (y_w y) s1 (y_jobs y) plan (y_calls y))
    else
      match raised_by s0 s1, rev (Async_Model.a_returned s1) with
      | Some e, _ => (Err e, mkSys (y_w y) s1 (y_jobs y) plan (y_calls y))
      | None, (k, res) :: _ =>
        let j := nth k (y_jobs y) (mkJob (mkI 0 None None) None) in
        let o := outcome_of res in
        let i := result_ind j o in
        let w := trace_add (TDone i (j_rung j) o) (y_w y) in
        match o, y_calls y with
        | Evaluated _ _, Some e :: calls => (Err e, mkSys w s1 (y_jobs y) plan calls)
        | Evaluated _ _, None :: calls => (Ok (i, j_rung j, o), mkSys w s1 (y_jobs y) plan calls)
        | _, _ => (Ok (i, j_rung j, o), mkSys w s1 (y_jobs y) plan (y_calls y))
        end
      | None, [] => (Err KeyError, mkSys (y_w y) s1 (y_jobs y) plan (y_calls y))
      end
  end.

(** * async_ea, async_ea.py:75-152 (compare [Search_Model.ea_loop]). *)
Fixpoint s_submit_all (l : list ind) : MS unit :=
  match l with
  | [] => sret tt
  | i :: l' => own tick ;;; s_submit i None None ;;; s_submit_all l'
  end.
(** async_ea.py:135-143. *)
Definition s_refill (o : ops) (out : nat) : MS unit :=
  q <~ s_queue_size ;;;
  if (q <=? 1)%Z then
    own tick ;;; pop <~ own (read out) ;;; k <~ own (random (o_create o pop 1)) ;;;
    match k with
    | O => sfail IndexError
    | S _ => i <~ own fresh ;;; own tick ;;; s_submit i None None
    end
  else sret tt.
Section EA.
Context (o : ops) (out : nat) (restart : bool) (max_n : option Z) (pop_size : nat).
Fixpoint s_ea_loop (fuel : nat) (phase : option source) (n : nat) : MS unit :=
  match fuel with
  | O => sfail Diverges
  | S f =>
    match phase with
    | Some src =>
      own tick ;;; own (write out []) ;;;
      l <~ match src with Given a => own (read a) | New l => sret l end ;;;
      s_submit_all l ;;; s_ea_loop f None n
    | None =>
      if below max_n n then
        own tick ;;; pop <~ own (read out) ;;; own (note (TWait pop)) ;;; x <~ s_wait_next ;;;
        match x with
        | (i, _, Evaluated _ false) => own (add_to_population o out pop_size i)
        | _ => sret tt
        end ;;;
        s_refill o out ;;;
        own tick ;;; b <~ own (restart_now restart) ;;; own tick ;;;
        if b then
          own (note TRestart) ;;; l <~ own (individuals o pop_size) ;;; s_ea_loop f (Some (New l)) (S n)
        else s_ea_loop f None (S n)
      else sret tt
    end
  end.
End EA.

(** [with AsyncEvaluator() as async_] (async_evaluator.py:122-164): a new evaluator, with
    the class defaults of gama.py:245-250 and gama.py:643, entered and left. *)
Definition within_context {A} (n : nat) (limit : option nat) (log : bool) (defaults : Async_Model.kwargs) (m : MS A) : MS A := fun y =>
  let s := Async_Model.step call (Async_Model.new_evaluator n limit log defaults) Async_Model.Enter in
  let (x, y') := m (mkSys (y_w y) s [] (y_plan y) (y_calls y)) in
  (x, mkSys (y_w y') (Async_Model.step call (y_s y') Async_Model.Exit) (y_jobs y') (y_plan y') (y_calls y')).
Context (n : nat) (limit : option nat) (log : bool) (defaults : Async_Model.kwargs).
(** Every turn of the inner loop uses up a turn of the environment, so the fuel suffices. *)
Definition s_async_ea (o : ops) (out : nat) (restart : bool) (max_n : option Z) (pop_size start : nat) : MS nat := fun y =>
  let go := within_context n limit log defaults
              (s_ea_loop o out restart max_n pop_size (2 * length (y_plan y) + 3) (Some (Given start)) 0 ;;; sret out) in
  match max_n with
  | Some m => if (m <=? 0)%Z then (Err ValueError, y) else go y
  | None => go y
  end.

(** * random_search, random_search.py:31-68. *)
Fixpoint s_rs_loop (o : ops) (out : nat) (max_n : option Z) (fuel : nat) : MS unit :=
  match fuel with
  | O => sfail Diverges
  | S f =>
    l <~ own (read out) ;;;
    if below max_n (length l) then
      own tick ;;; own (note (TWait l)) ;;; x <~ s_wait_next ;;;
      match x with
      | (i, _, Evaluated _ _) => own tick ;;; own (append out i)
      | _ => sret tt
      end ;;;
      own tick ;;; i <~ own (new_individual o) ;;; own tick ;;; s_submit i None None ;;; s_rs_loop o out max_n f
    else sret tt
  end.
Definition s_random_search (o : ops) (out : nat) (max_n : option Z) (start : nat) : MS nat := fun y =>
  within_context n limit log defaults
    (l <~ own (read start) ;;; s_submit_all l ;;; s_rs_loop o out max_n (length (y_plan y) + 1) ;;; sret out) y.

(** * asha, asha.py:125-207. *)
Section Asha.
Context (o : ops) (eta : nat) (min_res max_res : Q) (first_rung : nat) (max_rung : Z) (start : nat).
Definition s_start_new_job : MS unit :=
  own tick ;;; j <~ own (get_job o eta first_rung start) ;;;
  if existsb (Nat.eqb (snd j)) (rung_numbers first_rung max_rung) then
    own tick ;;; s_submit (fst j) (Some (snd j)) (Some (resource eta min_res max_res (snd j)))
  else sfail KeyError.
Fixpoint s_start_jobs (k : nat) : MS unit :=
  match k with O => sret tt | S k' => s_start_new_job ;;; s_start_jobs k' end.
Fixpoint s_asha_loop (max_full : option Z) (fuel : nat) : MS unit :=
  match fuel with
  | O => sfail Diverges
  | S f =>
    all <~ own get_rungs ;;;
    match top_full max_rung max_full all with
    | Err e => sfail e
    | Ok true => sret tt
    | Ok false =>
      own tick ;;; x <~ s_wait_next ;;; own (record_result x) ;;; s_start_new_job ;;; s_asha_loop max_full f
    end
  end.
Definition s_asha (same_type : bool) (max_full : option Z) : MS (list ind) := fun y0 =>
  if negb same_type then (Err ValueError, y0)
  else
    let (x, y) := (own (put_rungs (empty_rungs first_rung max_rung)) ;;;
                   within_context n limit log defaults
                     (s_start_jobs 8 ;;; own tick ;;; s_asha_loop max_full (length (y_plan y0) + 1))) y0 in
    match x with
    | Ok _ =>
      match w_rungs (y_w y) with
      | [] => (Err UnboundLocalError, y)
      | top :: _ => (Ok (map snd (r_inds top)), y)
      end
    | Err TimeoutException =>
      match reached (w_rungs (y_w y)) with
      | [] => (Err UnboundLocalError, y)
      | top :: _ => (Ok (map snd (r_inds top)), y)
      end
    | Err Diverges => (Err Diverges, y)
    | Err _ => (Err UnboundLocalError, y)
    end.
End Asha.
End Sys.

(** The evolutionary search on pipelines: async_ea (search_methods/async_ea.py:75-152)
    with the operators of [Gp_Model.v] (operator_set.py), selection and elimination
    (selection.py, [Nsga_Model.v], [Par_Model.v]), and the evaluation library's lookup
    table (evaluation_library.py:249) against which new pipelines are compared.

    [Search_Model.v] has the same loops on individuals without pipelines, interrupted
    anywhere; here the individuals are the objects of [Gp_Model.v], and the search stops
    only while it waits for a result (when no more events are given). *)
From Verif Require Import Base Num Nsga_Model Par_Model Gp_Model.
Open Scope nat_scope.
Open Scope list_scope.

(** An evaluated individual with [fitness.values] (individual.py:14-21). *)
Record member := mkMem { m_ind : individual; m_fit : list num }.
(** Individual.__eq__, individual.py:32-33. *)
Definition same_id (a b : member) : bool := i_id (m_ind a) =? i_id (m_ind b).

(** How the evaluation of a job ends: an exception in the worker, or an Evaluation with
    these scores, failed or not (compilers/scikitlearn.py:161-218). *)
Inductive outcome := Raised | Evaluated (scores : list num) (failed : bool).
(** The next job to finish: any of the outstanding ones. *)
Record event := mkEv { e_pick : nat; e_out : outcome }.

(** What happened, for the statements: [ops.create] made an individual from a population;
    an individual was submitted for evaluation; a result was collected (the individual
    is the one in the result, or the submitted one if there is no result); a restart. *)
Inductive item :=
| Bred (i : individual) (pop : list member)
| Submitted (i : individual)
| Collected (i : individual) (o : outcome)
| Restarted.

(** Node objects, random numbers and ids; current_population; the outstanding jobs; the
    keys of the lookup table; what happened. *)
Record evo := mkEvo {
  v_st : st; v_pop : list member; v_jobs : list individual; v_saved : completed; v_trace : list item }.
Definition ME (A : Type) := evo -> res A * evo.
Definition eret {A} (a : A) : ME A := fun w => (Ok a, w).
Definition eraise {A} (e : exn) : ME A := fun w => (Err e, w).
Definition ebind {A B} (m : ME A) (f : A -> ME B) : ME B :=
  fun w => match m w with (Ok a, w') => f a w' | (Err e, w') => (Err e, w') end.
Notation "x <~ m ;; k" := (ebind m (fun x => k)) (at level 61, m at next level, right associativity).
Notation "m ;;~ k" := (ebind m (fun _ => k)) (at level 61, right associativity).

(** Code that works on node objects only. *)
Definition gp {A} (m : M A) : ME A := fun w =>
  let (x, s) := m (v_st w) in (x, mkEvo s (v_pop w) (v_jobs w) (v_saved w) (v_trace w)).
Definition mrandom {A} (f : rng -> res A * rng) : M A := fun s =>
  let (x, r) := f (s_rng s) in (x, mkSt (s_heap s) r (s_uid s)).
Definition note (t : item) : ME unit := fun w =>
  (Ok tt, mkEvo (v_st w) (v_pop w) (v_jobs w) (v_saved w) (v_trace w ++ [t])).
Definition population : ME (list member) := fun w => (Ok (v_pop w), w).
Definition set_population (l : list member) : ME unit := fun w =>
  (Ok tt, mkEvo (v_st w) l (v_jobs w) (v_saved w) (v_trace w)).

(** * The evaluator, through its interface (see [Async_Model.v]) *)

(** An object graph that has been pickled and unpickled (async_evaluator.py:190-194,
    304-330): new objects with the same contents. *)
Definition new_object (c : cell) : M loc := fun s =>
  let h := s_heap s in
  (Ok (h_next h), mkSt (mkHeap (S (h_next h)) (h_get (h_set h (h_next h) c))) (s_rng s) (s_uid s)).
Fixpoint unpickle_node (fuel : nat) (l : loc) : M loc :=
  match fuel with
  | O => mraise Diverges
  | S f =>
    c <- mread l ;;
    match c_data c with
    | DData => new_object c
    | DRef l' => l'' <- unpickle_node f l' ;; new_object (mkCell (c_prim c) (DRef l'') (c_terms c))
    end
  end.
Definition unpickle (i : individual) : M individual :=
  h <- mget ;; l <- unpickle_node (S (h_next h)) (i_main i) ;;
  mret (mkInd l (i_id i) (i_parents i) (i_origin i)).

(** AsyncEvaluator.submit, async_evaluator.py:172-194. *)
Definition submit (i : individual) : ME unit := fun w =>
  (Ok tt, mkEvo (v_st w) (v_pop w) (v_jobs w ++ [i]) (v_saved w) (v_trace w ++ [Submitted i])).
Fixpoint submit_all (l : list individual) : ME unit :=
  match l with
  | [] => eret tt
  | i :: l' => submit i ;;~ submit_all l'
  end.
(** EvaluationLibrary.save_evaluation, line 249 of evaluation_library.py: the key is the
    text of the main node (lines 151-155); for failed evaluations too. *)
Definition save (i : individual) : ME unit := fun w =>
  let (x, s) := pipeline_str i (v_st w) in
  match x with
  | Err e => (Err e, mkEvo s (v_pop w) (v_jobs w) (v_saved w) (v_trace w))
  | Ok text => (Ok tt, mkEvo s (v_pop w) (v_jobs w) (v_saved w ++ [text]) (v_trace w))
  end.
(** OperatorSet.wait_next, operator_set.py:43-50, with AsyncEvaluator.wait_next.  The
    first callback saves the evaluation (gama.py:300); callbacks that raise are not
    modelled here (see C46, C127). *)
Definition wait_next (e : event) : ME (individual * outcome) := fun w =>
  match v_jobs w with
  | [] => (Err RuntimeError, w)
  | j0 :: _ =>
    let k := e_pick e mod length (v_jobs w) in
    let j := nth k (v_jobs w) j0 in
    let w1 := mkEvo (v_st w) (v_pop w) (remove_nth k (v_jobs w)) (v_saved w) (v_trace w) in
    match e_out e with
    | Raised => (note (Collected j Raised) ;;~ eret (j, Raised)) w1
    | o => (i <~ gp (unpickle j) ;; note (Collected i o) ;;~ save i ;;~ eret (i, o)) w1
    end
  end.

Section Search.
(** The search space, max_pipeline_length, the number of attempts (50, operator_set.py:27),
    the number of workers, population_size, max_n_evaluations, and whether there is a
    restart_callback (whose answers are random). *)
Context (ps : pset) (max_length : option Z) (max_retry workers pop_size : nat) (max_n : option Z) (restart : bool).

(** [ind.fitness.values[0]] and [[1]], selection.py:21 (nsga2.py:17): IndexError with too
    few values. *)
Definition metric (k : nat) (m : member) : num := nth k (m_fit m) NaN.
Fixpoint metric_error (pop : list member) : option exn :=
  match pop with
  | [] => None
  | m :: pop' => match m_fit m with _ :: _ :: _ => metric_error pop' | _ => Some IndexError end
  end.
(** selection.py:24-27: [random.random() < cxpb] is a coin. *)
Definition breed (done : completed) (ind1 ind2 : individual) : M individual :=
  c <- mrandom (fun r => let (b, r') := rcoin r in (Ok b, r')) ;;
  x <- (if c then valid_crossovers ind1 ind2 else mret []) ;;
  match x with
  | [] => op_mutate max_retry done ps max_length ind1
  | _ => op_mate max_retry done max_length ind1 ind2
  end.
(** create_from_population, selection.py:12-29, for n = 1 (async_ea.py:142). *)
Definition create_one (done : completed) (pop : list member) : M individual :=
  if length pop <? 3 then mraise ValueError
  else match metric_error pop with
       | Some e => mraise e
       | None =>
         pairs <- mrandom (nsga2_select pop 1 [metric 0; metric 1]) ;;
         match pairs with
         | (p, q) :: _ =>
           match nth_error pop p, nth_error pop q with
           | Some m1, Some m2 => breed done (m_ind m1) (m_ind m2)
           | _, _ => mraise IndexError
           end
         | [] => mraise IndexError
         end
       end.

(** async_ea.py:129-133. *)
Definition add_to_population (m : member) : ME unit :=
  pop <~ population ;;
  let pop := pop ++ [m] in
  set_population pop ;;~
  if pop_size <? length pop then
    l <~ gp (mrandom (eliminate same_id m_fit pop 1)) ;;
    match l with
    | [] => eraise IndexError
    | x :: _ => match remove_first (same_id x) pop with
                | None => eraise ValueError
                | Some pop' => set_population pop'
                end
    end
  else eret tt.
(** async_ea.py:135-143: job_queue_size is the number of outstanding jobs less the number
    of workers (async_evaluator.py:113). *)
Definition refill : ME unit := fun w =>
  if (Z.of_nat (length (v_jobs w)) - Z.of_nat workers <=? 1)%Z then
    (i <~ gp (create_one (v_saved w) (v_pop w)) ;; note (Bred i (v_pop w)) ;;~ submit i) w
  else (Ok tt, w).
(** [ops.individual() for _ in range(n)], async_ea.py:149, gama.py:634. *)
Fixpoint individuals (n : nat) : ME (list individual) :=
  match n with
  | O => eret []
  | S n' => i <~ gp (op_individual ps max_length) ;; l <~ individuals n' ;; eret (i :: l)
  end.
(** async_ea.py:119-123. *)
Definition begin (l : list individual) : ME unit := set_population [] ;;~ submit_all l.
(** One turn of the inner loop, async_ea.py:125-150, with the start of the outer loop's
    next turn after a restart. *)
Definition turn (e : event) : ME unit :=
  x <~ wait_next e ;;
  (match x with
   | (i, Evaluated scores false) => add_to_population (mkMem i scores)
   | _ => eret tt
   end) ;;~
  refill ;;~
  b <~ (if restart then gp (mrandom (fun r => let (b, r') := rcoin r in (Ok b, r'))) else eret false) ;;
  if b then note Restarted ;;~ l <~ individuals pop_size ;; begin l else eret tt.
Definition below (n : nat) : bool :=
  match max_n with None => true | Some m => (Z.of_nat n <? m)%Z end.
(** The loops, async_ea.py:118-150.  [Diverges]: still waiting for a result when the
    events end. *)
Fixpoint turns (n : nat) (es : list event) : ME unit := fun w =>
  if below n then
    match es with
    | [] => match v_jobs w with [] => (Err RuntimeError, w) | _ => (Err Diverges, w) end
    | e :: es' => (turn e ;;~ turns (S n) es') w
    end
  else (Ok tt, w).
(** async_ea, async_ea.py:75-152. *)
Definition async_ea (start : list individual) (es : list event) : ME unit :=
  if match max_n with Some m => (m <=? 0)%Z | None => false end then eraise ValueError
  else begin start ;;~ turns 0 es.
(** Gama._search_phase, gama.py:622-661, in the first call of fit: start candidates given
    or random. *)
Definition search (warm_start : list individual) (es : list event) : ME unit :=
  match warm_start with
  | [] => l <~ individuals 50 ;; async_ea l es
  | _ => async_ea warm_start es
  end.
End Search.
(** What a search finds when it begins: a process with these objects, random numbers and ids,
    and the texts of the pipelines that earlier calls of fit on the same Gama object evaluated.
    The object keeps one evaluation library, and its operators always look at that library's
    [lookup] (gama.py:315-317, 325-336, operator_set.py:45, evaluation_library.py:124, 232-235),
    which a later fit does not empty. *)
Record setting := mkSetting { on_st :> st; seen_before : completed }.
(** The first call of fit on an object. *)
Definition first_fit (s : st) : setting := mkSetting s [].
(** The search has nothing in its population, no jobs, and a trace that is still empty. *)
Definition fresh_search (s : setting) : evo := mkEvo s [] [] (seen_before s) [].

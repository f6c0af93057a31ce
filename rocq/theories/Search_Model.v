(** Model of the search methods: search_methods/async_ea.py, random_search.py,
    asha.py, selection.py and Gama._search_phase (gama.py:622-661).

    The evaluator is used through its interface only (its own model is
    [Async_Model.v]): a collection of outstanding jobs, any of which may be the next
    to finish, with any outcome.  Pipelines do not appear (see [Gp_Model.v]): an
    individual is its id with its fitness. *)
From Verif Require Import Base Num Nsga_Model Par_Model.
Open Scope nat_scope.

(** Individual (individual.py:23-36): equality is equality of ids.  [i_fit] is
    [fitness.values]; [i_rung] is [meta["rung"]]. *)
Record ind := mkI { i_id : nat; i_fit : option (list num); i_rung : option nat }.
Definition ind_eqb (a b : ind) : bool := i_id a =? i_id b.

(** How the evaluation of a job ends: an exception in the worker
    (future.result is None), or an Evaluation with these scores, failed or not
    (evaluate_individual, compilers/scikitlearn.py:161-218). *)
Inductive outcome := Raised | Evaluated (scores : list num) (failed : bool).
(** The next job to finish: one of the outstanding ones, its outcome, and the
    exception that evaluate_callback raises, if any (operator_set.py:43-50). *)
Record event := mkEv { e_pick : nat; e_out : outcome; e_callback : option exn }.
Record job := mkJob { j_ind : ind; j_rung : option nat }.

(** One rung of ASHA: its number, rung_individuals and promoted_individuals. *)
Definition entry := (num * ind)%type.
Record rung := mkRung { r_no : nat; r_inds : list entry; r_prom : list entry }.

(** What happened, for the statements: jobs submitted, calls of wait_next with the
    population at that moment, results collected, restarts, promotions with the
    contents of the rung. *)
Inductive item :=
| TSubmit (i : ind) (rung : option nat) (resource : option Q)
| TWait (pop : list ind)
| TDone (i : ind) (rung : option nat) (o : outcome)
| TRestart
| TPromote (rung : nat) (x : entry) (inds prom : list entry).

(** The state: list objects by address; outstanding jobs; number of workers;
    the outcomes to come; [w_stop]: the exception (time limit, Ctrl-C) that arrives
    after some number of statements. *)
Record world := mkW {
  w_lists : list (list ind); w_jobs : list job; w_n : nat; w_events : list event;
  w_rng : rng; w_uid : nat; w_stop : option (nat * exn); w_rungs : list rung; w_trace : list item }.

Definition M (A : Type) := world -> res A * world.
Definition ret {A} (a : A) : M A := fun w => (Ok a, w).
Definition fail {A} (e : exn) : M A := fun w => (Err e, w).
Definition bind {A B} (m : M A) (f : A -> M B) : M B :=
  fun w => match m w with (Ok a, w') => f a w' | (Err e, w') => (Err e, w') end.
Notation "x <- m ;; k" := (bind m (fun x => k)) (at level 61, m at next level, right associativity).
Notation "m ;; k" := (bind m (fun _ => k)) (at level 61, right associativity).

(** Between two statements: the exception may arrive. *)
Definition tick : M unit := fun w =>
  match w_stop w with
  | None => (Ok tt, w)
  | Some (O, e) =>
    (Err e, mkW (w_lists w) (w_jobs w) (w_n w) (w_events w) (w_rng w) (w_uid w) None (w_rungs w) (w_trace w))
  | Some (S k, e) =>
    (Ok tt, mkW (w_lists w) (w_jobs w) (w_n w) (w_events w) (w_rng w) (w_uid w) (Some (k, e)) (w_rungs w) (w_trace w))
  end.

Definition read (a : nat) : M (list ind) := fun w => (Ok (nth a (w_lists w) []), w).
Definition write (a : nat) (l : list ind) : M unit := fun w =>
  (Ok tt, mkW (set_nth a l (w_lists w)) (w_jobs w) (w_n w) (w_events w) (w_rng w) (w_uid w) (w_stop w) (w_rungs w) (w_trace w)).
Definition note (t : item) : M unit := fun w =>
  (Ok tt, mkW (w_lists w) (w_jobs w) (w_n w) (w_events w) (w_rng w) (w_uid w) (w_stop w) (w_rungs w) (w_trace w ++ [t])).
Definition random {A} (f : rng -> res A * rng) : M A := fun w =>
  let (x, r) := f (w_rng w) in
  (x, mkW (w_lists w) (w_jobs w) (w_n w) (w_events w) r (w_uid w) (w_stop w) (w_rungs w) (w_trace w)).
Definition put_rungs (l : list rung) : M unit := fun w =>
  (Ok tt, mkW (w_lists w) (w_jobs w) (w_n w) (w_events w) (w_rng w) (w_uid w) (w_stop w) l (w_trace w)).
Definition get_rungs : M (list rung) := fun w => (Ok (w_rungs w), w).

(** A new Individual: its id is new (uuid4, individual.py:29). *)
Definition fresh : M ind := fun w =>
  (Ok (mkI (w_uid w) None None),
   mkW (w_lists w) (w_jobs w) (w_n w) (w_events w) (w_rng w) (S (w_uid w)) (w_stop w) (w_rungs w) (w_trace w)).

(** AsyncEvaluator.submit, job_queue_size and wait_next, through OperatorSet.wait_next
    (operator_set.py:43-50).  [Diverges]: no job finishes any more. *)
Definition submit (i : ind) (rung : option nat) (resource : option Q) : M unit := fun w =>
  (Ok tt, mkW (w_lists w) (w_jobs w ++ [mkJob i rung]) (w_n w) (w_events w) (w_rng w) (w_uid w) (w_stop w) (w_rungs w)
            (w_trace w ++ [TSubmit i rung resource])).
Definition queue_size : M Z := fun w => (Ok (Z.of_nat (length (w_jobs w)) - Z.of_nat (w_n w))%Z, w).
(** The individual in the result: the submitted one (a copy with the same id),
    with its fitness, and on which rung it ran (scikitlearn.py:211, asha.py:212). *)
Definition result_ind (j : job) (o : outcome) : ind :=
  match o with
  | Raised => j_ind j
  | Evaluated scores _ =>
    mkI (i_id (j_ind j)) (Some scores) (match j_rung j with Some r => Some r | None => i_rung (j_ind j) end)
  end.
Definition wait_next : M (ind * option nat * outcome) := fun w =>
  match w_jobs w with
  | [] => (Err RuntimeError, w)
  | _ =>
    match w_events w with
    | [] => (Err Diverges, w)
    | e :: es =>
      let k := e_pick e mod length (w_jobs w) in
      let j := nth k (w_jobs w) (mkJob (mkI 0 None None) None) in
      let i := result_ind j (e_out e) in
      let w' := mkW (w_lists w) (remove_nth k (w_jobs w)) (w_n w) es (w_rng w) (w_uid w) (w_stop w) (w_rungs w)
                  (w_trace w ++ [TDone i (j_rung j) (e_out e)]) in
      match e_out e, e_callback e with
      | Evaluated _ _, Some x => (Err x, w')
      | _, _ => (Ok (i, j_rung j, e_out e), w')
      end
    end
  end.

(** The operators, as far as the search methods see them (operator_set.py:80-91):
    creating an individual may fail; [create] makes a number of new ones from a population;
    [eliminate] names members of it. *)
Record ops := mkOps {
  o_individual : rng -> res unit * rng;
  o_create : list ind -> nat -> rng -> res nat * rng;
  o_eliminate : list ind -> Z -> rng -> res (list ind) * rng }.
Definition new_individual (o : ops) : M ind := random (o_individual o) ;; fresh.

(** create_from_population, selection.py:12-29, with the defaults of gama.py:300-320.
    [mate] and [mutate] stand for OperatorSet.mate and mutate, [can_cross] for
    [len(_valid_crossover_functions(ind1, ind2)) > 0]; the result is the number of offspring. *)
Section Selection.
Context (can_cross : ind -> ind -> bool) (mate : ind -> ind -> rng -> res unit * rng) (mutate : ind -> rng -> res unit * rng).
Fixpoint offspring (pop : list ind) (pairs : list (nat * nat)) (r : rng) : res nat * rng :=
  match pairs with
  | [] => (Ok 0, r)
  | (p, q) :: pairs' =>
    let ind1 := nth p pop (mkI 0 None None) in let ind2 := nth q pop (mkI 0 None None) in
    let (c, r1) := rcoin r in
    let (x, r2) := if c && can_cross ind1 ind2 then mate ind1 ind2 r1 else mutate ind1 r1 in
    match x with
    | Err e => (Err e, r2)
    | Ok _ => let (k, r3) := offspring pop pairs' r2 in (do m <- k; Ok (S m), r3)
    end
  end.
(** [ind.fitness.values[0]], [ind.fitness.values[1]] (selection.py:21), computed for all
    individuals in turn (nsga2.py:17): AttributeError before evaluation,
    IndexError with too few values. *)
Fixpoint metric_error (pop : list ind) : option exn :=
  match pop with
  | [] => None
  | i :: pop' =>
    match i_fit i with
    | None => Some AttributeError
    | Some (_ :: _ :: _) => metric_error pop'
    | Some _ => Some IndexError
    end
  end.
Definition metric (k : nat) (i : ind) : num := match i_fit i with Some v => nth k v NaN | None => NaN end.
Definition create_from_population (pop : list ind) (n : nat) (r : rng) : res nat * rng :=
  if length pop <? 3 then (Err ValueError, r)
  else match metric_error pop with
       | Some e => (Err e, r)
       | None =>
         let (pairs, r1) := nsga2_select pop n [metric 0; metric 1] r in
         match pairs with Err e => (Err e, r1) | Ok ps => offspring pop ps r1 end
       end.
(** eliminate_from_pareto, selection.py:32-41, see [Par_Model.v]; individuals without
    fitness do not occur in a population. *)
Definition fitness (i : ind) : list num := match i_fit i with Some v => v | None => [] end.
Definition gama_ops (create_new : rng -> res unit * rng) : ops :=
  mkOps create_new create_from_population (eliminate ind_eqb fitness).
End Selection.

(** * async_ea *)
Fixpoint submit_all (l : list ind) : M unit :=
  match l with
  | [] => ret tt
  | i :: l' => tick ;; submit i None None ;; submit_all l'
  end.
Definition append (out : nat) (i : ind) : M unit := l <- read out ;; write out (l ++ [i]).
Definition remove (out : nat) (x : ind) : M unit :=
  l <- read out ;;
  match remove_first (ind_eqb x) l with
  | None => fail ValueError
  | Some l' => write out l'
  end.
(** async_ea.py:129-133. *)
Definition add_to_population (o : ops) (out pop_size : nat) (i : ind) : M unit :=
  tick ;; append out i ;;
  pop <- read out ;;
  if pop_size <? length pop then
    tick ;; l <- random (o_eliminate o pop 1) ;; tick ;;
    match l with [] => fail IndexError | x :: _ => remove out x end
  else ret tt.
(** async_ea.py:135-143. *)
Definition refill (o : ops) (out : nat) : M unit :=
  q <- queue_size ;;
  if (q <=? 1)%Z then
    tick ;; pop <- read out ;; k <- random (o_create o pop 1) ;;
    match k with
    | O => fail IndexError
    | S _ => i <- fresh ;; tick ;; submit i None None
    end
  else ret tt.
Fixpoint individuals (o : ops) (n : nat) : M (list ind) :=
  match n with
  | O => ret []
  | S n' => tick ;; i <- new_individual o ;; l <- individuals o n' ;; ret (i :: l)
  end.
Definition below (max : option Z) (n : nat) : bool :=
  match max with None => true | Some m => (Z.of_nat n <? m)%Z end.

Section EA.
(** [restart]: is there a restart_callback?  Its answers are random. *)
Context (o : ops) (out : nat) (restart : bool) (max_n : option Z) (pop_size : nat).
Inductive source := Given (a : nat) | New (l : list ind).
Definition restart_now : M bool := if restart then random (fun r => let (b, r') := rcoin r in (Ok b, r')) else ret false.
(** The loops of async_ea.py:118-150: [Some src] is the start of a turn of the outer
    loop (lines 119-123), [None] a turn of the inner loop. *)
Fixpoint ea_loop (fuel : nat) (phase : option source) (n : nat) : M unit :=
  match fuel with
  | O => fail Diverges
  | S f =>
    match phase with
    | Some src =>
      tick ;; write out [] ;;
      l <- match src with Given a => read a | New l => ret l end ;;
      submit_all l ;; ea_loop f None n
    | None =>
      if below max_n n then
        tick ;; pop <- read out ;; note (TWait pop) ;; x <- wait_next ;;
        match x with
        | (i, _, Evaluated _ false) => add_to_population o out pop_size i
        | _ => ret tt
        end ;;
        refill o out ;;
        tick ;; b <- restart_now ;; tick ;;
        if b then
          note TRestart ;; l <- individuals o pop_size ;; ea_loop f (Some (New l)) (S n)
        else ea_loop f None (S n)
      else ret tt
    end
  end.
(** async_ea, async_ea.py:75-152.  Leaving the evaluator's context drops the
    outstanding jobs.  Every inner turn uses up an event, so the fuel suffices. *)
Definition leave {A} (m : M A) : M A := fun w =>
  let (x, w') := m w in
  (x, mkW (w_lists w') [] (w_n w') (w_events w') (w_rng w') (w_uid w') (w_stop w') (w_rungs w') (w_trace w')).
Definition async_ea (start : nat) : M nat := fun w =>
  match max_n with
  | Some m => if (m <=? 0)%Z then (Err ValueError, w)
              else leave (ea_loop (2 * length (w_events w) + 3) (Some (Given start)) 0 ;; ret out) w
  | None => leave (ea_loop (2 * length (w_events w) + 3) (Some (Given start)) 0 ;; ret out) w
  end.
End EA.

(** * random_search, random_search.py:31-68 (with the checks of base_search.py:91-106 met). *)
Fixpoint rs_loop (o : ops) (out : nat) (max_n : option Z) (fuel : nat) : M unit :=
  match fuel with
  | O => fail Diverges
  | S f =>
    l <- read out ;;
    if below max_n (length l) then
      tick ;; note (TWait l) ;; x <- wait_next ;;
      match x with
      | (i, _, Evaluated _ _) => tick ;; append out i
      | _ => ret tt
      end ;;
      tick ;; i <- new_individual o ;; tick ;; submit i None None ;; rs_loop o out max_n f
    else ret tt
  end.
Definition random_search (o : ops) (out : nat) (max_n : option Z) (start : nat) : M nat := fun w =>
  leave (l <- read start ;; submit_all l ;; rs_loop o out max_n (length (w_events w) + 1) ;; ret out) w.

(** * asha *)
(** Equality of entries of a rung, as in sets of tuples: the loss (the same object,
    or equal) and the individual. *)
Definition same_num (a b : num) : bool :=
  match a, b with NaN, NaN => true | _, _ => neqb a b end.
Definition entry_eqb (x y : entry) : bool := same_num (fst x) (fst y) && ind_eqb (snd x) (snd y).
(** [set(individuals) - set(promoted)], asha.py:158. *)
Fixpoint dedup (l : list entry) : list entry :=
  match l with [] => [] | x :: l' => x :: filter (fun y => negb (entry_eqb x y)) (dedup l') end.
Definition not_promoted (r : rung) : list entry :=
  dedup (filter (fun x => negb (existsb (entry_eqb x) (r_prom r))) (r_inds r)).
(** [max(s, key=lambda i: i[0])], asha.py:160: the first largest in the order in
    which the set is iterated, which is arbitrary. *)
Fixpoint py_max (best : entry) (l : list entry) : entry :=
  match l with
  | [] => best
  | x :: l' => py_max (if nltb (fst best) (fst x) then x else best) l'
  end.
Definition set_max (s : list entry) (r : rng) : res entry * rng :=
  let (l, r') := rsample (length s) s r in
  (do l <- l; match l with [] => Err ValueError | x :: l' => Ok (py_max x l') end, r').

Section Asha.
Context (o : ops) (eta : nat) (min_res max_res : Q) (first_rung : nat) (max_rung : Z) (start : nat).
(** [range(minimum_early_stopping_rate, max_rung + 1)], asha.py:134. [max_rung] is
    given: it is computed with floating point logarithms (asha.py:131-133). *)
Definition rung_numbers : list nat := seq first_rung (Z.to_nat (max_rung + 1 - Z.of_nat first_rung)).
(** asha.py:135-138. *)
Definition resource (r : nat) : Q :=
  let q := (min_res * inject_Z (Z.of_nat (eta ^ r)))%Q in
  if Qle_bool q max_res then q else max_res.
Definition empty_rungs : list rung := map (fun r => mkRung r [] []) (rev rung_numbers).
Definition set_rung (r : rung) (l : list rung) : list rung :=
  map (fun x => if r_no x =? r_no r then r else x) l.

(** get_job, asha.py:152-166. *)
Fixpoint promote_from (l : list rung) : M (option (ind * nat)) :=
  match l with
  | [] => ret None
  | r :: l' =>
    if length (r_prom r) <? length (r_inds r) / eta then
      match not_promoted r with
      | [] => promote_from l'
      | s =>
        x <- random (set_max s) ;;
        all <- get_rungs ;;
        note (TPromote (r_no r) x (r_inds r) (r_prom r)) ;;
        put_rungs (set_rung (mkRung (r_no r) (r_inds r) (r_prom r ++ [x])) all) ;;
        tick ;; ret (Some (snd x, S (r_no r)))
      end
    else promote_from l'
  end.
Definition get_job : M (ind * nat) :=
  all <- get_rungs ;; p <- promote_from (tl all) ;;
  match p with
  | Some j => ret j
  | None =>
    l <- read start ;;
    match rev l with
    | i :: l' => write start (rev l') ;; tick ;; ret (i, first_rung)
    | [] => i <- new_individual o ;; ret (i, first_rung)
    end
  end.
(** start_new_job, asha.py:172-181. *)
Definition start_new_job : M unit :=
  tick ;; j <- get_job ;;
  if existsb (Nat.eqb (snd j)) rung_numbers then
    tick ;; submit (fst j) (Some (snd j)) (Some (resource (snd j)))
  else fail KeyError.
Fixpoint start_jobs (n : nat) : M unit :=
  match n with O => ret tt | S n' => start_new_job ;; start_jobs n' end.
(** asha.py:190-194. *)
Definition record_result (x : ind * option nat * outcome) : M unit :=
  match x with
  | (i, Some r, Evaluated scores _) =>
    match scores with
    | [] => fail IndexError
    | loss :: _ =>
      tick ;; all <- get_rungs ;;
      match find (fun y => r_no y =? r) all with
      | None => fail KeyError
      | Some y => put_rungs (set_rung (mkRung r (r_inds y ++ [(loss, i)]) (r_prom y)) all)
      end
    end
  | _ => ret tt
  end.
Definition top_full (max_full : option Z) (all : list rung) : res bool :=
  match max_full with
  | None => Ok false
  | Some m =>
    match find (fun y => Z.eqb (Z.of_nat (r_no y)) max_rung) all with
    | None => Err KeyError
    | Some y => Ok (negb (Z.of_nat (length (r_inds y)) <? m)%Z)
    end
  end.
Fixpoint asha_loop (max_full : option Z) (fuel : nat) : M unit :=
  match fuel with
  | O => fail Diverges
  | S f =>
    all <- get_rungs ;;
    match top_full max_full all with
    | Err e => fail e
    | Ok true => ret tt
    | Ok false =>
      tick ;; x <- wait_next ;; record_result x ;; start_new_job ;; asha_loop max_full f
    end
  end.
(** The rungs reached, highest first, asha.py:200. *)
Definition reached (all : list rung) : list rung :=
  filter (fun r => match r_inds r with [] => false | _ => true end) all.
(** asha, asha.py:125-207: the finally clause returns whatever was raised, unless
    highest_rung_reached is unbound. *)
Definition asha (same_type : bool) (max_full : option Z) : M (list ind) := fun w0 =>
  if negb same_type then (Err ValueError, w0)
  else
    let w := mkW (w_lists w0) (w_jobs w0) (w_n w0) (w_events w0) (w_rng w0) (w_uid w0) (w_stop w0) empty_rungs (w_trace w0) in
    let (x, w') := leave (start_jobs 8 ;; tick ;; asha_loop max_full (length (w_events w0) + 1)) w in
    match x with
    | Ok _ =>
      match w_rungs w' with
      | [] => (Err UnboundLocalError, w')
      | top :: _ => (Ok (map snd (r_inds top)), w')
      end
    | Err TimeoutException =>
      match reached (w_rungs w') with
      | [] => (Err UnboundLocalError, w')
      | top :: _ => (Ok (map snd (r_inds top)), w')
      end
    | Err Diverges => (Err Diverges, w')
    | Err _ => (Err UnboundLocalError, w')
    end.
End Asha.

(** * Gama._search_phase, gama.py:622-661 *)
Inductive method :=
| EA (restart : bool) (max_n : option Z) (pop_size : nat)
| RS (max_n : option Z)
| ASHA (eta : nat) (min_res max_res : Q) (first_rung : nat) (max_rung : Z) (same_type : bool) (max_full : option Z).
Definition new_list (l : list ind) : M nat := fun w =>
  (Ok (length (w_lists w)),
   mkW (w_lists w ++ [l]) (w_jobs w) (w_n w) (w_events w) (w_rng w) (w_uid w) (w_stop w) (w_rungs w) (w_trace w)).
(** The search method's [output]: the address of the list it has afterwards; when it is interrupted, AsyncEA and
    RandomSearch have changed their list in place (async_ea.py:70, random_search.py:28, asha.py:79). *)
Definition search (o : ops) (m : method) (out start : nat) : M nat :=
  match m with
  | EA restart max_n pop_size => async_ea o out restart max_n pop_size start
  | RS max_n => random_search o out max_n start
  | ASHA eta min_res max_res first max_rung same max_full =>
    l <- asha o eta min_res max_res first max_rung start same max_full ;; new_list l
  end.
(** [warm]: the warm_start argument, the address of a list of individuals;
    [final]: self._final_pop.  stopit's time limit and Ctrl-C end the search
    without an exception.  The result is the new self._final_pop. *)
Definition search_phase (o : ops) (m : method) (out : nat) (final : nat) (warm : option nat) : M nat := fun w =>
  let start : M nat :=
    match warm with
    | Some a => l <- read a ;; match l with [] => l' <- individuals o 50 ;; new_list l' | _ => ret a end
    | None => l <- read final ;; match l with [] => l' <- individuals o 50 ;; new_list l' | _ => ret final end
    end in
  match start w with
  | (Err e, w') => (Err e, w')
  | (Ok a, w') =>
    match search o m out a w' with
    | (Ok out', w2) => (Ok out', w2)
    | (Err TimeoutException, w2) | (Err KeyboardInterrupt, w2) => (Ok out, w2)
    | (Err e, w2) => (Err e, w2)
    end
  end.

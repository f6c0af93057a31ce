(** Random search and successive halving (ASHA) on pipelines: random_search
    (search_methods/random_search.py:31-68) and the loop of asha
    (search_methods/asha.py:125-198), with OperatorSet.individual of [Gp_Model.v].

    [Search_Model.v] has the same loops on individuals without pipelines, interrupted
    anywhere, and with what asha returns; here the individuals are the objects of
    [Gp_Model.v], and the search stops only while it waits for a result (when no more
    events are given).  The evaluator as in [Evo_Model.v]; the evaluation library is left
    out, as neither search reads it. *)
From Verif Require Import Base Num Nsga_Model Gp_Model.
From Verif Require Import Evo_Model.
Open Scope nat_scope.
Open Scope list_scope.

(** One rung: its number, rung_individuals and promoted_individuals (asha.py:145-150), with
    the scores in the fitness of each individual (compilers/scikitlearn.py:211-216). *)
Definition entry := (num * member)%type.
Record rung := mkRung { g_no : nat; g_inds : list entry; g_prom : list entry }.
(** What happened, for the statements: a pipeline was given to the workers for a rung (0 in
    random search); its result arrived. *)
Inductive hitem :=
| Started (i : individual) (r : nat)
| Finished (i : individual) (r : nat) (o : outcome).
(** Node objects, random numbers and ids; the outstanding jobs; start_candidates; the
    rungs, highest first; the output list of random search; what happened. *)
Record hst := mkH {
  q_st : st; q_jobs : list (individual * nat); q_start : list individual; q_rungs : list rung;
  q_out : list member; q_trace : list hitem }.
Definition MH (A : Type) := hst -> res A * hst.
Definition hret {A} (a : A) : MH A := fun w => (Ok a, w).
Definition hraise {A} (e : exn) : MH A := fun w => (Err e, w).
Definition hbind {A B} (m : MH A) (f : A -> MH B) : MH B :=
  fun w => match m w with (Ok a, w') => f a w' | (Err e, w') => (Err e, w') end.
Notation "x <+ m ;; k" := (hbind m (fun x => k)) (at level 61, m at next level, right associativity).
Notation "m ;;+ k" := (hbind m (fun _ => k)) (at level 61, right associativity).
(** Code that works on node objects and random numbers only. *)
Definition hgp {A} (m : M A) : MH A := fun w =>
  let (x, s) := m (q_st w) in (x, mkH s (q_jobs w) (q_start w) (q_rungs w) (q_out w) (q_trace w)).
Definition get_rungs : MH (list rung) := fun w => (Ok (q_rungs w), w).
Definition set_rungs (l : list rung) : MH unit := fun w =>
  (Ok tt, mkH (q_st w) (q_jobs w) (q_start w) l (q_out w) (q_trace w)).
Definition append_output (m : member) : MH unit := fun w =>
  (Ok tt, mkH (q_st w) (q_jobs w) (q_start w) (q_rungs w) (q_out w ++ [m]) (q_trace w)).

(** AsyncEvaluator.submit, async_evaluator.py:172-194. *)
Definition hsubmit (i : individual) (r : nat) : MH unit := fun w =>
  (Ok tt, mkH (q_st w) (q_jobs w ++ [(i, r)]) (q_start w) (q_rungs w) (q_out w) (q_trace w ++ [Started i r])).
(** OperatorSet.wait_next, operator_set.py:43-50, as in [Evo_Model.wait_next]; in asha the
    rung is in the meta data of the individual in the result (asha.py:191,212). *)
Definition hnote (t : hitem) : MH unit := fun w =>
  (Ok tt, mkH (q_st w) (q_jobs w) (q_start w) (q_rungs w) (q_out w) (q_trace w ++ [t])).
Definition hwait (e : event) : MH (individual * nat * outcome) := fun w =>
  match q_jobs w with
  | [] => (Err RuntimeError, w)
  | j0 :: _ =>
    let k := e_pick e mod length (q_jobs w) in
    let j := nth k (q_jobs w) j0 in
    let w1 := mkH (q_st w) (remove_nth k (q_jobs w)) (q_start w) (q_rungs w) (q_out w) (q_trace w) in
    match e_out e with
    | Raised => (hnote (Finished (fst j) (snd j) Raised) ;;+ hret (fst j, snd j, Raised)) w1
    | o => (i <+ hgp (unpickle (fst j)) ;; hnote (Finished i (snd j) o) ;;+ hret (i, snd j, o)) w1
    end
  end.

Section Searches.
(** The search space and max_pipeline_length. *)
Context (ps : pset) (max_length : option Z).

(** * random_search *)
Fixpoint submit_each (l : list individual) : MH unit :=
  match l with
  | [] => hret tt
  | i :: l' => hsubmit i 0 ;;+ submit_each l'
  end.
(** random_search.py:61-66.  [Diverges]: still waiting for a result when the events end. *)
Fixpoint rs_turns (max_n : option Z) (es : list event) : MH unit := fun w =>
  if below max_n (length (q_out w)) then
    match es with
    | [] => match q_jobs w with [] => (Err RuntimeError, w) | _ => (Err Diverges, w) end
    | e :: es' =>
      (x <+ hwait e ;;
       (match x with (i, _, Evaluated scores _) => append_output (mkMem i scores) | _ => hret tt end) ;;+
       i <+ hgp (op_individual ps max_length) ;; hsubmit i 0 ;;+ rs_turns max_n es') w
    end
  else (Ok tt, w).
(** random_search, random_search.py:31-68. *)
Definition random_search (max_n : option Z) (start : list individual) (es : list event) : MH unit :=
  submit_each start ;;+ rs_turns max_n es.

(** * asha *)
(** Equality of entries of a rung, as in sets of tuples: the loss (the same object, or
    equal) and the individual (individual.py:32-36). *)
Definition same_loss (a b : num) : bool := match a, b with NaN, NaN => true | _, _ => neqb a b end.
Definition same_entry (x y : entry) : bool := same_loss (fst x) (fst y) && (i_id (m_ind (snd x)) =? i_id (m_ind (snd y))).
(** [set(individuals) - set(promoted)], asha.py:158. *)
Fixpoint dedup (l : list entry) : list entry :=
  match l with [] => [] | x :: l' => x :: filter (fun y => negb (same_entry x y)) (dedup l') end.
Definition not_promoted (r : rung) : list entry :=
  dedup (filter (fun x => negb (existsb (same_entry x) (g_prom r))) (g_inds r)).
(** [max(s, key=lambda i: i[0])], asha.py:160: the first largest in the order in which
    the set is iterated, which is arbitrary. *)
Fixpoint largest (best : entry) (l : list entry) : entry :=
  match l with
  | [] => best
  | x :: l' => largest (if nltb (fst best) (fst x) then x else best) l'
  end.
Definition set_max (s : list entry) (r : rng) : res entry * rng :=
  let (l, r') := rsample (length s) s r in
  (do l <- l; match l with [] => Err ValueError | x :: l' => Ok (largest x l') end, r').

(** reduction_factor, minimum_early_stopping_rate, and max_rung, which is computed with
    floating point logarithms (asha.py:131-133). *)
Context (eta first_rung : nat) (max_rung : Z).
(** [range(minimum_early_stopping_rate, max_rung + 1)], asha.py:134; asha.py:145-150. *)
Definition rung_numbers : list nat := seq first_rung (Z.to_nat (max_rung + 1 - Z.of_nat first_rung)).
Definition empty_rungs : list rung := map (fun r => mkRung r [] []) (rev rung_numbers).
Definition set_rung (r : rung) (l : list rung) : list rung :=
  map (fun x => if g_no x =? g_no r then r else x) l.
(** get_job, asha.py:152-166. *)
Fixpoint promote_from (l : list rung) : MH (option (individual * nat)) :=
  match l with
  | [] => hret None
  | r :: l' =>
    if length (g_prom r) <? length (g_inds r) / eta then
      match not_promoted r with
      | [] => promote_from l'
      | s =>
        x <+ hgp (mrandom (set_max s)) ;;
        all <+ get_rungs ;;
        set_rungs (set_rung (mkRung (g_no r) (g_inds r) (g_prom r ++ [x])) all) ;;+
        hret (Some (m_ind (snd x), S (g_no r)))
      end
    else promote_from l'
  end.
(** start_candidates.pop(), asha.py:165. *)
Definition pop_candidate : MH (option individual) := fun w =>
  match rev (q_start w) with
  | [] => (Ok None, w)
  | i :: l => (Ok (Some i), mkH (q_st w) (q_jobs w) (rev l) (q_rungs w) (q_out w) (q_trace w))
  end.
Definition get_job : MH (individual * nat) :=
  all <+ get_rungs ;; p <+ promote_from (tl all) ;;
  match p with
  | Some j => hret j
  | None =>
    c <+ pop_candidate ;;
    match c with
    | Some i => hret (i, first_rung)
    | None => i <+ hgp (op_individual ps max_length) ;; hret (i, first_rung)
    end
  end.
(** start_new_job, asha.py:172-181: KeyError for a rung without resources.  The amount of
    data is in [Search_Model.v]. *)
Definition start_new_job : MH unit :=
  j <+ get_job ;;
  if existsb (Nat.eqb (snd j)) rung_numbers then hsubmit (fst j) (snd j) else hraise KeyError.
Fixpoint start_jobs (n : nat) : MH unit :=
  match n with O => hret tt | S n' => start_new_job ;;+ start_jobs n' end.
(** asha.py:190-194. *)
Definition record_result (x : individual * nat * outcome) : MH unit :=
  match x with
  | (i, r, Evaluated scores _) =>
    match scores with
    | [] => hraise IndexError
    | loss :: _ =>
      all <+ get_rungs ;;
      match find (fun y => g_no y =? r) all with
      | None => hraise KeyError
      | Some y => set_rungs (set_rung (mkRung r (g_inds y ++ [(loss, mkMem i scores)]) (g_prom y)) all)
      end
    end
  | _ => hret tt
  end.
(** The condition of the loop, asha.py:186-188. *)
Definition top_below (max_full : option Z) (all : list rung) : res bool :=
  match max_full with
  | None => Ok true
  | Some m =>
    match find (fun y => Z.eqb (Z.of_nat (g_no y)) max_rung) all with
    | None => Err KeyError
    | Some y => Ok (Z.of_nat (length (g_inds y)) <? m)%Z
    end
  end.
(** asha.py:186-196. *)
Fixpoint asha_turns (max_full : option Z) (es : list event) : MH unit := fun w =>
  match top_below max_full (q_rungs w) with
  | Err e => (Err e, w)
  | Ok false => (Ok tt, w)
  | Ok true =>
    match es with
    | [] => match q_jobs w with [] => (Err RuntimeError, w) | _ => (Err Diverges, w) end
    | e :: es' => (x <+ hwait e ;; record_result x ;;+ start_new_job ;;+ asha_turns max_full es') w
    end
  end.
(** asha.py:183-196: eight jobs, then the loop. *)
Definition asha (max_full : option Z) (es : list event) : MH unit :=
  set_rungs empty_rungs ;;+ start_jobs 8 ;;+ asha_turns max_full es.
End Searches.

(** Gama._search_phase, gama.py:622-661, with start candidates, given or 50 random ones
    (gama.py:634). *)
Fixpoint random_individuals (ps : pset) (max_length : option Z) (n : nat) : MH (list individual) :=
  match n with
  | O => hret []
  | S n' => i <+ hgp (op_individual ps max_length) ;; l <+ random_individuals ps max_length n' ;; hret (i :: l)
  end.
Definition candidates (ps : pset) (max_length : option Z) (warm_start : list individual) : MH (list individual) :=
  match warm_start with
  | [] => random_individuals ps max_length 50
  | _ => hret warm_start
  end.
Definition rs_phase (ps : pset) (max_length max_n : option Z) (warm_start : list individual) (es : list event) : MH unit :=
  l <+ candidates ps max_length warm_start ;; random_search ps max_length max_n l es.
Definition asha_phase (ps : pset) (max_length : option Z) (eta first_rung : nat) (max_rung : Z) (max_full : option Z)
    (warm_start : list individual) (es : list event) : MH unit :=
  l <+ candidates ps max_length warm_start ;;
  (fun w => asha ps max_length eta first_rung max_rung max_full es (mkH (q_st w) (q_jobs w) l (q_rungs w) (q_out w) (q_trace w))).
(** A process with these objects, random numbers and ids. *)
Definition fresh_h (s : st) : hst := mkH s [] [] [] [] [].

(** Property theorems; proofs in Proc_Main.v. *)
Require Import Permutation QArith.
From Verif Require Import Base Num Gp_Model Gp_Spec Gp_Examples Lib_Spec Eval_Model Evo_Model Evo_Spec Evo_Main Rnd_Model Rnd_Spec End_Model End_Spec Proc_Model Proc_Spec.
From Verif Require Async_Model Sys_Model Sys_Main.
From Verif Require Import End_Main.
Open Scope nat_scope.
Open Scope list_scope.
From Verif Require Import Proc_Main.

(** C160.  The evolutionary search on pipelines with its worker processes: however they take
    turns, and whichever of them die, the search behaves like one in which the evaluations
    finish one after the other ([Evo_Model.v], C144-C147, C151, C154), with scores of
    evaluations. *)
Theorem C160_schedule :
  forall call scores n log defaults ps max_length max_retry pop_size max_n restart warm_start (s : setting) plan x w p,
  p_search call scores ps max_length max_retry pop_size max_n restart n log defaults warm_start (before_search s plan) = (x, (w, p)) ->
  exists events outstanding, length events <= length plan /\
    (forall e l failed, In e events -> e_out e = Evaluated l failed -> exists k, l = scores k) /\
    search ps max_length max_retry n pop_size max_n restart warm_start events (fresh_search s) =
      (x, mkEvo (v_st w) (v_pop w) outstanding (v_saved w) (v_trace w)).
Proof. exact C160_schedule_main. Qed.
Print Assumptions C160_schedule.

(** C160: the results that were collected are those of different submissions: for each, a
    worker's call for this pipeline ended with this outcome. *)
Theorem C160_results :
  forall call scores n log defaults ps max_length max_retry pop_size max_n restart warm_start (s : setting) plan x w p,
  pset_typed ps -> 0 < max_retry -> wf_heap (s_heap s) -> start_ok ps None s warm_start -> NoDup (map i_id warm_start) ->
  p_search call scores ps max_length max_retry pop_size max_n restart n log defaults warm_start (before_search s plan) = (x, (w, p)) ->
  from_workers call scores defaults w.
Proof. exact C160_results_main. Qed.
Print Assumptions C160_results.

(** C160: every pipeline given to a worker is one of the search space, with at most
    max(m, 2m - 2) steps when max_pipeline_length is m (see C144). *)
Theorem C160_in_search_space :
  forall call scores n log defaults ps max_length max_retry pop_size max_n restart warm_start (s : setting) plan x w p i,
  pset_typed ps -> 0 < max_retry -> wf_heap (s_heap s) -> start_ok ps max_length s warm_start ->
  p_search call scores ps max_length max_retry pop_size max_n restart n log defaults warm_start (before_search s plan) = (x, (w, p)) ->
  In (Submitted i) (v_trace w) ->
  exists steps, is_pipeline (objects w) i steps /\ pipeline_ok ps steps /\
    match max_length with None => True | Some m => (Z.of_nat (length steps) <= Z.max m (2 * m - 2))%Z end.
Proof. exact C160_in_search_space_main. Qed.
Print Assumptions C160_in_search_space.

(** C160: the exceptions of C147 are all: with a search space with alternatives, no limit
    or one the operators can respect, and at least two scores (always as many) in every
    evaluation, the only exception that ends the search is that of selecting from fewer than
    three pipelines, whatever the workers do. *)
Theorem C160_exceptions :
  forall call scores n log defaults ps max_length max_retry pop_size max_n restart warm_start (s : setting) plan x w p k,
  pset_typed ps -> pset_rich ps -> roomy ps max_length -> 0 < max_retry -> 2 <= k -> (forall e, length (scores e) = k) ->
  wf_heap (s_heap s) -> start_ok ps max_length s warm_start -> (match max_n with Some m => (0 < m)%Z | None => True end) ->
  p_search call scores ps max_length max_retry pop_size max_n restart n log defaults warm_start (before_search s plan) = (x, (w, p)) ->
  x = Ok tt \/ x = Err Diverges \/ (x = Err ValueError /\ length (v_pop w) < 3).
Proof. exact C160_exceptions_main. Qed.
Print Assumptions C160_exceptions.

(** C160: and with any limit and any number of scores: the exceptions of C147. *)
Theorem C160_breakdown :
  forall call scores n log defaults ps max_length max_retry pop_size max_n restart warm_start (s : setting) plan x w p k,
  pset_typed ps -> pset_rich ps -> match max_length with None => True | Some m => (1 <= m)%Z end -> 0 < max_retry -> (forall e, length (scores e) = k) ->
  wf_heap (s_heap s) -> start_ok ps max_length s warm_start -> (match max_n with Some m => (0 < m)%Z | None => True end) ->
  p_search call scores ps max_length max_retry pop_size max_n restart n log defaults warm_start (before_search s plan) = (x, (w, p)) ->
  x = Ok tt \/ x = Err Diverges \/ (x = Err ValueError /\ length (v_pop w) < 3) \/ breakdown ps max_length k w x.
Proof. exact C160_breakdown_main. Qed.
Print Assumptions C160_breakdown.

(** C161.  Random search with its worker processes. *)
Theorem C161_random :
  forall call scores n log defaults ps max_length max_n warm_start s plan x w p,
  q_rs_phase call scores ps max_length max_n n log defaults warm_start (before_h s plan) = (x, (w, p)) ->
  exists events outstanding, length events <= length plan /\
    (forall e l failed, In e events -> e_out e = Evaluated l failed -> exists k, l = scores k) /\
    rs_phase ps max_length max_n warm_start events (fresh_h s) =
      (x, mkH (q_st w) outstanding (q_start w) (q_rungs w) (q_out w) (q_trace w)).
Proof. exact C161_random_main. Qed.
Print Assumptions C161_random.

Theorem C161_random_results :
  forall call scores n log defaults ps max_length max_n warm_start s plan x w p,
  wf_heap (s_heap s) -> start_ok ps max_length s warm_start -> NoDup (map i_id warm_start) ->
  q_rs_phase call scores ps max_length max_n n log defaults warm_start (before_h s plan) = (x, (w, p)) ->
  h_from_workers call scores defaults w /\ q_out w = results (q_trace w).
Proof. exact C161_random_results_main. Qed.
Print Assumptions C161_random_results.

(** C161: random search on worker processes never fails, whatever they do. *)
Theorem C161_random_runs :
  forall call scores n log defaults ps max_length max_n warm_start s plan x w p,
  wf_heap (s_heap s) -> start_ok ps max_length s warm_start -> pset_rich ps -> allows_one max_length ->
  q_rs_phase call scores ps max_length max_n n log defaults warm_start (before_h s plan) = (x, (w, p)) ->
  (x = Ok tt \/ x = Err Diverges) /\
  length (started (q_trace w)) = length (finished (q_trace w)) + match warm_start with [] => 50 | _ => length warm_start end.
Proof. exact C161_random_runs_main. Qed.
Print Assumptions C161_random_runs.

(** C161: ASHA. *)
Theorem C161_asha :
  forall call scores n log defaults ps max_length eta first_rung max_rung max_full warm_start s plan x w p,
  q_asha_phase call scores ps max_length eta first_rung max_rung max_full n log defaults warm_start (before_h s plan) = (x, (w, p)) ->
  exists events outstanding, length events <= length plan /\
    (forall e l failed, In e events -> e_out e = Evaluated l failed -> exists k, l = scores k) /\
    asha_phase ps max_length eta first_rung max_rung max_full warm_start events (fresh_h s) =
      (x, mkH (q_st w) outstanding (q_start w) (q_rungs w) (q_out w) (q_trace w)).
Proof. exact C161_asha_main. Qed.
Print Assumptions C161_asha.

Theorem C161_asha_results :
  forall call scores n log defaults ps max_length eta first_rung max_rung max_full warm_start s plan x w p,
  wf_heap (s_heap s) -> start_ok ps max_length s warm_start -> NoDup (map i_id warm_start) ->
  q_asha_phase call scores ps max_length eta first_rung max_rung max_full n log defaults warm_start (before_h s plan) = (x, (w, p)) ->
  h_from_workers call scores defaults w.
Proof. exact C161_asha_results_main. Qed.
Print Assumptions C161_asha_results.

(** C162.  fit with random search, on worker processes: whatever they do, the model's steps
    are those of the best of the results they delivered (no score is NaN), which is a
    pipeline of the search space that was given to a worker, whose call ended with this
    score. *)
Theorem C162_random :
  forall E (build : nat -> list (string * value) -> res E) fixed call scores n log defaults ps max_length max_n warm_start s plan steps w p,
  wf_heap (s_heap s) -> start_ok ps max_length s warm_start -> NoDup (map i_id warm_start) -> clear_names ps ->
  (forall k, Forall (fun x => x <> NaN) (scores k)) ->
  fit_random_p call scores build fixed ps max_length n log defaults max_n warm_start (before_h s plan) = (Ok steps, (w, p)) ->
  h_from_workers call scores defaults w /\
  exists m ss, In m (results (q_trace w)) /\ (forall m', In m' (results (q_trace w)) -> ~ lex_lt (m_fit m) (m_fit m')) /\
    is_pipeline (h_objects w) (m_ind m) ss /\ pipeline_ok ps ss /\ within max_length ss /\ made_from build fixed ss steps.
Proof. exact C162_random_main. Qed.
Print Assumptions C162_random.

(** C162: it fails only if the workers delivered no result in time. *)
Theorem C162_random_always :
  forall E (build : nat -> list (string * value) -> res E) fixed call scores n log defaults ps max_length max_n warm_start s plan x w p,
  wf_heap (s_heap s) -> start_ok ps max_length s warm_start -> pset_rich ps -> allows_one max_length ->
  (forall c kwargs, exists e, build c kwargs = Ok e) ->
  fit_random_p call scores build fixed ps max_length n log defaults max_n warm_start (before_h s plan) = (x, (w, p)) ->
  (results (q_trace w) = [] /\ x = Err IndexError) \/ (results (q_trace w) <> [] /\ exists steps, x = Ok steps).
Proof. exact C162_random_always_main. Qed.
Print Assumptions C162_random_always.

(** C162: with the evolutionary search, the best of the final population, and of all
    successes since the last restart if they were at most as many as the population can
    hold.  Missing: the best of all successes (see C151). *)
Theorem C162_evolutionary_partial :
  forall E (build : nat -> list (string * value) -> res E) fixed call scores n log defaults ps max_length max_retry pop_size max_n restart warm_start (s : setting) plan steps w p,
  pset_typed ps -> 0 < max_retry -> wf_heap (s_heap s) -> start_ok ps None s warm_start -> NoDup (map i_id warm_start) -> clear_names ps ->
  (forall k, Forall (fun x => x <> NaN) (scores k)) ->
  fit_evo_p call scores build fixed ps max_length n log defaults max_retry pop_size max_n restart warm_start (before_search s plan) = (Ok steps, (w, p)) ->
  let found := successes (since_restart (v_trace w)) in
  from_workers call scores defaults w /\ incl (v_pop w) found /\
  exists m ss, In m (v_pop w) /\ (forall m', In m' (v_pop w) -> ~ lex_lt (m_fit m) (m_fit m')) /\
    (length found <= pop_size -> forall m', In m' found -> ~ lex_lt (m_fit m) (m_fit m')) /\
    is_pipeline (objects w) (m_ind m) ss /\ pipeline_ok ps ss /\ made_from build fixed ss steps.
Proof. exact C162_evolutionary_partial_main. Qed.
Print Assumptions C162_evolutionary_partial.

(** C162: with ASHA, the best of the results for the highest rung for which there is one. *)
Theorem C162_asha :
  forall E (build : nat -> list (string * value) -> res E) fixed call scores n log defaults ps max_length eta first_rung max_rung max_full warm_start s plan steps w p,
  wf_heap (s_heap s) -> start_ok ps max_length s warm_start -> NoDup (map i_id warm_start) -> pset_rich ps -> allows_one max_length -> clear_names ps ->
  (Z.of_nat first_rung <= max_rung)%Z -> (forall k, scores k <> []) -> (forall k, Forall (fun x => x <> NaN) (scores k)) ->
  fit_asha_p call scores build fixed ps max_length n log defaults eta first_rung max_rung max_full warm_start (before_h s plan) = (Ok steps, (w, p)) ->
  h_from_workers call scores defaults w /\
  exists r m ss, In m (map snd (scored r (q_trace w))) /\ (forall r', r < r' -> scored r' (q_trace w) = []) /\
    (forall m', In m' (map snd (scored r (q_trace w))) -> ~ lex_lt (m_fit m) (m_fit m')) /\
    is_pipeline (h_objects w) (m_ind m) ss /\ pipeline_ok ps ss /\ within max_length ss /\ made_from build fixed ss steps.
Proof. exact C162_asha_main. Qed.
Print Assumptions C162_asha.

Theorem C162_asha_always :
  forall E (build : nat -> list (string * value) -> res E) fixed call scores n log defaults ps max_length eta first_rung max_rung max_full warm_start s plan x w p,
  wf_heap (s_heap s) -> start_ok ps max_length s warm_start -> pset_rich ps -> allows_one max_length ->
  (Z.of_nat first_rung <= max_rung)%Z -> (forall k, scores k <> []) -> (match max_full with None => True | Some m => (0 < m)%Z end) ->
  (forall c kwargs, exists e, build c kwargs = Ok e) ->
  fit_asha_p call scores build fixed ps max_length n log defaults eta first_rung max_rung max_full warm_start (before_h s plan) = (x, (w, p)) ->
  ((forall r, scored r (q_trace w) = []) /\ x = Err UnboundLocalError) \/
  ((exists r, scored r (q_trace w) <> []) /\ exists steps, x = Ok steps).
Proof. exact C162_asha_always_main. Qed.
Print Assumptions C162_asha_always.

Example C160_ex :
  pset_typed ex_ps /\ pset_rich ex_ps /\ wf_heap (s_heap (ex_begin [])) /\ start_ok ex_ps None (ex_begin []) [] /\
  fst ex_evo = Err Diverges /\
  map (fun x => (i_id (fst x), snd x)) (collections (v_trace (fst (snd ex_evo)))) =
    [(5, Evaluated [Fin 0; Fin 0] false); (6, Evaluated [Fin 1; Fin 0] false); (8, Evaluated [Fin (3 # 1); Fin 0] false);
     (10, Evaluated [Fin (5 # 1); Fin 0] true); (9, Evaluated [Fin (4 # 1); Fin 0] false)] /\
  map i_id (submitted (v_trace (fst (snd ex_evo)))) = seq 5 50.
Proof. exact C160_ex_main. Qed.

Example C161_ex :
  start_ok ex_ps (Some 3%Z) (ex_begin []) ex_start /\ NoDup (map i_id ex_start) /\
  fst ex_rs = Err Diverges /\
  map (fun x => (i_id (fst (fst x)), snd x)) (arrivals (q_trace (fst (snd ex_rs)))) =
    [(0, Evaluated [Fin 0; Fin 0] false); (1, Evaluated [Fin 1; Fin 0] false); (3, Evaluated [Fin (3 # 1); Fin 0] false);
     (4, Evaluated [Fin (4 # 1); Fin 0] false)] /\
  map (fun x => i_id (fst x)) (started (q_trace (fst (snd ex_rs)))) = seq 0 9 /\
  fst ex_asha = Err Diverges /\
  map (fun x => (i_id (fst (fst x)), snd x)) (arrivals (q_trace (fst (snd ex_asha)))) =
    [(4, Evaluated [Fin 0; Fin 0] false); (3, Evaluated [Fin 1; Fin 0] false); (1, Evaluated [Fin (3 # 1); Fin 0] false)] /\
  map (fun x => (i_id (fst x), snd x)) (started (q_trace (fst (snd ex_asha)))) =
    [(4, 0); (3, 0); (2, 0); (1, 0); (0, 0); (5, 0); (6, 0); (7, 0); (8, 0); (9, 0); (1, 1)].
Proof. exact C161_ex_main. Qed.

Example C162_ex :
  clear_names ex_ps /\ (forall k, Sys_Main.ex_scores k <> []) /\ (forall k, Forall (fun x => x <> NaN) (Sys_Main.ex_scores k)) /\
  fst (fit_random_p Sys_Main.ex_call Sys_Main.ex_scores ex_class [("imp"%string, 9)] ex_ps (Some 3%Z) 2 true [] None ex_start (before_h (ex_begin []) Sys_Main.ex_plan)) =
    Ok [("imp", 9); ("1", 3); ("0", 1)]%string /\
  (exists steps, fst (fit_evo_p Sys_Main.ex_call Sys_Main.ex_scores ex_class [("imp"%string, 9)] ex_ps None 2 true [] 50 5 None false [] (before_search (first_fit (ex_begin [])) ex_plan50)) = Ok steps) /\
  fst (fit_asha_p Sys_Main.ex_call Sys_Main.ex_scores ex_class [("imp"%string, 9)] ex_ps (Some 3%Z) 2 true [] 3 0 2%Z (Some 1%Z) ex_start (before_h (ex_begin []) Sys_Main.ex_plan)) =
    Ok [("imp", 9); ("2", 3); ("1", 2); ("0", 0)]%string /\
  (* no result in time *)
  fst (fit_random_p Sys_Main.ex_call Sys_Main.ex_scores ex_class [("imp"%string, 9)] ex_ps (Some 3%Z) 2 true [] None ex_start (before_h (ex_begin []) [])) = Err IndexError.
Proof. exact C162_ex_main. Qed.

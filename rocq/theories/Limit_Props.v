(** Property theorems; proofs in Limit_Main.v. *)
Require Import Permutation QArith.
From Verif Require Import Base Num Gp_Model Gp_Spec Gp_Examples Lib_Spec Eval_Model Evo_Model Evo_Spec Evo_Main Rnd_Model Rnd_Spec End_Model End_Spec Proc_Model Proc_Spec Limit_Model Limit_Spec.
From Verif Require Async_Model Sys_Model Sys_Main.
From Verif Require Import End_Main.
Open Scope nat_scope.
Open Scope list_scope.
From Verif Require Import Limit_Main.

(** C165.  Random search with a limit on memory use: whichever workers are stopped, every
    pipeline given to a worker is from the search space, within the limit on its length. *)
Theorem C165_random_in_search_space :
  forall call scores limit n log defaults ps max_length max_n warm_start s plan x w p i r,
  wf_heap (s_heap s) -> start_ok ps max_length s warm_start ->
  l_rs_phase call scores limit ps max_length max_n n log defaults warm_start (before_h s plan) = (x, (w, p)) ->
  In (Started i r) (q_trace w) ->
  exists ss, is_pipeline (h_objects w) i ss /\ pipeline_ok ps ss /\ within max_length ss.
Proof. exact C165_random_in_search_space_main. Qed.
Print Assumptions C165_random_in_search_space.

(** C165: its results are those of workers' calls for different submissions, and all that
    were delivered. *)
Theorem C165_random_results :
  forall call scores limit n log defaults ps max_length max_n warm_start s plan x w p,
  wf_heap (s_heap s) -> start_ok ps max_length s warm_start -> NoDup (map i_id warm_start) ->
  l_rs_phase call scores limit ps max_length max_n n log defaults warm_start (before_h s plan) = (x, (w, p)) ->
  h_from_workers call scores defaults w /\ q_out w = results (q_trace w).
Proof. exact C165_random_results_main. Qed.
Print Assumptions C165_random_results.

(** C165: it fails only with the evaluator's ValueError, and that needs a worker that is gone
    when its memory use is to be read. *)
Theorem C165_random_runs :
  forall call scores limit n log defaults ps max_length max_n warm_start s plan x w p,
  wf_heap (s_heap s) -> start_ok ps max_length s warm_start -> pset_rich ps -> allows_one max_length ->
  l_rs_phase call scores limit ps max_length max_n n log defaults warm_start (before_h s plan) = (x, (w, p)) ->
  (x = Ok tt \/ x = Err Diverges \/ (x = Err ValueError /\ unreadable n plan)) /\
  length (started (q_trace w)) = length (finished (q_trace w)) + match warm_start with [] => 50 | _ => length warm_start end.
Proof. exact C165_random_runs_main. Qed.
Print Assumptions C165_random_runs.

(** C165: ASHA. *)
Theorem C165_asha_in_search_space :
  forall call scores limit n log defaults ps max_length eta first_rung max_rung max_full warm_start s plan x w p i r,
  wf_heap (s_heap s) -> start_ok ps max_length s warm_start ->
  l_asha_phase call scores limit ps max_length eta first_rung max_rung max_full n log defaults warm_start (before_h s plan) = (x, (w, p)) ->
  In (Started i r) (q_trace w) ->
  first_rung <= r /\ (Z.of_nat r <= max_rung)%Z /\
  exists ss, is_pipeline (h_objects w) i ss /\ pipeline_ok ps ss /\ within max_length ss.
Proof. exact C165_asha_in_search_space_main. Qed.
Print Assumptions C165_asha_in_search_space.

Theorem C165_asha_results :
  forall call scores limit n log defaults ps max_length eta first_rung max_rung max_full warm_start s plan x w p,
  wf_heap (s_heap s) -> start_ok ps max_length s warm_start -> NoDup (map i_id warm_start) ->
  l_asha_phase call scores limit ps max_length eta first_rung max_rung max_full n log defaults warm_start (before_h s plan) = (x, (w, p)) ->
  h_from_workers call scores defaults w.
Proof. exact C165_asha_results_main. Qed.
Print Assumptions C165_asha_results.

(** C165: what ASHA promotes, with a limit: as C149. *)
Theorem C165_asha_promoted :
  forall call scores limit n log defaults ps max_length eta first_rung max_rung max_full warm_start s plan x w p t1 i r t2,
  wf_heap (s_heap s) -> start_ok ps max_length s warm_start ->
  l_asha_phase call scores limit ps max_length eta first_rung max_rung max_full n log defaults warm_start (before_h s plan) = (x, (w, p)) ->
  q_trace w = t1 ++ Started i r :: t2 ->
  r = first_rung \/
  exists below score m, r = S below /\ In (score, m) (scored below t1) /\ m_ind m = i /\
    eta * S (length (started_on r t1)) <= length (scored below t1) /\
    ((forall e, In e (scored below t1) -> fst e <> NaN) ->
     forall score' m', In (score', m') (scored below t1) -> ~ In (i_id (m_ind m')) (map i_id (started_on r t1)) -> nle score' score).
Proof. exact C165_asha_promoted_main. Qed.
Print Assumptions C165_asha_promoted.

Theorem C165_asha_runs :
  forall call scores limit n log defaults ps max_length eta first_rung max_rung max_full warm_start s plan x w p,
  wf_heap (s_heap s) -> start_ok ps max_length s warm_start -> pset_rich ps -> allows_one max_length ->
  (Z.of_nat first_rung <= max_rung)%Z -> (forall k, scores k <> []) ->
  l_asha_phase call scores limit ps max_length eta first_rung max_rung max_full n log defaults warm_start (before_h s plan) = (x, (w, p)) ->
  x = Ok tt \/ x = Err Diverges \/ (x = Err ValueError /\ unreadable n plan).
Proof. exact C165_asha_runs_main. Qed.
Print Assumptions C165_asha_runs.

(** C165: the evolutionary search. *)
Theorem C165_evolutionary_in_search_space :
  forall call scores limit n log defaults ps max_length max_retry pop_size max_n restart warm_start (s : setting) plan x w p i,
  pset_typed ps -> 0 < max_retry -> wf_heap (s_heap s) -> start_ok ps max_length s warm_start ->
  l_search call scores limit ps max_length max_retry pop_size max_n restart n log defaults warm_start (before_search s plan) = (x, (w, p)) ->
  In (Submitted i) (v_trace w) ->
  exists steps, is_pipeline (objects w) i steps /\ pipeline_ok ps steps /\
    match max_length with None => True | Some m => (Z.of_nat (length steps) <= Z.max m (2 * m - 2))%Z end.
Proof. exact C165_evolutionary_in_search_space_main. Qed.
Print Assumptions C165_evolutionary_in_search_space.

Theorem C165_evolutionary_results :
  forall call scores limit n log defaults ps max_length max_retry pop_size max_n restart warm_start (s : setting) plan x w p,
  pset_typed ps -> 0 < max_retry -> wf_heap (s_heap s) -> start_ok ps None s warm_start -> NoDup (map i_id warm_start) ->
  l_search call scores limit ps max_length max_retry pop_size max_n restart n log defaults warm_start (before_search s plan) = (x, (w, p)) ->
  from_workers call scores defaults w.
Proof. exact C165_evolutionary_results_main. Qed.
Print Assumptions C165_evolutionary_results.

(** C166.  fit with random search and a limit on memory use: whichever workers are stopped,
    the model's steps are those of the best of the results they delivered. *)
Theorem C166_random :
  forall E (build : nat -> list (string * value) -> res E) fixed call scores limit n log defaults ps max_length max_n warm_start s plan steps w p,
  wf_heap (s_heap s) -> start_ok ps max_length s warm_start -> NoDup (map i_id warm_start) -> clear_names ps ->
  (forall k, Forall (fun x => x <> NaN) (scores k)) ->
  fit_random_l call scores limit build fixed ps max_length n log defaults max_n warm_start (before_h s plan) = (Ok steps, (w, p)) ->
  h_from_workers call scores defaults w /\
  exists m ss, In m (results (q_trace w)) /\ (forall m', In m' (results (q_trace w)) -> ~ lex_lt (m_fit m) (m_fit m')) /\
    is_pipeline (h_objects w) (m_ind m) ss /\ pipeline_ok ps ss /\ within max_length ss /\ made_from build fixed ss steps.
Proof. exact C166_random_main. Qed.
Print Assumptions C166_random.

(** C166: it fails only if no result was delivered in time, or with the evaluator's
    ValueError. *)
Theorem C166_random_always :
  forall E (build : nat -> list (string * value) -> res E) fixed call scores limit n log defaults ps max_length max_n warm_start s plan x w p,
  wf_heap (s_heap s) -> start_ok ps max_length s warm_start -> pset_rich ps -> allows_one max_length ->
  (forall c kwargs, exists e, build c kwargs = Ok e) ->
  fit_random_l call scores limit build fixed ps max_length n log defaults max_n warm_start (before_h s plan) = (x, (w, p)) ->
  (results (q_trace w) = [] /\ x = Err IndexError) \/ (results (q_trace w) <> [] /\ exists steps, x = Ok steps) \/
  (x = Err ValueError /\ unreadable n plan).
Proof. exact C166_random_always_main. Qed.
Print Assumptions C166_random_always.

(** C166: with the evolutionary search, the best of the final population, and of all
    successes since the last restart if they were at most as many as the population can
    hold.  Missing: the best of all successes (see C151). *)
Theorem C166_evolutionary_partial :
  forall E (build : nat -> list (string * value) -> res E) fixed call scores limit n log defaults ps max_length max_retry pop_size max_n restart warm_start (s : setting) plan steps w p,
  pset_typed ps -> 0 < max_retry -> wf_heap (s_heap s) -> start_ok ps None s warm_start -> NoDup (map i_id warm_start) -> clear_names ps ->
  (forall k, Forall (fun x => x <> NaN) (scores k)) ->
  fit_evo_l call scores limit build fixed ps max_length n log defaults max_retry pop_size max_n restart warm_start (before_search s plan) = (Ok steps, (w, p)) ->
  let found := successes (since_restart (v_trace w)) in
  from_workers call scores defaults w /\ incl (v_pop w) found /\
  exists m ss, In m (v_pop w) /\ (forall m', In m' (v_pop w) -> ~ lex_lt (m_fit m) (m_fit m')) /\
    (length found <= pop_size -> forall m', In m' found -> ~ lex_lt (m_fit m) (m_fit m')) /\
    is_pipeline (objects w) (m_ind m) ss /\ pipeline_ok ps ss /\ made_from build fixed ss steps.
Proof. exact C166_evolutionary_partial_main. Qed.
Print Assumptions C166_evolutionary_partial.

(** C166: with ASHA, the best of the results for the highest rung for which there is one. *)
Theorem C166_asha :
  forall E (build : nat -> list (string * value) -> res E) fixed call scores limit n log defaults ps max_length eta first_rung max_rung max_full warm_start s plan steps w p,
  wf_heap (s_heap s) -> start_ok ps max_length s warm_start -> NoDup (map i_id warm_start) -> pset_rich ps -> allows_one max_length -> clear_names ps ->
  (Z.of_nat first_rung <= max_rung)%Z -> (forall k, scores k <> []) -> (forall k, Forall (fun x => x <> NaN) (scores k)) ->
  fit_asha_l call scores limit build fixed ps max_length n log defaults eta first_rung max_rung max_full warm_start (before_h s plan) = (Ok steps, (w, p)) ->
  h_from_workers call scores defaults w /\
  exists r m ss, In m (map snd (scored r (q_trace w))) /\ (forall r', r < r' -> scored r' (q_trace w) = []) /\
    (forall m', In m' (map snd (scored r (q_trace w))) -> ~ lex_lt (m_fit m) (m_fit m')) /\
    is_pipeline (h_objects w) (m_ind m) ss /\ pipeline_ok ps ss /\ within max_length ss /\ made_from build fixed ss steps.
Proof. exact C166_asha_main. Qed.
Print Assumptions C166_asha.

Theorem C166_asha_always :
  forall E (build : nat -> list (string * value) -> res E) fixed call scores limit n log defaults ps max_length eta first_rung max_rung max_full warm_start s plan x w p,
  wf_heap (s_heap s) -> start_ok ps max_length s warm_start -> pset_rich ps -> allows_one max_length ->
  (Z.of_nat first_rung <= max_rung)%Z -> (forall k, scores k <> []) -> (match max_full with None => True | Some m => (0 < m)%Z end) ->
  (forall c kwargs, exists e, build c kwargs = Ok e) ->
  fit_asha_l call scores limit build fixed ps max_length n log defaults eta first_rung max_rung max_full warm_start (before_h s plan) = (x, (w, p)) ->
  ((forall r, scored r (q_trace w) = []) /\ x = Err UnboundLocalError) \/
  ((exists r, scored r (q_trace w) <> []) /\ exists steps, x = Ok steps) \/
  (x = Err UnboundLocalError /\ unreadable n plan).
Proof. exact C166_asha_always_main. Qed.
Print Assumptions C166_asha_always.

(** C167.  With a limit on memory use, a search that is waiting for results can always still
    get one: false.  What is evaluated by a worker that is stopped is not evaluated again,
    and nothing is submitted in its place. *)
Theorem C167_goes_on_refuted :
  ~ (forall call scores limit n log defaults ps max_length max_n warm_start s plan w p,
     0 < n -> (forall fn args kwargs choice, exists k, call fn args kwargs choice = Async_Model.Ret (Async_Model.VEval k Async_Model.NoError)) ->
     wf_heap (s_heap s) -> start_ok ps max_length s warm_start -> pset_rich ps -> allows_one max_length -> Forall all_read plan ->
     l_rs_phase call scores limit ps max_length max_n n log defaults warm_start (before_h s plan) = (Err Diverges, (w, p)) ->
     exists plan' x' w' p',
       l_rs_phase call scores limit ps max_length max_n n log defaults warm_start (before_h s (plan ++ plan')) = (x', (w', p')) /\
       length (arrivals (q_trace w)) < length (arrivals (q_trace w'))).
Proof. exact C167_goes_on_refuted_main. Qed.
Print Assumptions C167_goes_on_refuted.

Example C165_ex :
  pset_typed ex_ps /\ pset_rich ex_ps /\ wf_heap (s_heap (ex_begin [])) /\ start_ok ex_ps (Some 3%Z) (ex_begin []) ex_start /\ NoDup (map i_id ex_start) /\ Forall all_read (limit_plan 5) /\
  fst (ex_lrs (limit_plan 5)) = Err Diverges /\
  map (fun x => (i_id (fst (fst x)), snd x)) (arrivals (q_trace (fst (snd (ex_lrs (limit_plan 5)))))) =
    [(0, Evaluated [Fin 0; Fin 0] false); (1, Evaluated [Fin 1; Fin 0] false); (3, Evaluated [Fin (3 # 1); Fin 0] false)] /\
  map (fun x => i_id (fst x)) (started (q_trace (fst (snd (ex_lrs (limit_plan 5)))))) = seq 0 8 /\
  fst (ex_lasha (limit_plan 8)) = Err Diverges /\
  map (fun x => (i_id (fst (fst x)), snd x)) (arrivals (q_trace (fst (snd (ex_lasha (limit_plan 8)))))) =
    [(4, Evaluated [Fin 0; Fin 0] false); (3, Evaluated [Fin 1; Fin 0] false); (1, Evaluated [Fin (3 # 1); Fin 0] false)] /\
  fst (ex_levo (limit_plan 50)) = Err Diverges /\
  map (fun x => (i_id (fst x), snd x)) (collections (v_trace (fst (snd (ex_levo (limit_plan 50)))))) =
    [(5, Evaluated [Fin 0; Fin 0] false); (6, Evaluated [Fin 1; Fin 0] false); (8, Evaluated [Fin (3 # 1); Fin 0] false); (9, Evaluated [Fin (4 # 1); Fin 0] false); (10, Evaluated [Fin (5 # 1); Fin 0] false)] /\
  (* processes that cannot be read *)
  fst (ex_lrs (gone_plan 5)) = Err ValueError /\ fst (ex_lasha (gone_plan 8)) = Err ValueError /\ fst (ex_levo (gone_plan 50)) = Err ValueError /\ ~ Forall all_read (gone_plan 5).
Proof. exact C165_ex_main. Qed.

Example C166_ex :
  clear_names ex_ps /\ (forall k, Sys_Main.ex_scores k <> []) /\ (forall k, Forall (fun x => x <> NaN) (Sys_Main.ex_scores k)) /\
  fst (fit_random_l fine_call Sys_Main.ex_scores (Some 100) ex_class [("imp"%string, 9)] ex_ps (Some 3%Z) 2 true [] None ex_start (before_h (ex_begin []) (limit_plan 5))) =
    Ok [("imp", 9); ("0", 0)]%string /\
  fst (fit_asha_l fine_call Sys_Main.ex_scores (Some 100) ex_class [("imp"%string, 9)] ex_ps (Some 3%Z) 2 true [] 3 0 2%Z (Some 1%Z) ex_start (before_h (ex_begin []) (limit_plan 8))) =
    Ok [("imp", 9); ("2", 3); ("1", 2); ("0", 0)]%string /\
  (exists steps, fst (fit_evo_l fine_call Sys_Main.ex_scores (Some 100) ex_class [("imp"%string, 9)] ex_ps None 2 true [] 50 5 None false [] (before_search (first_fit (ex_begin [])) (limit_plan 50))) = Ok steps) /\
  (* no result in time *)
  fst (fit_random_l fine_call Sys_Main.ex_scores (Some 100) ex_class [("imp"%string, 9)] ex_ps (Some 3%Z) 1 true [] None [the_first] (before_h (ex_begin []) lost_plan)) = Err IndexError /\
  (* processes that cannot be read *)
  fst (fit_random_l fine_call Sys_Main.ex_scores (Some 100) ex_class [("imp"%string, 9)] ex_ps (Some 3%Z) 2 true [] None ex_start (before_h (ex_begin []) (gone_plan 5))) = Err ValueError /\
  fst (fit_asha_l fine_call Sys_Main.ex_scores (Some 100) ex_class [("imp"%string, 9)] ex_ps (Some 3%Z) 2 true [] 3 0 2%Z (Some 1%Z) ex_start (before_h (ex_begin []) (gone_plan 8))) = Err UnboundLocalError.
Proof. exact C166_ex_main. Qed.

(** Property theorems; proofs in End_Main.v. *)
Require Import Permutation QArith.
From Verif Require Import Base Num Gp_Model Gp_Spec Gp_Examples Lib_Spec Eval_Model Evo_Model Evo_Spec Evo_Main Rnd_Model Rnd_Spec End_Model End_Spec.
Open Scope nat_scope.
Open Scope list_scope.
From Verif Require Import End_Main.

(** C150.  fit with random search: the model's steps are those of one of the pipelines
    evaluated (failed evaluations included), from the search space and within the limit,
    and no other had a better score: by the first metric, then the second, and so on. *)
Theorem C150_best :
  forall E (build : nat -> list (string * value) -> res E) fixed ps max_length max_n warm_start events s steps w,
  wf_heap (s_heap s) -> start_ok ps max_length s warm_start -> clear_names ps ->
  fit_random build fixed ps max_length max_n warm_start events (fresh_h s) = (Ok steps, w) ->
  Forall numeric (results (q_trace w)) ->
  exists m ss, In m (results (q_trace w)) /\ (forall m', In m' (results (q_trace w)) -> ~ lex_lt (m_fit m) (m_fit m')) /\
    is_pipeline (h_objects w) (m_ind m) ss /\ pipeline_ok ps ss /\ within max_length ss /\
    made_from build fixed ss steps.
Proof. exact C150_best_main. Qed.
Print Assumptions C150_best.

(** C150: with a search space from which pipelines can be made and estimators that can be
    constructed, fit with random search fails only if no evaluation was finished in time. *)
Theorem C150_always :
  forall E (build : nat -> list (string * value) -> res E) fixed ps max_length max_n warm_start events s x w,
  wf_heap (s_heap s) -> start_ok ps max_length s warm_start -> pset_rich ps -> allows_one max_length ->
  (forall c kwargs, exists e, build c kwargs = Ok e) ->
  fit_random build fixed ps max_length max_n warm_start events (fresh_h s) = (x, w) ->
  (results (q_trace w) = [] /\ x = Err IndexError) \/ (results (q_trace w) <> [] /\ exists steps, x = Ok steps).
Proof. exact C150_always_main. Qed.
Print Assumptions C150_always.

(** C151.  fit with the evolutionary search: the model's steps are those of a pipeline of
    the search space that was evaluated successfully, and the best of the final
    population; it is the best of all successes since the last restart if they were at most
    as many as the population can hold.  Missing: the best of all successes. *)
Theorem C151_best_partial :
  forall E (build : nat -> list (string * value) -> res E) fixed ps max_length max_retry workers pop_size max_n restart warm_start events (s : setting) steps w,
  pset_typed ps -> 0 < max_retry -> wf_heap (s_heap s) -> start_ok ps None s warm_start -> clear_names ps ->
  fit_evo build fixed ps max_length max_retry workers pop_size max_n restart warm_start events (fresh_search s) = (Ok steps, w) ->
  let found := successes (since_restart (v_trace w)) in
  Forall numeric found ->
  incl (v_pop w) found /\
  exists m ss, In m (v_pop w) /\ (forall m', In m' (v_pop w) -> ~ lex_lt (m_fit m) (m_fit m')) /\
    (length found <= pop_size -> forall m', In m' found -> ~ lex_lt (m_fit m) (m_fit m')) /\
    is_pipeline (objects w) (m_ind m) ss /\ pipeline_ok ps ss /\ made_from build fixed ss steps.
Proof. exact C151_best_partial_main. Qed.
Print Assumptions C151_best_partial.

Theorem C151_best_refuted :
  ~ (forall E (build : nat -> list (string * value) -> res E) fixed ps max_length max_retry workers pop_size max_n restart warm_start events (s : setting) steps w,
     pset_typed ps -> pset_rich ps -> 0 < max_retry -> 3 <= pop_size -> wf_heap (s_heap s) -> start_ok ps None s warm_start -> clear_names ps ->
     fit_evo build fixed ps max_length max_retry workers pop_size max_n restart warm_start events (fresh_search s) = (Ok steps, w) ->
     let found := successes (since_restart (v_trace w)) in
     Forall numeric found ->
     exists m ss, In m found /\ (forall m', In m' found -> ~ lex_lt (m_fit m) (m_fit m')) /\
       is_pipeline (objects w) (m_ind m) ss /\ made_from build fixed ss steps).
Proof. exact C151_best_refuted_main. Qed.
Print Assumptions C151_best_refuted.

(** C151: without a length limit, or with one the operators can respect, enough start
    candidates and enough successes among the first results, fit with the evolutionary
    search returns a model. *)
Theorem C151_always_partial :
  forall E (build : nat -> list (string * value) -> res E) fixed ps max_length max_retry workers pop_size warm_start events k (s : setting) x w,
  pset_typed ps -> pset_rich ps -> roomy ps max_length -> 0 < max_retry -> 2 <= k -> 3 <= pop_size ->
  wf_heap (s_heap s) -> start_ok ps max_length s warm_start -> workers + 4 <= length warm_start -> Forall (calm k) events ->
  (forall l1 l2, events = l1 ++ l2 -> length warm_start - workers - 1 <= length l1 -> 3 <= n_succeeded l1) ->
  (forall c kwargs, exists e, build c kwargs = Ok e) ->
  fit_evo build fixed ps max_length max_retry workers pop_size None false warm_start events (fresh_search s) = (x, w) ->
  (n_succeeded events = 0 /\ x = Err IndexError) \/ (0 < n_succeeded events /\ exists steps, x = Ok steps).
Proof. exact C151_always_partial_main. Qed.
Print Assumptions C151_always_partial.

(** C152.  fit with ASHA: the model's steps are those of a pipeline evaluated on the
    highest rung with any result, and the best of those; from the search space and within
    the limit. *)
Theorem C152_best :
  forall E (build : nat -> list (string * value) -> res E) fixed ps max_length eta first_rung max_rung max_full warm_start events s steps w,
  wf_heap (s_heap s) -> start_ok ps max_length s warm_start -> pset_rich ps -> allows_one max_length -> clear_names ps ->
  (Z.of_nat first_rung <= max_rung)%Z -> Forall has_score events ->
  fit_asha build fixed ps max_length eta first_rung max_rung max_full warm_start events (fresh_h s) = (Ok steps, w) ->
  (forall r, Forall numeric (map snd (scored r (q_trace w)))) ->
  exists r m ss, In m (map snd (scored r (q_trace w))) /\ (forall r', r < r' -> scored r' (q_trace w) = []) /\
    (forall m', In m' (map snd (scored r (q_trace w))) -> ~ lex_lt (m_fit m) (m_fit m')) /\
    is_pipeline (h_objects w) (m_ind m) ss /\ pipeline_ok ps ss /\ within max_length ss /\
    made_from build fixed ss steps.
Proof. exact C152_best_main. Qed.
Print Assumptions C152_best.

(** C152: with a search space from which pipelines can be made and estimators that can be
    constructed, fit with ASHA fails only if there is no result on any rung. *)
Theorem C152_always :
  forall E (build : nat -> list (string * value) -> res E) fixed ps max_length eta first_rung max_rung max_full warm_start events s x w,
  wf_heap (s_heap s) -> start_ok ps max_length s warm_start -> pset_rich ps -> allows_one max_length ->
  (Z.of_nat first_rung <= max_rung)%Z -> Forall has_score events ->
  (match max_full with None => True | Some m => (0 < m)%Z end) ->
  (forall c kwargs, exists e, build c kwargs = Ok e) ->
  fit_asha build fixed ps max_length eta first_rung max_rung max_full warm_start events (fresh_h s) = (x, w) ->
  ((forall r, scored r (q_trace w) = []) /\ x = Err UnboundLocalError) \/
  ((exists r, scored r (q_trace w) <> []) /\ exists steps, x = Ok steps).
Proof. exact C152_always_main. Qed.
Print Assumptions C152_always.

Example C150_ex :
  clear_names ex_ps /\ fst ex_fit_rs = Ok [("imp", 9); ("2", 2); ("1", 3); ("0", 1)]%string /\
  map (fun m => (i_id (m_ind m), m_fit m)) (results (q_trace (snd ex_fit_rs))) = [(0, [Fin 1; Fin (-3 # 1)]); (4, [Fin 0; Fin 0]); (2, [Fin (2 # 1); Fin (-3 # 1)])] /\
  Forall numeric (results (q_trace (snd ex_fit_rs))) /\
  (* nothing evaluated *)
  fst (fit_random ex_class [] ex_ps (Some 3%Z) None ex_start [ex_crash] (fresh_h (ex_begin []))) = Err IndexError.
Proof. exact C150_ex_main. Qed.

Example C151_ex :
  fst ex_fit_evo = Ok [("imp", 9); ("2", 3); ("1", 2); ("0", 0)]%string /\
  map (fun m => (i_id (m_ind m), m_fit m)) (successes (since_restart (v_trace (snd ex_fit_evo)))) =
    [(0, [Fin 1; Fin (-3 # 1)]); (1, [Fin (4 # 1); Fin (-3 # 1)]); (2, [Fin (3 # 1); Fin (-3 # 1)]); (3, [Fin (2 # 1); Fin (-3 # 1)])] /\
  Forall numeric (successes (since_restart (v_trace (snd ex_fit_evo)))).
Proof. exact C151_ex_main. Qed.

Example C152_ex :
  (* to the end, stopped on the middle rung, on the first, and before any result *)
  (exists steps, fst (ex_fit_asha 26) = Ok steps) /\ map (fun e => i_id (m_ind (snd e))) (scored 2 (q_trace (snd (ex_fit_asha 26)))) = [8] /\
  (exists steps, fst (ex_fit_asha 20) = Ok steps) /\ scored 2 (q_trace (snd (ex_fit_asha 20))) = [] /\
  map (fun e => (i_id (m_ind (snd e)), fst e)) (scored 1 (q_trace (snd (ex_fit_asha 20)))) = [(4, Fin (11 # 1)); (5, Fin (14 # 1)); (8, Fin (17 # 1))] /\
  (exists steps, fst (ex_fit_asha 2) = Ok steps) /\ fst (ex_fit_asha 0) = Err UnboundLocalError /\
  Forall numeric (map snd (scored 1 (q_trace (snd (ex_fit_asha 20))))).
Proof. exact C152_ex_main. Qed.

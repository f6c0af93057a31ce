(** Property theorems; proofs in Later_Main.v. *)
Require Import ZArith QArith.
From Verif Require Import Base Num Gp_Model Gp_Spec Gp_Examples Lib_Spec Eval_Model Evo_Model Evo_Spec Evo_Main Rnd_Model Rnd_Spec End_Model End_Spec Proc_Model Proc_Spec Limit_Model Limit_Spec Later_Spec.
From Verif Require Async_Model Sys_Model Sys_Main.
From Verif Require Import End_Main.
From Verif Require Limit_Main Live_Main.
Open Scope nat_scope.
Open Scope list_scope.
From Verif Require Import Later_Main.

(** C178: random search: stopped when [plan] was over, or as it ends with [later] too. *)
Theorem C178_random :
  forall call scores limit n log defaults ps max_length max_n warm_start s plan later x w p x' w' p',
  l_rs_phase call scores limit ps max_length max_n n log defaults warm_start (before_h s plan) = (x, (w, p)) ->
  l_rs_phase call scores limit ps max_length max_n n log defaults warm_start (before_h s (plan ++ later)) = (x', (w', p')) ->
  (x = Err Diverges /\ prefix (q_trace w) (q_trace w') /\ prefix (q_out w) (q_out w')) \/ (x' = x /\ w' = w).
Proof. exact C178_random_main. Qed.
Print Assumptions C178_random.

(** C178: ASHA. *)
Theorem C178_asha :
  forall call scores limit n log defaults ps max_length eta first_rung max_rung max_full warm_start s plan later x w p x' w' p',
  l_asha_phase call scores limit ps max_length eta first_rung max_rung max_full n log defaults warm_start (before_h s plan) = (x, (w, p)) ->
  l_asha_phase call scores limit ps max_length eta first_rung max_rung max_full n log defaults warm_start (before_h s (plan ++ later)) = (x', (w', p')) ->
  (x = Err Diverges /\ prefix (q_trace w) (q_trace w')) \/ (x' = x /\ w' = w).
Proof. exact C178_asha_main. Qed.
Print Assumptions C178_asha.

(** C178: the evolutionary search. *)
Theorem C178_evolutionary :
  forall call scores limit n log defaults ps max_length max_retry pop_size max_n restart warm_start (s : setting) plan later x w p x' w' p',
  l_search call scores limit ps max_length max_retry pop_size max_n restart n log defaults warm_start (before_search s plan) = (x, (w, p)) ->
  l_search call scores limit ps max_length max_retry pop_size max_n restart n log defaults warm_start (before_search s (plan ++ later)) = (x', (w', p')) ->
  (x = Err Diverges /\ prefix (v_trace w) (v_trace w')) \/ (x' = x /\ w' = w).
Proof. exact C178_evolutionary_main. Qed.
Print Assumptions C178_evolutionary.

(** C179: more time for random search does not give a worse model.  Missing: the other two
    searches, for which this is false. *)
Theorem C179_random_partial :
  forall E (build : nat -> list (string * value) -> res E) fixed call scores limit n log defaults ps max_length max_n warm_start s plan later steps w p steps' w' p',
  wf_heap (s_heap s) -> start_ok ps max_length s warm_start -> NoDup (map i_id warm_start) -> clear_names ps ->
  (forall k, Forall (fun x => x <> NaN) (scores k)) ->
  fit_random_l call scores limit build fixed ps max_length n log defaults max_n warm_start (before_h s plan) = (Ok steps, (w, p)) ->
  fit_random_l call scores limit build fixed ps max_length n log defaults max_n warm_start (before_h s (plan ++ later)) = (Ok steps', (w', p')) ->
  exists m ss m' ss',
    In m (results (q_trace w)) /\ is_pipeline (h_objects w) (m_ind m) ss /\ made_from build fixed ss steps /\
    In m' (results (q_trace w')) /\ is_pipeline (h_objects w') (m_ind m') ss' /\ made_from build fixed ss' steps' /\
    ~ lex_lt (m_fit m') (m_fit m).
Proof. exact C179_random_partial_main. Qed.
Print Assumptions C179_random_partial.

(** C179: and where fit returned a model, it returns one with more time: unless the memory
    use of the processes cannot be read any more. *)
Theorem C179_random_still :
  forall E (build : nat -> list (string * value) -> res E) fixed call scores limit n log defaults ps max_length max_n warm_start s plan later steps w p x' w' p',
  wf_heap (s_heap s) -> start_ok ps max_length s warm_start -> pset_rich ps -> allows_one max_length ->
  (forall c kwargs, exists e, build c kwargs = Ok e) ->
  fit_random_l call scores limit build fixed ps max_length n log defaults max_n warm_start (before_h s plan) = (Ok steps, (w, p)) ->
  fit_random_l call scores limit build fixed ps max_length n log defaults max_n warm_start (before_h s (plan ++ later)) = (x', (w', p')) ->
  (exists steps', x' = Ok steps') \/ (x' = Err ValueError /\ unreadable n (plan ++ later)).
Proof. exact C179_random_still_main. Qed.
Print Assumptions C179_random_still.

Example C178_ex :
  fst (ex_rs None (ex_short 5)) = Err Diverges /\ ids_q (ex_rs None (ex_short 5)) = [1] /\ ids_q (ex_rs None (ex_short 5 ++ ex_more)) = [1; 0; 3; 2] /\
  (* an end is the same end *)
  fst (ex_rs (Some 1%Z) (ex_short 5)) = Ok tt /\ ids_q (ex_rs (Some 1%Z) (ex_short 5)) = [1] /\ ids_q (ex_rs (Some 1%Z) (ex_short 5 ++ ex_more)) = [1] /\
  ids_q (ex_asha (ex_short 8)) = [3] /\ ids_q (ex_asha (ex_short 8 ++ ex_more)) = [3; 4; 1; 2] /\
  ids_v (ex_evo (ex_short 50)) = [6; 5] /\ ids_v (ex_evo (ex_short 50 ++ ex_more)) = [6; 5; 8; 7; 10; 9; 12].
Proof. exact C178_ex_main. Qed.

Example C179_ex :
  wf_heap (s_heap (ex_begin [])) /\ start_ok ex_ps (Some 3%Z) (ex_begin []) ex_start /\ NoDup (map i_id ex_start) /\ clear_names ex_ps /\ pset_rich ex_ps /\ allows_one (Some 3%Z) /\
  (forall k, Forall (fun x => x <> NaN) (Sys_Main.ex_scores k)) /\ (forall c kwargs, exists e, ex_class c kwargs = Ok e) /\
  fst (ex_fit (ex_short 5)) = Ok [("imp", 9); ("2", 3); ("1", 2); ("0", 0)]%string /\
  fst (ex_fit (ex_short 5 ++ ex_more)) = Ok [("imp", 9); ("0", 0)]%string.
Proof. exact C179_ex_main. Qed.

Theorem C179_asha_refuted :
  exists (build : nat -> list (string * value) -> res nat) fixed call scores limit n log defaults ps max_length eta first_rung max_rung max_full warm_start s
    plan later steps w p steps' w' p' m ss m' ss',
  wf_heap (s_heap s) /\ start_ok ps max_length s warm_start /\ NoDup (map i_id warm_start) /\ clear_names ps /\ pset_rich ps /\ allows_one max_length /\
  (Z.of_nat first_rung <= max_rung)%Z /\ (forall k, scores k <> []) /\ (forall k, Forall (fun x => x <> NaN) (scores k)) /\
  fit_asha_l call scores limit build fixed ps max_length n log defaults eta first_rung max_rung max_full warm_start (before_h s plan) = (Ok steps, (w, p)) /\
  fit_asha_l call scores limit build fixed ps max_length n log defaults eta first_rung max_rung max_full warm_start (before_h s (plan ++ later)) = (Ok steps', (w', p')) /\
  In m (results (q_trace w)) /\ is_pipeline (h_objects w) (m_ind m) ss /\ made_from build fixed ss steps /\
  In m' (results (q_trace w')) /\ is_pipeline (h_objects w') (m_ind m') ss' /\ made_from build fixed ss' steps' /\
  (forall m2, In m2 (results (q_trace w')) -> i_id (m_ind m2) = i_id (m_ind m') -> lex_lt (m_fit m2) (m_fit m)).
Proof. exact C179_asha_refuted_main. Qed.
Print Assumptions C179_asha_refuted.

Theorem C179_evolutionary_refuted :
  exists (build : nat -> list (string * value) -> res nat) fixed call scores limit n log defaults ps max_length max_retry pop_size max_n warm_start (s : setting)
    plan later steps w p steps' w' p' m ss m' ss',
  pset_typed ps /\ pset_rich ps /\ 0 < max_retry /\ 3 <= pop_size /\ wf_heap (s_heap s) /\ start_ok ps None s warm_start /\ NoDup (map i_id warm_start) /\ clear_names ps /\
  (forall k, Forall (fun x => x <> NaN) (scores k)) /\
  fit_evo_l call scores limit build fixed ps max_length n log defaults max_retry pop_size max_n false warm_start (before_search s plan) = (Ok steps, (w, p)) /\
  fit_evo_l call scores limit build fixed ps max_length n log defaults max_retry pop_size max_n false warm_start (before_search s (plan ++ later)) = (Ok steps', (w', p')) /\
  In m (successes (v_trace w)) /\ is_pipeline (objects w) (m_ind m) ss /\ made_from build fixed ss steps /\
  In m' (successes (v_trace w')) /\ is_pipeline (objects w') (m_ind m') ss' /\ made_from build fixed ss' steps' /\
  (forall m2, In m2 (successes (v_trace w')) -> i_id (m_ind m2) = i_id (m_ind m') -> lex_lt (m_fit m2) (m_fit m)).
Proof. exact C179_evolutionary_refuted_main. Qed.
Print Assumptions C179_evolutionary_refuted.

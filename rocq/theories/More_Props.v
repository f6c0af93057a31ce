(** Property theorems; proofs in More_Main.v. *)
Require Import ZArith QArith.
From Verif Require Import Base Num Gp_Model Gp_Spec Gp_Examples Lib_Spec Eval_Model Evo_Model Evo_Spec Evo_Main Rnd_Model Rnd_Spec End_Model End_Spec Proc_Model Proc_Spec Limit_Model Limit_Spec Later_Spec.
From Verif Require Async_Model Sys_Model Sys_Main.
From Verif Require Import End_Main.
From Verif Require Limit_Main Live_Main.
Open Scope nat_scope.
Open Scope list_scope.
From Verif Require Import More_Main.

(** C180: random search. *)
Theorem C180_random :
  forall call scores limit n log defaults ps max_length max_n max_n' warm_start s plan x w p x' w' p',
  no_lower max_n max_n' ->
  l_rs_phase call scores limit ps max_length max_n n log defaults warm_start (before_h s plan) = (x, (w, p)) ->
  l_rs_phase call scores limit ps max_length max_n' n log defaults warm_start (before_h s plan) = (x', (w', p')) ->
  (x = Ok tt /\ prefix (q_trace w) (q_trace w') /\ prefix (q_out w) (q_out w')) \/ (x' = x /\ w' = w).
Proof. exact C180_random_main. Qed.
Print Assumptions C180_random.

(** C180: ASHA (the limit is on the number of evaluations on the top rung). *)
Theorem C180_asha :
  forall call scores limit n log defaults ps max_length eta first_rung max_rung max_full max_full' warm_start s plan x w p x' w' p',
  no_lower max_full max_full' ->
  l_asha_phase call scores limit ps max_length eta first_rung max_rung max_full n log defaults warm_start (before_h s plan) = (x, (w, p)) ->
  l_asha_phase call scores limit ps max_length eta first_rung max_rung max_full' n log defaults warm_start (before_h s plan) = (x', (w', p')) ->
  (x = Ok tt /\ prefix (q_trace w) (q_trace w')) \/ (x' = x /\ w' = w).
Proof. exact C180_asha_main. Qed.
Print Assumptions C180_asha.

(** C180: the evolutionary search (a limit that is not positive is refused). *)
Theorem C180_evolutionary :
  forall call scores limit n log defaults ps max_length max_retry pop_size max_n max_n' restart warm_start (s : setting) plan x w p x' w' p',
  no_lower max_n max_n' -> (match max_n with Some m => (0 < m)%Z | None => True end) ->
  l_search call scores limit ps max_length max_retry pop_size max_n restart n log defaults warm_start (before_search s plan) = (x, (w, p)) ->
  l_search call scores limit ps max_length max_retry pop_size max_n' restart n log defaults warm_start (before_search s plan) = (x', (w', p')) ->
  (x = Ok tt /\ prefix (v_trace w) (v_trace w')) \/ (x' = x /\ w' = w).
Proof. exact C180_evolutionary_main. Qed.
Print Assumptions C180_evolutionary.

(** C180: with random search and a higher limit the model is not worse. *)
Theorem C180_fit :
  forall E (build : nat -> list (string * value) -> res E) fixed call scores limit n log defaults ps max_length max_n max_n' warm_start s plan steps w p steps' w' p',
  no_lower max_n max_n' ->
  wf_heap (s_heap s) -> start_ok ps max_length s warm_start -> NoDup (map i_id warm_start) -> clear_names ps ->
  (forall k, Forall (fun x => x <> NaN) (scores k)) ->
  fit_random_l call scores limit build fixed ps max_length n log defaults max_n warm_start (before_h s plan) = (Ok steps, (w, p)) ->
  fit_random_l call scores limit build fixed ps max_length n log defaults max_n' warm_start (before_h s plan) = (Ok steps', (w', p')) ->
  exists m ss m' ss',
    In m (results (q_trace w)) /\ is_pipeline (h_objects w) (m_ind m) ss /\ made_from build fixed ss steps /\
    In m' (results (q_trace w')) /\ is_pipeline (h_objects w') (m_ind m') ss' /\ made_from build fixed ss' steps' /\
    ~ lex_lt (m_fit m') (m_fit m).
Proof. exact C180_fit_main. Qed.
Print Assumptions C180_fit.

Example C180_ex :
  no_lower (Some 2%Z) (Some 4%Z) /\ no_lower (Some 2%Z) None /\
  fst (ex_rs (Some 2%Z)) = Ok tt /\ ids_q (ex_rs (Some 2%Z)) = [1; 0] /\ ids_q (ex_rs (Some 4%Z)) = [1; 0; 3; 2] /\
  fst (ex_asha (Some 2%Z)) = Ok tt /\ ids_q (ex_asha (Some 2%Z)) = [3; 4] /\ ids_q (ex_asha (Some 4%Z)) = [3; 4; 1; 2] /\
  fst (ex_evo (Some 2%Z)) = Ok tt /\ ids_v (ex_evo (Some 2%Z)) = [6; 5] /\ ids_v (ex_evo None) = [6; 5; 8; 7; 10; 9; 12; 11; 14] /\
  (* the limit was not reached: the same with any higher one *)
  fst (ex_evo (Some 12%Z)) = Err Diverges /\ ids_v (ex_evo (Some 12%Z)) = [6; 5; 8; 7; 10; 9; 12; 11; 14].
Proof. exact C180_ex_main. Qed.

Example C180_fit_ex :
  wf_heap (s_heap (ex_begin [])) /\ start_ok ex_ps (Some 3%Z) (ex_begin []) ex_start /\ NoDup (map i_id ex_start) /\ clear_names ex_ps /\
  (forall k, Forall (fun x => x <> NaN) (Sys_Main.ex_scores k)) /\
  fst (ex_fit (Some 1%Z)) = Ok [("imp", 9); ("2", 3); ("1", 2); ("0", 0)]%string /\ fst (ex_fit (Some 4%Z)) = Ok [("imp", 9); ("0", 0)]%string.
Proof. exact C180_fit_ex_main. Qed.

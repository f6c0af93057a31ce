(** Property theorems; proofs in Ample_Main.v. *)
Require Import ZArith QArith.
From Verif Require Import Base Num Gp_Model Gp_Spec Gp_Examples Lib_Spec Eval_Model Evo_Model Evo_Spec Evo_Main Rnd_Model Rnd_Spec End_Model Proc_Model Proc_Spec Limit_Model Live_Spec Ample_Spec.
From Verif Require Async_Model Sys_Model Sys_Main Live_Main.
Open Scope nat_scope.
Open Scope list_scope.
From Verif Require Import Ample_Main.

(** C175: the searches. *)
Theorem C175_evolutionary :
  forall call scores limit n log defaults ps max_length max_retry pop_size max_n restart warm_start (s : setting) plan x w p,
  0 < n -> answers call defaults -> nobody_killed plan -> within limit n plan ->
  l_search call scores (Some limit) ps max_length max_retry pop_size max_n restart n log defaults warm_start (before_search s plan) = (x, (w, p)) ->
  exists p', p_search call scores ps max_length max_retry pop_size max_n restart n log defaults warm_start (before_search s plan) = (x, (w, p')) /\
             p_plan p' = p_plan p /\ p_jobs p' = p_jobs p.
Proof. exact C175_evolutionary_main. Qed.
Print Assumptions C175_evolutionary.

(** C175: the searches. *)
Theorem C175_random :
  forall call scores limit n log defaults ps max_length max_n warm_start s plan x w p,
  0 < n -> answers call defaults -> nobody_killed plan -> within limit n plan ->
  l_rs_phase call scores (Some limit) ps max_length max_n n log defaults warm_start (before_h s plan) = (x, (w, p)) ->
  exists p', q_rs_phase call scores ps max_length max_n n log defaults warm_start (before_h s plan) = (x, (w, p')) /\
             p_plan p' = p_plan p /\ p_jobs p' = p_jobs p.
Proof. exact C175_random_main. Qed.
Print Assumptions C175_random.

(** C175: the searches. *)
Theorem C175_asha :
  forall call scores limit n log defaults ps max_length eta first_rung max_rung max_full warm_start s plan x w p,
  0 < n -> answers call defaults -> nobody_killed plan -> within limit n plan ->
  l_asha_phase call scores (Some limit) ps max_length eta first_rung max_rung max_full n log defaults warm_start (before_h s plan) = (x, (w, p)) ->
  exists p', q_asha_phase call scores ps max_length eta first_rung max_rung max_full n log defaults warm_start (before_h s plan) = (x, (w, p')) /\
             p_plan p' = p_plan p /\ p_jobs p' = p_jobs p.
Proof. exact C175_asha_main. Qed.
Print Assumptions C175_asha.

(** C175: fit: the same model or the same exception. *)
Theorem C175_fit :
  forall E (build : nat -> list (string * value) -> res E) fixed call scores limit n log defaults ps max_length warm_start (s : setting) plan,
  0 < n -> answers call defaults -> nobody_killed plan -> within limit n plan ->
  (forall max_n, fst (fit_random_l call scores (Some limit) build fixed ps max_length n log defaults max_n warm_start (before_h s plan)) =
                 fst (fit_random_p call scores build fixed ps max_length n log defaults max_n warm_start (before_h s plan))) /\
  (forall max_retry pop_size max_n restart,
     fst (fit_evo_l call scores (Some limit) build fixed ps max_length n log defaults max_retry pop_size max_n restart warm_start (before_search s plan)) =
     fst (fit_evo_p call scores build fixed ps max_length n log defaults max_retry pop_size max_n restart warm_start (before_search s plan))) /\
  (forall eta first_rung max_rung max_full,
     fst (fit_asha_l call scores (Some limit) build fixed ps max_length n log defaults eta first_rung max_rung max_full warm_start (before_h s plan)) =
     fst (fit_asha_p call scores build fixed ps max_length n log defaults eta first_rung max_rung max_full warm_start (before_h s plan))).
Proof. exact C175_fit_main. Qed.
Print Assumptions C175_fit.

(** C175: so a search with such a limit goes on (compare C167, C172). *)
Theorem C175_goes_on :
  forall call scores limit n log defaults ps max_length max_n warm_start s first_turns rounds rest x w p,
  0 < n -> answers call defaults -> nobody_killed (first_turns ++ concat rounds ++ rest) -> within limit n (first_turns ++ concat rounds ++ rest) ->
  Forall (late_round n) rounds -> match warm_start with [] => 50 | _ => length warm_start end <= length first_turns ->
  wf_heap (s_heap s) -> start_ok ps max_length s warm_start -> pset_rich ps -> allows_one max_length ->
  l_rs_phase call scores (Some limit) ps max_length max_n n log defaults warm_start (before_h s (first_turns ++ concat rounds ++ rest)) = (x, (w, p)) ->
  match max_n with
  | None => x = Err Diverges /\ length rounds <= length (arrivals (q_trace w))
  | Some m => (x = Ok tt /\ (m <= Z.of_nat (length (results (q_trace w))))%Z) \/
      (x = Err Diverges /\ length rounds <= length (arrivals (q_trace w)) /\ (Z.of_nat (length (results (q_trace w))) < m)%Z)
  end.
Proof. exact C175_goes_on_main. Qed.
Print Assumptions C175_goes_on.

Example C175_ex :
  answers Live_Main.ex_evaluation [] /\ nobody_killed ex_plan /\ within 3 2 ex_plan /\ ~ within 2 2 ex_plan /\
  length (arrivals (q_trace (fst (snd (ex_run 3))))) = 7 /\
  length (arrivals (q_trace (fst (snd (ex_run 2))))) = 4.
Proof. exact C175_ex_main. Qed.

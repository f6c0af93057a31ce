(** Property theorems; proofs in Again_Main.v. *)
Require Import QArith.
From Verif Require Import Base Num Gp_Model Gp_Spec Gp_Examples Lib_Spec Evo_Model Evo_Spec Evo_Main Rnd_Model Rnd_Spec End_Model End_Spec End_Main Proc_Model Proc_Spec Again_Spec.
From Verif Require Lib_Model Ens_Model Misc_Model Mix_Model Team_Model Async_Model Sys_Model Sys_Main Det_Spec.
Open Scope nat_scope.
Open Scope list_scope.
From Verif Require Import Again_Main.

(** C164.  fit with random search and one worker process: two runs that start with the same
    objects and random numbers, whatever the timing of their worker, whether or not they
    log (no process is killed, and each evaluation ends in the same way in both runs).  The one
    with more results did all that the other one did; with as many results they end in the
    same state, with the same model or the same exception. *)
Theorem C164_random :
  forall E (build : nat -> list (string * value) -> res E) fixed call scores log1 log2 defaults ps max_length max_n warm_start s plan1 plan2 x1 w1 p1 x2 w2 p2,
  Det_Spec.steady call defaults -> Det_Spec.undisturbed plan1 -> Det_Spec.undisturbed plan2 ->
  wf_heap (s_heap s) -> start_ok ps max_length s warm_start ->
  fit_random_p call scores build fixed ps max_length 1 log1 defaults max_n warm_start (before_h s plan1) = (x1, (w1, p1)) ->
  fit_random_p call scores build fixed ps max_length 1 log2 defaults max_n warm_start (before_h s plan2) = (x2, (w2, p2)) ->
  length (arrivals (q_trace w1)) <= length (arrivals (q_trace w2)) ->
  h_continues w1 w2 /\ (length (arrivals (q_trace w1)) = length (arrivals (q_trace w2)) -> x1 = x2 /\ w1 = w2).
Proof. exact C164_random_main. Qed.
Print Assumptions C164_random.

(** C164: with the evolutionary search. *)
Theorem C164_evolutionary :
  forall E (build : nat -> list (string * value) -> res E) fixed call scores log1 log2 defaults ps max_length max_retry pop_size max_n restart warm_start (s : setting) plan1 plan2 x1 w1 p1 x2 w2 p2,
  Det_Spec.steady call defaults -> Det_Spec.undisturbed plan1 -> Det_Spec.undisturbed plan2 ->
  pset_typed ps -> 0 < max_retry -> wf_heap (s_heap s) -> start_ok ps None s warm_start ->
  fit_evo_p call scores build fixed ps max_length 1 log1 defaults max_retry pop_size max_n restart warm_start (before_search s plan1) = (x1, (w1, p1)) ->
  fit_evo_p call scores build fixed ps max_length 1 log2 defaults max_retry pop_size max_n restart warm_start (before_search s plan2) = (x2, (w2, p2)) ->
  length (collections (v_trace w1)) <= length (collections (v_trace w2)) ->
  continues w1 w2 /\ (length (collections (v_trace w1)) = length (collections (v_trace w2)) -> x1 = x2 /\ w1 = w2).
Proof. exact C164_evolutionary_main. Qed.
Print Assumptions C164_evolutionary.

(** C164: with ASHA, if also sets are iterated in the same order in both runs (it is part of
    what is drawn from the random numbers of [s]).  Missing: the order of a set of objects with
    random hashes is not given by the random state, see C143. *)
Theorem C164_asha_partial :
  forall E (build : nat -> list (string * value) -> res E) fixed call scores log1 log2 defaults ps max_length eta first_rung max_rung max_full warm_start s plan1 plan2 x1 w1 p1 x2 w2 p2,
  Det_Spec.steady call defaults -> Det_Spec.undisturbed plan1 -> Det_Spec.undisturbed plan2 ->
  wf_heap (s_heap s) -> start_ok ps max_length s warm_start ->
  fit_asha_p call scores build fixed ps max_length 1 log1 defaults eta first_rung max_rung max_full warm_start (before_h s plan1) = (x1, (w1, p1)) ->
  fit_asha_p call scores build fixed ps max_length 1 log2 defaults eta first_rung max_rung max_full warm_start (before_h s plan2) = (x2, (w2, p2)) ->
  length (arrivals (q_trace w1)) <= length (arrivals (q_trace w2)) ->
  h_continues w1 w2 /\ (length (arrivals (q_trace w1)) = length (arrivals (q_trace w2)) -> x1 = x2 /\ w1 = w2).
Proof. exact C164_asha_partial_main. Qed.
Print Assumptions C164_asha_partial.

(** C164: fit with the ensemble, with random search. *)
Theorem C164_random_ensemble :
  forall A l0 rr data row tr (metric : list A -> Ens_Model.mat -> res num) task options y left r call scores log1 log2 defaults ps max_length max_n warm_start s plan1 plan2 x1 w1 p1 x2 w2 p2,
  Det_Spec.steady call defaults -> Det_Spec.undisturbed plan1 -> Det_Spec.undisturbed plan2 ->
  wf_heap (s_heap s) -> start_ok ps max_length s warm_start ->
  Team_Model.fit_random_ens_p call scores l0 rr data row tr metric task options y left r ps max_length 1 log1 defaults max_n warm_start (before_h s plan1) = (x1, (w1, p1)) ->
  Team_Model.fit_random_ens_p call scores l0 rr data row tr metric task options y left r ps max_length 1 log2 defaults max_n warm_start (before_h s plan2) = (x2, (w2, p2)) ->
  length (arrivals (q_trace w1)) <= length (arrivals (q_trace w2)) ->
  h_continues w1 w2 /\ (length (arrivals (q_trace w1)) = length (arrivals (q_trace w2)) -> x1 = x2 /\ w1 = w2).
Proof. exact C164_random_ensemble_main. Qed.
Print Assumptions C164_random_ensemble.

(** C164: with the evolutionary search. *)
Theorem C164_evolutionary_ensemble :
  forall A l0 rr data row tr (metric : list A -> Ens_Model.mat -> res num) task options y left r call scores log1 log2 defaults ps max_length max_retry pop_size max_n restart warm_start (s : setting) plan1 plan2 x1 w1 p1 x2 w2 p2,
  Det_Spec.steady call defaults -> Det_Spec.undisturbed plan1 -> Det_Spec.undisturbed plan2 ->
  pset_typed ps -> 0 < max_retry -> wf_heap (s_heap s) -> start_ok ps None s warm_start ->
  Team_Model.fit_evo_ens_p call scores l0 rr data row tr metric task options y left r ps max_length 1 log1 defaults max_retry pop_size max_n restart warm_start (before_search s plan1) = (x1, (w1, p1)) ->
  Team_Model.fit_evo_ens_p call scores l0 rr data row tr metric task options y left r ps max_length 1 log2 defaults max_retry pop_size max_n restart warm_start (before_search s plan2) = (x2, (w2, p2)) ->
  length (collections (v_trace w1)) <= length (collections (v_trace w2)) ->
  continues w1 w2 /\ (length (collections (v_trace w1)) = length (collections (v_trace w2)) -> x1 = x2 /\ w1 = w2).
Proof. exact C164_evolutionary_ensemble_main. Qed.
Print Assumptions C164_evolutionary_ensemble.

(** C164: more results cannot make the model of random search worse: the model's pipeline has a
    result that no result of the shorter run beats. *)
Theorem C164_more_is_not_worse :
  forall E (build : nat -> list (string * value) -> res E) fixed call scores log1 log2 defaults ps max_length max_n warm_start s plan1 plan2 steps1 w1 p1 steps2 w2 p2,
  Det_Spec.steady call defaults -> Det_Spec.undisturbed plan1 -> Det_Spec.undisturbed plan2 ->
  wf_heap (s_heap s) -> start_ok ps max_length s warm_start -> NoDup (map i_id warm_start) -> clear_names ps ->
  (forall k, Forall (fun x => x <> NaN) (scores k)) ->
  fit_random_p call scores build fixed ps max_length 1 log1 defaults max_n warm_start (before_h s plan1) = (Ok steps1, (w1, p1)) ->
  fit_random_p call scores build fixed ps max_length 1 log2 defaults max_n warm_start (before_h s plan2) = (Ok steps2, (w2, p2)) ->
  length (arrivals (q_trace w1)) <= length (arrivals (q_trace w2)) ->
  exists m ss, In m (results (q_trace w2)) /\ is_pipeline (h_objects w2) (m_ind m) ss /\ made_from build fixed ss steps2 /\
    forall m', In m' (results (q_trace w1)) -> In m' (results (q_trace w2)) /\ ~ lex_lt (m_fit m) (m_fit m').
Proof. exact C164_more_is_not_worse_main. Qed.
Print Assumptions C164_more_is_not_worse.

(** C164 does not hold with two workers: with as many results, the models differ. *)
Theorem C164_two_workers_refuted :
  ~ (forall E (build : nat -> list (string * value) -> res E) fixed call scores n log defaults ps max_length max_n warm_start s plan1 plan2 steps1 w1 p1 steps2 w2 p2,
     Det_Spec.steady call defaults -> Det_Spec.undisturbed plan1 -> Det_Spec.undisturbed plan2 ->
     wf_heap (s_heap s) -> start_ok ps max_length s warm_start ->
     fit_random_p call scores build fixed ps max_length n log defaults max_n warm_start (before_h s plan1) = (Ok steps1, (w1, p1)) ->
     fit_random_p call scores build fixed ps max_length n log defaults max_n warm_start (before_h s plan2) = (Ok steps2, (w2, p2)) ->
     length (arrivals (q_trace w1)) = length (arrivals (q_trace w2)) -> steps1 = steps2).
Proof. exact C164_two_workers_refuted_main. Qed.
Print Assumptions C164_two_workers_refuted.

Example C164_ex :
  Det_Spec.steady steady_call [] /\ Det_Spec.undisturbed (plan_one 3) /\ Det_Spec.undisturbed (plan_slow 3) /\ Det_Spec.undisturbed (plan_slow 4) /\
  wf_heap (s_heap (ex_begin [])) /\ start_ok ex_ps (Some 3%Z) (ex_begin []) ex_start /\ pset_typed ex_ps /\ clear_names ex_ps /\
  (* the same number of results with different timing, and one more *)
  fst (ex_fit 1 true (plan_one 3)) = Ok [("imp", 9); ("2", 2); ("1", 3); ("0", 1)]%string /\
  length (arrivals (q_trace (fst (snd (ex_fit 1 true (plan_one 3)))))) = 3 /\
  fst (ex_fit 1 false (plan_slow 3)) = Ok [("imp", 9); ("2", 2); ("1", 3); ("0", 1)]%string /\
  length (arrivals (q_trace (fst (snd (ex_fit 1 false (plan_slow 3)))))) = 3 /\
  fst (ex_fit 1 false (plan_slow 4)) = Ok [("imp", 9); ("0", 0)]%string /\
  length (arrivals (q_trace (fst (snd (ex_fit 1 false (plan_slow 4)))))) = 4 /\
  (* the evolutionary search and ASHA *)
  length (collections (v_trace (fst (snd (fit_evo_p steady_call Sys_Main.ex_scores ex_class [("imp"%string, 9)] ex_ps None 1 true [] 50 5 None false ex_start (before_search (first_fit (ex_begin [])) (plan_slow 4))))))) = 4 /\
  length (arrivals (q_trace (fst (snd (fit_asha_p steady_call Sys_Main.ex_scores ex_class [("imp"%string, 9)] ex_ps (Some 3%Z) 1 true [] 3 0 2%Z (Some 1%Z) ex_start (before_h (ex_begin []) (plan_slow 6))))))) = 6.
Proof. exact C164_ex_main. Qed.

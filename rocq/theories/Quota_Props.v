(** Property theorems; proofs in Quota_Main.v. *)
Require Import ZArith QArith.
From Verif Require Import Base Num Gp_Model Gp_Spec Gp_Examples Lib_Spec Eval_Model Evo_Model Evo_Spec Evo_Main Rnd_Model Rnd_Spec End_Model End_Spec Proc_Model Proc_Spec Limit_Model Live_Spec Quota_Spec.
From Verif Require Async_Model Sys_Model Sys_Main.
From Verif Require Import End_Main.
From Verif Require Limit_Main Live_Main.
Open Scope nat_scope.
Open Scope list_scope.
From Verif Require Import Quota_Main.

(** C177: the searches.  With readings within the limit they end in the same way, with the same
    objects, results and order of events as without a limit. *)
Theorem C177_random :
  forall call scores limit n log defaults ps max_length max_n warm_start s plan x w p,
  Forall (keeps_within limit n) plan ->
  l_rs_phase call scores limit ps max_length max_n n log defaults warm_start (before_h s plan) = (x, (w, p)) ->
  exists p', q_rs_phase call scores ps max_length max_n n log defaults warm_start (before_h s plan) = (x, (w, p')).
Proof. exact C177_random_main. Qed.
Print Assumptions C177_random.

Theorem C177_asha :
  forall call scores limit n log defaults ps max_length eta first_rung max_rung max_full warm_start s plan x w p,
  Forall (keeps_within limit n) plan ->
  l_asha_phase call scores limit ps max_length eta first_rung max_rung max_full n log defaults warm_start (before_h s plan) = (x, (w, p)) ->
  exists p', q_asha_phase call scores ps max_length eta first_rung max_rung max_full n log defaults warm_start (before_h s plan) = (x, (w, p')).
Proof. exact C177_asha_main. Qed.
Print Assumptions C177_asha.

Theorem C177_evolutionary :
  forall call scores limit n log defaults ps max_length max_retry pop_size max_n restart warm_start (s : setting) plan x w p,
  Forall (keeps_within limit n) plan ->
  l_search call scores limit ps max_length max_retry pop_size max_n restart n log defaults warm_start (before_search s plan) = (x, (w, p)) ->
  exists p', p_search call scores ps max_length max_retry pop_size max_n restart n log defaults warm_start (before_search s plan) = (x, (w, p')).
Proof. exact C177_evolutionary_main. Qed.
Print Assumptions C177_evolutionary.

(** C177: fit with the best pipeline gives the same model, or raises the same exception. *)
Theorem C177_fit_random :
  forall E call scores limit (build : nat -> list (string * value) -> res E) fixed ps max_length n log defaults max_n warm_start s plan,
  Forall (keeps_within limit n) plan ->
  fst (fit_random_l call scores limit build fixed ps max_length n log defaults max_n warm_start (before_h s plan)) =
  fst (fit_random_p call scores build fixed ps max_length n log defaults max_n warm_start (before_h s plan)).
Proof. exact C177_fit_random_main. Qed.
Print Assumptions C177_fit_random.

Theorem C177_fit_evolutionary :
  forall E call scores limit (build : nat -> list (string * value) -> res E) fixed ps max_length n log defaults max_retry pop_size max_n restart warm_start (s : setting) plan,
  Forall (keeps_within limit n) plan ->
  fst (fit_evo_l call scores limit build fixed ps max_length n log defaults max_retry pop_size max_n restart warm_start (before_search s plan)) =
  fst (fit_evo_p call scores build fixed ps max_length n log defaults max_retry pop_size max_n restart warm_start (before_search s plan)).
Proof. exact C177_fit_evolutionary_main. Qed.
Print Assumptions C177_fit_evolutionary.

Theorem C177_fit_asha :
  forall E call scores limit (build : nat -> list (string * value) -> res E) fixed ps max_length n log defaults eta first_rung max_rung max_full warm_start s plan,
  Forall (keeps_within limit n) plan ->
  fst (fit_asha_l call scores limit build fixed ps max_length n log defaults eta first_rung max_rung max_full warm_start (before_h s plan)) =
  fst (fit_asha_p call scores build fixed ps max_length n log defaults eta first_rung max_rung max_full warm_start (before_h s plan)).
Proof. exact C177_fit_asha_main. Qed.
Print Assumptions C177_fit_asha.

(** C177, with C172: then the searches go on, which is not so when the limit is exceeded (C167): so
    many results as there are rounds in which the workers get their turns. *)
Theorem C177_random_goes_on :
  forall call scores limit n log defaults ps max_length max_n warm_start s first_turns rounds rest x w p,
  Forall (keeps_within limit n) (first_turns ++ concat rounds ++ rest) ->
  0 < n -> answers call defaults -> nobody_killed (first_turns ++ concat rounds) -> Forall (late_round n) rounds ->
  match warm_start with [] => 50 | _ => length warm_start end <= length first_turns ->
  wf_heap (s_heap s) -> start_ok ps max_length s warm_start -> pset_rich ps -> allows_one max_length ->
  l_rs_phase call scores limit ps max_length max_n n log defaults warm_start (before_h s (first_turns ++ concat rounds ++ rest)) = (x, (w, p)) ->
  match max_n with
  | None => x = Err Diverges /\ length rounds <= length (arrivals (q_trace w))
  | Some m => (x = Ok tt /\ (m <= Z.of_nat (length (results (q_trace w))))%Z) \/
      (x = Err Diverges /\ length rounds <= length (arrivals (q_trace w)) /\ (Z.of_nat (length (results (q_trace w))) < m)%Z)
  end.
Proof. exact C177_random_goes_on_main. Qed.
Print Assumptions C177_random_goes_on.

Theorem C177_asha_goes_on :
  forall call scores limit n log defaults ps max_length eta first_rung max_rung max_full warm_start s first_turns rounds rest x w p,
  Forall (keeps_within limit n) (first_turns ++ concat rounds ++ rest) ->
  0 < n -> answers call defaults -> nobody_killed (first_turns ++ concat rounds) -> Forall (late_round n) rounds -> 8 <= length first_turns ->
  (forall k, scores k <> []) ->
  wf_heap (s_heap s) -> start_ok ps max_length s warm_start -> pset_rich ps -> allows_one max_length -> (Z.of_nat first_rung <= max_rung)%Z ->
  l_asha_phase call scores limit ps max_length eta first_rung max_rung max_full n log defaults warm_start (before_h s (first_turns ++ concat rounds ++ rest)) = (x, (w, p)) ->
  match max_full with
  | None => x = Err Diverges /\ length rounds <= length (arrivals (q_trace w))
  | Some m => (x = Ok tt /\ (m <= Z.of_nat (length (scored (Z.to_nat max_rung) (q_trace w))))%Z) \/
      (x = Err Diverges /\ length rounds <= length (arrivals (q_trace w)) /\ (Z.of_nat (length (scored (Z.to_nat max_rung) (q_trace w))) < m)%Z)
  end.
Proof. exact C177_asha_goes_on_main. Qed.
Print Assumptions C177_asha_goes_on.

Theorem C177_evolutionary_goes_on :
  forall call scores limit n log defaults ps max_length max_retry pop_size max_n restart warm_start (s : setting) first_turns rounds rest x w p k,
  Forall (keeps_within limit n) (first_turns ++ concat rounds ++ rest) ->
  0 < n -> answers call defaults -> nobody_killed (first_turns ++ concat rounds) -> Forall (late_round n) rounds ->
  match warm_start with [] => 50 | _ => length warm_start end <= length first_turns ->
  pset_typed ps -> pset_rich ps -> match max_length with None => True | Some m => (1 <= m)%Z end -> 0 < max_retry -> (forall e, length (scores e) = k) ->
  wf_heap (s_heap s) -> start_ok ps max_length s warm_start -> (match max_n with Some m => (0 < m)%Z | None => True end) ->
  l_search call scores limit ps max_length max_retry pop_size max_n restart n log defaults warm_start (before_search s (first_turns ++ concat rounds ++ rest)) = (x, (w, p)) ->
  (x = Ok tt /\ match max_n with None => False | Some m => Z.of_nat (length (collections (v_trace w))) = m end) \/
  (x = Err ValueError /\ length (v_pop w) < 3) \/
  breakdown ps max_length k w x \/
  (x = Err Diverges /\ length rounds <= (if restart then S pop_size else 1) * length (collections (v_trace w)) /\
   match max_n with None => True | Some m => (Z.of_nat (length (collections (v_trace w))) < m)%Z end).
Proof. exact C177_evolutionary_goes_on_main. Qed.
Print Assumptions C177_evolutionary_goes_on.

Example C177_ex :
  Forall (keeps_within (Some 100) 2) (ex_within 5) /\
  ids_of (l_rs_phase Limit_Main.fine_call Sys_Main.ex_scores (Some 100) ex_ps (Some 3%Z) None 2 true [] ex_start (before_h (ex_begin []) (ex_within 5))) = [1; 0; 3] /\
  ids_of (ex_qrs (ex_within 5)) = [1; 0; 3] /\
  (* with a limit that is exceeded the results differ *)
  ~ Forall (keeps_within (Some 100) 2) ex_beyond /\
  ids_of (l_rs_phase Limit_Main.fine_call Sys_Main.ex_scores (Some 100) ex_ps (Some 3%Z) None 2 true [] ex_start (before_h (ex_begin []) ex_beyond)) = [] /\
  ids_of (ex_qrs ex_beyond) = [0].
Proof. exact C177_ex_main. Qed.

Example C177_goes_on_ex :
  let plan := repeat (Sys_Main.at_work []) 5 ++ concat (repeat Live_Main.ex_round 3) ++ [] in
  Forall (keeps_within (Some 100) 2) plan /\ answers Live_Main.ex_evaluation [] /\ nobody_killed (repeat (Sys_Main.at_work []) 5 ++ concat (repeat Live_Main.ex_round 3)) /\
  Forall (late_round 2) (repeat Live_Main.ex_round 3) /\ wf_heap (s_heap (ex_begin [])) /\ start_ok ex_ps (Some 3%Z) (ex_begin []) ex_start /\ pset_rich ex_ps /\ allows_one (Some 3%Z) /\
  length (arrivals (q_trace (fst (snd (l_rs_phase Live_Main.ex_evaluation Sys_Main.ex_scores (Some 100) ex_ps (Some 3%Z) None 2 true [] ex_start (before_h (ex_begin []) plan)))))) = 5.
Proof. exact C177_goes_on_ex_main. Qed.

(** Property theorems; proofs in Live_Main.v. *)
Require Import ZArith QArith.
From Verif Require Import Base Num Gp_Model Gp_Spec Gp_Examples Lib_Spec Evo_Model Evo_Spec Evo_Main Rnd_Model Rnd_Spec Proc_Model Proc_Spec Live_Spec.
From Verif Require Async_Model Sys_Model Sys_Main.
Open Scope nat_scope.
Open Scope list_scope.
From Verif Require Import Live_Main.

(** C172: random search.  There are at least as many results as rounds, or the search has
    reached max_evaluations, whatever happens after the rounds. *)
Theorem C172_random :
  forall call scores n log defaults ps max_length max_n warm_start s first_turns rounds rest x w p,
  0 < n -> answers call defaults -> nobody_killed (first_turns ++ concat rounds) -> Forall (late_round n) rounds ->
  match warm_start with [] => 50 | _ => length warm_start end <= length first_turns ->
  wf_heap (s_heap s) -> start_ok ps max_length s warm_start -> pset_rich ps -> allows_one max_length ->
  q_rs_phase call scores ps max_length max_n n log defaults warm_start (before_h s (first_turns ++ concat rounds ++ rest)) = (x, (w, p)) ->
  match max_n with
  | None => x = Err Diverges /\ length rounds <= length (arrivals (q_trace w))
  | Some m => (x = Ok tt /\ (m <= Z.of_nat (length (results (q_trace w))))%Z) \/
      (x = Err Diverges /\ length rounds <= length (arrivals (q_trace w)) /\ (Z.of_nat (length (results (q_trace w))) < m)%Z)
  end.
Proof. exact C172_random_main. Qed.
Print Assumptions C172_random.

(** C172: if all evaluations yield scores, so many rounds as max_evaluations are enough: the
    search comes to its end. *)
Theorem C172_random_ends :
  forall call scores n log defaults ps max_length m warm_start s first_turns rounds rest x w p,
  0 < n -> (forall k choice, exists v e, call 0 [k] defaults choice = Async_Model.Ret (Async_Model.VEval v e)) ->
  nobody_killed (first_turns ++ concat rounds) -> Forall (late_round n) rounds ->
  match warm_start with [] => 50 | _ => length warm_start end <= length first_turns -> (m <= Z.of_nat (length rounds))%Z ->
  wf_heap (s_heap s) -> start_ok ps max_length s warm_start -> pset_rich ps -> allows_one max_length ->
  q_rs_phase call scores ps max_length (Some m) n log defaults warm_start (before_h s (first_turns ++ concat rounds ++ rest)) = (x, (w, p)) ->
  x = Ok tt /\ ((0 <= m)%Z -> Z.of_nat (length (results (q_trace w))) = m).
Proof. exact C172_random_ends_main. Qed.
Print Assumptions C172_random_ends.

(** C172: ASHA. *)
Theorem C172_asha :
  forall call scores n log defaults ps max_length eta first_rung max_rung max_full warm_start s first_turns rounds rest x w p,
  0 < n -> answers call defaults -> nobody_killed (first_turns ++ concat rounds) -> Forall (late_round n) rounds -> 8 <= length first_turns ->
  (forall k, scores k <> []) ->
  wf_heap (s_heap s) -> start_ok ps max_length s warm_start -> pset_rich ps -> allows_one max_length -> (Z.of_nat first_rung <= max_rung)%Z ->
  q_asha_phase call scores ps max_length eta first_rung max_rung max_full n log defaults warm_start (before_h s (first_turns ++ concat rounds ++ rest)) = (x, (w, p)) ->
  match max_full with
  | None => x = Err Diverges /\ length rounds <= length (arrivals (q_trace w))
  | Some m => (x = Ok tt /\ (m <= Z.of_nat (length (scored (Z.to_nat max_rung) (q_trace w))))%Z) \/
      (x = Err Diverges /\ length rounds <= length (arrivals (q_trace w)) /\ (Z.of_nat (length (scored (Z.to_nat max_rung) (q_trace w))) < m)%Z)
  end.
Proof. exact C172_asha_main. Qed.
Print Assumptions C172_asha.

(** C172: the evolutionary search, with any limit on the length of pipelines (from 1 on) and any number
    of scores.  A restart submits a whole population before it waits for the next result, which may take
    up the turns of a round for each member; so with restarts one result in every S pop_size rounds.  It
    can also end by the exceptions of C147, C160, for which see there. *)
Theorem C172_evolutionary :
  forall call scores n log defaults ps max_length max_retry pop_size max_n restart warm_start (s : setting) first_turns rounds rest x w p k,
  0 < n -> answers call defaults -> nobody_killed (first_turns ++ concat rounds) -> Forall (late_round n) rounds ->
  match warm_start with [] => 50 | _ => length warm_start end <= length first_turns ->
  pset_typed ps -> pset_rich ps -> match max_length with None => True | Some m => (1 <= m)%Z end -> 0 < max_retry -> (forall e, length (scores e) = k) ->
  wf_heap (s_heap s) -> start_ok ps max_length s warm_start -> (match max_n with Some m => (0 < m)%Z | None => True end) ->
  p_search call scores ps max_length max_retry pop_size max_n restart n log defaults warm_start (before_search s (first_turns ++ concat rounds ++ rest)) = (x, (w, p)) ->
  (x = Ok tt /\ match max_n with None => False | Some m => Z.of_nat (length (collections (v_trace w))) = m end) \/
  (x = Err ValueError /\ length (v_pop w) < 3) \/
  breakdown ps max_length k w x \/
  (x = Err Diverges /\ length rounds <= (if restart then S pop_size else 1) * length (collections (v_trace w)) /\
   match max_n with None => True | Some m => (Z.of_nat (length (collections (v_trace w))) < m)%Z end).
Proof. exact C172_evolutionary_main. Qed.
Print Assumptions C172_evolutionary.

(** C172: so many rounds as max_n_evaluations are enough (with restarts: S pop_size times as many). *)
Theorem C172_evolutionary_ends :
  forall call scores n log defaults ps max_length max_retry pop_size m (restart : bool) warm_start (s : setting) first_turns rounds rest x w p k,
  0 < n -> answers call defaults -> nobody_killed (first_turns ++ concat rounds) -> Forall (late_round n) rounds ->
  match warm_start with [] => 50 | _ => length warm_start end <= length first_turns -> (0 < m)%Z -> (m * Z.of_nat (if restart then S pop_size else 1) <= Z.of_nat (length rounds))%Z ->
  pset_typed ps -> pset_rich ps -> match max_length with None => True | Some l => (1 <= l)%Z end -> 0 < max_retry -> (forall e, length (scores e) = k) ->
  wf_heap (s_heap s) -> start_ok ps max_length s warm_start ->
  p_search call scores ps max_length max_retry pop_size (Some m) restart n log defaults warm_start (before_search s (first_turns ++ concat rounds ++ rest)) = (x, (w, p)) ->
  (x = Ok tt /\ Z.of_nat (length (collections (v_trace w))) = m) \/ (x = Err ValueError /\ length (v_pop w) < 3) \/ breakdown ps max_length k w x.
Proof. exact C172_evolutionary_ends_main. Qed.
Print Assumptions C172_evolutionary_ends.

Example C172_ex :
  answers ex_evaluation [] /\ (forall k, nobody_killed (ex_turns k)) /\ (forall k, Forall (late_round 2) (repeat ex_round k)) /\
  fst (q_rs_phase ex_evaluation Sys_Main.ex_scores ex_ps (Some 3%Z) (Some 4%Z) 2 true [] ex_start (before_h (ex_begin []) (ex_turns 4))) = Ok tt /\
  fst (q_rs_phase ex_evaluation Sys_Main.ex_scores ex_ps (Some 3%Z) (Some 9%Z) 2 true [] ex_start (before_h (ex_begin []) (ex_turns 1))) = Err Diverges /\
  fst (q_asha_phase ex_evaluation Sys_Main.ex_scores ex_ps (Some 3%Z) 2 0 1%Z (Some 1%Z) 2 true [] ex_start (before_h (ex_begin []) (ex_turns 9))) = Ok tt /\
  fst (p_search ex_evaluation Sys_Main.ex_scores ex_ps None 50 5 (Some 4%Z) false 2 true [] [] (before_search (first_fit (ex_begin [])) (ex_turns 4))) = Ok tt /\
  fst (p_search ex_evaluation Sys_Main.ex_scores ex_ps None 50 5 (Some 4%Z) true 2 true [] [] (before_search (first_fit (ex_begin (repeat 1 300))) (ex_turns 24))) = Ok tt.
Proof. exact C172_ex_main. Qed.

Theorem C172_killed_refuted :
  ~ (forall call scores n log defaults ps max_length warm_start s first_turns rounds x w p,
     0 < n -> answers call defaults -> Forall (late_round n) rounds ->
     match warm_start with [] => 50 | _ => length warm_start end <= length first_turns ->
     wf_heap (s_heap s) -> start_ok ps max_length s warm_start -> pset_rich ps -> allows_one max_length ->
     q_rs_phase call scores ps max_length None n log defaults warm_start (before_h s (first_turns ++ concat rounds)) = (x, (w, p)) ->
     length rounds <= length (arrivals (q_trace w))).
Proof. exact C172_killed_refuted_main. Qed.
Print Assumptions C172_killed_refuted.

Theorem C172_restart_refuted :
  ~ (forall call scores n log defaults ps max_length max_retry pop_size warm_start (s : setting) first_turns rounds rest x w p k,
     0 < n -> answers call defaults -> nobody_killed (first_turns ++ concat rounds) -> Forall (late_round n) rounds ->
     match warm_start with [] => 50 | _ => length warm_start end <= length first_turns ->
     pset_typed ps -> pset_rich ps -> roomy ps max_length -> 0 < max_retry -> 2 <= k -> (forall e, length (scores e) = k) ->
     wf_heap (s_heap s) -> start_ok ps max_length s warm_start ->
     p_search call scores ps max_length max_retry pop_size None true n log defaults warm_start (before_search s (first_turns ++ concat rounds ++ rest)) = (x, (w, p)) ->
     x <> Err ValueError -> length rounds <= length (collections (v_trace w))).
Proof. exact C172_restart_refuted_main. Qed.
Print Assumptions C172_restart_refuted.

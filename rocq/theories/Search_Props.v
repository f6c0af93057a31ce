(** Property theorems; proofs in Search_Main.v. *)
From Verif Require Import Base Num Nsga_Model Par_Model Par_Spec Search_Model Search_Spec.
Require Import Permutation ZArith QArith Qminmax.
Open Scope nat_scope.
From Verif Require Import Search_Main.

(** C45.  During the search (whenever it waits for a result) and in the population
    returned. *)
Theorem C45_population_partial :
  forall o out restart max_n pop_size start lists nw events r uid stop x w, out < length lists ->
  async_ea o out restart max_n pop_size start (start_world lists nw events r uid stop) = (x, w) ->
  (forall t1 pop t2, w_trace w = t1 ++ TWait pop :: t2 -> length pop <= pop_size /\ incl pop (successes (since_restart t1))) /\
  match x with
  | Ok a => a = out /\ length (list_at out w) <= pop_size /\ incl (list_at out w) (successes (since_restart (w_trace w)))
  | Err _ => Nat.min pop_size (length (successes (since_restart (w_trace w))) - 1) <= length (list_at out w) <= S pop_size /\
             incl (list_at out w) (successes (w_trace w)) \/
             w_trace w = [] /\ list_at out w = nth out lists []
  end.
Proof. exact C45_population_partial_main. Qed.
Print Assumptions C45_population_partial.

Theorem C45_population_refuted :
  ~ (forall o restart max_n pop_size lists nw events r uid stop out final warm a w, out < length lists ->
     search_phase o (EA restart max_n pop_size) out final warm (start_world lists nw events r uid stop) = (Ok a, w) ->
     length (list_at a w) <= pop_size).
Proof. exact C45_population_refuted_main. Qed.
Print Assumptions C45_population_refuted.

Example C45_population_ex :
  exists w, ex_run false (Some 5%Z) 3 [win 1; win 5; lose; win 4; win 3] [] = (Ok 0, w) /\ map i_id (list_at 0 w) = [2; 4; 5] /\
    length (successes (w_trace w)) = 4.
Proof. exact C45_population_ex_main. Qed.

(** C46 *)
Theorem C46_exact :
  forall o out restart max_n pop_size start lists nw events r uid stop a w, out < length lists ->
  async_ea o out restart max_n pop_size start (start_world lists nw events r uid stop) = (Ok a, w) ->
  exists n, max_n = Some n /\ Z.of_nat (length (collected (w_trace w))) = n.
Proof. exact C46_exact_main. Qed.
Print Assumptions C46_exact.

Theorem C46_at_most :
  forall o out restart n pop_size start lists nw events r uid stop x w, out < length lists -> (0 <= n)%Z ->
  async_ea o out restart (Some n) pop_size start (start_world lists nw events r uid stop) = (x, w) ->
  (Z.of_nat (length (collected (w_trace w))) <= n)%Z.
Proof. exact C46_at_most_main. Qed.
Print Assumptions C46_at_most.

Theorem C46_rejects :
  forall o out restart n pop_size start w, (n <= 0)%Z -> async_ea o out restart (Some n) pop_size start w = (Err ValueError, w).
Proof. exact C46_rejects_main. Qed.
Print Assumptions C46_rejects.

(** The loops of the model never end because the fuel is used up. *)
Theorem C46_fuel :
  forall o out restart max_n pop_size phase n w d,
  ea_loop o out restart max_n pop_size (2 * length (w_events w) + 3 + d) phase n w =
  ea_loop o out restart max_n pop_size (2 * length (w_events w) + 3) phase n w.
Proof. exact C46_fuel_main. Qed.
Print Assumptions C46_fuel.

Example C46_exact_ex :
  exists w, ex_run true (Some 4%Z) 3 [win 1; broken; lose; win 4; win 3] [0; 1] = (Ok 0, w) /\ length (collected (w_trace w)) = 4 /\
    In TRestart (w_trace w).
Proof. exact C46_exact_ex_main. Qed.

(** C47: the size of the population returned *)
Theorem C47_result_partial :
  forall o out restart max_n pop_size start lists nw events r uid stop a w, out < length lists ->
  async_ea o out restart max_n pop_size start (start_world lists nw events r uid stop) = (Ok a, w) ->
  a = out /\ length (list_at out w) = Nat.min pop_size (length (successes (since_restart (w_trace w)))) /\
  (1 <= pop_size -> successes (since_restart (w_trace w)) <> [] -> list_at out w <> []).
Proof. exact C47_result_partial_main. Qed.
Print Assumptions C47_result_partial.

Theorem C47_without_restart :
  forall o out max_n pop_size start lists nw events r uid stop a w, out < length lists ->
  async_ea o out false max_n pop_size start (start_world lists nw events r uid stop) = (Ok a, w) -> 1 <= pop_size ->
  successes (w_trace w) <> [] -> list_at a w <> [].
Proof. exact C47_without_restart_main. Qed.
Print Assumptions C47_without_restart.

(** C47: a restart together with the last evaluation leaves nothing. *)
Theorem C47_result_refuted :
  ~ (forall o out restart max_n pop_size start lists nw events r uid stop a w, out < length lists -> 1 <= pop_size ->
     async_ea o out restart max_n pop_size start (start_world lists nw events r uid stop) = (Ok a, w) ->
     successes (w_trace w) <> [] -> list_at a w <> []).
Proof. exact C47_result_refuted_main. Qed.
Print Assumptions C47_result_refuted.

Example C47_result_ex :
  exists w, ex_run true (Some 3%Z) 3 [win 1; win 2; win 3] [0; 1; 0] = (Ok 0, w) /\ length (list_at 0 w) = 1 /\ length (successes (w_trace w)) = 3.
Proof. exact C47_result_ex_main. Qed.

(** C48.  The start candidates are enough: after the first |start| - n - 1 evaluations
    at least 3 succeeded; the new individuals can be made.  The search returns
    after max_n evaluations, or goes on for ever. *)
Theorem C48_keeps_running_partial :
  forall can_cross mate mutate create_new out pop_size nw k max_n start lists events r uid,
  (forall a b r, exists r', mate a b r = (Ok tt, r')) -> (forall a r, exists r', mutate a r = (Ok tt, r')) ->
  2 <= k -> 3 <= pop_size -> out < length lists -> start <> out -> nw + 4 <= length (nth start lists []) ->
  Forall (calm k) events ->
  (forall l1 l2, events = l1 ++ l2 -> length (nth start lists []) - nw - 1 <= length l1 -> 3 <= n_succeeded l1) ->
  let run := async_ea (gama_ops can_cross mate mutate create_new) out false max_n pop_size start (start_world lists nw events r uid None) in
  match max_n with
  | Some m => (0 < m <= Z.of_nat (length events))%Z -> exists w, run = (Ok out, w)
  | None => exists w, run = (Err Diverges, w) /\ w_events w = []
  end.
Proof. exact C48_keeps_running_partial_main. Qed.
Print Assumptions C48_keeps_running_partial.

(** C48: with at most two candidates more than there are workers, the first evaluation
    already ends the search with an exception. *)
Theorem C48_starved :
  forall can_cross mate mutate create_new out restart max_n pop_size start lists nw e events r uid,
  out < length lists -> start <> out -> nth start lists [] <> [] -> length (nth start lists []) <= nw + 2 ->
  e_callback e = None -> (match max_n with None => True | Some m => (0 < m)%Z end) ->
  exists w, async_ea (gama_ops can_cross mate mutate create_new) out restart max_n pop_size start
              (start_world lists nw (e :: events) r uid None) = (Err ValueError, w) /\ w_events w = events.
Proof. exact C48_starved_main. Qed.
Print Assumptions C48_starved.

Theorem C48_keeps_running_refuted :
  ~ (forall can_cross mate mutate create_new out pop_size nw max_n start lists events r uid x w,
     (forall a b r, exists r', mate a b r = (Ok tt, r')) -> (forall a r, exists r', mutate a r = (Ok tt, r')) -> (forall r, exists r', create_new r = (Ok tt, r')) ->
     3 <= pop_size -> out < length lists -> start <> out -> nth start lists [] <> [] -> Forall (calm 2) events -> Forall (fun e => succeeded e = true) events ->
     async_ea (gama_ops can_cross mate mutate create_new) out false max_n pop_size start (start_world lists nw events r uid None) = (x, w) ->
     x = Ok out \/ w_events w = []).
Proof. exact C48_keeps_running_refuted_main. Qed.
Print Assumptions C48_keeps_running_refuted.

Example C48_keeps_running_ex :
  exists w, ex_run false (Some 7%Z) 3 [win 1; win 5; lose; win 4; win 3; broken; win 9] [] = (Ok 0, w) /\ length (submissions (w_trace w)) = 10.
Proof. exact C48_keeps_running_ex_main. Qed.

Example C48_starved_ex :
  exists w, async_ea ex_ops 0 false None 50 1 (start_world [[]; map cand (seq 0 50)] 64 [win 1; win 2] [] 60 None) = (Err ValueError, w).
Proof. exact C48_starved_ex_main. Qed.

(** C49: the next call of fit.  async_ea empties the list that it is to start from. *)
Theorem C49_second_fit_fails :
  forall o restart max_n pop_size out lists nw events r uid, out < length lists -> nth out lists [] <> [] ->
  (match max_n with None => True | Some m => (0 < m)%Z end) ->
  exists w, search_phase o (EA restart max_n pop_size) out out None (start_world lists nw events r uid None) = (Err RuntimeError, w) /\ submissions (w_trace w) = [].
Proof. exact C49_second_fit_fails_main. Qed.
Print Assumptions C49_second_fit_fails.

Theorem C49_second_fit_refuted :
  ~ (forall o m out lists nw events r uid a w, out < length lists -> nth out lists [] <> [] ->
     search_phase o m out out None (start_world lists nw events r uid None) = (a, w) ->
     exists rest, submissions (w_trace w) = nth out lists [] ++ rest).
Proof. exact C49_second_fit_refuted_main. Qed.
Print Assumptions C49_second_fit_refuted.

(** A warm_start list of its own is used, all of it and first. *)
Theorem C49_warm_start_partial :
  forall o restart max_n pop_size out final a lists nw events r uid x w, out < length lists -> a <> out -> nth a lists [] <> [] ->
  (match max_n with None => True | Some m => (0 < m)%Z end) ->
  search_phase o (EA restart max_n pop_size) out final (Some a) (start_world lists nw events r uid None) = (x, w) ->
  exists rest, submissions (w_trace w) = nth a lists [] ++ rest.
Proof. exact C49_warm_start_partial_main. Qed.
Print Assumptions C49_warm_start_partial.

(** Random search goes on from its own result. *)
Theorem C49_random_search_partial :
  forall o max_n out lists nw events r uid x w, out < length lists -> nth out lists [] <> [] ->
  search_phase o (RS max_n) out out None (start_world lists nw events r uid None) = (x, w) ->
  exists rest, submissions (w_trace w) = nth out lists [] ++ rest.
Proof. exact C49_random_search_partial_main. Qed.
Print Assumptions C49_random_search_partial.

(** ASHA starts the given candidates on its lowest rung, the last one first, then new ones. *)
Theorem C49_asha_partial :
  forall o eta min_res max_res first_rung max_rung start max_full lists nw events r uid stop x w, start < length lists ->
  asha o eta min_res max_res first_rung max_rung start true max_full (start_world lists nw events r uid stop) = (x, w) ->
  (exists k, started_on first_rung (w_trace w) = firstn k (rev (nth start lists []))) \/
  (exists rest, started_on first_rung (w_trace w) = rev (nth start lists []) ++ rest).
Proof. exact C49_asha_partial_main. Qed.
Print Assumptions C49_asha_partial.

Example C49_warm_start_ex :
  exists w, search_phase ex_ops (EA false (Some 2%Z) 50) 0 0 (Some 1) (start_world [[cand 7]; map cand (seq 0 6)] 1 [win 1; win 2] [] 60 None) = (Ok 0, w) /\
    map i_id (submissions (w_trace w)) = seq 0 6.
Proof. exact C49_warm_start_ex_main. Qed.

Example C49_random_search_ex :
  exists w, search_phase ex_ops (RS (Some 4%Z)) 0 0 None (start_world [[cand 7; cand 8]] 1 [win 1; win 2] [] 60 None) = (Ok 0, w) /\
    map i_id (submissions (w_trace w)) = [7; 8; 60; 61].
Proof. exact C49_random_search_ex_main. Qed.

(** C50.  [l0]: what the list contained before the search (nothing in the first fit).
    When the search is stopped the result collected last may be missing. *)
Theorem C50_every_result :
  forall o out max_n start lists nw events r uid stop x w, out < length lists ->
  random_search o out max_n start (start_world lists nw events r uid stop) = (x, w) ->
  match x with
  | Ok a => a = out /\ list_at out w = nth out lists [] ++ with_result (w_trace w) /\
      exists n, max_n = Some n /\ (Z.of_nat (length (list_at out w)) = Z.max n (Z.of_nat (length (nth out lists []))))%Z
  | Err _ => exists missing, length missing <= 1 /\ list_at out w ++ missing = nth out lists [] ++ with_result (w_trace w) /\
      (forall n, max_n = Some n -> Z.of_nat (length (list_at out w)) <= Z.max n (Z.of_nat (length (nth out lists []))))%Z /\
      firstn (length (nth out lists [])) (list_at out w) = nth out lists []
  end.
Proof. exact C50_every_result_main. Qed.
Print Assumptions C50_every_result.

(** C50: random search does not end by itself before it has what was asked for. *)
Theorem C50_keeps_running :
  forall o out max_n start lists nw events r uid x w,
  (forall r, exists r', o_individual o r = (Ok tt, r')) -> nth start lists [] <> [] -> Forall (fun e => e_callback e = None) events ->
  random_search o out max_n start (start_world lists nw events r uid None) = (x, w) ->
  x = Ok out \/ x = Err Diverges /\ w_events w = [].
Proof. exact C50_keeps_running_main. Qed.
Print Assumptions C50_keeps_running.

Theorem C50_fuel :
  forall o out max_n w d, rs_loop o out max_n (length (w_events w) + 1 + d) w = rs_loop o out max_n (length (w_events w) + 1) w.
Proof. exact C50_fuel_main. Qed.
Print Assumptions C50_fuel.

Example C50_every_result_ex :
  exists w, random_search ex_ops 0 (Some 3%Z) 1 (start_world [[]; [cand 1; cand 2]] 1 [win 1; broken; lose; mkEv 1 (Evaluated [Fin 5] false) None; win 7] [] 60 None) = (Ok 0, w) /\
    map i_id (list_at 0 w) = [1; 60; 62].
Proof. exact C50_every_result_ex_main. Qed.

(** C51: at every promotion, with [t1] what happened before. *)
Theorem C51_promotion :
  forall o eta min_res max_res first_rung max_rung start same max_full lists nw events r uid stop x w,
  asha o eta min_res max_res first_rung max_rung start same max_full (start_world lists nw events r uid stop) = (x, w) ->
  forall t1 n e inds prom t2, w_trace w = t1 ++ TPromote n e inds prom :: t2 ->
  In e (results_on n t1) /\ (forall y, In y (promoted_from n t1) -> ~ same_entry e y) /\
  length (promoted_from n t1) < length (results_on n t1) / eta /\
  ((forall y, In y (results_on n t1) -> fst y <> NaN) ->
   forall y, In y (results_on n t1) -> (forall z, In z (promoted_from n t1) -> ~ same_entry y z) -> nle (fst y) (fst e)).
Proof. exact C51_promotion_main. Qed.
Print Assumptions C51_promotion.

(** C51: at any time and for every rung. *)
Theorem C51_at_most :
  forall o eta min_res max_res first_rung max_rung start same max_full lists nw events r uid stop x w,
  asha o eta min_res max_res first_rung max_rung start same max_full (start_world lists nw events r uid stop) = (x, w) ->
  forall n t1 t2, w_trace w = t1 ++ t2 ->
  length (promoted_from n t1) <= length (results_on n t1) / eta /\ incl (promoted_from n t1) (results_on n t1) /\
  ForallOrdPairs (fun a b => ~ same_entry b a) (promoted_from n t1).
Proof. exact C51_at_most_main. Qed.
Print Assumptions C51_at_most.

(** C51: nothing that may be promoted is left waiting: a job is started on the lowest
    rung only when no rung has anything to promote, and a promotion is from the
    highest rung that has. *)
Theorem C51_eager :
  forall o eta min_res max_res first_rung max_rung start same max_full lists nw events r uid stop x w,
  asha o eta min_res max_res first_rung max_rung start same max_full (start_world lists nw events r uid stop) = (x, w) ->
  (forall t1 i q t2, w_trace w = t1 ++ TSubmit i (Some first_rung) q :: t2 ->
   forall m, first_rung <= m -> (Z.of_nat m < max_rung)%Z -> ~ promotable eta m t1) /\
  (forall t1 n e inds prom t2, w_trace w = t1 ++ TPromote n e inds prom :: t2 ->
   promotable eta n t1 /\ forall m, n < m -> (Z.of_nat m < max_rung)%Z -> ~ promotable eta m t1).
Proof. exact C51_eager_main. Qed.
Print Assumptions C51_eager.

(** C52 *)
Theorem C52_jobs :
  forall o eta min_res max_res first_rung max_rung start same max_full lists nw events r uid stop x w,
  asha o eta min_res max_res first_rung max_rung start same max_full (start_world lists nw events r uid stop) = (x, w) ->
  forall t1 i rung q t2, w_trace w = t1 ++ TSubmit i rung q :: t2 ->
  exists n, rung = Some n /\ (Z.of_nat first_rung <= Z.of_nat n <= max_rung)%Z /\
    (exists v, q = Some v /\ (v == Qmin (min_res * inject_Z (Z.of_nat eta ^ Z.of_nat n)) max_res)%Q) /\
    (first_rung < n -> exists loss i' oc, In (TDone i' (Some (n - 1)) oc) t1 /\ i_id i' = i_id i /\ In (loss, i) (results_on (n - 1) t1) /\ In (loss, i) (promoted_from (n - 1) t1)).
Proof. exact C52_jobs_main. Qed.
Print Assumptions C52_jobs.

(** C52: every promotion is from a rung below the top and followed by a job on the next one. *)
Theorem C52_top :
  forall o eta min_res max_res first_rung max_rung start same max_full lists nw events r uid stop x w,
  asha o eta min_res max_res first_rung max_rung start same max_full (start_world lists nw events r uid stop) = (x, w) ->
  forall t1 n e inds prom t2, w_trace w = t1 ++ TPromote n e inds prom :: t2 ->
  (Z.of_nat first_rung <= Z.of_nat n < max_rung)%Z /\ (t2 = [] \/ exists q t3, t2 = TSubmit (snd e) (Some (S n)) q :: t3).
Proof. exact C52_top_main. Qed.
Print Assumptions C52_top.

(** C52: without any rung (the stopping rate is above the number of the top rung)
    the search evaluates nothing and raises UnboundLocalError, whatever the operators do. *)
Theorem C52_no_rungs :
  forall o eta min_res max_res first_rung max_rung start max_full lists nw events r uid stop x w,
  (max_rung < Z.of_nat first_rung)%Z ->
  (forall r1 r2, o_individual o r1 <> (Err Diverges, r2)) -> (forall k, stop <> Some (k, Diverges)) ->
  asha o eta min_res max_res first_rung max_rung start true max_full (start_world lists nw events r uid stop) = (x, w) ->
  x = Err UnboundLocalError /\ w_trace w = [].
Proof. exact C52_no_rungs_main. Qed.
Print Assumptions C52_no_rungs.

Theorem C52_fuel :
  forall o eta min_res max_res first_rung max_rung start max_full w d,
  asha_loop o eta min_res max_res first_rung max_rung start max_full (length (w_events w) + 1 + d) w =
  asha_loop o eta min_res max_res first_rung max_rung start max_full (length (w_events w) + 1) w.
Proof. exact C52_fuel_main. Qed.
Print Assumptions C52_fuel.

Example C52_no_rungs_ex : exists w,
  asha ex_ops 2 (1 # 4) 1 3 2 0 true None (start_world [[]] 1 [win 3] [] 1 None) = (Err UnboundLocalError, w).
Proof. exact C52_no_rungs_ex_main. Qed.

Example C51_promotion_ex :
  exists w, ex_asha [win 3; win 5; win 4; lose; win 9; win 1] None = (Err Diverges, w) /\
    map (fun e => i_id (snd e)) (promoted_from 0 (w_trace w)) = [2; 3; 5] /\
    map (fun e => i_id (snd e)) (results_on 0 (w_trace w)) = [1; 2; 3; 4; 5; 6].
Proof. exact C51_promotion_ex_main. Qed.

Example C52_jobs_ex :
  exists w, ex_asha [win 3; win 5; mkEv 7 (Evaluated [Fin 7] false) None; win 6] None = (Err Diverges, w) /\
    exists t1 i t2, w_trace w = t1 ++ TSubmit i (Some 1) (Some ((1 # 4) * inject_Z 2)%Q) :: t2.
Proof. exact C52_jobs_ex_main. Qed.

(** C53: what is returned.  The result collected last may be missing when
    the time limit arrives before it was recorded. *)
Theorem C53_highest_partial :
  forall o eta min_res max_res first_rung max_rung start max_full lists nw events r uid stop l w,
  (match max_full with None => True | Some m => (0 < m)%Z end) ->
  asha o eta min_res max_res first_rung max_rung start true max_full (start_world lists nw events r uid stop) = (Ok l, w) ->
  exists t n, (t = w_trace w \/ exists i q oc, w_trace w = t ++ [TDone i q oc]) /\
    l = map snd (results_on n t) /\ l <> [] /\ forall m, n < m -> results_on m t = [].
Proof. exact C53_highest_partial_main. Qed.
Print Assumptions C53_highest_partial.

(** C53: stopped by its time limit (or never), and if nothing else goes wrong, ASHA
    fails only when no result was recorded. *)
Theorem C53_timeout_partial :
  forall o eta min_res max_res first_rung max_rung start max_full lists nw events r uid stop e w,
  (forall r, exists r', o_individual o r = (Ok tt, r')) -> (Z.of_nat first_rung <= max_rung)%Z ->
  Forall (fun e => e_callback e = None /\ e_out e <> Evaluated [] true /\ e_out e <> Evaluated [] false) events ->
  (match stop with None => True | Some (_, e) => e = TimeoutException end) ->
  asha o eta min_res max_res first_rung max_rung start true max_full (start_world lists nw events r uid stop) = (Err e, w) ->
  e = Diverges /\ w_events w = [] \/
  stop <> None /\ e = UnboundLocalError /\ exists t, (t = w_trace w \/ exists i q oc, w_trace w = t ++ [TDone i q oc]) /\ forall n, results_on n t = [].
Proof. exact C53_timeout_partial_main. Qed.
Print Assumptions C53_timeout_partial.

(** C53: left to itself, ASHA ends only when a number of evaluations on the top rung was
    asked for, and returns exactly so many. *)
Theorem C53_full :
  forall o eta min_res max_res first_rung max_rung start max_full lists nw events r uid l w,
  (forall r, exists r', o_individual o r = (Ok tt, r')) -> (Z.of_nat first_rung <= max_rung)%Z ->
  Forall (fun e => e_callback e = None /\ e_out e <> Evaluated [] true /\ e_out e <> Evaluated [] false) events ->
  asha o eta min_res max_res first_rung max_rung start true max_full (start_world lists nw events r uid None) = (Ok l, w) ->
  exists m, max_full = Some m /\ ((0 < m)%Z -> Z.of_nat (length l) = m /\ l = map snd (results_on (Z.to_nat max_rung) (w_trace w))).
Proof. exact C53_full_main. Qed.
Print Assumptions C53_full.

Example C53_full_ex :
  exists l w, asha ex_ops 2 (1 # 4) 1 0 1 0 true (Some 1%Z) (start_world [[]] 1 [win 3; win 5; mkEv 7 (Evaluated [Fin 7] false) None; win 6; win 2] [] 1 None) = (Ok l, w) /\ length l = 1.
Proof. exact C53_full_ex_main. Qed.

(** C53: stopped by Ctrl-C, ASHA raises UnboundLocalError and its results are lost. *)
Theorem C53_highest_refuted :
  ~ (forall o eta min_res max_res first_rung max_rung start max_full lists nw events r uid stop x w,
     (forall r, exists r', o_individual o r = (Ok tt, r')) -> (Z.of_nat first_rung <= max_rung)%Z ->
     Forall (fun e => e_callback e = None /\ e_out e <> Evaluated [] true /\ e_out e <> Evaluated [] false) events ->
     asha o eta min_res max_res first_rung max_rung start true max_full (start_world lists nw events r uid stop) = (x, w) ->
     x = Err Diverges \/ (forall n, results_on n (w_trace w) = []) \/ exists l, x = Ok l).
Proof. exact C53_highest_refuted_main. Qed.
Print Assumptions C53_highest_refuted.

Example C53_highest_ex :
  exists w, ex_asha [win 3; win 5; mkEv 7 (Evaluated [Fin 7] false) None; win 6; win 2] (Some (37, TimeoutException)) = (Ok [mkI 2 (Some [Fin 7]) (Some 1)], w).
Proof. exact C53_highest_ex_main. Qed.

(** C105: the evolutionary search; [start] is the list it was given. *)
Theorem C105_ea_partial :
  forall o out restart max_n pop_size start lists nw events r uid stop x w, out < length lists -> start <> out ->
  async_ea o out restart max_n pop_size start (start_world lists nw events r uid stop) = (x, w) ->
  forall t1 pop t2, w_trace w = t1 ++ TWait pop :: t2 -> Nat.min (length (nth start lists [])) (nw + 2) <= running t1.
Proof. exact C105_ea_partial_main. Qed.
Print Assumptions C105_ea_partial.

(** C105: random search has as many evaluations outstanding as it was given candidates. *)
Theorem C105_random_search_partial :
  forall o out max_n start lists nw events r uid stop x w,
  random_search o out max_n start (start_world lists nw events r uid stop) = (x, w) ->
  forall t1 pop t2, w_trace w = t1 ++ TWait pop :: t2 -> running t1 = length (nth start lists []).
Proof. exact C105_random_search_partial_main. Qed.
Print Assumptions C105_random_search_partial.

(** C105: ASHA has 8, however many workers there are. *)
Theorem C105_asha_partial :
  forall o eta min_res max_res first_rung max_rung start same max_full lists nw events r uid stop x w,
  asha o eta min_res max_res first_rung max_rung start same max_full (start_world lists nw events r uid stop) = (x, w) ->
  forall t1 i q oc t2, w_trace w = t1 ++ TDone i q oc :: t2 -> running t1 = 8.
Proof. exact C105_asha_partial_main. Qed.
Print Assumptions C105_asha_partial.

Theorem C105_supplied_refuted :
  ~ (forall o m out a lists nw events r uid stop x w, out < length lists -> a <> out -> nw <= length (nth a lists []) ->
     search_phase o m out out (Some a) (start_world lists nw events r uid stop) = (x, w) ->
     forall t1 i q oc t2, w_trace w = t1 ++ TDone i q oc :: t2 -> nw <= running t1).
Proof. exact C105_supplied_refuted_main. Qed.
Print Assumptions C105_supplied_refuted.

Example C105_ea_ex :
  exists x w t1 pop t2, async_ea ex_ops 0 false None 3 1 (start_world [[]; map cand (seq 0 7)] 2 [win 1; win 2; win 3; win 4; win 5] [] 60 None) = (x, w) /\
    w_trace w = t1 ++ TWait pop :: t2 /\ length (collected t1) = 5 /\ running t1 = 4.
Proof. exact C105_ea_ex_main. Qed.

(** C106: the evolutionary search and random search, started from a list of candidates. *)
Theorem C106_stopped_partial :
  forall o m out final a lists nw events r uid k e x w, out < length lists -> nth a lists [] <> [] -> e = TimeoutException \/ e = KeyboardInterrupt ->
  match m with ASHA _ _ _ _ _ _ _ => False | _ => True end ->
  search_phase o m out final (Some a) (start_world lists nw events r uid (Some (k, e))) = (x, w) ->
  x <> Err TimeoutException /\ x <> Err KeyboardInterrupt /\
  forall b, x = Ok b -> b = out /\ (w_trace w = [] \/
    match m with
    | RS _ => exists missing, length missing <= 1 /\ list_at out w ++ missing = nth out lists [] ++ with_result (w_trace w)
    | _ => incl (list_at out w) (successes (w_trace w)) /\
           forall n _restart _max, m = EA _restart _max n -> Nat.min n (length (successes (since_restart (w_trace w))) - 1) <= length (list_at out w)
    end).
Proof. exact C106_stopped_partial_main. Qed.
Print Assumptions C106_stopped_partial.

(** C106: with nothing else going wrong random search always ends in order. *)
Theorem C106_random_search :
  forall o max_n out final a lists nw events r uid stop x w,
  (forall r, exists r', o_individual o r = (Ok tt, r')) -> nth a lists [] <> [] -> Forall (fun e => e_callback e = None) events ->
  (match stop with None => True | Some (_, e) => e = TimeoutException \/ e = KeyboardInterrupt end) ->
  search_phase o (RS max_n) out final (Some a) (start_world lists nw events r uid stop) = (x, w) ->
  x = Ok out \/ x = Err Diverges /\ w_events w = [].
Proof. exact C106_random_search_main. Qed.
Print Assumptions C106_random_search.

Theorem C106_stopped_refuted :
  ~ (forall o m out final a lists nw events r uid k e x w, out < length lists -> nth a lists [] <> [] -> (forall r, exists r', o_individual o r = (Ok tt, r')) ->
     Forall (fun e => e_callback e = None) events -> e = TimeoutException \/ e = KeyboardInterrupt ->
     search_phase o m out final (Some a) (start_world lists nw events r uid (Some (k, e))) = (x, w) -> x = Err Diverges \/ exists b, x = Ok b).
Proof. exact C106_stopped_refuted_main. Qed.
Print Assumptions C106_stopped_refuted.

Example C106_stopped_ex :
  exists w, search_phase ex_ops (EA false None 3) 0 0 (Some 1) (start_world [[]; map cand (seq 0 6)] 1 [win 1; win 2; win 3; win 4] [] 60 (Some (16, KeyboardInterrupt))) = (Ok 0, w) /\
    map i_id (list_at 0 w) = [0; 1] /\ length (successes (w_trace w)) = 3.
Proof. exact C106_stopped_ex_main. Qed.

(** C107: between two waits, and at the end. *)
Theorem C107_turn :
  forall o out restart max_n pop_size start lists nw events r uid stop x w, out < length lists ->
  async_ea o out restart max_n pop_size start (start_world lists nw events r uid stop) = (x, w) ->
  forall t1 pop i q oc t2, submits t2 ->
  let change := population_turn pop_size (fun l x => exists r r' rest, o_eliminate o l 1 r = (Ok (x :: rest), r')) pop i oc in
  (forall pop' t3, w_trace w = t1 ++ TWait pop :: TDone i q oc :: t2 ++ TWait pop' :: t3 -> change pop') /\
  (forall a, x = Ok a -> w_trace w = t1 ++ TWait pop :: TDone i q oc :: t2 -> change (list_at a w)).
Proof. exact C107_turn_main. Qed.
Print Assumptions C107_turn.

(** C107: nobody is in the population twice. *)
Theorem C107_distinct :
  forall o out restart max_n pop_size start lists nw events r uid stop x w, out < length lists -> start <> out ->
  NoDup (map i_id (nth start lists [])) -> Forall (fun i => i_id i < uid) (nth start lists []) ->
  async_ea o out restart max_n pop_size start (start_world lists nw events r uid stop) = (x, w) ->
  forall t1 pop i q oc t2, w_trace w = t1 ++ TWait pop :: TDone i q oc :: t2 -> NoDup (map i_id (pop ++ [i])).
Proof. exact C107_distinct_main. Qed.
Print Assumptions C107_distinct.

(** C107: with the operators of GAMA, the one that leaves is not better than any other in every respect. *)
Theorem C107_worst_leaves :
  forall can_cross mate mutate create_new out restart max_n pop_size start lists nw events r uid stop x w k, out < length lists -> start <> out ->
  NoDup (map i_id (nth start lists [])) -> Forall (fun i => i_id i < uid) (nth start lists []) ->
  async_ea (gama_ops can_cross mate mutate create_new) out restart max_n pop_size start (start_world lists nw events r uid stop) = (x, w) ->
  forall t1 pop i q s t2 pop' t3, w_trace w = t1 ++ TWait pop :: TDone i q (Evaluated s false) :: t2 ++ TWait pop' :: t3 -> submits t2 ->
  (forall y, In y (pop ++ [i]) -> length (fitness y) = k) -> pop_size <= length pop ->
  exists l1 y l2, pop ++ [i] = l1 ++ y :: l2 /\ pop' = l1 ++ l2 /\ forall z, In z (pop ++ [i]) -> ~ pareto_dominates (fitness y) (fitness z).
Proof. exact C107_worst_leaves_main. Qed.
Print Assumptions C107_worst_leaves.

Example C107_turn_ex :
  exists w t1 t3, ex_run false (Some 5%Z) 3 [win 1; win 5; lose; win 4; win 3] [] = (Ok 0, w) /\
    exists pop i q s, w_trace w = t1 ++ TWait pop :: TDone i q (Evaluated s false) :: t3 /\ map i_id pop = [1; 2; 4] /\ i_id i = 5 /\ map i_id (list_at 0 w) = [2; 4; 5].
Proof. exact C107_turn_ex_main. Qed.

(** C121, when the search method has no list of an earlier fit: whatever it
    is started from, only individuals evaluated during this search are considered. *)
Theorem C121_first_fit_partial :
  forall o m out final warm lists nw events r uid stop b w, out < length lists -> nth out lists [] = [] ->
  (match m with ASHA _ _ _ _ _ _ (Some n) => (0 < n)%Z | _ => True end) ->
  search_phase o m out final warm (start_world lists nw events r uid stop) = (Ok b, w) ->
  incl (list_at b w) (with_result (w_trace w)).
Proof. exact C121_first_fit_partial_main. Qed.
Print Assumptions C121_first_fit_partial.

(** Random search keeps in later fits every individual of the earlier ones, with the scores it had then. *)
Theorem C121_random_search :
  forall o max_n out final warm lists nw events r uid stop b w, out < length lists ->
  search_phase o (RS max_n) out final warm (start_world lists nw events r uid stop) = (Ok b, w) ->
  b = out /\ firstn (length (nth out lists [])) (list_at b w) = nth out lists [].
Proof. exact C121_random_search_main. Qed.
Print Assumptions C121_random_search.

(** C121 is false of a second fit with random search: the old scores, of other data, decide. *)
Theorem C121_again_refuted :
  ~ (forall o m out final warm lists nw events r uid stop b w, out < length lists ->
     search_phase o m out final warm (start_world lists nw events r uid stop) = (Ok b, w) ->
     incl (list_at b w) (with_result (w_trace w))).
Proof. exact C121_again_refuted_main. Qed.
Print Assumptions C121_again_refuted.

Example C121_first_fit_ex :
  exists w, search_phase ex_ops (RS (Some 2%Z)) 0 0 (Some 1) (start_world [[]; [cand 7; cand 8]] 1 [win 1; lose; win 2] [] 20 None) = (Ok 0, w) /\
    map i_id (list_at 0 w) = [7; 8] /\ length (submissions (w_trace w)) = 4.
Proof. exact C121_first_fit_ex_main. Qed.

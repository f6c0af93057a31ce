(** Property theorems; proofs in Crew_Main.v. *)
Require Import Permutation ZArith QArith Qcanon.
From Verif Require Import Base Num Gp_Model Gp_Spec Gp_Examples Misc_Model Lib_Model Lib_Spec Evo_Model Evo_Spec Evo_Main Rnd_Model Rnd_Spec End_Model End_Spec Mix_Model Mix_Spec Mix_Main Proc_Model Proc_Spec Team_Model Team_Spec Live_Spec Done_Spec Top_Spec.
From Verif Require Ens_Model Ens_Spec Ens_Main Async_Model Sys_Model Sys_Main Proc_Main Live_Main Done_Main.
Open Scope nat_scope.
Open Scope list_scope.
From Verif Require Import Crew_Main.

(** C176.  fit with random search and an ensemble returns an ensemble of the best evaluations,
    of the requested size: the workers get so many turns that the first candidates can be
    submitted, and more rounds than there are evaluations that do not succeed; these are fewer
    than max_evaluations, if that is given. *)
Theorem C176_random :
  forall A call scores n log defaults l0 rr data row tr (metric : list A -> Ens_Model.mat -> res num) task size hillclimb models y left r c
    ps max_length max_n warm_start s plan x w p failing,
  wf_heap (s_heap s) -> start_ok ps max_length s warm_start -> NoDup (map i_id warm_start) -> pset_rich ps -> allows_one max_length ->
  (forall k, Forall (fun x => x <> NaN) (scores k)) ->
  new_library (length y) l0 -> (forall n, Ens_Spec.readable row tr n c) -> (forall y1, Ens_Spec.scores (length y1) c (metric y1)) -> nlt (Fin 0) left ->
  0 < n -> succeeds call defaults failing -> (match max_n with Some m => (Z.of_nat (length failing) < m)%Z | None => True end) ->
  long_enough n (match warm_start with [] => 50 | _ => length warm_start end) (length failing) plan ->
  fit_random_ens_p call scores l0 rr data row tr metric task (ensemble_hps (VNum (Zpos size # 1)) hillclimb models) y left r
    ps max_length n log defaults max_n warm_start (before_h s plan) = (x, (w, p)) ->
  let good := succeeded (q_trace w) in
  delivers (length y) good data ->
  exists e, x = Ok (e, Ok tt) /\ ensemble_of good data (l_m l0) (Pos.to_nat size) e.
Proof. exact C176_random_main. Qed.
Print Assumptions C176_random.

(** C176: with the evolutionary search, also with restarts, for any limit and number of scores;
    missing: it can end by the exceptions of C160. *)
Theorem C176_evolutionary_partial :
  forall A call scores n log defaults l0 rr data row tr (metric : list A -> Ens_Model.mat -> res num) task size hillclimb models y left r c
    ps max_length max_retry pop_size max_n (restart : bool) warm_start (s : setting) plan x w p failing k,
  wf_heap (s_heap s) -> start_ok ps max_length s warm_start -> NoDup (map i_id warm_start) ->
  pset_typed ps -> pset_rich ps -> allows_one max_length -> 0 < max_retry -> (forall e, length (scores e) = k) ->
  (forall k, Forall (fun x => x <> NaN) (scores k)) ->
  new_library (length y) l0 -> (forall n, Ens_Spec.readable row tr n c) -> (forall y1, Ens_Spec.scores (length y1) c (metric y1)) -> nlt (Fin 0) left ->
  0 < n -> succeeds call defaults failing -> (match max_n with Some m => (Z.of_nat (length failing) < m)%Z | None => True end) ->
  long_enough n (match warm_start with [] => 50 | _ => length warm_start end) ((if restart then S pop_size else 1) * length failing) plan ->
  fit_evo_ens_p call scores l0 rr data row tr metric task (ensemble_hps (VNum (Zpos size # 1)) hillclimb models) y left r
    ps max_length n log defaults max_retry pop_size max_n restart warm_start (before_search s plan) = (x, (w, p)) ->
  let good := succeeded_ea (v_trace w) in
  delivers (length y) good data ->
  (exists e, x = Ok (e, Ok tt) /\ ensemble_of good data (l_m l0) (Pos.to_nat size) e) \/
  (x = Err ValueError /\ length (v_pop w) < 3) \/
  (exists ex, x = Err ex /\ breakdown ps max_length k w (Err ex)).
Proof. exact C176_evolutionary_partial_main. Qed.
Print Assumptions C176_evolutionary_partial.

(** C176: with ASHA, when the rounds are enough for more scores on the top rung than there are
    evaluations that do not succeed (see C174); missing: that evaluations on lower rungs are enough,
    which is false (C155). *)
Theorem C176_asha_partial :
  forall A call scores n log defaults l0 rr data row tr (metric : list A -> Ens_Model.mat -> res num) task size hillclimb models y left r c
    ps max_length eta first_rung max_rung max_full warm_start s plan x w p failing,
  wf_heap (s_heap s) -> start_ok ps max_length s warm_start -> NoDup (map i_id warm_start) -> pset_rich ps -> allows_one max_length ->
  (Z.of_nat first_rung <= max_rung)%Z -> (forall k, scores k <> []) -> (forall k, Forall (fun x => x <> NaN) (scores k)) ->
  new_library (length y) l0 -> (forall n, Ens_Spec.readable row tr n c) -> (forall y1, Ens_Spec.scores (length y1) c (metric y1)) -> nlt (Fin 0) left ->
  0 < n -> 0 < eta -> succeeds call defaults failing -> (match max_full with Some m => (Z.of_nat (length failing) < m)%Z | None => True end) ->
  long_enough n 8 (results_needed eta (length failing) (S (length failing)) (Z.to_nat max_rung - first_rung)) plan ->
  fit_asha_ens_p call scores l0 rr data row tr metric task (ensemble_hps (VNum (Zpos size # 1)) hillclimb models) y left r
    ps max_length n log defaults eta first_rung max_rung max_full warm_start (before_h s plan) = (x, (w, p)) ->
  let good := succeeded_on_top max_rung (q_trace w) in
  delivers (length y) good data ->
  exists e, x = Ok (e, Ok tt) /\ ensemble_of good data (l_m l0) (Pos.to_nat size) e.
Proof. exact C176_asha_partial_main. Qed.
Print Assumptions C176_asha_partial.

Example C176_ex :
  wf_heap (s_heap (ex_begin ex_rand)) /\ start_ok ex_ps (Some 3%Z) (ex_begin ex_rand) ex_start /\ start_ok ex_ps None (ex_begin (repeat 1 300)) ex_start /\ NoDup (map i_id ex_start) /\
  pset_rich ex_ps /\ pset_typed ex_ps /\ allows_one (Some 3%Z) /\ roomy ex_ps None /\ (forall e, length (Sys_Main.ex_scores e) = 2) /\
  new_library (length ex_y) ex_lib2 /\ (forall good, delivers (length ex_y) good ex_data) /\
  succeeds Live_Main.ex_evaluation [] [5] /\ results_needed 2 1 2 1 = 25 /\
  long_enough 2 5 1 (Done_Main.ex_turns 2) /\ long_enough 2 5 6 (Done_Main.ex_turns 7) /\ long_enough 2 8 25 (Done_Main.ex_turns 26) /\
  ex_show (fst (ex_rs_crew 2)) = ([(3, 1); (2, 2)], Some [(103, 1); (102, 2)], Ok tt) /\
  ex_show (fst (ex_ea_crew true (repeat 1 300) 7)) = ([(4, 1); (3, 2)], Some [(104, 1); (103, 2)], Ok tt) /\
  ex_show (fst (ex_asha_crew 26)) = ([(29, 1); (27, 2)], Some [(149, 1); (146, 2)], Ok tt) /\
  (* no rounds; too few for the top rung *)
  ex_show (fst (ex_rs_crew 0)) = ([], None, Err ZeroDivisionError) /\
  ex_show (fst (ex_asha_crew 2)) = ([], None, Err ZeroDivisionError).
Proof. exact C176_ex_main. Qed.

(** C176 without the exception is false: two successes with so many workers and candidates
    that the population has fewer than three members when the first child is to be made. *)
Theorem C176_evolutionary_refuted :
  ~ (forall (A : Type) call scores n log defaults l0 rr data row tr (metric : list A -> Ens_Model.mat -> res num) task size hillclimb models y left r c
    ps max_length max_retry pop_size max_n (restart : bool) warm_start (s : setting) plan x w p failing k,
  wf_heap (s_heap s) -> start_ok ps max_length s warm_start -> NoDup (map i_id warm_start) ->
  pset_typed ps -> pset_rich ps -> roomy ps max_length -> 0 < max_retry -> 2 <= k -> (forall e, length (scores e) = k) ->
  (forall k, Forall (fun x => x <> NaN) (scores k)) ->
  new_library (length y) l0 -> (forall n, Ens_Spec.readable row tr n c) -> (forall y1, Ens_Spec.scores (length y1) c (metric y1)) -> nlt (Fin 0) left ->
  0 < n -> succeeds call defaults failing -> (match max_n with Some m => (Z.of_nat (length failing) < m)%Z | None => True end) ->
  long_enough n (match warm_start with [] => 50 | _ => length warm_start end) ((if restart then S pop_size else 1) * length failing) plan ->
  fit_evo_ens_p call scores l0 rr data row tr metric task (ensemble_hps (VNum (Zpos size # 1)) hillclimb models) y left r
    ps max_length n log defaults max_retry pop_size max_n restart warm_start (before_search s plan) = (x, (w, p)) ->
  let good := succeeded_ea (v_trace w) in
  delivers (length y) good data ->
  exists e, x = Ok (e, Ok tt) /\ ensemble_of good data (l_m l0) (Pos.to_nat size) e).
Proof. exact C176_evolutionary_refuted_main. Qed.
Print Assumptions C176_evolutionary_refuted.

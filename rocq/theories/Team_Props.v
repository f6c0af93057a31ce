(** Property theorems; proofs in Team_Main.v. *)
Require Import Permutation QArith Qcanon.
From Verif Require Import Base Num Gp_Model Gp_Spec Gp_Examples Misc_Model Lib_Model Lib_Spec Evo_Model Evo_Spec Evo_Main Rnd_Model Rnd_Spec End_Model End_Spec Mix_Model Mix_Spec Mix_Main Proc_Model Proc_Spec Team_Model Team_Spec.
From Verif Require Ens_Model Ens_Spec Ens_Main Async_Model Sys_Model Sys_Main Proc_Main.
Open Scope nat_scope.
Open Scope list_scope.
From Verif Require Import Team_Main.

(** C163.  fit with random search and an ensemble, on worker processes.  Whatever they do
    and whenever the search is stopped: what was collected are results of calls that ended
    in a worker; the evaluations that succeeded are of pipelines of the search space within
    the limit; if there is one, the model is an ensemble of the requested size of the best of
    them; if there is none, predict raises TypeError. *)
Theorem C163_random :
  forall A call scores n log defaults l0 rr data row tr (metric : list A -> Ens_Model.mat -> res num) task size hillclimb models y left r c
    ps max_length max_n warm_start s plan x w p,
  wf_heap (s_heap s) -> start_ok ps max_length s warm_start -> NoDup (map i_id warm_start) -> pset_rich ps -> allows_one max_length ->
  (forall k, Forall (fun x => x <> NaN) (scores k)) ->
  new_library (length y) l0 -> (forall n, Ens_Spec.readable row tr n c) -> (forall y1, Ens_Spec.scores (length y1) c (metric y1)) -> nlt (Fin 0) left ->
  fit_random_ens_p call scores l0 rr data row tr metric task (ensemble_hps (VNum (Zpos size # 1)) hillclimb models) y left r
    ps max_length n log defaults max_n warm_start (before_h s plan) = (x, (w, p)) ->
  let good := succeeded (q_trace w) in
  delivers (length y) good data ->
  h_from_workers call scores defaults w /\
  (forall k i l, good k i l -> exists ss, is_pipeline (h_objects w) i ss /\ pipeline_ok ps ss /\ within max_length ss) /\
  ((exists k i l, good k i l) -> exists e, x = Ok (e, Ok tt) /\ ensemble_of good data (l_m l0) (Pos.to_nat size) e) /\
  ((forall k i l, ~ good k i l) -> forall e z, x = Ok (e, z) -> useless tr e).
Proof. exact C163_random_main. Qed.
Print Assumptions C163_random.

(** C163: with the evolutionary search, unless the search itself fails (see C160). *)
Theorem C163_evolutionary :
  forall A call scores n log defaults l0 rr data row tr (metric : list A -> Ens_Model.mat -> res num) task size hillclimb models y left r c
    ps max_length max_retry pop_size max_n restart warm_start (s : setting) plan x w p,
  pset_typed ps -> 0 < max_retry -> wf_heap (s_heap s) -> start_ok ps None s warm_start -> NoDup (map i_id warm_start) ->
  (forall k, Forall (fun x => x <> NaN) (scores k)) ->
  new_library (length y) l0 -> (forall n, Ens_Spec.readable row tr n c) -> (forall y1, Ens_Spec.scores (length y1) c (metric y1)) -> nlt (Fin 0) left ->
  fit_evo_ens_p call scores l0 rr data row tr metric task (ensemble_hps (VNum (Zpos size # 1)) hillclimb models) y left r
    ps max_length n log defaults max_retry pop_size max_n restart warm_start (before_search s plan) = (x, (w, p)) ->
  let good := succeeded_ea (v_trace w) in
  delivers (length y) good data ->
  from_workers call scores defaults w /\
  (forall k i l, good k i l -> exists ss, is_pipeline (objects w) i ss /\ pipeline_ok ps ss) /\
  ((exists k i l, good k i l) ->
   (exists e, x = Ok (e, Ok tt) /\ ensemble_of good data (l_m l0) (Pos.to_nat size) e) \/
   (exists ex, x = Err ex /\ ex <> Diverges /\
      fst (p_search call scores ps max_length max_retry pop_size max_n restart n log defaults warm_start (before_search s plan)) = Err ex)) /\
  ((forall k i l, ~ good k i l) -> forall e z, x = Ok (e, z) -> useless tr e).
Proof. exact C163_evolutionary_main. Qed.
Print Assumptions C163_evolutionary.

(** C163: with ASHA, the ensemble is made of the best evaluations on the top rung, if one
    of them succeeded; missing: that evaluations on lower rungs are enough for a model, which
    is false (C155). *)
Theorem C163_asha_partial :
  forall A call scores n log defaults l0 rr data row tr (metric : list A -> Ens_Model.mat -> res num) task size hillclimb models y left r c
    ps max_length eta first_rung max_rung max_full warm_start s plan x w p,
  wf_heap (s_heap s) -> start_ok ps max_length s warm_start -> NoDup (map i_id warm_start) -> pset_rich ps -> allows_one max_length ->
  (Z.of_nat first_rung <= max_rung)%Z -> (forall k, scores k <> []) -> (forall k, Forall (fun x => x <> NaN) (scores k)) ->
  new_library (length y) l0 -> (forall n, Ens_Spec.readable row tr n c) -> (forall y1, Ens_Spec.scores (length y1) c (metric y1)) -> nlt (Fin 0) left ->
  fit_asha_ens_p call scores l0 rr data row tr metric task (ensemble_hps (VNum (Zpos size # 1)) hillclimb models) y left r
    ps max_length n log defaults eta first_rung max_rung max_full warm_start (before_h s plan) = (x, (w, p)) ->
  let good := succeeded_on_top max_rung (q_trace w) in
  delivers (length y) good data ->
  h_from_workers call scores defaults w /\
  (forall k i l, good k i l -> exists ss, is_pipeline (h_objects w) i ss /\ pipeline_ok ps ss /\ within max_length ss) /\
  ((exists k i l, good k i l) -> exists e, x = Ok (e, Ok tt) /\ ensemble_of good data (l_m l0) (Pos.to_nat size) e) /\
  ((forall k i l, ~ good k i l) -> forall e z, x = Ok (e, z) -> useless tr e).
Proof. exact C163_asha_partial_main. Qed.
Print Assumptions C163_asha_partial.

Example C163_ex :
  wf_heap (s_heap (ex_begin ex_rand)) /\ start_ok ex_ps (Some 3%Z) (ex_begin ex_rand) ex_start /\ NoDup (map i_id ex_start) /\
  pset_rich ex_ps /\ pset_typed ex_ps /\ allows_one (Some 3%Z) /\ new_library (length ex_y) ex_lib2 /\
  (forall n, Ens_Spec.readable Ens_Main.ex_row None n 1) /\ (forall y1, Ens_Spec.scores (length y1) 1 (Ens_Main.sq_err y1)) /\
  (forall good, delivers (length ex_y) good ex_data) /\
  (forall k, Sys_Main.ex_scores k <> []) /\ (forall k, Forall (fun x => x <> NaN) (Sys_Main.ex_scores k)) /\
  ex_show (fst ex_rs_team) = ([(4, 1); (3, 2)], Some [(103, 1); (102, 2)], Ok tt) /\
  ex_show (fst ex_ea_team) = ([(9, 1); (8, 2)], Some [(104, 1); (102, 2)], Ok tt) /\
  ex_show (fst (ex_asha_team (Sys_Main.ex_plan ++ Sys_Main.ex_plan ++ Sys_Main.ex_plan))) = ([(3, 3)], Some [(108, 3)], Ok tt) /\
  (* stopped before anything is complete *)
  ex_show (fst (ex_asha_team Sys_Main.ex_plan)) = ([], None, Err ZeroDivisionError).
Proof. exact C163_ex_main. Qed.

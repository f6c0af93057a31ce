(** Property theorems; proofs in Mix_Main.v. *)
Require Import Permutation QArith Qcanon.
From Verif Require Import Base Num Gp_Model Gp_Spec Gp_Examples Misc_Model Lib_Model Lib_Spec Evo_Model Evo_Spec Evo_Main Rnd_Model Rnd_Spec End_Model End_Spec Mix_Model Mix_Spec.
From Verif Require Ens_Model Ens_Spec Ens_Main.
Open Scope nat_scope.
Open Scope list_scope.
From Verif Require Import Mix_Main.

(** C153.  fit with random search and an ensemble: when at least one evaluation succeeded,
    the model is an ensemble of the requested size, made of the best of the evaluations that
    succeeded; each of them is of a pipeline of the search space within the limit. *)
Theorem C153_ensemble :
  forall A l0 rr data row tr (metric : list A -> Ens_Model.mat -> res num) task size hillclimb models y left r c
    ps max_length max_n warm_start events s x w,
  wf_heap (s_heap s) -> start_ok ps max_length s warm_start -> NoDup (map i_id warm_start) -> pset_rich ps -> allows_one max_length ->
  new_library (length y) l0 -> (forall n, Ens_Spec.readable row tr n c) -> (forall y1, Ens_Spec.scores (length y1) c (metric y1)) -> nlt (Fin 0) left ->
  fit_random_ens l0 rr data row tr metric task (ensemble_hps (VNum (Zpos size # 1)) hillclimb models) y left r
    ps max_length max_n warm_start events (fresh_h s) = (x, w) ->
  let good := fun k i scores => exists rung, result_at (q_trace w) k i rung scores false in
  Forall numeric (results (q_trace w)) -> delivers (length y) good data ->
  (exists k i scores, good k i scores) ->
  (exists e, x = Ok (e, Ok tt) /\ ensemble_of good data (l_m l0) (Pos.to_nat size) e) /\
  (forall k i scores, good k i scores -> exists ss, is_pipeline (h_objects w) i ss /\ pipeline_ok ps ss /\ within max_length ss).
Proof. exact C153_ensemble_main. Qed.
Print Assumptions C153_ensemble.

(** C153: when no evaluation succeeded there is nothing to predict with; fit need not
    fail, predict does. *)
Theorem C153_nothing :
  forall A l0 rr data row tr (metric : list A -> Ens_Model.mat -> res num) task size hillclimb models y left r
    ps max_length max_n warm_start events s e x w,
  wf_heap (s_heap s) -> start_ok ps max_length s warm_start -> NoDup (map i_id warm_start) -> new_library (length y) l0 ->
  fit_random_ens l0 rr data row tr metric task (ensemble_hps (VNum (Zpos size # 1)) hillclimb models) y left r
    ps max_length max_n warm_start events (fresh_h s) = (Ok (e, x), w) ->
  let good := fun k i scores => exists rung, result_at (q_trace w) k i rung scores false in
  Forall numeric (results (q_trace w)) -> delivers (length y) good data ->
  (forall k i scores, ~ good k i scores) -> useless tr e.
Proof. exact C153_nothing_main. Qed.
Print Assumptions C153_nothing.

(** C154.  The same for the evolutionary search, unless the search itself fails (see C147):
    every evaluation since the beginning counts, restarts make no difference. *)
Theorem C154_ensemble :
  forall A l0 rr data row tr (metric : list A -> Ens_Model.mat -> res num) task size hillclimb models y left r c
    ps max_length max_retry workers pop_size max_n restart warm_start events (s : setting) x w,
  pset_typed ps -> 0 < max_retry -> wf_heap (s_heap s) -> start_ok ps None s warm_start -> NoDup (map i_id warm_start) ->
  new_library (length y) l0 -> (forall n, Ens_Spec.readable row tr n c) -> (forall y1, Ens_Spec.scores (length y1) c (metric y1)) -> nlt (Fin 0) left ->
  fit_evo_ens l0 rr data row tr metric task (ensemble_hps (VNum (Zpos size # 1)) hillclimb models) y left r
    ps max_length max_retry workers pop_size max_n restart warm_start events (fresh_search s) = (x, w) ->
  let good := fun k i scores => collected_at (v_trace w) k i scores false in
  (forall k i scores failed, collected_at (v_trace w) k i scores failed -> Forall (fun x => x <> NaN) scores) -> delivers (length y) good data ->
  (exists k i scores, good k i scores) ->
  ((exists e, x = Ok (e, Ok tt) /\ ensemble_of good data (l_m l0) (Pos.to_nat size) e) \/
   (exists ex, x = Err ex /\ ex <> Diverges /\ fst (search ps max_length max_retry workers pop_size max_n restart warm_start events (fresh_search s)) = Err ex)) /\
  (forall k i scores, good k i scores -> exists ss, is_pipeline (objects w) i ss /\ pipeline_ok ps ss).
Proof. exact C154_ensemble_main. Qed.
Print Assumptions C154_ensemble.

Theorem C154_nothing :
  forall A l0 rr data row tr (metric : list A -> Ens_Model.mat -> res num) task size hillclimb models y left r
    ps max_length max_retry workers pop_size max_n restart warm_start events (s : setting) e x w,
  pset_typed ps -> 0 < max_retry -> wf_heap (s_heap s) -> start_ok ps None s warm_start -> NoDup (map i_id warm_start) -> new_library (length y) l0 ->
  fit_evo_ens l0 rr data row tr metric task (ensemble_hps (VNum (Zpos size # 1)) hillclimb models) y left r
    ps max_length max_retry workers pop_size max_n restart warm_start events (fresh_search s) = (Ok (e, x), w) ->
  let good := fun k i scores => collected_at (v_trace w) k i scores false in
  (forall k i scores failed, collected_at (v_trace w) k i scores failed -> Forall (fun x => x <> NaN) scores) -> delivers (length y) good data ->
  (forall k i scores, ~ good k i scores) -> useless tr e.
Proof. exact C154_nothing_main. Qed.
Print Assumptions C154_nothing.

(** C154: the pipelines the evolutionary search takes for evaluated, and makes no copies of
    (C146), are those the library knows. *)
Theorem C154_lookup :
  forall l0 rr data rows ps max_length max_retry workers pop_size max_n restart warm_start events (s : setting) x w ss,
  pset_typed ps -> 0 < max_retry -> wf_heap (s_heap s) -> start_ok ps None s warm_start -> NoDup (map i_id warm_start) -> new_library rows l0 ->
  search ps max_length max_retry workers pop_size max_n restart warm_start events (fresh_search s) = (x, w) -> seen_before s = [] ->
  (forall k i scores failed, collected_at (v_trace w) k i scores failed -> Forall (fun x => x <> NaN) scores) ->
  (forall k, match snd (data k) with Some p => length p = rows | None => True end) ->
  let l := library l0 rr data (v_st w) (ea_reports (v_trace w)) in
  (In (text ss) (v_saved w) <-> find_key (text ss) (l_lookup l) <> None) /\
  (In (text ss) (v_saved w) <-> exists i scores failed ss', In (Collected i (Evaluated scores failed)) (v_trace w) /\ is_pipeline (objects w) i ss' /\ text ss' = text ss).
Proof. exact C154_lookup_main. Qed.
Print Assumptions C154_lookup.

(** C154: the same for a later fit on the same object.  Its library [l0] can be any, with all
    that earlier fits left in it; the search begins with the texts that [l0] can look up.
    Then what the library can look up is taken for evaluated, and when no evaluation is
    rejected by the library it is exactly that; so a next fit begins in the same way. *)
Theorem C154_lookup_later :
  forall l0 rr data ps max_length max_retry workers pop_size max_n restart warm_start events (s : setting) x w known,
  pset_typed ps -> 0 < max_retry -> wf_heap (s_heap s) -> start_ok ps None s warm_start ->
  seen_before s = map fst (l_lookup l0) ->
  search ps max_length max_retry workers pop_size max_n restart warm_start events (fresh_search s) = (x, w) ->
  let reports := evaluations (text_in (v_st w)) data 0 (ea_reports (v_trace w)) in
  let l := library l0 rr data (v_st w) (ea_reports (v_trace w)) in
  (find_key known (l_lookup l) <> None -> In known (v_saved w)) /\
  (Forall (fun attempt => snd attempt = Ok tt) (snd (saves l0 reports rr)) -> (In known (v_saved w) <-> find_key known (l_lookup l) <> None)) /\
  (In known (v_saved w) <-> find_key known (l_lookup l0) <> None \/
     exists i scores failed steps, In (Collected i (Evaluated scores failed)) (v_trace w) /\ is_pipeline (objects w) i steps /\ text steps = known).
Proof. exact C154_lookup_later_main. Qed.
Print Assumptions C154_lookup_later.

(** C155.  With ASHA only complete evaluations count, those on the top rung: when one of
    them succeeded, the model is an ensemble of the best of them.  The rest of the claim,
    that the successful evaluations on lower rungs are enough, is false
    ([C155_lower_rungs_refuted]). *)
Theorem C155_ensemble_partial :
  forall A l0 rr data row tr (metric : list A -> Ens_Model.mat -> res num) task size hillclimb models y left r c
    ps max_length eta first_rung max_rung max_full warm_start events s x w,
  wf_heap (s_heap s) -> start_ok ps max_length s warm_start -> NoDup (map i_id warm_start) -> pset_rich ps -> allows_one max_length ->
  (Z.of_nat first_rung <= max_rung)%Z -> Forall has_score events ->
  new_library (length y) l0 -> (forall n, Ens_Spec.readable row tr n c) -> (forall y1, Ens_Spec.scores (length y1) c (metric y1)) -> nlt (Fin 0) left ->
  fit_asha_ens l0 rr data row tr metric task (ensemble_hps (VNum (Zpos size # 1)) hillclimb models) y left r
    ps max_length eta first_rung max_rung max_full warm_start events (fresh_h s) = (x, w) ->
  let good := fun k i scores => exists rung, Z.of_nat rung = max_rung /\ result_at (q_trace w) k i rung scores false in
  Forall numeric (results (q_trace w)) -> delivers (length y) good data ->
  (exists k i scores, good k i scores) ->
  (exists e, x = Ok (e, Ok tt) /\ ensemble_of good data (l_m l0) (Pos.to_nat size) e) /\
  (forall k i scores, good k i scores -> exists ss, is_pipeline (h_objects w) i ss /\ pipeline_ok ps ss /\ within max_length ss).
Proof. exact C155_ensemble_partial_main. Qed.
Print Assumptions C155_ensemble_partial.

(** C155: when no evaluation on the top rung succeeded there is nothing to predict with. *)
Theorem C155_nothing :
  forall A l0 rr data row tr (metric : list A -> Ens_Model.mat -> res num) task size hillclimb models y left r
    ps max_length eta first_rung max_rung max_full warm_start events s e x w,
  wf_heap (s_heap s) -> start_ok ps max_length s warm_start -> NoDup (map i_id warm_start) -> new_library (length y) l0 ->
  fit_asha_ens l0 rr data row tr metric task (ensemble_hps (VNum (Zpos size # 1)) hillclimb models) y left r
    ps max_length eta first_rung max_rung max_full warm_start events (fresh_h s) = (Ok (e, x), w) ->
  let good := fun k i scores => exists rung, Z.of_nat rung = max_rung /\ result_at (q_trace w) k i rung scores false in
  Forall numeric (results (q_trace w)) -> delivers (length y) good data ->
  (forall k i scores, ~ good k i scores) -> useless tr e.
Proof. exact C155_nothing_main. Qed.
Print Assumptions C155_nothing.

Example C153_ex :
  wf_heap (s_heap (ex_begin ex_rand)) /\ start_ok ex_ps (Some 3%Z) (ex_begin ex_rand) ex_start /\ NoDup (map i_id ex_start) /\
  pset_rich ex_ps /\ allows_one (Some 3%Z) /\ new_library (length ex_y) ex_lib2 /\
  (forall n, Ens_Spec.readable Ens_Main.ex_row None n 1) /\ (forall y1, Ens_Spec.scores (length y1) 1 (Ens_Main.sq_err y1)) /\
  (forall good, delivers (length ex_y) good ex_data) /\
  Forall numeric (results (q_trace (snd (ex_rs_ens [ex_win 1; ex_crash; ex_fail; ex_win 2; ex_win 3; ex_win 4])))) /\
  map (fun m => (i_id (m_ind m), m_fit m)) (results (q_trace (snd (ex_rs_ens [ex_win 1; ex_crash; ex_fail; ex_win 2; ex_win 3; ex_win 4])))) =
    [(0, [Fin 1; Fin (-3 # 1)]); (2, [Fin 0; Fin 0]); (3, [Fin (2 # 1); Fin (-3 # 1)]); (4, [Fin (3 # 1); Fin (-3 # 1)])] /\
  ex_show (fst (ex_rs_ens [ex_win 1; ex_crash; ex_fail; ex_win 2; ex_win 3; ex_win 4])) = ([(4, 1); (3, 2)], Some [(103, 1); (102, 2)], Ok tt) /\
  ex_show (fst (ex_rs_ens [ex_crash; ex_fail])) = ([], None, Err ZeroDivisionError).
Proof. exact C153_ex_main. Qed.

Example C154_ex :
  pset_typed ex_ps /\ start_ok ex_ps None (ex_begin []) ex_start /\
  (forall k i scores failed, collected_at (v_trace (snd (ex_ea_ens [ex_win 1; ex_win 4; ex_win 3; ex_win 2; ex_fail]))) k i scores failed -> Forall (fun x => x <> NaN) scores) /\
  map i_id (collected (v_trace (snd (ex_ea_ens [ex_win 1; ex_win 4; ex_win 3; ex_win 2; ex_fail])))) = [0; 1; 2; 3; 4] /\
  ex_show (fst (ex_ea_ens [ex_win 1; ex_win 4; ex_win 3; ex_win 2; ex_fail])) = ([(1, 1); (2, 2)], Some [(101, 1); (102, 2)], Ok tt) /\
  ex_show (fst (ex_ea_ens [ex_fail])) = ([], None, Err ZeroDivisionError).
Proof. exact C154_ex_main. Qed.

Example C154_later_ex :
  length (l_lookup ex_lib_one) = 4 /\ length (v_saved ex_two) = 7 /\ length (l_lookup ex_lib_two) = 7 /\
  Forall (fun attempt => snd attempt = Ok tt) (snd (saves ex_lib_one (evaluations (text_in (v_st ex_two)) ex_data 0 (ea_reports (v_trace ex_two))) [])) /\
  In "BNB(data, alpha=1.0, BNB.fit_prior=False)"%string (map fst (l_lookup ex_lib_one)) /\
  In "BNB(data, alpha=1.0, BNB.fit_prior=False)"%string (v_saved ex_two).
Proof. exact C154_later_ex_main. Qed.

(** C155: an evaluation that succeeded is not always enough for a model to predict with. *)
Theorem C155_lower_rungs_refuted : ~
  (forall A l0 rr data row tr (metric : list A -> Ens_Model.mat -> res num) task size hillclimb models y left r c
    ps max_length eta first_rung max_rung max_full warm_start events s x w,
  wf_heap (s_heap s) -> start_ok ps max_length s warm_start -> NoDup (map i_id warm_start) -> pset_rich ps -> allows_one max_length ->
  (Z.of_nat first_rung <= max_rung)%Z -> Forall has_score events ->
  new_library (length y) l0 -> (forall n, Ens_Spec.readable row tr n c) -> (forall y1, Ens_Spec.scores (length y1) c (metric y1)) -> nlt (Fin 0) left ->
  fit_asha_ens l0 rr data row tr metric task (ensemble_hps (VNum (Zpos size # 1)) hillclimb models) y left r
    ps max_length eta first_rung max_rung max_full warm_start events (fresh_h s) = (x, w) ->
  let good := fun k i scores => exists rung, result_at (q_trace w) k i rung scores false in
  Forall numeric (results (q_trace w)) -> delivers (length y) good data ->
  (exists k i scores, good k i scores) ->
  forall e y, x = Ok (e, y) -> ~ useless tr e).
Proof. exact C155_lower_rungs_refuted_main. Qed.
Print Assumptions C155_lower_rungs_refuted.

Example C155_ex :
  Forall has_score (ex_scores_n 36) /\
  Forall numeric (results (q_trace (snd (ex_asha_ens 36)))) /\
  map i_id (scored_inds 2 (q_trace (snd (ex_asha_ens 36)))) = [8] /\
  ex_show (fst (ex_asha_ens 36)) = ([(8, 3)], Some [(124, 3)], Ok tt) /\
  (* stopped before anything is complete *)
  length (results (q_trace (snd (ex_asha_ens 20)))) = 20 /\ ex_show (fst (ex_asha_ens 20)) = ([], None, Err ZeroDivisionError).
Proof. exact C155_ex_main. Qed.

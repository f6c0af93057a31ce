(** Property theorems; proofs in Rnd_Main.v. *)
Require Import Permutation QArith.
From Verif Require Import Base Num Gp_Model Gp_Spec Gp_Examples Evo_Model Evo_Spec Evo_Main Rnd_Model Rnd_Spec.
Open Scope nat_scope.
Open Scope list_scope.
From Verif Require Import Rnd_Main.

(** C148.  Whatever the search space, the start candidates, the results of evaluations and
    their order, and the random numbers: every pipeline random search gives to a worker is
    a pipeline of the search space with at most max_pipeline_length steps. *)
Theorem C148_in_search_space :
  forall ps max_length max_n warm_start events s x w i r,
  wf_heap (s_heap s) -> start_ok ps max_length s warm_start ->
  rs_phase ps max_length max_n warm_start events (fresh_h s) = (x, w) ->
  In (Started i r) (q_trace w) ->
  exists ss, is_pipeline (h_objects w) i ss /\ pipeline_ok ps ss /\ within max_length ss.
Proof. exact C148_in_search_space_main. Qed.
Print Assumptions C148_in_search_space.

(** The given start candidates come first, in their order; all others are new random
    pipelines. *)
Theorem C148_candidates_then_new :
  forall ps max_length max_n warm_start events s x w,
  wf_heap (s_heap s) -> start_ok ps max_length s warm_start ->
  rs_phase ps max_length max_n warm_start events (fresh_h s) = (x, w) ->
  exists l, map fst (started (q_trace w)) = warm_start ++ l /\ Forall is_new l.
Proof. exact C148_candidates_then_new_main. Qed.
Print Assumptions C148_candidates_then_new.

(** A result is for a pipeline given to a worker before: the same id, parents, origin and
    steps. *)
Theorem C148_results :
  forall ps max_length max_n warm_start events s x w t1 i r o t2,
  wf_heap (s_heap s) -> start_ok ps max_length s warm_start ->
  rs_phase ps max_length max_n warm_start events (fresh_h s) = (x, w) ->
  q_trace w = t1 ++ Finished i r o :: t2 ->
  exists j ss, In (Started j r) t1 /\ is_pipeline (h_objects w) j ss /\ is_pipeline (h_objects w) i ss /\
    i_id i = i_id j /\ i_parents i = i_parents j /\ i_origin i = i_origin j.
Proof. exact C148_results_main. Qed.
Print Assumptions C148_results.

(** Every pipeline given to a worker has one result or is outstanding, with every id at
    most once; what the search returns is the individuals of the evaluations, with their scores, in the order
    in which they arrived. *)
Theorem C148_once :
  forall ps max_length max_n warm_start events s x w,
  wf_heap (s_heap s) -> start_ok ps max_length s warm_start ->
  rs_phase ps max_length max_n warm_start events (fresh_h s) = (x, w) ->
  Permutation (map key (started (q_trace w))) (map key (finished (q_trace w)) ++ map key (q_jobs w)) /\
  q_out w = results (q_trace w) /\
  (NoDup (map i_id warm_start) -> NoDup (map key (started (q_trace w)))).
Proof. exact C148_once_main. Qed.
Print Assumptions C148_once.

(** The search never fails, and always has as many jobs outstanding as there were
    candidates (50 if none are given).  Without max_evaluations it goes on as long as there
    are results to wait for; with it, it ends as soon as so many evaluations are there. *)
Theorem C148_keeps_running :
  forall ps max_length max_n warm_start events s x w,
  wf_heap (s_heap s) -> start_ok ps max_length s warm_start -> pset_rich ps -> allows_one max_length ->
  rs_phase ps max_length max_n warm_start events (fresh_h s) = (x, w) ->
  length (q_jobs w) = match warm_start with [] => 50 | _ => length warm_start end /\
  match max_n with
  | None => x = Err Diverges /\ length (finished (q_trace w)) = length events
  | Some m =>
    (x = Ok tt /\ (m <= Z.of_nat (length (q_out w)))%Z /\ ((0 <= m)%Z -> Z.of_nat (length (q_out w)) = m)) \/
    (x = Err Diverges /\ (Z.of_nat (length (q_out w)) < m)%Z /\ length (finished (q_trace w)) = length events /\
     length (q_out w) = n_evaluated events)
  end.
Proof. exact C148_keeps_running_main. Qed.
Print Assumptions C148_keeps_running.

(** C149.  The same for ASHA. *)
Theorem C149_in_search_space :
  forall ps max_length eta first_rung max_rung max_full warm_start events s x w i r,
  wf_heap (s_heap s) -> start_ok ps max_length s warm_start ->
  asha_phase ps max_length eta first_rung max_rung max_full warm_start events (fresh_h s) = (x, w) ->
  In (Started i r) (q_trace w) ->
  first_rung <= r /\ (Z.of_nat r <= max_rung)%Z /\
  exists ss, is_pipeline (h_objects w) i ss /\ pipeline_ok ps ss /\ within max_length ss.
Proof. exact C149_in_search_space_main. Qed.
Print Assumptions C149_in_search_space.

(** On the first rung: the given candidates from the last to the first, then only new
    random pipelines. *)
Theorem C149_first_rung :
  forall ps max_length eta first_rung max_rung max_full warm_start events s x w,
  wf_heap (s_heap s) -> start_ok ps max_length s warm_start ->
  asha_phase ps max_length eta first_rung max_rung max_full warm_start events (fresh_h s) = (x, w) ->
  exists rest l, rev warm_start ++ l = started_on first_rung (q_trace w) ++ rest /\ Forall is_new l.
Proof. exact C149_first_rung_main. Qed.
Print Assumptions C149_first_rung.

(** On another rung: only pipelines with a score on the rung below, at most one for
    every [eta] scores there, and the best of those which were not started on this rung
    before (if no score is NaN). *)
Theorem C149_promoted :
  forall ps max_length eta first_rung max_rung max_full warm_start events s x w t1 i r t2,
  wf_heap (s_heap s) -> start_ok ps max_length s warm_start ->
  asha_phase ps max_length eta first_rung max_rung max_full warm_start events (fresh_h s) = (x, w) ->
  q_trace w = t1 ++ Started i r :: t2 ->
  r = first_rung \/
  exists below score m, r = S below /\ In (score, m) (scored below t1) /\ m_ind m = i /\
    eta * S (length (started_on r t1)) <= length (scored below t1) /\
    ((forall e, In e (scored below t1) -> fst e <> NaN) ->
     forall score' m', In (score', m') (scored below t1) -> ~ In (i_id (m_ind m')) (map i_id (started_on r t1)) -> nle score' score).
Proof. exact C149_promoted_main. Qed.
Print Assumptions C149_promoted.

(** Nothing that may be promoted is left waiting: a job for the first rung is started only
    when nothing may be promoted from any rung, one for another rung only when nothing may
    be promoted from a higher rung than the one below it. *)
Theorem C149_promotions_first :
  forall ps max_length eta first_rung max_rung max_full warm_start events s x w t1 i r t2 r',
  wf_heap (s_heap s) -> start_ok ps max_length s warm_start -> NoDup (map i_id warm_start) ->
  asha_phase ps max_length eta first_rung max_rung max_full warm_start events (fresh_h s) = (x, w) ->
  q_trace w = t1 ++ Started i r :: t2 ->
  r <= r' -> (Z.of_nat r' < max_rung)%Z -> ~ promotable eta r' t1.
Proof. exact C149_promotions_first_main. Qed.
Print Assumptions C149_promotions_first.

Theorem C149_results :
  forall ps max_length eta first_rung max_rung max_full warm_start events s x w t1 i r o t2,
  wf_heap (s_heap s) -> start_ok ps max_length s warm_start ->
  asha_phase ps max_length eta first_rung max_rung max_full warm_start events (fresh_h s) = (x, w) ->
  q_trace w = t1 ++ Finished i r o :: t2 ->
  exists j ss, In (Started j r) t1 /\ is_pipeline (h_objects w) j ss /\ is_pipeline (h_objects w) i ss /\
    i_id i = i_id j /\ i_parents i = i_parents j /\ i_origin i = i_origin j.
Proof. exact C149_results_main. Qed.
Print Assumptions C149_results.

(** No pipeline is evaluated twice on the same rung. *)
Theorem C149_once :
  forall ps max_length eta first_rung max_rung max_full warm_start events s x w,
  wf_heap (s_heap s) -> start_ok ps max_length s warm_start ->
  asha_phase ps max_length eta first_rung max_rung max_full warm_start events (fresh_h s) = (x, w) ->
  Permutation (map key (started (q_trace w))) (map key (finished (q_trace w)) ++ map key (q_jobs w)) /\
  (NoDup (map i_id warm_start) -> NoDup (map key (started (q_trace w)))).
Proof. exact C149_once_main. Qed.
Print Assumptions C149_once.

(** Eight jobs are always outstanding; the search ends only when so many pipelines as
    max_full_evaluations have a score on the top rung. *)
Theorem C149_keeps_running :
  forall ps max_length eta first_rung max_rung max_full warm_start events s x w,
  wf_heap (s_heap s) -> start_ok ps max_length s warm_start -> pset_rich ps -> allows_one max_length ->
  (Z.of_nat first_rung <= max_rung)%Z -> Forall has_score events ->
  asha_phase ps max_length eta first_rung max_rung max_full warm_start events (fresh_h s) = (x, w) ->
  length (q_jobs w) = 8 /\
  let enough := match max_full with None => False | Some m => (m <= Z.of_nat (length (scored (Z.to_nat max_rung) (q_trace w))))%Z end in
  (x = Ok tt /\ enough) \/
  (x = Err Diverges /\ ~ enough /\ length (finished (q_trace w)) = length events).
Proof. exact C149_keeps_running_main. Qed.
Print Assumptions C149_keeps_running.

Example C148_ex :
  wf_heap (s_heap (ex_begin [4; 0; 2; 6; 1; 3; 0; 2; 5; 7; 1; 2; 3])) /\
  start_ok ex_ps (Some 3%Z) (ex_begin [4; 0; 2; 6; 1; 3; 0; 2; 5; 7; 1; 2; 3]) ex_start /\ NoDup (map i_id ex_start) /\
  pset_rich ex_ps /\ allows_one (Some 3%Z) /\
  fst ex_rs = Ok tt /\
  map key (started (q_trace (snd ex_rs))) = map (fun k => (k, 0)) [0; 1; 2; 3; 4; 5; 6; 7; 8] /\
  map key (finished (q_trace (snd ex_rs))) = map (fun k => (k, 0)) [0; 1; 4; 2] /\
  map (fun m => i_id (m_ind m)) (q_out (snd ex_rs)) = [0; 4; 2] /\
  map i_id (map fst (q_jobs (snd ex_rs))) = [3; 5; 6; 7; 8].
Proof. exact C148_ex_main. Qed.

(** Without max_evaluations and candidates: 50 jobs. *)
Example C148_default_ex :
  fst (rs_phase ex_ps None None [] (repeat (ex_win 1) 9) (fresh_h (ex_begin [1; 0; 1; 2; 3]))) = Err Diverges /\
  length (started (q_trace (snd (rs_phase ex_ps None None [] (repeat (ex_win 1) 9) (fresh_h (ex_begin [1; 0; 1; 2; 3])))))) = 59.
Proof. exact C148_default_ex_main. Qed.

Example C149_ex :
  wf_heap (s_heap (ex_begin [4; 0; 2; 6; 1; 3; 0; 2; 5; 7; 1; 2; 3])) /\
  start_ok ex_ps (Some 3%Z) (ex_begin [4; 0; 2; 6; 1; 3; 0; 2; 5; 7; 1; 2; 3]) ex_start /\ NoDup (map i_id ex_start) /\
  pset_rich ex_ps /\ allows_one (Some 3%Z) /\ Forall has_score (map ex_win [5; 1; 2; 3]%Z) /\
  fst ex_asha = Ok tt /\
  map i_id (started_on 0 (q_trace (snd ex_asha))) = [4; 3; 2; 1; 0] ++ seq 5 21 /\
  map i_id (started_on 1 (q_trace (snd ex_asha))) = [4; 5; 8; 11; 14; 17] /\
  map i_id (started_on 2 (q_trace (snd ex_asha))) = [8] /\
  map i_id (scored_inds 2 (q_trace (snd ex_asha))) = [8] /\
  length (q_jobs (snd ex_asha)) = 8.
Proof. exact C149_ex_main. Qed.

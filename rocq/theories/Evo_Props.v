(** Property theorems; proofs in Evo_Main.v. *)
Require Import Permutation QArith.
From Verif Require Import Base Num Gp_Model Gp_Spec Gp_Examples Cov_Spec Evo_Model Evo_Spec.
Open Scope nat_scope.
Open Scope list_scope.
From Verif Require Import Evo_Main.

(** C144.  Whatever the search space, the options, the results of evaluations and their
    order, and the random numbers: every pipeline given to a worker is a predictor
    followed by preprocessors of the search space. *)
Theorem C144_in_search_space :
  forall ps max_length max_retry workers pop_size max_n restart warm_start events (s : setting) x w i,
  pset_typed ps -> 0 < max_retry -> wf_heap (s_heap s) -> start_ok ps None s warm_start ->
  search ps max_length max_retry workers pop_size max_n restart warm_start events (fresh_search s) = (x, w) ->
  In (Submitted i) (v_trace w) ->
  exists steps, is_pipeline (objects w) i steps /\ pipeline_ok ps steps.
Proof. exact C144_in_search_space_main. Qed.
Print Assumptions C144_in_search_space.

(** C144: the individual in a result is a copy of one submitted before: same id, parents
    and origin, same steps. *)
Theorem C144_results :
  forall ps max_length max_retry workers pop_size max_n restart warm_start events (s : setting) x w t1 i o t2,
  pset_typed ps -> 0 < max_retry -> wf_heap (s_heap s) -> start_ok ps None s warm_start ->
  search ps max_length max_retry workers pop_size max_n restart warm_start events (fresh_search s) = (x, w) ->
  v_trace w = t1 ++ Collected i o :: t2 ->
  exists j steps, In (Submitted j) t1 /\ is_pipeline (objects w) j steps /\ is_pipeline (objects w) i steps /\
    i_id i = i_id j /\ i_parents i = i_parents j /\ i_origin i = i_origin j.
Proof. exact C144_results_main. Qed.
Print Assumptions C144_results.

(** C144: with max_pipeline_length = m no pipeline has more than max(m, 2m - 2) steps.
    Missing: at most m.  For m = 1 and m = 2 it is the same. *)
Theorem C144_length_partial :
  forall ps m max_retry workers pop_size max_n restart warm_start events (s : setting) x w i,
  pset_typed ps -> 0 < max_retry -> wf_heap (s_heap s) -> start_ok ps (Some m) s warm_start ->
  search ps (Some m) max_retry workers pop_size max_n restart warm_start events (fresh_search s) = (x, w) ->
  In (Submitted i) (v_trace w) ->
  exists steps, is_pipeline (objects w) i steps /\ (1 <= Z.of_nat (length steps) <= Z.max m (2 * m - 2))%Z.
Proof. exact C144_length_partial_main. Qed.
Print Assumptions C144_length_partial.

(** C144: the limit is not kept: two pipelines of three steps have a child of four. *)
Theorem C144_length_refuted :
  ~ (forall ps m max_retry workers pop_size max_n restart warm_start events (s : setting) x w i,
     pset_typed ps -> pset_rich ps -> 0 < max_retry -> wf_heap (s_heap s) -> start_ok ps (Some m) s warm_start ->
     search ps (Some m) max_retry workers pop_size max_n restart warm_start events (fresh_search s) = (x, w) ->
     In (Submitted i) (v_trace w) ->
     exists steps, is_pipeline (objects w) i steps /\ within (Some m) steps).
Proof. exact C144_length_refuted_main. Qed.
Print Assumptions C144_length_refuted.

Example C144_in_search_space_ex :
  pset_typed ex_ps /\ wf_heap (s_heap (ex_begin [])) /\ start_ok ex_ps None (ex_begin []) ex_start /\
  length (submitted (v_trace (snd ex_run3))) = 8 /\ length (collected (v_trace (snd ex_run3))) = 6 /\
  (* without start candidates: fifty random ones *)
  length (submitted (v_trace (snd (search ex_ps (Some 2%Z) 50 1 5 (Some 48%Z) false [] (repeat (ex_win 1) 48) (fresh_search (first_fit (ex_begin [1; 0; 1; 2; 3]))))))) = 51.
Proof. exact C144_in_search_space_ex_main. Qed.

Example C144_length_ex :
  start_ok ex_ps (Some 3%Z) (ex_begin []) ex_start /\ pset_rich ex_ps /\
  exists i, In (Submitted i) (v_trace (snd ex_run3)) /\ exists steps, is_pipeline (objects (snd ex_run3)) i steps /\ length steps = 4.
Proof. exact C144_length_ex_main. Qed.

(** C145.  An individual made from the population has as parents members of the population
    then, each the result of a successful evaluation since the last restart; it is one
    mutation of its parent, or one crossover of its two parents (at different places of
    the population), under the name recorded for it; its id is new. *)
Theorem C145_bred :
  forall ps max_length max_retry workers pop_size max_n restart warm_start events (s : setting) x w t1 i pop t2,
  pset_typed ps -> 0 < max_retry -> wf_heap (s_heap s) -> start_ok ps None s warm_start ->
  search ps max_length max_retry workers pop_size max_n restart warm_start events (fresh_search s) = (x, w) ->
  v_trace w = t1 ++ Bred i pop :: t2 ->
  (forall m, In m pop -> In m (successes (since_restart t1))) /\
  (forall j, mentioned t1 j -> i_id j < i_id i) /\
  exists steps, is_pipeline (objects w) i steps /\
    (mutant_of ps (objects w) pop i steps \/ child_of (objects w) pop i steps).
Proof. exact C145_bred_main. Qed.
Print Assumptions C145_bred.

(** C145: what is given to the workers is a start candidate, or was made from the
    population just before, or is a new random pipeline without parents; the latter only
    without start candidates or after a restart. *)
Theorem C145_submitted :
  forall ps max_length max_retry workers pop_size max_n restart warm_start events (s : setting) x w t1 i t2,
  pset_typed ps -> 0 < max_retry -> wf_heap (s_heap s) -> start_ok ps None s warm_start ->
  search ps max_length max_retry workers pop_size max_n restart warm_start events (fresh_search s) = (x, w) ->
  v_trace w = t1 ++ Submitted i :: t2 ->
  In i warm_start \/ (exists t pop, t1 = t ++ [Bred i pop]) \/
  (i_parents i = [] /\ i_origin i = "new"%string /\ (warm_start = [] \/ (restart = true /\ In Restarted t1))).
Proof. exact C145_submitted_main. Qed.
Print Assumptions C145_submitted.

(** C145: nothing is submitted twice under the same id, and every submission is either
    still outstanding or answered once. *)
Theorem C145_once :
  forall ps max_length max_retry workers pop_size max_n restart warm_start events (s : setting) x w,
  pset_typed ps -> 0 < max_retry -> wf_heap (s_heap s) -> start_ok ps None s warm_start -> NoDup (map i_id warm_start) ->
  search ps max_length max_retry workers pop_size max_n restart warm_start events (fresh_search s) = (x, w) ->
  NoDup (map i_id (submitted (v_trace w))) /\
  Permutation (map i_id (submitted (v_trace w))) (map i_id (collected (v_trace w)) ++ map i_id (v_jobs w)).
Proof. exact C145_once_main. Qed.
Print Assumptions C145_once.

Example C145_bred_ex :
  NoDup (map i_id ex_start) /\
  exists t1 i pop t2, v_trace (snd ex_run8) = t1 ++ Bred i pop :: t2 /\ i_parents i = [0; 2] /\ i_origin i = "cx"%string /\ length pop = 3 /\
    In Restarted t2 /\ length (submitted t2) = 6 /\ length (successes (since_restart (v_trace (snd ex_run8)))) = 3 /\
    length (collected (v_trace (snd ex_run8))) = 8 /\ map i_id (v_jobs (snd ex_run8)) = [9; 10; 11].
Proof. exact C145_bred_ex_main. Qed.

(** C146.  A pipeline made from the population is not one evaluated before, or each of the
    max_retry attempts (50), all recorded as made from this population, gave a pipeline
    already evaluated. *)
Theorem C146_not_evaluated_before_partial :
  forall ps max_length max_retry workers pop_size max_n restart warm_start events (s : setting) x w t1 i pop t2,
  pset_typed ps -> 0 < max_retry -> wf_heap (s_heap s) -> start_ok ps None s warm_start ->
  search ps max_length max_retry workers pop_size max_n restart warm_start events (fresh_search s) = (x, w) ->
  v_trace w = t1 ++ Bred i pop :: t2 ->
  (exists steps, is_pipeline (objects w) i steps /\
     ~ In (text steps) (seen_before s) /\
     forall steps', evaluated (objects w) t1 steps' -> text steps' <> text steps) \/
  (exists tries, length tries = max_retry /\ In i tries /\ NoDup (map i_id tries) /\
     forall j, In j tries -> exists steps, is_pipeline (objects w) j steps /\
       (mutant_of ps (objects w) pop j steps \/ child_of (objects w) pop j steps) /\
       (In (text steps) (seen_before s) \/ exists steps', evaluated (objects w) t1 steps' /\ text steps' = text steps)).
Proof. exact C146_not_evaluated_before_partial_main. Qed.
Print Assumptions C146_not_evaluated_before_partial.

(** C146: the attempts can run out. *)
Theorem C146_not_evaluated_before_refuted :
  ~ (forall ps max_length workers pop_size max_n restart warm_start events (s : setting) x w t1 i pop t2,
     pset_typed ps -> pset_rich ps -> wf_heap (s_heap s) -> start_ok ps None s warm_start ->
     search ps max_length 50 workers pop_size max_n restart warm_start events (fresh_search s) = (x, w) ->
     v_trace w = t1 ++ Bred i pop :: t2 ->
     exists steps, is_pipeline (objects w) i steps /\
       forall steps', evaluated (objects w) t1 steps' -> text steps' <> text steps).
Proof. exact C146_not_evaluated_before_refuted_main. Qed.
Print Assumptions C146_not_evaluated_before_refuted.

(** C146: pipelines still being evaluated are not taken into account: the same one can be
    submitted twice. *)
Theorem C146_in_flight_refuted :
  ~ (forall ps max_length workers pop_size max_n restart warm_start events (s : setting) x w t1 i pop t2,
     pset_typed ps -> pset_rich ps -> wf_heap (s_heap s) -> start_ok ps None s warm_start ->
     search ps max_length 50 workers pop_size max_n restart warm_start events (fresh_search s) = (x, w) ->
     v_trace w = t1 ++ Bred i pop :: t2 ->
     (exists steps, is_pipeline (objects w) i steps /\
       forall steps', evaluated (objects w) t1 steps' -> text steps' <> text steps) ->
     forall j, In (Submitted j) t1 -> exists steps steps', is_pipeline (objects w) i steps /\ is_pipeline (objects w) j steps' /\ text steps' <> text steps).
Proof. exact C146_in_flight_refuted_main. Qed.
Print Assumptions C146_in_flight_refuted.

(** C146: the evaluations of earlier calls of fit count too: a later fit on the same object,
    with the same start, random numbers and results, need not do what a new object does. *)
Theorem C146_later_fit_refuted :
  ~ (forall ps max_length workers pop_size max_n restart warm_start events s earlier x w x' w',
     pset_typed ps -> pset_rich ps -> wf_heap (s_heap s) -> start_ok ps None s warm_start ->
     search ps max_length 50 workers pop_size max_n restart warm_start events (fresh_search (first_fit s)) = (x, w) ->
     search ps max_length 50 workers pop_size max_n restart warm_start events (fresh_search (mkSetting s earlier)) = (x', w') ->
     v_trace w' = v_trace w).
Proof. exact C146_later_fit_refuted_main. Qed.
Print Assumptions C146_later_fit_refuted.

Example C146_not_evaluated_before_ex :
  (exists t1 i pop t2 steps, v_trace (snd (ex_later [ex_seen])) = t1 ++ Bred i pop :: t2 /\
     is_pipeline (objects (snd (ex_later [ex_seen]))) i steps /\ text steps <> ex_seen) /\
  (exists t1 i pop t2 steps, v_trace (snd (ex_later [])) = t1 ++ Bred i pop :: t2 /\
     is_pipeline (objects (snd (ex_later []))) i steps /\ text steps = ex_seen) /\
  (exists t1 i pop t2, v_trace (snd ex_run7) = t1 ++ Bred i pop :: t2 /\ length (collected t1) = 4 /\ length (successes t1) = 3) /\
  (exists t1 i pop t2, v_trace (snd ex_run6) = t1 ++ Bred i pop :: t2 /\ i_id i = 54 /\ exists steps, is_pipeline (objects (snd ex_run6)) i steps /\ evaluated (objects (snd ex_run6)) t1 steps).
Proof. exact C146_not_evaluated_before_ex_main. Qed.

(** C147.  No limit, or a limit the operators can respect ([roomy]), a search space with
    alternatives, evaluations that yield at least two scores (always as many): the only
    exception that ends the search is that of selecting from fewer than three pipelines,
    when no more than workers + 1 evaluations are outstanding; with restarts too. *)
Theorem C147_exceptions_partial :
  forall ps max_length max_retry workers pop_size max_n restart warm_start events k (s : setting) x w,
  pset_typed ps -> pset_rich ps -> roomy ps max_length -> 0 < max_retry -> 2 <= k ->
  wf_heap (s_heap s) -> start_ok ps max_length s warm_start -> Forall (calm k) events ->
  (match max_n with Some m => (0 < m)%Z | None => True end) ->
  search ps max_length max_retry workers pop_size max_n restart warm_start events (fresh_search s) = (x, w) ->
  x = Ok tt \/ x = Err Diverges \/
  (x = Err ValueError /\ length (v_pop w) < 3 /\ length (v_jobs w) <= workers + 1).
Proof. exact C147_exceptions_partial_main. Qed.
Print Assumptions C147_exceptions_partial.

(** C147, for all limits and numbers of scores: the search ends with an exception only when
    it selects from fewer than three pipelines or in one of the ways listed in [breakdown]. *)
Theorem C147_breakdown :
  forall ps max_length max_retry workers pop_size max_n restart warm_start events k (s : setting) x w,
  pset_typed ps -> pset_rich ps -> match max_length with None => True | Some m => (1 <= m)%Z end -> 0 < max_retry ->
  wf_heap (s_heap s) -> start_ok ps max_length s warm_start -> Forall (calm k) events ->
  (match max_n with Some m => (0 < m)%Z | None => True end) ->
  search ps max_length max_retry workers pop_size max_n restart warm_start events (fresh_search s) = (x, w) ->
  x = Ok tt \/ x = Err Diverges \/
  (x = Err ValueError /\ length (v_pop w) < 3 /\ length (v_jobs w) <= workers + 1) \/ breakdown ps max_length k w x.
Proof. exact C147_breakdown_main. Qed.
Print Assumptions C147_breakdown.

(** C147: with at least four candidates more than workers, a population of at least
    three, and at least three successes among the first results (as many as there are
    candidates beyond workers + 1) the search without restarts goes on as long as there are
    results, or to max_n_evaluations. *)
Theorem C147_keeps_running_partial :
  forall ps max_length max_retry workers pop_size max_n warm_start events k (s : setting),
  pset_typed ps -> pset_rich ps -> roomy ps max_length -> 0 < max_retry -> 2 <= k -> 3 <= pop_size ->
  wf_heap (s_heap s) -> start_ok ps max_length s warm_start -> workers + 4 <= length warm_start -> Forall (calm k) events ->
  (forall l1 l2, events = l1 ++ l2 -> length warm_start - workers - 1 <= length l1 -> 3 <= n_succeeded l1) ->
  let run := search ps max_length max_retry workers pop_size max_n false warm_start events (fresh_search s) in
  match max_n with
  | Some m => (0 < m <= Z.of_nat (length events))%Z -> exists w, run = (Ok tt, w)
  | None => exists w, run = (Err Diverges, w) /\ length (collected (v_trace w)) = length events /\
      workers + 2 <= length (v_jobs w) /\ length (v_pop w) = Nat.min pop_size (n_succeeded events)
  end.
Proof. exact C147_keeps_running_partial_main. Qed.
Print Assumptions C147_keeps_running_partial.

(** C147: with max_pipeline_length = 3 and nothing else wrong, a search can end with an
    exception: crossover makes a pipeline of four steps, which becomes a member of the
    population, and from which no mutation and no crossover is possible. *)
Theorem C147_keeps_running_refuted :
  ~ (forall ps max_length max_retry workers pop_size warm_start events (s : setting) x w,
     pset_typed ps -> pset_rich ps -> match max_length with None => True | Some m => (1 <= m)%Z end -> 0 < max_retry -> 3 <= pop_size ->
     wf_heap (s_heap s) -> start_ok ps max_length s warm_start -> workers + 4 <= length warm_start ->
     Forall (calm 2) events -> Forall (fun e => succeeded e = true) events ->
     search ps max_length max_retry workers pop_size None false warm_start events (fresh_search s) = (x, w) ->
     x = Err Diverges).
Proof. exact C147_keeps_running_refuted_main. Qed.
Print Assumptions C147_keeps_running_refuted.

Example C147_exceptions_ex :
  (* the exception of the refutation, the one of a starved search, and none *)
  fst ex_run3 = Err AttributeError /\
  fst (search ex_ps (Some 2%Z) 50 4 5 None false [mkInd 9 3 [] "new"; mkInd 10 4 [] "new"] [ex_win 1] (fresh_search (first_fit (ex_begin [])))) = Err ValueError /\
  fst (search ex_ps (Some 2%Z) 50 4 5 (Some 60%Z) true [] (repeat (ex_win 1) 60) (fresh_search (first_fit (ex_begin [3; 1; 4; 1; 5])))) = Ok tt /\
  roomy ex_ps (Some 2%Z) /\ roomy ex_ps None /\ pset_rich ex_ps.
Proof. exact C147_exceptions_ex_main. Qed.

Example C147_breakdown_ex :
  (* an over-long member, a single score, no alternatives *)
  (fst ex_run3 = Err AttributeError /\ exists m steps, In m (v_pop (snd ex_run3)) /\ is_pipeline (objects (snd ex_run3)) (m_ind m) steps /\ length steps = 4) /\
  fst (search ex_ps None 50 1 5 None false ex_start (map ex_one_score [1; 2; 3]%Z) (fresh_search (first_fit (ex_begin [])))) = Err IndexError /\
  (fst ex_same = Err IndexError /\ length (v_pop (snd ex_same)) = 3).
Proof. exact C147_breakdown_ex_main. Qed.

Example C147_keeps_running_ex :
  exists events, Forall (calm 2) events /\ (forall l1 l2, events = l1 ++ l2 -> length ex_start - 1 - 1 <= length l1 -> 3 <= n_succeeded l1) /\
    1 + 4 <= length ex_start /\ start_ok ex_ps None (ex_begin []) ex_start /\
    exists w, search ex_ps None 50 1 5 None false ex_start events (fresh_search (first_fit (ex_begin []))) = (Err Diverges, w) /\ length (submitted (v_trace w)) = 9 /\ length (v_pop w) = 4.
Proof. exact C147_keeps_running_ex_main. Qed.

(** Property theorems; proofs in Eval_Main.v. *)
Require Import Permutation.
From Verif Require Import Base Num Gp_Model Gp_Spec Gp_Examples Eval_Model Eval_Spec.
Open Scope nat_scope.
From Verif Require Import Eval_Main.

(** C58. The compiled pipeline is the given preprocessing, in order, followed by the
    individual's own steps from the one nearest the data to the predictor; every own
    step is made from its class and exactly its hyperparameters; nothing is changed. *)
Theorem C58_steps : forall E (build : nat -> list (string * value) -> res E) ind preprocessing s ls ss steps s',
  wf_heap (s_heap s) -> pipeline (s_heap s) ind ls ss -> Forall unambiguous ss ->
  compile build ind preprocessing s = (Ok steps, s') ->
  s' = s /\ exists own, steps = (match preprocessing with Some l => l | None => [] end) ++ own /\
    Forall2 (fun st ne => exists kwargs, build (p_class (fst st)) kwargs = Ok (snd ne) /\ says kwargs (snd st)) (rev ss) own /\
    map fst own = rev (map nat_str (seq 0 (length ss))).
Proof. exact C58_steps_main. Qed.
Print Assumptions C58_steps.

(** C58, names: they are all different exactly when the given names are and none of
    them is the number of a step. *)
Theorem C58_names : forall E (build : nat -> list (string * value) -> res E) ind preprocessing s ls ss steps s',
  wf_heap (s_heap s) -> pipeline (s_heap s) ind ls ss -> compile build ind preprocessing s = (Ok steps, s') ->
  let given := match preprocessing with Some l => l | None => [] end in
  NoDup (map fst steps) <-> NoDup (map fst given) /\ forall i, i < length ss -> ~ In (nat_str i) (map fst given).
Proof. exact C58_names_main. Qed.
Print Assumptions C58_names.

(** C58, totality: compiling fails only if building a step does. *)
Theorem C58_total : forall E (build : nat -> list (string * value) -> res E) ind preprocessing s ls ss,
  wf_heap (s_heap s) -> pipeline (s_heap s) ind ls ss -> (forall c kwargs, exists e, build c kwargs = Ok e) ->
  exists steps, compile build ind preprocessing s = (Ok steps, s).
Proof. exact C58_total_main. Qed.
Print Assumptions C58_total.

Example C58_ex : wf_heap (s_heap (ex_state [])) /\ pipeline (s_heap (ex_state [])) ex_ind1 [0; 1; 2; 3] ex_long /\ Forall unambiguous ex_long /\
  compile ex_build ex_ind1 (Some [("enc", (7, [])); ("imp", (8, []))]) (ex_state []) =
    (Ok [("enc", (7, [])); ("imp", (8, [])); ("3", (2, [("threshold", vi "0.6" 6)])); ("2", (3, [])); ("1", (2, [("threshold", vi "0.5" 5)]));
         ("0", (0, [("alpha", vi "0.1" 1); ("fit_prior", vi "True" 3)]))]%string, ex_state []).
Proof. exact C58_ex_main. Qed.

(** C59. When a pipeline is evaluated successfully on a division of the rows in folds
    (the same at both calls of split, as for an integer cv) without subsampling, every
    row has one prediction, made by the estimator of the one fold in which the row is a
    test row; that estimator was fitted on rows not including it. *)
Theorem C59_held_out : forall E P rows index splits sample (fit : list nat -> res E) score (predict : E -> bool -> list nat -> res (nat * list P))
    metrics sub hit timeout o folds,
  ~ part_of_rows sub rows -> splits 0 = Ok folds -> splits 1 = Ok folds -> k_fold rows folds -> 0 < rows ->
  evaluate_pipeline rows index splits sample fit score predict metrics sub hit true timeout = Ok o -> o_error o = None ->
  exists cols arr ests, o_pred o = Some (cols, arr) /\ o_ests o = Some ests /\ length arr = rows /\
    Forall2 (fun f e => fit (fst f) = Ok e) folds ests /\
    forall i, i < rows -> exists k train test e ps q x,
      nth_error folds k = Some (train, test) /\ nth_error ests k = Some e /\ ~ In i train /\ nth_error test q = Some i /\
      (forall k' train' test', nth_error folds k' = Some (train', test') -> In i test' -> k' = k) /\
      predict e (existsb (fun b => b) metrics) test = Ok (cols, ps) /\ nth_error ps q = Some x /\ nth_error arr i = Some (Some x).
Proof. exact C59_held_out_main. Qed.
Print Assumptions C59_held_out.

(** C59 relies on split giving the same folds twice: with a splitter that does not,
    a row can get the prediction of an estimator fitted on it. *)
Theorem C59_same_folds_needed : exists splits folds folds', splits 0 = Ok folds /\ splits 1 = Ok folds' /\ k_fold 2 folds /\ k_fold 2 folds' /\
  exists o, evaluate_pipeline (E := list nat) (P := list nat) 2 [0; 1] splits (fun _ _ => Err ValueError) (fun rows => Ok rows) (fun _ _ _ => Ok (Fin 1))
      (fun e _ test => Ok (0, map (fun _ => e) test)) [false] NoSub None true (Fin 1) = Ok o /\ o_error o = None /\
    o_pred o = Some (0, [Some [0]; Some [1]]).
Proof. exact C59_same_folds_needed_main. Qed.
Print Assumptions C59_same_folds_needed.

Example C59_ex : k_fold 5 ex_folds /\ ~ part_of_rows NoSub 5 /\
  exists o, ex_eval NoSub None (fun _ => false) = Ok o /\ o_error o = None /\
   o_pred o = Some (0, [Some [3; 4]; Some [3; 4]; Some [3; 4]; Some [0; 1; 2]; Some [0; 1; 2]]) /\ o_ests o = Some [[3; 4]; [0; 1; 2]].
Proof. exact C59_ex_main. Qed.

(** C60 is false: the sampled positions within the training fold are used as row
    numbers, so the estimator of a fold can be trained on that fold's own test rows. *)
Theorem C60_subsample_refuted : exists folds o, k_fold 5 folds /\
  ex_eval (IntSub 1) None (fun _ => false) = Ok o /\ o_error o = None /\ folds = ex_folds /\
  exists ests k train test e i, o_ests o = Some ests /\ nth_error folds k = Some (train, test) /\ nth_error ests k = Some e /\
    In i e /\ In i test /\ ~ In i train.
Proof. exact C60_subsample_refuted_main. Qed.
Print Assumptions C60_subsample_refuted.

(** C60, what holds: one estimator per fold, trained on exactly the rows numbered by
    the positions sampled among the fold's training rows (with the targets found under
    their row numbers in the index of y), and every fold is tested on its own test
    rows. *)
Theorem C60_size_partial : forall E P rows index splits sample (fit : list nat -> res E) score (predict : E -> bool -> list nat -> res (nat * list P))
    metrics sub hit timeout o folds,
  part_of_rows sub rows -> splits 0 = Ok folds ->
  evaluate_pipeline rows index splits sample fit score predict metrics sub hit true timeout = Ok o -> o_error o = None ->
  exists ests, o_ests o = Some ests /\
    Forall2 (fun f e => exists ys idx, length ys = length (fst f) /\
       (NoDup index -> Forall2 (fun t p => nth_error index p = Some t) (fst f) ys) /\
       sample (fst f) ys = Ok idx /\ fit idx = Ok e /\
       forall m, m < length metrics -> exists x, score e m (snd f) = Ok x) folds ests.
Proof. exact C60_size_partial_main. Qed.
Print Assumptions C60_size_partial.

Example C60_ex : part_of_rows (IntSub 1) 5 /\ part_of_rows (FracSub (1 # 2)) 5 /\
  exists o, ex_eval (IntSub 1) None (fun _ => false) = Ok o /\ o_error o = None /\ o_ests o = Some [[0]; [0]].
Proof. exact C60_ex_main. Qed.

(** C61 is false: an error while predicting, or the timeout after scoring, is reported
    together with the scores of the cross validation. *)
Theorem C61_failed_refuted :
  (exists o, ex_eval NoSub None (fun e => length e =? 3) = Ok o /\ o_error o = Some ValueError /\ o_scores o = [Fin (5 # 2); Fin (7 # 2)]) /\
  (exists k o, ex_eval NoSub (Some (k, OwnTimer)) (fun _ => false) = Ok o /\ o_error o = Some TimeoutException /\ o_scores o = [Fin (5 # 2); Fin (7 # 2)] /\ o_pred o = None).
Proof. exact C61_failed_refuted_main. Qed.
Print Assumptions C61_failed_refuted.

(** C61, what holds: whenever a result is returned (with or without an error), all
    scores are -inf, with neither predictions nor estimators, or every fold was
    fitted and scored without error and the scores are the means over the folds. *)
Theorem C61_failed_partial : forall E P rows index splits sample (fit : list nat -> res E) score (predict : E -> bool -> list nat -> res (nat * list P))
    metrics sub hit timeout o,
  evaluate_pipeline rows index splits sample fit score predict metrics sub hit true timeout = Ok o ->
  (o_scores o = repeat NInf (length metrics) /\ o_pred o = None /\ o_ests o = None /\ o_error o <> None) \/
  exists folds used result, splits 0 = Ok folds /\ map snd used = map snd folds /\
    (~ part_of_rows sub rows -> used = folds) /\
    (part_of_rows sub rows -> Forall2 (fun f u => exists ys, sample (fst f) ys = Ok (fst u)) folds used) /\
    Forall2 (fun u ex => fit (fst u) = Ok (fst ex) /\
      Forall2 (fun m x => score (fst ex) m (snd u) = Ok x) (seq 0 (length metrics)) (snd ex)) used result /\
    Forall2 (fun m x => is_mean_of (map (fun ex => nth m (snd ex) NaN) result) x) (seq 0 (length metrics)) (o_scores o).
Proof. exact C61_failed_partial_main. Qed.
Print Assumptions C61_failed_partial.

(** C61, the usual failures: if splitting fails, or some fold cannot be fitted or
    scored, the result (if any) has -inf scores. *)
Theorem C61_training_error : forall E P rows index splits sample (fit : list nat -> res E) score (predict : E -> bool -> list nat -> res (nat * list P))
    metrics sub hit timeout o,
  ~ part_of_rows sub rows ->
  (exists e, splits 0 = Err e) \/ (exists folds f e, splits 0 = Ok folds /\ In f folds /\
     (fit (fst f) = Err e \/ exists est m, fit (fst f) = Ok est /\ m < length metrics /\ score est m (snd f) = Err e)) ->
  evaluate_pipeline rows index splits sample fit score predict metrics sub hit true timeout = Ok o ->
  o_scores o = repeat NInf (length metrics) /\ o_pred o = None /\ o_ests o = None /\ o_error o <> None.
Proof. exact C61_training_error_main. Qed.
Print Assumptions C61_training_error.

(** A fold that cannot be fitted; the timer before and after the scores are known. *)
Example C61_ex :
  (exists o, evaluate_pipeline (E := list nat) (P := list nat) 5 (seq 0 5) (fun _ => Ok ex_folds) (fun _ _ => Ok [0]) (fun rows => if length rows =? 3 then Err TypeError else Ok rows)
    (fun _ _ _ => Ok (Fin 1)) (fun e _ test => Ok (0, map (fun _ => e) test)) [false; false] NoSub None true (Fin 1) = Ok o /\
    o_error o = Some TypeError /\ o_scores o = [NInf; NInf] /\ o_pred o = None) /\
  (exists o, ex_eval NoSub (Some (3, OwnTimer)) (fun _ => false) = Ok o /\ o_error o = Some TimeoutException /\ o_scores o = [NInf; NInf]) /\
  (exists o, ex_eval NoSub None (fun _ => false) = Ok o /\ o_error o = None /\ o_scores o = [Fin (5 # 2); Fin (7 # 2)]).
Proof. exact C61_ex_main. Qed.

(** C61: what is not a pipeline is refused with a TypeError before anything is
    evaluated: None and every object without fit, predict or steps. *)
Theorem C61_not_a_pipeline : forall E P rows index splits sample (fit : list nat -> res E) score (predict : E -> bool -> list nat -> res (nat * list P))
    metrics sub hit timeout object,
  (object = None \/ exists attributes, object = Some attributes /\
     (~ In "fit" attributes \/ ~ In "predict" attributes \/ ~ In "steps" attributes)) ->
  evaluate_pipeline rows index splits sample fit score predict metrics sub hit (object_is_valid_pipeline object) timeout = Err TypeError.
Proof. exact C61_not_a_pipeline_main. Qed.
Print Assumptions C61_not_a_pipeline.

(** ... and an object that has the three is evaluated. *)
Theorem C61_pipeline : forall E P rows index splits sample (fit : list nat -> res E) score (predict : E -> bool -> list nat -> res (nat * list P))
    metrics sub hit timeout attributes,
  In "fit" attributes -> In "predict" attributes -> In "steps" attributes ->
  evaluate_pipeline rows index splits sample fit score predict metrics sub hit (object_is_valid_pipeline (Some attributes)) timeout =
  evaluate_pipeline rows index splits sample fit score predict metrics sub hit true timeout.
Proof. exact C61_pipeline_main. Qed.
Print Assumptions C61_pipeline.

(** C61, interruptions: a timeout of an enclosing block, or Ctrl-C, is never turned
    into an evaluation result. *)
Theorem C61_outer : forall E P rows index splits sample (fit : list nat -> res E) score (predict : E -> bool -> list nat -> res (nat * list P))
    metrics sub k x timeout o,
  evaluate_pipeline rows index splits sample fit score predict metrics sub (Some (k, x)) true timeout = Ok o -> x <> OwnTimer ->
  o_error o <> Some TimeoutException /\ o_error o <> Some KeyboardInterrupt.
Proof. exact C61_outer_main. Qed.
Print Assumptions C61_outer.

(** C61, reporting: with a positive limit, nothing a library call raises and no own
    timer escapes: a result is returned, unless a call itself raises a request to stop. *)
Theorem C61_contained : forall E P rows index splits sample (fit : list nat -> res E) score (predict : E -> bool -> list nat -> res (nat * list P))
    metrics sub hit timeout,
  nlt (Fin 0) timeout -> (hit = None \/ exists k, hit = Some (k, OwnTimer)) ->
  (forall k e, splits k = Err e -> ordinary e) -> (forall a b e, sample a b = Err e -> ordinary e) ->
  (forall a e, fit a = Err e -> ordinary e) -> (forall a b c e, score a b c = Err e -> ordinary e) ->
  (forall a b c e, predict a b c = Err e -> ordinary e) ->
  exists o, evaluate_pipeline rows index splits sample fit score predict metrics sub hit true timeout = Ok o /\
    (o_error o = Some TimeoutException -> hit <> None).
Proof. exact C61_contained_main. Qed.
Print Assumptions C61_contained.

Example C61_contained_ex : nlt (Fin 0) (Fin 1) /\ ordinary ValueError /\ ~ ordinary TimeoutException /\
  exists o, evaluate_pipeline (E := list nat) (P := list nat) 5 (seq 0 5) (fun _ => Err ValueError) (fun _ _ => Ok [0]) (fun rows => Ok rows)
    (fun _ _ _ => Ok (Fin 1)) (fun e _ test => Ok (0, map (fun _ => e) test)) [false] NoSub None true (Fin 1) = Ok o /\ o_error o = Some ValueError.
Proof. exact C61_contained_ex_main. Qed.

(** C61, success: if the splitter gives the same k folds twice, every fit, score and
    prediction works (one prediction per row, always of the same shape) and no timer
    strikes, no error is reported. *)
Theorem C61_success : forall E P rows index splits sample (fit : list nat -> res E) score (predict : E -> bool -> list nat -> res (nat * list P))
    metrics sub timeout folds cols,
  nlt (Fin 0) timeout -> ~ part_of_rows sub rows -> splits 0 = Ok folds -> splits 1 = Ok folds -> k_fold rows folds ->
  (forall a, exists e, fit a = Ok e) -> (forall a b c, exists x, score a b c = Ok x) ->
  (forall e b test, exists ps, predict e b test = Ok (cols, ps) /\ length ps = length test) ->
  exists o, evaluate_pipeline rows index splits sample fit score predict metrics sub None true timeout = Ok o /\ o_error o = None.
Proof. exact C61_success_main. Qed.
Print Assumptions C61_success.

Example C61_success_ex : k_fold 5 ex_folds /\ ~ part_of_rows NoSub 5 /\
  exists o, ex_eval NoSub None (fun _ => false) = Ok o /\ o_error o = None.
Proof. exact C61_success_ex_main. Qed.

(** C108 is false: as soon as one training row number is not a label of y (rows were
    dropped from y, or it was cut out of a larger table), every evaluation on a part of
    the rows fails, whatever the pipeline, the metrics and the time. *)
Theorem C108_index_refuted : forall E P rows index splits sample (fit : list nat -> res E) score (predict : E -> bool -> list nat -> res (nat * list P))
    metrics sub timeout folds f t,
  nlt (Fin 0) timeout -> part_of_rows sub rows -> splits 0 = Ok folds -> In f folds -> In t (fst f) -> ~ In t index ->
  (forall a b e, sample a b = Err e -> ordinary e) ->
  exists o, evaluate_pipeline rows index splits sample fit score predict metrics sub None true timeout = Ok o /\
    o_error o <> None /\ o_scores o = repeat NInf (length metrics) /\ o_pred o = None /\ o_ests o = None.
Proof. exact C108_index_refuted_main. Qed.
Print Assumptions C108_index_refuted.

(** C108, what holds: if the labels of y are the row numbers in any order, each once,
    the evaluation on a part of the rows succeeds whenever the library calls do. *)
Theorem C108_index_partial : forall E P rows index splits sample (fit : list nat -> res E) score (predict : E -> bool -> list nat -> res (nat * list P))
    metrics sub timeout folds cols,
  nlt (Fin 0) timeout -> Permutation index (seq 0 rows) -> splits 0 = Ok folds -> splits 1 = Ok folds -> k_fold rows folds ->
  (forall f, In f folds -> Forall (fun i => i < rows) (fst f)) ->
  (forall a b, length a = length b -> exists idx, sample a b = Ok idx) ->
  (forall a, exists e, fit a = Ok e) -> (forall a b c, exists x, score a b c = Ok x) ->
  (forall e b test, exists ps, predict e b test = Ok (cols, ps) /\ length ps = length test) ->
  exists o, evaluate_pipeline rows index splits sample fit score predict metrics sub None true timeout = Ok o /\ o_error o = None.
Proof. exact C108_index_partial_main. Qed.
Print Assumptions C108_index_partial.

(** C108, with the default labels the sampler sees the targets of the very rows it
    samples from. *)
Theorem C108_default : forall E P rows splits sample (fit : list nat -> res E) score (predict : E -> bool -> list nat -> res (nat * list P))
    metrics sub hit timeout o folds,
  part_of_rows sub rows -> splits 0 = Ok folds -> (forall f, In f folds -> Forall (fun i => i < rows) (fst f)) ->
  evaluate_pipeline rows (seq 0 rows) splits sample fit score predict metrics sub hit true timeout = Ok o -> o_error o = None ->
  exists ests, o_ests o = Some ests /\
    Forall2 (fun f e => exists idx, sample (fst f) (fst f) = Ok idx /\ fit idx = Ok e) folds ests.
Proof. exact C108_default_main. Qed.
Print Assumptions C108_default.

(** C108 is false also when the labels are the row numbers in another order: the
    sampler gets the targets of other rows than those it samples from. *)
Theorem C108_order_refuted : exists index, Permutation index (seq 0 5) /\
  let sample := fun xs ys : list nat => if list_eq_dec Nat.eq_dec xs ys then Ok [0] else Err ValueError in
  (exists o, evaluate_pipeline (E := list nat) (P := list nat) 5 index (fun _ => Ok ex_folds) sample (fun rows => Ok rows) (fun _ _ _ => Ok (Fin 1))
    (fun e _ test => Ok (0, map (fun _ => e) test)) [false] (IntSub 1) None true (Fin 1) = Ok o /\ o_error o = Some ValueError) /\
  (exists o, evaluate_pipeline (E := list nat) (P := list nat) 5 (seq 0 5) (fun _ => Ok ex_folds) sample (fun rows => Ok rows) (fun _ _ _ => Ok (Fin 1))
    (fun e _ test => Ok (0, map (fun _ => e) test)) [false] (IntSub 1) None true (Fin 1) = Ok o /\ o_error o = None).
Proof. exact C108_order_refuted_main. Qed.
Print Assumptions C108_order_refuted.

(** The first of six rows had no label and was dropped; and the shuffled case. *)
Example C108_ex : part_of_rows (IntSub 1) 5 /\ k_fold 5 ex_folds /\ ~ In 0 [1; 2; 3; 4; 5] /\ In ([0; 1; 2], [3; 4]) ex_folds /\
  (exists o, evaluate_pipeline (E := list nat) (P := list nat) 5 [1; 2; 3; 4; 5] (fun _ => Ok ex_folds) (fun _ _ => Ok [0]) (fun rows => Ok rows)
    (fun _ _ _ => Ok (Fin 1)) (fun e _ test => Ok (0, map (fun _ => e) test)) [false] (IntSub 1) None true (Fin 1) = Ok o /\
    o_error o = Some KeyError /\ o_scores o = [NInf]) /\
  (exists o, evaluate_pipeline (E := list nat) (P := list nat) 5 [4; 3; 2; 1; 0] (fun _ => Ok ex_folds) (fun _ _ => Ok [0]) (fun rows => Ok rows)
    (fun _ _ _ => Ok (Fin 1)) (fun e _ test => Ok (0, map (fun _ => e) test)) [false] (IntSub 1) None true (Fin 1) = Ok o /\
    o_error o = None /\ exists q, o_scores o = [Fin q] /\ (q == 1)%Q).
Proof. exact C108_ex_main. Qed.

(** C62. The evaluation of an individual has one score per metric, followed by minus
    the number of its steps exactly when asked for; the fitness is the same tuple. *)
Theorem C62_score : forall E P rows index splits sample (fit : list nat -> res E) score (predict : E -> bool -> list nat -> res (nat * list P))
    metrics sub hit valid steps timeout deadline add_length now start stop ev,
  evaluate_individual (evaluate_pipeline rows index splits sample fit score predict metrics sub hit valid) steps timeout deadline add_length now start stop = Ok ev ->
  r_fitness ev = r_score ev /\
  exists per_metric, length per_metric = length metrics /\
    r_score ev = per_metric ++ (if add_length then [Fin (inject_Z (- Z.of_nat steps))] else []).
Proof. exact C62_score_main. Qed.
Print Assumptions C62_score.

(** C62, time: the pipeline is evaluated with a limit that is at most the timeout and
    at most the time left until the deadline, and is one of the two; what comes out is
    what that evaluation gave. *)
Theorem C62_limit : forall E P (run : num -> res (@outcome E P)) steps timeout deadline add_length now start stop ev,
  timeout <> NaN -> (forall d, deadline = Some d -> nsub d now <> NaN) ->
  evaluate_individual run steps timeout deadline add_length now start stop = Ok ev ->
  exists limit o, run limit = Ok o /\ nle limit timeout /\ (forall d, deadline = Some d -> nle limit (nsub d now)) /\
    (limit = timeout \/ exists d, deadline = Some d /\ limit = nsub d now) /\
    r_score ev = o_scores o ++ (if add_length then [Fin (inject_Z (- Z.of_nat steps))] else []) /\
    r_pred ev = o_pred o /\ r_ests ev = o_ests o /\ r_error ev = o_error o /\ r_duration ev = nsub stop start.
Proof. exact C62_limit_main. Qed.
Print Assumptions C62_limit.

(** C62, deadline: once the deadline has passed, nothing is evaluated: ValueError. *)
Theorem C62_expired : forall E P rows index splits sample (fit : list nat -> res E) score (predict : E -> bool -> list nat -> res (nat * list P))
    metrics sub hit steps timeout d add_length now start stop,
  timeout <> NaN -> nsub d now <> NaN -> nle (nsub d now) (Fin 0) \/ nle timeout (Fin 0) ->
  evaluate_individual (evaluate_pipeline rows index splits sample fit score predict metrics sub hit true) steps timeout (Some d) add_length now start stop = Err ValueError.
Proof. exact C62_expired_main. Qed.
Print Assumptions C62_expired.

Example C62_ex : exists ev,
  evaluate_individual (evaluate_pipeline (E := list nat) (P := list nat) 5 (seq 0 5) (fun _ => Ok ex_folds) (fun _ _ => Ok [0]) (fun rows => Ok rows)
    (fun e m test => Ok (Fin (inject_Z (Z.of_nat (length e + m))))) (fun e _ test => Ok (0, map (fun _ => e) test)) [false; false] NoSub None true)
    4 (Fin 10) (Some (Fin 107)) true (Fin 100) (Fin 101) (Fin 103) = Ok ev /\
  r_score ev = [Fin (5 # 2); Fin (7 # 2); Fin (-4)] /\ time_limit (Fin 10) (Some (Fin 107)) (Fin 100) = Fin 7.
Proof. exact C62_ex_main. Qed.

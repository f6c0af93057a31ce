(** Property theorems; proofs in Fit_Main.v. *)
Require Import QArith Qcanon Permutation Sorted.
From Verif Require Import Base Num Data_Model Data_Spec Tk_Model Gp_Model Lib_Spec Pred_Model Pred_Spec Fit_Model Fit_Spec.
From Verif Require Fac_Model.
Open Scope string_scope.
Open Scope list_scope.
Open Scope nat_scope.
From Verif Require Import Fit_Main.

(** C116: what a successful fit leaves.  The search and the post-processing worked
    on the encoded training rows of this call, under the limits in the time keeper;
    the post-processing got the evaluated individuals of this search, best first, and
    its model, if it makes one, answers, through the encoders fitted on the same rows and the classes of
    the same targets. *)
Theorem C116_fitted :
  forall I rate fit_transform fitted knn poly (key : I -> option (list num)) takes_labels g c r g',
  history rate fit_transform fitted knn poly key takes_labels g ->
  fit rate fit_transform fitted knn poly key takes_labels c g = (Ok r, g') ->
  exists x y classes types steps xe best rest m,
    training_data c (i_classifier g) x y classes /\
    inferred_dtypes (c_x c) (c_declared c) = Ok types /\
    preprocess fit_transform x (i_classifier g) = Ok (xe, steps, i_extension g') /\
    space_for knn poly (i_stores g) (length (f_index xe)) (length (f_cols xe)) (i_pset g) (i_pset g') /\
    searched rate c g g' xe y (i_final g') /\
    best_first key (i_final g') best /\ c_post c xe y rest best = Ok m /\
    (rest = i_total g * Zpos rate - spent (c_clock c) 0 1 - spent (c_clock c) 4 6 - spent (c_clock c) 8 9)%Z /\
    match m with Some m => answers (i_gama g') types (fitted steps x) classes m | None => silent (i_gama g') end.
Proof. exact C116_fitted_main. Qed.
Print Assumptions C116_fitted.

(** With the best-fit post-processing (preset "simple") the model is one trained on
    these rows from an individual that none of the others found beats. *)
Theorem C116_best :
  forall I rate fit_transform fitted knn poly (key : I -> option (list num)) takes_labels train g c r g',
  history rate fit_transform fitted knn poly key takes_labels g -> c_post c = best_fit_post train ->
  fit rate fit_transform fitted knn poly key takes_labels c g = (Ok r, g') ->
  exists x y classes types steps xe i m,
    training_data c (i_classifier g) x y classes /\ inferred_dtypes (c_x c) (c_declared c) = Ok types /\
    preprocess fit_transform x (i_classifier g) = Ok (xe, steps, i_extension g') /\
    In i (i_final g') /\ train i xe y = Ok m /\ answers (i_gama g') types (fitted steps x) classes m /\
    ((forall j v, In j (i_final g') -> key j = Some v -> Forall (fun n => n <> NaN) v) ->
     forall j v w, In j (i_final g') -> key i = Some v -> key j = Some w -> ~ lex_lt v w).
Proof. exact C116_best_main. Qed.
Print Assumptions C116_best.

(** Without post-processing (NoPostProcessing) fit searches as usual but leaves an
    object that answers nothing. *)
Theorem C116_no_post :
  forall I rate fit_transform fitted knn poly (key : I -> option (list num)) takes_labels g c r g',
  history rate fit_transform fitted knn poly key takes_labels g -> c_post c = no_post ->
  fit rate fit_transform fitted knn poly key takes_labels c g = (Ok r, g') ->
  silent (i_gama g') /\
  exists x y classes xe steps, training_data c (i_classifier g) x y classes /\
    preprocess fit_transform x (i_classifier g) = Ok (xe, steps, i_extension g') /\ searched rate c g g' xe y (i_final g').
Proof. exact C116_no_post_main. Qed.
Print Assumptions C116_no_post.

(** The rows: for a DataFrame and a target with the same row labels they are exactly the
    labelled ones, in order, with their own targets. *)
Theorem C116_rows :
  forall I (c : call I) f s x y classes,
  c_x c = XFrame f -> c_y c = YSeries s -> map fst s = f_index f -> rectangular f ->
  training_data c false x y classes ->
  header x = header f /\ length (labels y) = length (rows x) /\ combine (rows x) (labels y) = filter labelled (combine (rows f) (map snd s)).
Proof. exact C116_rows_main. Qed.
Print Assumptions C116_rows.

(** Nothing of earlier fits, finished or failed, plays a role when the search starts
    from warm_start: two objects with the same settings and search space that are
    fitted in the same circumstances answer the same. *)
Theorem C116_history :
  forall I rate fit_transform fitted knn poly (key : I -> option (list num)) takes_labels g1 g2 c r1 g1' r2 g2',
  history rate fit_transform fitted knn poly key takes_labels g1 -> history rate fit_transform fitted knn poly key takes_labels g2 ->
  i_classifier g1 = i_classifier g2 -> i_total g1 = i_total g2 -> i_fraction g1 = i_fraction g2 -> i_stores g1 = i_stores g2 ->
  i_pset g1 = i_pset g2 -> takes_labels = true ->
  (exists i warm, c_warm c = Some (i :: warm)) ->
  fit rate fit_transform fitted knn poly key takes_labels c g1 = (Ok r1, g1') ->
  fit rate fit_transform fitted knn poly key takes_labels c g2 = (Ok r2, g2') ->
  r1 = r2 /\ i_final g1' = i_final g2' /\
  forall parse_float parse_int other q, predict parse_float parse_int other (i_gama g1') q = predict parse_float parse_int other (i_gama g2') q.
Proof. exact C116_history_main. Qed.
Print Assumptions C116_history.

Example C116_ex :
  history 1 ex_ft ex_fitted no_prim no_prim ex_key true (ex_inst false) /\
  exists g', ex_fit ex_good (ex_inst false) = (Ok Self, g') /\ i_y g' = Some (OSeries [(0%Z, ex_label 5); (2%Z, ex_label 7)]) /\
    predict (fun _ => Err ValueError) (fun _ => Err ValueError) (fun _ _ => Err TypeError) (i_gama g') (XFrame ex_x) = Ok [ex_label 3; ex_label 3; ex_label 3].
Proof. exact C116_ex_main. Qed.

Example C116_no_post_ex :
  let c := mkCall (c_x ex_good) (c_y ex_good) (c_declared ex_good) (c_warm ex_good) (c_sampling ex_good) (c_clock ex_good)
             (c_fresh ex_good) (c_search ex_good) (c_dir ex_good) no_post in
  exists g', ex_fit c (ex_inst false) = (Ok Self, g') /\ i_final g' <> [] /\
    predict (fun _ => Err ValueError) (fun _ => Err ValueError) (fun _ _ => Err TypeError) (i_gama g') (XFrame ex_x) = Err AttributeError.
Proof. exact C116_no_post_ex_main. Qed.

(** C117 is false: when fit fails after the data was prepared (here: because the search
    raises, as the second fit with the default search does, C49), the object keeps the
    old model but answers with the column types, encoders and class names of the call
    that failed. *)
Theorem C117_mixed :
  forall I rate fit_transform fitted knn poly (key : I -> option (list num)) takes_labels g c e x y classes types xe steps ext m,
  history rate fit_transform fitted knn poly key takes_labels g -> g_model (i_gama g) = Some m ->
  training_data c (i_classifier g) x y classes -> (forall ls, c_sampling c ls = Ok tt) ->
  inferred_dtypes (c_x c) (c_declared c) = Ok types -> preprocess fit_transform x (i_classifier g) = Ok (xe, steps, ext) ->
  (spent (c_clock c) 0 1 <= i_total g * Zpos rate)%Z -> (forall l, c_warm c = Some l -> ~ In None l) ->
  (forall p st pop d t l n k, fst (c_search c p st pop d t l n k) = Err e) -> e <> TimeoutException -> e <> KeyboardInterrupt ->
  exists g', fit rate fit_transform fitted knn poly key takes_labels c g = (Err e, g') /\
    answers (i_gama g') types (fitted steps x) classes m.
Proof. exact C117_mixed_main. Qed.
Print Assumptions C117_mixed.

Theorem C117_failed_fit_refuted :
  ~ (forall I rate fit_transform fitted knn poly (key : I -> option (list num)) takes_labels g c e g' parse_float parse_int other q,
     history rate fit_transform fitted knn poly key takes_labels g ->
     fit rate fit_transform fitted knn poly key takes_labels c g = (Err e, g') ->
     predict parse_float parse_int other (i_gama g') q = predict parse_float parse_int other (i_gama g) q \/
     exists e', predict parse_float parse_int other (i_gama g') q = Err e').
Proof. exact C117_failed_fit_refuted_main. Qed.
Print Assumptions C117_failed_fit_refuted.

Example C117_ex :
  let pr := fun (g : inst nat) => predict (fun _ => Err ValueError) (fun _ => Err ValueError) (fun _ _ => Err TypeError) (i_gama g) (XFrame ex_x) in
  let g := snd (ex_fit fruit (ex_inst true)) in
  fst (ex_fit fruit (ex_inst true)) = Ok PyNone /\ pr g = Ok [LStr "apple"; LStr "apple"; LStr "apple"] /\
  fst (ex_fit animals g) = Err RuntimeError /\ pr (snd (ex_fit animals g)) = Ok [LStr "cat"; LStr "cat"; LStr "cat"].
Proof. exact C117_ex_main. Qed.

(** What holds: if the data of a regressor are refused, or the targets of a classifier,
    the object answers as before. *)
Theorem C117_refused_partial :
  forall I rate fit_transform fitted knn poly (key : I -> option (list num)) takes_labels g c e,
  (i_classifier g = false /\ format_x_y (c_x c) (c_y c) TSeries true = Err e \/
   i_classifier g = true /\ exists ls, c_y c = YVec ls /\ (exists s q, In (LStr s) ls /\ In (LNum q) ls) /\ e = TypeError) ->
  exists g', fit rate fit_transform fitted knn poly key takes_labels c g = (Err e, g') /\
    forall parse_float parse_int other q, predict parse_float parse_int other (i_gama g') q = predict parse_float parse_int other (i_gama g) q.
Proof. exact C117_refused_partial_main. Qed.
Print Assumptions C117_refused_partial.

(** An object that was never fitted gives no predictions after a failed fit either. *)
Theorem C117_unfitted_partial :
  forall I rate fit_transform fitted knn poly (key : I -> option (list num)) takes_labels g c e g',
  g_model (i_gama g) = None -> fst (Fac_Model.fit_end (i_store g) (c_dir c)) = Ok tt ->
  fit rate fit_transform fitted knn poly key takes_labels c g = (Err e, g') ->
  forall parse_float parse_int other q, exists e', predict parse_float parse_int other (i_gama g') q = Err e'.
Proof. exact C117_unfitted_partial_main. Qed.
Print Assumptions C117_unfitted_partial.

(** And a later fit that succeeds sets everything right: [C116_fitted] holds after any
    history.  Here after the failed one. *)
Example C117_recovers_ex :
  let g := snd (ex_fit animals (snd (ex_fit fruit (ex_inst true)))) in
  history 1 ex_ft ex_fitted no_prim no_prim ex_key true g /\
  exists g', ex_fit (ex_call (XFrame ex_x) (texts ["oak"; "fir"; "oak"]) (Ok tt) [1]) g = (Ok PyNone, g') /\
    predict (fun _ => Err ValueError) (fun _ => Err ValueError) (fun _ _ => Err TypeError) (i_gama g') (XFrame ex_x) = Ok [LStr "oak"; LStr "oak"; LStr "oak"].
Proof. exact C117_recovers_ex_main. Qed.

(** C118, the limits: the search gets a limit that is not negative and, with the time
    spent on preprocessing, is within max_total_time; so does post-processing, if there
    is any time left. (Either fit failed before it looked at the clock, or these are the
    limits of this call.) *)
Theorem C118_limits_partial :
  forall I rate fit_transform fitted knn poly (key : I -> option (list num)) takes_labels g c r g',
  (0 <= i_fraction g <= 1)%Q ->
  fit rate fit_transform fitted knn poly key takes_labels c g = (r, g') ->
  let total := (i_total g * Zpos rate)%Z in let clock := c_clock c in
  (exists e, r = Err e /\ i_keeper g' = i_keeper g) \/
  (forall l, limit_of g' "search" l -> (0 <= l /\ spent clock 0 1 + l <= total)%Z) /\
  (forall l, limit_of g' "postprocess" l ->
     ((spent clock 0 1 + spent clock 4 6 <= total -> 0 <= l /\ spent clock 0 1 + spent clock 4 6 + l <= total) /\
      (total < spent clock 0 1 + spent clock 4 6 -> l <= 0))%Z).
Proof. exact C118_limits_partial_main. Qed.
Print Assumptions C118_limits_partial.

(** How much: in whole seconds, rounded down, the search gets what the share of
    post-processing leaves of the time after preprocessing, and post-processing all that
    is left after the search. *)
Theorem C118_share :
  forall I rate fit_transform fitted knn poly (key : I -> option (list num)) takes_labels g c r g' ls lp,
  (0 <= i_fraction g <= 1)%Q ->
  fit rate fit_transform fitted knn poly key takes_labels c g = (Ok r, g') ->
  limit_of g' "search" ls -> limit_of g' "postprocess" lp ->
  let left := (i_total g * Zpos rate - spent (c_clock c) 0 1)%Z in let rest := (left - spent (c_clock c) 4 6)%Z in
  (exists n, ls = (n * Zpos rate)%Z /\ (inject_Z n <= (1 - i_fraction g) * (left # rate))%Q /\ ((1 - i_fraction g) * (left # rate) < inject_Z (n + 1))%Q) /\
  ((0 <= rest)%Z -> exists n, (lp = n * Zpos rate /\ n * Zpos rate <= rest < (n + 1) * Zpos rate)%Z).
Proof. exact C118_share_main. Qed.
Print Assumptions C118_share.

(** The whole: if search and post-processing exceed their limits by at most [d1] and
    [d2], fit is over by max_total_time and that, not counting the moments between the
    activities. *)
Theorem C118_total :
  forall I rate fit_transform fitted knn poly (key : I -> option (list num)) takes_labels g c r g' ls lp d1 d2,
  (0 <= i_fraction g <= 1)%Q -> monotone (c_clock c) ->
  fit rate fit_transform fitted knn poly key takes_labels c g = (Ok r, g') ->
  limit_of g' "search" ls -> limit_of g' "postprocess" lp -> (0 <= d1)%Z ->
  let clock := c_clock c in
  (spent clock 4 6 <= ls + d1)%Z -> (spent clock 8 10 <= lp + d2)%Z ->
  (spent clock 0 10 <= i_total g * Zpos rate + d1 + d2 + spent clock 1 4 + spent clock 6 8)%Z.
Proof. exact C118_total_main. Qed.
Print Assumptions C118_total.

(** Both limits are there after every successful fit. *)
Theorem C118_recorded :
  forall I rate fit_transform fitted knn poly (key : I -> option (list num)) takes_labels g c r g',
  fit rate fit_transform fitted knn poly key takes_labels c g = (Ok r, g') ->
  exists ls lp, limit_of g' "search" ls /\ limit_of g' "postprocess" lp.
Proof. exact C118_recorded_main. Qed.
Print Assumptions C118_recorded.

(** When preprocessing took all the time, fit raises RuntimeError and does not search. *)
Theorem C118_no_time :
  forall I rate fit_transform fitted knn poly (key : I -> option (list num)) takes_labels g c x y types prep,
  i_classifier g = false ->
  training_data c false x y None -> inferred_dtypes (c_x c) (c_declared c) = Ok types -> preprocess fit_transform x false = Ok prep ->
  (i_total g * Zpos rate < spent (c_clock c) 0 1)%Z ->
  exists g', fit rate fit_transform fitted knn poly key takes_labels c g = (Err RuntimeError, g') /\
    (forall l, ~ limit_of g' "search" l) /\ i_final g' = i_final g.
Proof. exact C118_no_time_main. Qed.
Print Assumptions C118_no_time.

(** C118 is false when the search overran: the limit of post-processing is negative. *)
Theorem C118_negative_refuted :
  ~ (forall I rate fit_transform fitted knn poly (key : I -> option (list num)) takes_labels g c r g' l,
     (0 <= i_fraction g <= 1)%Q -> monotone (c_clock c) -> history rate fit_transform fitted knn poly key takes_labels g ->
     fit rate fit_transform fitted knn poly key takes_labels c g = (Ok r, g') -> limit_of g' "postprocess" l -> (0 <= l)%Z).
Proof. exact C118_negative_refuted_main. Qed.
Print Assumptions C118_negative_refuted.

Example C118_ex :
  exists g', ex_fit ex_good (ex_inst false) = (Ok Self, g') /\ limit_of g' "search" 89 /\ limit_of g' "postprocess" 97 /\ monotone (c_clock ex_good).
Proof. exact C118_ex_main. Qed.

(** C119, without missing targets: the labels handed to the scoring functions are the
    targets the model is trained on. *)
Theorem C119_labels_partial :
  forall I rate fit_transform fitted knn poly (key : I -> option (list num)) g c r g' ls,
  i_classifier g = true -> c_y c = YVec ls -> ~ In LMissing ls ->
  fit rate fit_transform fitted knn poly key true c g = (Ok r, g') ->
  exists y, i_y g' = Some y /\ i_labels g' = Some (labels y) /\ ~ In LMissing (labels y) /\ length (labels y) = length ls.
Proof. exact C119_labels_partial_main. Qed.
Print Assumptions C119_labels_partial.

(** With missing targets among numbers C119 is false: the labels still contain the
    missing ones.  Scikit-learn's functions refuse such labels, so no evaluation
    succeeds; if that means that the search finds nothing, fit raises IndexError after the whole
    search time, although rows without a target are meant to be ignored. *)
Theorem C119_missing_refuted :
  forall I rate fit_transform fitted knn poly (key : I -> option (list num)) train g c ls x y cs types prep,
  i_classifier g = true -> c_y c = YVec ls -> In LMissing ls -> (forall s, ~ In (LStr s) ls) ->
  training_data c true x y (Some cs) -> inferred_dtypes (c_x c) (c_declared c) = Ok types -> preprocess fit_transform x true = Ok prep ->
  (forall l, c_sampling c l = Ok tt) -> (spent (c_clock c) 0 1 <= i_total g * Zpos rate)%Z -> c_warm c = None ->
  (forall p st pop d t l n k, In LMissing l -> c_search c p st pop d t (Some l) n k = (Err TimeoutException, [])) ->
  c_post c = best_fit_post train ->
  exists g', fit rate fit_transform fitted knn poly key true c g = (Err IndexError, g').
Proof. exact C119_missing_refuted_main. Qed.
Print Assumptions C119_missing_refuted.

Example C119_ex :
  fst (ex_fit ex_gap (ex_inst true)) = Err IndexError /\
  exists x y cs, training_data ex_gap true x y (Some cs) /\ labels y = [ex_label 1; ex_label 0].
Proof. exact C119_ex_main. Qed.

(** C120: fit of a regressor returns the object itself; the promise is broken by
    GamaClassifier, whose fit returns None. *)
Theorem C120_regressor_partial :
  forall I rate fit_transform fitted knn poly (key : I -> option (list num)) takes_labels g c r g',
  i_classifier g = false -> fit rate fit_transform fitted knn poly key takes_labels c g = (Ok r, g') -> r = Self.
Proof. exact C120_regressor_partial_main. Qed.
Print Assumptions C120_regressor_partial.

Theorem C120_classifier_refuted :
  forall I rate fit_transform fitted knn poly (key : I -> option (list num)) takes_labels g c r g',
  i_classifier g = true -> fit rate fit_transform fitted knn poly key takes_labels c g = (Ok r, g') -> r <> Self.
Proof. exact C120_classifier_refuted_main. Qed.
Print Assumptions C120_classifier_refuted.

Example C120_ex : fst (ex_fit ex_good (ex_inst false)) = Ok Self /\ fst (ex_fit fruit (ex_inst true)) = Ok PyNone.
Proof. exact C120_ex_main. Qed.

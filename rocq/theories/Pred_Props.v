(** Property theorems; proofs in Pred_Main.v. *)
Require Import QArith Qcanon.
From Verif Require Import Base Num Data_Model Data_Spec Misc_Model Lib_Model Lib_Spec Pred_Model Pred_Spec.
From Verif Require Ens_Model Ens_Spec.
Open Scope string_scope.
Open Scope list_scope.
Open Scope nat_scope.
From Verif Require Import Pred_Main.

Theorem C109_cells_partial : forall parse_float parse_int other types n cols,
  (exists e, forall tr classes m, predict parse_float parse_int other (mkGama types tr classes m) (XArr n cols) = Err e) \/
  exists f, presented parse_float parse_int other types n cols f /\
    length (f_index f) = n /\ length (f_cols f) = length cols /\ length types <= length cols /\
    forall i d cells, nth_error cols i = Some (d, cells) -> exists c, nth_error (f_cols f) i = Some c /\ c_cname c = NInt i /\
      Forall2 (used_as parse_float parse_int (nth_error types i)) cells (c_cells c).
Proof. exact C109_cells_partial_main. Qed.
Print Assumptions C109_cells_partial.

(** Which arrays are accepted for sure: no text for float columns, only numbers for
    integer columns, anything for categorical ones. *)
Theorem C109_accepted : forall parse_float parse_int other types n cols,
  length types <= length cols ->
  (forall i t d cells, nth_error types i = Some t -> nth_error cols i = Some (d, cells) -> Forall (castable t) cells) ->
  exists f, presented parse_float parse_int other types n cols f.
Proof. exact C109_accepted_main. Qed.
Print Assumptions C109_accepted.

Theorem C109_truncated_refuted : forall parse_float parse_int other,
  inferred_dtypes (XArr 11 [(DInt, zeros_to_ten)]) [] = Ok [TPlain DInt] /\
  (forall tr classes m q z, towards_zero q z ->
     let g := mkGama [TPlain DInt] tr classes m in
     predict parse_float parse_int other g (XArr 1 [(DFloat, [CNum q])]) =
     predict parse_float parse_int other g (XArr 1 [(DInt, [CNum (Q2Qc (inject_Z z))])])) /\
  exists m, let g := mkGama [TPlain DInt] None None (Some m) in
    predict parse_float parse_int other g (XFrame (mkFrame [0%Z] [mkCol (NInt 0) DFloat [CNum (Q2Qc (27 # 10))]])) <>
    predict parse_float parse_int other g (XFrame (mkFrame [0%Z] [mkCol (NInt 0) DInt [CNum (Q2Qc 2)]])).
Proof. exact C109_truncated_refuted_main. Qed.
Print Assumptions C109_truncated_refuted.

(** C109 is false also for missing values: the model contains an imputer, but a
    missing value in a column of integers raises ValueError. *)
Theorem C109_missing_refuted : forall parse_float parse_int other tr classes m n d cells ts cols,
  In CMissing cells -> (forall c, In c cells -> c = CMissing \/ exists q, c = CNum q) ->
  predict parse_float parse_int other (mkGama (TPlain DInt :: ts) tr classes m) (XArr n ((d, cells) :: cols)) = Err ValueError.
Proof. exact C109_missing_refuted_main. Qed.
Print Assumptions C109_missing_refuted.

(** An array with fewer columns than the training data is refused, with KeyError if
    the columns there are fit. *)
Theorem C109_columns : forall parse_float parse_int other g n cols,
  length cols < length (g_dtypes g) ->
  (exists e, predict parse_float parse_int other g (XArr n cols) = Err e) /\
  ((forall i t d cells, nth_error (g_dtypes g) i = Some t -> nth_error cols i = Some (d, cells) -> Forall (castable t) cells) ->
   predict parse_float parse_int other g (XArr n cols) = Err KeyError).
Proof. exact C109_columns_main. Qed.
Print Assumptions C109_columns.

Example C109_ex : towards_zero (Q2Qc (27 # 10)) 2 /\ towards_zero (Q2Qc (-27 # 10)) (-2) /\
  np_to_matching (fun _ => Err ValueError) (fun _ => Err ValueError) (fun _ _ => Err ValueError)
    [TCat [CStr "a"; CStr "b"]; TPlain DFloat; TPlain DInt] 2
    [(DObject, [CStr "b"; CStr "c"]); (DFloat, [CMissing; CNum (Q2Qc (1 # 2))]); (DFloat, [CNum (Q2Qc (5 # 2)); CNum (Q2Qc 3)])] =
  Ok (mkFrame [0%Z; 1%Z] [mkCol (NInt 0) DCategory [CStr "b"; CMissing]; mkCol (NInt 1) DFloat [CMissing; CNum (Q2Qc (1 # 2))];
                          mkCol (NInt 2) DInt [CNum (Q2Qc 2); CNum (Q2Qc 3)]]).
Proof. exact C109_ex_main. Qed.

Example C109_accepted_ex : forall i t d cells, nth_error [TCat [CStr "a"]; TPlain DFloat; TPlain DInt] i = Some t ->
  nth_error [(DObject, [CStr "b"; CMissing]); (DFloat, [CMissing; CNum (Q2Qc (1 # 2))]); (DFloat, [CNum (Q2Qc (5 # 2)); CNum (Q2Qc 3)])] i = Some (d, cells) ->
  Forall (castable t) cells.
Proof. exact C109_accepted_ex_main. Qed.

(** C110. Predicting the training array again: every row that was trained on reaches
    the encoders with the same column names, dtypes and values as in training. *)
Theorem C110_training_rows : forall parse_float parse_int other n cols y t remove f y' types,
  array_ok n cols -> format_x_y (XArr n cols) y t remove = Ok (f, y') -> inferred_dtypes (XArr n cols) [] = Ok types ->
  exists g, presented parse_float parse_int other types n cols g /\ header g = header f /\
    Forall (fun l => exists i, l = Z.of_nat i /\ i < n) (f_index f) /\
    forall k i, nth_error (f_index f) k = Some (Z.of_nat i) -> i < n /\ same_row (row f k) (row g i).
Proof. exact C110_training_rows_main. Qed.
Print Assumptions C110_training_rows.

Example C110_ex : array_ok 3 [(DInt, [CNum (Q2Qc 1); CNum (Q2Qc 2); CNum (Q2Qc 1)]); (DFloat, [CNum (Q2Qc (1 # 2)); CMissing; CNum (Q2Qc 3)])] /\
  exists f y' types, format_x_y (XArr 3 [(DInt, [CNum (Q2Qc 1); CNum (Q2Qc 2); CNum (Q2Qc 1)]); (DFloat, [CNum (Q2Qc (1 # 2)); CMissing; CNum (Q2Qc 3)])])
    (YVec [LStr "a"; LMissing; LStr "b"]) TSeries true = Ok (f, y') /\ f_index f = [0%Z; 2%Z] /\
    inferred_dtypes (XArr 3 [(DInt, [CNum (Q2Qc 1); CNum (Q2Qc 2); CNum (Q2Qc 1)]); (DFloat, [CNum (Q2Qc (1 # 2)); CMissing; CNum (Q2Qc 3)])]) [] = Ok types /\
    types = [TCat [CNum (Q2Qc 2); CNum (Q2Qc 1)]; TPlain DFloat].
Proof. exact C110_ex_main. Qed.

(** C111. One prediction per row, in the order of the rows; each is what predicting that
    row alone gives; and a classifier answers with labels it was fitted on.  Encoders
    and model are assumed to treat every row by itself. *)
Theorem C111_frames : forall parse_float parse_int other g h answer f y,
  rowwise g h answer -> rectangular f -> header f = h ->
  match g_classes g with
  | None => True
  | Some classes => 0 < length (f_index f) /\ exists y', classifier_labels y = Ok (classes, y') /\ forall r, In (answer r) y' /\ answer r <> LMissing
  end ->
  exists ps, predict parse_float parse_int other g (XFrame f) = Ok ps /\ length ps = length (f_index f) /\
    forall i, i < length (f_index f) -> exists p, nth_error ps i = Some p /\ (g_classes g <> None -> In p y) /\
      predict parse_float parse_int other g (XFrame (only_row_frame i f)) = Ok [p].
Proof. exact C111_frames_main. Qed.
Print Assumptions C111_frames.

(** The same for arrays that are accepted. *)
Theorem C111_arrays : forall parse_float parse_int other g answer n cols ps y,
  (forall dc, In dc cols -> length (snd dc) = n) ->
  (forall h, map fst h = map NInt (seq 0 (length cols)) -> rowwise g h answer) ->
  match g_classes g with
  | None => True
  | Some classes => exists y', classifier_labels y = Ok (classes, y') /\ forall r, In (answer r) y' /\ answer r <> LMissing
  end ->
  predict parse_float parse_int other g (XArr n cols) = Ok ps ->
  length ps = n /\ forall i, i < n -> exists p, nth_error ps i = Some p /\ (g_classes g <> None -> In p y) /\
      predict parse_float parse_int other g (XArr 1 (only_row i cols)) = Ok [p].
Proof. exact C111_arrays_main. Qed.
Print Assumptions C111_arrays.

(** C111 is false for no rows at all: a classifier then raises IndexError. *)
Theorem C111_empty_refuted : forall parse_float parse_int other tr classes m f,
  (do x <- (match tr with None => Ok f | Some t => t f end); predict_labels m x) = Ok [] ->
  predict parse_float parse_int other (mkGama [] tr (Some classes) (Some m)) (XFrame f) = Err IndexError.
Proof. exact C111_empty_refuted_main. Qed.
Print Assumptions C111_empty_refuted.

Example C111_ex : (forall h, rowwise ex_gama h ex_answer) /\
  (exists y', classifier_labels [LStr "yes"; LStr "no"] = Ok ([LStr "no"; LStr "yes"], y') /\ forall r, In (ex_answer r) y' /\ ex_answer r <> LMissing) /\
  predict (fun _ => Err ValueError) (fun _ => Err ValueError) (fun _ _ => Err ValueError) ex_gama
    (XArr 3 [(DFloat, [CNum (Q2Qc 1); CMissing; CNum (Q2Qc 2)]); (DObject, [CStr "a"; CStr "a"; CStr "z"])]) = Ok [LStr "yes"; LStr "no"; LStr "no"] /\
  predict (fun _ => Err ValueError) (fun _ => Err ValueError) (fun _ _ => Err ValueError) ex_gama
    (XFrame (mkFrame [] [mkCol (NInt 0) DFloat []])) = Err IndexError.
Proof. exact C111_ex_main. Qed.

Theorem C112_arguments_refuted : forall parse_float parse_int other f rest,
  (let y := [LStr "a"; LStr "b"; LStr "c"] in
   predict parse_float parse_int other (constant y) (XFrame f) = Ok y /\
   scorer_value recall_macro y (PLabels y) = Ok 1%Qc /\
   score parse_float parse_int other Binary true (constant y) (recall_macro :: rest) (XFrame f) y = Err ValueError) /\
  (let y := [LNum 1; LNum 1; LNum 0; LNum 0]%Qc in let p := [LNum 1; LNum 1; LNum 0; LNum 1]%Qc in
   predict parse_float parse_int other (constant p) (XFrame f) = Ok p /\
   scorer_value recall_macro y (PLabels p) = Ok (Q2Qc (3 # 4)) /\
   score parse_float parse_int other Binary true (constant p) (recall_macro :: rest) (XFrame f) y = Ok 1%Qc).
Proof. exact C112_arguments_refuted_main. Qed.
Print Assumptions C112_arguments_refuted.

(** C112 is false also for metrics that are to be minimised: the search maximises
    minus the error, score() gives the error, so the worse model scores higher. *)
Theorem C112_sign_refuted : forall parse_float parse_int other f rest, exists y good bad qg qb vg vb,
  score parse_float parse_int other tt false (constant good) (neg_mean_squared_error :: rest) (XFrame f) y = Ok qg /\
  score parse_float parse_int other tt false (constant bad) (neg_mean_squared_error :: rest) (XFrame f) y = Ok qb /\
  scorer_value neg_mean_squared_error y (PLabels good) = Ok vg /\ scorer_value neg_mean_squared_error y (PLabels bad) = Ok vb /\
  (qg < qb)%Qc /\ (vb < vg)%Qc.
Proof. exact C112_sign_refuted_main. Qed.
Print Assumptions C112_sign_refuted.

(** C112, what holds: the first metric alone is computed, on the predictions that
    predict (or, if the metric needs probabilities, predict_proba) gives for the same
    data; up to the sign it is the value the search uses, if the metric's arguments make
    no difference. *)
Theorem C112_score_partial : forall K (no_args : K) parse_float parse_int other classifier g (m : scorer K) rest x y,
  plain no_args m ->
  (s_proba m = false -> forall p, predict parse_float parse_int other g x = Ok p ->
     scorer_value m y (PLabels p) = (do q <- score parse_float parse_int other no_args classifier g (m :: rest) x y; Ok (signed (s_minus m) q))) /\
  (s_proba m = true -> forall p, predict_proba parse_float parse_int other classifier g x = Ok p ->
     scorer_value m y (PProba p) = (do q <- score parse_float parse_int other no_args classifier g (m :: rest) x y; Ok (signed (s_minus m) q))) /\
  (forall e, (if s_proba m then (do p <- predict_proba parse_float parse_int other classifier g x; Ok (PProba p)) else (do p <- predict parse_float parse_int other g x; Ok (PLabels p))) = Err e ->
     score parse_float parse_int other no_args classifier g (m :: rest) x y = Err e).
Proof. exact C112_score_partial_main. Qed.
Print Assumptions C112_score_partial.

Example C112_ex : plain tt neg_mean_squared_error /\ s_proba neg_mean_squared_error = false /\
  predict (fun _ => Err ValueError) (fun _ => Err ValueError) (fun _ _ => Err ValueError) (constant [LNum (Q2Qc 3)]) (XFrame (mkFrame [0%Z] [])) = Ok [LNum (Q2Qc 3)].
Proof. exact C112_ex_main. Qed.

(** C113 is false: the ensemble is tuned with the same bare function.  With a metric
    like "recall_macro" and targets of three classes the construction always fails, the
    error is only logged, and predicting with the ensemble raises TypeError. *)
Theorem C113_multiclass_refuted : forall raw tr smp cats y size left s x X (call : nat -> X -> res Ens_Model.mat) (q : X),
  In (LStr "a") y -> In (LStr "b") y -> In (LStr "c") y ->
  Ens_Model.build_fit raw tr smp (classifier_hillclimb Binary recall_macro cats y) size left Ens_Model.new_ens = (s, x) ->
  (exists e, x = Err e) /\ Ens_Model.e_fit s = None /\ Ens_Model.predict_mean None call q s = Err TypeError.
Proof. exact C113_multiclass_refuted_main. Qed.
Print Assumptions C113_multiclass_refuted.

(** C113, what holds: if the metric's arguments make no difference, a table of votes is
    scored by the value the search would use for the classes with most votes (for a
    regressor, for the means). *)
Theorem C113_plain_partial : forall K (no_args : K) (m : scorer K) cats y p,
  plain no_args m ->
  (cats <> [] -> Forall (fun shares => length shares = length cats) p -> exists labels,
     Forall2 (winner cats) p labels /\
     classifier_hillclimb no_args m cats y p = (do q <- scorer_value m y (PLabels labels); Ok (Fin (this q)))) /\
  (forall means, p = map (fun q => [q]) means ->
     regressor_hillclimb no_args m y p = (do q <- scorer_value m y (PLabels (map LNum means)); Ok (Fin (this q)))).
Proof. exact C113_plain_partial_main. Qed.
Print Assumptions C113_plain_partial.

Example C113_ex : voted abc votes3 = abc /\ scorer_value recall_macro abc (PLabels (voted abc votes3)) = Ok 1%Qc /\
  snd (Ens_Model.build_fit [Ens_Model.mkEntry 1 (Ok (Some votes3)) (Ok [10])] None None (classifier_hillclimb Binary recall_macro abc abc) 5 (Fin 60) Ens_Model.new_ens) = Err ValueError.
Proof. exact C113_ex_main. Qed.

Theorem C114_options_refuted :
  (forall A row tr (metric : list A -> Ens_Model.mat -> res num) task y left l r size hillclimb hillclimb' models models',
     post_process row tr metric task (ensemble_hps size hillclimb models) y left l r =
     post_process row tr metric task (ensemble_hps size hillclimb' models') y left l r) /\
  exists s x r, post_process Ens_Main.ex_row None squares None (ensemble_hps (VNum 11) VNone (VNum 1)) [Ens_Model.qn 3; Ens_Model.qn 4; 0; 0]%Qc (Fin 60)
    (fst (saves Lib_Main.ex_lib Lib_Main.ex_es [0; 1])) [] = (Ok (s, x), r) /\ length (Ens_Spec.members s) = 2.
Proof. exact C114_options_refuted_main. Qed.
Print Assumptions C114_options_refuted.

(** C114, what holds: the ensemble has as many (weighted) members as ensemble_size asks
    for, taken from the 200 best evaluations of the search, and is tuned on the targets
    of the rows whose predictions were kept; with time left, the estimators of the
    members' evaluations are fitted.  (At most 10000
    rows with kept predictions, or they are thinned out.) *)
Theorem C114_size_partial : forall A l0 es rr l out (row : nat -> list Qc) tr task k c (metric : list A -> Ens_Model.mat -> res num) (y : list A)
    (size : positive) hillclimb models left r,
  empty_lib l0 -> Forall ordinary es -> distinct es -> saves l0 es rr = (l, out) ->
  l_n l0 <> Some 0 -> l_m l0 <> Some 0 -> 0 < successes (saved out) ->
  (forall e, In e (saved out) -> success e -> exists p, ev_pred e = Some p /\ length p = k) -> length y = k ->
  match l_sample l with KeepAll => k <= 10000 | Rows rows => Forall (fun i => i < k) rows /\ length rows <= 10000 | NotSet => False end ->
  Ens_Spec.readable row tr (length (Ens_Spec.stored (l_sample l) k)) c -> (forall y1, map Some y1 = map (nth_error y) (Ens_Spec.stored (l_sample l) k) ->
     Ens_Spec.scores (length (Ens_Spec.stored (l_sample l) k)) c (metric y1)) ->
  exists s x, post_process row tr metric task (ensemble_hps (VNum (Zpos size # 1)) hillclimb models) y left l r = (Ok (s, x), r) /\
    Ens_Spec.total_weight (Ens_Spec.members s) = Pos.to_nat size /\
    Forall (fun mw => 1 <= snd mw /\ exists t, In t (n_best l 200 true) /\ Ens_Model.m_id (fst mw) = ev_ind (nth_ev (saved out) t) /\
              success (nth_ev (saved out) t)) (Ens_Spec.members s) /\
    NoDup (map (fun mw => Ens_Model.m_id (fst mw)) (Ens_Spec.members s)) /\
    (nlt (Fin 0) left -> (forall e, In e (saved out) -> success e -> ev_est e <> []) ->
       x = Ok tt /\ exists fitted, Ens_Model.e_fit s = Some fitted /\ fitted <> [] /\
         forall e w, In (e, w) fitted <-> exists m t, In (m, w) (Ens_Spec.members s) /\ In t (n_best l 200 true) /\
           Ens_Model.m_id m = ev_ind (nth_ev (saved out) t) /\ In e (ev_est (nth_ev (saved out) t))).
Proof. exact C114_size_partial_main. Qed.
Print Assumptions C114_size_partial.

Example C114_ex : exists l out, saves Lib_Main.ex_lib Lib_Main.ex_es [0; 1] = (l, out) /\ 0 < successes (saved out) /\
  (forall e, In e (saved out) -> success e -> exists p, ev_pred e = Some p /\ length p = 4) /\
  match l_sample l with KeepAll => 4 <= 10000 | Rows rows => Forall (fun i => i < 4) rows /\ length rows <= 10000 | NotSet => False end /\
  exists s x, post_process Ens_Main.ex_row None squares None (ensemble_hps (VNum 3) VNone VNone) [Ens_Model.qn 3; Ens_Model.qn 4; 0; 0]%Qc (Fin 60) l [] = (Ok (s, x), []) /\
    Ens_Spec.total_weight (Ens_Spec.members s) = 3.
Proof. exact C114_ex_main. Qed.

(** C115. Predicting or scoring a file is predicting or scoring the DataFrame of its
    columns other than the target, in their order; the target's values make no
    difference to predictions. *)
Theorem C115_files : forall K (no_args : K) O (read_arff read_csv : O -> string -> res frame) no_options to_labels parse_float parse_int other
    classifier g metrics path target o data xs c zs,
  holds (read_arff o) (read_csv o) path data -> target_column data target xs c zs ->
  let x := XFrame (mkFrame (f_index data) (xs ++ zs)) in
  predict_from_file parse_float parse_int other read_arff read_csv g path target o = predict parse_float parse_int other g x /\
  score_from_file parse_float parse_int other no_args read_arff read_csv to_labels classifier g metrics path target o =
    score parse_float parse_int other no_args classifier g metrics x (to_labels [c]) /\
  (o = no_options ->
   predict_proba_from_file parse_float parse_int other read_arff read_csv no_options g path target None = predict_proba parse_float parse_int other true g x).
Proof. exact C115_files_main. Qed.
Print Assumptions C115_files.

(** C115 is false for predict_proba_from_file with options for the reader (a separator,
    say): it does not take any. *)
Theorem C115_options_refuted : forall O (read_arff read_csv : O -> string -> res frame) no_options parse_float parse_int other g path target o,
  predict_proba_from_file parse_float parse_int other read_arff read_csv no_options g path target (Some o) = Err TypeError.
Proof. exact C115_options_refuted_main. Qed.
Print Assumptions C115_options_refuted.

Example C115_ex : holds (fun _ => Err ValueError) (fun _ => Ok ex_data) "d.csv" ex_data /\
  target_column ex_data (Some "t") [mkCol (NStr "a") DFloat [CNum (Q2Qc 1); CMissing]] (mkCol (NStr "t") DObject [CStr "?"; CStr "?"]) [mkCol (NStr "b") DFloat [CNum (Q2Qc 1); CNum (Q2Qc 2)]] /\
  predict_from_file (fun _ => Err ValueError) (fun _ => Err ValueError) (fun _ _ => Err ValueError) (fun _ _ => Err ValueError) (fun (_ : unit) _ => Ok ex_data) ex_gama "d.csv" (Some "t") tt = Ok [LStr "yes"; LStr "no"].
Proof. exact C115_ex_main. Qed.

(** C114: a size that is no whole number is an error. *)
Theorem C114_bad_size : forall A (row : nat -> list Qc) tr (metric : list A -> Ens_Model.mat -> res num) task
  options (y : list A) left l r v,
  hp options "ensemble_size" = Some v -> (forall z, v <> VNum (inject_Z z)) -> (forall q, v = VNum q -> Qred q = q) ->
  post_process row tr metric task options y left l r = (Err TypeError, r).
Proof. exact C114_bad_size_main. Qed.
Print Assumptions C114_bad_size.

(** C129: without a model there is no answer: every way of asking for predictions,
    probabilities or a score is an error... *)
Theorem C129_no_model : forall parse_float parse_int other g, g_model g = None ->
  (forall x, exists e, predict parse_float parse_int other g x = Err e) /\
  (forall classifier x, exists e, predict_proba parse_float parse_int other classifier g x = Err e) /\
  (forall K (no_args : K) classifier metrics x y, exists e, score parse_float parse_int other no_args classifier g metrics x y = Err e).
Proof. exact C129_no_model_main. Qed.
Print Assumptions C129_no_model.

(** ... namely AttributeError on an object that was never fitted ... *)
Theorem C129_unfitted : forall parse_float parse_int other x,
  predict parse_float parse_int other unfitted x = Err AttributeError /\
  (forall classifier, predict_proba parse_float parse_int other classifier unfitted x = Err AttributeError) /\
  (forall K (no_args : K) classifier m ms y, score parse_float parse_int other no_args classifier unfitted (m :: ms) x y = Err AttributeError).
Proof. exact C129_unfitted_main. Qed.
Print Assumptions C129_unfitted.

(** ... and a regressor never gives probabilities, whatever its model; data that is
    neither an array nor a DataFrame is refused by the encoders. *)
Theorem C129_regressor : forall parse_float parse_int other g,
  (forall x, predict_proba parse_float parse_int other false g x = Err AttributeError) /\
  (forall t, g_transform g = Some t -> predict parse_float parse_int other g XOther = Err ValueError).
Proof. exact C129_regressor_main. Qed.
Print Assumptions C129_regressor.

Example C129_ex : g_model (mkGama [TPlain DFloat] (Some (fun f => Ok f)) (Some [LStr "a"]) None) = None /\
  predict (fun _ => Err ValueError) (fun _ => Err ValueError) (fun _ _ => Err ValueError) (mkGama [TPlain DFloat] (Some (fun f => Ok f)) (Some [LStr "a"]) None) (XArr 1 [(DFloat, [CMissing])]) = Err AttributeError.
Proof. exact C129_ex_main. Qed.

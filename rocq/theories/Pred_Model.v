(** Predicting and scoring with a fitted model: gama/gama.py:352-505,
    gama/GamaClassifier.py:40-124, gama/GamaRegressor.py:21-34, the scoring
    functions of gama/utilities/metrics.py:57-63 and the call that builds an
    ensemble (gama/postprocessing/ensemble.py:71-82, 487-528). *)
Require Import QArith Qcanon.
From Verif Require Import Base Num Data_Model.
Open Scope string_scope.
Open Scope list_scope.
Open Scope nat_scope.

(** * Data for prediction *)

(** The dtype of a column of the training data, gama.py:539.  A CategoricalDtype
    carries its categories. *)
Inductive coltype := TCat (categories : list cell) | TPlain (d : dtype).
(** of a column made by [astype("category")]: the values that occur *)
Definition coltype_of (c : column) : coltype :=
  match c_dtype c with DCategory => TCat (distinct (c_cells c)) | d => TPlain d end.
(** gama.py:538-539 in fit: [_inferred_dtypes].  Dropping unlabelled rows keeps
    the dtypes.  A frame brings its own dtypes ([declared]). *)
Definition inferred_dtypes (x : xdata) (declared : list coltype) : res (list coltype) :=
  match x with
  | XArr n cols => do f <- numpy_to_dataframe n cols; Ok (map coltype_of (f_cols f))
  | XFrame _ => Ok declared
  | XOther => Err TypeError
  end.

(** [int(q)]: towards zero *)
Definition trunc (q : Qc) : Qc := Q2Qc (inject_Z (Z.quot (Qnum (this q)) (Zpos (Qden (this q))))).
Definition dtype_of (t : coltype) : dtype := match t with TCat _ => DCategory | TPlain d => d end.

Section Predict.
(** [float(s)] and [int(s)] of text, and the casts to dtypes other than the ones
    treated below *)
Context (parse_float parse_int : string -> res cell) (other : dtype -> cell -> res cell).

(** [Series.astype(dtype)], one cell.  Simplifications: every cell that cannot be
    an integer raises ValueError (None in a column of objects would be a
    TypeError, infinity an OverflowError); integers are not limited to 64 bits. *)
Definition astype_cell (t : coltype) (c : cell) : res cell :=
  match t with
  | TCat cats => Ok (match find (cell_eqb c) cats with Some d => d | None => CMissing end)
  | TPlain DObject => Ok c
  | TPlain DFloat => match c with CBool b => Ok (CNum (bool_num b)) | CStr s => parse_float s | _ => Ok c end
  | TPlain DInt => match c with
                   | CNum q => Ok (CNum (trunc q))
                   | CBool b => Ok (CNum (bool_num b))
                   | CStr s => parse_int s
                   | _ => Err ValueError
                   end
  | TPlain DBool => Ok (CBool (match c with
                               | CNum q => if Qc_eq_dec q 0%Qc then false else true
                               | CBool b => b
                               | CStr s => negb (String.eqb s "")
                               | _ => true
                               end))
  | TPlain d => other d c
  end.

(** gama.py:352-360 _np_to_matching_dataframe, the loop from column [i] on: one
    column per training dtype, KeyError when there is none; surplus columns stay
    as they are. *)
Fixpoint match_columns (i : nat) (types : list coltype) (cols : list (dtype * list cell)) : res (list column) :=
  match types, cols with
  | [], _ => Ok (map (fun ic => mkCol (NInt (i + fst ic)) (fst (snd ic)) (snd (snd ic))) (enumerate cols))
  | _ :: _, [] => Err KeyError
  | t :: ts, (_, cells) :: cs =>
      do cells' <- rmap (astype_cell t) cells;
      do r <- match_columns (S i) ts cs;
      Ok (mkCol (NInt i) (dtype_of t) cells' :: r)
  end.
Definition np_to_matching (types : list coltype) (n : nat) (cols : list (dtype * list cell)) : res frame :=
  do cs <- match_columns 0 types cols; Ok (mkFrame (map Z.of_nat (seq 0 n)) cs).

(** * A fitted GAMA object *)

(** [transform]: the encoding pipeline, None before fit; [classes]: those of the
    label encoder, None for a regressor; the model is None before fit. *)
Record model := mkModel {
  predict_labels : frame -> res (list label);
  predict_probabilities : frame -> res (list (list Qc)) }.
Record gama := mkGama {
  g_dtypes : list coltype;
  g_transform : option (frame -> res frame);
  g_classes : option (list label);
  g_model : option model }.
(** gama.py:283-285, 296 and GamaClassifier.py:37: before fit *)
Definition unfitted : gama := mkGama [] None None None.

(** gama.py:362-369 _prepare_for_prediction.  Anything but an array goes to the
    encoders, which refuse what is neither a frame nor convertible to one; without
    encoders there is no model either, and [None.predict] is an AttributeError. *)
Definition prepare (g : gama) (x : xdata) : res frame :=
  do f <- (match x with
           | XArr n cols => np_to_matching (g_dtypes g) n cols
           | XFrame f => Ok f
           | XOther => Err (match g_transform g with None => AttributeError | Some _ => ValueError end)
           end);
  match g_transform g with None => Ok f | Some transform => transform f end.
(** GamaClassifier.py:40-57 and GamaRegressor.py:21-34 _predict;
    [None.predict] is an AttributeError *)
Definition predict_frame (g : gama) (x : frame) : res (list label) :=
  match g_model g with
  | None => Err AttributeError
  | Some m => do raw <- predict_labels m x;
              match g_classes g with None => Ok raw | Some classes => classifier_predict classes raw end
  end.
(** gama.py:374-389 predict *)
Definition predict (g : gama) (x : xdata) : res (list label) := do f <- prepare g x; predict_frame g f.
(** GamaClassifier.py:59-93 _predict_proba, predict_proba; a regressor has no such
    method *)
Definition predict_proba_frame (g : gama) (x : frame) : res (list (list Qc)) :=
  match g_model g with None => Err AttributeError | Some m => predict_probabilities m x end.
Definition predict_proba (classifier : bool) (g : gama) (x : xdata) : res (list (list Qc)) :=
  if classifier then do f <- prepare g x; predict_proba_frame g f else Err AttributeError.

(** * Metrics *)

(** A scikit-learn scorer: a function of keyword arguments ([K]), true labels and
    predictions; the sign; the arguments the scorer was made with; whether it
    needs probabilities (metrics.py:44-46). *)
Inductive prediction := PLabels (l : list label) | PProba (p : list (list Qc)).
Record scorer (K : Type) := mkScorer {
  s_func : K -> list label -> prediction -> res Qc;
  s_minus : bool;
  s_kwargs : K;
  s_proba : bool }.
Global Arguments s_func {K}. Global Arguments s_minus {K}. Global Arguments s_kwargs {K}. Global Arguments s_proba {K}. Global Arguments mkScorer {K}.
Definition signed (minus : bool) (q : Qc) : Qc := if minus then (- q)%Qc else q.
Section Metrics.
  (** [no_args]: a call without keyword arguments *)
  Context {K : Type} (no_args : K).
  (** metrics.py:57 [self.score = self.scorer._score_func], called without
      keyword arguments *)
  Definition metric_score (m : scorer K) (y : list label) (p : prediction) : res Qc := s_func m no_args y p.
  (** metrics.py:62-63 maximizable_score *)
  Definition maximizable_score (m : scorer K) (y : list label) (p : prediction) : res Qc :=
    do q <- metric_score m y p; Ok (signed (s_minus m) q).
  (** metrics.py:59-60 __call__, by which evaluate_pipeline scores: scikit-learn's
      scorer passes its arguments and applies its sign *)
  Definition scorer_value (m : scorer K) (y : list label) (p : prediction) : res Qc :=
    do q <- s_func m (s_kwargs m) y p; Ok (signed (s_minus m) q).

  (** gama.py:423-445 score; [metrics] is the tuple of metrics *)
  Definition score (classifier : bool) (g : gama) (metrics : list (scorer K)) (x : xdata) (y : list label) : res Qc :=
    match metrics with
    | [] => Err IndexError
    | m :: _ =>
        do p <- (if s_proba m then do p <- predict_proba classifier g x; Ok (PProba p)
                 else do p <- predict g x; Ok (PLabels p));
        metric_score m y p
    end.

  (** * Files *)
  (** gama.py:391-421, 447-478 and GamaClassifier.py:95-124.  [O]: options for
      the reader; [read o path]: what the reader makes of the file; the target
      is taken as labels by [to_labels].  predict_proba_from_file has no such
      parameter: giving options is a TypeError. *)
  Context {O : Type} (read_arff read_csv : O -> string -> res frame) (no_options : O) (to_labels : list column -> list label).
  Definition load (o : O) (path : string) (target : option string) : res (frame * list column) :=
    X_y_from_file (read_arff o) (read_csv o) path target.
  Definition predict_from_file (g : gama) (path : string) (target : option string) (o : O) : res (list label) :=
    do (x, _) <- load o path target; do f <- prepare g (XFrame x); predict_frame g f.
  Definition score_from_file (classifier : bool) (g : gama) (metrics : list (scorer K)) (path : string) (target : option string) (o : O) : res Qc :=
    do (x, y) <- load o path target; score classifier g metrics (XFrame x) (to_labels y).
  Definition predict_proba_from_file (g : gama) (path : string) (target : option string) (o : option O) : res (list (list Qc)) :=
    match o with
    | Some _ => Err TypeError
    | None => do (x, _) <- load no_options path target; do f <- prepare g (XFrame x); predict_proba_frame g f
    end.
End Metrics.
End Predict.

(** * Building an ensemble *)
From Verif Require Import Misc_Model Lib_Model.
From Verif Require Ens_Model.

Definition int_of (v : pyval) : res Z :=
  match v with
  | VNum q => if Pos.eqb (Qden (Qred q)) 1 then Ok (Qnum (Qred q)) else Err TypeError
  | _ => Err TypeError
  end.
(** build_fit_ensemble, ensemble.py:487-528, with the constructor's defaults of
    10000 hillclimb rows and 200 models (ensemble.py:141-142): the caller's
    options for these are not among its parameters.  [task]: None for regression,
    else whether the metric needs probabilities.  [row], [tr] and [metric] as in
    [Ens_Model]; [metric] takes the hillclimb targets. *)
Definition build_fit_ensemble {A} (row : nat -> list Qc) (tr : option (Ens_Model.mat -> res Ens_Model.mat))
  (metric : list A -> Ens_Model.mat -> res num) (task : option bool)
  (y : list A) (size : Z) (left : num) (l : lib) (r : rng) : res (Ens_Model.ens * res unit) * rng :=
  let (i, r') := match task with
                 | None => Ens_Model.init y (l_sample l) (Some 10000) r
                 | Some requires => Ens_Model.init_classifier requires y (l_sample l) (Some 10000) r
                 end in
  (do (y1, smp) <- i;
   Ok (Ens_Model.build_fit (Ens_Model.candidates row l 200) tr smp (metric y1) size left Ens_Model.new_ens), r').
(** EnsemblePostProcessing.post_process, ensemble.py:71-82.  [hps]: the
    hyperparameters (ensemble.py:48-62). *)
Definition post_process {A} (row : nat -> list Qc) (tr : option (Ens_Model.mat -> res Ens_Model.mat))
  (metric : list A -> Ens_Model.mat -> res num) (task : option bool)
  (options : hps) (y : list A) (left : num) (l : lib) (r : rng) : res (Ens_Model.ens * res unit) * rng :=
  match hp options "ensemble_size" with
  | None => (Err KeyError, r)
  | Some v => match int_of v with
              | Err x => (Err x, r)
              | Ok size => build_fit_ensemble row tr metric task y size left l r
              end
  end.

(** The score by which an ensemble is tuned, _ensemble_validation_score,
    ensemble.py:436-447 and 478-481: for label metrics the class with the largest
    share of the votes in each row is compared with the targets; with a regressor
    the single column itself.  (Metrics on probabilities compare the table with
    one-hot encoded targets; they are not given here.) *)
Definition voted (cats : list label) (p : Ens_Model.mat) : list label := map (fun r => nth (Ens_Model.argmax r) cats LMissing) p.
Definition classifier_hillclimb {K} (no_args : K) (m : scorer K) (cats : list label) (y : list label) (p : Ens_Model.mat) : res num :=
  do q <- maximizable_score no_args m y (PLabels (voted cats p)); Ok (Fin (this q)).
Definition column_of (p : Ens_Model.mat) : list label := map (fun r => match r with [] => LMissing | q :: _ => LNum q end) p.
Definition regressor_hillclimb {K} (no_args : K) (m : scorer K) (y : list label) (p : Ens_Model.mat) : res num :=
  do q <- maximizable_score no_args m y (PLabels (column_of p)); Ok (Fin (this q)).

(** Model of postprocessing/ensemble.py. *)
From Verif Require Import Base Num Nsga_Model Lib_Model.
Require Export Qcanon.
Require DecimalString.
Open Scope nat_scope.

(** Predictions: one row per sample, one column per class (a single column for
    regression).  Entries are exact rationals.  Simplification: numpy would
    broadcast some arrays of different shapes; here every shape mismatch is a
    ValueError. *)
Definition mat := list (list Qc).
Definition qn (n : nat) : Qc := Q2Qc (inject_Z (Z.of_nat n)).
Fixpoint vzip (f : Qc -> Qc -> Qc) (a b : list Qc) : res (list Qc) :=
  match a, b with
  | [], [] => Ok []
  | x :: a', y :: b' => do l <- vzip f a' b'; Ok (f x y :: l)
  | _, _ => Err ValueError
  end.
Fixpoint mzip (f : Qc -> Qc -> Qc) (a b : mat) : res mat :=
  match a, b with
  | [], [] => Ok []
  | x :: a', y :: b' => do v <- vzip f x y; do l <- mzip f a' b'; Ok (v :: l)
  | _, _ => Err ValueError
  end.
Definition mmap (f : Qc -> Qc) (a : mat) : mat := map (map f) a.

(** [sum(m * w for (m, w) in l)]: sum starts from the integer 0, so an empty sum
    is the integer 0 ([None]). *)
Fixpoint sum_from (a : mat) (l : list (mat * nat)) : res mat :=
  match l with
  | [] => Ok a
  | (m, w) :: l' => do b <- mzip Qcplus a (mmap (fun x => (x * qn w)%Qc) m); sum_from b l'
  end.
Definition py_sum (l : list (mat * nat)) : res (option mat) :=
  match l with
  | [] => Ok None
  | (m, w) :: l' => do b <- sum_from (mmap (fun x => (x * qn w)%Qc) m) l'; Ok (Some b)
  end.
(** A sum divided by the sum of the weights; 0/0 raises.  (An array divided by a
    zero weight does not occur, weights start at 1.) *)
Definition total (ws : list nat) : nat := fold_right Nat.add 0 ws.
Definition mean (l : list (mat * nat)) : res mat :=
  do s <- py_sum l;
  match s with
  | None => Err ZeroDivisionError
  | Some m => Ok (mmap (fun x => (x / qn (total (map snd l)))%Qc) m)
  end.

(** An element of [model_library], ensemble.py:206-220: the copied Evaluation with
    its transformed predictions.  Reading the estimators may fail (cache file
    gone), see Evaluation.estimators. *)
Record mdl := mkMdl { m_id : nat; m_pred : option mat; m_est : res (list nat) }.

(** An Evaluation of the library as the ensemble sees it: reading its
    predictions or estimators may fail. *)
Record entry := mkEntry { n_id : nat; n_pred : res (option mat); n_est : res (list nat) }.
(** [evaluation_library.n_best(n)] for the library model of [Lib_Model]; [row]
    says which numbers the (opaque) prediction row stands for. *)
Definition candidates (row : nat -> list Qc) (l : lib) (n : nat) : list entry :=
  map (fun u => mkEntry (ev_ind (obj l u))
                 (do p <- get_predictions l u; Ok (match p with Some rows => Some (map row rows) | None => None end))
                 (get_estimators l u))
    (n_best l n true).

(** The state of an Ensemble.  [e_models] is the dictionary [_models] in insertion
    order; [None] after the object was pickled. *)
Record ens := mkEns {
  e_lib : list mdl; e_models : option (list (nat * (mdl * nat)));
  e_score : num; e_fit : option (list (nat * nat)) }.
(** ensemble.py:171-204: the initial state. *)
Definition new_ens : ens := mkEns [] (Some []) NInf None.
Definition set_lib (l : list mdl) (s : ens) : ens := mkEns l (e_models s) (e_score s) (e_fit s).
Definition set_models (m : list (nat * (mdl * nat))) (s : ens) : ens := mkEns (e_lib s) (Some m) (e_score s) (e_fit s).
Definition set_score (x : num) (s : ens) : ens := mkEns (e_lib s) (e_models s) x (e_fit s).
Definition set_fit (f : list (nat * nat)) (s : ens) : ens := mkEns (e_lib s) (e_models s) (e_score s) (Some f).

(** [predictions[sample]] on the rows of a matrix. *)
Definition mrows (rows : list nat) (p : mat) : res mat :=
  rmap (fun i => match nth_error p i with Some x => Ok x | None => Err IndexError end) rows.

Section Ensemble.
(** [raw]: what n_best returns; [tr]: _prediction_transformation (its own errors
    included); [smp]: _prediction_sample (an empty list counts as no sample);
    [score]: the metric on the hillclimb targets, it may raise. *)
Context (raw : list entry) (tr : option (mat -> res mat)) (smp : option (list nat)) (score : mat -> res num).

(** One round of the loop at ensemble.py:210-218. *)
Definition fetch (e : entry) : res mdl :=
  do p <- n_pred e;
  do p1 <- match tr with
           | None => Ok p
           | Some f => match p with None => Err AttributeError | Some m => do m' <- f m; Ok (Some m') end
           end;
  do p2 <- match smp with
           | None | Some [] => Ok p1
           | Some rows => match p1 with None => Err TypeError | Some m => do m' <- mrows rows m; Ok (Some m') end
           end;
  Ok (mkMdl (n_id e) p2 (n_est e)).
Fixpoint fill (es : list entry) (acc : list mdl) : list mdl * res unit :=
  match es with
  | [] => (acc, Ok tt)
  | e :: es' => match fetch e with Ok m => fill es' (acc ++ [m]) | Err x => (acc, Err x) end
  end.
(** The property model_library, ensemble.py:206-220. *)
Definition model_library (s : ens) : ens * res (list mdl) :=
  match e_lib s with
  | _ :: _ => (s, Ok (e_lib s))
  | [] => let (l, x) := fill raw [] in (set_lib l s, do _ <- x; Ok l)
  end.

(** ensemble.py:228-236. *)
Definition weights (ms : list (nat * (mdl * nat))) : list nat := map (fun x => snd (snd x)) ms.
Definition pred_pairs (ms : list (nat * (mdl * nat))) : res (list (mat * nat)) :=
  rmap (fun x => match m_pred (fst (snd x)) with Some p => Ok (p, snd (snd x)) | None => Err TypeError end) ms.
Definition average (ms : list (nat * (mdl * nat))) : res mat := do l <- pred_pairs ms; mean l.

(** _add_model, ensemble.py:262-267: the dictionary entry is removed and inserted
    again at the end; the model already in the ensemble is kept. *)
Fixpoint pop (k : nat) (ms : list (nat * (mdl * nat))) : option (mdl * nat) * list (nat * (mdl * nat)) :=
  match ms with
  | [] => (None, [])
  | (i, x) :: ms' => if i =? k then (Some x, ms') else let (y, r) := pop k ms' in (y, (i, x) :: r)
  end.
Definition add_model (m : mdl) (ms : list (nat * (mdl * nat))) : list (nat * (mdl * nat)) :=
  let (old, r) := pop (m_id m) ms in
  let (m0, w) := match old with Some x => x | None => (m, 0) end in
  r ++ [(m_id m0, (m0, w + 1))].

(** build_initial_ensemble, ensemble.py:238-260.  The debug message evaluates the
    validation score of the ensemble. *)
Definition build_initial (n : Z) (s : ens) : ens * res unit :=
  if (n <=? 0)%Z then (s, Err ValueError)
  else
    let s0 := match e_models s with Some (_ :: _) => set_models [] s | _ => s end in
    let (s1, l) := model_library s0 in
    match l with
    | Err x => (s1, Err x)
    | Ok lib =>
      match firstn (Z.to_nat n) lib, e_models s1 with
      | _ :: _, None => (s1, Err AttributeError)
      | [], None => (s1, Err AttributeError)
      | ms, Some old =>
        let models := fold_left (fun d m => add_model m d) ms old in
        let s2 := set_models models s1 in
        (s2, do a <- average models; do _ <- score a; Ok tt)
      end
    end.

(** The loop over the library in expand_ensemble, ensemble.py:284-295.  [best] is
    the variable best_addition, which survives from one round to the next.
    [model.score == 0] compares a tuple with a number and never holds. *)
Fixpoint scan (lib : list mdl) (avg : mat) (w : nat) (best : option mdl) (best_score : num)
  : res (option mdl * num) :=
  match lib with
  | [] => Ok (best, best_score)
  | m :: lib' =>
    match m_pred m with
    | None => Err TypeError
    | Some p =>
      do d <- mzip Qcminus p avg;
      do c <- mzip Qcplus avg (mmap (fun x => (x / qn (w + 1))%Qc) d);
      do x <- score c;
      if nltb best_score x then scan lib' avg w (Some m) x else scan lib' avg w best best_score
    end
  end.
(** expand_ensemble, ensemble.py:269-303. *)
Fixpoint expand_loop (n : nat) (best : option mdl) (s : ens) : ens * res unit :=
  match n with
  | O => (s, Ok tt)
  | S n' =>
    match e_models s with
    | None => (s, Err AttributeError)
    | Some models =>
      match average models with
      | Err x => (s, Err x)
      | Ok avg =>
        let (s1, l) := model_library s in
        match l with
        | Err x => (s1, Err x)
        | Ok lib =>
          match scan lib avg (total (weights models)) best NInf with
          | Err x => (s1, Err x)
          | Ok (None, _) => (s1, Err UnboundLocalError)
          | Ok (Some m, x) =>
            expand_loop n' (Some m) (set_score x (set_models (add_model m models) s1))
          end
        end
      end
    end
  end.
Definition expand (n : Z) (s : ens) : ens * res unit :=
  if (n <=? 0)%Z then (s, Err ValueError) else expand_loop (Z.to_nat n) None s.

(** fit, ensemble.py:305-330. *)
Definition fit (timeout : num) (s : ens) : ens * res unit :=
  match e_models s with
  | None | Some [] => (s, Err RuntimeError)
  | Some models =>
    if nleb timeout (Fin 0) then (s, Err ValueError)
    else
      match rmap (fun x => do es <- m_est (fst (snd x)); Ok (map (fun e => (e, snd (snd x))) es)) models with
      | Err x => (s, Err x)
      | Ok l => (set_fit (concat l) s, Ok tt)
      end
  end.

(** build_fit_ensemble after construction, ensemble.py:509-528.  [left] is the
    timeout minus the time spent building.  Every exception is swallowed; it is
    returned as the second component. *)
Definition build_fit (size : Z) (left : num) (s0 : ens) : ens * res unit :=
  let (s1, x1) := build_initial (if (size <=? 10)%Z then 1 else 10)%Z s0 in
  match x1 with
  | Err x => (s1, Err x)
  | Ok _ =>
    let remainder := (size - Z.of_nat (total (match e_models s1 with Some m => weights m | None => [] end)))%Z in
    let (s2, x2) := if (0 <? remainder)%Z then expand remainder s1 else (s1, Ok tt) in
    match x2 with
    | Err x => (s2, Err x)
    | Ok _ => fit left s2
    end
  end.

(** _get_weighted_mean_predictions, ensemble.py:350-358.  [call e x] is the
    prediction of estimator [e] for the data; _fit_models is None before fit. *)
Definition predict_mean {X} (call : nat -> X -> res mat) (x : X) (s : ens) : res mat :=
  match e_fit s with
  | None => Err TypeError
  | Some l =>
    do ps <- rmap (fun ew =>
               do p <- call (fst ew) x;
               do q <- match tr with None => Ok p | Some f => f p end;
               Ok (q, snd ew)) l;
    mean ps
  end.
(** __getstate__ with shrink_on_pickle, ensemble.py:369-382: the object itself
    loses its models and library; the pickled copy has the same fields. *)
Definition getstate (s : ens) : ens := mkEns [] None (e_score s) (e_fit s).
End Ensemble.

(** OneHotEncoder with categories [cats], as used at ensemble.py:418-434: an
    unknown label raises ValueError; the inverse takes the first largest column. *)
Fixpoint one_hot (cats : list nat) (y : nat) : list Qc :=
  match cats with [] => [] | c :: cats' => (if c =? y then 1%Qc else 0%Qc) :: one_hot cats' y end.
Definition encode (cats : list nat) (ys : list nat) : res mat :=
  rmap (fun y => if existsb (Nat.eqb y) cats then Ok (one_hot cats y) else Err ValueError) ys.
Definition qltc (a b : Qc) : bool := qltb (this a) (this b).
Fixpoint argmax_from (best : Qc) (bi i : nat) (row : list Qc) : nat :=
  match row with
  | [] => bi
  | x :: row' => if qltc best x then argmax_from x i (S i) row' else argmax_from best bi (S i) row'
  end.
Definition argmax (row : list Qc) : nat := match row with [] => 0 | x :: row' => argmax_from x 0 1 row' end.
Definition decode (cats : list nat) (p : mat) : list nat := map (fun row => nth (argmax row) cats 0) p.

(** EnsembleClassifier.predict / predict_proba, ensemble.py:449-474.  With a metric
    on probabilities the members' predict_proba is averaged; otherwise their
    labels, one-hot encoded.  [proba e x] and [label e x] are what member [e]
    answers; [names] is the label encoder, if any. *)
Definition predict_proba {X} (requires_probabilities : bool) (cats : list nat)
  (proba : nat -> X -> res mat) (label : nat -> X -> res (list nat)) (x : X) (s : ens) : res mat :=
  predict_mean None
    (fun e x => if requires_probabilities then proba e x else do l <- label e x; encode cats l) x s.
Definition predict {X} (requires_probabilities : bool) (cats : list nat) (names : option (nat -> nat))
  (proba : nat -> X -> res mat) (label : nat -> X -> res (list nat)) (x : X) (s : ens) : res (list nat) :=
  do p <- predict_proba requires_probabilities cats proba label x s;
  Ok (match names with None => decode cats p | Some f => map f (decode cats p) end).

(** Ensemble.__init__, ensemble.py:183-199: the hillclimb targets and the sample.
    [lib_sample] is the library's _sample; indexing with the string "not set"
    raises TypeError. *)
Definition ypick {A} (rows : list nat) (y : list A) : res (list A) :=
  rmap (fun i => match nth_error y i with Some x => Ok x | None => Err IndexError end) rows.
Definition init {A} (y : list A) (lib_sample : sample) (downsample_to : option nat) (r : rng)
  : res (list A * option (list nat)) * rng :=
  match (match lib_sample with NotSet => Err TypeError | KeepAll => Ok y | Rows rows => ypick rows y end) with
  | Err x => (Err x, r)
  | Ok y1 =>
    match downsample_to with
    | None => (Ok (y1, None), r)
    | Some k =>
      if length y1 <=? k then (Ok (y1, None), r)
      else let (s, r') := rsample k (seq 0 (length y1)) r in
           ((do rows <- s; do y2 <- ypick rows y1; Ok (y2, Some rows)), r')
    end
  end.
(** EnsembleClassifier.__init__, ensemble.py:412-434: with a metric on
    probabilities the targets are sampled a second time. *)
Definition init_classifier {A} (requires_probabilities : bool) (y : list A) (lib_sample : sample)
  (downsample_to : option nat) (r : rng) : res (list A * option (list nat)) * rng :=
  let (x, r') := init y lib_sample downsample_to r in
  (match x with
   | Ok (y1, Some rows) => if requires_probabilities then do y2 <- ypick rows y1; Ok (y2, Some rows) else x
   | _ => x
   end, r').
(** What the hillclimb compares the targets with: the predictions the library kept
    of [p] (one per training row), sampled as in model_library. *)
Definition compared {A} (p : list A) (lib_sample : sample) (smp : option (list nat)) : res (list A) :=
  do q <- match lib_sample with Rows rows => ypick rows p | _ => Ok p end;
  match smp with None | Some [] => Ok q | Some rows => ypick rows q end.

(** The attributes of an Evaluation, evaluation_library.py:21-112 (constructor,
    methods, properties; those every Python object has are left out). *)
Definition evaluation_attributes : list string :=
  ["individual"; "score"; "_estimators"; "start_time"; "duration"; "error"; "pid"; "_cache_file"; "_predictions";
   "to_disk"; "remove_from_disk"; "estimators"; "predictions"]%string.
Definition evaluation_getattr (name : string) (m : mdl) : res unit :=
  if existsb (String.eqb name) evaluation_attributes then Ok tt else Err AttributeError.
Definition digits (n : nat) : string := DecimalString.NilEmpty.string_of_uint (Nat.to_uint n).
(** Ensemble.__str__, ensemble.py:360-367.  Simplification: the values of the
    attributes are left out, so the rows of the table have only rank and weight;
    no execution gets that far. *)
Definition ens_str (s : ens) : res string :=
  match e_models s with
  | None | Some [] => Ok "Ensemble with no models."%string
  | Some models =>
    do _ <- rmap (fun x => evaluation_getattr "validation_score" (fst (snd x))) models;
    do rows <- rmap (fun ix => do _ <- evaluation_getattr "name" (fst (snd (snd ix)));
                               Ok (digits (fst ix) ++ digits (snd (snd (snd ix))))%string)
                    (combine (seq 0 (length models)) models);
    Ok (String.concat "" (("Ensemble of " ++ digits (length models) ++ " pipelines.")%string :: rows))
  end.

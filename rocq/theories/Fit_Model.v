(** Gama.fit as a whole: gama/gama.py:507-661 and gama/GamaClassifier.py:126-142,
    made of the parts modelled elsewhere: formatting and encoding (Data_Model), time
    keeping (Tk_Model), the limits, the start population and the clean-up (Fac_Model)
    and what a fitted object predicts with (Pred_Model). *)
Require Import QArith Qcanon.
From Verif Require Import Base Num Data_Model Tk_Model Gp_Model Pred_Model.
From Verif Require Fac_Model.
Open Scope string_scope.
Open Scope list_scope.
Open Scope nat_scope.

(** The attributes of a Gama object that fit reads or assigns.  [i_gama]: the
    attributes used by predict; [i_labels]: the entry "labels" that fit put into the
    keyword arguments of the scorers; [i_x], [i_y]: the data of the last search.
    [i_stores]: whether the evaluation library keeps pipelines (gama.py:551-553).
    Individuals are of any type [I]. *)
Record inst (I : Type) := mkInst {
  i_classifier : bool;
  i_total : Z;
  i_fraction : Q;
  i_stores : bool;
  i_store : string;
  i_dir : option Fac_Model.dir;
  i_keeper : timekeeper;
  i_gama : gama;
  i_labels : option (list label);
  i_x : option frame;
  i_y : option yout;
  i_extension : list enc_step;
  i_pset : pset;
  i_final : list I }.
Arguments mkInst {I}. Arguments i_classifier {I}. Arguments i_total {I}. Arguments i_fraction {I}.
Arguments i_stores {I}. Arguments i_store {I}. Arguments i_dir {I}. Arguments i_keeper {I}. Arguments i_gama {I}.
Arguments i_labels {I}. Arguments i_x {I}. Arguments i_y {I}. Arguments i_extension {I}. Arguments i_pset {I}.
Arguments i_final {I}.

Section Assign.
  Context {I : Type} (g : inst I).
  (** assignments to single attributes *)
  Definition set_keeper (k : timekeeper) : inst I :=
    mkInst (i_classifier g) (i_total g) (i_fraction g) (i_stores g) (i_store g) (i_dir g) k (i_gama g) (i_labels g) (i_x g) (i_y g) (i_extension g) (i_pset g) (i_final g).
  Definition set_dir (d : option Fac_Model.dir) : inst I :=
    mkInst (i_classifier g) (i_total g) (i_fraction g) (i_stores g) (i_store g) d (i_keeper g) (i_gama g) (i_labels g) (i_x g) (i_y g) (i_extension g) (i_pset g) (i_final g).
  Definition set_gama (a : gama) : inst I :=
    mkInst (i_classifier g) (i_total g) (i_fraction g) (i_stores g) (i_store g) (i_dir g) (i_keeper g) a (i_labels g) (i_x g) (i_y g) (i_extension g) (i_pset g) (i_final g).
  Definition set_labels (l : list label) : inst I :=
    mkInst (i_classifier g) (i_total g) (i_fraction g) (i_stores g) (i_store g) (i_dir g) (i_keeper g) (i_gama g) (Some l) (i_x g) (i_y g) (i_extension g) (i_pset g) (i_final g).
  Definition set_x (x : frame) : inst I :=
    mkInst (i_classifier g) (i_total g) (i_fraction g) (i_stores g) (i_store g) (i_dir g) (i_keeper g) (i_gama g) (i_labels g) (Some x) (i_y g) (i_extension g) (i_pset g) (i_final g).
  Definition set_y (y : yout) : inst I :=
    mkInst (i_classifier g) (i_total g) (i_fraction g) (i_stores g) (i_store g) (i_dir g) (i_keeper g) (i_gama g) (i_labels g) (i_x g) (Some y) (i_extension g) (i_pset g) (i_final g).
  Definition set_extension (e : list enc_step) : inst I :=
    mkInst (i_classifier g) (i_total g) (i_fraction g) (i_stores g) (i_store g) (i_dir g) (i_keeper g) (i_gama g) (i_labels g) (i_x g) (i_y g) e (i_pset g) (i_final g).
  Definition set_pset (p : pset) : inst I :=
    mkInst (i_classifier g) (i_total g) (i_fraction g) (i_stores g) (i_store g) (i_dir g) (i_keeper g) (i_gama g) (i_labels g) (i_x g) (i_y g) (i_extension g) p (i_final g).
  Definition set_final (l : list I) : inst I :=
    mkInst (i_classifier g) (i_total g) (i_fraction g) (i_stores g) (i_store g) (i_dir g) (i_keeper g) (i_gama g) (i_labels g) (i_x g) (i_y g) (i_extension g) (i_pset g) l.
End Assign.
Definition set_dtypes (t : list coltype) (a : gama) : gama := Pred_Model.mkGama t (g_transform a) (g_classes a) (g_model a).
Definition set_transform (f : frame -> res frame) (a : gama) : gama := Pred_Model.mkGama (g_dtypes a) (Some f) (g_classes a) (g_model a).
Definition set_classes (l : list label) (a : gama) : gama := Pred_Model.mkGama (g_dtypes a) (g_transform a) (Some l) (g_model a).
Definition set_model (m : option model) (a : gama) : gama := Pred_Model.mkGama (g_dtypes a) (g_transform a) (g_classes a) m.

(** What happens during one call of fit and is not decided by its code.
    - [c_x], [c_y], [c_warm]: the arguments; [c_declared]: the column types of c_x if
      it is a DataFrame;
    - [c_sampling]: the outcome of determine_sample_indices (Lib_Model);
    - [c_clock]: the readings of the clock in ticks, by the order in which fit reads it;
    - [c_fresh]: new random individuals, given the search space;
    - [c_search]: the search method's dynamic_defaults and search, given the search
      space, the fixed steps of every pipeline, the start population, the data, the labels argument of the scorers, the time limit and the
      deadline for evaluations: how it ended and its [output] then;
    - [c_dir]: the output directory after the search;
    - [c_post]: the post-processing, given data, time left (ticks) and individuals: the
      model or None. *)
Record call (I : Type) := mkCall {
  c_x : xdata; c_y : ydata; c_declared : list coltype; c_warm : option (list (option I));
  c_sampling : list label -> res unit;
  c_clock : nat -> Z;
  c_fresh : pset -> nat -> I;
  c_search : pset -> list enc_step -> list I -> frame -> yout -> option (list label) -> Z -> Z -> res unit * list I;
  c_dir : option Fac_Model.dir;
  c_post : frame -> yout -> Z -> list I -> res (option model) }.
Arguments mkCall {I}. Arguments c_x {I}. Arguments c_y {I}. Arguments c_declared {I}. Arguments c_warm {I}.
Arguments c_sampling {I}. Arguments c_clock {I}. Arguments c_fresh {I}. Arguments c_search {I}. Arguments c_dir {I}. Arguments c_post {I}.

Section Fit.
  Context {I : Type}.
  (** ticks per second; the encoders' fit_transform, and the transform of the pipeline
      fitted on given data; the classes that large data excludes; an individual's
      fitness values, None before evaluation; whether a scorer's function takes an
      argument named labels *)
  Context (rate : positive) (fit_transform : enc_step -> frame -> res frame)
          (fitted : list enc_step -> frame -> frame -> res frame)
          (knn poly : primitive -> bool) (key : I -> option (list num)) (takes_labels : bool).

  (** [with self._time_manager.start_activity(name, limit): body], timekeeper.py:89-122:
      readings [b] at the start and [e] at the end *)
  Definition activity_block (clock : nat -> Z) (b e : nat) (name : string) (limit : option Z)
    (body : inst I -> res unit * inst I) (g : inst I) : res unit * inst I :=
    let n := length (tk_acts (i_keeper g)) in
    let (r, g') := body (set_keeper g (act_begin (clock b) name limit (i_keeper g))) in
    (r, set_keeper g' (act_end (clock e) (match r with Ok _ => false | Err _ => true end) n (i_keeper g'))).

  (** gama.py:538-574.  Assignments before an exception stay. *)
  Definition preprocessing (c : call I) (g : inst I) : res unit * inst I :=
    match format_x_y (c_x c) (c_y c) TSeries true with
    | Err e => (Err e, g)
    | Ok (x, y) =>
      let g := set_y g y in
      match inferred_dtypes (c_x c) (c_declared c) with
      | Err e => (Err e, g)
      | Ok types =>
        let g := set_gama g (set_dtypes types (i_gama g)) in
        match basic_encoding fit_transform x (i_classifier g) with
        | Err e => (Err e, g)
        | Ok (x', steps) =>
          let g := set_gama (set_x g x') (set_transform (fitted steps x) (i_gama g)) in
          match basic_pipeline_extension x' (i_classifier g) with
          | Err e => (Err e, g)
          | Ok ext =>
            let g := set_extension g ext in
            (Ok tt, set_pset g (Fac_Model.restrict (i_stores g) (length (f_index x')) (length (f_cols x')) knn poly (i_pset g)))
          end
        end
      end
    end.

  (** seconds from ticks *)
  Definition seconds (ticks : Z) : Q := (ticks # rate)%Q.
  Definition ticks (seconds : Z) : Z := (seconds * Zpos rate)%Z.

  (** _search_phase, gama.py:622-661, given the limit in seconds *)
  Definition search_phase (c : call I) (limit : Z) (g : inst I) : res unit * inst I :=
    match Fac_Model.start_population (c_warm c) (i_final g) (c_fresh c (i_pset g)) with
    | Err e => (Err e, g)
    | Ok pop =>
      match i_x g, i_y g with
      | Some x, Some y =>
        let (outcome, output) := c_search c (i_pset g) (i_extension g) pop x y (i_labels g) limit (c_clock c 5 + ticks limit)%Z in
        let (r, final) := Fac_Model.search_phase outcome output (i_final g) in
        (r, set_dir (set_final g final) (c_dir c))
      | _, _ => (Err AttributeError, g)
      end
    end.

  (** gama.py:602-616.  [None.values] is an AttributeError. *)
  Definition post_processing (c : call I) (g : inst I) : res unit * inst I :=
    if existsb (fun i => match key i with None => true | Some _ => false end) (i_final g) then (Err AttributeError, g)
    else
      let best := Fac_Model.best_individuals (fun i => match key i with Some v => v | None => [] end) (i_final g) in
      match i_x g, i_y g, total_time_remaining (c_clock c 9) (i_keeper g) with
      | Some x, Some y, Ok rest =>
        match c_post c x y rest best with
        | Ok m => (Ok tt, set_gama g (set_model m (i_gama g)))
        | Err e => (Err e, g)
        end
      | _, _, Err e => (Err e, g)
      | _, _, _ => (Err AttributeError, g)
      end.

  Definition and_then (rg : res unit * inst I) (next : inst I -> res unit * inst I) : res unit * inst I :=
    match rg with (Ok _, g) => next g | (Err e, g) => (Err e, g) end.

  (** Gama.fit, gama.py:533-620, without the returned value.  Clock readings: 0, 1
      preprocessing starts and ends; 2 the check, 3 the search's limit; 4, 6 search
      starts and ends, 5 its deadline; 7 the limit of post-processing; 8, 10 it starts
      and ends, 9 the time left handed to it. *)
  Definition base_fit (c : call I) (g : inst I) : res unit * inst I :=
    let clock := c_clock c in
    let g := set_keeper g (tk_new (Some (ticks (i_total g)))) in
    and_then (activity_block clock 0 1 "preprocessing" None (preprocessing c) g) (fun g =>
    match total_time_remaining (clock 2) (i_keeper g), total_time_remaining (clock 3) (i_keeper g) with
    | Ok left2, Ok left3 =>
      if (left2 <? 0)%Z then (Err RuntimeError, g)
      else
        let limit := Fac_Model.py_int ((1 - i_fraction g) * seconds left3) in
        and_then (activity_block clock 4 6 "search" (Some (ticks limit)) (search_phase c limit) g) (fun g =>
        match total_time_remaining (clock 7) (i_keeper g) with
        | Ok left7 =>
          and_then (activity_block clock 8 10 "postprocess" (Some (ticks (Fac_Model.py_int (seconds left7)))) (post_processing c) g) (fun g =>
          let (r, d) := Fac_Model.fit_end (i_store g) (i_dir g) in (r, set_dir g d))
        | Err e => (Err e, g)
        end)
    | Err e, _ | _, Err e => (Err e, g)
    end).

  (** GamaClassifier.fit, GamaClassifier.py:126-142.  [y_ = y.squeeze()] of a frame,
      what LabelEncoder accepts (Data_Model.classifier_format). *)
  Definition target_labels (y : ydata) : res (list label) :=
    match y with
    | YVec ls => Ok ls
    | YSeries s => Ok (map snd s)
    | YMat 1 rows => Ok (map first_label rows)
    | YMat _ _ => Err ValueError
    | YFrame w rows => match squeeze w rows with OSeries s => Ok (map snd s) | _ => Err ValueError end
    | YOther => Err TypeError
    end.
  Definition with_y (c : call I) (y : ydata) : call I :=
    mkCall (c_x c) y (c_declared c) (c_warm c) (c_sampling c) (c_clock c) (c_fresh c) (c_search c) (c_dir c) (c_post c).
  Definition classifier_fit (c : call I) (g : inst I) : res unit * inst I :=
    match target_labels (c_y c) with
    | Err e => (Err e, g)
    | Ok ls =>
      match label_classes ls with
      | Err e => (Err e, g)
      | Ok classes =>
        let g := set_gama g (set_classes classes (i_gama g)) in
        match (if existsb is_str ls then rmap (encode_label classes) ls else Ok ls) with
        | Err e => (Err e, g)
        | Ok ls' =>
          match c_sampling c ls' with
          | Err e => (Err e, g)
          | Ok _ =>
            let g := if takes_labels then set_labels g ls' else g in
            base_fit (if existsb is_str ls then with_y c (YVec ls') else c) g
          end
        end
      end
    end.

  (** What [fit] returns: Gama.fit ends with [return self] (gama.py:620);
      GamaClassifier.fit calls it and returns nothing (GamaClassifier.py:142). *)
  Inductive returned := Self | PyNone.
  Definition fit (c : call I) (g : inst I) : res returned * inst I :=
    if i_classifier g then
      match classifier_fit c g with (Ok _, g') => (Ok PyNone, g') | (Err e, g') => (Err e, g') end
    else
      match base_fit c g with (Ok _, g') => (Ok Self, g') | (Err e, g') => (Err e, g') end.

  (** BestFitPostProcessing.post_process, best_fit.py:25-29: the first of the selection,
      fitted on the data *)
  Definition best_fit_post (train : I -> frame -> yout -> res model) (x : frame) (y : yout) (rest : Z) (selection : list I) : res (option model) :=
    do i <- Fac_Model.best_fit selection; do m <- train i x y; Ok (Some m).
  (** NoPostProcessing.post_process, postprocessing/__init__.py:23-24 *)
  Definition no_post (x : frame) (y : yout) (rest : Z) (selection : list I) : res (option model) := Ok None.
End Fit.

(** Vocabulary of the metric, hyperparameter, search space, export and command
    line properties. *)
From Verif Require Import Base Gp_Model Str_Spec Data_Model Misc_Model.
Open Scope string_scope.
Open Scope list_scope.

(** the value a name was last overwritten with, else [d] *)
Definition last_set (n : string) (ops : list (string * pyval)) (d : pyval) : pyval :=
  fold_left (fun acc op => if String.eqb n (fst op) then snd op else acc) ops d.
(** user > dynamic default > static default, when None means "not given" *)
Definition effective (user static : pyval) (n : string) (ops : list (string * pyval)) : pyval :=
  match user with VNone => last_set n ops static | _ => user end.

(** the names of the metrics GAMA takes, by task *)
Definition classification_names : list string :=
  ["accuracy"; "roc_auc"; "average_precision"; "neg_log_loss"; "precision_macro"; "precision_micro"; "precision_samples"; "precision_weighted";
   "recall_macro"; "recall_micro"; "recall_samples"; "recall_weighted"; "f1_macro"; "f1_micro"; "f1_samples"; "f1_weighted"].
Definition regression_names : list string :=
  ["explained_variance"; "r2"; "neg_mean_absolute_error"; "neg_mean_squared_error"; "neg_mean_squared_log_error"; "neg_median_absolute_error"].
(** [m] is the metric for item [i]; [scorers]: the names of scikit-learn, and
    whether their scorers call predict_proba *)
Definition is_metric_of (scorers : list (string * bool)) (i : item) (m : metric) : Prop :=
  match i with
  | IMetric m' => m = m'
  | IName n => m_name m = n /\
      (m_task m = Classification <-> In n classification_names) /\
      (m_task m = Regression <-> In n regression_names) /\
      (NoDup (map fst scorers) -> (m_proba m = true <-> n = "roc_auc" \/ In (n, true) scorers))
  | IOther => False
  end.
(** a name the metrics know *)
Definition known (scorers : list (string * bool)) (n : string) : Prop :=
  In n (map fst scorers) /\ (In n classification_names \/ In n regression_names).
Definition good_item scorers (i : item) : Prop :=
  match i with IMetric _ => True | IName n => known scorers n | IOther => False end.

(** A class of the search space that cannot give probabilities *)
Definition no_probabilities (k : key) : Prop := exists id, k = KClass id true (Ok false).

(** How a step of a pipeline is written in Python: calling the class with its
    arguments, or the text of the transformer. *)
Definition value_text (v : value) : string := match v_kind v with KStr => ("'" ++ v_text v ++ "'")%string | _ => v_text v end.
Definition kwarg_text (p : string * value) : string := (fst p ++ "=" ++ value_text (snd p))%string.
Definition est_text (e : est) : string :=
  match e with
  | Made p kwargs => (p_name p ++ "(" ++ join ", " (map kwarg_text kwargs) ++ ")")%string
  | Fixed t => tr_str t
  end.
(** What the fitted model of an individual applies to new data: the encoding
    (gama.py:362-369), then the steps of its pipeline. *)
Definition applied (encoding : list (string * transformer)) (i : bound) : list (string * est) :=
  map (fun p => (fst p, Fixed (snd p))) encoding ++ pipeline i.
Definition step_texts (l : list (string * est)) : list (string * string) := map (fun s => (fst s, est_text (snd s))) l.
Definition fixed_texts (l : list (string * transformer)) : list (string * string) := map (fun p => (fst p, tr_str (snd p))) l.
(** no node sets a hyperparameter twice *)
Definition distinct_args (i : bound) : Prop := Forall (fun n => NoDup (map t_output (snd n))) (b_nodes i).
Definition reorders (order : list string -> list string) : Prop := forall l x, In x (order l) <-> In x l.

(** The assignment of a Pipeline to [name]. *)
Definition pipeline_text (name : string) (steps : list (string * string)) : string :=
  (name ++ " = Pipeline([" ++ join (",
" : string) (map (fun s => "('" ++ fst s ++ "', " ++ snd s ++ ")")%string steps) ++ "])
")%string.
(** Where the class of a step is defined. *)
Definition est_class (class_module : nat -> string) (e : est) : string * string :=
  match e with Made p _ => (class_module (p_class p), p_name p) | Fixed t => (tr_module t, tr_class t) end.
(** a module whose last component is private, in the package [p] *)
Definition private_in (p m : string) : Prop := exists rest, m = (p ++ "._" ++ rest)%string /\ ~ contains "." rest.
(** a private module that is in no package *)
Definition top_private (m : string) : Prop := exists rest, m = ("_" ++ rest)%string /\ ~ contains "." rest.
(** [line] imports the class, from the package if its module is private *)
Definition imports_class (c : string * string) (line : string) : Prop :=
  exists from, line = ("from " ++ from ++ " import " ++ snd c)%string /\
    (private_in from (fst c) \/ from = fst c /\ ~ exists p, private_in p (fst c)).
Definition mode_of (a : args) (categorical : bool) : string :=
  match a_mode a with Some m => m | None => if categorical then "classification" else "regression" end.

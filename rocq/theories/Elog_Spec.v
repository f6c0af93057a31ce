(** Vocabulary for the evaluation log as a table. *)
From Verif Require Import Base Misc_Model Log_Model Log_Spec Elog_Model.
Open Scope string_scope.
Open Scope list_scope.
Open Scope nat_scope.

Section Spec.
Context (strftime : nat -> string) (str_of : obj -> string).
(** how a value is shown: a moment in the time format, anything else as text *)
Inductive shown : obj -> string -> Prop :=
| shown_time t : shown (Time t) (strftime t)
| shown_list l : shown (PyList l) (str_of (PyList l))
| shown_dict l : shown (PyDict l) (str_of (PyDict l))
| shown_thing s a : shown (Thing s a) s.
(** the row of evaluation [e]: for every column, in order, its value shown *)
Definition row_for (cols : dict) (e : obj) (row : list string) : Prop :=
  Forall2 (fun (col : string * getter) cell => exists v, snd col e = Ok v /\ shown v cell) cols row.
(** some column has no value for [e] *)
Definition no_row_for (cols : dict) (e : obj) : Prop := Exists (fun col : string * getter => exists x, snd col e = Err x) cols.
(** the rows logger [i], with columns [cols], adds during the calls *)
Inductive rows_logged (i : nat) (cols : dict) : list call_ -> list (list string) -> Prop :=
| rl_nil : rows_logged i cols [] []
| rl_row e row cs rows : row_for cols e row -> rows_logged i cols cs rows ->
    rows_logged i cols (LogEval i e :: cs) (row :: rows)
| rl_none e cs rows : no_row_for cols e -> rows_logged i cols cs rows ->
    rows_logged i cols (LogEval i e :: cs) rows
| rl_other c cs rows : (forall e, c <> LogEval i e) -> rows_logged i cols cs rows ->
    rows_logged i cols (c :: cs) rows.
End Spec.

(** one line of the file *)
Definition line (sep : string) (cells : list string) : string := (join sep cells ++ nl)%string.
Fixpoint table_text (sep : string) (rows : list (list string)) : string :=
  match rows with [] => "" | r :: rows' => (line sep r ++ table_text sep rows')%string end.

(** A call that leaves logger [i] alone: it makes no other logger for the file
    [path], and no logger with extra columns from the dictionary object [d]. *)
Definition leaves_alone (path : string) (d : nat) (c : call_) : Prop :=
  match c with
  | NewLogger p _ f x => p <> path /\ (f = Some d -> x = None)
  | _ => True
  end.

(** the attributes of an evaluation reached by the names in [path] *)
Inductive reaches : obj -> list string -> obj -> Prop :=
| reach_here o : reaches o [] o
| reach_attr s attrs a v path o : lookup a attrs = Some v -> reaches v path o -> reaches (Thing s attrs) (a :: path) o.

(** how the individual of an evaluation came to be *)
Inductive birth := Read | Random | Mutant (parent : obj) (mutator : string) | Child (parent0 parent1 : obj).
Definition meta_of (b : birth) : obj :=
  match b with
  | Read => meta_read | Random => meta_new
  | Mutant p m => meta_mutate p m | Child p q => meta_mate p q
  end.

(** Vocabulary of the logging properties. *)
From Verif Require Import Base Str_Model Str_Spec Misc_Model Log_Model.
Open Scope string_scope.
Open Scope list_scope.
Open Scope nat_scope.

(** a value that can stand in a cell *)
Definition clean (sep v : string) : Prop := ~ contains sep v /\ ~ contains nl v.
(** the file after some lines were logged to an empty one *)
Definition logged (sep : string) (rows : list (list string)) : string :=
  fold_left (fun f row => log_line sep row f) rows "".
(** reading it back: one row per line, split at the separator *)
Definition read_back (sep file : string) : list (list string) := map (split sep) (lines file).

(** What an evaluation is logged as: the columns and their values. *)
Definition scores_text (l : list string) : string :=
  match l with [x] => ("(" ++ x ++ ",)")%string | _ => ("(" ++ join ", " l ++ ")")%string end.
Definition columns (e : evaluation) : list (string * string) :=
  [("id", ev_id e); ("pid", ev_pid e); ("t_start", ev_start e); ("t_wallclock", ev_wall e); ("t_process", ev_process e);
   ("score", scores_text (ev_scores e)); ("pipeline", ev_pipeline e); ("error", ev_error e)].
Definition column_names : list string := ["id"; "pid"; "t_start"; "t_wallclock"; "t_process"; "score"; "pipeline"; "error"].
Definition row_of (e : evaluation) : list string := map snd (columns e) ++ ev_extra e.

(** A sequence of complete writes and updates. *)
Inductive op := OWrite (row : list string) | OUpdate (force : bool).
Fixpoint writes (ops : list op) : list (list string) :=
  match ops with [] => [] | OWrite r :: ops' => r :: writes ops' | OUpdate _ :: ops' => writes ops' end.
Section R.
Context {num ind : Type} (float_of : string -> res num) (parse : string -> res ind).
Definition op_step (m : nat) (s : string * report num ind) (o : op) : string * report num ind :=
  match o with
  | OWrite row => (log_line ";" row (fst s), snd s)
  | OUpdate force => (fst s, snd (update float_of parse m true force (fst s) (snd s)))
  end.
Definition run_ops (m : nat) (names : list string) (ops : list op) : string * report num ind :=
  fold_left (op_step m) ops (log_line ";" names "", report0).
(** the cell of a row in the (first) column called [name] *)
Definition cell (names row : list string) (name s : string) : Prop :=
  exists i, nth_error names i = Some name /\ (forall j, j < i -> nth_error names j <> Some name) /\ nth_error row i = Some s.
(** [s] is a tuple of texts *)
Definition tuple_of (s : string) (parts : list string) : Prop :=
  parts <> [] /\ Forall (fun p => ~ contains "," p) parts /\ s = ("(" ++ join "," parts ++ ")")%string.
(** the metrics and the individual of a row *)
Definition row_metrics (m : nat) (names row : list string) (q : list num) : Prop :=
  length q = m /\ exists s parts, cell names row "score" s /\ tuple_of s parts /\ Forall2 (fun p x => float_of p = Ok x) parts q.
Definition row_ind (names row : list string) (p : string * ind) : Prop :=
  cell names row "id" (fst p) /\ exists s, cell names row "pipeline" s /\ parse s = Ok (snd p).
(** a row the report can read *)
Definition readable (m : nat) (names row : list string) : Prop :=
  Forall (clean ";") row /\ length row = length names /\
  (exists q, row_metrics m names row q) /\ (exists p, row_ind names row p).
(** a row it cannot read: the pipeline is not understood, or the scores are no
    [m] numbers *)
Definition unreadable (m : nat) (names row : list string) : Prop :=
  (exists s e, cell names row "pipeline" s /\ parse s = Err e) \/
  (exists s parts, cell names row "score" s /\ tuple_of s parts /\
     (length parts <> m \/ exists p e, In p parts /\ float_of p = Err e)).
End R.

(** texts without the characters that structure an INIT line *)
Definition plain (s : string) : Prop := ~ contains "(" s /\ ~ contains ")" s /\ ~ contains "," s /\ ~ contains "=" s.
(** an argument: plain text, or an object with hyperparameters, some of them set,
    such as "AsyncEA(population_size=50)" *)
Inductive argument := Text (name value : string) | Object (name cls : string) (h : list (string * option string)).
Definition arg_text (a : argument) : string * string :=
  match a with Text k v => (k, v) | Object k c h => (k, config_str c h) end.
(** its value, and for an object those of its hyperparameters that are set *)
Definition set_values (h : list (string * option string)) : list (string * string) :=
  flat_map (fun p => match snd p with Some v => [(fst p, v)] | None => [] end) h.
Definition arg_values (a : argument) : list (string * string) :=
  match a with Text k v => [(k, v)] | Object k c h => (k, c) :: set_values h end.
Definition plain_arg (a : argument) : Prop :=
  Forall (fun p => plain (fst p) /\ plain (snd p)) (arg_values a).

(** the messages among some events *)
Definition messages (es : list log_event) : list string :=
  concat (map (fun e => match e with Emit l => [l] | Create _ => [] end) es).
(** handlers others attached *)
Definition foreign (ops : list log_op) : list handler :=
  concat (map (fun o => match o with AddHandler h => [h] | Register _ _ => [] end) ops).
(** the last call that registered a console handler *)
Definition last_register (ops : list log_op) : option (nat * Z) :=
  fold_left (fun acc o => match o with Register n v => Some (n, v) | AddHandler _ => acc end) ops None.

(** A STOP line whose separators occur only where the format puts them: the
    fields have no blanks, the time stamp and logger name no " - ". *)
Definition stop_ok (stamp place ph algo dur : string) : Prop :=
  ~ contains " STOP: " ("[" ++ stamp ++ " - " ++ place ++ "] STOP:") /\
  ~ contains " STOP: " (ph ++ " " ++ algo ++ " after " ++ dur ++ "s." ++ nl) /\
  ~ contains " - " (stamp ++ " -") /\ ~ contains " - " place /\
  ~ contains " " ph /\ ~ contains " " algo /\ ~ contains " " dur.
(** A line of gama.log: a STOP line of an activity, or another line. *)
Inductive entry := Stop (stamp place ph algo dur : string) | Other (line : string).
Definition entry_line (e : entry) : string := match e with Stop t p n a d => stop_line t p n a d | Other l => l end.
Definition entry_ok (e : entry) : Prop :=
  ~ contains "INIT:" (entry_line e) /\
  match e with Stop t p n a d => stop_ok t p n a d | Other l => ~ contains "STOP:" l end.
Definition entry_phase (e : entry) : list phase := match e with Stop t _ n a d => [mkPhase n a t d] | Other _ => [] end.

(** stand-ins for float() and Individual.from_string, for the examples *)
Definition ex_float (s : string) : res string := if String.eqb s "" then Err ValueError else Ok s.
Definition ex_parse (s : string) : res string := if String.eqb s "?" then Err ValueError else Ok s.

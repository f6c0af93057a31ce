(** gama/logging: EvaluationLogger, GamaReport and register_stream_log, on file
    contents as text. *)
From Verif Require Import Base Gp_Model Str_Model Misc_Model.
Open Scope string_scope.
Open Scope list_scope.
Open Scope nat_scope.

Definition nl : string := String (Ascii.ascii_of_nat 10) "".

(** * EvaluationLogger *)

(** log_line, evaluation_logger.py:68-71: the new content of the file *)
Definition log_line (sep : string) (values : list string) (file : string) : string :=
  (file ++ join sep values ++ nl)%string.
(** What is logged of an evaluation (evaluation_logger.py:45-64), already
    formatted as text (lines 76-77) except for the tuple of scores;
    [ev_extra]: the extra fields of the search method. *)
Record evaluation := mkEv {
  ev_id : string; ev_pid : string; ev_start : string; ev_wall : string; ev_process : string;
  ev_scores : list string; ev_pipeline : string; ev_error : string; ev_extra : list string }.
(** [str] of a tuple *)
Definition tuple_str (l : list string) : string :=
  match l with
  | [x] => ("(" ++ x ++ ",)")%string
  | _ => ("(" ++ join ", " l ++ ")")%string
  end.
Definition ev_values (e : evaluation) : list string :=
  [ev_id e; ev_pid e; ev_start e; ev_wall e; ev_process e; tuple_str (ev_scores e); ev_pipeline e; ev_error e] ++ ev_extra e.
Definition header (extra : list string) : list string :=
  ["id"; "pid"; "t_start"; "t_wallclock"; "t_process"; "score"; "pipeline"; "error"] ++ extra.
(** __init__ writes the header, line 66; log_evaluation, lines 73-79 *)
Definition logger_init (extra : list string) (file : string) : string := log_line ";" (header extra) file.
Definition log_evaluation (e : evaluation) (file : string) : string := log_line ";" (ev_values e) file.

(** * GamaReport *)

(** The lines of a text; what follows the last newline is a line unless empty. *)
Definition lines (s : string) : list string :=
  let l := split nl s in if String.eqb (last l "") "" then removelast l else l.
(** pandas.read_csv(fh, sep=";", header=None, index_col=False) on the rest of
    the file: blank lines are skipped, EmptyDataError (OtherError 1) on nothing,
    ParserError (OtherError 2) on a line longer than the first, short lines are
    filled up.  Simplifications: fields stay text, and the csv quote character
    is not special. *)
Definition read_csv (s : string) : res (list (list string)) :=
  match filter (fun l => negb (String.eqb l "")) (lines s) with
  | [] => Err (OtherError 1)
  | l :: ls =>
    let n := length (split ";" l) in
    rmap (fun x => let f := split ";" x in
                   if length f <=? n then Ok (f ++ repeat "" (n - length f)) else Err (OtherError 2)) (l :: ls)
  end.
(** [df.name] for a row *)
Fixpoint cell_of (names row : list string) (name : string) : res string :=
  match names, row with
  | n :: names', x :: row' => if String.eqb n name then Ok x else cell_of names' row' name
  | _, _ => Err AttributeError
  end.
(** [s[1:-1]] *)
Definition chop1 (s : string) : string := substring 1 (String.length s - 2) s.
Section Report.
(** [float_of]: Python's float of a text; [parse]: Individual.from_string with
    the report's primitive set (modelled in Str_Model) *)
Context {num ind : Type} (float_of : string -> res num) (parse : string -> res ind).
(** tuple_to_metrics, GamaReport.py:88-89 *)
Definition tuple_to_metrics (s : string) : res (list num) := rmap float_of (split "," (chop1 s)).
(** A report: position in the file, evaluations (number, fields, metrics) and
    individuals by id. *)
Record report := mkRep { r_tell : nat; r_evals : list (nat * (list string * list num)); r_inds : list (string * ind) }.
Definition report0 : report := mkRep 0 [] [].
Fixpoint dict_set (k : string) (v : ind) (d : list (string * ind)) : list (string * ind) :=
  match d with
  | [] => [(k, v)]
  | (k', v') :: r => if String.eqb k k' then (k, v) :: r else (k', v') :: dict_set k v r
  end.
(** [fh.readline()[:-1]]: the first line; with its length including the newline *)
Definition first_line (s : string) : string := match split nl s with l :: _ => l | [] => "" end.
(** update, GamaReport.py:70-120, for [m] metrics (those of the report).
    Dates, durations, cumulative maxima and relative_end are not modelled, and a
    row whose number of scores is not [m] raises ValueError. *)
Definition update (m : nat) (incomplete force : bool) (file : string) (r : report) : res bool * report :=
  if negb force && negb incomplete then (Ok false, r)
  else
    let head := first_line file in
    let tell := Nat.max (r_tell r) (String.length head + 1) in
    match read_csv (drop tell file) with
    | Err (OtherError 1) => (Ok false, mkRep tell (r_evals r) (r_inds r))
    | Err e => (Err e, mkRep tell (r_evals r) (r_inds r))
    | Ok rows =>
      let r1 := mkRep (String.length file) (r_evals r) (r_inds r) in
      let names := split ";" head in
      if negb (forallb (fun row => length row =? length names) rows) then (Err ValueError, r1)
      else
        match rmap (fun row => do s <- cell_of names row "score"; do q <- tuple_to_metrics s;
                               if length q =? m then Ok q else Err ValueError) rows with
        | Err e => (Err e, r1)
        | Ok metrics =>
          match rmap (fun row => do i <- cell_of names row "id"; do p <- cell_of names row "pipeline";
                                 do x <- parse p; Ok (i, x)) rows with
          | Err e => (Err e, r1)
          | Ok inds =>
            let from := match r_evals r with [] => 0 | e => list_max (map fst e) + 1 end in
            (Ok true, mkRep (String.length file) (r_evals r ++ enum_from from (combine rows metrics))
                            (fold_left (fun d p => dict_set (fst p) (snd p) d) inds (r_inds r)))
          end
        end
    end.
End Report.
Arguments report : clear implicits.
Arguments mkRep {num ind}.
Arguments r_tell {num ind}.
Arguments r_evals {num ind}.
Arguments r_inds {num ind}.

(** * gama.log *)

(** str.replace *)
Definition replace (old new s : string) : string := join new (split old s).
(** [init_to_hps], GamaReport.py:130-136: after the first "(", before the last
    ")"; then the replacements; [dict] of pieces split at "=", ValueError unless
    each has two parts *)
Definition before_last (sep s : string) : string := join sep (match split sep s with [x] => [x] | l => removelast l end).
Definition after_paren (s : string) : string := match after_first "(" s with Some r => r | None => s end.
Definition init_to_hps (line : string) : res (list (string * string)) :=
  let args := before_last ")" (after_paren line) in
  let args := replace ",," "," (replace ")" "," (replace "(" "," (replace "()" "," args))) in
  rmap (fun hp => match split "=" hp with [k; v] => Ok (k, v) | _ => Err ValueError end) (split "," args).
(** dict lookup: the last value *)
Definition hp_get (h : list (string * string)) (k : string) : option string :=
  option_map snd (find (fun p => String.eqb k (fst p)) (rev h)).
(** __str__ of a search or post-processing method, base_search.py:24-35 and
    base_post_processing.py:30-41: class name and the hyperparameters the user set
    ([None]: not set), values already formatted as text *)
Definition config_str (cls : string) (h : list (string * option string)) : string :=
  (cls ++ "(" ++ join "," (flat_map (fun p => match snd p with Some v => [(fst p ++ "=" ++ v)%string] | None => [] end) h) ++ ")")%string.
(** The line gama.py:221-229 writes: class name and arguments as text, and the
    prefix of the logging format (gama.py:217) *)
Definition init_line (stamp cls : string) (arguments : list (string * string)) : string :=
  ("[" ++ stamp ++ " - gama.gama] INIT:" ++ cls ++ "(" ++ join "," (map (fun p => fst p ++ "=" ++ snd p)%string arguments) ++ ")" ++ nl)%string.
(** the STOP line of timekeeper.py:122 *)
Definition stop_line (stamp place phase algorithm duration : string) : string :=
  ("[" ++ stamp ++ " - " ++ place ++ "] STOP: " ++ phase ++ " " ++ algorithm ++ " after " ++ duration ++ "s." ++ nl)%string.
Record phase := mkPhase { ph_name : string; ph_algo : string; ph_end : string; ph_duration : string }.
(** [s[:-3]] *)
Definition chop3 (s : string) : string := substring 0 (String.length s - 3) s.
(** GamaReport.py:50-58.  Simplification: the time stamp and duration stay text. *)
Definition read_stop (line : string) : res phase :=
  match split " STOP: " line with
  | [tp; activity] =>
    match split " - " (chop1 tp) with
    | [stamp; _] => match split " " activity with
                    | [p; a; _; d] => Ok (mkPhase p a stamp (chop3 d))
                    | _ => Err ValueError
                    end
    | _ => Err ValueError
    end
  | _ => Err ValueError
  end.
Definition has (sub s : string) : bool := match after_first sub s with Some _ => true | None => false end.
(** GamaReport.py:43-58: hyperparameters and phases from the lines *)
Fixpoint read_log (ls : list string) (h : option (list (string * string))) (ph : list phase)
  : res (option (list (string * string)) * list phase) :=
  match ls with
  | [] => Ok (h, ph)
  | l :: ls' =>
    do h' <- (if has "INIT:" l then do x <- init_to_hps l; Ok (Some x) else Ok h);
    do ph' <- (if has "STOP:" l then do p <- read_stop l; Ok (ph ++ [p]) else Ok ph);
    read_log ls' h' ph'
  end.
(** GamaReport.py:60-64: metrics and [incomplete].  Any non-empty text of
    regularize_length is true. *)
Definition report_meta (ls : list string) : res (list string * bool * list phase) :=
  do p <- read_log ls None [];
  match fst p with
  | None => Err AttributeError
  | Some h =>
    match hp_get h "scoring", hp_get h "regularize_length" with
    | Some s, Some r => Ok (split "," s ++ (if String.eqb r "" then [] else ["length"]), length (snd p) <? 3, snd p)
    | _, _ => Err KeyError
    end
  end.

(** * register_stream_log *)

(** A handler of the "gama" logger. *)
Record handler := mkHandler { hd_id : nat; hd_tagged : bool; hd_stream : bool; hd_level : Z }.
(** utility_functions.py:7-26: removal when some handler is tagged, then a new
    tagged stream handler *)
Definition register_stream_log (new : nat) (verbosity : Z) (hs : list handler) : list handler :=
  (if existsb hd_tagged hs then filter (fun h => negb (hd_tagged h && hd_stream h)) hs else hs) ++
  [mkHandler new true true verbosity].
(** Constructing a Gama (gama.py:212-219) and handlers added by others *)
Inductive log_op := Register (new : nat) (verbosity : Z) | AddHandler (h : handler).
Definition log_step (hs : list handler) (o : log_op) : list handler :=
  match o with Register n v => register_stream_log n v hs | AddHandler h => hs ++ [h] end.

(** * Log files *)

(** The file handlers on the "gama" logger with what each has written; an
    instance that stores logs attaches one (gama.py:213-219) and nothing ever
    detaches it; a message goes to every handler.  Console output and levels are
    not modelled (the file handlers take everything, line 216). *)
Inductive log_event := Create (logfile : option string) | Emit (line : string).
Definition log_files := list (string * list string).
Definition files_step (fs : log_files) (e : log_event) : log_files :=
  match e with
  | Create (Some f) => fs ++ [(f, [])]
  | Create None => fs
  | Emit l => map (fun p => (fst p, snd p ++ [l])) fs
  end.
Definition files_run (es : list log_event) : log_files := fold_left files_step es [].

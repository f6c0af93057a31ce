(** EvaluationLogger as an object: its columns are a dictionary of functions that
    may be shared with the caller, and rows are made by calling them. *)
From Verif Require Import Base Gp_Model Str_Model Misc_Model Log_Model.
Open Scope string_scope.
Open Scope list_scope.
Open Scope nat_scope.

(** A Python object as far as the columns look at it: a datetime, a list, a
    dictionary, or anything else with its [str] and its attributes. *)
Inductive obj : Type :=
| Time (t : nat)
| PyList (items : list obj)
| PyDict (items : list (string * obj))
| Thing (str : string) (attrs : list (string * obj)).

Fixpoint lookup {A} (k : string) (l : list (string * A)) : option A :=
  match l with
  | [] => None
  | (k', v) :: l' => if String.eqb k' k then Some v else lookup k l'
  end.

(** [getattr(o, a)].  Simplification: the methods of lists, dictionaries and
    datetimes are not attributes here. *)
Definition getattr (o : obj) (a : string) : res obj :=
  match o with
  | Thing _ attrs => match lookup a attrs with Some v => Ok v | None => Err AttributeError end
  | _ => Err AttributeError
  end.
(** _nested_getattr, evaluation_logger.py:10-14 *)
Fixpoint getattrs (o : obj) (path : list string) : res obj :=
  match path with
  | [] => Ok o
  | a :: path' => do v <- getattr o a; getattrs v path'
  end.
Definition nested_getattr (o : obj) (attr : string) : res obj := getattrs o (split "." attr).

Definition getter : Type := obj -> res obj.
(** a dictionary of columns, in insertion order *)
Definition dict : Type := list (string * getter).
(** [d[k] = v]: in place when the key exists, otherwise at the end *)
Fixpoint dict_set (k : string) (v : getter) (d : dict) : dict :=
  match d with
  | [] => [(k, v)]
  | (k', w) :: d' => if String.eqb k' k then (k', v) :: d' else (k', w) :: dict_set k v d'
  end.
(** [d.update(e)] *)
Definition dict_update (d e : dict) : dict := fold_left (fun acc kv => dict_set (fst kv) (snd kv) acc) e d.

Section Logger.
(** strftime with TIME_FORMAT; [str] of lists and dictionaries; what calling the
    bound method pipeline_str gives. *)
Context (strftime : nat -> string) (str_of : obj -> string) (call : obj -> res obj).

(** The default columns, evaluation_logger.py:45-59.  operator.attrgetter of a
    name without dots is getattr. *)
Definition default_fields : dict :=
  [("id", fun e => nested_getattr e "individual._id");
   ("pid", fun e => getattr e "pid");
   ("t_start", fun e => nested_getattr e "individual.fitness.start_time");
   ("t_wallclock", fun e => nested_getattr e "individual.fitness.wallclock_time");
   ("t_process", fun e => nested_getattr e "individual.fitness.process_time");
   ("score", fun e => nested_getattr e "individual.fitness.values");
   ("pipeline", fun e => do i <- getattr e "individual"; do f <- getattr i "pipeline_str"; call f);
   ("error", fun e => getattr e "error")].

(** [e.individual.meta.get(key, default)] *)
Definition meta_get (key : string) (default : obj) (e : obj) : res obj :=
  do i <- getattr e "individual"; do m <- getattr i "meta";
  match m with
  | PyDict items => Ok (match lookup key items with Some v => v | None => default end)
  | _ => Err AttributeError
  end.
(** get_parent, async_ea.py:47-51; [len] of something that is no list is a
    TypeError. *)
Definition get_parent (n : nat) (e : obj) : res obj :=
  do ps <- meta_get "parents" (PyList []) e;
  match ps with
  | PyList items => Ok (nth n items (Thing "" []))
  | _ => Err TypeError
  end.
(** The extra columns of AsyncEA (async_ea.py:53-60) and of ASHA (asha.py:56-62). *)
Definition async_ea_fields : dict :=
  [("parent0", get_parent 0); ("parent1", get_parent 1); ("origin", meta_get "origin" (Thing "unknown" []))].
Definition asha_fields : dict :=
  [("rung", meta_get "rung" (Thing "unknown" [])); ("subsample", meta_get "subsample" (Thing "unknown" []))].

(** What an OperatorSet writes into the meta dictionary of an individual it makes
    (operator_set.py:60-86; Individual.__init__, individual.py:28, for one made by
    nobody, e.g. read from a text). *)
Definition meta_read : obj := PyDict [].
Definition meta_new : obj := PyDict [("origin", Thing "new" [])].
Definition meta_mutate (parent : obj) (mutator_name : string) : obj :=
  PyDict [("parents", PyList [parent]); ("origin", Thing mutator_name [])].
Definition meta_mate (parent0 parent1 : obj) : obj :=
  PyDict [("parents", PyList [parent0; parent1]); ("origin", Thing "cx" [])].
(** asha.py:212-213, kwargs.get gives None without the key *)
Fixpoint meta_set (k : string) (v : obj) (l : list (string * obj)) : list (string * obj) :=
  match l with
  | [] => [(k, v)]
  | (k', w) :: l' => if String.eqb k' k then (k', v) :: l' else (k', w) :: meta_set k v l'
  end.
Definition meta_asha (rung : obj) (subsample : option obj) (meta : obj) : obj :=
  match meta with
  | PyDict items =>
    PyDict (meta_set "subsample" (match subsample with Some s => s | None => Thing "None" [] end)
             (meta_set "rung" rung items))
  | _ => meta
  end.

(** The logger object: file, separator, and which dictionary object it uses. *)
Record logger := mkLogger { l_path : string; l_sep : string; l_fields : nat }.
(** Files by path (append mode creates a missing file), dictionary objects by
    number, loggers by number. *)
Record world := mkWorld { w_files : string -> string; w_dicts : list dict; w_loggers : list logger }.

Definition write_file (path content : string) (fs : string -> string) : string -> string :=
  fun q => if String.eqb q path then content else fs q.

(** EvaluationLogger.__init__, evaluation_logger.py:18-66.  [fields] and
    [extra]: the dictionary objects given, if any. *)
Definition new_logger (path sep : string) (fields extra : option nat) (w : world) : world :=
  let '(d, dicts) :=
    match fields with
    | None => (length (w_dicts w), w_dicts w ++ [default_fields])
    | Some d => (d, w_dicts w)
    end in
  let dicts' :=
    match extra with
    | None => dicts
    | Some x => set_nth d (dict_update (nth d dicts []) (nth x dicts [])) dicts
    end in
  mkWorld (write_file path (log_line sep (map fst (nth d dicts' [])) (w_files w path)) (w_files w))
          dicts' (w_loggers w ++ [mkLogger path sep d]).

(** format_value, evaluation_logger.py:76-77 *)
Definition format_cell (v : obj) : string :=
  match v with
  | Time t => strftime t
  | Thing s _ => s
  | _ => str_of v
  end.
(** log_evaluation, evaluation_logger.py:73-79 *)
Definition log_evaluation_of (l : logger) (e : obj) (w : world) : res unit * world :=
  match rmap (fun kv => snd kv e) (nth (l_fields l) (w_dicts w) []) with
  | Err x => (Err x, w)
  | Ok vs =>
    (Ok tt, mkWorld (write_file (l_path l) (log_line (l_sep l) (map format_cell vs) (w_files w (l_path l))) (w_files w))
                    (w_dicts w) (w_loggers w))
  end.

(** What a program does with loggers: make a dictionary of its own, make a logger,
    log an evaluation with logger number [i]. *)
Inductive call_ := NewDict (d : dict) | NewLogger (path sep : string) (fields extra : option nat) | LogEval (i : nat) (e : obj).
Definition do_call (w : world) (c : call_) : world :=
  match c with
  | NewDict d => mkWorld (w_files w) (w_dicts w ++ [d]) (w_loggers w)
  | NewLogger p s f x => new_logger p s f x w
  | LogEval i e => match nth_error (w_loggers w) i with Some l => snd (log_evaluation_of l e w) | None => w end
  end.
Definition do_calls (w : world) (cs : list call_) : world := fold_left do_call cs w.
End Logger.

(** Property theorems; proofs in Elog_Main.v. *)
From Verif Require Import Base Str_Spec Misc_Model Log_Model Log_Spec Elog_Model Elog_Spec.
Open Scope string_scope.
Open Scope list_scope.
Open Scope nat_scope.
From Verif Require Import Elog_Main.

(** C136.  Whatever a program does afterwards - log evaluations with this or with
    other loggers, make loggers for other files - as long as nobody adds columns to
    the dictionary this logger uses, its file consists of what was there, the names
    of its columns, and one complete row for every evaluation that has a value for
    every column; an evaluation without one adds nothing. *)
Theorem C136_table_partial :
  forall strftime str_of call w path sep fields extra cs d cols,
    (forall l, In l (w_loggers w) -> l_path l <> path) ->
    (forall k, fields = Some k -> k < length (w_dicts w)) ->
    let w1 := new_logger call path sep fields extra w in
    let i := length (w_loggers w) in
    nth_error (w_loggers w1) i = Some (mkLogger path sep d) -> nth_error (w_dicts w1) d = Some cols ->
    Forall (leaves_alone path d) cs ->
    exists rows,
      rows_logged strftime str_of i cols cs rows /\
      Forall (fun row => length row = length cols) rows /\
      w_files (do_calls strftime str_of call w1 cs) path =
        (w_files w path ++ line sep (map fst cols) ++ table_text sep rows)%string.
Proof. exact C136_table_partial_main. Qed.
Print Assumptions C136_table_partial.

Theorem C136_shared_refuted :
  exists strftime str_of call cs,
    let w := do_calls strftime str_of call ex_world cs in
    w_files w "first.log" = (line ";" ["id"] ++ line ";" ["7"; "0.5"])%string /\
    cs = [NewLogger "first.log" ";" (Some 0) None; NewLogger "second.log" ";" (Some 0) (Some 1); LogEval 0 ex_evaluation].
Proof. exact C136_shared_refuted_main. Qed.
Print Assumptions C136_shared_refuted.

(** A column without a value: the exception of the first such column comes out,
    and no file, dictionary or logger has changed. *)
Theorem C136_no_value :
  forall strftime str_of l w before name g after e x,
    nth_error (w_dicts w) (l_fields l) = Some (before ++ (name, g) :: after) ->
    Forall (fun col : string * getter => exists v, snd col e = Ok v) before -> g e = Err x ->
    log_evaluation_of strftime str_of l e w = (Err x, w).
Proof. exact C136_no_value_main. Qed.
Print Assumptions C136_no_value.

Example C136_ex :
  leaves_alone "first.log" 0 (NewLogger "second.log" ";" None (Some 1)) /\
  w_files (do_calls (fun _ => "") (fun _ => "") (fun o => Ok o) ex_world
    [NewLogger "first.log" ";" (Some 0) (Some 1); NewLogger "second.log" ";" None (Some 1);
     LogEval 0 ex_evaluation; LogEval 1 ex_evaluation; LogEval 0 (Thing "e" [])]) "first.log"
  = (line ";" ["id"; "score"] ++ line ";" ["7"; "0.5"])%string /\
  fst (log_evaluation_of (fun _ => "") (fun _ => "") (mkLogger "f" ";" 1) (Thing "e" []) ex_world) = Err AttributeError.
Proof. exact C136_ex_main. Qed.

(** C137.  The columns of a new logger: those of the given dictionary (or the
    default ones), in their order, then the new ones among the extra columns; an
    extra column of the same name replaces the old one where it stands. *)
Theorem C137_columns :
  forall call w path sep fields extra base more,
    match fields with None => base = default_fields call | Some k => nth_error (w_dicts w) k = Some base end ->
    match extra with None => more = [] | Some x => nth_error (w_dicts w) x = Some more end ->
    NoDup (map fst more) ->
    let w1 := new_logger call path sep fields extra w in
    exists d cols,
      nth_error (w_loggers w1) (length (w_loggers w)) = Some (mkLogger path sep d) /\
      nth_error (w_dicts w1) d = Some cols /\
      (exists new, map fst cols = map fst base ++ new /\
         (forall name, In name new <-> In name (map fst more) /\ ~ In name (map fst base)) /\
         new = filter (fun name => negb (existsb (String.eqb name) (map fst base))) (map fst more)) /\
      (forall name g, lookup name more = Some g -> lookup name cols = Some g) /\
      (forall name, ~ In name (map fst more) -> lookup name cols = lookup name base) /\
      w_files w1 path = (w_files w path ++ line sep (map fst cols))%string /\
      (forall q, q <> path -> w_files w1 q = w_files w q).
Proof. exact C137_columns_main. Qed.
Print Assumptions C137_columns.

(** The default columns, by name, and what each one shows. *)
Theorem C137_default :
  forall strftime str_of call l w e s attrs si iattrs sf fattrs id pid start wall process scores bound text error,
    nth_error (w_dicts w) (l_fields l) = Some (default_fields call) ->
    e = Thing s attrs -> lookup "individual" attrs = Some (Thing si iattrs) ->
    lookup "pid" attrs = Some pid -> lookup "error" attrs = Some error ->
    lookup "_id" iattrs = Some id -> lookup "fitness" iattrs = Some (Thing sf fattrs) ->
    lookup "pipeline_str" iattrs = Some bound -> call bound = Ok (Thing text []) ->
    lookup "start_time" fattrs = Some (Time start) -> lookup "wallclock_time" fattrs = Some wall ->
    lookup "process_time" fattrs = Some process -> lookup "values" fattrs = Some scores ->
    map fst (default_fields call) = column_names /\
    exists w' row,
      log_evaluation_of strftime str_of l e w = (Ok tt, w') /\
      w_files w' (l_path l) = (w_files w (l_path l) ++ line (l_sep l) row)%string /\
      Forall2 (shown strftime str_of) [id; pid; Time start; wall; process; scores; Thing text []; error] row.
Proof. exact C137_default_main. Qed.
Print Assumptions C137_default.

(** Dotted names: a value is found exactly by following the attributes one by one;
    everything else is an AttributeError. *)
Theorem C137_nested :
  forall o path, path <> [] -> Forall (fun a => ~ contains "." a) path ->
    (forall v, nested_getattr o (join "." path) = Ok v <-> reaches o path v) /\
    (forall x, nested_getattr o (join "." path) = Err x -> x = AttributeError).
Proof. exact C137_nested_main. Qed.
Print Assumptions C137_nested.

(** C137 is false in one respect: making a logger changes the dictionary the
    caller gave, so that using it again gives a logger with the extra columns. *)
Theorem C137_callers_dictionary_refuted :
  exists call w, exists k base base',
    nth_error (w_dicts w) k = Some base /\
    nth_error (w_dicts (new_logger call "a.log" ";" (Some k) (Some 1) w)) k = Some base' /\
    map fst base = ["id"] /\ map fst base' = ["id"; "score"] /\
    w_files (new_logger call "b.log" ";" (Some k) None (new_logger call "a.log" ";" (Some k) (Some 1) w)) "b.log" =
      line ";" ["id"; "score"].
Proof. exact C137_callers_dictionary_refuted_main. Qed.
Print Assumptions C137_callers_dictionary_refuted.

(** Every other dictionary, and this one too without extra columns, is left as it
    was. *)
Theorem C137_dictionaries_partial :
  forall call w path sep fields extra k d,
    nth_error (w_dicts w) k = Some d -> fields <> Some k \/ extra = None ->
    nth_error (w_dicts (new_logger call path sep fields extra w)) k = Some d.
Proof. exact C137_dictionaries_partial_main. Qed.
Print Assumptions C137_dictionaries_partial.

Example C137_ex :
  map fst (dict_update (default_fields (fun o => Ok o)) async_ea_fields) =
    column_names ++ ["parent0"; "parent1"; "origin"] /\
  map fst (dict_update [("a", fun e => Ok e); ("b", fun e => Ok e)] [("c", fun e => Ok e); ("a", fun e => Ok e)]) = ["a"; "b"; "c"] /\
  nested_getattr (Thing "" [("individual", Thing "" [("_id", Thing "9" [])])]) "individual._id" = Ok (Thing "9" []) /\
  nested_getattr (Thing "" [("individual", Thing "" [])]) "individual._id" = Err AttributeError.
Proof. exact C137_ex_main. Qed.

(** C138.  In the log of an evolutionary search the row of a pipeline tells where
    it came from: for one made by mutation its parent and the mutation, for one
    made by crossover both parents, for one made at random that it is new. *)
Theorem C138_provenance :
  forall strftime str_of call e s attrs si iattrs b cols row,
    e = Thing s attrs -> lookup "individual" attrs = Some (Thing si iattrs) ->
    lookup "meta" iattrs = Some (meta_of b) ->
    cols = dict_update (default_fields call) async_ea_fields ->
    row_for strftime str_of cols e row ->
    exists parent0 parent1 origin,
      cell (map fst cols) row "parent0" parent0 /\ cell (map fst cols) row "parent1" parent1 /\
      cell (map fst cols) row "origin" origin /\
      match b with
      | Read => parent0 = "" /\ parent1 = "" /\ origin = "unknown"
      | Random => parent0 = "" /\ parent1 = "" /\ origin = "new"
      | Mutant p m => shown strftime str_of p parent0 /\ parent1 = "" /\ origin = m
      | Child p q => shown strftime str_of p parent0 /\ shown strftime str_of q parent1 /\ origin = "cx"
      end.
Proof. exact C138_provenance_main. Qed.
Print Assumptions C138_provenance.

(** In the log of an ASHA search it tells the rung and the subsample. *)
Theorem C138_asha :
  forall strftime str_of call e s attrs si iattrs before rung subsample cols row,
    e = Thing s attrs -> lookup "individual" attrs = Some (Thing si iattrs) ->
    lookup "meta" iattrs = Some (meta_asha rung subsample (PyDict before)) ->
    cols = dict_update (default_fields call) asha_fields ->
    row_for strftime str_of cols e row ->
    exists r n,
      cell (map fst cols) row "rung" r /\ cell (map fst cols) row "subsample" n /\
      shown strftime str_of rung r /\
      match subsample with Some v => shown strftime str_of v n | None => n = "None" end.
Proof. exact C138_asha_main. Qed.
Print Assumptions C138_asha.

Example C138_ex :
  fst (log_evaluation_of (fun _ => "now") (fun _ => "") (mkLogger "f" ";" 0) (ex_row (meta_of (Child (Thing "3" []) (Thing "4" []))))
    (mkWorld (fun _ => "") [dict_update (default_fields (fun o => Ok o)) async_ea_fields] [])) = Ok tt /\
  w_files (snd (log_evaluation_of (fun _ => "now") (fun _ => "") (mkLogger "f" ";" 0) (ex_row (meta_of (Child (Thing "3" []) (Thing "4" []))))
    (mkWorld (fun _ => "") [dict_update (default_fields (fun o => Ok o)) async_ea_fields] []))) "f"
  = line ";" ["9"; "1"; "now"; "0.1"; "0.2"; "(0.5,)"; "f"; "None"; "3"; "4"; "cx"].
Proof. exact C138_ex_main. Qed.

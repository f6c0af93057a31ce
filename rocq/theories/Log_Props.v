(** Property theorems; proofs in Log_Main.v. *)
From Verif Require Import Base Gp_Model Str_Model Str_Spec Misc_Model Log_Model Log_Spec.
Require Import Ascii.
Open Scope string_scope.
Open Scope list_scope.
Open Scope nat_scope.
From Verif Require Import Log_Main.

(** C80: one line per logged evaluation, after the header; split at the
    separator each is the list of logged values, if no value contains the
    separator or a newline. *)
Theorem C80_read_back : forall extra es,
  Forall (clean ";") extra -> Forall (fun e => Forall (clean ";") (row_of e)) es ->
  let file := fold_left (fun f e => log_evaluation e f) es (logger_init extra "") in
  read_back ";" file = (column_names ++ extra) :: map row_of es /\ length (lines file) = 1 + length es.
Proof. exact C80_read_back_main. Qed.
Print Assumptions C80_read_back.

(** For any separating character and any values, this condition is also
    necessary. *)
Theorem C80_exactly : forall c rows, c <> ascii_of_nat 10 -> Forall (fun r => r <> []) rows ->
  (read_back (String c "") (logged (String c "") rows) = rows <-> Forall (Forall (clean (String c ""))) rows).
Proof. exact C80_exactly_main. Qed.
Print Assumptions C80_exactly.

Example C80_ex : exists e, map fst (columns e) = column_names /\ Forall (clean ";") (row_of e) /\
  read_back ";" (fold_left (fun f e => log_evaluation e f) [e; e] (logger_init ["rung"] "")) =
  [["id"; "pid"; "t_start"; "t_wallclock"; "t_process"; "score"; "pipeline"; "error"; "rung"];
   ["7"; "12"; "2020-01-01"; "0.1"; "0.1"; "(0.5, -2)"; "A(data, A.x=1)"; "None"; "1"];
   ["7"; "12"; "2020-01-01"; "0.1"; "0.1"; "(0.5, -2)"; "A(data, A.x=1)"; "None"; "1"]].
Proof. exact C80_ex_main. Qed.

(** C81 fails: an error message with a semicolon or a line break makes the log
    unreadable, whatever else was logged. *)
Theorem C81_error_messages_refuted : forall extra es e es',
  contains ";" (ev_error e) \/ contains nl (ev_error e) ->
  read_back ";" (fold_left (fun f e => log_evaluation e f) (es ++ e :: es') (logger_init extra "")) <> (column_names ++ extra) :: map row_of (es ++ e :: es').
Proof. exact C81_error_messages_refuted_main. Qed.
Print Assumptions C81_error_messages_refuted.

(** What holds: with messages free of both, C80. *)
Theorem C81_error_messages_partial : forall extra es,
  Forall (clean ";") extra ->
  Forall (fun e => clean ";" (ev_error e) /\
    Forall (clean ";") ([ev_id e; ev_pid e; ev_start e; ev_wall e; ev_process e; scores_text (ev_scores e); ev_pipeline e] ++ ev_extra e)) es ->
  read_back ";" (fold_left (fun f e => log_evaluation e f) es (logger_init extra "")) = (column_names ++ extra) :: map row_of es.
Proof. exact C81_error_messages_partial_main. Qed.
Print Assumptions C81_error_messages_partial.

Example C81_ex :
  let e := mkEv "7" "12" "t" "0.1" "0.1" ["-inf"] "A(data)" "bad value; retry" [] in
  contains ";" (ev_error e) /\ length (nth 1 (read_back ";" (log_evaluation e (logger_init [] ""))) []) = 9.
Proof. exact C81_ex_main. Qed.

(** C82: after any interleaving of complete writes and updates that ends with an
    update, the report holds every written row exactly once, in order, numbered
    from 0, with its metrics; for an id, its individual is that of the last row
    with the id. *)
Theorem C82_every_row_once_partial : forall num ind (float_of : string -> res num) (parse : string -> res ind) m names ops f,
  Forall (clean ";") names -> 2 <= length names -> Forall (readable float_of parse m names) (writes ops) ->
  let r := snd (run_ops float_of parse m names (ops ++ [OUpdate f])) in
  map fst (r_evals r) = seq 0 (length (writes ops)) /\
  map (fun e => fst (snd e)) (r_evals r) = writes ops /\
  Forall (fun e => row_metrics float_of m names (fst (snd e)) (snd (snd e))) (r_evals r) /\
  exists ps, Forall2 (row_ind parse names) (writes ops) ps /\
    forall k, option_map snd (find (fun p => String.eqb k (fst p)) (r_inds r)) = option_map snd (find (fun p => String.eqb k (fst p)) (rev ps)).
Proof. exact C82_every_row_once_partial_main. Qed.
Print Assumptions C82_every_row_once_partial.

(** Updating again without new lines changes nothing, and a finished log is not
    read again unless forced. *)
Theorem C82_finished : forall num ind (float_of : string -> res num) (parse : string -> res ind) m file r,
  update float_of parse m false false file r = (Ok false, r).
Proof. exact C82_finished_main. Qed.
Print Assumptions C82_finished.

(** A forced update reads the log, finished or not, like any other update of an
    unfinished one. *)
Theorem C82_forced : forall num ind (float_of : string -> res num) (parse : string -> res ind) m incomplete force file r,
  update float_of parse m incomplete true file r = update float_of parse m true force file r.
Proof. exact C82_forced_main. Qed.
Print Assumptions C82_forced.

(** It fails when a row cannot be read: the update raises, and the rows it had
    before it, readable ones included, are skipped by all later updates. *)
Theorem C82_failed_update_refuted : forall num ind (float_of : string -> res num) (parse : string -> res ind) m names bad good f g,
  Forall (clean ";") names -> 2 <= length names -> bad <> [] -> good <> [] ->
  Forall (fun r => Forall (clean ";") r /\ length r = length names) bad ->
  (exists row, In row bad /\ unreadable float_of parse m names row) ->
  Forall (readable float_of parse m names) good ->
  map (fun e => fst (snd e)) (r_evals (snd (run_ops float_of parse m names (map OWrite bad ++ [OUpdate f] ++ map OWrite good ++ [OUpdate g])))) = good.
Proof. exact C82_failed_update_refuted_main. Qed.
Print Assumptions C82_failed_update_refuted.

(** A log whose rows have not as many values as its header, or of which some row has
    more values than the first, is refused, with ValueError and pandas' ParserError
    ([OtherError 2]); the report stays empty. *)
Theorem C82_ragged : forall num ind (float_of : string -> res num) (parse : string -> res ind) m names row rows force,
  Forall (clean ";") names -> 2 <= length names -> Forall (fun r => Forall (clean ";") r /\ 2 <= length r) (row :: rows) ->
  let x := update float_of parse m true force (logged ";" (names :: row :: rows)) report0 in
  ((exists r, In r rows /\ length row < length r) -> fst x = Err (OtherError 2) /\ r_evals (snd x) = []) /\
  ((forall r, In r rows -> length r <= length row) -> length row <> length names -> fst x = Err ValueError /\ r_evals (snd x) = []).
Proof. exact C82_ragged_main. Qed.
Print Assumptions C82_ragged.

(** A log without the column "score", or without "id" or "pipeline" if the scores can be
    read, is refused with AttributeError. *)
Theorem C82_no_column : forall num ind (float_of : string -> res num) (parse : string -> res ind) m names row rows force,
  Forall (clean ";") names -> 2 <= length names -> Forall (fun r => Forall (clean ";") r /\ length r = length names) (row :: rows) ->
  ~ In "score" names \/ (Forall (fun r => exists q, row_metrics float_of m names r q) (row :: rows) /\ (~ In "id" names \/ (In "id" names /\ ~ In "pipeline" names))) ->
  fst (update float_of parse m true force (logged ";" (names :: row :: rows)) report0) = Err AttributeError.
Proof. exact C82_no_column_main. Qed.
Print Assumptions C82_no_column.

Example C82_ragged_ex :
  let names := ["id"; "score"; "pipeline"] in let a := ["1"; "(0.5, -2)"; "A"] in let b := ["2"; "(0.5, -2)"] in
  Forall (fun r => Forall (clean ";") r /\ 2 <= length r) [a; b; b ++ ["x"; "y"]] /\
  fst (update ex_float ex_parse 2 true true (logged ";" [names; b; a]) report0) = Err (OtherError 2) /\
  fst (update ex_float ex_parse 2 true true (logged ";" [names; b; b]) report0) = Err ValueError /\
  fst (update ex_float ex_parse 2 true true (logged ";" [["id"; "score"; "individual"]; a; a]) report0) = Err AttributeError.
Proof. exact C82_ragged_ex_main. Qed.

Example C82_ex :
  let names := ["id"; "score"; "pipeline"] in
  let a := ["1"; "(0.5, -2)"; "A"] in let b := ["2"; "(0.25, -1)"; "B"] in let bad := ["3"; "(0, 0)"; "?"] in
  Forall (clean ";") names /\ readable ex_float ex_parse 2 names a /\ readable ex_float ex_parse 2 names b /\
  (clean ";" "?" /\ unreadable ex_float ex_parse 2 names bad) /\
  r_evals (snd (run_ops ex_float ex_parse 2 names [OWrite a; OUpdate true; OUpdate false; OWrite b; OWrite a; OUpdate false])) =
    [(0, (a, ["0.5"; " -2"])); (1, (b, ["0.25"; " -1"])); (2, (a, ["0.5"; " -2"]))] /\
  map (fun e => fst (snd e)) (r_evals (snd (run_ops ex_float ex_parse 2 names [OWrite a; OWrite bad; OUpdate true; OWrite b; OUpdate false]))) = [b].
Proof. exact C82_ex_main. Qed.

(** C83: an INIT line whose arguments are plain texts, or objects with any
    hyperparameters that have plain texts as values (the last one not an object),
    gives the names and values, those of the hyperparameters that are set included. *)
Theorem C83_init_line_partial : forall stamp cls args name value,
  ~ contains "(" stamp -> ~ contains "(" cls -> Forall plain_arg (args ++ [Text name value]) ->
  init_to_hps (init_line stamp cls (map arg_text (args ++ [Text name value]))) = Ok (flat_map arg_values (args ++ [Text name value])).
Proof. exact C83_init_line_partial_main. Qed.
Print Assumptions C83_init_line_partial.

(** The lines this version writes contain the text of the search space: as soon
    as that has, between two commas, some text without parentheses or "=", the
    line is refused with a ValueError. *)
Theorem C83_search_space_refuted : forall stamp cls before between after others,
  ~ contains "(" stamp -> ~ contains "(" cls -> plain between -> between <> "" ->
  init_to_hps (init_line stamp cls (("search_space", before ++ "," ++ between ++ "," ++ after)%string :: others)) = Err ValueError.
Proof. exact C83_search_space_refuted_main. Qed.
Print Assumptions C83_search_space_refuted.

Example C83_ex :
  let args := [Text "scoring" "neg_log_loss"; Object "search" "AsyncEA" [("population_size", Some "50"); ("max_n_evaluations", None)]; Object "post_processing" "BestFitPostProcessing" [("time_fraction", None)]; Text "store" "all"] in
  Forall plain_arg args /\
  init_to_hps (init_line "2020-01-01 12:00:00,000" "GamaClassifier" (map arg_text args)) =
    Ok [("scoring", "neg_log_loss"); ("search", "AsyncEA"); ("population_size", "50"); ("post_processing", "BestFitPostProcessing"); ("store", "all")] /\
  init_to_hps (init_line "2020-01-01 12:00:00,000" "GamaClassifier" [("search_space", "{BernoulliNB: {'alpha': [0.1, 1, 10], 'fit_prior': [True, False]}}"); ("scoring", "neg_log_loss")]) = Err ValueError /\
  plain " 1".
Proof. exact C83_ex_main. Qed.

(** C84: after any number of registrations and additions of handlers without a
    [tag], the only tagged handler is a console handler with the last verbosity,
    and the others are all still there, in order. *)
Theorem C84_one_console_handler_partial : forall hs0 ops n v,
  Forall (fun h => hd_tagged h = false) (hs0 ++ foreign ops) -> last_register ops = Some (n, v) ->
  let hs := fold_left log_step ops hs0 in
  filter hd_tagged hs = [mkHandler n true true v] /\ filter (fun h => negb (hd_tagged h)) hs = hs0 ++ foreign ops.
Proof. exact C84_one_console_handler_partial_main. Qed.
Print Assumptions C84_one_console_handler_partial.

(** It fails for a stream handler of the user that happens to have a [tag]. *)
Theorem C84_tagged_handler_refuted : forall hs n v,
  existsb (fun h => hd_tagged h && hd_stream h) hs = true ->
  exists h, In h hs /\ ~ In h (removelast (register_stream_log n v hs)).
Proof. exact C84_tagged_handler_refuted_main. Qed.
Print Assumptions C84_tagged_handler_refuted.

Example C84_ex :
  fold_left log_step [Register 1 20; AddHandler (mkHandler 2 false false 10); Register 3 30; AddHandler (mkHandler 4 false true 0); Register 5 40]%Z [mkHandler 0 false true 50] =
  [mkHandler 0 false true 50; mkHandler 2 false false 10; mkHandler 4 false true 0; mkHandler 5 true true 40].
Proof. exact C84_ex_main. Qed.

(** C98: with two or more scores per evaluation the metrics are the logged
    scores, in order. *)
Theorem C98_scores_partial : forall num (float_of : string -> res num) x y l qs,
  Forall (fun s => ~ contains "," s) (x :: y :: l) ->
  Forall2 (fun s q => float_of s = Ok q) (x :: map (append " ") (y :: l)) qs ->
  tuple_to_metrics float_of (tuple_str (x :: y :: l)) = Ok qs.
Proof. exact C98_scores_partial_main. Qed.
Print Assumptions C98_scores_partial.

(** With one score (regularize_length=False and one metric) the row cannot be
    read, and no report can be made of the log: Python writes "(0.5,)". *)
Theorem C98_one_score_refuted : forall num ind (float_of : string -> res num) (parse : string -> res ind) m names rows row x,
  float_of "" = Err ValueError -> ~ contains "," x ->
  Forall (clean ";") names -> 2 <= length names -> Forall (fun r => Forall (clean ";") r /\ length r = length names) rows ->
  In row rows -> cell names row "score" ("(" ++ x ++ ",)") ->
  exists e, fst (update float_of parse m true true (logged ";" (names :: rows)) report0) = Err e.
Proof. exact C98_one_score_refuted_main. Qed.
Print Assumptions C98_one_score_refuted.

(** And regularize_length=False is not recognized: "length" is always a metric. *)
Theorem C98_regularize_length_refuted : forall ls h ph scoring regularize,
  read_log ls None [] = Ok (Some h, ph) -> NoDup (map fst h) -> In ("scoring", scoring) h -> In ("regularize_length", regularize) h -> regularize <> "" ->
  exists incomplete, report_meta ls = Ok (split "," scoring ++ ["length"], incomplete, ph).
Proof. exact C98_regularize_length_refuted_main. Qed.
Print Assumptions C98_regularize_length_refuted.

Example C98_ex :
  tuple_to_metrics ex_float (tuple_str ["0.5"; "-2"]) = Ok ["0.5"; " -2"] /\ tuple_str ["0.5"] = "(0.5,)" /\ tuple_to_metrics ex_float (tuple_str ["0.5"]) = Err ValueError.
Proof. exact C98_ex_main. Qed.

(** C99: the phases of a report are the finished activities of the log, in order,
    with their names, algorithms and durations; it is incomplete exactly if fewer
    than three activities finished. *)
Theorem C99_phases : forall init h scoring regularize es,
  init_to_hps init = Ok h -> contains "INIT:" init -> ~ contains "STOP:" init ->
  NoDup (map fst h) -> In ("scoring", scoring) h -> In ("regularize_length", regularize) h -> regularize <> "" ->
  Forall entry_ok es ->
  report_meta (init :: map entry_line es) =
    Ok (split "," scoring ++ ["length"], length (concat (map entry_phase es)) <? 3, concat (map entry_phase es)).
Proof. exact C99_phases_main. Qed.
Print Assumptions C99_phases.

(** Logs no report can be made of: one without INIT line raises AttributeError, one
    whose INIT line does not have "scoring" and "regularize_length" KeyError, and one
    with "STOP:" in a line that is no STOP line (no space before or after, say)
    ValueError. *)
Theorem C99_refused : forall init h es line,
  init_to_hps init = Ok h -> contains "INIT:" init -> ~ contains "STOP:" init -> Forall entry_ok es ->
  report_meta (map entry_line es) = Err AttributeError /\
  (~ In "scoring" (map fst h) \/ ~ In "regularize_length" (map fst h) -> report_meta (init :: map entry_line es) = Err KeyError) /\
  (contains "STOP:" line -> ~ contains " STOP: " line -> ~ contains "INIT:" line ->
   report_meta (init :: map entry_line es ++ [line]) = Err ValueError).
Proof. exact C99_refused_main. Qed.
Print Assumptions C99_refused.

Example C99_refused_ex :
  contains "STOP:" "x] STOP:search" /\ ~ contains " STOP: " "x] STOP:search" /\
  report_meta [init_line "t" "GamaClassifier" [("store", "all")]] = Err KeyError.
Proof. exact C99_refused_ex_main. Qed.

Example C99_ex :
  let stop := Stop "2020-01-01 12:00:00,000" "gama.utilities.generic.timekeeper" "search" "AsyncEA" "3.1415" in
  entry_ok stop /\ entry_phase stop = [mkPhase "search" "AsyncEA" "2020-01-01 12:00:00,000" "3.1415"] /\
  report_meta [init_line "t" "GamaClassifier" [("scoring", "neg_log_loss"); ("regularize_length", "True"); ("store", "all")]; entry_line stop] =
    Ok (["neg_log_loss"; "length"], true, [mkPhase "search" "AsyncEA" "2020-01-01 12:00:00,000" "3.1415"]).
Proof. exact C99_ex_main. Qed.

(** C100 fails: the log file of an instance receives every message since it was
    created, also those of other instances. *)
Theorem C100_own_log_refuted : forall before f during g after line,
  In line (messages after) ->
  let fs := files_run (before ++ Create (Some f) :: during ++ Create (Some g) :: after) in
  exists own_f own_g, In (f, own_f) fs /\ In (g, own_g) fs /\ In line own_f /\ In line own_g.
Proof. exact C100_own_log_refuted_main. Qed.
Print Assumptions C100_own_log_refuted.

(** What holds: the file has every message since the instance was created, in
    order and nothing from before; so its own log is complete, and it is only its
    own if no other message is emitted after. *)
Theorem C100_own_log_partial : forall before f after,
  nth_error (files_run (before ++ Create (Some f) :: after)) (length (files_run before)) = Some (f, messages after).
Proof. exact C100_own_log_partial_main. Qed.
Print Assumptions C100_own_log_partial.

Example C100_ex :
  files_run [Create (Some "a/gama.log"); Emit "INIT:A"; Create None; Emit "INIT:B"; Create (Some "c/gama.log"); Emit "INIT:C"] =
  [("a/gama.log", ["INIT:A"; "INIT:B"; "INIT:C"]); ("c/gama.log", ["INIT:C"])].
Proof. exact C100_ex_main. Qed.

(** Property theorems; proofs in Rep_Main.v. *)
From Verif Require Import Base Num Gp_Model Str_Model Str_Spec Misc_Model Log_Model Log_Spec Rep_Model Rep_Spec.
Open Scope string_scope.
Open Scope list_scope.
Open Scope nat_scope.
From Verif Require Import Rep_Main.

(** C132. After any interleaving of complete writes to the evaluation log and updates,
    ending in an update: the cumulative maximum of a metric at an evaluation is the
    best value of that metric among it and those logged before it; values that are
    not a number have no maximum and do not count. *)
Theorem C132_cummax : forall ind (float_of : string -> res num) (parse : string -> res ind) m names ops f i j row q,
  Forall (clean ";") names -> 2 <= length names -> Forall (readable float_of parse m names) (writes ops) ->
  let r := snd (run_ops float_of parse m names (ops ++ [OUpdate f])) in
  nth_error (r_evals r) i = Some (i, (row, q)) -> j < m ->
  exists x c, nth_error q j = Some x /\ nth_error (cummax j r) i = Some c /\ (x = NaN -> c = NaN) /\
    (x <> NaN -> best_of (map (fun e => nth j (snd (snd e)) NaN) (firstn (S i) (r_evals r))) c).
Proof. exact C132_cummax_main. Qed.
Print Assumptions C132_cummax.

(** The end of an evaluation is reported relative to the earliest start among all
    evaluations read so far. *)
Theorem C132_relative_end : forall ind (r : report num ind) time_of duration_of names times ends,
  Forall2 (fun e p => (exists s, cell names (fst (snd e)) "t_start" s /\ time_of s = Ok (fst p)) /\
                      (exists s, cell names (fst (snd e)) "t_wallclock" s /\ duration_of s = Ok (snd p))) (r_evals r) times ->
  relative_end time_of duration_of names r = Ok ends ->
  (times = [] /\ ends = []) \/
  exists first, In first (map fst times) /\ (forall p, In p times -> (first <= fst p)%Z) /\ ends = map (fun p => fst p + snd p - first)%Z times.
Proof. exact C132_relative_end_main. Qed.
Print Assumptions C132_relative_end.

Example C132_ex :
  let names := ["id"; "t_start"; "t_wallclock"; "score"; "pipeline"] in
  let fl s := if String.eqb s "-inf" then Ok NInf else if String.eqb s "nan" then Ok NaN else if String.eqb s "7" then Ok (Fin 7) else Ok (Fin 3) in
  let row i t x := [i; t; "2"; ("(" ++ x ++ ",1)")%string; "A"] in
  let rows := [row "1" "5" "-inf"; row "2" "4" "3"; row "3" "9" "nan"; row "4" "9" "7"; row "5" "9" "3"] in
  let r := snd (run_ops fl (fun s => Ok s) 2 names (map OWrite rows ++ [OUpdate true])) in
  let tm s := Ok (if String.eqb s "5" then 5 else if String.eqb s "4" then 4 else if String.eqb s "9" then 9 else 2)%Z in
  Forall (readable fl (fun s => Ok s) 2 names) rows /\ length (r_evals r) = 5 /\
  cummax 0 r = [NInf; Fin 3; NaN; Fin 7; Fin 7] /\ relative_end tm tm names r = Ok [3; 2; 7; 7; 7]%Z /\
  map (fun e => hd "" (fst (snd e))) (successful_evaluations r) = ["2"; "4"; "5"].
Proof. exact C132_ex_main. Qed.

(** C133. The successful evaluations of a report are those logged with finite scores
    only, in the order in which they were logged. *)
Theorem C133_successful : forall ind (float_of : string -> res num) (parse : string -> res ind) m names ops f,
  Forall (clean ";") names -> 2 <= length names -> Forall (readable float_of parse m names) (writes ops) ->
  let r := snd (run_ops float_of parse m names (ops ++ [OUpdate f])) in
  exists qs, Forall2 (row_metrics float_of m names) (writes ops) qs /\
    finite_rows (writes ops) qs (map (fun e => fst (snd e)) (successful_evaluations r)).
Proof. exact C133_successful_main. Qed.
Print Assumptions C133_successful.

(** So an evaluation that failed, and was logged with score -inf, is not among them. *)
Theorem C133_failed : forall ind (float_of : string -> res num) (parse : string -> res ind) m names ops f,
  Forall (clean ";") names -> 2 <= length names -> Forall (readable float_of parse m names) (writes ops) ->
  float_of "-inf" = Ok NInf ->
  let r := snd (run_ops float_of parse m names (ops ++ [OUpdate f])) in
  forall e s parts, In e (successful_evaluations r) -> cell names (fst (snd e)) "score" s -> tuple_of s parts -> ~ In "-inf" parts.
Proof. exact C133_failed_main. Qed.
Print Assumptions C133_failed.

Example C133_ex : finite_rows [["a"]; ["b"]; ["c"]] [[Fin 1; Fin 2]; [Fin 1; NInf]; [Fin 0; Fin 0]] [["a"]; ["c"]].
Proof. exact C133_ex_main. Qed.

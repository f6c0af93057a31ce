(*IMPORTS*)
From Verif Require Import Base Gp_Model Str_Model Str_Spec Misc_Model Log_Model Log_Spec.
Require Import Ascii.
Open Scope string_scope.
Open Scope list_scope.
Open Scope nat_scope.
(*END*)
From Verif Require Import Str_Proofs Log_Proofs Log_Proofs2 Log_Proofs3 Log_Proofs4 Log_Proofs5 Data_Proofs2.

Lemma logger_file extra es : fold_left (fun f e => log_evaluation e f) es (logger_init extra "") = logged ";" ((column_names ++ extra) :: map row_of es).
Proof.
  change ((column_names ++ extra) :: map row_of es) with (header extra :: map ev_values es).
  unfold logged. cbn [fold_left]. unfold logger_init. generalize (log_line ";" (header extra) ""). induction es as [|e es IH]; intros f; [reflexivity|]. cbn [map fold_left]. apply IH.
Qed.
Lemma clean_head : Forall (clean ";") ["id"; "pid"; "t_start"; "t_wallclock"; "t_process"; "score"; "pipeline"; "error"].
Proof. repeat (apply Forall_cons; [split; apply hasb_false; reflexivity|]). constructor. Qed.
Ltac cleans := repeat (apply Forall_cons; [split; apply hasb_false; reflexivity|]); try apply Forall_nil.

(** C80: one line per logged evaluation, after the header; split at the
    separator each is the list of logged values, if no value contains the
    separator or a newline. *)
Lemma C80_read_back_main : forall extra es,
  Forall (clean ";") extra -> Forall (fun e => Forall (clean ";") (row_of e)) es ->
  let file := fold_left (fun f e => log_evaluation e f) es (logger_init extra "") in
  read_back ";" file = (column_names ++ extra) :: map row_of es /\ length (lines file) = 1 + length es.
Proof.
  intros extra es E F file. assert (R : read_back ";" file = (column_names ++ extra) :: map row_of es).
  { unfold file. rewrite logger_file. apply (read_iff ";"%char); [discriminate| |].
    - constructor; [discriminate|]. apply Forall_forall. intros r I. apply in_map_iff in I. destruct I as (e & <- & _). discriminate.
    - constructor; [apply Forall_app; split; [apply clean_head|exact E]|]. apply Forall_map. exact F. }
  split; [exact R|]. apply (f_equal (@length _)) in R. unfold read_back in R. rewrite map_length in R. simpl in R. rewrite map_length in R. exact R.
Qed.
(** For any separating character and any values, this condition is also
    necessary. *)
Lemma C80_exactly_main : forall c rows, c <> ascii_of_nat 10 -> Forall (fun r => r <> []) rows ->
  (read_back (String c "") (logged (String c "") rows) = rows <-> Forall (Forall (clean (String c ""))) rows).
Proof. exact read_iff. Qed.
Example C80_ex_main : exists e, map fst (columns e) = column_names /\ Forall (clean ";") (row_of e) /\
  read_back ";" (fold_left (fun f e => log_evaluation e f) [e; e] (logger_init ["rung"] "")) =
  [["id"; "pid"; "t_start"; "t_wallclock"; "t_process"; "score"; "pipeline"; "error"; "rung"];
   ["7"; "12"; "2020-01-01"; "0.1"; "0.1"; "(0.5, -2)"; "A(data, A.x=1)"; "None"; "1"];
   ["7"; "12"; "2020-01-01"; "0.1"; "0.1"; "(0.5, -2)"; "A(data, A.x=1)"; "None"; "1"]].
Proof.
  exists (mkEv "7" "12" "2020-01-01" "0.1" "0.1" ["0.5"; "-2"] "A(data, A.x=1)" "None" ["1"]). split; [reflexivity|]. split; [|reflexivity]. unfold row_of. simpl. cleans.
Qed.

(** C81 fails: an error message with a semicolon or a line break makes the log
    unreadable, whatever else was logged. *)
Lemma C81_error_messages_refuted_main : forall extra es e es',
  contains ";" (ev_error e) \/ contains nl (ev_error e) ->
  read_back ";" (fold_left (fun f e => log_evaluation e f) (es ++ e :: es') (logger_init extra "")) <> (column_names ++ extra) :: map row_of (es ++ e :: es').
Proof.
  intros extra es e es' B E. apply (read_clean ";"%char) in E. apply Forall_inv_tail in E. rewrite map_app in E. apply Forall_app in E. destruct E as (_ & E). cbn [map] in E. apply Forall_inv in E.
  rewrite Forall_forall in E. destruct (E (ev_error e)) as (A & C); [unfold row_of; do 7 right; left; reflexivity|]. tauto.
Qed.
(** What holds: with messages free of both, C80. *)
Lemma C81_error_messages_partial_main : forall extra es,
  Forall (clean ";") extra ->
  Forall (fun e => clean ";" (ev_error e) /\
    Forall (clean ";") ([ev_id e; ev_pid e; ev_start e; ev_wall e; ev_process e; scores_text (ev_scores e); ev_pipeline e] ++ ev_extra e)) es ->
  read_back ";" (fold_left (fun f e => log_evaluation e f) es (logger_init extra "")) = (column_names ++ extra) :: map row_of es.
Proof.
  intros extra es E F. apply C80_read_back_main; auto. eapply Forall_impl; [|exact F]. intros e (A & B). apply Forall_app in B. destruct B as (B & C).
  unfold row_of. apply Forall_app. split; [|exact C]. change (map snd (columns e)) with ([ev_id e; ev_pid e; ev_start e; ev_wall e; ev_process e; scores_text (ev_scores e); ev_pipeline e] ++ [ev_error e]). apply Forall_app. split; [exact B|]. constructor; auto.
Qed.
Example C81_ex_main :
  let e := mkEv "7" "12" "t" "0.1" "0.1" ["-inf"] "A(data)" "bad value; retry" [] in
  contains ";" (ev_error e) /\ length (nth 1 (read_back ";" (log_evaluation e (logger_init [] ""))) []) = 9.
Proof. split; [exists "bad value", " retry"|]; reflexivity. Qed.

(** C82: after any interleaving of complete writes and updates that ends with an
    update, the report holds every written row exactly once, in order, numbered
    from 0, with its metrics; for an id, its individual is that of the last row
    with the id. *)
Lemma C82_every_row_once_partial_main : forall num ind (float_of : string -> res num) (parse : string -> res ind) m names ops f,
  Forall (clean ";") names -> 2 <= length names -> Forall (readable float_of parse m names) (writes ops) ->
  let r := snd (run_ops float_of parse m names (ops ++ [OUpdate f])) in
  map fst (r_evals r) = seq 0 (length (writes ops)) /\
  map (fun e => fst (snd e)) (r_evals r) = writes ops /\
  Forall (fun e => row_metrics float_of m names (fst (snd e)) (snd (snd e))) (r_evals r) /\
  exists ps, Forall2 (row_ind parse names) (writes ops) ps /\
    forall k, option_map snd (find (fun p => String.eqb k (fst p)) (r_inds r)) = option_map snd (find (fun p => String.eqb k (fst p)) (rev ps)).
Proof.
  intros num ind float_of parse m names ops f A B G0.
  assert (G : Forall (readable_m float_of parse m names) (writes ops)) by (eapply Forall_impl; [|exact G0]; intros r; apply readable_model).
  destruct (run_report float_of parse m names A B ops f G) as (r & E & (_ & H1 & H2 & ps & H3 & H4)).
  rewrite E. cbn [snd]. split; [exact H1|]. split; [|split].
  - clear - H2. induction H2 as [|x e l l' (P & _) H2 IH]; [reflexivity|]. cbn [map]. congruence.
  - clear - H2 G0. induction H2 as [|x e l l' (P & Q) H2 IH]; [constructor|]. inversion G0; subst. constructor; [eapply readable_metrics; eauto|auto].
  - exists ps. split; [clear - H3; induction H3; constructor; auto; apply ind_m; assumption|]. intros k. rewrite H4. fold (lookup (fold_left (fun d p => dict_set (fst p) (snd p) d) ps []) k). rewrite lookup_fold.
    cbn [lookup find option_map]. clear. induction ps as [|p ps IH] using rev_ind; [reflexivity|]. rewrite fold_left_app, rev_app_distr. simpl. destruct (String.eqb k (fst p)); [reflexivity|exact IH].
Qed.
(** Updating again without new lines changes nothing, and a finished log is not
    read again unless forced. *)
Lemma C82_finished_main : forall num ind (float_of : string -> res num) (parse : string -> res ind) m file r,
  update float_of parse m false false file r = (Ok false, r).
Proof. reflexivity. Qed.
(** A forced update reads the log, finished or not, like any other update of an
    unfinished one. *)
Lemma C82_forced_main : forall num ind (float_of : string -> res num) (parse : string -> res ind) m incomplete force file r,
  update float_of parse m incomplete true file r = update float_of parse m true force file r.
Proof. intros. unfold update. rewrite andb_false_r. destruct force; reflexivity. Qed.
(** It fails when a row cannot be read: the update raises, and the rows it had
    before it, readable ones included, are skipped by all later updates. *)
Lemma C82_failed_update_refuted_main : forall num ind (float_of : string -> res num) (parse : string -> res ind) m names bad good f g,
  Forall (clean ";") names -> 2 <= length names -> bad <> [] -> good <> [] ->
  Forall (fun r => Forall (clean ";") r /\ length r = length names) bad ->
  (exists row, In row bad /\ unreadable float_of parse m names row) ->
  Forall (readable float_of parse m names) good ->
  map (fun e => fst (snd e)) (r_evals (snd (run_ops float_of parse m names (map OWrite bad ++ [OUpdate f] ++ map OWrite good ++ [OUpdate g])))) = good.
Proof.
  intros num ind float_of parse m names bad good f g A B Nb Ng F (row & I & U) G. apply lost; auto.
  - eapply Forall_impl; [|exact G]. intros r. apply readable_model.
  - exists row. split; [exact I|]. apply unreadable_model. exact U.
Qed.
(** A log whose rows have not as many values as its header, or of which some row has
    more values than the first, is refused, with ValueError and pandas' ParserError
    ([OtherError 2]); the report stays empty. *)
Lemma C82_ragged_main : forall num ind (float_of : string -> res num) (parse : string -> res ind) m names row rows force,
  Forall (clean ";") names -> 2 <= length names -> Forall (fun r => Forall (clean ";") r /\ 2 <= length r) (row :: rows) ->
  let x := update float_of parse m true force (logged ";" (names :: row :: rows)) report0 in
  ((exists r, In r rows /\ length row < length r) -> fst x = Err (OtherError 2) /\ r_evals (snd x) = []) /\
  ((forall r, In r rows -> length r <= length row) -> length row <> length names -> fst x = Err ValueError /\ r_evals (snd x) = []).
Proof.
  intros num ind float_of parse m names row rows force A B F.
  assert (Ef : logged ";" (names :: row :: rows) = file_of names (row :: rows)) by (rewrite logged_text; reflexivity). rewrite Ef. cbv zeta. split.
  - intros (r & I & L). rewrite (update_longer float_of parse m names A B row rows r force F I L). auto.
  - intros H N. rewrite (update_width float_of parse m names A B row rows force); auto. constructor.
    + pose proof (Forall_inv F) as [G1 G2]. auto.
    + pose proof (Forall_inv_tail F) as G. rewrite Forall_forall in *. intros r I. destruct (G r I). auto.
Qed.
(** A log without the column "score", or without "id" or "pipeline" if the scores can be
    read, is refused with AttributeError. *)
Lemma C82_no_column_main : forall num ind (float_of : string -> res num) (parse : string -> res ind) m names row rows force,
  Forall (clean ";") names -> 2 <= length names -> Forall (fun r => Forall (clean ";") r /\ length r = length names) (row :: rows) ->
  ~ In "score" names \/ (Forall (fun r => exists q, row_metrics float_of m names r q) (row :: rows) /\ (~ In "id" names \/ (In "id" names /\ ~ In "pipeline" names))) ->
  fst (update float_of parse m true force (logged ";" (names :: row :: rows)) report0) = Err AttributeError.
Proof.
  intros num ind float_of parse m names row rows force A B F N.
  assert (Ef : logged ";" (names :: row :: rows) = file_of names (row :: rows)) by (rewrite logged_text; reflexivity). rewrite Ef.
  assert (CN : forall name, ~ In name names -> forall r, cell_of names r name = Err AttributeError).
  { clear. intros name. induction names as [|n names IH]; intros N [|x r]; auto. cbn [cell_of]. destruct (String.eqb_spec n name) as [->|]; [exfalso; apply N; left; reflexivity|]. apply IH. intros K. apply N. right. exact K. }
  assert (CI : forall name, In name names -> length row = length names -> exists v, cell_of names row name = Ok v).
  { intros name I L. revert L I. clear. revert row. induction names as [|n names IH]; intros [|x r] L I; try discriminate; [destruct I|]. cbn [cell_of]. destruct (String.eqb_spec n name) as [->|K]; [eauto|].
    destruct I as [->|I]; [congruence|]. apply IH; auto. }
  unfold update. rewrite andb_false_r. cbn [negb].
  assert (T : Nat.max (r_tell (@report0 num ind)) (String.length (join ";" names) + 1) = pos names []) by (unfold pos; simpl; lia).
  rewrite (first_line_of names A), T, (drop_rest names B [] (row :: rows) : drop (pos names []) (file_of names (row :: rows)) = text ";" (row :: rows)), (names_split names A B), (file_length names B).
  rewrite (read_fits names B) by (discriminate || exact F). rewrite (row_len names _ F). cbn [negb].
  destruct N as [N|[R N]].
  - cbn [rmap]. rewrite (CN _ N). reflexivity.
  - assert (E : exists qs, rmap (fun row0 => do s <- cell_of names row0 "score"; do q <- tuple_to_metrics float_of s; if length q =? m then Ok q else Err ValueError) (row :: rows) = Ok qs).
    { clear - R. induction R as [|r l (q & Q) R (qs & IH)]; [eexists; reflexivity|]. apply metrics_m in Q. destruct Q as (L & s & Es & Q). exists (q :: qs). cbn [rmap]. rewrite Es. cbn [rbind]. rewrite Q. cbn [rbind]. rewrite L, Nat.eqb_refl. cbn [rbind]. rewrite IH. reflexivity. }
    destruct E as (qs & E). rewrite E. cbn [rmap]. destruct N as [N|[I N]].
    + rewrite (CN _ N). reflexivity.
    + destruct (CI "id" I) as (v & V); [pose proof (Forall_inv F) as [_ G]; exact G|]. rewrite V. cbn [rbind]. rewrite (CN _ N). reflexivity.
Qed.
Example C82_ragged_ex_main :
  let names := ["id"; "score"; "pipeline"] in let a := ["1"; "(0.5, -2)"; "A"] in let b := ["2"; "(0.5, -2)"] in
  Forall (fun r => Forall (clean ";") r /\ 2 <= length r) [a; b; b ++ ["x"; "y"]] /\
  fst (update ex_float ex_parse 2 true true (logged ";" [names; b; a]) report0) = Err (OtherError 2) /\
  fst (update ex_float ex_parse 2 true true (logged ";" [names; b; b]) report0) = Err ValueError /\
  fst (update ex_float ex_parse 2 true true (logged ";" [["id"; "score"; "individual"]; a; a]) report0) = Err AttributeError.
Proof. cbv zeta. split; [repeat (apply Forall_cons; [split; [cleans|simpl; lia]|]); constructor|]. repeat split; reflexivity. Qed.
Example C82_ex_main :
  let names := ["id"; "score"; "pipeline"] in
  let a := ["1"; "(0.5, -2)"; "A"] in let b := ["2"; "(0.25, -1)"; "B"] in let bad := ["3"; "(0, 0)"; "?"] in
  Forall (clean ";") names /\ readable ex_float ex_parse 2 names a /\ readable ex_float ex_parse 2 names b /\
  (clean ";" "?" /\ unreadable ex_float ex_parse 2 names bad) /\
  r_evals (snd (run_ops ex_float ex_parse 2 names [OWrite a; OUpdate true; OUpdate false; OWrite b; OWrite a; OUpdate false])) =
    [(0, (a, ["0.5"; " -2"])); (1, (b, ["0.25"; " -1"])); (2, (a, ["0.5"; " -2"]))] /\
  map (fun e => fst (snd e)) (r_evals (snd (run_ops ex_float ex_parse 2 names [OWrite a; OWrite bad; OUpdate true; OWrite b; OUpdate false]))) = [b].
Proof.
  cbv zeta. split; [cleans|]. split; [|split; [|split; [split|]]].
  - split; [cleans|]. split; [reflexivity|]. split.
    + exists ["0.5"; " -2"]. split; [reflexivity|]. exists "(0.5, -2)", ["0.5"; " -2"]. split; [apply cell_of_iff; reflexivity|]. split; [split; [discriminate|split; [repeat constructor; apply hasb_false; reflexivity|reflexivity]]|repeat constructor].
    + exists ("1", "A"). split; [apply cell_of_iff; reflexivity|]. exists "A". split; [apply cell_of_iff|]; reflexivity.
  - split; [cleans|]. split; [reflexivity|]. split.
    + exists ["0.25"; " -1"]. split; [reflexivity|]. exists "(0.25, -1)", ["0.25"; " -1"]. split; [apply cell_of_iff; reflexivity|]. split; [split; [discriminate|split; [repeat constructor; apply hasb_false; reflexivity|reflexivity]]|repeat constructor].
    + exists ("2", "B"). split; [apply cell_of_iff; reflexivity|]. exists "B". split; [apply cell_of_iff|]; reflexivity.
  - split; apply hasb_false; reflexivity.
  - left. exists "?", ValueError. split; [apply cell_of_iff; reflexivity|reflexivity].
  - split; reflexivity.
Qed.

(** C83: an INIT line whose arguments are plain texts, or objects with any
    hyperparameters that have plain texts as values (the last one not an object),
    gives the names and values, those of the hyperparameters that are set included. *)
Lemma C83_init_line_partial_main : forall stamp cls args name value,
  ~ contains "(" stamp -> ~ contains "(" cls -> Forall plain_arg (args ++ [Text name value]) ->
  init_to_hps (init_line stamp cls (map arg_text (args ++ [Text name value]))) = Ok (flat_map arg_values (args ++ [Text name value])).
Proof.
  intros stamp cls args k v A B G. apply init_plain; auto; [destruct args; discriminate|apply last_text].
Qed.
(** The lines this version writes contain the text of the search space: as soon
    as that has, between two commas, some text without parentheses or "=", the
    line is refused with a ValueError. *)
Lemma C83_search_space_refuted_main : forall stamp cls before between after others,
  ~ contains "(" stamp -> ~ contains "(" cls -> plain between -> between <> "" ->
  init_to_hps (init_line stamp cls (("search_space", before ++ "," ++ between ++ "," ++ after)%string :: others)) = Err ValueError.
Proof.
  intros stamp cls P b S others A B H N. unfold init_line. cbn [map fst snd].
  assert (E : exists S', join "," (("search_space=" ++ P ++ "," ++ b ++ "," ++ S)%string :: map (fun p => fst p ++ "=" ++ snd p)%string others) = (("search_space=" ++ P) ++ "," ++ b ++ "," ++ S')%string).
  { destruct others as [|o others]; [exists S; simpl; rewrite ?append_assoc; reflexivity|]. cbn [map]. rewrite join_cons by discriminate. eexists. rewrite !append_assoc. reflexivity. }
  destruct E as (S' & E). change ("search_space" ++ "=" ++ P ++ "," ++ b ++ "," ++ S)%string with ("search_space=" ++ P ++ "," ++ b ++ "," ++ S)%string. rewrite E.
  apply init_refused; auto.
Qed.
Example C83_ex_main :
  let args := [Text "scoring" "neg_log_loss"; Object "search" "AsyncEA" [("population_size", Some "50"); ("max_n_evaluations", None)]; Object "post_processing" "BestFitPostProcessing" [("time_fraction", None)]; Text "store" "all"] in
  Forall plain_arg args /\
  init_to_hps (init_line "2020-01-01 12:00:00,000" "GamaClassifier" (map arg_text args)) =
    Ok [("scoring", "neg_log_loss"); ("search", "AsyncEA"); ("population_size", "50"); ("post_processing", "BestFitPostProcessing"); ("store", "all")] /\
  init_to_hps (init_line "2020-01-01 12:00:00,000" "GamaClassifier" [("search_space", "{BernoulliNB: {'alpha': [0.1, 1, 10], 'fit_prior': [True, False]}}"); ("scoring", "neg_log_loss")]) = Err ValueError /\
  plain " 1".
Proof.
  cbv zeta. split; [|split; [vm_compute; reflexivity|split; [vm_compute; reflexivity|repeat split; apply hasb_false; reflexivity]]].
  repeat constructor; cbn; apply hasb_false; reflexivity.
Qed.

(** C84: after any number of registrations and additions of handlers without a
    [tag], the only tagged handler is a console handler with the last verbosity,
    and the others are all still there, in order. *)
Lemma C84_one_console_handler_partial_main : forall hs0 ops n v,
  Forall (fun h => hd_tagged h = false) (hs0 ++ foreign ops) -> last_register ops = Some (n, v) ->
  let hs := fold_left log_step ops hs0 in
  filter hd_tagged hs = [mkHandler n true true v] /\ filter (fun h => negb (hd_tagged h)) hs = hs0 ++ foreign ops.
Proof.
  intros hs0 ops n v F L. apply Forall_app in F. destruct F as (F0 & F).
  assert (T : filter hd_tagged hs0 = [] /\ filter (fun h => negb (hd_tagged h)) hs0 = hs0).
  { clear - F0. induction F0 as [|h hs H F IH]; [auto|]. simpl. rewrite H. simpl. destruct IH as (A & B). split; [exact A|f_equal; exact B]. }
  destruct T as (T & U). pose proof (handlers_inv ops hs0 None eq_refl T F) as H. cbv zeta in H. unfold last_register in L. rewrite L, U in H. exact H.
Qed.
(** It fails for a stream handler of the user that happens to have a [tag]. *)
Lemma C84_tagged_handler_refuted_main : forall hs n v,
  existsb (fun h => hd_tagged h && hd_stream h) hs = true ->
  exists h, In h hs /\ ~ In h (removelast (register_stream_log n v hs)).
Proof.
  intros hs n v E. apply existsb_exists in E. destruct E as (h & I & H). exists h. split; [exact I|]. apply andb_true_iff in H. destruct H as (H1 & H2).
  unfold register_stream_log. replace (existsb hd_tagged hs) with true by (symmetry; apply existsb_exists; eauto). rewrite removelast_last.
  intros J. apply filter_In in J. rewrite H1, H2 in J. destruct J; discriminate.
Qed.
Example C84_ex_main :
  fold_left log_step [Register 1 20; AddHandler (mkHandler 2 false false 10); Register 3 30; AddHandler (mkHandler 4 false true 0); Register 5 40]%Z [mkHandler 0 false true 50] =
  [mkHandler 0 false true 50; mkHandler 2 false false 10; mkHandler 4 false true 0; mkHandler 5 true true 40].
Proof. reflexivity. Qed.

(** C98: with two or more scores per evaluation the metrics are the logged
    scores, in order. *)
Lemma C98_scores_partial_main : forall num (float_of : string -> res num) x y l qs,
  Forall (fun s => ~ contains "," s) (x :: y :: l) ->
  Forall2 (fun s q => float_of s = Ok q) (x :: map (append " ") (y :: l)) qs ->
  tuple_to_metrics float_of (tuple_str (x :: y :: l)) = Ok qs.
Proof.
  intros num float_of x y l qs C F. unfold tuple_to_metrics, tuple_str.
  change ("(" ++ join ", " (x :: y :: l) ++ ")")%string with (String "(" (join ", " (x :: y :: l) ++ String ")" "")). rewrite chop1_wrap.
  assert (J : join ", " (x :: y :: l) = join "," (x :: map (append " ") (y :: l))).
  { clear. revert x y. induction l as [|z l IH]; intros x y; [reflexivity|]. rewrite (join_cons ", " x) by discriminate. rewrite IH. cbn [map]. rewrite (join_cons "," x) by discriminate.
    rewrite (join_cons "," y) by discriminate. rewrite (join_cons "," (append " " y)) by discriminate. rewrite !append_assoc. reflexivity. }
  rewrite J, (split_join ","%char).
  - revert F. generalize (x :: map (append " ") (y :: l)) as ss. intros ss F. clear - F. induction F as [|s q ss qs E F IH]; [reflexivity|]. cbn [rmap]. rewrite E. cbn [rbind]. rewrite IH. reflexivity.
  - discriminate.
  - inversion C as [|? ? C1 C2]; subst. constructor; [exact C1|]. apply Forall_map. eapply Forall_impl; [|exact C2]. intros s H. change (append " " s) with (" " ++ s)%string. apply plain_app; [apply hasb_false; reflexivity|exact H].
Qed.
(** With one score (regularize_length=False and one metric) the row cannot be
    read, and no report can be made of the log: Python writes "(0.5,)". *)
Lemma C98_one_score_refuted_main : forall num ind (float_of : string -> res num) (parse : string -> res ind) m names rows row x,
  float_of "" = Err ValueError -> ~ contains "," x ->
  Forall (clean ";") names -> 2 <= length names -> Forall (fun r => Forall (clean ";") r /\ length r = length names) rows ->
  In row rows -> cell names row "score" ("(" ++ x ++ ",)") ->
  exists e, fst (update float_of parse m true true (logged ";" (names :: rows)) report0) = Err e.
Proof.
  intros num ind float_of parse m names rows row x F0 C A B F I E. apply cell_of_iff in E. change ("(" ++ x ++ ",)")%string with (tuple_str [x]) in E.
  assert (Ef : logged ";" (names :: rows) = file_of names rows) by (rewrite logged_text; reflexivity). rewrite Ef.
  destruct (update_fails float_of parse m names A B [] rows report0 true F) as (e & H).
  - unfold pos. simpl. lia.
  - exists row. split; [exact I|]. intros (_ & _ & (q & L & s & Es & Q) & _). rewrite E in Es. assert (Et : s = tuple_str [x]) by congruence. subst s. clear Es.
    assert (K : tuple_str [x] = String "(" ((x ++ ",") ++ String ")" "")) by (simpl; rewrite append_assoc; reflexivity).
    unfold tuple_to_metrics in Q. rewrite K, chop1_wrap in Q.
    change (x ++ ",")%string with (x ++ String "," "")%string in Q. rewrite (split_char "," x "" C) in Q. change (split "," "") with [""] in Q. cbn [rmap] in Q. rewrite F0 in Q. destruct (float_of x); discriminate.
  - simpl app in H. rewrite H. exists e. reflexivity.
Qed.
(** And regularize_length=False is not recognized: "length" is always a metric. *)
Lemma C98_regularize_length_refuted_main : forall ls h ph scoring regularize,
  read_log ls None [] = Ok (Some h, ph) -> NoDup (map fst h) -> In ("scoring", scoring) h -> In ("regularize_length", regularize) h -> regularize <> "" ->
  exists incomplete, report_meta ls = Ok (split "," scoring ++ ["length"], incomplete, ph).
Proof.
  intros ls h ph s r E ND S R N. apply (hp_get_in h ND) in S. apply (hp_get_in h ND) in R. exists (length ph <? 3). unfold report_meta. rewrite E. cbn [rbind fst snd]. rewrite S, R. destruct (String.eqb_spec r ""); [congruence|reflexivity].
Qed.
Example C98_ex_main :
  tuple_to_metrics ex_float (tuple_str ["0.5"; "-2"]) = Ok ["0.5"; " -2"] /\ tuple_str ["0.5"] = "(0.5,)" /\ tuple_to_metrics ex_float (tuple_str ["0.5"]) = Err ValueError.
Proof. repeat split. Qed.

(** C99: the phases of a report are the finished activities of the log, in order,
    with their names, algorithms and durations; it is incomplete exactly if fewer
    than three activities finished. *)
Lemma C99_phases_main : forall init h scoring regularize es,
  init_to_hps init = Ok h -> contains "INIT:" init -> ~ contains "STOP:" init ->
  NoDup (map fst h) -> In ("scoring", scoring) h -> In ("regularize_length", regularize) h -> regularize <> "" ->
  Forall entry_ok es ->
  report_meta (init :: map entry_line es) =
    Ok (split "," scoring ++ ["length"], length (concat (map entry_phase es)) <? 3, concat (map entry_phase es)).
Proof.
  intros init h s r es E C N ND S R NE F. apply (hp_get_in h ND) in S. apply (hp_get_in h ND) in R. unfold report_meta. cbn [read_log]. rewrite (proj2 (has_contains _ _) C), E. cbn [rbind].
  assert (HS : has "STOP:" init = false) by (destruct (has "STOP:" init) eqn:K; auto; apply has_contains in K; tauto). rewrite HS. cbn [rbind].
  rewrite (read_log_phases es _ [] F). cbn [rbind fst snd app]. rewrite S, R. destruct (String.eqb_spec r ""); [congruence|reflexivity].
Qed.
(** Logs no report can be made of: one without INIT line raises AttributeError, one
    whose INIT line does not have "scoring" and "regularize_length" KeyError, and one
    with "STOP:" in a line that is no STOP line (no space before or after, say)
    ValueError. *)
Lemma C99_refused_main : forall init h es line,
  init_to_hps init = Ok h -> contains "INIT:" init -> ~ contains "STOP:" init -> Forall entry_ok es ->
  report_meta (map entry_line es) = Err AttributeError /\
  (~ In "scoring" (map fst h) \/ ~ In "regularize_length" (map fst h) -> report_meta (init :: map entry_line es) = Err KeyError) /\
  (contains "STOP:" line -> ~ contains " STOP: " line -> ~ contains "INIT:" line ->
   report_meta (init :: map entry_line es ++ [line]) = Err ValueError).
Proof.
  intros init h es line E C N F. split; [unfold report_meta; rewrite (read_log_phases es _ [] F); reflexivity|].
  assert (HI : has "INIT:" init = true) by (apply has_contains; exact C).
  assert (HS : has "STOP:" init = false) by (destruct (has "STOP:" init) eqn:K; auto; apply has_contains in K; tauto).
  split.
  - intros M. unfold report_meta. cbn [read_log]. rewrite HI, E. cbn [rbind]. rewrite HS. cbn [rbind]. rewrite (read_log_phases es _ [] F). cbn [rbind fst snd].
    destruct M as [M|M]; rewrite (find_none_fst _ _ M); [reflexivity|]. destruct (hp_get h "scoring"); reflexivity.
  - intros S1 S2 S3. unfold report_meta. cbn [read_log]. rewrite HI, E. cbn [rbind]. rewrite HS. cbn [rbind]. rewrite read_log_app, (read_log_phases es _ [] F). cbn [rbind fst snd read_log].
    rewrite (proj2 (has_contains _ _) S1). replace (has "INIT:" line) with false by (symmetry; destruct (has "INIT:" line) eqn:K; auto; apply has_contains in K; tauto).
    cbn [rbind]. unfold read_stop. rewrite (split_none " STOP: " line S2). reflexivity.
Qed.
Example C99_refused_ex_main :
  contains "STOP:" "x] STOP:search" /\ ~ contains " STOP: " "x] STOP:search" /\
  report_meta [init_line "t" "GamaClassifier" [("store", "all")]] = Err KeyError.
Proof. split; [exists "x] ", "search"; reflexivity|]. split; [apply hasb_false; reflexivity|vm_compute; reflexivity]. Qed.
Example C99_ex_main :
  let stop := Stop "2020-01-01 12:00:00,000" "gama.utilities.generic.timekeeper" "search" "AsyncEA" "3.1415" in
  entry_ok stop /\ entry_phase stop = [mkPhase "search" "AsyncEA" "2020-01-01 12:00:00,000" "3.1415"] /\
  report_meta [init_line "t" "GamaClassifier" [("scoring", "neg_log_loss"); ("regularize_length", "True"); ("store", "all")]; entry_line stop] =
    Ok (["neg_log_loss"; "length"], true, [mkPhase "search" "AsyncEA" "2020-01-01 12:00:00,000" "3.1415"]).
Proof.
  cbv zeta. split; [|split; [reflexivity|vm_compute; reflexivity]]. split; [apply hasb_false; reflexivity|]. cbn [entry_ok]. repeat split; apply hasb_false; reflexivity.
Qed.

(** C100 fails: the log file of an instance receives every message since it was
    created, also those of other instances. *)
Lemma C100_own_log_refuted_main : forall before f during g after line,
  In line (messages after) ->
  let fs := files_run (before ++ Create (Some f) :: during ++ Create (Some g) :: after) in
  exists own_f own_g, In (f, own_f) fs /\ In (g, own_g) fs /\ In line own_f /\ In line own_g.
Proof.
  intros before f during g after line I fs. 
  destruct (file_of_instance before f (during ++ Create (Some g) :: after)) as (l & r & E & _).
  destruct (file_of_instance (before ++ Create (Some f) :: during) g after) as (l' & r' & E' & _). rewrite <- app_assoc in E'. cbn [app] in E'.
  exists (messages (during ++ Create (Some g) :: after)), (messages after). unfold fs. split; [rewrite E; apply in_or_app; right; left; reflexivity|].
  split; [rewrite E'; apply in_or_app; right; left; reflexivity|]. split; [|exact I]. unfold messages. rewrite map_app, concat_app. apply in_or_app. right. exact I.
Qed.
(** What holds: the file has every message since the instance was created, in
    order and nothing from before; so its own log is complete, and it is only its
    own if no other message is emitted after. *)
Lemma C100_own_log_partial_main : forall before f after,
  nth_error (files_run (before ++ Create (Some f) :: after)) (length (files_run before)) = Some (f, messages after).
Proof.
  intros before f after. destruct (file_of_instance before f after) as (l & r & -> & <-). rewrite nth_error_app2, Nat.sub_diag by lia. reflexivity.
Qed.
Example C100_ex_main :
  files_run [Create (Some "a/gama.log"); Emit "INIT:A"; Create None; Emit "INIT:B"; Create (Some "c/gama.log"); Emit "INIT:C"] =
  [("a/gama.log", ["INIT:A"; "INIT:B"; "INIT:C"]); ("c/gama.log", ["INIT:C"])].
Proof. reflexivity. Qed.

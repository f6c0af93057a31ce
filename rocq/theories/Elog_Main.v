(*IMPORTS*)
From Verif Require Import Base Str_Spec Misc_Model Log_Model Log_Spec Elog_Model Elog_Spec.
Open Scope string_scope.
Open Scope list_scope.
Open Scope nat_scope.
(*END*)
From Verif Require Import Str_Model Log_Proofs Elog_Proofs.
Require Import Lia.

(** C136.  Whatever a program does afterwards - log evaluations with this or with
    other loggers, make loggers for other files - as long as nobody adds columns to
    the dictionary this logger uses, its file consists of what was there, the names
    of its columns, and one complete row for every evaluation that has a value for
    every column; an evaluation without one adds nothing. *)
Lemma C136_table_partial_main :
  forall strftime str_of call w path sep fields extra cs d cols,
    (forall l, In l (w_loggers w) -> l_path l <> path) ->
    (forall k, fields = Some k -> k < length (w_dicts w)) ->
    let w1 := new_logger call path sep fields extra w in
    let i := length (w_loggers w) in
    nth_error (w_loggers w1) i = Some (mkLogger path sep d) -> nth_error (w_dicts w1) d = Some cols ->
    Forall (leaves_alone path d) cs ->
    exists rows,
      rows_logged strftime str_of i cols cs rows /\
      Forall (fun row => length row = length cols) rows /\
      w_files (do_calls strftime str_of call w1 cs) path =
        (w_files w path ++ line sep (map fst cols) ++ table_text sep rows)%string.
Proof.
  intros strftime str_of call w path sep fields extra cs d cols HL HF w1 i EL ED A.
  assert (EF : w_files w1 path = (w_files w path ++ line sep (map fst cols))%string).
  { subst w1 i. revert EL ED. unfold new_logger, line, log_line.
    destruct fields as [k|]; cbn [w_loggers w_dicts w_files]; intros EL ED;
      rewrite nth_error_app2 in EL by lia; rewrite Nat.sub_diag in EL; injection EL as <-;
      rewrite write_same; apply nth_dict in ED; rewrite ED; reflexivity. }
  destruct (calls_table strftime str_of call path sep i d cols cs w1) as (rows & R & E); auto.
  { split; [exact EL|]. split; [|split].
    - intros j l Hj Hn. assert (HJ : j < length (w_loggers w1)) by (apply nth_error_Some; congruence).
      assert (LL : length (w_loggers w1) = S (length (w_loggers w))).
      { subst w1. unfold new_logger. destruct fields; cbn [w_loggers]; rewrite app_length; simpl; lia. }
      assert (HJ' : j < length (w_loggers w)) by (subst i; lia).
      assert (E2 : nth_error (w_loggers w1) j = nth_error (w_loggers w) j).
      { subst w1. unfold new_logger. destruct fields; cbn [w_loggers]; apply nth_error_app1; auto. }
      rewrite E2 in Hj. apply HL. eapply nth_error_In; eauto.
    - apply nth_error_Some. congruence.
    - apply nth_dict in ED. exact ED. }
  exists rows. split; [exact R|]. split.
  - clear -R. induction R as [|e row cs rows F _ IH|e cs rows N _ IH|c cs rows N _ IH]; auto.
    constructor; auto. symmetry. clear -F. induction F; simpl; auto.
  - rewrite E, EF, app_str_assoc. reflexivity.
Qed.

(** C136 is false when the dictionary is shared: the columns given for a second
    logger appear in the rows of the first, whose header does not name them. *)
Definition ex_fields : dict := [("id", fun e => getattr e "id")].
Definition ex_more : dict := [("score", fun e => getattr e "score")].
Definition ex_evaluation : obj := Thing "e" [("id", Thing "7" []); ("score", Thing "0.5" [])].
Definition ex_world : world := mkWorld (fun _ => ""%string) [ex_fields; ex_more] [].
Lemma C136_shared_refuted_main :
  exists strftime str_of call cs,
    let w := do_calls strftime str_of call ex_world cs in
    w_files w "first.log" = (line ";" ["id"] ++ line ";" ["7"; "0.5"])%string /\
    cs = [NewLogger "first.log" ";" (Some 0) None; NewLogger "second.log" ";" (Some 0) (Some 1); LogEval 0 ex_evaluation].
Proof.
  exists (fun _ => ""%string), (fun _ => ""%string), (fun o => Ok o).
  exists [NewLogger "first.log" ";" (Some 0) None; NewLogger "second.log" ";" (Some 0) (Some 1); LogEval 0 ex_evaluation].
  split; [vm_compute; reflexivity|reflexivity].
Qed.

(** A column without a value: the exception of the first such column comes out,
    and no file, dictionary or logger has changed. *)
Lemma C136_no_value_main :
  forall strftime str_of l w before name g after e x,
    nth_error (w_dicts w) (l_fields l) = Some (before ++ (name, g) :: after) ->
    Forall (fun col : string * getter => exists v, snd col e = Ok v) before -> g e = Err x ->
    log_evaluation_of strftime str_of l e w = (Err x, w).
Proof.
  intros strftime str_of l w before name g after e x H F E. unfold log_evaluation_of.
  rewrite (nth_error_nth _ _ _ H). erewrite rmap_first; eauto.
Qed.
Example C136_ex_main :
  leaves_alone "first.log" 0 (NewLogger "second.log" ";" None (Some 1)) /\
  w_files (do_calls (fun _ => "") (fun _ => "") (fun o => Ok o) ex_world
    [NewLogger "first.log" ";" (Some 0) (Some 1); NewLogger "second.log" ";" None (Some 1);
     LogEval 0 ex_evaluation; LogEval 1 ex_evaluation; LogEval 0 (Thing "e" [])]) "first.log"
  = (line ";" ["id"; "score"] ++ line ";" ["7"; "0.5"])%string /\
  fst (log_evaluation_of (fun _ => "") (fun _ => "") (mkLogger "f" ";" 1) (Thing "e" []) ex_world) = Err AttributeError.
Proof. split; [split; [discriminate|intros X; discriminate]|split; vm_compute; reflexivity]. Qed.

(** C137.  The columns of a new logger: those of the given dictionary (or the
    default ones), in their order, then the new ones among the extra columns; an
    extra column of the same name replaces the old one where it stands. *)
Lemma C137_columns_main :
  forall call w path sep fields extra base more,
    match fields with None => base = default_fields call | Some k => nth_error (w_dicts w) k = Some base end ->
    match extra with None => more = [] | Some x => nth_error (w_dicts w) x = Some more end ->
    NoDup (map fst more) ->
    let w1 := new_logger call path sep fields extra w in
    exists d cols,
      nth_error (w_loggers w1) (length (w_loggers w)) = Some (mkLogger path sep d) /\
      nth_error (w_dicts w1) d = Some cols /\
      (exists new, map fst cols = map fst base ++ new /\
         (forall name, In name new <-> In name (map fst more) /\ ~ In name (map fst base)) /\
         new = filter (fun name => negb (existsb (String.eqb name) (map fst base))) (map fst more)) /\
      (forall name g, lookup name more = Some g -> lookup name cols = Some g) /\
      (forall name, ~ In name (map fst more) -> lookup name cols = lookup name base) /\
      w_files w1 path = (w_files w path ++ line sep (map fst cols))%string /\
      (forall q, q <> path -> w_files w1 q = w_files w q).
Proof.
  intros call w path sep fields extra base more HB HM N w1.
  assert (G : exists d, nth_error (w_loggers w1) (length (w_loggers w)) = Some (mkLogger path sep d) /\
              nth_error (w_dicts w1) d = Some (dict_update base more) /\
              w_files w1 path = (w_files w path ++ line sep (map fst (dict_update base more)))%string /\
              (forall q, q <> path -> w_files w1 q = w_files w q)).
  { subst w1. unfold new_logger, line, log_line. destruct fields as [k|].
    - exists k. cbn [w_loggers w_dicts w_files]. split; [rewrite nth_error_app2, Nat.sub_diag by lia; reflexivity|].
      assert (HK : k < length (w_dicts w)) by (apply nth_error_Some; congruence).
      pose proof (fun dd => nth_error_nth _ _ dd HB) as HB'.
      destruct extra as [x|].
      + pose proof (fun dd => nth_error_nth _ _ dd HM) as HM'. rewrite HB', HM'.
        assert (E : nth k (set_nth k (dict_update base more) (w_dicts w)) [] = dict_update base more) by (apply set_nth_same; auto).
        split; [|split].
        * rewrite dict_nth by (rewrite set_nth_length; auto). rewrite E. reflexivity.
        * rewrite write_same, E. reflexivity.
        * intros q Hq. apply write_other; auto.
      + subst more. split; [exact HB|]. split.
        * rewrite write_same, HB'. reflexivity.
        * intros q Hq. apply write_other; auto.
    - exists (length (w_dicts w)). cbn [w_loggers w_dicts w_files].
      split; [rewrite nth_error_app2, Nat.sub_diag by lia; reflexivity|]. subst base.
      assert (E0 : nth (length (w_dicts w)) (w_dicts w ++ [default_fields call]) [] = default_fields call).
      { rewrite app_nth2, Nat.sub_diag by lia. reflexivity. }
      destruct extra as [x|].
      + pose proof (fun dd => nth_error_nth _ _ dd HM) as HM'. rewrite E0.
        assert (HX : x < length (w_dicts w)) by (apply nth_error_Some; congruence).
        rewrite (app_nth1 _ _ _ HX), HM'.
        assert (E : nth (length (w_dicts w)) (set_nth (length (w_dicts w)) (dict_update (default_fields call) more)
                     (w_dicts w ++ [default_fields call])) [] = dict_update (default_fields call) more).
        { apply set_nth_same. rewrite app_length. simpl. lia. }
        split; [|split].
        * rewrite dict_nth by (rewrite set_nth_length, app_length; simpl; lia). rewrite E. reflexivity.
        * rewrite write_same, E. reflexivity.
        * intros q Hq. apply write_other; auto.
      + subst more. split; [|split].
        * rewrite nth_error_app2, Nat.sub_diag by lia. reflexivity.
        * rewrite write_same, E0. reflexivity.
        * intros q Hq. apply write_other; auto. }
  destruct G as (d & G1 & G2 & G3 & G4). exists d, (dict_update base more).
  split; [exact G1|]. split; [exact G2|]. split; [|split; [|split; [|auto]]].
  - rewrite dict_update_names by auto. eexists. split; [reflexivity|]. split; [|reflexivity].
    intros name. rewrite filter_In, negb_true_iff, <- not_true_iff_false, existsb_in. tauto.
  - intros name g E. rewrite dict_update_lookup by auto. rewrite E. reflexivity.
  - intros name H. rewrite dict_update_lookup by auto. rewrite (lookup_none _ _ H). reflexivity.
Qed.

(** The default columns, by name, and what each one shows. *)
Lemma C137_default_main :
  forall strftime str_of call l w e s attrs si iattrs sf fattrs id pid start wall process scores bound text error,
    nth_error (w_dicts w) (l_fields l) = Some (default_fields call) ->
    e = Thing s attrs -> lookup "individual" attrs = Some (Thing si iattrs) ->
    lookup "pid" attrs = Some pid -> lookup "error" attrs = Some error ->
    lookup "_id" iattrs = Some id -> lookup "fitness" iattrs = Some (Thing sf fattrs) ->
    lookup "pipeline_str" iattrs = Some bound -> call bound = Ok (Thing text []) ->
    lookup "start_time" fattrs = Some (Time start) -> lookup "wallclock_time" fattrs = Some wall ->
    lookup "process_time" fattrs = Some process -> lookup "values" fattrs = Some scores ->
    map fst (default_fields call) = column_names /\
    exists w' row,
      log_evaluation_of strftime str_of l e w = (Ok tt, w') /\
      w_files w' (l_path l) = (w_files w (l_path l) ++ line (l_sep l) row)%string /\
      Forall2 (shown strftime str_of) [id; pid; Time start; wall; process; scores; Thing text []; error] row.
Proof.
  intros strftime str_of call l w e s attrs si iattrs sf fattrs id pid start wall process scores bound text error
    HD -> H1 H2 H3 H4 H5 H6 H7 H8 H9 H10 H11. split; [reflexivity|].
  assert (R : rmap (fun kv : string * getter => snd kv (Thing s attrs)) (default_fields call) =
              Ok [id; pid; Time start; wall; process; scores; Thing text []; error]).
  { cbn [rmap default_fields snd]. unfold nested_getattr.
    change (split "." "individual._id") with ["individual"; "_id"].
    change (split "." "individual.fitness.start_time") with ["individual"; "fitness"; "start_time"].
    change (split "." "individual.fitness.wallclock_time") with ["individual"; "fitness"; "wallclock_time"].
    change (split "." "individual.fitness.process_time") with ["individual"; "fitness"; "process_time"].
    change (split "." "individual.fitness.values") with ["individual"; "fitness"; "values"].
    cbn [getattrs getattr]. rewrite H1. cbn [rbind getattr]. rewrite H4. cbn [rbind getattr]. rewrite H2.
    cbn [rbind getattr]. rewrite H5. cbn [rbind getattr]. rewrite H8, H9, H10, H11. cbn [rbind getattr].
    rewrite H6. cbn [rbind]. rewrite H7. cbn [rbind]. rewrite H3. reflexivity. }
  eexists. exists (map (format_cell strftime str_of) [id; pid; Time start; wall; process; scores; Thing text []; error]).
  split; [|split].
  - unfold log_evaluation_of. rewrite (nth_error_nth _ _ _ HD).
    match goal with |- context [rmap ?f ?l] => replace (rmap f l) with
      (Ok [id; pid; Time start; wall; process; scores; Thing text []; error]) by (symmetry; exact R) end. reflexivity.
  - cbn [w_files]. rewrite write_same. reflexivity.
  - generalize [id; pid; Time start; wall; process; scores; Thing text []; error]. intros vs.
    induction vs as [|v vs IH]; [constructor|]. cbn [map]. constructor; [apply format_shown|exact IH].
Qed.

(** Dotted names: a value is found exactly by following the attributes one by one;
    everything else is an AttributeError. *)
Lemma C137_nested_main :
  forall o path, path <> [] -> Forall (fun a => ~ contains "." a) path ->
    (forall v, nested_getattr o (join "." path) = Ok v <-> reaches o path v) /\
    (forall x, nested_getattr o (join "." path) = Err x -> x = AttributeError).
Proof.
  intros o path NE F. unfold nested_getattr. rewrite split_join by auto. split; [split|].
  - apply reaches_getattrs.
  - apply getattrs_reaches.
  - apply getattrs_err.
Qed.

(** C137 is false in one respect: making a logger changes the dictionary the
    caller gave, so that using it again gives a logger with the extra columns. *)
Lemma C137_callers_dictionary_refuted_main :
  exists call w, exists k base base',
    nth_error (w_dicts w) k = Some base /\
    nth_error (w_dicts (new_logger call "a.log" ";" (Some k) (Some 1) w)) k = Some base' /\
    map fst base = ["id"] /\ map fst base' = ["id"; "score"] /\
    w_files (new_logger call "b.log" ";" (Some k) None (new_logger call "a.log" ";" (Some k) (Some 1) w)) "b.log" =
      line ";" ["id"; "score"].
Proof.
  exists (fun o => Ok o), ex_world, 0, ex_fields, (ex_fields ++ ex_more).
  repeat split; vm_compute; reflexivity.
Qed.
(** Every other dictionary, and this one too without extra columns, is left as it
    was. *)
Lemma C137_dictionaries_partial_main :
  forall call w path sep fields extra k d,
    nth_error (w_dicts w) k = Some d -> fields <> Some k \/ extra = None ->
    nth_error (w_dicts (new_logger call path sep fields extra w)) k = Some d.
Proof.
  intros call w path sep fields extra k d H HF.
  assert (HK : k < length (w_dicts w)) by (apply nth_error_Some; congruence).
  unfold new_logger. destruct fields as [f|]; cbn [w_dicts].
  - destruct extra as [x|]; [|exact H]. destruct HF as [HF|HF]; [|discriminate].
    rewrite dict_nth by (rewrite set_nth_length; auto).
    rewrite set_nth_other by congruence. rewrite <- H. symmetry. apply dict_nth. auto.
  - destruct extra as [x|].
    + rewrite dict_nth by (rewrite set_nth_length, app_length; lia).
      rewrite set_nth_other by lia. rewrite app_nth1 by auto. rewrite <- H. symmetry. apply dict_nth. auto.
    + rewrite nth_error_app1 by auto. exact H.
Qed.
Example C137_ex_main :
  map fst (dict_update (default_fields (fun o => Ok o)) async_ea_fields) =
    column_names ++ ["parent0"; "parent1"; "origin"] /\
  map fst (dict_update [("a", fun e => Ok e); ("b", fun e => Ok e)] [("c", fun e => Ok e); ("a", fun e => Ok e)]) = ["a"; "b"; "c"] /\
  nested_getattr (Thing "" [("individual", Thing "" [("_id", Thing "9" [])])]) "individual._id" = Ok (Thing "9" []) /\
  nested_getattr (Thing "" [("individual", Thing "" [])]) "individual._id" = Err AttributeError.
Proof. repeat split; vm_compute; reflexivity. Qed.

(** C138.  In the log of an evolutionary search the row of a pipeline tells where
    it came from: for one made by mutation its parent and the mutation, for one
    made by crossover both parents, for one made at random that it is new. *)
Lemma C138_provenance_main :
  forall strftime str_of call e s attrs si iattrs b cols row,
    e = Thing s attrs -> lookup "individual" attrs = Some (Thing si iattrs) ->
    lookup "meta" iattrs = Some (meta_of b) ->
    cols = dict_update (default_fields call) async_ea_fields ->
    row_for strftime str_of cols e row ->
    exists parent0 parent1 origin,
      cell (map fst cols) row "parent0" parent0 /\ cell (map fst cols) row "parent1" parent1 /\
      cell (map fst cols) row "origin" origin /\
      match b with
      | Read => parent0 = "" /\ parent1 = "" /\ origin = "unknown"
      | Random => parent0 = "" /\ parent1 = "" /\ origin = "new"
      | Mutant p m => shown strftime str_of p parent0 /\ parent1 = "" /\ origin = m
      | Child p q => shown strftime str_of p parent0 /\ shown strftime str_of q parent1 /\ origin = "cx"
      end.
Proof.
  intros strftime str_of call e s attrs si iattrs b cols row -> H1 H2 EC R.
  change (dict_update (default_fields call) async_ea_fields) with (default_fields call ++ async_ea_fields) in EC.
  subst cols. do 8 (inversion R as [|? ? ? ? _ R']; subst; clear R; rename R' into R).
  inversion R as [|? p0 ? ? (v0 & E0 & S0) R1]; subst; clear R.
  inversion R1 as [|? p1 ? ? (v1 & E1 & S1) R2]; subst; clear R1.
  inversion R2 as [|? og ? ? (v2 & E2 & S2) R3]; subst; clear R2. inversion R3; subst; clear R3.
  assert (M : forall key default, meta_get key default (Thing s attrs) =
    match meta_of b with PyDict items => Ok (match lookup key items with Some v => v | None => default end) | _ => Err AttributeError end).
  { intros key default. unfold meta_get, getattr. rewrite H1. cbn [rbind]. rewrite H2. reflexivity. }
  cbn [snd] in E0, E1, E2. unfold get_parent in E0, E1. rewrite M in E0, E1, E2.
  exists p0, p1, og.
  split; [exists 8|split; [exists 9|split; [exists 10|]]];
    try (split; [reflexivity|split; [|reflexivity]]; intros j Hj;
         do 11 (destruct j as [|j]; [simpl; discriminate || lia|]); lia).
  destruct b; cbn in E0, E1, E2; injection E0 as <-; injection E1 as <-; injection E2 as <-;
    repeat match goal with H : shown _ _ (Thing _ _) _ |- _ => inversion H; subst; clear H end; auto.
Qed.

(** In the log of an ASHA search it tells the rung and the subsample. *)
Lemma C138_asha_main :
  forall strftime str_of call e s attrs si iattrs before rung subsample cols row,
    e = Thing s attrs -> lookup "individual" attrs = Some (Thing si iattrs) ->
    lookup "meta" iattrs = Some (meta_asha rung subsample (PyDict before)) ->
    cols = dict_update (default_fields call) asha_fields ->
    row_for strftime str_of cols e row ->
    exists r n,
      cell (map fst cols) row "rung" r /\ cell (map fst cols) row "subsample" n /\
      shown strftime str_of rung r /\
      match subsample with Some v => shown strftime str_of v n | None => n = "None" end.
Proof.
  intros strftime str_of call e s attrs si iattrs before rung subsample cols row -> H1 H2 EC R.
  change (dict_update (default_fields call) asha_fields) with (default_fields call ++ asha_fields) in EC.
  subst cols. do 8 (inversion R as [|? ? ? ? _ R']; subst; clear R; rename R' into R).
  inversion R as [|? p0 ? ? (v0 & E0 & S0) R1]; subst; clear R.
  inversion R1 as [|? p1 ? ? (v1 & E1 & S1) R2]; subst; clear R1. inversion R2; subst; clear R2.
  assert (L : forall q k v l, lookup q (meta_set k v l) = if String.eqb k q then Some v else lookup q l).
  { intros q k v l. induction l as [|[k' w] l IH]; simpl; [destruct (String.eqb k q); reflexivity|].
    destruct (String.eqb_spec k' k).
    - subst. simpl. destruct (String.eqb k q); reflexivity.
    - simpl. rewrite IH. destruct (String.eqb_spec k' q), (String.eqb_spec k q); congruence. }
  assert (M : forall key default, meta_get key default (Thing s attrs) =
    match meta_asha rung subsample (PyDict before) with
    | PyDict items => Ok (match lookup key items with Some v => v | None => default end) | _ => Err AttributeError end).
  { intros key default. unfold meta_get, getattr. rewrite H1. cbn [rbind]. rewrite H2. reflexivity. }
  cbn [snd] in E0, E1. rewrite M in E0, E1. cbn [meta_asha] in E0, E1. rewrite !L in E0, E1. cbn in E0, E1.
  injection E0 as <-; injection E1 as <-.
  exists p0, p1. split; [exists 8|split; [exists 9|]];
    try (split; [reflexivity|split; [|reflexivity]]; intros j Hj;
         do 10 (destruct j as [|j]; [simpl; discriminate || lia|]); lia).
  split; [exact S0|]. destruct subsample; [exact S1|]. inversion S1; reflexivity.
Qed.
Definition ex_row (m : obj) : obj :=
  Thing "" [("individual", Thing "" [("_id", Thing "9" []); ("meta", m); ("pipeline_str", Thing "f" []);
     ("fitness", Thing "" [("start_time", Time 3); ("wallclock_time", Thing "0.1" []); ("process_time", Thing "0.2" []); ("values", Thing "(0.5,)" [])])]);
    ("pid", Thing "1" []); ("error", Thing "None" [])].
Example C138_ex_main :
  fst (log_evaluation_of (fun _ => "now") (fun _ => "") (mkLogger "f" ";" 0) (ex_row (meta_of (Child (Thing "3" []) (Thing "4" []))))
    (mkWorld (fun _ => "") [dict_update (default_fields (fun o => Ok o)) async_ea_fields] [])) = Ok tt /\
  w_files (snd (log_evaluation_of (fun _ => "now") (fun _ => "") (mkLogger "f" ";" 0) (ex_row (meta_of (Child (Thing "3" []) (Thing "4" []))))
    (mkWorld (fun _ => "") [dict_update (default_fields (fun o => Ok o)) async_ea_fields] []))) "f"
  = line ";" ["9"; "1"; "now"; "0.1"; "0.2"; "(0.5,)"; "f"; "None"; "3"; "4"; "cx"].
Proof. split; vm_compute; reflexivity. Qed.

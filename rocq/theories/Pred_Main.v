(** Theorems about predicting and scoring; restated in [Pred_Props.v]. *)
(*IMPORTS*)
Require Import QArith Qcanon.
From Verif Require Import Base Num Data_Model Data_Spec Misc_Model Lib_Model Lib_Spec Pred_Model Pred_Spec.
From Verif Require Ens_Model Ens_Spec.
Open Scope string_scope.
Open Scope list_scope.
Open Scope nat_scope.
(*END*)
From Verif Require Import Data_Proofs Data_Proofs2 Pred_Proofs.
From Verif Require Ens_Main Ens_Proofs3 Lib_Main Data_Main.

(** C109, what holds: an array accepted for prediction keeps its rows, columns and
    their order; a cell of a surplus, object or float column is used as given (text
    is parsed), of a categorical column as given if training had that value and else
    as missing, of an integer column without its fractional part. *)
Lemma presents pf pi other types n cols f : np_to_matching pf pi other types n cols = Ok f -> presented pf pi other types n cols f.
Proof.
  intros H tr classes m g. subst g. unfold predict, predict_proba, prepare. cbn [g_dtypes]. rewrite H. split; reflexivity.
Qed.
Lemma C109_cells_partial_main : forall parse_float parse_int other types n cols,
  (exists e, forall tr classes m, predict parse_float parse_int other (mkGama types tr classes m) (XArr n cols) = Err e) \/
  exists f, presented parse_float parse_int other types n cols f /\
    length (f_index f) = n /\ length (f_cols f) = length cols /\ length types <= length cols /\
    forall i d cells, nth_error cols i = Some (d, cells) -> exists c, nth_error (f_cols f) i = Some c /\ c_cname c = NInt i /\
      Forall2 (used_as parse_float parse_int (nth_error types i)) cells (c_cells c).
Proof.
  intros pf pi other types n cols. destruct (np_to_matching pf pi other types n cols) as [f|e] eqn:H.
  2:{ left. exists e. intros. unfold predict, prepare. cbn [g_dtypes]. rewrite H. reflexivity. }
  right. exists f. split; [apply presents; auto|].
  unfold np_to_matching in H. destruct (match_columns _ _ _ 0 types cols) as [cs|] eqn:M; [|discriminate].
  cbn [rbind] in H. injection H as <-. cbn [f_index f_cols]. rewrite map_length, seq_length. apply match_nth in M as (L1 & L2 & M). repeat (split; auto).
  intros i d cells E. destruct (M i d cells E) as (c & C1 & C2 & C3 & C4). exists c. split; auto. split; auto.
  destruct (nth_error types i) as [t|].
  - revert C4. generalize (c_cells c). clear. induction cells as [|a cells IH]; intros cs C4; cbn [rmap] in C4; [injection C4 as <-; constructor|].
    destruct (astype_cell pf pi other t a) as [b|] eqn:B; [|discriminate]. cbn [rbind] in C4. destruct (rmap (astype_cell pf pi other t) cells) as [bs|] eqn:BS; [|discriminate].
    cbn [rbind] in C4. injection C4 as <-. constructor; [eapply astype_used; exact B|]. apply IH. reflexivity.
  - rewrite C4. clear. induction cells; constructor; simpl; auto.
Qed.
(** Which arrays are accepted for sure: no text for float columns, only numbers for
    integer columns, anything for categorical ones. *)
Lemma C109_accepted_main : forall parse_float parse_int other types n cols,
  length types <= length cols ->
  (forall i t d cells, nth_error types i = Some t -> nth_error cols i = Some (d, cells) -> Forall (castable t) cells) ->
  exists f, presented parse_float parse_int other types n cols f.
Proof.
  intros pf pi other types n cols L H. destruct (match_total pf pi other types 0 cols L) as (cs & M).
  - intros i t d cells E1 E2. apply castable_ok. eauto.
  - eexists. apply presents. unfold np_to_matching. rewrite M. reflexivity.
Qed.
(** C109 is false: after fitting on an array whose column holds integers (more than
    ten different ones), the fractional parts of the numbers in that column are cut off
    without a word, whatever the model; in a DataFrame they are not. *)
Definition zeros_to_ten : list cell := map (fun i => CNum (Q2Qc (inject_Z (Z.of_nat i)))) (seq 0 11).
Lemma C109_truncated_refuted_main : forall parse_float parse_int other,
  inferred_dtypes (XArr 11 [(DInt, zeros_to_ten)]) [] = Ok [TPlain DInt] /\
  (forall tr classes m q z, towards_zero q z ->
     let g := mkGama [TPlain DInt] tr classes m in
     predict parse_float parse_int other g (XArr 1 [(DFloat, [CNum q])]) =
     predict parse_float parse_int other g (XArr 1 [(DInt, [CNum (Q2Qc (inject_Z z))])])) /\
  exists m, let g := mkGama [TPlain DInt] None None (Some m) in
    predict parse_float parse_int other g (XFrame (mkFrame [0%Z] [mkCol (NInt 0) DFloat [CNum (Q2Qc (27 # 10))]])) <>
    predict parse_float parse_int other g (XFrame (mkFrame [0%Z] [mkCol (NInt 0) DInt [CNum (Q2Qc 2)]])).
Proof.
  intros pf pi other. split; [reflexivity|]. split.
  - intros tr classes m q z T g. unfold predict, prepare, np_to_matching. cbn [g_dtypes g match_columns rmap astype_cell rbind].
    destruct (trunc_spec q) as (z' & T' & ->). rewrite (towards_unique q z z' T T').
    rewrite (trunc_whole (CNum (Q2Qc (inject_Z z'))) _ eq_refl) by (eexists; reflexivity). reflexivity.
  - exists (mkModel (fun f => Ok (map (fun c => match nth_error (c_cells c) 0 with Some (CNum q) => LNum q | _ => LMissing end) (f_cols f))) (fun _ => Ok [])).
    vm_compute. intros H. discriminate H.
Qed.
(** C109 is false also for missing values: the model contains an imputer, but a
    missing value in a column of integers raises ValueError. *)
Lemma C109_missing_refuted_main : forall parse_float parse_int other tr classes m n d cells ts cols,
  In CMissing cells -> (forall c, In c cells -> c = CMissing \/ exists q, c = CNum q) ->
  predict parse_float parse_int other (mkGama (TPlain DInt :: ts) tr classes m) (XArr n ((d, cells) :: cols)) = Err ValueError.
Proof.
  intros pf pi other tr classes m n d cells ts cols I H. unfold predict, prepare, np_to_matching. cbn [g_dtypes match_columns].
  assert (R : rmap (astype_cell pf pi other (TPlain DInt)) cells = Err ValueError); [|rewrite R; reflexivity].
  induction cells as [|c cells IH]; [destruct I|]. cbn [rmap]. destruct (H c (or_introl eq_refl)) as [-> |(q & ->)]; [reflexivity|].
  cbn [astype_cell rbind]. rewrite IH; [reflexivity| |intros; apply H; right; auto]. destruct I as [I|I]; [discriminate|auto].
Qed.
(** An array with fewer columns than the training data is refused, with KeyError if
    the columns there are fit. *)
Lemma C109_columns_main : forall parse_float parse_int other g n cols,
  length cols < length (g_dtypes g) ->
  (exists e, predict parse_float parse_int other g (XArr n cols) = Err e) /\
  ((forall i t d cells, nth_error (g_dtypes g) i = Some t -> nth_error cols i = Some (d, cells) -> Forall (castable t) cells) ->
   predict parse_float parse_int other g (XArr n cols) = Err KeyError).
Proof.
  intros pf pi other g n cols L. split.
  2:{ intros C. unfold predict, prepare, np_to_matching. rewrite match_key; auto. intros i t d cells E1 E2. apply castable_ok. eauto. }
  unfold predict, prepare, np_to_matching. destruct (match_short pf pi other (g_dtypes g) 0 cols L) as (e & ->). simpl. eauto.
Qed.
Example C109_ex_main : towards_zero (Q2Qc (27 # 10)) 2 /\ towards_zero (Q2Qc (-27 # 10)) (-2) /\
  np_to_matching (fun _ => Err ValueError) (fun _ => Err ValueError) (fun _ _ => Err ValueError)
    [TCat [CStr "a"; CStr "b"]; TPlain DFloat; TPlain DInt] 2
    [(DObject, [CStr "b"; CStr "c"]); (DFloat, [CMissing; CNum (Q2Qc (1 # 2))]); (DFloat, [CNum (Q2Qc (5 # 2)); CNum (Q2Qc 3)])] =
  Ok (mkFrame [0%Z; 1%Z] [mkCol (NInt 0) DCategory [CStr "b"; CMissing]; mkCol (NInt 1) DFloat [CMissing; CNum (Q2Qc (1 # 2))];
                          mkCol (NInt 2) DInt [CNum (Q2Qc 2); CNum (Q2Qc 3)]]).
Proof.
  split; [|split; [|reflexivity]]; split; intros H; try (exfalso; apply H; reflexivity); split; vm_compute; auto; discriminate.
Qed.

Example C109_accepted_ex_main : forall i t d cells, nth_error [TCat [CStr "a"]; TPlain DFloat; TPlain DInt] i = Some t ->
  nth_error [(DObject, [CStr "b"; CMissing]); (DFloat, [CMissing; CNum (Q2Qc (1 # 2))]); (DFloat, [CNum (Q2Qc (5 # 2)); CNum (Q2Qc 3)])] i = Some (d, cells) ->
  Forall (castable t) cells.
Proof. intros [|[|[|[|]]]] t d cells H1 H2; try discriminate; injection H1 as <-; injection H2 as <- <-; repeat constructor. Qed.

(** C110. Predicting the training array again: every row that was trained on reaches
    the encoders with the same column names, dtypes and values as in training. *)
Lemma C110_training_rows_main : forall parse_float parse_int other n cols y t remove f y' types,
  array_ok n cols -> format_x_y (XArr n cols) y t remove = Ok (f, y') -> inferred_dtypes (XArr n cols) [] = Ok types ->
  exists g, presented parse_float parse_int other types n cols g /\ header g = header f /\
    Forall (fun l => exists i, l = Z.of_nat i /\ i < n) (f_index f) /\
    forall k i, nth_error (f_index f) k = Some (Z.of_nat i) -> i < n /\ same_row (row f k) (row g i).
Proof.
  intros pf pi other n cols y t rm f y' types A H HT. unfold format_x_y in H. simpl in HT.
  destruct (numpy_to_dataframe n cols) as [f0|] eqn:N; [|discriminate]. cbn [rbind] in H, HT. injection HT as <-.
  destruct (training_frame pf pi other n cols f0 A N) as (g & G1 & G2 & G3 & G4 & G5 & G6). apply numpy_nth in N as (I0 & _ & _).
  exists g. split; [apply presents; auto|]. destruct (format_y y t) as [y0|]; [|discriminate]. cbn [rbind] in H.
  assert (SEL : f = f0 \/ exists m, f = select_rows m f0).
  { destruct rm; [eapply remove_selects; eauto|]. injection H as <- _. auto. }
  assert (ROWS : forall k i, nth_error (f_index f) k = Some (Z.of_nat i) -> i < n /\ row f k = row f0 i).
  { intros k i E. destruct SEL as [-> |(m & ->)].
    - rewrite I0, nth_error_map in E. destruct (nth_error (seq 0 n) k) as [j|] eqn:J; [|discriminate]. injection E as E. apply Nat2Z.inj in E. subst j.
      assert (Hk : k < n) by (rewrite <- (seq_length n 0); apply nth_error_Some; congruence). apply (nth_error_nth _ _ 0) in J. rewrite seq_nth in J by auto. simpl in J. subst k. auto.
    - eapply select_row; eauto. }
  split; [destruct SEL as [-> |(m & ->)]; rewrite ?header_select; auto|]. split.
  - assert (F0 : Forall (fun l => exists i, l = Z.of_nat i /\ i < n) (f_index f0)).
    { rewrite I0. apply Forall_map, Forall_forall. intros i Hi. apply in_seq in Hi. exists i. lia. }
    destruct SEL as [-> |(m & ->)]; auto. unfold select_rows. cbn [f_index]. clear - F0. revert m. induction F0; intros [|b m]; simpl; auto. destruct b; auto.
  - intros k i E. destruct (ROWS k i E) as [Hi ->]. auto.
Qed.
Example C110_ex_main : array_ok 3 [(DInt, [CNum (Q2Qc 1); CNum (Q2Qc 2); CNum (Q2Qc 1)]); (DFloat, [CNum (Q2Qc (1 # 2)); CMissing; CNum (Q2Qc 3)])] /\
  exists f y' types, format_x_y (XArr 3 [(DInt, [CNum (Q2Qc 1); CNum (Q2Qc 2); CNum (Q2Qc 1)]); (DFloat, [CNum (Q2Qc (1 # 2)); CMissing; CNum (Q2Qc 3)])])
    (YVec [LStr "a"; LMissing; LStr "b"]) TSeries true = Ok (f, y') /\ f_index f = [0%Z; 2%Z] /\
    inferred_dtypes (XArr 3 [(DInt, [CNum (Q2Qc 1); CNum (Q2Qc 2); CNum (Q2Qc 1)]); (DFloat, [CNum (Q2Qc (1 # 2)); CMissing; CNum (Q2Qc 3)])]) [] = Ok types /\
    types = [TCat [CNum (Q2Qc 2); CNum (Q2Qc 1)]; TPlain DFloat].
Proof.
  split.
  - assert (W : forall z, typed DInt (CNum (Q2Qc (inject_Z z)))) by (intros z; eexists; reflexivity).
    constructor; [split; [reflexivity|]|constructor; [split; [reflexivity|]|constructor]].
    + constructor; [exact (W 1%Z)|]. constructor; [exact (W 2%Z)|]. constructor; [exact (W 1%Z)|constructor].
    + constructor; [right; left; eexists; reflexivity|]. constructor; [left; reflexivity|]. constructor; [right; left; eexists; reflexivity|constructor].
  - do 3 eexists. split; [reflexivity|]. split; [reflexivity|]. split; reflexivity.
Qed.

(** C111. One prediction per row, in the order of the rows; each is what predicting that
    row alone gives; and a classifier answers with labels it was fitted on.  Encoders
    and model are assumed to treat every row by itself. *)
Lemma C111_frames_main : forall parse_float parse_int other g h answer f y,
  rowwise g h answer -> rectangular f -> header f = h ->
  match g_classes g with
  | None => True
  | Some classes => 0 < length (f_index f) /\ exists y', classifier_labels y = Ok (classes, y') /\ forall r, In (answer r) y' /\ answer r <> LMissing
  end ->
  exists ps, predict parse_float parse_int other g (XFrame f) = Ok ps /\ length ps = length (f_index f) /\
    forall i, i < length (f_index f) -> exists p, nth_error ps i = Some p /\ (g_classes g <> None -> In p y) /\
      predict parse_float parse_int other g (XFrame (only_row_frame i f)) = Ok [p].
Proof.
  intros pf pi other g h answer f y RW R E HC.
  assert (P : forall f', rectangular f' -> header f' = h -> predict pf pi other g (XFrame f') =
     match g_classes g with None => Ok (map answer (rows f')) | Some classes => classifier_predict classes (map answer (rows f')) end).
  { intros f' R' E'. unfold predict, prepare. cbn [rbind]. apply (predict_rowwise g h answer f' RW R' E'). }
  rewrite (P f R E). destruct (g_classes g) as [classes|] eqn:GC.
  - destruct HC as (L & y' & CL & AN). destruct (decode_rows y classes y' (map answer (rows f)) CL) as (out & O1 & O2 & O3).
    + intros K. apply (f_equal (@length _)) in K. rewrite map_length, rows_length in K. simpl in K. lia.
    + intros r Hr. apply in_map_iff in Hr as (x & <- & _). apply AN.
    + exists out. split; auto. rewrite map_length, rows_length in O2. split; auto. intros i Hi.
      destruct (O3 i (answer (row f i))) as (d & D1 & D2 & D3). { rewrite nth_error_map, rows_nth by auto. reflexivity. }
      exists d. split; auto. split; auto. destruct (only_row_frame_ok f i R Hi) as (S1 & S2 & S3). rewrite P by congruence. rewrite S3. exact D3.
  - exists (map answer (rows f)). split; auto. split; [rewrite map_length, rows_length; auto|]. intros i Hi. exists (answer (row f i)).
    split; [rewrite nth_error_map, rows_nth by auto; reflexivity|]. split; [congruence|]. destruct (only_row_frame_ok f i R Hi) as (S1 & S2 & S3).
    rewrite P by congruence. rewrite S3. reflexivity.
Qed.
(** The same for arrays that are accepted. *)
Lemma C111_arrays_main : forall parse_float parse_int other g answer n cols ps y,
  (forall dc, In dc cols -> length (snd dc) = n) ->
  (forall h, map fst h = map NInt (seq 0 (length cols)) -> rowwise g h answer) ->
  match g_classes g with
  | None => True
  | Some classes => exists y', classifier_labels y = Ok (classes, y') /\ forall r, In (answer r) y' /\ answer r <> LMissing
  end ->
  predict parse_float parse_int other g (XArr n cols) = Ok ps ->
  length ps = n /\ forall i, i < n -> exists p, nth_error ps i = Some p /\ (g_classes g <> None -> In p y) /\
      predict parse_float parse_int other g (XArr 1 (only_row i cols)) = Ok [p].
Proof.
  intros pf pi other g answer n cols ps y LC RW HC P.
  destruct (np_to_matching pf pi other (g_dtypes g) n cols) as [f|e] eqn:M.
  2:{ unfold predict, prepare in P. rewrite M in P. discriminate. }
  assert (HF : rowwise g (header f) answer).
  { apply RW. unfold np_to_matching in M. destruct (match_columns _ _ _ 0 (g_dtypes g) cols) as [cs|] eqn:E; [|discriminate]. injection M as <-.
    apply match_nth in E as (L & _ & E). unfold header. cbn [f_cols]. rewrite map_map. cbn [fst]. rewrite <- L.
    assert (HN : forall i c, nth_error cs i = Some c -> c_cname c = NInt (0 + i)).
    { intros i c Hc. destruct (nth_error cols i) as [[d cl]|] eqn:Q; [|apply nth_error_None in Q; assert (i < length cs) by (apply nth_error_Some; congruence); lia].
      destruct (E i d cl Q) as (c' & C1 & C2 & _). congruence. }
    clear - HN. revert HN. generalize 0. induction cs as [|c cs IH]; intros k HN; [reflexivity|]. simpl. rewrite (HN 0 c eq_refl), Nat.add_0_r. f_equal. apply IH.
    intros i c' Hc. rewrite (HN (S i) c' Hc). f_equal. lia. }
  assert (RC : length (f_index f) = n /\ rectangular f).
  { clear - LC M. unfold np_to_matching in M. destruct (match_columns _ _ _ 0 (g_dtypes g) cols) as [cs|] eqn:E; [|discriminate]. injection M as <-. cbn [f_index].
    split; [rewrite map_length, seq_length; auto|]. unfold rectangular. cbn [f_cols f_index]. rewrite map_length, seq_length.
    apply match_nth in E as (L & _ & E). apply Forall_forall. intros c Hc. apply In_nth_error in Hc as (i & Hc).
    destruct (nth_error cols i) as [[d cl]|] eqn:Q; [|apply nth_error_None in Q; assert (i < length cs) by (apply nth_error_Some; congruence); lia].
    destruct (E i d cl Q) as (c' & C1 & _ & _ & C4). assert (c' = c) by congruence. subst c'. specialize (LC (d, cl) (nth_error_In _ _ Q)). simpl in LC.
    destruct (nth_error (g_dtypes g) i); [apply rmap_length in C4; congruence|congruence]. }
  destruct RC as [LI R].
  assert (EQ : predict pf pi other g (XArr n cols) = predict pf pi other g (XFrame f)) by (unfold predict, prepare; rewrite M; reflexivity).
  assert (ZC : n = 0 -> length ps = 0).
  { intros ->. rewrite EQ in P. unfold predict, prepare in P. cbn [rbind] in P. rewrite (predict_rowwise g (header f) answer f HF R eq_refl) in P.
    assert (RE : rows f = []) by (unfold rows; rewrite LI; reflexivity). rewrite RE in P. destruct (g_classes g); [discriminate|]. injection P as <-. reflexivity. }
  destruct (Nat.eq_dec n 0) as [N|N]. { rewrite (ZC N). split; auto. intros. lia. }
  destruct (C111_frames_main pf pi other g (header f) answer f y HF R eq_refl) as (ps' & P1 & P2 & P3).
  { destruct (g_classes g); auto. split; auto. lia. }
  assert (ps' = ps) by congruence. subst ps'.
  split; [congruence|]. intros i Hi. destruct (P3 i ltac:(lia)) as (p & Q1 & Q2 & Q3). exists p. split; auto. split; auto.
  destruct (matching_row pf pi other (g_dtypes g) n cols f i LC Hi M) as (_ & _ & f1 & M1 & R1 & H1 & W1).
  destruct (only_row_frame_ok f i R) as (S1 & S2 & S3); [lia|]. rewrite <- Q3. unfold predict, prepare. rewrite M1. cbn [rbind].
  rewrite (predict_rowwise g (header f) answer f1 HF R1 H1), (predict_rowwise g (header f) answer _ HF S1 S2), W1, S3. reflexivity.
Qed.
(** C111 is false for no rows at all: a classifier then raises IndexError. *)
Lemma C111_empty_refuted_main : forall parse_float parse_int other tr classes m f,
  (do x <- (match tr with None => Ok f | Some t => t f end); predict_labels m x) = Ok [] ->
  predict parse_float parse_int other (mkGama [] tr (Some classes) (Some m)) (XFrame f) = Err IndexError.
Proof.
  intros pf pi other tr classes m f H. unfold predict, prepare, predict_frame. cbn [rbind g_transform g_model g_classes].
  destruct (match tr with None => Ok f | Some t => t f end) as [x|]; cbn [rbind] in *; [|discriminate]. rewrite H. reflexivity.
Qed.
(** A classifier that says "yes" to rows without missing values. *)
Definition ex_answer (r : list (option cell)) : label :=
  if existsb (fun c => match c with Some CMissing => true | _ => false end) r then num_of_nat 0 else num_of_nat 1.
Definition ex_gama : gama :=
  mkGama [TPlain DFloat; TCat [CStr "a"; CStr "b"]] (Some (fun f => Ok f)) (Some [LStr "no"; LStr "yes"])
    (Some (mkModel (fun f => Ok (map ex_answer (rows f))) (fun _ => Ok []))).
Example C111_ex_main : (forall h, rowwise ex_gama h ex_answer) /\
  (exists y', classifier_labels [LStr "yes"; LStr "no"] = Ok ([LStr "no"; LStr "yes"], y') /\ forall r, In (ex_answer r) y' /\ ex_answer r <> LMissing) /\
  predict (fun _ => Err ValueError) (fun _ => Err ValueError) (fun _ _ => Err ValueError) ex_gama
    (XArr 3 [(DFloat, [CNum (Q2Qc 1); CMissing; CNum (Q2Qc 2)]); (DObject, [CStr "a"; CStr "a"; CStr "z"])]) = Ok [LStr "yes"; LStr "no"; LStr "no"] /\
  predict (fun _ => Err ValueError) (fun _ => Err ValueError) (fun _ _ => Err ValueError) ex_gama
    (XFrame (mkFrame [] [mkCol (NInt 0) DFloat []])) = Err IndexError.
Proof.
  split; [|split; [|split; reflexivity]].
  - intros h. eexists. split; [reflexivity|]. intros f _ _. reflexivity.
  - eexists. split; [reflexivity|]. intros r. unfold ex_answer. destruct (existsb _ r); (split; [simpl; auto|discriminate]).
Qed.

(** C112 is false: score() calls the metric without the arguments that make it the
    chosen one.  With three classes "recall_macro" raises ValueError instead of giving
    the mean recall, and with two it gives the recall of class 1. *)
Definition constant (ps : list label) : gama := mkGama [] None None (Some (mkModel (fun _ => Ok ps) (fun _ => Ok []))).
Lemma C112_arguments_refuted_main : forall parse_float parse_int other f rest,
  (let y := [LStr "a"; LStr "b"; LStr "c"] in
   predict parse_float parse_int other (constant y) (XFrame f) = Ok y /\
   scorer_value recall_macro y (PLabels y) = Ok 1%Qc /\
   score parse_float parse_int other Binary true (constant y) (recall_macro :: rest) (XFrame f) y = Err ValueError) /\
  (let y := [LNum 1; LNum 1; LNum 0; LNum 0]%Qc in let p := [LNum 1; LNum 1; LNum 0; LNum 1]%Qc in
   predict parse_float parse_int other (constant p) (XFrame f) = Ok p /\
   scorer_value recall_macro y (PLabels p) = Ok (Q2Qc (3 # 4)) /\
   score parse_float parse_int other Binary true (constant p) (recall_macro :: rest) (XFrame f) y = Ok 1%Qc).
Proof.
  intros pf pi other f rest. split; cbv zeta.
  - split; [reflexivity|]. split; [|reflexivity]. vm_compute. f_equal. apply Qc_is_canon. reflexivity.
  - split; [reflexivity|]. split; vm_compute; f_equal; apply Qc_is_canon; reflexivity.
Qed.
(** C112 is false also for metrics that are to be minimised: the search maximises
    minus the error, score() gives the error, so the worse model scores higher. *)
Lemma C112_sign_refuted_main : forall parse_float parse_int other f rest, exists y good bad qg qb vg vb,
  score parse_float parse_int other tt false (constant good) (neg_mean_squared_error :: rest) (XFrame f) y = Ok qg /\
  score parse_float parse_int other tt false (constant bad) (neg_mean_squared_error :: rest) (XFrame f) y = Ok qb /\
  scorer_value neg_mean_squared_error y (PLabels good) = Ok vg /\ scorer_value neg_mean_squared_error y (PLabels bad) = Ok vb /\
  (qg < qb)%Qc /\ (vb < vg)%Qc.
Proof.
  intros pf pi other f rest. exists [LNum 1%Qc], [LNum 1%Qc], [LNum (Q2Qc 3)]. do 4 eexists.
  split; [reflexivity|]. split; [reflexivity|]. split; [reflexivity|]. split; [reflexivity|]. split; reflexivity.
Qed.
(** C112, what holds: the first metric alone is computed, on the predictions that
    predict (or, if the metric needs probabilities, predict_proba) gives for the same
    data; up to the sign it is the value the search uses, if the metric's arguments make
    no difference. *)
Lemma C112_score_partial_main : forall K (no_args : K) parse_float parse_int other classifier g (m : scorer K) rest x y,
  plain no_args m ->
  (s_proba m = false -> forall p, predict parse_float parse_int other g x = Ok p ->
     scorer_value m y (PLabels p) = (do q <- score parse_float parse_int other no_args classifier g (m :: rest) x y; Ok (signed (s_minus m) q))) /\
  (s_proba m = true -> forall p, predict_proba parse_float parse_int other classifier g x = Ok p ->
     scorer_value m y (PProba p) = (do q <- score parse_float parse_int other no_args classifier g (m :: rest) x y; Ok (signed (s_minus m) q))) /\
  (forall e, (if s_proba m then (do p <- predict_proba parse_float parse_int other classifier g x; Ok (PProba p)) else (do p <- predict parse_float parse_int other g x; Ok (PLabels p))) = Err e ->
     score parse_float parse_int other no_args classifier g (m :: rest) x y = Err e).
Proof.
  intros K no_args pf pi other classifier g m rest x y PL. unfold score, scorer_value, metric_score. split; [|split].
  - intros -> p ->. cbn [rbind]. rewrite PL. reflexivity.
  - intros -> p ->. cbn [rbind]. rewrite PL. reflexivity.
  - intros e E. rewrite E. reflexivity.
Qed.
Example C112_ex_main : plain tt neg_mean_squared_error /\ s_proba neg_mean_squared_error = false /\
  predict (fun _ => Err ValueError) (fun _ => Err ValueError) (fun _ _ => Err ValueError) (constant [LNum (Q2Qc 3)]) (XFrame (mkFrame [0%Z] [])) = Ok [LNum (Q2Qc 3)].
Proof. split; [intros y p; reflexivity|]. split; reflexivity. Qed.

(** C113 is false: the ensemble is tuned with the same bare function.  With a metric
    like "recall_macro" and targets of three classes the construction always fails, the
    error is only logged, and predicting with the ensemble raises TypeError. *)
Lemma C113_multiclass_refuted_main : forall raw tr smp cats y size left s x X (call : nat -> X -> res Ens_Model.mat) (q : X),
  In (LStr "a") y -> In (LStr "b") y -> In (LStr "c") y ->
  Ens_Model.build_fit raw tr smp (classifier_hillclimb Binary recall_macro cats y) size left Ens_Model.new_ens = (s, x) ->
  (exists e, x = Err e) /\ Ens_Model.e_fit s = None /\ Ens_Model.predict_mean None call q s = Err TypeError.
Proof.
  intros raw tr smp cats y size left s x X call q Ha Hb Hc H.
  assert (SC : forall p, classifier_hillclimb Binary recall_macro cats y p = Err ValueError).
  { intros p. unfold classifier_hillclimb, maximizable_score, metric_score. cbn [s_func recall_macro recall_score].
    assert (L : (length (labels_of (y ++ voted cats p)) <=? 2) = false); [|rewrite L; reflexivity].
    assert (IN : forall l a, In a l -> In a (labels_of l)).
    { clear. induction l as [|b l IH]; intros a Ha; [destruct Ha|]. simpl. destruct (existsb (label_eqb b) l) eqn:E.
      - destruct Ha as [<- |Ha]; auto. apply existsb_exists in E as (c & Hc & Ec). apply label_eqb_eq in Ec. subst c. auto.
      - destruct Ha as [<- |Ha]; simpl; auto. }
    apply Nat.leb_gt. assert (N : NoDup [LStr "a"; LStr "b"; LStr "c"]).
    { repeat constructor; simpl; intuition discriminate. }
    apply (NoDup_incl_length N). intros a Ia. apply IN. apply in_or_app. left. simpl in Ia. destruct Ia as [<- |[<- |[<- |[]]]]; auto. }
  assert (B : forall n s0 x0, Ens_Model.build_initial raw tr smp (classifier_hillclimb Binary recall_macro cats y) n Ens_Model.new_ens = (s0, x0) ->
     (exists e, x0 = Err e) /\ Ens_Model.e_fit s0 = None).
  { intros n s0 x0 B. unfold Ens_Model.build_initial in B. destruct (n <=? 0)%Z; [injection B as <- <-; split; [eauto|reflexivity]|].
    cbn [Ens_Model.e_models Ens_Model.new_ens] in B. unfold Ens_Model.model_library in B. cbn [Ens_Model.e_lib Ens_Model.new_ens] in B.
    destruct (Ens_Model.fill tr smp raw []) as [l z] eqn:F. destruct z as [[]|e]; cbn [rbind] in B; [|injection B as <- <-; split; [eauto|reflexivity]].
    cbn [Ens_Model.e_models Ens_Model.set_lib Ens_Model.new_ens] in B.
    destruct (firstn (Z.to_nat n) l); apply pair_equal_spec in B as [<- <-]; (split; [|reflexivity]);
      (match goal with |- context[Ens_Model.average ?a] => destruct (Ens_Model.average a) end; cbn [rbind]; [rewrite SC; simpl; eauto|eauto]). }
  unfold Ens_Model.build_fit in H. destruct (Ens_Model.build_initial _ _ _ _ _ _) as [s1 x1] eqn:E1. apply B in E1 as ((e & ->) & F1).
  injection H as <- <-. split; [eauto|]. split; auto. unfold Ens_Model.predict_mean. rewrite F1. reflexivity.
Qed.
(** C113, what holds: if the metric's arguments make no difference, a table of votes is
    scored by the value the search would use for the classes with most votes (for a
    regressor, for the means). *)
Lemma C113_plain_partial_main : forall K (no_args : K) (m : scorer K) cats y p,
  plain no_args m ->
  (cats <> [] -> Forall (fun shares => length shares = length cats) p -> exists labels,
     Forall2 (winner cats) p labels /\
     classifier_hillclimb no_args m cats y p = (do q <- scorer_value m y (PLabels labels); Ok (Fin (this q)))) /\
  (forall means, p = map (fun q => [q]) means ->
     regressor_hillclimb no_args m y p = (do q <- scorer_value m y (PLabels (map LNum means)); Ok (Fin (this q)))).
Proof.
  intros K no_args m cats y p PL. split.
  - intros NC F. exists (voted cats p). split.
    + unfold voted. induction F as [|r p L _ IH]; simpl; constructor; auto. exists (Ens_Model.argmax r).
      destruct (Ens_Proofs3.argmax_ok r) as [A B]; [intros ->; destruct cats; simpl in *; congruence|]. split; [apply nth_error_nth'; lia|exact B].
    + unfold classifier_hillclimb, maximizable_score, metric_score, scorer_value. rewrite PL. reflexivity.
  - intros means ->. unfold regressor_hillclimb, maximizable_score, metric_score, scorer_value. rewrite PL.
    unfold column_of. rewrite map_map. reflexivity.
Qed.
(** A perfect candidate is of no use. *)
Definition votes3 : Ens_Model.mat := [[1; 0; 0]; [0; 1; 0]; [0; 0; 1]]%Qc.
Definition abc : list label := [LStr "a"; LStr "b"; LStr "c"].
Example C113_ex_main : voted abc votes3 = abc /\ scorer_value recall_macro abc (PLabels (voted abc votes3)) = Ok 1%Qc /\
  snd (Ens_Model.build_fit [Ens_Model.mkEntry 1 (Ok (Some votes3)) (Ok [10])] None None (classifier_hillclimb Binary recall_macro abc abc) 5 (Fin 60) Ens_Model.new_ens) = Err ValueError.
Proof. split; [reflexivity|]. split; [|reflexivity]. vm_compute. f_equal. apply Qc_is_canon. reflexivity. Qed.

(** C114 is false: the options hillclimb_size and max_models of the ensemble post
    processing make no difference; asked for one model, it takes two. *)
Definition squares (y : list Qc) (p : Ens_Model.mat) : res num := Ens_Main.sq_err y p.
Lemma C114_options_refuted_main :
  (forall A row tr (metric : list A -> Ens_Model.mat -> res num) task y left l r size hillclimb hillclimb' models models',
     post_process row tr metric task (ensemble_hps size hillclimb models) y left l r =
     post_process row tr metric task (ensemble_hps size hillclimb' models') y left l r) /\
  exists s x r, post_process Ens_Main.ex_row None squares None (ensemble_hps (VNum 11) VNone (VNum 1)) [Ens_Model.qn 3; Ens_Model.qn 4; 0; 0]%Qc (Fin 60)
    (fst (saves Lib_Main.ex_lib Lib_Main.ex_es [0; 1])) [] = (Ok (s, x), r) /\ length (Ens_Spec.members s) = 2.
Proof.
  split.
  - intros. unfold post_process. assert (E : forall h m, hp (ensemble_hps size h m) "ensemble_size" = Some (if is_none size then VNum 25 else size)) by reflexivity.
    rewrite !E. reflexivity.
  - destruct (post_process Ens_Main.ex_row None squares None (ensemble_hps (VNum 11) VNone (VNum 1)) [Ens_Model.qn 3; Ens_Model.qn 4; 0; 0]%Qc (Fin 60)
      (fst (saves Lib_Main.ex_lib Lib_Main.ex_es [0; 1])) []) as [z r] eqn:E. vm_compute in E. injection E as <- <-. do 3 eexists. split; reflexivity.
Qed.
(** C114, what holds: the ensemble has as many (weighted) members as ensemble_size asks
    for, taken from the 200 best evaluations of the search, and is tuned on the targets
    of the rows whose predictions were kept; with time left, the estimators of the
    members' evaluations are fitted.  (At most 10000
    rows with kept predictions, or they are thinned out.) *)
Lemma C114_size_partial_main : forall A l0 es rr l out (row : nat -> list Qc) tr task k c (metric : list A -> Ens_Model.mat -> res num) (y : list A)
    (size : positive) hillclimb models left r,
  empty_lib l0 -> Forall ordinary es -> distinct es -> saves l0 es rr = (l, out) ->
  l_n l0 <> Some 0 -> l_m l0 <> Some 0 -> 0 < successes (saved out) ->
  (forall e, In e (saved out) -> success e -> exists p, ev_pred e = Some p /\ length p = k) -> length y = k ->
  match l_sample l with KeepAll => k <= 10000 | Rows rows => Forall (fun i => i < k) rows /\ length rows <= 10000 | NotSet => False end ->
  Ens_Spec.readable row tr (length (Ens_Spec.stored (l_sample l) k)) c -> (forall y1, map Some y1 = map (nth_error y) (Ens_Spec.stored (l_sample l) k) ->
     Ens_Spec.scores (length (Ens_Spec.stored (l_sample l) k)) c (metric y1)) ->
  exists s x, post_process row tr metric task (ensemble_hps (VNum (Zpos size # 1)) hillclimb models) y left l r = (Ok (s, x), r) /\
    Ens_Spec.total_weight (Ens_Spec.members s) = Pos.to_nat size /\
    Forall (fun mw => 1 <= snd mw /\ exists t, In t (n_best l 200 true) /\ Ens_Model.m_id (fst mw) = ev_ind (nth_ev (saved out) t) /\
              success (nth_ev (saved out) t)) (Ens_Spec.members s) /\
    NoDup (map (fun mw => Ens_Model.m_id (fst mw)) (Ens_Spec.members s)) /\
    (nlt (Fin 0) left -> (forall e, In e (saved out) -> success e -> ev_est e <> []) ->
       x = Ok tt /\ exists fitted, Ens_Model.e_fit s = Some fitted /\ fitted <> [] /\
         forall e w, In (e, w) fitted <-> exists m t, In (m, w) (Ens_Spec.members s) /\ In t (n_best l 200 true) /\
           Ens_Model.m_id m = ev_ind (nth_ev (saved out) t) /\ In e (ev_est (nth_ev (saved out) t))).
Proof.
  intros A l0 es rr l out row tr task k c metric y size h mm left r H1 H2 H3 H4 H5 H6 H7 H8 HY HS HR HSC.
  assert (I : exists y1, Ens_Model.init y (l_sample l) (Some 10000) r = (Ok (y1, None), r) /\ map Some y1 = map (nth_error y) (Ens_Spec.stored (l_sample l) k)).
  { unfold Ens_Model.init. destruct (l_sample l) as [| |rows].
    - destruct HS.
    - exists y. rewrite HY. apply Nat.leb_le in HS. rewrite HS. split; [reflexivity|]. simpl. subst k. clear. induction y as [|a y IH]; [reflexivity|].
      cbn [length seq map nth_error]. f_equal. rewrite IH, <- seq_shift, map_map. reflexivity.
    - destruct HS as [HF HL].
      assert (P : exists y1, Ens_Model.ypick rows y = Ok y1 /\ length y1 = length rows /\ map Some y1 = map (nth_error y) rows).
      { clear - HF HY. induction HF as [|i rows Hi _ IH]; [exists []; auto|]. destruct IH as (y1 & E & L & M). unfold Ens_Model.ypick in *. cbn [rmap].
        destruct (nth_error y i) as [a|] eqn:N; [|apply nth_error_None in N; lia]. rewrite E. exists (a :: y1). simpl. rewrite N, M. auto. }
      destruct P as (y1 & -> & L & M). exists y1. rewrite L. apply Nat.leb_le in HL. rewrite HL. auto. }
  destruct I as (y1 & I & IY). unfold post_process.
  assert (E : hp (ensemble_hps (VNum (Zpos size # 1)) h mm) "ensemble_size" = Some (VNum (Zpos size # 1))) by reflexivity. rewrite E. cbv beta iota.
  assert (IO : int_of (VNum (Zpos size # 1)) = Ok (Zpos size)).
  { unfold int_of. assert (Q : Qred (Zpos size # 1) = (Zpos size # 1)). { apply (Qred_identity (Zpos size # 1)). apply (Z.gcd_1_r (Zpos size)). } rewrite Q. reflexivity. }
  rewrite IO. unfold build_fit_ensemble.
  assert (I2 : match task with None => Ens_Model.init y (l_sample l) (Some 10000) r | Some q => Ens_Model.init_classifier q y (l_sample l) (Some 10000) r end = (Ok (y1, None), r)).
  { destruct task as [q|]; auto. unfold Ens_Model.init_classifier. rewrite I. reflexivity. }
  rewrite I2. cbn [rbind].
  destruct (Ens_Model.build_fit (Ens_Model.candidates row l 200) tr None (metric y1) (Z.pos size) left Ens_Model.new_ens) as [s x] eqn:B.
  exists s, x. split; [reflexivity|].
  destruct (Ens_Main.C54_history_main l0 es rr l out row tr k c (metric y1) (Z.pos size) left s x H1 H2 H3 H4 H5 H6 H7 H8 HR (HSC y1 IY) B) as (T1 & T2 & T3 & T4 & _).
  split; [rewrite T1; lia|]. auto.
Qed.
Example C114_ex_main : exists l out, saves Lib_Main.ex_lib Lib_Main.ex_es [0; 1] = (l, out) /\ 0 < successes (saved out) /\
  (forall e, In e (saved out) -> success e -> exists p, ev_pred e = Some p /\ length p = 4) /\
  match l_sample l with KeepAll => 4 <= 10000 | Rows rows => Forall (fun i => i < 4) rows /\ length rows <= 10000 | NotSet => False end /\
  exists s x, post_process Ens_Main.ex_row None squares None (ensemble_hps (VNum 3) VNone VNone) [Ens_Model.qn 3; Ens_Model.qn 4; 0; 0]%Qc (Fin 60) l [] = (Ok (s, x), []) /\
    Ens_Spec.total_weight (Ens_Spec.members s) = 3.
Proof.
  destruct (saves Lib_Main.ex_lib Lib_Main.ex_es [0; 1]) as [l out] eqn:E. vm_compute in E. injection E as <- <-. eexists _, _. split; [reflexivity|].
  split; [vm_compute; lia|]. split.
  - intros e He. vm_compute in He. repeat destruct He as [<- |He]; try destruct He; eexists; split; reflexivity.
  - split.
    + cbn [l_sample]. split; [|apply Nat.leb_le; vm_compute; reflexivity]. repeat (constructor; [lia|]); constructor.
    + match goal with |- context[post_process ?a ?b ?c ?d ?e ?f ?g ?h ?i] => destruct (post_process a b c d e f g h i) as [z r] eqn:E end.
      vm_compute in E. injection E as <- <-. do 2 eexists. split; reflexivity.
Qed.

(** C115. Predicting or scoring a file is predicting or scoring the DataFrame of its
    columns other than the target, in their order; the target's values make no
    difference to predictions. *)
Lemma C115_files_main : forall K (no_args : K) O (read_arff read_csv : O -> string -> res frame) no_options to_labels parse_float parse_int other
    classifier g metrics path target o data xs c zs,
  holds (read_arff o) (read_csv o) path data -> target_column data target xs c zs ->
  let x := XFrame (mkFrame (f_index data) (xs ++ zs)) in
  predict_from_file parse_float parse_int other read_arff read_csv g path target o = predict parse_float parse_int other g x /\
  score_from_file parse_float parse_int other no_args read_arff read_csv to_labels classifier g metrics path target o =
    score parse_float parse_int other no_args classifier g metrics x (to_labels [c]) /\
  (o = no_options ->
   predict_proba_from_file parse_float parse_int other read_arff read_csv no_options g path target None = predict_proba parse_float parse_int other true g x).
Proof.
  intros K no_args O ra rc no_options to_labels pf pi other classifier g metrics path target o data xs c zs H T x.
  assert (L : load ra rc o path target = Ok (mkFrame (f_index data) (xs ++ zs), [c])).
  { unfold load, X_y_from_file. assert (F : file_to_pandas (ra o) (rc o) path = Ok data).
    { destruct H as [(p & -> & E)|(p & -> & E)]; destruct (Data_Main.C70_readers_main (ra o) (rc o) p) as [R1 R2]; congruence. }
    rewrite F. cbn [rbind]. destruct T as [E T]. unfold split_frame. destruct target as [s|].
    - destruct T as [N D].
      assert (Ex : existsb (fun d => cname_eqb (c_cname d) (NStr s)) (f_cols data) = true).
      { apply existsb_exists. exists c. rewrite E. split; [apply in_or_app; simpl; auto|]. rewrite N. apply cname_eqb_refl. }
      rewrite Ex, E.
      assert (F1 : forall l, incl l (xs ++ zs) -> filter (fun d => negb (cname_eqb (c_cname d) (NStr s))) l = l /\ filter (fun d => cname_eqb (c_cname d) (NStr s)) l = []).
      { clear - D. induction l as [|d l IH]; intros I; auto. apply incl_cons_inv in I as [I1 I2]. destruct (IH I2) as [J1 J2]. simpl.
        destruct (cname_eqb (c_cname d) (NStr s)) eqn:Q; [apply cname_eqb_eq in Q; exfalso; eapply D; eauto|]. simpl. rewrite J1. auto. }
      destruct (F1 xs) as [A1 A2]; [apply incl_appl, incl_refl|]. destruct (F1 zs) as [B1 B2]; [apply incl_appr, incl_refl|].
      rewrite !filter_app. cbn [filter]. rewrite N, cname_eqb_refl. cbn [negb]. rewrite A1, A2, B1, B2. reflexivity.
    - subst zs. rewrite E, rev_app_distr. simpl. rewrite removelast_last, app_nil_r. reflexivity. }
  split; [|split].
  - unfold predict_from_file. rewrite L. reflexivity.
  - unfold score_from_file. rewrite L. reflexivity.
  - intros ->. unfold predict_proba_from_file. rewrite L. reflexivity.
Qed.
(** C115 is false for predict_proba_from_file with options for the reader (a separator,
    say): it does not take any. *)
Lemma C115_options_refuted_main : forall O (read_arff read_csv : O -> string -> res frame) no_options parse_float parse_int other g path target o,
  predict_proba_from_file parse_float parse_int other read_arff read_csv no_options g path target (Some o) = Err TypeError.
Proof. reflexivity. Qed.
Definition ex_data : frame := mkFrame [0%Z; 1%Z] [mkCol (NStr "a") DFloat [CNum (Q2Qc 1); CMissing]; mkCol (NStr "t") DObject [CStr "?"; CStr "?"]; mkCol (NStr "b") DFloat [CNum (Q2Qc 1); CNum (Q2Qc 2)]].
Example C115_ex_main : holds (fun _ => Err ValueError) (fun _ => Ok ex_data) "d.csv" ex_data /\
  target_column ex_data (Some "t") [mkCol (NStr "a") DFloat [CNum (Q2Qc 1); CMissing]] (mkCol (NStr "t") DObject [CStr "?"; CStr "?"]) [mkCol (NStr "b") DFloat [CNum (Q2Qc 1); CNum (Q2Qc 2)]] /\
  predict_from_file (fun _ => Err ValueError) (fun _ => Err ValueError) (fun _ _ => Err ValueError) (fun _ _ => Err ValueError) (fun (_ : unit) _ => Ok ex_data) ex_gama "d.csv" (Some "t") tt = Ok [LStr "yes"; LStr "no"].
Proof.
  split; [right; exists "d"; split; reflexivity|]. split; [|reflexivity]. split; [reflexivity|]. split; [reflexivity|].
  intros d [<- |[<- |[]]]; discriminate.
Qed.

(** C114: a size that is no whole number is an error. *)
Lemma C114_bad_size_main : forall A (row : nat -> list Qc) tr (metric : list A -> Ens_Model.mat -> res num) task
  options (y : list A) left l r v,
  hp options "ensemble_size" = Some v -> (forall z, v <> VNum (inject_Z z)) -> (forall q, v = VNum q -> Qred q = q) ->
  post_process row tr metric task options y left l r = (Err TypeError, r).
Proof.
  intros A row tr metric task options y left l r v H N R. unfold post_process. rewrite H.
  assert (E : int_of v = Err TypeError); [|rewrite E; reflexivity].
  destruct v as [|q|n]; try reflexivity. unfold int_of. destruct (Pos.eqb (Qden (Qred q)) 1) eqn:E; [|reflexivity].
  apply Pos.eqb_eq in E. rewrite (R q eq_refl) in E. exfalso. apply (N (Qnum q)). destruct q as [a b]. simpl in *. subst. reflexivity.
Qed.

(** C129: without a model there is no answer: every way of asking for predictions,
    probabilities or a score is an error... *)
Lemma C129_no_model_main : forall parse_float parse_int other g, g_model g = None ->
  (forall x, exists e, predict parse_float parse_int other g x = Err e) /\
  (forall classifier x, exists e, predict_proba parse_float parse_int other classifier g x = Err e) /\
  (forall K (no_args : K) classifier metrics x y, exists e, score parse_float parse_int other no_args classifier g metrics x y = Err e).
Proof.
  intros pf pi other g M.
  assert (P : forall x, exists e, predict pf pi other g x = Err e).
  { intros x. unfold predict. destruct (prepare pf pi other g x); cbn [rbind]; [|eauto]. unfold predict_frame. rewrite M. eauto. }
  assert (Q : forall c x, exists e, predict_proba pf pi other c g x = Err e).
  { intros c x. unfold predict_proba. destruct c; [|eauto]. destruct (prepare pf pi other g x); cbn [rbind]; [|eauto]. unfold predict_proba_frame. rewrite M. eauto. }
  split; [exact P|]. split; [exact Q|]. intros K na c [|m ms] x y; simpl; [eauto|]. destruct (s_proba m).
  - destruct (Q c x) as (e & ->). simpl. eauto.
  - destruct (P x) as (e & ->). simpl. eauto.
Qed.
(** ... namely AttributeError on an object that was never fitted ... *)
Lemma C129_unfitted_main : forall parse_float parse_int other x,
  predict parse_float parse_int other unfitted x = Err AttributeError /\
  (forall classifier, predict_proba parse_float parse_int other classifier unfitted x = Err AttributeError) /\
  (forall K (no_args : K) classifier m ms y, score parse_float parse_int other no_args classifier unfitted (m :: ms) x y = Err AttributeError).
Proof.
  intros pf pi other x. assert (P : predict pf pi other unfitted x = Err AttributeError) by (destruct x; reflexivity).
  assert (Q : forall c, predict_proba pf pi other c unfitted x = Err AttributeError) by (intros []; destruct x; reflexivity).
  split; [exact P|]. split; [exact Q|]. intros K na c m ms y. unfold score. rewrite P, Q. destruct (s_proba m); reflexivity.
Qed.
(** ... and a regressor never gives probabilities, whatever its model; data that is
    neither an array nor a DataFrame is refused by the encoders. *)
Lemma C129_regressor_main : forall parse_float parse_int other g,
  (forall x, predict_proba parse_float parse_int other false g x = Err AttributeError) /\
  (forall t, g_transform g = Some t -> predict parse_float parse_int other g XOther = Err ValueError).
Proof. intros pf pi other g. split; [reflexivity|]. intros t H. unfold predict, prepare. rewrite H. reflexivity. Qed.
Example C129_ex_main : g_model (mkGama [TPlain DFloat] (Some (fun f => Ok f)) (Some [LStr "a"]) None) = None /\
  predict (fun _ => Err ValueError) (fun _ => Err ValueError) (fun _ _ => Err ValueError) (mkGama [TPlain DFloat] (Some (fun f => Ok f)) (Some [LStr "a"]) None) (XArr 1 [(DFloat, [CMissing])]) = Err AttributeError.
Proof. split; reflexivity. Qed.

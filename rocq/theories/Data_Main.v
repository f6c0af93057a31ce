(*IMPORTS*)
From Verif Require Import Base Data_Model Data_Spec.
Require Import Ascii Qcanon.
Open Scope string_scope.
Open Scope list_scope.
Open Scope nat_scope.
(*END*)
From Verif Require Str_Proofs.
From Verif Require Import Data_Proofs Data_Proofs2 Str_Model.

(** C66: format_x_y drops exactly the rows without a label, and row i of x still
    belongs to label i, for every x and y whose indices agree. *)
Lemma C66_aligned_main :
  forall x y t f y0,
    format_x_y x y t false = Ok (f, y0) -> rectangular f -> is_target y0 -> y_index y0 = f_index f ->
    exists f' y', format_x_y x y t true = Ok (f', y') /\ rectangular f' /\ header f' = header f /\ y_index y' = f_index f' /\
      length (labels y') = length (rows f') /\
      combine (rows f') (labels y') = filter labelled (combine (rows f) (labels y0)).
Proof.
  intros x y t f y0 H R T I. unfold format_x_y in *.
  destruct (match x with XOther => _ | _ => _ end) as [g|]; [|discriminate]. cbn [rbind] in *. destruct (format_y y t) as [z|]; [|discriminate]. cbn [rbind] in *.
  injection H as -> ->. destruct (remove_spec f y0 R T I) as (f' & y' & A & B & _ & C & D & E & F). exists f', y'. repeat (split; [assumption|]). assumption.
Qed.
(** numpy input: only the shapes must agree. *)
Lemma C66_numpy_main :
  forall n cols ls f y0,
    length ls = n -> Forall (fun c => length (snd c) = n) cols -> format_x_y (XArr n cols) (YVec ls) TSeries false = Ok (f, y0) ->
    labels y0 = ls /\
    exists f' y', format_x_y (XArr n cols) (YVec ls) TSeries true = Ok (f', y') /\
      length (labels y') = length (rows f') /\ combine (rows f') (labels y') = filter labelled (combine (rows f) ls).
Proof.
  intros n cols ls f y0 L F H. assert (E : y0 = OSeries (index_from_0 ls) /\ numpy_to_dataframe n cols = Ok f).
  { unfold format_x_y in H. destruct (numpy_to_dataframe n cols) as [g|]; [|discriminate]. simpl in H. injection H as -> <-. auto. }
  destruct E as [-> E]. 
  assert (Lab : labels (OSeries (index_from_0 ls)) = ls).
  { simpl. unfold index_from_0, enumerate. rewrite map_map. simpl. generalize 0. clear. induction ls as [|l ls IH]; intros k; simpl; f_equal; auto. }
  split; [exact Lab|].
  assert (Idx : y_index (OSeries (index_from_0 ls)) = map Z.of_nat (seq 0 n)).
  { simpl. unfold index_from_0, enumerate. rewrite map_map. simpl. subst n. generalize 0. clear. induction ls as [|l ls IH]; intros k; simpl; f_equal; auto. }
  unfold numpy_to_dataframe, infer_categoricals in E. cbn [f_cols f_index] in E. destruct (rmap infer_column _) as [cs|] eqn:RM; [|discriminate]. cbn [rbind] in E. injection E as <-.
  apply rmap_forall2 in RM.
  destruct (C66_aligned_main (XArr n cols) (YVec ls) TSeries _ _ H) as (f' & y' & A & _ & _ & _ & B & C).
  - unfold rectangular. cbn [f_cols f_index]. rewrite map_length, seq_length.
    assert (G : forall cs0 cs', Forall2 (fun a b => infer_column a = Ok b) cs0 cs' -> Forall (fun c => length (c_cells c) = n) cs0 -> Forall (fun c => length (c_cells c) = n) cs').
    { induction 1 as [|a b l l' Hab _ IH]; intros Hf; constructor; inversion Hf; subst; auto. unfold infer_column in Hab. destruct (looks_categorical a) as [[|]|]; simpl in Hab; try discriminate; injection Hab as <-; auto. }
    apply (G _ _ RM). unfold enumerate. generalize 0. clear - F. induction F as [|c cols Hc F IH]; intros k; simpl; constructor; auto.
  - exact Logic.I.
  - rewrite Idx. reflexivity.
  - exists f', y'. rewrite Lab in C. auto.
Qed.
(** Before rows are dropped: a DataFrame is used as it is, and the columns of an
    array keep their order and their cells, in every row; the target takes the
    form asked for (C96). *)
Lemma C66_inputs_main :
  forall y t f y0,
    (forall x, format_x_y x y t false = Ok (f, y0) -> format_y y t = Ok y0) /\
    (forall g, format_x_y (XFrame g) y t false = Ok (f, y0) -> f = g) /\
    (forall n cols, format_x_y (XArr n cols) y t false = Ok (f, y0) ->
       map c_cells (f_cols f) = map snd cols /\ f_index f = map Z.of_nat (seq 0 n)).
Proof.
  intros y t f y0. split; [|split].
  - intros x E. unfold format_x_y in E. destruct x as [n cols|g|]; [destruct (numpy_to_dataframe n cols)| |]; try discriminate E; cbn [rbind] in E; destruct (format_y y t); try discriminate E; injection E as _ <-; reflexivity.
  - intros g E. unfold format_x_y in E. cbn [rbind] in E. destruct (format_y y t); [|discriminate]. injection E as <- _. reflexivity.
  - intros n cols E. unfold format_x_y in E. destruct (numpy_to_dataframe n cols) as [g|] eqn:N; [|discriminate]. cbn [rbind] in E. destruct (format_y y t); [|discriminate]. injection E as <- _.
    unfold numpy_to_dataframe, infer_categoricals in N. cbn [f_cols f_index] in N. destruct (rmap infer_column _) as [cs|] eqn:RM; [|discriminate]. injection N as <-. split; [|reflexivity]. cbn [f_cols].
    apply rmap_forall2 in RM. revert RM. unfold enumerate. generalize 0. revert cs. induction cols as [|c cols IH]; intros cs k RM; cbn [enum_from map] in RM; inversion RM as [|? c' ? cs' E F]; subst; [reflexivity|].
    cbn [map]. f_equal; [|exact (IH _ _ F)]. unfold infer_column in E. destruct (looks_categorical _) as [[|]|]; cbn [rbind] in E; try discriminate; injection E as <-; reflexivity.
Qed.
Example C66_ex_main :
  exists f y0 f' y', format_x_y (XArr 3 [(DInt, [CNum 1%Qc; CNum 0%Qc; CNum 1%Qc])]) (YVec [LStr "a"; LMissing; LStr "b"]) TSeries false = Ok (f, y0) /\
    rectangular f /\ is_target y0 /\ y_index y0 = f_index f /\
    format_x_y (XArr 3 [(DInt, [CNum 1%Qc; CNum 0%Qc; CNum 1%Qc])]) (YVec [LStr "a"; LMissing; LStr "b"]) TSeries true = Ok (f', y') /\
    labels y' = [LStr "a"; LStr "b"] /\ rows f' = [[Some (CNum 1%Qc)]; [Some (CNum 1%Qc)]].
Proof. do 4 eexists. split; [reflexivity|]. split; [repeat constructor|]. split; [exact Logic.I|]. split; [reflexivity|]. split; [reflexivity|]. split; reflexivity. Qed.
(** But a classifier given text labels encodes them first, the missing label
    included: no row is dropped and "missing" becomes a class of its own. *)
Lemma C66_text_labels_refuted_main :
  forall x ls classes f y',
    In LMissing ls -> (exists s, In (LStr s) ls) -> classifier_format x (YVec ls) = Ok (classes, (f, y')) ->
    length (labels y') = length ls /\ In LMissing classes /\ ~ In LMissing (labels y').
Proof.
  intros x ls classes f y' HM (t & Ht) H. assert (HS : existsb is_str ls = true) by (apply existsb_exists; exists (LStr t); auto). unfold classifier_format in H. cbn [rbind] in H. rewrite HS in H.
  destruct (classifier_labels ls) as [[cs ys]|] eqn:E; [|discriminate]. cbn [rbind] in H.
  unfold classifier_labels in E. destruct (label_classes ls) as [cs0|] eqn:C; [|discriminate]. cbn [rbind] in E. rewrite HS in E.
  destruct (rmap (encode_label cs0) ls) as [ys0|] eqn:R; [|discriminate]. cbn [rbind] in E. injection E as -> ->. apply rmap_forall2 in R.
  assert (NM : forall l, In l ys -> unlabelled l = false).
  { intros l Hl. apply In_nth_error in Hl as (i & Hi). destruct (Forall2_nth_r _ _ _ _ _ R Hi) as (d & _ & Ed). unfold encode_label in Ed. destruct (position d cs); [|discriminate]. injection Ed as <-. reflexivity. }
  assert (Lab : forall ls0, labels (OSeries (index_from_0 ls0)) = ls0).
  { intros l0. simpl. unfold index_from_0, enumerate. rewrite map_map. simpl. generalize 0. clear. induction l0 as [|l ls IH]; intros k; simpl; f_equal; auto. }
  unfold format_x_y in H. destruct (match x with XOther => _ | _ => _ end) as [g|]; [|discriminate]. cbn [rbind format_y] in H.
  assert (Y : y' = OSeries (index_from_0 ys) /\ classes = cs).
  { unfold remove_unlabeled_rows in H. cbn [rbind] in H. rewrite existsb_map in H. simpl in H.
    assert (X : existsb (fun x0 => unlabelled (snd x0)) (index_from_0 ys) = false).
    { rewrite <- (existsb_map snd unlabelled). pose proof (Lab ys) as L. simpl in L. rewrite L. destruct (existsb unlabelled ys) eqn:Ex; auto. apply existsb_exists in Ex as (l & Hl & Ul). rewrite NM in Ul; auto. }
    rewrite X in H. simpl in H. injection H as -> _ <-. auto. }
  destruct Y as [-> ->]. rewrite Lab. split; [symmetry; revert R; clear; induction 1; simpl; auto|]. split; [apply (classes_in ls cs LMissing C); auto|].
  intros K. apply NM in K. discriminate.
Qed.
Example C66_text_ex_main :
  exists classes f y', classifier_format (XArr 3 [(DInt, [CNum 1%Qc; CNum 0%Qc; CNum 1%Qc])]) (YVec [LStr "a"; LMissing; LStr "b"]) = Ok (classes, (f, y')) /\
    classes = [LStr "a"; LStr "b"; LMissing] /\ length (labels y') = 3.
Proof. do 3 eexists. split; [reflexivity|]. split; reflexivity. Qed.

(** C67 is false: with different indices the rows of x are dropped by index
    label, so features end up with labels of other rows, or the call fails. *)
Lemma C67_alignment_refuted_main :
  exists f y f' y',
    rectangular f /\ is_target y /\ length (labels y) = length (rows f) /\ NoDup (f_index f) /\ NoDup (y_index y) /\
    format_x_y (XFrame f) (match y with OSeries s => YSeries s | _ => YOther end) TSeries true = Ok (f', y') /\
    length (labels y') = length (rows f') /\
    (exists r l, In (r, l) (combine (rows f') (labels y')) /\ ~ In (r, l) (combine (rows f) (labels y))).
Proof.
  exists (mkFrame [0%Z; 1%Z] [mkCol (NStr "a") DInt [CNum 1%Qc; CNum 0%Qc]]), (OSeries [(1%Z, LMissing); (0%Z, LStr "yes")]). do 2 eexists.
  split; [repeat constructor|]. split; [exact Logic.I|]. split; [reflexivity|]. split; [repeat constructor; simpl; intuition discriminate|]. split; [repeat constructor; simpl; intuition discriminate|].
  split; [reflexivity|]. split; [reflexivity|]. exists [Some (CNum 1%Qc)], (LStr "yes"). split; [simpl; auto|]. simpl. intros [K|[K|[]]]; [discriminate|].
  apply (f_equal (fun p => match fst p with [Some (CNum q)] => Qnum (this q) | _ => 0%Z end)) in K. discriminate.
Qed.
Lemma C67_error_refuted_main :
  exists f s, rectangular f /\ length s = length (rows f) /\ NoDup (f_index f) /\ NoDup (map fst s) /\
    format_x_y (XFrame f) (YSeries s) TSeries true = Err IndexingError.
Proof.
  exists (mkFrame [10%Z; 11%Z] [mkCol (NStr "a") DInt [CNum 1%Qc; CNum 0%Qc]]), [(0%Z, LMissing); (1%Z, LStr "yes")].
  split; [repeat constructor|]. split; [reflexivity|]. split; [repeat constructor; simpl; intuition discriminate|]. split; [repeat constructor; simpl; intuition discriminate|]. reflexivity.
Qed.
(** It holds when every row has a label: nothing is changed. *)
Lemma C67_all_labelled_partial_main :
  forall x y t f y0, format_x_y x y t false = Ok (f, y0) -> is_target y0 -> ~ In LMissing (labels y0) ->
    format_x_y x y t true = Ok (f, y0).
Proof.
  intros x y t f y0 H T N. unfold format_x_y in *.
  destruct (match x with XOther => _ | _ => _ end) as [g|]; [|discriminate]. cbn [rbind] in *. destruct (format_y y t) as [z|]; [|discriminate]. cbn [rbind] in *.
  injection H as -> ->. assert (Hex : existsb unlabelled (labels y0) = false).
  { destruct (existsb unlabelled (labels y0)) eqn:E; auto. apply existsb_exists in E as (l & Hl & U). destruct l; try discriminate. tauto. }
  unfold remove_unlabeled_rows. destruct y0 as [s|w rs|l]; [|destruct w as [|w]; [simpl in T; lia|]|destruct T]; simpl in Hex |- *; rewrite existsb_map in Hex; rewrite existsb_map; simpl; rewrite Hex; reflexivity.
Qed.
Example C67_ex_main : exists f y0, format_x_y (XFrame (mkFrame [5%Z] [mkCol (NStr "a") DInt [CNum 1%Qc]])) (YSeries [(7%Z, LStr "b")]) TSeries false = Ok (f, y0) /\ is_target y0 /\ ~ In LMissing (labels y0).
Proof. do 2 eexists. split; [reflexivity|]. split; [exact Logic.I|]. simpl. intuition discriminate. Qed.

(** C68: every categorical column gets exactly one encoder, the one its number
    of factors asks for; nothing else gets any. *)
Lemma C68_one_encoder_main :
  forall fit_transform x classification x' steps extension,
    (forall s f f', fit_transform s f = Ok f' -> encodes s f f') ->
    preprocess fit_transform x classification = Ok (x', steps, extension) ->
    (forall c n, In c (f_cols x) -> factors c n ->
       encoders_of (c_cname c) (steps ++ extension) = if of_category c then [encoder_for classification n] else []) /\
    (forall n, ~ In n (map c_cname (f_cols x)) -> encoders_of n (steps ++ extension) = []) /\
    (forall c, In c (f_cols x) -> exists n, factors c n /\ forall m, factors c m -> m = n).
Proof.
  intros ft x clf x' s1 s2 H E. destruct (preprocess_spec ft H x clf x' s1 s2 E) as [A B]. split; [exact A|]. split; [exact B|].
  intros c _. exists (nunique c). split; [apply factors_nunique|]. intros m. apply factors_unique.
Qed.
Definition ex_ft (s : enc_step) (f : frame) : res frame :=
  Ok (mkFrame (f_index f) (map (fun c => if existsb (cname_eqb (c_cname c)) (st_columns s) then mkCol (c_cname c) DFloat (c_cells c) else c) (f_cols f))).
(** And missing values are imputed last, in every pipeline. *)
Lemma C68_imputation_main :
  forall fit_transform x classification x' steps extension,
    preprocess fit_transform x classification = Ok (x', steps, extension) ->
    exists before, steps ++ extension = before ++ [mkStep "imputation" Imputer []].
Proof.
  intros ft x cl x' steps ext E. unfold preprocess in E. destruct (basic_encoding ft x cl) as [[x1 st]|]; [|discriminate]. cbn [rbind] in E.
  destruct (basic_pipeline_extension x1 cl) as [e|] eqn:P; [|discriminate]. cbn [rbind] in E. injection E as _ <- <-. unfold basic_pipeline_extension in P.
  destruct (if cl then _ else _) as [tg|]; [|discriminate]. cbn [rbind] in P. injection P as <-. exists (st ++ tg). rewrite app_assoc. reflexivity.
Qed.
Example C68_ex_main :
  (forall s f f', ex_ft s f = Ok f' -> encodes s f f') /\
  exists x', preprocess ex_ft (mkFrame [0%Z; 1%Z; 2%Z] [mkCol (NStr "a") DCategory [CStr "x"; CStr "y"; CStr "z"]; mkCol (NStr "b") DFloat [CMissing; CMissing; CMissing]; mkCol (NStr "c") DCategory [CStr "u"; CMissing; CStr "u"]]) false
    = Ok (x', [mkStep "ord-enc" Ordinal [NStr "c"]; mkStep "oh-enc" OneHot [NStr "a"]], [mkStep "target_enc" Target []; mkStep "imputation" Imputer []]).
Proof.
  split.
  - intros s f f' H. injection H as <-. unfold encodes. simpl. induction (f_cols f) as [|c cs IH]; simpl; auto.
    destruct (existsb (cname_eqb (c_cname c)) (st_columns s)); simpl; [rewrite andb_false_r; exact IH|]. rewrite andb_true_r. destruct (of_category c); rewrite IH; reflexivity.
  - eexists. reflexivity.
Qed.

(** C69: predict returns the user's labels: if the model's output for a row is
    what it was trained with on row i, the prediction is the user's label i. *)
Lemma C69_labels_decoded_main :
  forall y classes y' raw,
    classifier_labels y = Ok (classes, y') -> raw <> [] -> (forall r, In r raw -> In r y' /\ r <> LMissing) ->
    exists out, classifier_predict classes raw = Ok out /\
      Forall2 (fun r d => In d y /\ forall i, nth_error y' i = Some r -> nth_error y i = Some d) raw out.
Proof. exact predict_decodes. Qed.
Lemma C69_labels_accepted_main :
  forall y, ((exists s, In (LStr s) y) -> (exists q, In (LNum q) y) -> classifier_labels y = Err TypeError) /\
            (~ ((exists s, In (LStr s) y) /\ (exists q, In (LNum q) y)) -> exists r, classifier_labels y = Ok r).
Proof.
  intros y. split.
  - intros (s & Hs) (q & Hq). unfold classifier_labels, label_classes. 
    assert (A : existsb is_str y = true) by (apply existsb_exists; exists (LStr s); auto). assert (B : existsb is_num y = true) by (apply existsb_exists; exists (LNum q); auto).
    rewrite A, B. reflexivity.
  - intros N. apply encoding_total. intros [A B]. apply N. apply existsb_exists in A as (a & Ha & Ea), B as (b & Hb & Eb). destruct a; try discriminate. destruct b; try discriminate. eauto.
Qed.
(** The classes are the different labels, in ascending order, a missing label last. *)
Lemma C69_classes_main :
  forall y classes y', classifier_labels y = Ok (classes, y') ->
    (forall l, In l classes <-> In l y) /\
    forall i j a b, i < j -> nth_error classes i = Some a -> nth_error classes j = Some b -> label_before a b.
Proof.
  intros y cs y' H. assert (C : label_classes y = Ok cs).
  { unfold classifier_labels in H. destruct (label_classes y) as [c|]; [|discriminate]. cbn [rbind] in H. destruct (existsb is_str y); [destruct (rmap _ y); [|discriminate]; cbn [rbind] in H|]; injection H as <- _; reflexivity. }
  split; [intros l; apply classes_in; auto|]. apply ss_nth. eapply classes_sorted; eauto.
Qed.
(** An output that stands for no class is an error, not some class. *)
Lemma C69_unknown_main :
  forall y classes y' r rest, classifier_labels y = Ok (classes, y') -> ~ In r y ->
    (forall k, k < length classes -> r <> num_of_nat k) -> classifier_predict classes (r :: rest) = Err ValueError.
Proof.
  intros y cs y' r rest H N K. destruct (C69_classes_main y cs y' H) as [I _]. unfold classifier_predict.
  destruct (existsb (label_eqb r) cs) eqn:E.
  - exfalso. apply existsb_exists in E as (c & Hc & Ec). apply label_eqb_eq in Ec. subst. apply N, I. auto.
  - assert (D : forall cs i, (forall k, i <= k < i + length cs -> r <> num_of_nat k) -> decode_from i cs r = Err ValueError).
    { clear. induction cs as [|c cs IH]; intros i K; [reflexivity|]. cbn [decode_from]. destruct (label_eqb r (num_of_nat i)) eqn:E.
      - apply label_eqb_eq in E. exfalso. apply (K i); auto. simpl. lia.
      - apply IH. intros k Hk. apply K. simpl. lia. }
    cbn [rmap]. unfold decode_label. rewrite D; [reflexivity|]. intros k Hk. apply K. lia.
Qed.
Example C69_ex_main : exists y', classifier_labels [LStr "no"; LStr "yes"; LStr "no"] = Ok ([LStr "no"; LStr "yes"], y') /\
  classifier_predict [LStr "no"; LStr "yes"] [num_of_nat 1; num_of_nat 0] = Ok [LStr "yes"; LStr "no"] /\
  (forall r, In r [num_of_nat 1; num_of_nat 0] -> In r y' /\ r <> LMissing).
Proof. eexists. split; [reflexivity|]. split; [reflexivity|]. intros r [<-|[<-|[]]]; split; try discriminate; simpl; auto. Qed.

(** C70: X_y_from_file returns the named or last column, and the others in order. *)
Lemma C70_split_main :
  forall read_arff read_csv path data,
    file_to_pandas read_arff read_csv path = Ok data ->
    (forall xs c, f_cols data = xs ++ [c] -> X_y_from_file read_arff read_csv path None = Ok (mkFrame (f_index data) xs, [c])) /\
    (forall xs c zs s, distinct_columns data -> f_cols data = xs ++ c :: zs -> c_cname c = NStr s ->
       X_y_from_file read_arff read_csv path (Some s) = Ok (mkFrame (f_index data) (xs ++ zs), [c])) /\
    (forall s, (forall c, In c (f_cols data) -> c_cname c <> NStr s) -> X_y_from_file read_arff read_csv path (Some s) = Err ValueError).
Proof.
  intros ra rc path data H. unfold X_y_from_file. rewrite H. cbn [rbind]. split; [|split].
  - intros xs c E. unfold split_frame. rewrite E, rev_app_distr. simpl. rewrite removelast_last. reflexivity.
  - intros xs c zs s D E Hs. unfold split_frame. unfold distinct_columns in D. rewrite E in *.
    assert (Ex : existsb (fun d => cname_eqb (c_cname d) (NStr s)) (xs ++ c :: zs) = true).
    { apply existsb_exists. exists c. split; [apply in_or_app; simpl; auto|]. rewrite Hs. apply cname_eqb_refl. }
    rewrite Ex. rewrite (filter_one _ (NStr s) c D) by (auto; apply in_or_app; simpl; auto). do 3 f_equal.
    rewrite filter_app. simpl. rewrite Hs, cname_eqb_refl. simpl. 
    assert (NI : forall d, In d (xs ++ zs) -> c_cname d <> NStr s).
    { intros d Hd K. rewrite map_app in D. simpl in D. apply NoDup_remove_2 in D. apply D. rewrite <- map_app, Hs, <- K. apply in_map. auto. }
    assert (Fl : forall l, incl l (xs ++ zs) -> filter (fun d => negb (cname_eqb (c_cname d) (NStr s))) l = l).
    { intros l Hl. apply filter_id. intros d Hd. destruct (cname_eqb (c_cname d) (NStr s)) eqn:K; auto. apply cname_eqb_eq in K. exfalso. eapply NI; eauto. }
    rewrite !Fl; auto; [apply incl_appr, incl_refl|apply incl_appl, incl_refl].
  - intros s N. unfold split_frame. destruct (existsb (fun c => cname_eqb (c_cname c) (NStr s)) (f_cols data)) eqn:Ex; auto.
    apply existsb_exists in Ex as (c & Hc & K). apply cname_eqb_eq in K. exfalso. eapply N; eauto.
Qed.
(** the extension decides about the reader *)
Lemma ends_with_app suf p : ends_with suf (p ++ suf)%string = true.
Proof.
  induction p as [|c p IH].
  - change ("" ++ suf)%string with suf. destruct suf; cbn [ends_with]; rewrite String.eqb_refl; reflexivity.
  - change (String c p ++ suf)%string with (String c (p ++ suf)). cbn [ends_with]. rewrite IH. apply orb_true_r.
Qed.
Lemma ends_with_iff suf s : ends_with suf s = true -> exists p, s = (p ++ suf)%string.
Proof.
  induction s as [|c s IH]; cbn [ends_with]; intros H; apply orb_true_iff in H as [H|H]; try discriminate.
  - apply String.eqb_eq in H. exists "". auto.
  - apply String.eqb_eq in H. exists "". auto.
  - destruct (IH H) as (p & ->). exists (String c p). reflexivity.
Qed.
Lemma app_inj_len (a b : string) : forall p q, (p ++ a)%string = (q ++ b)%string -> String.length a = String.length b -> a = b.
Proof.
  assert (L : forall p (a : string), String.length (p ++ a)%string = String.length p + String.length a) by (induction p; simpl; auto).
  induction p as [|c p IH]; intros [|d q] E H; simpl in E; auto.
  - apply (f_equal String.length) in E. simpl in E. rewrite L in E. lia.
  - apply (f_equal String.length) in E. simpl in E. rewrite L in E. lia.
  - injection E as _ E. eauto.
Qed.
Lemma last_char (a : string) : forall p q x y, (p ++ String x "")%string = (q ++ String y "")%string -> x = y.
Proof. intros p q x y E. apply app_inj_len in E; auto. congruence. Qed.
Lemma C70_readers_main : forall read_arff read_csv p,
  file_to_pandas read_arff read_csv (p ++ ".arff")%string = read_arff (p ++ ".arff")%string /\
  file_to_pandas read_arff read_csv (p ++ ".csv")%string = read_csv (p ++ ".csv")%string.
Proof.
  intros ra rc p. unfold file_to_pandas. rewrite !ends_with_app. split; auto.
  destruct (ends_with ".arff" (p ++ ".csv")) eqn:E; auto. exfalso. apply ends_with_iff in E as (q & E).
  assert (A : forall a b c : string, ((a ++ b) ++ c)%string = (a ++ (b ++ c))%string) by (induction a; simpl; intros; congruence).
  change ".csv" with (".cs" ++ String "v" "")%string in E. change ".arff" with (".arf" ++ String "f" "")%string in E. rewrite <- !A in E.
  apply (last_char "") in E. discriminate.
Qed.
(** other extensions are refused *)
Lemma C70_extension_main :
  forall read_arff read_csv path split_column,
    (forall p, path <> (p ++ ".arff")%string) -> (forall p, path <> (p ++ ".csv")%string) ->
    X_y_from_file read_arff read_csv path split_column = Err ValueError.
Proof.
  intros ra rc path sc H1 H2. assert (G : forall suf s, ends_with suf s = true -> exists p, s = (p ++ suf)%string).
  { intros suf s. induction s as [|c s IH]; cbn [ends_with]; intros H; apply orb_true_iff in H as [H|H]; try discriminate.
    - apply String.eqb_eq in H. exists "". auto.
    - apply String.eqb_eq in H. exists "". auto.
    - destruct (IH H) as (p & ->). exists (String c p). reflexivity. }
  unfold X_y_from_file, file_to_pandas. destruct (ends_with ".arff" path) eqn:E1; [apply G in E1 as (p & E1); exfalso; eapply H1; eauto|].
  destruct (ends_with ".csv" path) eqn:E2; [apply G in E2 as (p & E2); exfalso; eapply H2; eauto|]. reflexivity.
Qed.
Example C70_ex_main : exists data, file_to_pandas (fun _ => Err TypeError) (fun _ => Ok data) "d.csv" = Ok data /\ distinct_columns data /\
  X_y_from_file (fun _ => Err TypeError) (fun _ => Ok data) "d.csv" (Some "b") = Ok (mkFrame [0%Z] [mkCol (NStr "a") DInt [CNum 1%Qc]; mkCol (NStr "c") DInt [CNum 1%Qc]], [mkCol (NStr "b") DObject [CStr "x"]]).
Proof.
  exists (mkFrame [0%Z] [mkCol (NStr "a") DInt [CNum 1%Qc]; mkCol (NStr "b") DObject [CStr "x"]; mkCol (NStr "c") DInt [CNum 1%Qc]]). split; [reflexivity|].
  split; [|reflexivity]. repeat constructor; simpl; intuition discriminate.
Qed.

(** C89 is false: a file without a line starting with @data (an empty file, a
    truncated one, or one ending in "@data" without newline) is read forever. *)
Lemma C89_loops_refuted_main :
  forall file, ~ Exists data_line (seen file) -> Forall (fun l => ~ declaration_line l) (seen file) ->
    forall fuel, load_arff_metadata fuel file = Err Diverges.
Proof.
  intros [|l rest] N F fuel; unfold load_arff_metadata; apply arff_plain_diverges; rewrite <- ?seen_chop; auto.
  - intros K. inversion K as [? ? K'|? ? K']; subst; [destruct K'|inversion K'].
  - repeat constructor. apply decl_empty.
Qed.
Lemma C89_example_refuted_main :
  (forall fuel, load_arff_metadata fuel [] = Err Diverges) /\
  (forall fuel, load_arff_metadata fuel [("@relation r" ++ newline)%string; "@data"] = Err Diverges).
Proof.
  split; intros fuel; apply C89_loops_refuted_main; simpl.
  - intros K; inversion K.
  - constructor.
  - intros K. inversion K as [? ? K'|? ? K']; subst; [apply data_iff in K'; discriminate|]. inversion K' as [? ? K2|? ? K2]; subst; [apply data_iff in K2; discriminate|inversion K2].
  - repeat constructor; apply decl_no; reflexivity.
Qed.
(** It terminates on every file with such a line, and never without one (except
    for a malformed declaration). *)
Lemma C89_terminates_partial_main :
  forall file,
    (Exists data_line (seen file) -> forall fuel, length file < fuel -> load_arff_metadata fuel file <> Err Diverges) /\
    (~ Exists data_line (seen file) -> forall fuel, load_arff_metadata fuel file = Err Diverges \/ load_arff_metadata fuel file = Err ValueError).
Proof.
  intros [|l rest]; split.
  - intros K. inversion K.
  - intros _ fuel. unfold load_arff_metadata. apply arff_diverges. intros K. inversion K as [? ? K'|? ? K']; subst; [destruct K'|inversion K'].
  - rewrite seen_chop. intros K fuel Hf. unfold load_arff_metadata. apply arff_terminates; [simpl in Hf; lia|exact K].
  - rewrite seen_chop. intros K fuel. unfold load_arff_metadata. apply arff_diverges. exact K.
Qed.
(** and returns the declared names and types, in order: a quoted name without its
    quotes, blanks included *)
Lemma C89_declarations_partial_main :
  forall relation decls lines tail fuel,
    ~ data_line relation -> ~ declaration_line relation ->
    Forall2 declared decls lines -> NoDup (map fst decls) -> S (length decls) < fuel ->
    load_arff_metadata fuel (relation :: lines ++ ("@data" ++ newline)%string :: tail) = Ok decls.
Proof. intros rel decls lines tail fuel A B F N L. unfold load_arff_metadata. apply (arff_reads decls lines fuel rel [] tail); auto. Qed.
Example C89_ex_main : written "age" "age" /\ written "my age" (String quote_char "my age" ++ String quote_char "")%string /\
  ~ data_line "@relation r" /\ ~ declaration_line "@relation r" /\ Exists data_line (seen ["@relation r"; "@DATA" ++ newline])%string /\
  load_arff_metadata 9 ["@relation r"; "@attribute age numeric" ++ newline; "@Data" ++ newline]%string = Ok [("age", "numeric")].
Proof.
  split; [left; split; [reflexivity|]; split; [|split; discriminate]|].
  { intros (x & y & E). do 3 (destruct x as [|? x]; [discriminate E|]; injection E as _ E). destruct x; discriminate E. }
  split; [right; split; [reflexivity|]|].
  { intros (x & y & E). do 6 (destruct x as [|? x]; [discriminate E|]; injection E as _ E). destruct x; discriminate E. }
  split; [apply data_no; reflexivity|]. split; [apply decl_no; reflexivity|]. split; [|reflexivity]. right. left. apply data_iff. reflexivity.
Qed.

(** C94: guessing categorical columns changes only the dtype, exactly for
    objects and whole numbers with at most ten different values... *)
Lemma C94_categorical_partial_main :
  forall f, Forall (fun c => ~ no_is_integer (c_dtype c)) (f_cols f) ->
    exists f', infer_categoricals f = Ok f' /\ f_index f' = f_index f /\
      Forall2 (fun c c' => c_cname c' = c_cname c /\ c_cells c' = c_cells c /\ (c_dtype c' = DCategory <-> categorical_when c) /\ (c_dtype c' <> DCategory -> c' = c)) (f_cols f) (f_cols f').
Proof.
  intros [idx cols] F. unfold infer_categoricals. cbn [f_cols f_index] in *.
  assert (G : exists cs, rmap infer_column cols = Ok cs /\ Forall2 (fun c c' => c_cname c' = c_cname c /\ c_cells c' = c_cells c /\ (c_dtype c' = DCategory <-> categorical_when c) /\ (c_dtype c' <> DCategory -> c' = c)) cols cs).
  { induction F as [|c cols Hc F IH]; [exists []; split; auto|]. destruct (infer_ok c Hc) as (c' & E & X). destruct IH as (cs & R & Y). exists (c' :: cs). simpl. rewrite E. cbn [rbind]. rewrite R. split; [reflexivity|]. constructor; auto. }
  destruct G as (cs & R & Y). exists (mkFrame idx cs). rewrite R. auto.
Qed.
(** ... but it fails on every boolean or unsigned column with a value. *)
Lemma C94_boolean_refuted_main :
  forall idx c, no_is_integer (c_dtype c) -> (exists x, In x (c_cells c) /\ x <> CMissing) ->
    infer_categoricals (mkFrame idx [c]) = Err AttributeError.
Proof. intros idx c N X. unfold infer_categoricals. cbn [f_cols rmap]. rewrite (infer_attribute_error c N X). reflexivity. Qed.
Example C94_ex_main : ~ no_is_integer DFloat /\ no_is_integer DBool /\
  infer_categoricals (mkFrame [0%Z; 1%Z] [mkCol (NStr "a") DFloat [CNum 1%Qc; CMissing]; mkCol (NStr "b") DFloat [CNum (Q2Qc (1#2)); CInf true]]) =
  Ok (mkFrame [0%Z; 1%Z] [mkCol (NStr "a") DCategory [CNum 1%Qc; CMissing]; mkCol (NStr "b") DFloat [CNum (Q2Qc (1#2)); CInf true]]).
Proof. split; [intros [K|[K|K]]; discriminate|]. split; [right; left; reflexivity|reflexivity]. Qed.

Lemma lower_app a b : lower (a ++ b)%string = (lower a ++ lower b)%string.
Proof. induction a; simpl; f_equal; auto. Qed.
Lemma csv_not_arff p : ends_with ".arff" (p ++ ".csv")%string = false.
Proof.
  destruct (ends_with ".arff" (p ++ ".csv")) eqn:E; auto. exfalso. apply ends_with_iff in E as (q & E).
  assert (A : forall a b c : string, ((a ++ b) ++ c)%string = (a ++ (b ++ c))%string) by (induction a; simpl; intros; congruence).
  change ".csv" with (".cs" ++ String "v" "")%string in E. change ".arff" with (".arf" ++ String "f" "")%string in E. rewrite <- !A in E.
  apply (last_char "") in E. discriminate.
Qed.
Lemma metadata_csv fuel p sep has_header first rest :
  load_feature_metadata fuel (p ++ ".csv")%string sep has_header (first :: rest) =
  Ok (fold_left (fun d n => odict_set d n "") (let fields := split sep (chop first) in if has_header then fields else map (fun ic => str_of_nat (fst ic)) (enumerate fields)) []).
Proof.
  unfold load_feature_metadata. rewrite lower_app. change (lower ".csv") with ".csv". rewrite csv_not_arff, ends_with_app. unfold load_csv_header. rewrite ends_with_app. reflexivity.
Qed.
Lemma odict_all l : forall d, NoDup (map fst d ++ l) -> fold_left (fun d n => odict_set d n "") l d = d ++ map (fun n => (n, "")) l.
Proof.
  induction l as [|n l IH]; intros d N; simpl; [rewrite app_nil_r; auto|].
  assert (O : ~ In n (map fst d)). { apply NoDup_remove_2 in N. intros K. apply N, in_or_app. auto. }
  assert (E : forall d, ~ In n (map fst d) -> odict_set d n "" = d ++ [(n, "")]).
  { clear. induction d as [|[m w] d IH]; intros K; simpl; auto. destruct (String.eqb m n) eqn:Q; [apply String.eqb_eq in Q; exfalso; apply K; left; auto|]. rewrite IH; auto. intros J. apply K. right. auto. }
  rewrite E by auto. rewrite IH; [rewrite <- app_assoc; reflexivity|]. rewrite map_app. simpl. rewrite <- app_assoc. exact N.
Qed.
(** C95: for a csv file with header the names listed are its columns, in order, and
    each of them can be used as target... *)
Lemma C95_names_partial_main :
  forall p sep first rest fuel fields, csv_columns sep true first = map NStr fields -> NoDup fields ->
    load_feature_metadata fuel (p ++ ".csv")%string sep true (first :: rest) = Ok (map (fun n => (n, "")) fields) /\
    forall read_arff read_csv data, read_csv (p ++ ".csv")%string = Ok data -> map c_cname (f_cols data) = csv_columns sep true first ->
      forall s, In s fields -> exists x c, X_y_from_file read_arff read_csv (p ++ ".csv")%string (Some s) = Ok (x, [c]) /\ c_cname c = NStr s.
Proof.
  intros p sep first rest fuel fields HF N. unfold csv_columns in HF. split.
  - rewrite metadata_csv. cbv zeta. assert (E : split sep (chop first) = fields).
    { revert HF. generalize (split sep (chop first)). clear. intros l. revert fields. induction l as [|a l IH]; intros [|b fs] H; try discriminate; auto. injection H as -> H. f_equal. auto. }
    rewrite E, odict_all; [reflexivity|exact N].
  - intros ra rc data HR HC s Hs. unfold csv_columns in HC. rewrite HF in HC.
    assert (K : In (NStr s) (map c_cname (f_cols data))) by (rewrite HC; apply in_map; auto).
    apply in_map_iff in K as (c & Ec & Hc). apply in_split in Hc as (xs & zs & Hc).
    destruct (C70_split_main ra rc (p ++ ".csv")%string data) as (_ & S & _). { destruct (C70_readers_main ra rc p) as [_ R]. congruence. }
    exists (mkFrame (f_index data) (xs ++ zs)), c. split; auto. apply S; auto. unfold distinct_columns. rewrite HC. clear - N.
    induction N; simpl; constructor; auto. intros K. apply in_map_iff in K as (y & Ey & Hy). injection Ey as ->. auto.
Qed.
(** ... but without a header positions are listed, and none can be used as target. *)
Lemma C95_no_header_refuted_main :
  forall p sep first rest fuel names, load_feature_metadata fuel (p ++ ".csv")%string sep false (first :: rest) = Ok names ->
    names <> [] /\
    forall read_arff read_csv data s, read_csv (p ++ ".csv")%string = Ok data -> map c_cname (f_cols data) = csv_columns sep false first ->
      In s (map fst names) -> X_y_from_file read_arff read_csv (p ++ ".csv")%string (Some s) = Err ValueError.
Proof.
  intros p sep first rest fuel names H. split.
  - rewrite metadata_csv in H. injection H as <-.
    assert (G : forall l d, d <> [] -> fold_left (fun d n => odict_set d n "") l d <> []).
    { induction l as [|n l IH]; intros d D; simpl; auto. apply IH. destruct d as [|[m w] d]; simpl; [congruence|]. destruct (String.eqb m n); discriminate. }
    assert (SN : split sep (chop first) <> []) by apply Str_Proofs.split_nonempty.
    destruct (split sep (chop first)) as [|a l]; [congruence|]. cbn [enumerate enum_from map fold_left]. apply G. simpl. discriminate.
  - intros ra rc data s HR HC Hs. unfold X_y_from_file. destruct (C70_readers_main ra rc p) as [_ R]. rewrite R, HR. cbn [rbind]. unfold split_frame.
    destruct (existsb (fun c => cname_eqb (c_cname c) (NStr s)) (f_cols data)) eqn:E; auto. apply existsb_exists in E as (c & Hc & Ec). apply cname_eqb_eq in Ec.
    assert (K : In (NStr s) (map c_cname (f_cols data))) by (rewrite <- Ec; apply in_map; auto). rewrite HC in K. unfold csv_columns in K. apply in_map_iff in K as (q & Eq & _). discriminate.
Qed.
Lemma C95_uppercase_refuted_main :
  forall fuel sep has_header file, load_feature_metadata fuel "DATA.CSV" sep has_header file = Err ValueError.
Proof. intros. reflexivity. Qed.
(** Files that end in neither .arff nor .csv, in capitals or not, are refused. *)
Lemma C95_other_files_main :
  forall fuel path sep has_header file,
    (forall p e, path = (p ++ e)%string -> String.length e = 5 -> ~ begins ".arff" e) ->
    (forall p e, path = (p ++ e)%string -> String.length e = 4 -> ~ begins ".csv" e) ->
    load_feature_metadata fuel path sep has_header file = Err ValueError.
Proof.
  intros fuel path sep h file A B. assert (G : forall s suf, lower path = (s ++ suf)%string -> exists p e, path = (p ++ e)%string /\ String.length e = String.length suf /\ lower e = suf).
  { clear. intros s suf. revert path. induction s as [|c s IH]; intros path E.
    - exists "", path. split; [reflexivity|]. change ("" ++ suf)%string with suf in E. rewrite <- E. split; [|reflexivity]. clear. induction path; simpl; congruence.
    - destruct path as [|d path]; [discriminate|]. cbn [lower] in E. change (String c s ++ suf)%string with (String c (s ++ suf)) in E. injection E as _ E. destruct (IH path E) as (p & e & -> & L & W). exists (String d p), e. auto. }
  unfold load_feature_metadata. destruct (ends_with ".arff" (lower path)) eqn:E1.
  - exfalso. apply ends_with_iff in E1 as (s & E1). destruct (G _ _ E1) as (p & e & P & L & W). eapply A; eauto. apply begins_iff; [repeat split; vm_compute; lia|]. rewrite W. reflexivity.
  - destruct (ends_with ".csv" (lower path)) eqn:E2; [|reflexivity]. exfalso. apply ends_with_iff in E2 as (s & E2). destruct (G _ _ E2) as (p & e & P & L & W). eapply B; eauto. apply begins_iff; [repeat split; vm_compute; lia|]. rewrite W. reflexivity.
Qed.
Example C95_ex_main : load_feature_metadata 1 "d.csv" "," true [("a,b" ++ newline)%string] = Ok [("a", ""); ("b", "")] /\ load_feature_metadata 1 "d.csv" "," false [("3,4" ++ newline)%string] = Ok [("0", ""); ("1", "")] /\
  csv_columns "," false ("3,4" ++ newline) = [NInt 0; NInt 1].
Proof. repeat split. Qed.

(** C96: format_y gives one label per row: the vector itself, the class number
    of an indicator row, the column of a one-column table... *)
Lemma C96_format_y_partial_main :
  (forall ls, exists y, format_y (YVec ls) TSeries = Ok y /\ labels y = ls) /\
  (forall s, format_y (YSeries s) TSeries = Ok (OSeries s)) /\
  (forall rows, length rows <> 1 -> exists y, format_y (YFrame 1 rows) TSeries = Ok y /\ is_target y /\ labels y = map (fun ir => first_label (snd ir)) rows /\ y_index y = map fst rows) /\
  (forall w rows ks, 1 < w -> rows = map (fun k => map (fun j => if j =? k then num_of_nat 1 else num_of_nat 0) (seq 0 w)) ks -> Forall (fun k => k < w) ks ->
     exists y, format_y (YMat w rows) TSeries = Ok y /\ labels y = map num_of_nat ks) /\
  (forall rows, exists y, format_y (YMat 1 rows) TSeries = Ok y /\ labels y = map first_label rows).
Proof.
  assert (Lab : forall ls0, labels (OSeries (index_from_0 ls0)) = ls0).
  { intros l0. simpl. unfold index_from_0, enumerate. rewrite map_map. simpl. generalize 0. clear. induction l0 as [|l ls IH]; intros k; simpl; f_equal; auto. }
  split; [|split; [|split; [|split]]].
  - intros ls. eexists. split; [reflexivity|]. apply Lab.
  - reflexivity.
  - intros rows H. cbn [format_y squeeze]. destruct rows as [|[i r] [|r2 rows]]; [|simpl in H; lia|]; (eexists; split; [reflexivity|]); simpl; (split; [exact Logic.I|]); rewrite ?map_map; auto.
  - intros w rows ks Hw -> F. eexists. split; [reflexivity|]. rewrite Lab. unfold mat_to_vec. destruct (Nat.ltb_spec 1 w); [|lia]. rewrite map_map. apply map_ext_in. intros k Hk.
    rewrite Forall_forall in F. specialize (F k Hk). unfold num_of_nat at 3. do 4 f_equal.
    unfold argmax.
    (* after position k the best is k *)
    assert (A : forall n i b, k < i -> argmax_from i (map (fun j => if j =? k then num_of_nat 1 else num_of_nat 0) (seq i n)) b (Some (Q2Qc (inject_Z 1))) = b).
    { induction n as [|n IH]; intros i b Hi; simpl; auto. destruct (Nat.eqb_spec i k); [lia|]. unfold num_of_nat at 1. cbn [argmax_from]. 
      replace (Qccompare (Q2Qc (inject_Z 1)) (Q2Qc (inject_Z (Z.of_nat 0)))) with Gt by reflexivity. apply IH. lia. }
    assert (B : forall n i b bv, i <= k -> k < i + n -> (bv = None \/ bv = Some (Q2Qc (inject_Z (Z.of_nat 0)))) -> argmax_from i (map (fun j => if j =? k then num_of_nat 1 else num_of_nat 0) (seq i n)) b bv = k).
    { induction n as [|n IH]; intros i b bv H1 H2 Hb; [lia|]. cbn [seq map]. destruct (Nat.eqb_spec i k) as [->|Ne].
      - unfold num_of_nat at 1. cbn [argmax_from]. destruct Hb as [->| ->]; [apply A; lia|]. replace (Qccompare (Q2Qc (inject_Z (Z.of_nat 0))) (Q2Qc (inject_Z (Z.of_nat 1)))) with Lt by reflexivity. apply A. lia.
      - unfold num_of_nat at 1. cbn [argmax_from]. destruct Hb as [->| ->].
        + apply IH; auto; lia.
        + replace (Qccompare (Q2Qc (inject_Z (Z.of_nat 0))) (Q2Qc (inject_Z (Z.of_nat 0)))) with Eq by reflexivity. apply IH; auto; lia. }
    apply B; auto; lia.
  - intros rows. eexists. split; [reflexivity|]. apply Lab.
Qed.
(** A classifier refuses targets in several columns, and anything that is no
    array, Series or DataFrame. *)
Lemma C96_classifier_refuses_main :
  forall x,
    (forall w rows, 1 < w -> classifier_format x (YMat w rows) = Err ValueError) /\
    (forall w rows, 1 < w -> 1 < length rows -> classifier_format x (YFrame w rows) = Err ValueError) /\
    classifier_format x YOther = Err TypeError.
Proof.
  intros x. split; [|split; [|reflexivity]].
  - intros [|[|w]] rows L; try lia. reflexivity.
  - intros [|[|w]] rows L M; try lia. unfold classifier_format. destruct rows as [|[i r] [|q rows]]; simpl in M; try lia. reflexivity.
Qed.
(** Asked for a DataFrame, it gives the same labels and index in one column, and a
    DataFrame as it is. *)
Lemma C96_frames_main :
  (forall y s, (forall w rows, y <> YFrame w rows) -> format_y y TSeries = Ok (OSeries s) ->
     format_y y TFrame = Ok (OFrame 1 (map (fun il => (fst il, [snd il])) s))) /\
  (forall w rows, format_y (YFrame w rows) TFrame = Ok (OFrame w rows)).
Proof.
  split; [|reflexivity]. intros y s N H. destruct y; simpl in *; try discriminate; try (injection H as <-; reflexivity). exfalso. eapply N; eauto.
Qed.
(** Anything that is no array, Series or DataFrame is refused. *)
Lemma C96_refuses_main :
  (forall t, format_y YOther t = Err TypeError) /\ (forall y t r, format_x_y XOther y t r = Err TypeError).
Proof. split; reflexivity. Qed.
(** ... but a table with one row makes format_x_y fail, and a table with several
    columns is not reduced to its first column as documented. *)
Lemma C96_tables_refuted_main :
  (forall x y t f y0 i l, format_x_y x y t false = Ok (f, y0) ->
     format_x_y x (YFrame 1 [(i, [l])]) TSeries true = Err AttributeError) /\
  (forall w rows, 1 < w -> 1 < length rows -> format_y (YFrame w rows) TSeries = Ok (OFrame w rows)).
Proof.
  split.
  - intros x y t f y0 i l H. unfold format_x_y in *. destruct (match x with XOther => _ | _ => _ end); [|discriminate]. reflexivity.
  - intros w rows Hw Hr. destruct w as [|[|w]]; try lia. destruct rows as [|[i r] [|q rows]]; simpl in Hr; try lia; reflexivity.
Qed.

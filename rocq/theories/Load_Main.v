(*IMPORTS*)
Require Import QArith Qcanon.
From Verif Require Import Base Data_Model Pred_Model Load_Model Load_Spec.
Open Scope string_scope.
Open Scope list_scope.
Open Scope nat_scope.
(*END*)
From Verif Require Import Data_Spec Data_Proofs Load_Proofs.
Require Import Lia.

Lemma widest_in (rows : list (list cell)) r : In r rows -> length r <= fold_right Nat.max 0 (map (@length cell) rows).
Proof. induction rows as [|x l IH]; simpl; [intros []|]. intros [->|H]; [lia|]. specialize (IH H). lia. Qed.
Lemma widest_le n (rows : list (list cell)) : Forall (fun r => length r <= n) rows -> fold_right Nat.max 0 (map (@length cell) rows) <= n.
Proof. induction 1; simpl; lia. Qed.
Lemma widest_ge n (rows : list (list cell)) : Exists (fun r => length r = n) rows -> n <= fold_right Nat.max 0 (map (@length cell) rows).
Proof. intros H. apply Exists_exists in H as (r & Hr & <-). apply widest_in. exact Hr. Qed.

(** C139.  The frame of an ARFF file has one column per attribute, in the order of the
    file, with the attribute's name and the values of that position in every row (missing
    where the row is shorter); it is categorical exactly when the attribute is nominal (or pandas finds so itself). *)
Lemma C139_arff_main :
  forall guess file,
    af_attributes file <> [] -> NoDup (map fst (af_attributes file)) ->
    Forall (fun row => length row <= length (af_attributes file)) (af_rows file) ->
    af_rows file = [] \/ Exists (fun row => length row = length (af_attributes file)) (af_rows file) ->
    exists f, arff_to_pandas guess file = Ok f /\
      f_index f = map Z.of_nat (seq 0 (length (af_rows file))) /\
      length (f_cols f) = length (af_attributes file) /\
      forall j a, nth_error (af_attributes file) j = Some a ->
        exists c, nth_error (f_cols f) j = Some c /\ shows guess (af_rows file) j a c.
Proof.
  intros guess [attrs rows] NE ND F EX. cbn [af_attributes af_rows] in *.
  assert (B : fits (length attrs) rows = true).
  { unfold fits. destruct EX as [->|EX]; [reflexivity|]. destruct rows as [|r rs]; [reflexivity|]. apply Nat.eqb_eq.
    pose proof (widest_le _ _ F). pose proof (widest_ge _ _ EX). lia. }
  eexists. split.
  { unfold arff_to_pandas. cbn [af_attributes af_rows]. destruct attrs as [|a0 attrs0]; [congruence|].
    remember (a0 :: attrs0) as attrs. rewrite B. reflexivity. }
  cbn [f_index f_cols]. split; [reflexivity|]. rewrite loop_columns.
  split; [rewrite !map_length; apply enum_length|].
  intros j a Ha. set (cells := column_cells j rows). set (c0 := mkCol (NStr (fst a)) (guess cells) cells).
  exists (column_loop attrs c0). split.
  { rewrite nth_error_map, nth_error_map. assert (E : nth_error (enumerate attrs) j = Some (j, a)).
    { apply enum_nth. exists a. split; auto. } rewrite E. reflexivity. }
  destruct (loop_keeps attrs c0) as (K1 & K2). destruct (loop_dtype attrs ND c0 (fst a) eq_refl) as (D1 & D2).
  unfold shows. rewrite K1, K2. split; [reflexivity|]. split; [|split].
  - cbn [c_cells c0]. unfold cells, column_cells. split; [apply map_length|]. intros i row Hr. rewrite nth_error_map, Hr. cbn. f_equal.
    destruct (nth_error row j) eqn:N; [apply nth_error_nth; exact N|apply nth_overflow, nth_error_None; exact N].
  - intros (v & Ev). apply (D1 v). apply nth_error_In in Ha. destruct a as [n t]. cbn in *. subst. exact Ha.
  - intros N. rewrite D2; [reflexivity|]. intros v X. apply N. exists v.
    apply nth_error_In in Ha. destruct a as [n t]. cbn [fst snd] in *.
    clear - X Ha ND. induction attrs as [|b attrs IH]; [destruct X|]. inversion ND as [|? ? N1 N2]; subst.
    destruct X as [->|X], Ha as [E|Ha]; auto.
    + congruence.
    + exfalso. apply N1. apply in_map_iff. exists (n, t). auto.
    + subst. exfalso. apply N1. apply in_map_iff. exists (n, Nominal v). auto.
Qed.
(** A file without attributes, with a longer row than the header, or with rows all of
    which are shorter, is a ValueError. *)
Lemma C139_malformed_main :
  forall guess file,
    af_attributes file = [] \/
    Exists (fun row => length row > length (af_attributes file)) (af_rows file) \/
    (af_rows file <> [] /\ Forall (fun row => length row < length (af_attributes file)) (af_rows file)) ->
    arff_to_pandas guess file = Err ValueError.
Proof.
  intros guess file X; unfold arff_to_pandas.
  destruct (af_attributes file) as [|a l] eqn:EA; [reflexivity|]. destruct X as [X|X]; [discriminate|]. rewrite <- EA in *. clear EA.
  assert (B : fits (length (af_attributes file)) (af_rows file) = false); [|rewrite B; reflexivity].
  unfold fits. destruct (af_rows file) as [|r rs] eqn:ER; [destruct X as [X|[X _]]; [inversion X|congruence]|].
  apply Nat.eqb_neq. intros E. destruct X as [X|[_ X]].
  - apply Exists_exists in X as (x & Hx & G). pose proof (widest_in (r :: rs) x Hx). lia.
  - assert (Forall (fun row : list cell => length row <= pred (length (af_attributes file))) (r :: rs)).
    { eapply Forall_impl; [|exact X]. cbn. intros. lia. }
    pose proof (widest_le _ _ H). inversion X; subst. lia.
Qed.
(** The categories of a nominal attribute are not those declared in the file but those
    that occur in it: a declared value without a row is unknown to the model, and an
    array to predict that holds it is presented with a missing value instead. *)
Definition ex_arff : arff_file :=
  mkArff [("colour", Nominal ["red"; "green"]); ("size", Named "REAL")] [[CStr "red"; CNum 1%Qc]; [CMissing; CNum 0%Qc]].
Lemma C139_declared_refuted_main :
  exists guess file f c,
    In ("colour", Nominal ["red"; "green"]) (af_attributes file) /\
    arff_to_pandas guess file = Ok f /\ In c (f_cols f) /\ c_cname c = NStr "colour" /\
    coltype_of c = TCat [CStr "red"] /\
    forall parse_float parse_int other,
      astype_cell parse_float parse_int other (coltype_of c) (CStr "red") = Ok (CStr "red") /\
      astype_cell parse_float parse_int other (coltype_of c) (CStr "green") = Ok CMissing.
Proof.
  exists (fun l => match l with CStr _ :: _ => DObject | _ => DFloat end), ex_arff.
  eexists. eexists. split; [left; reflexivity|]. split; [reflexivity|]. split; [left; reflexivity|].
  split; [reflexivity|]. split; [reflexivity|]. intros. split; reflexivity.
Qed.
Example C139_ex_main :
  af_attributes ex_arff <> [] /\ NoDup (map fst (af_attributes ex_arff)) /\
  Forall (fun row => length row <= length (af_attributes ex_arff)) (af_rows ex_arff) /\
  Exists (fun row => length row = length (af_attributes ex_arff)) (af_rows ex_arff) /\
  exists f, arff_to_pandas (fun l => match l with CStr _ :: _ => DObject | _ => DFloat end) ex_arff = Ok f /\
    map c_dtype (f_cols f) = [DCategory; DFloat].
Proof.
  split; [discriminate|]. split; [|split; [repeat constructor|split; [left; reflexivity|eexists; split; reflexivity]]].
  constructor; [intros [K|[]]; discriminate|]. constructor; [intros []|constructor].
Qed.

(** C140.  Arguments given for a csv file are used; whichever of the two is not given
    is guessed; with both there is no guessing. *)
Lemma C140_options_main :
  forall sniff read path sep header,
    (forall s h, sep = Some s -> header = Some h ->
       csv_to_pandas sniff read path sep header = do f <- read path s h; infer_categoricals f) /\
    (forall s0 has_header, sniff path = Ok (s0, has_header) ->
       exists s h, csv_to_pandas sniff read path sep header = (do f <- read path s h; infer_categoricals f) /\
         (forall given, sep = Some given -> s = given) /\ (sep = None -> s = s0) /\
         (forall given, header = Some given -> h = given) /\
         (header = None -> has_header = true -> h = Some 0) /\ (header = None -> has_header = false -> h = None)).
Proof.
  intros sniff read path sep header. split.
  - intros s h -> ->. reflexivity.
  - intros s0 hh E. exists (match sep with Some s => s | None => s0 end), (match header with Some h => h | None => if hh then Some 0 else None end).
    split; [|repeat split; intros; subst; try reflexivity; congruence].
    unfold csv_to_pandas. rewrite E. destruct header, sep; reflexivity.
Qed.
(** C140 is false where the guess fails: a file whose separator cannot be guessed is
    refused although the separator is given. *)
Lemma C140_sep_alone_refuted_main :
  forall sniff read path s e, sniff path = Err e ->
    csv_to_pandas sniff read path (Some s) None = Err e.
Proof. intros sniff read path s e E. unfold csv_to_pandas. rewrite E. reflexivity. Qed.

(** The kind of a feature is guessed for each file on its own.  A file with more rows
    and a file with some of them can disagree ... *)
Definition ex_ints (n : nat) : list cell := map (fun i => CNum (Q2Qc (inject_Z (Z.of_nat i)))) (seq 0 n).
Definition ex_csv (n : nat) : frame := mkFrame (map Z.of_nat (seq 0 n)) [mkCol (NStr "age") DInt (ex_ints n)].
Lemma C140_same_kind_refuted_main :
  exists read : string -> string -> option nat -> res frame,
  exists train test c c',
    csv_to_pandas (fun _ => Ok (",", true)) read "train.csv" None None = Ok train /\
    csv_to_pandas (fun _ => Ok (",", true)) read "test.csv" None None = Ok test /\
    f_cols train = [c] /\ f_cols test = [c'] /\ c_cname c = c_cname c' /\ c_cells c' = firstn 10 (c_cells c) /\
    c_dtype c = DInt /\ c_dtype c' = DCategory.
Proof.
  exists (fun path _ _ => Ok (ex_csv (if String.eqb path "train.csv" then 11 else 10))).
  do 4 eexists. split; [vm_compute; reflexivity|]. split; [vm_compute; reflexivity|]. repeat split; reflexivity.
Qed.
(** ... but only in this direction: what is categorical in the larger file is
    categorical in the smaller one, if pandas reads it with the same type. *)
Lemma sublist_in {A} (k l : list A) x : sublist k l -> In x k -> In x l.
Proof. intros H. induction H; simpl; auto; tauto. Qed.
Lemma nunique_sub n n' d k l : sublist k l -> nunique (mkCol n d k) <= nunique (mkCol n' d l).
Proof.
  intros S. unfold nunique. cbn [c_cells]. destruct (distinct_spec k) as (I1 & I2 & _). destruct (distinct_spec l) as (_ & _ & J3).
  rewrite <- (map_length key (distinct k)), <- (map_length key (distinct l)). apply NoDup_incl_length; auto.
  intros x Hx. apply in_map_iff in Hx as (c & <- & Hc). destruct (I1 c Hc) as (Y & Z).
  destruct (J3 c) as (e & He & ->); auto; [eapply sublist_in; eauto|]. apply in_map. auto.
Qed.
Lemma integer_sub n n' d k l : sublist k l ->
  all_is_integer (mkCol n d l) = Ok true -> all_is_integer (mkCol n' d k) = Ok true.
Proof.
  intros S. unfold all_is_integer. cbn [c_cells c_dtype].
  assert (I : forall x, In x (filter (fun x => negb (missing x)) k) -> In x (filter (fun x => negb (missing x)) l)).
  { intros x. rewrite !filter_In. intros [A B]. split; auto. eapply sublist_in; eauto. }
  destruct (filter _ k) as [|y k'] eqn:EK; [destruct d; reflexivity|].
  destruct (filter _ l) as [|z l'] eqn:EL; [exfalso; apply (I y); left; reflexivity|].
  destruct d; try discriminate. intros E. f_equal. injection E as E.
  change (forallb is_integer (z :: l') = true) in E. change (forallb is_integer (y :: k') = true).
  rewrite forallb_forall in E. apply forallb_forall. intros x Hx. apply E. apply I. exact Hx.
Qed.
Lemma C140_fewer_rows_partial_main :
  forall sniff read path path' s h f0 f0' f f',
    read path s h = Ok f0 -> read path' s h = Ok f0' ->
    Forall2 (fun c c' => c_cname c = c_cname c' /\ c_dtype c = c_dtype c' /\ sublist (c_cells c') (c_cells c)) (f_cols f0) (f_cols f0') ->
    csv_to_pandas sniff read path (Some s) (Some h) = Ok f ->
    csv_to_pandas sniff read path' (Some s) (Some h) = Ok f' ->
    Forall2 (fun c c' => c_cname c = c_cname c' /\ (c_dtype c = DCategory -> c_dtype c' = DCategory)) (f_cols f) (f_cols f').
Proof.
  intros sniff read path path' s h f0 f0' f f' R R' H E E'. unfold csv_to_pandas in E, E'. cbn [rbind] in E, E'.
  rewrite R in E. rewrite R' in E'. cbn [rbind] in E, E'. unfold infer_categoricals in E, E'.
  destruct (rmap infer_column (f_cols f0)) as [cs|] eqn:M; [|discriminate]. destruct (rmap infer_column (f_cols f0')) as [cs'|] eqn:M'; [|discriminate].
  cbn [rbind] in E, E'. injection E as <-. injection E' as <-. cbn [f_cols]. revert cs cs' M M'.
  induction H as [|[n d l] [n' d' k] l0 l0' (EN & ED & S) _ IH]; intros cs cs' M M'.
  - injection M as <-. injection M' as <-. constructor.
  - cbn [c_cname c_dtype c_cells] in *. subst n' d'. cbn [rmap] in M, M'.
    destruct (infer_column (mkCol n d l)) as [c|] eqn:C; [|discriminate]. destruct (infer_column (mkCol n d k)) as [c'|] eqn:C'; [|discriminate].
    cbn [rbind] in M, M'. destruct (rmap infer_column l0) as [r|]; [|discriminate]. destruct (rmap infer_column l0') as [r'|]; [|discriminate].
    cbn [rbind] in M, M'. injection M as <-. injection M' as <-. constructor; [|apply IH; reflexivity].
    clear IH. unfold infer_column in C, C'. destruct (looks_categorical (mkCol n d l)) as [b|] eqn:L; [|discriminate].
    destruct (looks_categorical (mkCol n d k)) as [b'|] eqn:L'; [|discriminate]. cbn [rbind] in C, C'. injection C as <-. injection C' as <-.
    split; [destruct b, b'; reflexivity|]. destruct b; [|cbn [c_dtype]; destruct b'; auto]. intros _.
    assert (b' = true); [|subst; reflexivity].
    unfold looks_categorical in L, L'. cbn [c_dtype] in L, L'. pose proof (nunique_sub n n d k l S) as NU.
    destruct d; cbn [is_numeric] in L, L'; try congruence; cbn [rbind] in L, L'.
    + injection L as L. injection L' as <-. apply andb_true_iff in L as [L _]. apply Nat.leb_le in L. rewrite andb_true_r. apply Nat.leb_le. lia.
    + destruct (all_is_integer (mkCol n DUInt l)) as [i|] eqn:I; [|discriminate]. cbn [rbind] in L. injection L as L. apply andb_true_iff in L as [L ->].
      rewrite (integer_sub n n DUInt k l S I) in L'. cbn [rbind] in L'. injection L' as <-. apply Nat.leb_le in L. rewrite andb_true_r. apply Nat.leb_le. lia.
    + destruct (all_is_integer (mkCol n DBool l)) as [i|] eqn:I; [|discriminate]. cbn [rbind] in L. injection L as L. apply andb_true_iff in L as [L ->].
      rewrite (integer_sub n n DBool k l S I) in L'. cbn [rbind] in L'. injection L' as <-. apply Nat.leb_le in L. rewrite andb_true_r. apply Nat.leb_le. lia.
    + destruct (all_is_integer (mkCol n DComplex l)) as [i|] eqn:I; [|discriminate]. cbn [rbind] in L. injection L as L. apply andb_true_iff in L as [L ->].
      rewrite (integer_sub n n DComplex k l S I) in L'. cbn [rbind] in L'. injection L' as <-. apply Nat.leb_le in L. rewrite andb_true_r. apply Nat.leb_le. lia.
    + destruct (all_is_integer (mkCol n DFloat l)) as [i|] eqn:I; [|discriminate]. cbn [rbind] in L. injection L as L. apply andb_true_iff in L as [L ->].
      rewrite (integer_sub n n DFloat k l S I) in L'. cbn [rbind] in L'. injection L' as <-. apply Nat.leb_le in L. rewrite andb_true_r. apply Nat.leb_le. lia.
Qed.
Example C140_ex_main :
  sublist (ex_ints 2) (ex_ints 3) /\
  exists f f', csv_to_pandas (fun _ => Err ValueError) (fun p _ _ => Ok (ex_csv (String.length p))) "abc" (Some ",") (Some None) = Ok f /\
    csv_to_pandas (fun _ => Err ValueError) (fun p _ _ => Ok (ex_csv (String.length p))) "ab" (Some ",") (Some None) = Ok f' /\
    map c_dtype (f_cols f) = [DCategory] /\ map c_dtype (f_cols f') = [DCategory].
Proof.
  split; [vm_compute; repeat first [apply sub_keep|apply sub_skip|apply sub_nil]|]. do 2 eexists. repeat split; vm_compute; reflexivity.
Qed.

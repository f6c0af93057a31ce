(** Property theorems; proofs in Load_Main.v. *)
Require Import QArith Qcanon.
From Verif Require Import Base Data_Model Pred_Model Load_Model Load_Spec.
Open Scope string_scope.
Open Scope list_scope.
Open Scope nat_scope.
From Verif Require Import Load_Main.

(** C139.  The frame of an ARFF file has one column per attribute, in the order of the
    file, with the attribute's name and the values of that position in every row (missing
    where the row is shorter); it is categorical exactly when the attribute is nominal (or pandas finds so itself). *)
Theorem C139_arff :
  forall guess file,
    af_attributes file <> [] -> NoDup (map fst (af_attributes file)) ->
    Forall (fun row => length row <= length (af_attributes file)) (af_rows file) ->
    af_rows file = [] \/ Exists (fun row => length row = length (af_attributes file)) (af_rows file) ->
    exists f, arff_to_pandas guess file = Ok f /\
      f_index f = map Z.of_nat (seq 0 (length (af_rows file))) /\
      length (f_cols f) = length (af_attributes file) /\
      forall j a, nth_error (af_attributes file) j = Some a ->
        exists c, nth_error (f_cols f) j = Some c /\ shows guess (af_rows file) j a c.
Proof. exact C139_arff_main. Qed.
Print Assumptions C139_arff.

(** A file without attributes, with a longer row than the header, or with rows all of
    which are shorter, is a ValueError. *)
Theorem C139_malformed :
  forall guess file,
    af_attributes file = [] \/
    Exists (fun row => length row > length (af_attributes file)) (af_rows file) \/
    (af_rows file <> [] /\ Forall (fun row => length row < length (af_attributes file)) (af_rows file)) ->
    arff_to_pandas guess file = Err ValueError.
Proof. exact C139_malformed_main. Qed.
Print Assumptions C139_malformed.

Theorem C139_declared_refuted :
  exists guess file f c,
    In ("colour", Nominal ["red"; "green"]) (af_attributes file) /\
    arff_to_pandas guess file = Ok f /\ In c (f_cols f) /\ c_cname c = NStr "colour" /\
    coltype_of c = TCat [CStr "red"] /\
    forall parse_float parse_int other,
      astype_cell parse_float parse_int other (coltype_of c) (CStr "red") = Ok (CStr "red") /\
      astype_cell parse_float parse_int other (coltype_of c) (CStr "green") = Ok CMissing.
Proof. exact C139_declared_refuted_main. Qed.
Print Assumptions C139_declared_refuted.

Example C139_ex :
  af_attributes ex_arff <> [] /\ NoDup (map fst (af_attributes ex_arff)) /\
  Forall (fun row => length row <= length (af_attributes ex_arff)) (af_rows ex_arff) /\
  Exists (fun row => length row = length (af_attributes ex_arff)) (af_rows ex_arff) /\
  exists f, arff_to_pandas (fun l => match l with CStr _ :: _ => DObject | _ => DFloat end) ex_arff = Ok f /\
    map c_dtype (f_cols f) = [DCategory; DFloat].
Proof. exact C139_ex_main. Qed.

(** C140.  Arguments given for a csv file are used; whichever of the two is not given
    is guessed; with both there is no guessing. *)
Theorem C140_options :
  forall sniff read path sep header,
    (forall s h, sep = Some s -> header = Some h ->
       csv_to_pandas sniff read path sep header = do f <- read path s h; infer_categoricals f) /\
    (forall s0 has_header, sniff path = Ok (s0, has_header) ->
       exists s h, csv_to_pandas sniff read path sep header = (do f <- read path s h; infer_categoricals f) /\
         (forall given, sep = Some given -> s = given) /\ (sep = None -> s = s0) /\
         (forall given, header = Some given -> h = given) /\
         (header = None -> has_header = true -> h = Some 0) /\ (header = None -> has_header = false -> h = None)).
Proof. exact C140_options_main. Qed.
Print Assumptions C140_options.

(** C140 is false where the guess fails: a file whose separator cannot be guessed is
    refused although the separator is given. *)
Theorem C140_sep_alone_refuted :
  forall sniff read path s e, sniff path = Err e ->
    csv_to_pandas sniff read path (Some s) None = Err e.
Proof. exact C140_sep_alone_refuted_main. Qed.
Print Assumptions C140_sep_alone_refuted.

Theorem C140_same_kind_refuted :
  exists read : string -> string -> option nat -> res frame,
  exists train test c c',
    csv_to_pandas (fun _ => Ok (",", true)) read "train.csv" None None = Ok train /\
    csv_to_pandas (fun _ => Ok (",", true)) read "test.csv" None None = Ok test /\
    f_cols train = [c] /\ f_cols test = [c'] /\ c_cname c = c_cname c' /\ c_cells c' = firstn 10 (c_cells c) /\
    c_dtype c = DInt /\ c_dtype c' = DCategory.
Proof. exact C140_same_kind_refuted_main. Qed.
Print Assumptions C140_same_kind_refuted.

Theorem C140_fewer_rows_partial :
  forall sniff read path path' s h f0 f0' f f',
    read path s h = Ok f0 -> read path' s h = Ok f0' ->
    Forall2 (fun c c' => c_cname c = c_cname c' /\ c_dtype c = c_dtype c' /\ sublist (c_cells c') (c_cells c)) (f_cols f0) (f_cols f0') ->
    csv_to_pandas sniff read path (Some s) (Some h) = Ok f ->
    csv_to_pandas sniff read path' (Some s) (Some h) = Ok f' ->
    Forall2 (fun c c' => c_cname c = c_cname c' /\ (c_dtype c = DCategory -> c_dtype c' = DCategory)) (f_cols f) (f_cols f').
Proof. exact C140_fewer_rows_partial_main. Qed.
Print Assumptions C140_fewer_rows_partial.

Example C140_ex :
  sublist (ex_ints 2) (ex_ints 3) /\
  exists f f', csv_to_pandas (fun _ => Err ValueError) (fun p _ _ => Ok (ex_csv (String.length p))) "abc" (Some ",") (Some None) = Ok f /\
    csv_to_pandas (fun _ => Err ValueError) (fun p _ _ => Ok (ex_csv (String.length p))) "ab" (Some ",") (Some None) = Ok f' /\
    map c_dtype (f_cols f) = [DCategory] /\ map c_dtype (f_cols f') = [DCategory].
Proof. exact C140_ex_main. Qed.

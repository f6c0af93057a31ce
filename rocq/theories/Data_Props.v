(** Property theorems; proofs in Data_Main.v. *)
From Verif Require Import Base Data_Model Data_Spec.
Require Import Ascii Qcanon.
Open Scope string_scope.
Open Scope list_scope.
Open Scope nat_scope.
From Verif Require Import Data_Main.

(** C66: format_x_y drops exactly the rows without a label, and row i of x still
    belongs to label i, for every x and y whose indices agree. *)
Theorem C66_aligned :
  forall x y t f y0,
    format_x_y x y t false = Ok (f, y0) -> rectangular f -> is_target y0 -> y_index y0 = f_index f ->
    exists f' y', format_x_y x y t true = Ok (f', y') /\ rectangular f' /\ header f' = header f /\ y_index y' = f_index f' /\
      length (labels y') = length (rows f') /\
      combine (rows f') (labels y') = filter labelled (combine (rows f) (labels y0)).
Proof. exact C66_aligned_main. Qed.
Print Assumptions C66_aligned.

(** numpy input: only the shapes must agree. *)
Theorem C66_numpy :
  forall n cols ls f y0,
    length ls = n -> Forall (fun c => length (snd c) = n) cols -> format_x_y (XArr n cols) (YVec ls) TSeries false = Ok (f, y0) ->
    labels y0 = ls /\
    exists f' y', format_x_y (XArr n cols) (YVec ls) TSeries true = Ok (f', y') /\
      length (labels y') = length (rows f') /\ combine (rows f') (labels y') = filter labelled (combine (rows f) ls).
Proof. exact C66_numpy_main. Qed.
Print Assumptions C66_numpy.

(** Before rows are dropped: a DataFrame is used as it is, and the columns of an
    array keep their order and their cells, in every row; the target takes the
    form asked for (C96). *)
Theorem C66_inputs :
  forall y t f y0,
    (forall x, format_x_y x y t false = Ok (f, y0) -> format_y y t = Ok y0) /\
    (forall g, format_x_y (XFrame g) y t false = Ok (f, y0) -> f = g) /\
    (forall n cols, format_x_y (XArr n cols) y t false = Ok (f, y0) ->
       map c_cells (f_cols f) = map snd cols /\ f_index f = map Z.of_nat (seq 0 n)).
Proof. exact C66_inputs_main. Qed.
Print Assumptions C66_inputs.

Example C66_ex :
  exists f y0 f' y', format_x_y (XArr 3 [(DInt, [CNum 1%Qc; CNum 0%Qc; CNum 1%Qc])]) (YVec [LStr "a"; LMissing; LStr "b"]) TSeries false = Ok (f, y0) /\
    rectangular f /\ is_target y0 /\ y_index y0 = f_index f /\
    format_x_y (XArr 3 [(DInt, [CNum 1%Qc; CNum 0%Qc; CNum 1%Qc])]) (YVec [LStr "a"; LMissing; LStr "b"]) TSeries true = Ok (f', y') /\
    labels y' = [LStr "a"; LStr "b"] /\ rows f' = [[Some (CNum 1%Qc)]; [Some (CNum 1%Qc)]].
Proof. exact C66_ex_main. Qed.

(** But a classifier given text labels encodes them first, the missing label
    included: no row is dropped and "missing" becomes a class of its own. *)
Theorem C66_text_labels_refuted :
  forall x ls classes f y',
    In LMissing ls -> (exists s, In (LStr s) ls) -> classifier_format x (YVec ls) = Ok (classes, (f, y')) ->
    length (labels y') = length ls /\ In LMissing classes /\ ~ In LMissing (labels y').
Proof. exact C66_text_labels_refuted_main. Qed.
Print Assumptions C66_text_labels_refuted.

Example C66_text_ex :
  exists classes f y', classifier_format (XArr 3 [(DInt, [CNum 1%Qc; CNum 0%Qc; CNum 1%Qc])]) (YVec [LStr "a"; LMissing; LStr "b"]) = Ok (classes, (f, y')) /\
    classes = [LStr "a"; LStr "b"; LMissing] /\ length (labels y') = 3.
Proof. exact C66_text_ex_main. Qed.

(** C67 is false: with different indices the rows of x are dropped by index
    label, so features end up with labels of other rows, or the call fails. *)
Theorem C67_alignment_refuted :
  exists f y f' y',
    rectangular f /\ is_target y /\ length (labels y) = length (rows f) /\ NoDup (f_index f) /\ NoDup (y_index y) /\
    format_x_y (XFrame f) (match y with OSeries s => YSeries s | _ => YOther end) TSeries true = Ok (f', y') /\
    length (labels y') = length (rows f') /\
    (exists r l, In (r, l) (combine (rows f') (labels y')) /\ ~ In (r, l) (combine (rows f) (labels y))).
Proof. exact C67_alignment_refuted_main. Qed.
Print Assumptions C67_alignment_refuted.

Theorem C67_error_refuted :
  exists f s, rectangular f /\ length s = length (rows f) /\ NoDup (f_index f) /\ NoDup (map fst s) /\
    format_x_y (XFrame f) (YSeries s) TSeries true = Err IndexingError.
Proof. exact C67_error_refuted_main. Qed.
Print Assumptions C67_error_refuted.

(** It holds when every row has a label: nothing is changed. *)
Theorem C67_all_labelled_partial :
  forall x y t f y0, format_x_y x y t false = Ok (f, y0) -> is_target y0 -> ~ In LMissing (labels y0) ->
    format_x_y x y t true = Ok (f, y0).
Proof. exact C67_all_labelled_partial_main. Qed.
Print Assumptions C67_all_labelled_partial.

Example C67_ex : exists f y0, format_x_y (XFrame (mkFrame [5%Z] [mkCol (NStr "a") DInt [CNum 1%Qc]])) (YSeries [(7%Z, LStr "b")]) TSeries false = Ok (f, y0) /\ is_target y0 /\ ~ In LMissing (labels y0).
Proof. exact C67_ex_main. Qed.

(** C68: every categorical column gets exactly one encoder, the one its number
    of factors asks for; nothing else gets any. *)
Theorem C68_one_encoder :
  forall fit_transform x classification x' steps extension,
    (forall s f f', fit_transform s f = Ok f' -> encodes s f f') ->
    preprocess fit_transform x classification = Ok (x', steps, extension) ->
    (forall c n, In c (f_cols x) -> factors c n ->
       encoders_of (c_cname c) (steps ++ extension) = if of_category c then [encoder_for classification n] else []) /\
    (forall n, ~ In n (map c_cname (f_cols x)) -> encoders_of n (steps ++ extension) = []) /\
    (forall c, In c (f_cols x) -> exists n, factors c n /\ forall m, factors c m -> m = n).
Proof. exact C68_one_encoder_main. Qed.
Print Assumptions C68_one_encoder.

(** And missing values are imputed last, in every pipeline. *)
Theorem C68_imputation :
  forall fit_transform x classification x' steps extension,
    preprocess fit_transform x classification = Ok (x', steps, extension) ->
    exists before, steps ++ extension = before ++ [mkStep "imputation" Imputer []].
Proof. exact C68_imputation_main. Qed.
Print Assumptions C68_imputation.

Example C68_ex :
  (forall s f f', ex_ft s f = Ok f' -> encodes s f f') /\
  exists x', preprocess ex_ft (mkFrame [0%Z; 1%Z; 2%Z] [mkCol (NStr "a") DCategory [CStr "x"; CStr "y"; CStr "z"]; mkCol (NStr "b") DFloat [CMissing; CMissing; CMissing]; mkCol (NStr "c") DCategory [CStr "u"; CMissing; CStr "u"]]) false
    = Ok (x', [mkStep "ord-enc" Ordinal [NStr "c"]; mkStep "oh-enc" OneHot [NStr "a"]], [mkStep "target_enc" Target []; mkStep "imputation" Imputer []]).
Proof. exact C68_ex_main. Qed.

(** C69: predict returns the user's labels: if the model's output for a row is
    what it was trained with on row i, the prediction is the user's label i. *)
Theorem C69_labels_decoded :
  forall y classes y' raw,
    classifier_labels y = Ok (classes, y') -> raw <> [] -> (forall r, In r raw -> In r y' /\ r <> LMissing) ->
    exists out, classifier_predict classes raw = Ok out /\
      Forall2 (fun r d => In d y /\ forall i, nth_error y' i = Some r -> nth_error y i = Some d) raw out.
Proof. exact C69_labels_decoded_main. Qed.
Print Assumptions C69_labels_decoded.

Theorem C69_labels_accepted :
  forall y, ((exists s, In (LStr s) y) -> (exists q, In (LNum q) y) -> classifier_labels y = Err TypeError) /\
            (~ ((exists s, In (LStr s) y) /\ (exists q, In (LNum q) y)) -> exists r, classifier_labels y = Ok r).
Proof. exact C69_labels_accepted_main. Qed.
Print Assumptions C69_labels_accepted.

(** The classes are the different labels, in ascending order, a missing label last. *)
Theorem C69_classes :
  forall y classes y', classifier_labels y = Ok (classes, y') ->
    (forall l, In l classes <-> In l y) /\
    forall i j a b, i < j -> nth_error classes i = Some a -> nth_error classes j = Some b -> label_before a b.
Proof. exact C69_classes_main. Qed.
Print Assumptions C69_classes.

(** An output that stands for no class is an error, not some class. *)
Theorem C69_unknown :
  forall y classes y' r rest, classifier_labels y = Ok (classes, y') -> ~ In r y ->
    (forall k, k < length classes -> r <> num_of_nat k) -> classifier_predict classes (r :: rest) = Err ValueError.
Proof. exact C69_unknown_main. Qed.
Print Assumptions C69_unknown.

Example C69_ex : exists y', classifier_labels [LStr "no"; LStr "yes"; LStr "no"] = Ok ([LStr "no"; LStr "yes"], y') /\
  classifier_predict [LStr "no"; LStr "yes"] [num_of_nat 1; num_of_nat 0] = Ok [LStr "yes"; LStr "no"] /\
  (forall r, In r [num_of_nat 1; num_of_nat 0] -> In r y' /\ r <> LMissing).
Proof. exact C69_ex_main. Qed.

(** C70: X_y_from_file returns the named or last column, and the others in order. *)
Theorem C70_split :
  forall read_arff read_csv path data,
    file_to_pandas read_arff read_csv path = Ok data ->
    (forall xs c, f_cols data = xs ++ [c] -> X_y_from_file read_arff read_csv path None = Ok (mkFrame (f_index data) xs, [c])) /\
    (forall xs c zs s, distinct_columns data -> f_cols data = xs ++ c :: zs -> c_cname c = NStr s ->
       X_y_from_file read_arff read_csv path (Some s) = Ok (mkFrame (f_index data) (xs ++ zs), [c])) /\
    (forall s, (forall c, In c (f_cols data) -> c_cname c <> NStr s) -> X_y_from_file read_arff read_csv path (Some s) = Err ValueError).
Proof. exact C70_split_main. Qed.
Print Assumptions C70_split.

Theorem C70_readers : forall read_arff read_csv p,
  file_to_pandas read_arff read_csv (p ++ ".arff")%string = read_arff (p ++ ".arff")%string /\
  file_to_pandas read_arff read_csv (p ++ ".csv")%string = read_csv (p ++ ".csv")%string.
Proof. exact C70_readers_main. Qed.
Print Assumptions C70_readers.

(** other extensions are refused *)
Theorem C70_extension :
  forall read_arff read_csv path split_column,
    (forall p, path <> (p ++ ".arff")%string) -> (forall p, path <> (p ++ ".csv")%string) ->
    X_y_from_file read_arff read_csv path split_column = Err ValueError.
Proof. exact C70_extension_main. Qed.
Print Assumptions C70_extension.

Example C70_ex : exists data, file_to_pandas (fun _ => Err TypeError) (fun _ => Ok data) "d.csv" = Ok data /\ distinct_columns data /\
  X_y_from_file (fun _ => Err TypeError) (fun _ => Ok data) "d.csv" (Some "b") = Ok (mkFrame [0%Z] [mkCol (NStr "a") DInt [CNum 1%Qc]; mkCol (NStr "c") DInt [CNum 1%Qc]], [mkCol (NStr "b") DObject [CStr "x"]]).
Proof. exact C70_ex_main. Qed.

(** C89 is false: a file without a line starting with @data (an empty file, a
    truncated one, or one ending in "@data" without newline) is read forever. *)
Theorem C89_loops_refuted :
  forall file, ~ Exists data_line (seen file) -> Forall (fun l => ~ declaration_line l) (seen file) ->
    forall fuel, load_arff_metadata fuel file = Err Diverges.
Proof. exact C89_loops_refuted_main. Qed.
Print Assumptions C89_loops_refuted.

Theorem C89_example_refuted :
  (forall fuel, load_arff_metadata fuel [] = Err Diverges) /\
  (forall fuel, load_arff_metadata fuel [("@relation r" ++ newline)%string; "@data"] = Err Diverges).
Proof. exact C89_example_refuted_main. Qed.
Print Assumptions C89_example_refuted.

(** It terminates on every file with such a line, and never without one (except
    for a malformed declaration). *)
Theorem C89_terminates_partial :
  forall file,
    (Exists data_line (seen file) -> forall fuel, length file < fuel -> load_arff_metadata fuel file <> Err Diverges) /\
    (~ Exists data_line (seen file) -> forall fuel, load_arff_metadata fuel file = Err Diverges \/ load_arff_metadata fuel file = Err ValueError).
Proof. exact C89_terminates_partial_main. Qed.
Print Assumptions C89_terminates_partial.

(** and returns the declared names and types, in order: a quoted name without its
    quotes, blanks included *)
Theorem C89_declarations_partial :
  forall relation decls lines tail fuel,
    ~ data_line relation -> ~ declaration_line relation ->
    Forall2 declared decls lines -> NoDup (map fst decls) -> S (length decls) < fuel ->
    load_arff_metadata fuel (relation :: lines ++ ("@data" ++ newline)%string :: tail) = Ok decls.
Proof. exact C89_declarations_partial_main. Qed.
Print Assumptions C89_declarations_partial.

Example C89_ex : written "age" "age" /\ written "my age" (String quote_char "my age" ++ String quote_char "")%string /\
  ~ data_line "@relation r" /\ ~ declaration_line "@relation r" /\ Exists data_line (seen ["@relation r"; "@DATA" ++ newline])%string /\
  load_arff_metadata 9 ["@relation r"; "@attribute age numeric" ++ newline; "@Data" ++ newline]%string = Ok [("age", "numeric")].
Proof. exact C89_ex_main. Qed.

(** C94: guessing categorical columns changes only the dtype, exactly for
    objects and whole numbers with at most ten different values... *)
Theorem C94_categorical_partial :
  forall f, Forall (fun c => ~ no_is_integer (c_dtype c)) (f_cols f) ->
    exists f', infer_categoricals f = Ok f' /\ f_index f' = f_index f /\
      Forall2 (fun c c' => c_cname c' = c_cname c /\ c_cells c' = c_cells c /\ (c_dtype c' = DCategory <-> categorical_when c) /\ (c_dtype c' <> DCategory -> c' = c)) (f_cols f) (f_cols f').
Proof. exact C94_categorical_partial_main. Qed.
Print Assumptions C94_categorical_partial.

(** ... but it fails on every boolean or unsigned column with a value. *)
Theorem C94_boolean_refuted :
  forall idx c, no_is_integer (c_dtype c) -> (exists x, In x (c_cells c) /\ x <> CMissing) ->
    infer_categoricals (mkFrame idx [c]) = Err AttributeError.
Proof. exact C94_boolean_refuted_main. Qed.
Print Assumptions C94_boolean_refuted.

Example C94_ex : ~ no_is_integer DFloat /\ no_is_integer DBool /\
  infer_categoricals (mkFrame [0%Z; 1%Z] [mkCol (NStr "a") DFloat [CNum 1%Qc; CMissing]; mkCol (NStr "b") DFloat [CNum (Q2Qc (1#2)); CInf true]]) =
  Ok (mkFrame [0%Z; 1%Z] [mkCol (NStr "a") DCategory [CNum 1%Qc; CMissing]; mkCol (NStr "b") DFloat [CNum (Q2Qc (1#2)); CInf true]]).
Proof. exact C94_ex_main. Qed.

(** C95: for a csv file with header the names listed are its columns, in order, and
    each of them can be used as target... *)
Theorem C95_names_partial :
  forall p sep first rest fuel fields, csv_columns sep true first = map NStr fields -> NoDup fields ->
    load_feature_metadata fuel (p ++ ".csv")%string sep true (first :: rest) = Ok (map (fun n => (n, "")) fields) /\
    forall read_arff read_csv data, read_csv (p ++ ".csv")%string = Ok data -> map c_cname (f_cols data) = csv_columns sep true first ->
      forall s, In s fields -> exists x c, X_y_from_file read_arff read_csv (p ++ ".csv")%string (Some s) = Ok (x, [c]) /\ c_cname c = NStr s.
Proof. exact C95_names_partial_main. Qed.
Print Assumptions C95_names_partial.

(** ... but without a header positions are listed, and none can be used as target. *)
Theorem C95_no_header_refuted :
  forall p sep first rest fuel names, load_feature_metadata fuel (p ++ ".csv")%string sep false (first :: rest) = Ok names ->
    names <> [] /\
    forall read_arff read_csv data s, read_csv (p ++ ".csv")%string = Ok data -> map c_cname (f_cols data) = csv_columns sep false first ->
      In s (map fst names) -> X_y_from_file read_arff read_csv (p ++ ".csv")%string (Some s) = Err ValueError.
Proof. exact C95_no_header_refuted_main. Qed.
Print Assumptions C95_no_header_refuted.

Theorem C95_uppercase_refuted :
  forall fuel sep has_header file, load_feature_metadata fuel "DATA.CSV" sep has_header file = Err ValueError.
Proof. exact C95_uppercase_refuted_main. Qed.
Print Assumptions C95_uppercase_refuted.

(** Files that end in neither .arff nor .csv, in capitals or not, are refused. *)
Theorem C95_other_files :
  forall fuel path sep has_header file,
    (forall p e, path = (p ++ e)%string -> String.length e = 5 -> ~ begins ".arff" e) ->
    (forall p e, path = (p ++ e)%string -> String.length e = 4 -> ~ begins ".csv" e) ->
    load_feature_metadata fuel path sep has_header file = Err ValueError.
Proof. exact C95_other_files_main. Qed.
Print Assumptions C95_other_files.

Example C95_ex : load_feature_metadata 1 "d.csv" "," true [("a,b" ++ newline)%string] = Ok [("a", ""); ("b", "")] /\ load_feature_metadata 1 "d.csv" "," false [("3,4" ++ newline)%string] = Ok [("0", ""); ("1", "")] /\
  csv_columns "," false ("3,4" ++ newline) = [NInt 0; NInt 1].
Proof. exact C95_ex_main. Qed.

(** C96: format_y gives one label per row: the vector itself, the class number
    of an indicator row, the column of a one-column table... *)
Theorem C96_format_y_partial :
  (forall ls, exists y, format_y (YVec ls) TSeries = Ok y /\ labels y = ls) /\
  (forall s, format_y (YSeries s) TSeries = Ok (OSeries s)) /\
  (forall rows, length rows <> 1 -> exists y, format_y (YFrame 1 rows) TSeries = Ok y /\ is_target y /\ labels y = map (fun ir => first_label (snd ir)) rows /\ y_index y = map fst rows) /\
  (forall w rows ks, 1 < w -> rows = map (fun k => map (fun j => if j =? k then num_of_nat 1 else num_of_nat 0) (seq 0 w)) ks -> Forall (fun k => k < w) ks ->
     exists y, format_y (YMat w rows) TSeries = Ok y /\ labels y = map num_of_nat ks) /\
  (forall rows, exists y, format_y (YMat 1 rows) TSeries = Ok y /\ labels y = map first_label rows).
Proof. exact C96_format_y_partial_main. Qed.
Print Assumptions C96_format_y_partial.

(** A classifier refuses targets in several columns, and anything that is no
    array, Series or DataFrame. *)
Theorem C96_classifier_refuses :
  forall x,
    (forall w rows, 1 < w -> classifier_format x (YMat w rows) = Err ValueError) /\
    (forall w rows, 1 < w -> 1 < length rows -> classifier_format x (YFrame w rows) = Err ValueError) /\
    classifier_format x YOther = Err TypeError.
Proof. exact C96_classifier_refuses_main. Qed.
Print Assumptions C96_classifier_refuses.

(** Asked for a DataFrame, it gives the same labels and index in one column, and a
    DataFrame as it is. *)
Theorem C96_frames :
  (forall y s, (forall w rows, y <> YFrame w rows) -> format_y y TSeries = Ok (OSeries s) ->
     format_y y TFrame = Ok (OFrame 1 (map (fun il => (fst il, [snd il])) s))) /\
  (forall w rows, format_y (YFrame w rows) TFrame = Ok (OFrame w rows)).
Proof. exact C96_frames_main. Qed.
Print Assumptions C96_frames.

(** Anything that is no array, Series or DataFrame is refused. *)
Theorem C96_refuses :
  (forall t, format_y YOther t = Err TypeError) /\ (forall y t r, format_x_y XOther y t r = Err TypeError).
Proof. exact C96_refuses_main. Qed.
Print Assumptions C96_refuses.

(** ... but a table with one row makes format_x_y fail, and a table with several
    columns is not reduced to its first column as documented. *)
Theorem C96_tables_refuted :
  (forall x y t f y0 i l, format_x_y x y t false = Ok (f, y0) ->
     format_x_y x (YFrame 1 [(i, [l])]) TSeries true = Err AttributeError) /\
  (forall w rows, 1 < w -> 1 < length rows -> format_y (YFrame w rows) TSeries = Ok (OFrame w rows)).
Proof. exact C96_tables_refuted_main. Qed.
Print Assumptions C96_tables_refuted.

(** gama/data_formatting.py, gama/utilities/preprocessing.py,
    gama/data_loading.py and the label handling of gama/GamaClassifier.py.

    A data frame is an index and a list of named, typed columns.  What pandas
    does is modelled as far as the code relies on it: selecting rows with a
    boolean Series (alignment by index), squeezing, counting distinct values.
    numpy arrays are frames whose index is 0, 1, 2, ... .  The readers
    (pandas.read_csv, arff.load), csv.Sniffer and the encoders of
    category_encoders are parameters. *)
From Verif Require Import Base.
Require Import Ascii Qcanon DecimalString.
Open Scope string_scope.
Open Scope list_scope.
Open Scope nat_scope.

(** * Cells, columns, frames *)

Inductive cell := CMissing | CNum (q : Qc) | CInf (positive : bool) | CBool (b : bool) | CStr (s : string).
(** ==, as used when counting distinct values: True == 1 and False == 0 *)
Definition bool_num (b : bool) : Qc := if b then 1%Qc else 0%Qc.
Definition cell_eqb (a b : cell) : bool :=
  match a, b with
  | CMissing, CMissing => true
  | CNum p, CNum q => if Qc_eq_dec p q then true else false
  | CInf p, CInf q => Bool.eqb p q
  | CBool p, CBool q => Bool.eqb p q
  | CBool p, CNum q | CNum q, CBool p => if Qc_eq_dec (bool_num p) q then true else false
  | CStr p, CStr q => String.eqb p q
  | _, _ => false
  end.
Definition missing (c : cell) : bool := match c with CMissing => true | _ => false end.
(** [float.is_integer] *)
Definition is_integer (c : cell) : bool :=
  match c with CNum q => Pos.eqb (Qden (this q)) 1 | _ => false end.

(** dtypes; [DUInt], [DBool] and [DComplex] are numeric for pandas, but their
    elements have no method is_integer (before Python 3.12). *)
Inductive dtype := DObject | DInt | DUInt | DBool | DComplex | DFloat | DCategory | DOther.
Inductive cname := NStr (s : string) | NInt (i : nat).
Definition cname_eqb (a b : cname) : bool :=
  match a, b with NStr s, NStr t => String.eqb s t | NInt i, NInt j => Nat.eqb i j | _, _ => false end.
Record column := mkCol { c_cname : cname; c_dtype : dtype; c_cells : list cell }.
Record frame := mkFrame { f_index : list Z; f_cols : list column }.

(** * data_formatting.py *)

(** distinct values, missing ones not counted: [series.value_counts()],
    [series.nunique(dropna=True)] *)
Fixpoint distinct (l : list cell) : list cell :=
  match l with
  | [] => []
  | c :: l' => if missing c || existsb (cell_eqb c) (distinct l') then distinct l' else c :: distinct l'
  end.
Definition nunique (c : column) : nat := length (distinct (c_cells c)).

Definition is_numeric (d : dtype) : bool :=
  match d with DInt | DUInt | DBool | DComplex | DFloat => true | _ => false end.

(** [all(x.is_integer() for x in series.dropna())], data_formatting.py:15-17;
    AttributeError at the first element without that method *)
Definition all_is_integer (c : column) : res bool :=
  let values := filter (fun x => negb (missing x)) (c_cells c) in
  match c_dtype c, values with
  | _, [] => Ok true
  | DFloat, _ => Ok (forallb is_integer values)
  | _, _ => Err AttributeError
  end.

(** gama/data_formatting.py:10-19 series_looks_categorical *)
Definition looks_categorical (c : column) : res bool :=
  match c_dtype c with
  | DObject => Ok true
  | d => if is_numeric d then
           do integer_like <- (match d with DInt => Ok true | _ => all_is_integer c end);
           Ok ((nunique c <=? 10) && integer_like)
         else Ok false
  end.

(** gama/data_formatting.py:22-26 infer_categoricals_inplace.  Column names are
    distinct here: they are positions (numpy) or made distinct by read_csv. *)
Definition infer_column (c : column) : res column :=
  do b <- looks_categorical c;
  Ok (if b then mkCol (c_cname c) DCategory (c_cells c) else c).
Definition infer_categoricals (f : frame) : res frame :=
  do cs <- rmap infer_column (f_cols f); Ok (mkFrame (f_index f) cs).

(** gama/data_formatting.py:29-33 numpy_to_dataframe: index and column names are
    positions; the dtypes are what pandas infers. *)
Definition numpy_to_dataframe (n : nat) (cols : list (dtype * list cell)) : res frame :=
  infer_categoricals
    (mkFrame (map Z.of_nat (seq 0 n))
             (map (fun ic => mkCol (NInt (fst ic)) (fst (snd ic)) (snd (snd ic))) (enumerate cols))).

(** * Targets *)

Inductive label := LMissing | LNum (q : Qc) | LStr (s : string).
Definition unlabelled (l : label) : bool := match l with LMissing => true | _ => false end.

(** What a user may pass as y. A frame has column labels (numbered) and rows. *)
Inductive ydata :=
| YVec (ls : list label)                               (* numpy, 1-d *)
| YMat (width : nat) (rows : list (list label))        (* numpy, 2-d *)
| YSeries (s : list (Z * label))
| YFrame (width : nat) (rows : list (Z * list label))
| YOther.
(** what format_y can return *)
Inductive yout := OSeries (s : list (Z * label)) | OFrame (width : nat) (rows : list (Z * list label)) | OScalar (l : label).
Inductive ytype := TSeries | TFrame.

(** [np.argmax] of a row: position of the first largest number; the first NaN
    wins (entries that are not numbers do not occur in numeric arrays). *)
Fixpoint argmax_from (i : nat) (l : list label) (best : nat) (best_v : option Qc) : nat :=
  match l with
  | [] => best
  | LNum q :: l' => match best_v with
                    | Some b => match Qccompare b q with Lt => argmax_from (S i) l' i (Some q) | _ => argmax_from (S i) l' best best_v end
                    | None => argmax_from (S i) l' i (Some q)
                    end
  | _ :: _ => i
  end.
Definition argmax (l : list label) : nat := argmax_from 0 l 0 None.

Definition index_from_0 {A} (l : list A) : list (Z * A) := map (fun ia => (Z.of_nat (fst ia), snd ia)) (enumerate l).
Definition first_label (r : list label) : label := match r with [] => LMissing | l :: _ => l end.

(** gama/data_formatting.py:45-47: numpy matrices become vectors *)
Definition mat_to_vec (width : nat) (rows : list (list label)) : list label :=
  if 1 <? width then map (fun r => LNum (Q2Qc (inject_Z (Z.of_nat (argmax r))))) rows
  else map first_label rows.
(** [DataFrame.squeeze()]: one column -> Series, one row -> Series over the
    columns, one cell -> scalar, otherwise unchanged *)
Definition squeeze (width : nat) (rows : list (Z * list label)) : yout :=
  match width, rows with
  | 1, [(_, r)] => OScalar (first_label r)
  | 1, _ => OSeries (map (fun ir => (fst ir, first_label (snd ir))) rows)
  | _, [(_, r)] => OSeries (index_from_0 r)
  | _, _ => OFrame width rows
  end.

(** gama/data_formatting.py:36-57 format_y ([y_type] restricted to the two
    accepted types) *)
Definition format_y (y : ydata) (t : ytype) : res yout :=
  match y, t with
  | YOther, _ => Err TypeError
  | YMat w rows, TSeries => Ok (OSeries (index_from_0 (mat_to_vec w rows)))
  | YMat w rows, TFrame => Ok (OFrame 1 (map (fun il => (fst il, [snd il])) (index_from_0 (mat_to_vec w rows))))
  | YVec ls, TSeries => Ok (OSeries (index_from_0 ls))
  | YVec ls, TFrame => Ok (OFrame 1 (map (fun il => (fst il, [snd il])) (index_from_0 ls)))
  | YSeries s, TSeries => Ok (OSeries s)
  | YSeries s, TFrame => Ok (OFrame 1 (map (fun il => (fst il, [snd il])) s))
  | YFrame w rows, TSeries => Ok (squeeze w rows)
  | YFrame w rows, TFrame => Ok (OFrame w rows)
  end.

(** * Dropping unlabelled rows *)

(** keep the elements at positions where the mask is true *)
Fixpoint select {A} (mask : list bool) (l : list A) : list A :=
  match mask, l with
  | b :: m, x :: l' => if b then x :: select m l' else select m l'
  | _, _ => []
  end.
Fixpoint zlist_eqb (a b : list Z) : bool :=
  match a, b with
  | [], [] => true
  | x :: a', y :: b' => Z.eqb x y && zlist_eqb a' b'
  | _, _ => false
  end.
(** IndexingError of pandas *)
Definition IndexingError := OtherError 1.
(** the positional mask pandas derives from a boolean Series for an index
    (pandas.core.indexing.check_bool_indexer): the mask itself when the indices
    are equal, else aligned by label *)
Definition align_mask (index : list Z) (mask : list (Z * bool)) : res (list bool) :=
  if zlist_eqb (map fst mask) index then Ok (map snd mask)
  else if forallb (fun i => existsb (Z.eqb i) (map fst mask)) index then
    let m := flat_map (fun i => map snd (filter (fun im => Z.eqb i (fst im)) mask)) index in
    if length m =? length index then Ok m else Err IndexError
  else Err IndexingError.
Definition select_rows (mask : list bool) (f : frame) : frame :=
  mkFrame (select mask (f_index f)) (map (fun c => mkCol (c_cname c) (c_dtype c) (select mask (c_cells c))) (f_cols f)).

(** gama/data_formatting.py:60-75 remove_unlabeled_rows *)
Definition remove_unlabeled_rows (x : frame) (y : yout) : res (frame * yout) :=
  do unl <- (match y with
             | OFrame 0 _ => Err IndexError
             | OFrame _ rows => Ok (map (fun ir => (fst ir, unlabelled (first_label (snd ir)))) rows)
             | OSeries s => Ok (map (fun il => (fst il, unlabelled (snd il))) s)
             | OScalar _ => Err AttributeError
             end);
  if existsb snd unl then
    let keep := map (fun ib => (fst ib, negb (snd ib))) unl in
    do mx <- align_mask (f_index x) keep;
    let x' := select_rows mx x in
    match y with
    | OFrame w rows => do my <- align_mask (map fst rows) keep; Ok (x', OFrame w (select my rows))
    | OSeries s => do my <- align_mask (map fst s) keep; Ok (x', OSeries (select my s))
    | OScalar _ => Err AttributeError
    end
  else Ok (x, y).

(** What a user may pass as x. *)
Inductive xdata := XArr (n : nat) (cols : list (dtype * list cell)) | XFrame (f : frame) | XOther.
(** gama/data_formatting.py:78-109 format_x_y *)
Definition format_x_y (x : xdata) (y : ydata) (t : ytype) (remove : bool) : res (frame * yout) :=
  do f <- (match x with
           | XOther => Err TypeError
           | XArr n cols => numpy_to_dataframe n cols
           | XFrame f => Ok f
           end);
  do y' <- format_y y t;
  if remove then remove_unlabeled_rows f y' else Ok (f, y').

(** * preprocessing.py *)

Definition opt_leb (lo : option nat) (n : nat) : bool := match lo with None => true | Some l => l <=? n end.
Definition leb_opt (n : nat) (hi : option nat) : bool := match hi with None => true | Some h => n <=? h end.
Definition is_category (c : column) : bool := match c_dtype c with DCategory => true | _ => false end.

(** gama/utilities/preprocessing.py:12-42 select_categorical_columns.
    [df[column]] is a frame, which has no dtype, when the name occurs twice.
    Only the default ignore_nan=True, the one used, is modelled. *)
Definition select_categorical (f : frame) (min_f max_f : option nat) : res (list cname) :=
  do picked <- rmap (fun c =>
      if length (filter (fun d => cname_eqb (c_cname d) (c_cname c)) (f_cols f)) =? 1 then
        Ok (if is_category c && opt_leb min_f (nunique c) && leb_opt (nunique c) max_f then [c_cname c] else [])
      else Err AttributeError) (f_cols f);
  Ok (concat picked).

(** Encoding steps: the class of the transformer and its columns. *)
Inductive enc := Ordinal | OneHot | Target | Imputer.
Record enc_step := mkStep { st_name : string; st_enc : enc; st_columns : list cname }.

Section Encode.
  (** fit_transform of an encoder (category_encoders) *)
  Context (fit_transform : enc_step -> frame -> res frame).
  (** [Pipeline(steps).fit_transform(x)] *)
  Fixpoint run_steps (steps : list enc_step) (x : frame) : res frame :=
    match steps with
    | [] => Ok x
    | s :: steps' => do x' <- fit_transform s x; run_steps steps' x'
    end.

  (** gama/utilities/preprocessing.py:45-66 basic_encoding *)
  Definition basic_encoding (x : frame) (is_classification : bool) : res (frame * list enc_step) :=
    do ord1 <- select_categorical x None (Some 2);
    do ord2 <- (if is_classification then select_categorical x (Some 11) None else Ok []);
    do leq10 <- select_categorical x (Some 3) (Some 10);
    let steps := [mkStep "ord-enc" Ordinal (ord1 ++ ord2); mkStep "oh-enc" OneHot leq10] in
    do x' <- run_steps steps x;
    Ok (x', steps).

  (** gama/utilities/preprocessing.py:69-87 basic_pipeline_extension *)
  Definition basic_pipeline_extension (x : frame) (is_classification : bool) : res (list enc_step) :=
    do target <- (if is_classification then Ok []
                  else do many <- select_categorical x (Some 11) None; Ok [mkStep "target_enc" Target many]);
    Ok (target ++ [mkStep "imputation" Imputer []]).

  (** gama/gama.py:541-546, in Gama.fit *)
  Definition preprocess (x : frame) (is_classification : bool) : res (frame * list enc_step * list enc_step) :=
    do (x', steps) <- basic_encoding x is_classification;
    do ext <- basic_pipeline_extension x' is_classification;
    Ok (x', steps, ext).
End Encode.

(** * Class labels, GamaClassifier.py *)

Definition label_eqb (a b : label) : bool :=
  match a, b with
  | LMissing, LMissing => true
  | LNum p, LNum q => if Qc_eq_dec p q then true else false
  | LStr s, LStr t => String.eqb s t
  | _, _ => false
  end.
Definition is_str (l : label) : bool := match l with LStr _ => true | _ => false end.
Definition is_num (l : label) : bool := match l with LNum _ => true | _ => false end.
Definition label_leb (a b : label) : bool :=
  match a, b with
  | LStr s, LStr t => match String.compare s t with Gt => false | _ => true end
  | LNum p, LNum q => match Qccompare p q with Gt => false | _ => true end
  | _, _ => true
  end.
Fixpoint nodup_label (l : list label) : list label :=
  match l with
  | [] => []
  | x :: l' => if existsb (label_eqb x) l' then nodup_label l' else x :: nodup_label l'
  end.
(** [LabelEncoder().fit(y).classes_]: sorted distinct values, a missing one last;
    TypeError when strings and numbers are mixed (sklearn.utils._encode._unique) *)
Definition label_classes (y : list label) : res (list label) :=
  if existsb is_str y && existsb is_num y then Err TypeError
  else Ok (py_sorted label_leb (filter (fun l => negb (unlabelled l)) (nodup_label y))
           ++ (if existsb unlabelled y then [LMissing] else [])).
Fixpoint position (l : label) (classes : list label) : option nat :=
  match classes with
  | [] => None
  | c :: cs => if label_eqb l c then Some 0 else match position l cs with Some i => Some (S i) | None => None end
  end.
Definition num_of_nat (n : nat) : label := LNum (Q2Qc (inject_Z (Z.of_nat n))).
(** [LabelEncoder.transform] *)
Definition encode_label (classes : list label) (l : label) : res label :=
  match position l classes with Some i => Ok (num_of_nat i) | None => Err ValueError end.
(** [LabelEncoder.inverse_transform]: ValueError for anything but a position *)
Fixpoint decode_from (i : nat) (classes : list label) (l : label) : res label :=
  match classes with
  | [] => Err ValueError
  | c :: cs => if label_eqb l (num_of_nat i) then Ok c else decode_from (S i) cs l
  end.
Definition decode_label (classes : list label) (l : label) : res label := decode_from 0 classes l.

(** gama/GamaClassifier.py:126-132: the classes, and the y handed to Gama.fit *)
Definition classifier_labels (y : list label) : res (list label * list label) :=
  do classes <- label_classes y;
  if existsb is_str y then do y' <- rmap (encode_label classes) y; Ok (classes, y')
  else Ok (classes, y).
(** gama/GamaClassifier.py:53-57 _predict, given the model's output.  [in] on a
    list: NaN is found by identity or not at all; a model never outputs it. *)
Definition classifier_predict (classes : list label) (raw : list label) : res (list label) :=
  match raw with
  | [] => Err IndexError
  | y0 :: _ => if existsb (label_eqb y0) classes then Ok raw else rmap (decode_label classes) raw
  end.

(** gama/GamaClassifier.py:126-142 followed by gama/gama.py:538: what a
    classifier is trained on.  The encoded labels are a numpy vector. *)
Definition classifier_format (x : xdata) (y : ydata) : res (list label * (frame * yout)) :=
  do ls <- (match y with
            | YVec ls => Ok ls
            | YSeries s => Ok (map snd s)
            | YMat 1 rows => Ok (map first_label rows)
            | YMat _ _ => Err ValueError
            | YFrame w rows => match squeeze w rows with OSeries s => Ok (map snd s) | _ => Err ValueError end
            | YOther => Err TypeError
            end);
  do (classes, y') <- classifier_labels ls;
  do xy <- format_x_y x (if existsb is_str ls then YVec y' else y) TSeries true;
  Ok (classes, xy).

(** * data_loading.py *)

Fixpoint ends_with (suffix s : string) : bool :=
  String.eqb s suffix || match s with "" => false | String _ s' => ends_with suffix s' end.
(** gama/data_loading.py:104-125 file_to_pandas; [read_arff] and [read_csv] stand
    for arff_to_pandas (lines 69-101) and csv_to_pandas (lines 41-66) *)
Definition file_to_pandas (read_arff read_csv : string -> res frame) (path : string) : res frame :=
  if ends_with ".arff" path then read_arff path
  else if ends_with ".csv" path then read_csv path
  else Err ValueError.

(** gama/data_loading.py:128-163 X_y_from_file; y is the list of the selected
    columns: one Series, or a frame when the name occurs more than once *)
Definition split_frame (data : frame) (split_column : option string) : res (frame * list column) :=
  match split_column with
  | None => match rev (f_cols data) with
            | [] => Err IndexError
            | c :: _ => Ok (mkFrame (f_index data) (removelast (f_cols data)), [c])
            end
  | Some s => if existsb (fun c => cname_eqb (c_cname c) (NStr s)) (f_cols data) then
                Ok (mkFrame (f_index data) (filter (fun c => negb (cname_eqb (c_cname c) (NStr s))) (f_cols data)),
                    filter (fun c => cname_eqb (c_cname c) (NStr s)) (f_cols data))
              else Err ValueError
  end.
Definition X_y_from_file (read_arff read_csv : string -> res frame) (path : string) (split_column : option string)
  : res (frame * list column) :=
  do data <- file_to_pandas read_arff read_csv path; split_frame data split_column.

(** * ARFF headers *)

Definition lower_char (c : ascii) : ascii :=
  let n := nat_of_ascii c in
  if (65 <=? n) && (n <=? 90) then ascii_of_nat (n + 32) else c.
(** [str.lower], for ASCII text *)
Fixpoint lower (s : string) : string :=
  match s with "" => "" | String c s' => String (lower_char c) (lower s') end.
Fixpoint starts_with (p s : string) : bool :=
  match p, s with
  | "", _ => true
  | String c p', String d s' => Ascii.eqb c d && starts_with p' s'
  | _, "" => false
  end.
(** [s[:-1]] *)
Fixpoint chop (s : string) : string :=
  match s with "" => "" | String c s' => match s' with "" => "" | _ => String c (chop s') end end.
(** [s.split(sep, 1)] unpacked into two variables; ValueError without [sep] *)
Fixpoint split_once (sep s : string) : res (string * string) :=
  if starts_with sep s then Ok ("", substring (String.length sep) (String.length s - String.length sep) s)
  else match s with
       | "" => Err ValueError
       | String c s' => do (a, b) <- split_once sep s'; Ok (String c a, b)
       end.
(** [attributes[name] = data_type] on an OrderedDict *)
Fixpoint odict_set (d : list (string * string)) (n v : string) : list (string * string) :=
  match d with
  | [] => [(n, v)]
  | (m, w) :: d' => if String.eqb m n then (m, v) :: d' else (m, w) :: odict_set d' n v
  end.
Definition quote : string := String (ascii_of_nat 34) "".
(** gama/data_loading.py:188-196, one attribute line *)
Definition parse_attribute (line : string) : res (string * string) :=
  do (_, name_and_type) <- split_once " " line;
  if starts_with quote name_and_type
  then split_once (quote ++ " ") (substring 1 (String.length name_and_type - 1) name_and_type)
  else split_once " " name_and_type.
(** gama/data_loading.py:183-198, the loop.  [rest]: lines not yet read, each
    with its newline; reading past the end gives the empty string. *)
Fixpoint arff_loop (fuel : nat) (line : string) (rest : list string) (attrs : list (string * string)) : res (list (string * string)) :=
  match fuel with
  | O => Err Diverges
  | S fuel' =>
      if starts_with "@data" (lower line) then Ok attrs
      else
        do attrs' <- (if starts_with "@attribute" (lower line)
                      then do (n, t) <- parse_attribute line; Ok (odict_set attrs n t)
                      else Ok attrs);
        match rest with
        | [] => arff_loop fuel' "" [] attrs'
        | l :: rest' => arff_loop fuel' (chop l) rest' attrs'
        end
  end.
(** gama/data_loading.py:180-198 load_feature_metadata_from_arff *)
Definition load_arff_metadata (fuel : nat) (file : list string) : res (list (string * string)) :=
  match file with
  | [] => arff_loop fuel "" [] []
  | l :: rest => arff_loop fuel l rest []
  end.

(** * CSV headers *)
From Verif Require Import Str_Model.
(** [str(i)] *)
Definition str_of_nat (n : nat) : string := NilEmpty.string_of_uint (Nat.to_uint n).
(** gama/data_loading.py:24-38 load_csv_header; [sep] and [has_header] are what
    sniff_csv_meta (lines 15-21) guesses, [first_line] is the first line *)
Definition load_csv_header (path : string) (sep : string) (has_header : bool) (first_line : string) : res (list string) :=
  if ends_with ".csv" path then
    let fields := split sep (chop first_line) in
    Ok (if has_header then fields else map (fun ic => str_of_nat (fst ic)) (enumerate fields))
  else Err ValueError.
(** column names of [pd.read_csv(path, sep=sep, header=0 if has_header else None)],
    gama/data_loading.py:58-63, for lines without quotes and distinct names *)
Definition csv_columns (sep : string) (has_header : bool) (first_line : string) : list cname :=
  let fields := split sep (chop first_line) in
  if has_header then map NStr fields else map (fun ic => NInt (fst ic)) (enumerate fields).
(** gama/data_loading.py:166-177 load_feature_metadata_from_file *)
Definition load_feature_metadata (fuel : nat) (path : string) (sep : string) (has_header : bool) (file : list string) : res (list (string * string)) :=
  if ends_with ".arff" (lower path) then load_arff_metadata fuel file
  else if ends_with ".csv" (lower path) then
    do names <- load_csv_header path sep has_header (match file with [] => "" | l :: _ => l end);
    Ok (fold_left (fun d n => odict_set d n "") names [])
  else Err ValueError.

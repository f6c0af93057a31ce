(** Loading files into frames: arff_to_pandas, csv_to_pandas and sniff_csv_meta of
    gama/data_loading.py. *)
From Verif Require Import Base Data_Model.
Open Scope string_scope.
Open Scope list_scope.
Open Scope nat_scope.

(** The type of an ARFF attribute as liac-arff gives it: a list of values, or a name
    such as 'REAL'. *)
Inductive atype := Nominal (values : list string) | Named (kind : string).
(** The dictionary that arff.load returns, as far as it is used. *)
Record arff_file := mkArff { af_attributes : list (string * atype); af_rows : list (list cell) }.

(** pandas compares the number of names with the length of the longest row. *)
Definition fits (n : nat) (rows : list (list cell)) : bool :=
  match rows with [] => true | _ => fold_right Nat.max 0 (map (@length cell) rows) =? n end.
(** Column [j] of the rows: [pd.DataFrame(data, columns=...)], data_loading.py:94. *)
Definition column_cells (j : nat) (rows : list (list cell)) : list cell := map (fun r => nth j r CMissing) rows.
(** [Series.astype("category")], data_loading.py:95-98 *)
Definition set_category (c : column) : column := mkCol (c_cname c) DCategory (c_cells c).
(** [data[name] = data[name].astype("category")]: every column of that name; liac-arff
    does not accept a name twice. *)
Definition make_category (name : string) (cols : list column) : list column :=
  map (fun c => if cname_eqb (c_cname c) (NStr name) then set_category c else c) cols.

Section Arff.
(** the dtype pandas gives a column of these values *)
Context (guess : list cell -> dtype).
(** arff_to_pandas, data_loading.py:69-99, after arff.load (line 88-89).  Unpacking
    [zip( *[])] into two names is a ValueError; so is a table whose longest row has
    another length than the header.  Shorter rows are filled with missing values. *)
Definition arff_to_pandas (file : arff_file) : res frame :=
  match af_attributes file with
  | [] => Err ValueError
  | attributes =>
    if fits (length attributes) (af_rows file) then
      let cols := map (fun ja => let cells := column_cells (fst ja) (af_rows file) in
                                 mkCol (NStr (fst (snd ja))) (guess cells) cells) (enumerate attributes) in
      let cols' := fold_left (fun cs a => match snd a with Nominal _ => make_category (fst a) cs | Named _ => cs end) attributes cols in
      Ok (mkFrame (map Z.of_nat (seq 0 (length (af_rows file)))) cols')
    else Err ValueError
  end.
End Arff.

Section Csv.
(** csv.Sniffer on the first 4096 characters, sniff_csv_meta, data_loading.py:14-20
    (csv.Error when it cannot tell); pandas.read_csv with a separator and the row of
    the header, if any, followed by infer_objects. *)
Context (sniff : string -> res (string * bool)) (read : string -> string -> option nat -> res frame).
(** csv_to_pandas, data_loading.py:41-66; [sep] and [header]: the arguments if given *)
Definition csv_to_pandas (path : string) (sep : option string) (header : option (option nat)) : res frame :=
  do (s, h) <- (match header, sep with
                | Some h, Some s => Ok (s, h)
                | _, _ =>
                  do (s0, has_header) <- sniff path;
                  Ok (match sep with Some s => s | None => s0 end,
                      match header with Some h => h | None => if has_header then Some 0 else None end)
                end);
  do f <- read path s h;
  infer_categoricals f.
End Csv.

(** Vocabulary of the data properties. *)
From Verif Require Import Base Data_Model.
Require Import Ascii Qcanon.
Open Scope string_scope.
Open Scope list_scope.
Open Scope nat_scope.

(** * Rows *)
Definition row (f : frame) (i : nat) : list (option cell) := map (fun c => nth_error (c_cells c) i) (f_cols f).
Definition rows (f : frame) : list (list (option cell)) := map (row f) (seq 0 (length (f_index f))).
(** every column has one cell per row *)
Definition rectangular (f : frame) : Prop := Forall (fun c => length (c_cells c) = length (f_index f)) (f_cols f).
(** the names and dtypes of the columns *)
Definition header (f : frame) : list (cname * dtype) := map (fun c => (c_cname c, c_dtype c)) (f_cols f).

(** labels of a target, one per row; of a frame, those in the first column *)
Definition labels (y : yout) : list label :=
  match y with
  | OSeries s => map snd s
  | OFrame _ rs => map (fun ir => first_label (snd ir)) rs
  | OScalar l => [l]
  end.
Definition y_index (y : yout) : list Z :=
  match y with OSeries s => map fst s | OFrame _ rs => map fst rs | OScalar _ => [0%Z] end.
(** a Series, or a frame with at least one column *)
Definition is_target (y : yout) : Prop :=
  match y with OSeries _ => True | OFrame w _ => 0 < w | OScalar _ => False end.
Definition labelled (rl : list (option cell) * label) : bool := match snd rl with LMissing => false | _ => true end.

(** * Distinct values *)
(** equal as Python values: the same, or a truth value and the number 1 or 0 *)
Definition as_number (c : cell) : option Qc :=
  match c with CNum q => Some q | CBool true => Some 1%Qc | CBool false => Some 0%Qc | _ => None end.
Definition same_value (a b : cell) : Prop := a = b \/ exists q, as_number a = Some q /\ as_number b = Some q.
(** [c] has exactly [n] different values, missing ones not counted *)
Definition factors (c : column) (n : nat) : Prop :=
  exists ds, length ds = n /\
    (forall d, In d ds -> In d (c_cells c) /\ d <> CMissing) /\
    ForallOrdPairs (fun a b => ~ same_value a b) ds /\
    (forall x, In x (c_cells c) -> x <> CMissing -> exists d, In d ds /\ same_value x d).
Definition whole (c : cell) : Prop := exists z : Z, c = CNum (Q2Qc (inject_Z z)).

(** * Encoders *)
Definition distinct_columns (f : frame) : Prop := NoDup (map c_cname (f_cols f)).
(** The contract of an encoder: it replaces its columns by columns that are not
    categorical and leaves the other categorical columns alone. *)
Definition of_category (c : column) : bool := match c_dtype c with DCategory => true | _ => false end.
Definition encodes (s : enc_step) (f f' : frame) : Prop :=
  filter of_category (f_cols f') =
  filter (fun c => of_category c && negb (existsb (cname_eqb (c_cname c)) (st_columns s))) (f_cols f).
(** the encoders that a column is given to, with repetitions *)
Definition encoders_of (n : cname) (steps : list enc_step) : list enc :=
  flat_map (fun s => map (fun _ => st_enc s) (filter (cname_eqb n) (st_columns s))) steps.
(** documented choice of encoder by number of factors (preprocessing.py:50-53, 74-75) *)
Definition encoder_for (classification : bool) (n : nat) : enc :=
  if n <=? 2 then Ordinal else if n <=? 10 then OneHot else if classification then Ordinal else Target.

(** * Class labels *)
(** the order of the classes: numbers by size, texts alphabetically by character
    code, the missing label after all others *)
Definition label_before (a b : label) : Prop :=
  match a, b with
  | LNum p, LNum q => (p < q)%Qc
  | LStr s, LStr t => String.compare s t = Lt
  | LNum _, LMissing | LStr _, LMissing => True
  | _, _ => False
  end.

(** * ARFF files *)
(** the line begins with a word (in small letters), in small or capital letters *)
Definition letter (small c : ascii) : Prop :=
  c = small \/ (97 <= nat_of_ascii small <= 122 /\ nat_of_ascii c + 32 = nat_of_ascii small).
Fixpoint begins (word line : string) : Prop :=
  match word, line with
  | "", _ => True
  | String w word', String c line' => letter w c /\ begins word' line'
  | _, "" => False
  end.
Definition data_line (l : string) : Prop := begins "@data" l.
Definition declaration_line (l : string) : Prop := begins "@attribute" l.
(** the lines as the loop sees them: all but the first lose their last character *)
Definition seen (file : list string) : list string :=
  match file with [] => [] | l :: rest => l :: map (fun s => substring 0 (String.length s - 1) s) rest end.
Definition newline : string := String (ascii_of_nat 10) "".
Definition has_char (c : ascii) (s : string) : Prop := exists a b, s = (a ++ String c b)%string.
Definition quote_char : ascii := ascii_of_nat 34.
(** how a name is written: as it is, when it has no blank and does not begin with a
    double quote, or between double quotes, when it has none itself *)
Definition written (name text : string) : Prop :=
  (text = name /\ ~ has_char " " name /\ name <> "" /\ forall r, name <> String quote_char r) \/
  (text = (String quote_char name ++ String quote_char "")%string /\ ~ has_char quote_char name).
(** a declaration of a name and a type, as a line of a file *)
Definition declared (d : string * string) (line : string) : Prop :=
  exists text, written (fst d) text /\ line = ("@attribute " ++ text ++ " " ++ snd d ++ newline)%string.

(** * Guessing categorical columns *)
(** pandas calls these numeric, but Python (before 3.12) gives their elements no
    method is_integer *)
Definition no_is_integer (d : dtype) : Prop := d = DUInt \/ d = DBool \/ d = DComplex.
(** a column is categorical when it was, when it holds objects, or when it holds
    whole numbers of at most ten different values *)
Definition categorical_when (c : column) : Prop :=
  c_dtype c = DCategory \/ c_dtype c = DObject \/
  ((c_dtype c = DInt \/ (c_dtype c = DFloat /\ forall x, In x (c_cells c) -> x <> CMissing -> whole x)) /\ exists n, factors c n /\ n <= 10).

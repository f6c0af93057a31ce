(** Vocabulary for the properties of predicting and scoring. *)
Require Import QArith Qcanon.
From Verif Require Import Base Num Data_Model Data_Spec Pred_Model.
Open Scope string_scope.
Open Scope list_scope.
Open Scope nat_scope.

(** * Arrays *)
(** the cells a numpy column of this dtype can hold (the dtypes fit accepts) *)
Definition typed (d : dtype) (c : cell) : Prop :=
  match d with
  | DInt => whole c
  | DFloat => c = CMissing \/ (exists q, c = CNum q) \/ (exists b, c = CInf b)
  | DObject => True
  | _ => False
  end.
Definition array_ok (n : nat) (cols : list (dtype * list cell)) : Prop :=
  Forall (fun dc => length (snd dc) = n /\ Forall (typed (fst dc)) (snd dc)) cols.
(** [z] is [q] without its fractional part *)
Definition towards_zero (q : Qc) (z : Z) : Prop :=
  ((0 <= q)%Qc -> (inject_Z z <= q)%Q /\ (q < inject_Z (z + 1))%Q) /\
  ((q <= 0)%Qc -> (inject_Z (z - 1) < q)%Q /\ (q <= inject_Z z)%Q).
(** what becomes of a cell in a column that had type [t] in training *)
Definition used_as (parse_float parse_int : string -> res cell) (t : option coltype) (given used : cell) : Prop :=
  match t with
  | None => used = given
  | Some (TCat cats) =>
      (same_value given used /\ In used cats) \/ (used = CMissing /\ forall d, In d cats -> ~ same_value given d)
  | Some (TPlain DObject) => used = given
  | Some (TPlain DFloat) => match given with CStr s => parse_float s = Ok used | _ => same_value given used end
  | Some (TPlain DInt) =>
      match given with
      | CNum q => exists z, towards_zero q z /\ used = CNum (Q2Qc (inject_Z z))
      | CBool b => same_value given used
      | CStr s => parse_int s = Ok used
      | _ => False
      end
  | Some (TPlain DBool) =>
      exists b, used = CBool b /\ (b = false <-> given = CNum 0%Qc \/ given = CBool false \/ given = CStr "")
  | Some (TPlain _) => True
  end.
(** cells that the cast to a column type accepts *)
Definition castable (t : coltype) (c : cell) : Prop :=
  match t with
  | TCat _ | TPlain DObject | TPlain DBool => True
  | TPlain DFloat => match c with CStr _ => False | _ => True end
  | TPlain DInt => match c with CNum _ | CBool _ => True | _ => False end
  | TPlain _ => False
  end.
(** an object fitted with these column types answers for the array as for the
    DataFrame [f], whatever its encoders and model *)
Definition presented (parse_float parse_int : string -> res cell) (other : dtype -> cell -> res cell)
  (types : list coltype) (n : nat) (cols : list (dtype * list cell)) (f : frame) : Prop :=
  forall tr classes m, let g := mkGama types tr classes m in
    predict parse_float parse_int other g (XArr n cols) = predict parse_float parse_int other g (XFrame f) /\
    forall c, predict_proba parse_float parse_int other c g (XArr n cols) = predict_proba parse_float parse_int other c g (XFrame f).
(** an array with only row [i] of another *)
Definition only_row (i : nat) (cols : list (dtype * list cell)) : list (dtype * list cell) :=
  map (fun dc => (fst dc, [nth i (snd dc) CMissing])) cols.
Definition only_row_frame (i : nat) (f : frame) : frame :=
  mkFrame [nth i (f_index f) 0%Z] (map (fun c => mkCol (c_cname c) (c_dtype c) [nth i (c_cells c) CMissing]) (f_cols f)).
Definition same_row (a b : list (option cell)) : Prop :=
  Forall2 (fun x y => match x, y with Some c, Some d => same_value c d | _, _ => False end) a b.
(** * Fitted objects *)
(** encoder and model treat every row by itself, for frames with header [h] *)
Definition rowwise (g : gama) (h : list (cname * dtype)) (answer : list (option cell) -> label) : Prop :=
  exists m, g_model g = Some m /\
    forall f, rectangular f -> header f = h ->
      (do x <- (match g_transform g with None => Ok f | Some t => t f end); predict_labels m x) = Ok (map answer (rows f)).

(** * Two metrics of scikit-learn *)
Fixpoint labels_of (l : list label) : list label :=
  match l with [] => [] | x :: l' => if existsb (label_eqb x) l' then labels_of l' else x :: labels_of l' end.
Definition count (f : label * label -> bool) (l : list (label * label)) : nat := length (filter f l).
Definition ratio (a b : nat) : Qc := if b =? 0 then 0%Qc else Q2Qc (inject_Z (Z.of_nat a) / inject_Z (Z.of_nat b)).
(** share of the rows of class [c] that were predicted as [c] *)
Definition class_recall (y p : list label) (c : label) : Qc :=
  ratio (count (fun ab => label_eqb (fst ab) c && label_eqb (snd ab) c) (combine y p))
        (count (fun ab => label_eqb (fst ab) c) (combine y p)).
(** sklearn.metrics.recall_score with the argument [average]: "binary" (the
    default) demands two classes, one of them 1, and "macro" takes the mean over
    the classes *)
Inductive averaging := Binary | Macro.
Definition recall_score (k : averaging) (y : list label) (p : prediction) : res Qc :=
  match p with
  | PProba _ => Err ValueError
  | PLabels p =>
    let classes := labels_of (y ++ p) in
    match k with
    | Binary => if (length classes <=? 2) && existsb (label_eqb (LNum 1%Qc)) classes then Ok (class_recall y p (LNum 1%Qc)) else Err ValueError
    | Macro => Ok (fold_right Qcplus 0%Qc (map (class_recall y p) classes) / Q2Qc (inject_Z (Z.of_nat (length classes))))%Qc
    end
  end.
(** scorers "recall_macro" and "neg_mean_squared_error" *)
Definition recall_macro : scorer averaging := mkScorer recall_score false Macro false.
Definition num_or_0 (l : label) : Qc := match l with LNum q => q | _ => 0%Qc end.
Definition squared_error (_ : unit) (y : list label) (p : prediction) : res Qc :=
  match p with
  | PProba _ => Err ValueError
  | PLabels p => Ok (fold_right Qcplus 0%Qc (map (fun ab => (num_or_0 (fst ab) - num_or_0 (snd ab)) * (num_or_0 (fst ab) - num_or_0 (snd ab)))%Qc (combine y p))
                     / Q2Qc (inject_Z (Z.of_nat (length y))))%Qc
  end.
Definition neg_mean_squared_error : scorer unit := mkScorer squared_error true tt false.
(** the arguments a scorer was made with make no difference *)
Definition plain {K} (no_args : K) (m : scorer K) : Prop := forall y p, s_func m (s_kwargs m) y p = s_func m no_args y p.

(** * Votes *)
(** [l] is a class with the largest share of the votes [shares] *)
Definition winner (cats : list label) (shares : list Qc) (l : label) : Prop :=
  exists i, nth_error cats i = Some l /\ forall j, j < length shares -> (nth j shares 0 <= nth i shares 0)%Qc.

(** * Files *)
(** the file's name tells how to read it, and it was read *)
Definition holds (read_arff read_csv : string -> res frame) (path : string) (data : frame) : Prop :=
  (exists p, path = (p ++ ".arff")%string /\ read_arff path = Ok data) \/ (exists p, path = (p ++ ".csv")%string /\ read_csv path = Ok data).
(** [c] is the target column; [xs] and [zs] are the columns around it *)
Definition target_column (data : frame) (target : option string) (xs : list column) (c : column) (zs : list column) : Prop :=
  f_cols data = xs ++ c :: zs /\
  match target with
  | None => zs = []
  | Some s => c_cname c = NStr s /\ forall d, In d (xs ++ zs) -> c_cname d <> NStr s
  end.

(** Model of utilities/evaluation_library.py. *)
From Verif Require Import Base Num Heap_Model Nsga_Model.
Open Scope nat_scope.

(** Python's [<] and [==] on tuples of floats (Evaluation.__lt__ / __eq__,
    evaluation_library.py:74-91, compare the score tuples). *)
Fixpoint tuple_lt (a b : list num) : bool :=
  match a, b with
  | x :: a', y :: b' => if neqb x y then tuple_lt a' b' else nltb x y
  | [], _ :: _ => true
  | _, _ => false
  end.
Fixpoint tuple_eq (a b : list num) : bool :=
  match a, b with
  | [], [] => true
  | x :: a', y :: b' => neqb x y && tuple_eq a' b'
  | _, _ => false
  end.

(** An Evaluation object, evaluation_library.py:21-43.  The individual is
    represented by its [_id] and the text of its main node; predictions are a
    list of rows, estimators a list (both opaque, named by numbers); the cache
    file is named after the individual's id. *)
Record ev := mkEv {
  ev_ind : nat; ev_key : string; ev_score : list num; ev_error : option string;
  ev_est : list nat; ev_pred : option (list nat); ev_file : option nat }.
(** A new Evaluation has no cache file (line 39). *)
Definition new_ev (ind : nat) (key : string) (score : list num) (error : option string)
  (est : list nat) (pred : option (list nat)) : ev := mkEv ind key score error est pred None.
Definition with_pred (p : option (list nat)) (e : ev) : ev :=
  mkEv (ev_ind e) (ev_key e) (ev_score e) (ev_error e) (ev_est e) p (ev_file e).
Definition cleared (e : ev) : ev :=
  mkEv (ev_ind e) (ev_key e) (ev_score e) (ev_error e) [] None (ev_file e).
Definition with_file (f : option nat) (e : ev) : ev :=
  mkEv (ev_ind e) (ev_key e) (ev_score e) (ev_error e) (ev_est e) (ev_pred e) f.

(** [self._sample]: the string "not set", None, or an index array. *)
Inductive sample := NotSet | KeepAll | Rows (l : list nat).

(** The library.  Evaluation objects live in [l_objs]; the other fields refer to
    them by position (Python: references to the same objects).  An element of
    the heap carries its score, which never changes. [l_disk] is the content of
    the cache directory. *)
Definition item : Type := list num * nat.
Record lib := mkLib {
  l_objs : list ev; l_top : list item; l_other : list nat; l_lookup : list (string * nat);
  l_disk : list (nat * (list nat * option (list nat)));
  l_m : option nat; l_n : option nat; l_sample : sample }.

(** __init__, evaluation_library.py:115-160. *)
Definition new_lib (m n : option nat) (s : option (list nat)) : lib :=
  mkLib [] [] [] [] [] m n
    (match s with Some rows => Rows rows | None => match n with None => KeepAll | Some _ => NotSet end end).
Definition set_sample (s : sample) (l : lib) : lib :=
  mkLib (l_objs l) (l_top l) (l_other l) (l_lookup l) (l_disk l) (l_m l) (l_n l) s.

(** determine_sample_indices, evaluation_library.py:168-212.
    [split n labels] stands for sklearn's StratifiedShuffleSplit with
    train_size=n: an exception or the training rows of the split. *)
Definition determine {B} (split : nat -> list B -> rng -> res (list nat) * rng)
  (l : lib) (n : option nat) (prediction_size : option nat) (stratify : option (list B)) (r : rng)
  : lib * res unit * rng :=
  match prediction_size, stratify with
  | None, None | Some _, Some _ => (l, Err ValueError, r)
  | Some size, None =>
    match (match n with None => l_n l | Some _ => n end) with
    | None => (set_sample KeepAll l, Ok tt, r)
    | Some k =>
      if k <? size then
        let (s, r') := rsample k (seq 0 size) r in
        match s with
        | Ok rows => (set_sample (Rows rows) l, Ok tt, r')
        | Err e => (l, Err e, r')
        end
      else (set_sample KeepAll l, Ok tt, r)
    end
  | None, Some labels =>
    match (match n with None => l_n l | Some _ => n end) with
    | None => (set_sample KeepAll l, Ok tt, r)
    | Some k =>
      if k <? length labels then
        let (s, r') := split k labels r in
        match s with
        | Ok rows => (set_sample (Rows rows) l, Ok tt, r')
        | Err e => (l, Err e, r')
        end
      else (set_sample KeepAll l, Ok tt, r)
    end
  end.

(** [predictions[self._sample]]: IndexError for a row that does not exist. *)
Definition pick (rows : list nat) (p : list nat) : res (list nat) :=
  rmap (fun i => match nth_error p i with Some x => Ok x | None => Err IndexError end) rows.

(** _process_predictions, evaluation_library.py:214-226 ([e] has no cache file,
    so [evaluation.predictions] is its own). *)
Definition process (l : lib) (e : ev) (r : rng) : lib * res ev * rng :=
  let e0 := match l_n l with Some 0 => with_pred None e | _ => e end in
  match ev_pred e0 with
  | None => (l, Ok e0, r)
  | Some p =>
    let '(l1, d, r1) :=
      match l_sample l with
      | NotSet => determine (B := unit) (fun _ _ r => (Err ValueError, r)) l (l_n l) (Some (length p)) None r
      | _ => (l, Ok tt, r)
      end in
    match d with
    | Err x => (l1, Err x, r1)
    | Ok _ =>
      match l_sample l1 with
      | Rows rows => match pick rows p with
                     | Err x => (l1, Err x, r1)
                     | Ok p' => (l1, Ok (with_pred (Some p') e0), r1)
                     end
      | _ => (l1, Ok e0, r1)
      end
    end
  end.

Definition item_lt (a b : item) : bool := tuple_lt (fst a) (fst b).
Definition dummy : item := ([], 0).
Definition obj (l : lib) (u : nat) : ev := nth u (l_objs l) (new_ev 0 "" [] None [] None).
Definition on_obj (u : nat) (f : ev -> ev) (objs : list ev) : list ev :=
  match nth_error objs u with Some e => set_nth u (f e) objs | None => objs end.

(** Evaluation.to_disk, evaluation_library.py:45-50: write (or overwrite) the
    file, drop the data from memory.  Simplification: writing does not fail. *)
Definition write (f : nat) (c : list nat * option (list nat)) (disk : list (nat * (list nat * option (list nat)))) :=
  (f, c) :: filter (fun x => negb (fst x =? f)) disk.
Definition to_disk (u : nat) (e : ev) (l : lib) : lib :=
  mkLib (on_obj u (fun e => with_file (Some (ev_ind e)) (cleared e)) (l_objs l)) (l_top l) (l_other l) (l_lookup l)
    (write (ev_ind e) (ev_est e, ev_pred e) (l_disk l)) (l_m l) (l_n l) (l_sample l).
Fixpoint find_file (f : nat) (disk : list (nat * (list nat * option (list nat)))) :=
  match disk with
  | [] => None
  | (g, c) :: disk' => if g =? f then Some c else find_file f disk'
  end.
(** Evaluation.remove_from_disk, evaluation_library.py:52-55: os.remove of a
    missing file is a FileNotFoundError ("" is never an existing file). *)
Definition remove_from_disk (u : nat) (l : lib) : lib * res unit :=
  match ev_file (obj l u) with
  | None => (l, Err FileNotFoundError)
  | Some f =>
    match find_file f (l_disk l) with
    | None => (l, Err FileNotFoundError)
    | Some _ =>
      (mkLib (on_obj u (with_file None) (l_objs l)) (l_top l) (l_other l) (l_lookup l)
         (filter (fun x => negb (fst x =? f)) (l_disk l)) (l_m l) (l_n l) (l_sample l), Ok tt)
    end
  end.
Definition set_top (t : list item) (l : lib) : lib :=
  mkLib (l_objs l) t (l_other l) (l_lookup l) (l_disk l) (l_m l) (l_n l) (l_sample l).
Definition add_other (u : nat) (l : lib) : lib :=
  mkLib (l_objs l) (l_top l) (l_other l ++ [u]) (l_lookup l) (l_disk l) (l_m l) (l_n l) (l_sample l).
Definition add_lookup (k : string) (u : nat) (l : lib) : lib :=
  mkLib (l_objs l) (l_top l) (l_other l) ((k, u) :: l_lookup l) (l_disk l) (l_m l) (l_n l) (l_sample l).
Definition clear_obj (u : nat) (l : lib) : lib :=
  mkLib (on_obj u cleared (l_objs l)) (l_top l) (l_other l) (l_lookup l) (l_disk l) (l_m l) (l_n l) (l_sample l).
Definition add_obj (e : ev) (l : lib) : lib :=
  mkLib (l_objs l ++ [e]) (l_top l) (l_other l) (l_lookup l) (l_disk l) (l_m l) (l_n l) (l_sample l).

(** save_evaluation, evaluation_library.py:228-249.  [removed == evaluation]
    compares the scores (Evaluation.__eq__). *)
Definition save (l0 : lib) (e : ev) (r : rng) : lib * res unit * rng :=
  let '(l1, p, r1) := process l0 e r in
  match p with
  | Err x => (l1, Err x, r1)
  | Ok e1 =>
    let u := length (l_objs l1) in
    let l := add_obj e1 l1 in
    match ev_error e1 with
    | Some _ => (add_lookup (ev_key e1) u (add_other u (clear_obj u l)), Ok tt, r1)
    | None =>
      if match l_m l with None => true | Some m => length (l_top l) <? m end then
        let l2 := to_disk u e1 l in
        (add_lookup (ev_key e1) u (set_top (heappush item_lt dummy (l_top l2) (ev_score e1, u)) l2), Ok tt, r1)
      else
        let (removed, top') := heappushpop item_lt dummy (l_top l) (ev_score e1, u) in
        let l2 := set_top top' l in
        if tuple_eq (fst removed) (ev_score e1) then
          (add_lookup (ev_key e1) u (add_other (snd removed) (clear_obj (snd removed) l2)), Ok tt, r1)
        else
          let l3 := to_disk u e1 l2 in
          match remove_from_disk (snd removed) l3 with
          | (l4, Err x) => (l4, Err x, r1)
          | (l4, Ok _) => (add_lookup (ev_key e1) u (add_other (snd removed) l4), Ok tt, r1)
          end
    end
  end.

(** A history of calls; the result lists which calls returned normally. *)
Fixpoint saves (l : lib) (es : list ev) (r : rng) : lib * list (ev * res unit) :=
  match es with
  | [] => (l, [])
  | e :: es' => let '(l1, x, r1) := save l e r in
                let (l2, xs) := saves l1 es' r1 in (l2, (e, x) :: xs)
  end.

(** The properties [estimators] and [predictions], evaluation_library.py:57-71. *)
Definition get_estimators (l : lib) (u : nat) : res (list nat) :=
  match ev_est (obj l u), ev_file (obj l u) with
  | _ :: _, _ | _, None => Ok (ev_est (obj l u))
  | [], Some f => match find_file f (l_disk l) with Some c => Ok (fst c) | None => Err FileNotFoundError end
  end.
Definition get_predictions (l : lib) (u : nat) : res (option (list nat)) :=
  match ev_pred (obj l u), ev_file (obj l u) with
  | Some _, _ | _, None => Ok (ev_pred (obj l u))
  | None, Some f => match find_file f (l_disk l) with Some c => Ok (snd c) | None => Err FileNotFoundError end
  end.
(** [library.lookup.get(key)]. *)
Fixpoint find_key (k : string) (t : list (string * nat)) : option nat :=
  match t with
  | [] => None
  | (k', u) :: t' => if String.eqb k' k then Some u else find_key k t'
  end.

(** n_best, evaluation_library.py:256-264.  heapq.nlargest(n, xs) is documented
    as sorted(xs, reverse=True)[:n]; sorting in reverse keeps equals in order. *)
Definition n_best (l : lib) (n : nat) (with_pipelines : bool) : list nat :=
  if match l_m l with None => true | Some m => (n <=? m) || with_pipelines end then
    map snd (firstn n (py_sorted (fun x y => negb (item_lt x y)) (l_top l)))
  else
    map snd (firstn n (rev (py_sorted (fun x y => negb (item_lt y x))
      (l_top l ++ map (fun u => (ev_score (obj l u), u)) (l_other l))))).

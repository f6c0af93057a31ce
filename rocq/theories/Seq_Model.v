(** Views of objects: the sequence interface of ParetoFront
    (utilities/generic/paretofront.py:86-93), the list of evaluations and clear_cache of
    EvaluationLibrary (utilities/evaluation_library.py:164-166, 251-254), and the short
    texts of an Individual (genetic_programming/components/individual.py:38-57). *)
Require Import Ascii.
From Verif Require Import Base Num Par_Model Gp_Model.
From Verif Require Lib_Model Fac_Model.
Open Scope nat_scope.
Open Scope list_scope.

(** * ParetoFront as a sequence *)

Section Front.
Context {A : Type}.
(** __len__, paretofront.py:86-87. *)
Definition front_len (front : list A) : nat := length front.
(** __getitem__ with an integer, paretofront.py:89-90: Python's indexing of lists.
    Simplification: slices are not modelled. *)
Definition front_item (front : list A) (i : Z) : res A :=
  let n := Z.of_nat (length front) in
  let j := if (i <? 0)%Z then (i + n)%Z else i in
  if (j <? 0)%Z then Err IndexError
  else match nth_error front (Z.to_nat j) with Some x => Ok x | None => Err IndexError end.
(** [for x in front] (collections.abc.Sequence.__iter__): items 0, 1, ... until one of
    them raises IndexError; the front does not change meanwhile. *)
Fixpoint iterate (fuel : nat) (front : list A) (i : nat) : res (list A) :=
  match fuel with
  | O => Err Diverges
  | S f => match front_item front (Z.of_nat i) with
           | Ok x => do xs <- iterate f front (S i); Ok (x :: xs)
           | Err IndexError => Ok []
           | Err e => Err e
           end
  end.
(** [reversed(front)] (Sequence.__reversed__): items len-1, ..., 0. *)
Definition front_reversed (front : list A) : res (list A) :=
  rmap (fun i => front_item front (Z.of_nat i)) (rev (seq 0 (front_len front))).
(** [x in front] (Sequence.__contains__): some item that comes up is equal. *)
Definition front_contains (eqb : A -> A -> bool) (fuel : nat) (front : list A) (x : A) : res bool :=
  do xs <- iterate fuel front 0; Ok (existsb (fun y => eqb y x) xs).
End Front.

(** * EvaluationLibrary *)

(** The property [evaluations], evaluation_library.py:164-166. *)
Definition evaluations (l : Lib_Model.lib) : list nat := map snd (Lib_Model.l_top l) ++ Lib_Model.l_other l.
(** clear_cache, evaluation_library.py:251-254; the flag tells whether the directory
    exists.  Simplification: the directory holds nothing but the library's files. *)
Definition clear_cache (s : Lib_Model.lib * bool) : (Lib_Model.lib * bool) * res unit :=
  if snd s then ((Fac_Model.wipe (fst s), false), Ok tt) else (s, Err FileNotFoundError).

(** * Individual *)

(** short_name, individual.py:53-57; str(primitive) is the name of its class
    (primitive.py:15-16). *)
Definition short_name (step_separator : string) (ind : individual) : M string :=
  ls <- primitives ind ;; cs <- mread_all (rev ls) ;;
  mret (String.concat step_separator (map (fun c => p_name (c_prim c)) cs)).
(** A line break. *)
Definition newline : string := String (ascii_of_nat 10) "".
(** __str__, individual.py:38-42.  [id] and [fitness] are the texts of the identifier
    (a uuid) and of the fitness (None or a tuple). *)
Definition individual_str (id fitness : string) (ind : individual) : M string :=
  p <- pipeline_str ind ;;
  mret ("Individual " ++ id ++ newline ++ "Pipeline: " ++ p ++ newline ++ "Fitness: " ++ fitness)%string.

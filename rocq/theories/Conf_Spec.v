(** Vocabulary for C63-C65. *)
From Verif Require Import Base Gp_Model Gp_Spec Conf_Model.
Require Import Ascii Permutation Sorted.
Open Scope string_scope.
Open Scope list_scope.
Open Scope nat_scope.

(** "An empty list indicates a shared hyperparameter." *)
Definition shared (v : hval) : Prop := v = mkHval HList [].

(** transformers produce data, everything else that is allowed predicts *)
Definition role (c : cls) : option string :=
  if c_transformer c then Some "data"
  else if c_classifier c then Some "prediction"
  else if c_regressor c then Some "prediction" else None.

(** [ts] lists the hyperparameters of algorithm [c] declared by [items], each by
    the key under which its values are found *)
Inductive inputs_for (c : cls) : list (string * hval) -> list string -> Prop :=
| in_nil : inputs_for c [] []
| in_shared : forall n v items ts, shared v -> inputs_for c items ts -> inputs_for c ((n, v) :: items) (n :: ts)
| in_check : forall v items ts, ~ shared v -> inputs_for c items ts -> inputs_for c (("param_check", v) :: items) ts
| in_own : forall n v items ts, ~ shared v -> n <> "param_check" -> inputs_for c items ts ->
    inputs_for c ((n, v) :: items) ((c_name c ++ "." ++ n)%string :: ts).

(** [p] is the primitive for algorithm [c] with hyperparameters [items] *)
Definition primitive_for (c : cls) (items : list (string * hval)) (p : primitive) : Prop :=
  p_class p = c_id c /\ p_name p = c_name c /\ role c = Some (p_output p) /\
  exists sorted, Permutation items sorted /\
    StronglySorted (fun a b => String.leb (fst a) (fst b) = true) sorted /\
    inputs_for c sorted (p_input p).

(** the algorithms in the configuration that produce [k] *)
Definition algorithms (cfg : config) (k : string) : list nat :=
  flat_map (fun ke => match fst ke with
                      | KeyClass c => match role c with Some k' => if String.eqb k' k then [c_id c] else [] | None => [] end
                      | _ => []
                      end) cfg.

Definition class_names (cfg : config) : list string :=
  flat_map (fun ke => match fst ke with KeyClass c => [c_name c] | _ => [] end) cfg.
Definition string_keys (cfg : config) : list string :=
  flat_map (fun ke => match fst ke with KeyStr s => [s] | _ => [] end) cfg.

(** No two algorithms have the same name, no key occurs twice, and algorithm and
    shared hyperparameter names are plain names. *)
Definition unambiguous (cfg : config) : Prop :=
  NoDup (class_names cfg) /\ NoDup (string_keys cfg) /\
  (forall s, In s (class_names cfg) -> has_char "."%char s = false) /\
  (forall s, In s (string_keys cfg) -> has_char "."%char s = false) /\
  (forall c e items, In (KeyClass c, e) cfg -> e_dict e = Some items -> NoDup (map fst items)).

(** [x] is the first of the values [v], which have an order *)
Definition first_value (v : hval) (x : value) : Prop :=
  hv_kind v <> HScalar /\ hv_kind v <> HDict /\ exists others, hv_items v = x :: others.
(** an entry that the parser accepts *)
Definition valid_hp (nv : string * hval) : Prop :=
  shared (snd nv) \/
  (fst nv = "param_check" /\ exists f, first_value (snd nv) f) \/
  (fst nv <> "param_check" /\ hv_kind (snd nv) <> HScalar).
Definition valid_entry (ke : ckey * entry) : Prop :=
  match fst ke with
  | KeyStr _ => exists vs, e_iter (snd ke) = Some vs
  | KeyClass c => role c <> None /\ exists items, e_dict (snd ke) = Some items /\ Forall valid_hp items
  | KeyOther _ _ => False
  end.
(** a key of a type that must be refused *)
Definition bad_key (ke : ckey * entry) : Prop :=
  match fst ke with
  | KeyStr _ => False
  | KeyClass c => role c = None /\ exists items, e_dict (snd ke) = Some items /\ Forall valid_hp items
  | KeyOther _ _ => True
  end.

(** the mistake in a hyperparameter's values and the exception it leads to *)
Inductive hp_fault : string * hval -> exn -> Prop :=
| hp_scalar : forall n v, hv_kind v = HScalar -> hp_fault (n, v) TypeError
| hp_dict : forall v, hv_kind v = HDict -> hp_fault ("param_check", v) KeyError
| hp_empty : forall v, hv_kind v <> HScalar -> hv_kind v <> HDict -> hv_kind v <> HList -> hv_items v = [] ->
    hp_fault ("param_check", v) IndexError.
(** the mistake in an entry: values of a shared hyperparameter that cannot be
    iterated over, an algorithm without a dictionary of hyperparameters, one whose
    hyperparameters have mistakes of one kind *)
Inductive fault : ckey * entry -> exn -> Prop :=
| f_string : forall s e, e_iter e = None -> fault (KeyStr s, e) TypeError
| f_class : forall c e, e_dict e = None -> fault (KeyClass c, e) AttributeError
| f_hp : forall c e items x, e_dict e = Some items ->
    Forall (fun nv => valid_hp nv \/ hp_fault nv x) items -> Exists (fun nv => hp_fault nv x) items ->
    fault (KeyClass c, e) x
| f_key : forall ke, bad_key ke -> fault ke TypeError.

(** every hyperparameter has a value: own values are not empty, shared ones are
    declared *)
Definition complete (cfg : config) : Prop :=
  (forall c e items n v, In (KeyClass c, e) cfg -> e_dict e = Some items -> In (n, v) items ->
     (shared v -> exists e' x xs, In (KeyStr n, e') cfg /\ e_iter e' = Some (x :: xs)) /\
     (~ shared v -> n <> "param_check" -> hv_items v <> [])).

(** * Merging *)

(** [list(set(l))] has the elements of l, up to ==, each once. *)
Definition lists_set (f : list value -> list value) : Prop :=
  forall l, NoDup (map v_eq (f l)) /\ incl (f l) l /\ (forall v, In v l -> exists w, In w (f l) /\ v_eq w = v_eq v).

(** value [v] is an option of hyperparameter [n] of algorithm [k] *)
Definition offers (h : dheap) (c : rconfig) (k : ckey) (n : string) (v : value) : Prop :=
  exists l hv w, rget c k = Some (RDict l) /\ hget (h l) n = Some hv /\ In w (hv_items hv) /\ v_eq w = v_eq v.
Definition offers_shared (c : rconfig) (s : string) (v : value) : Prop :=
  exists hv w, rget c (KeyStr s) = Some (RIter hv) /\ In w (hv_items hv) /\ v_eq w = v_eq v.
(** hyperparameter [n] of algorithm [k] takes the values of the shared one *)
Definition uses_shared (h : dheap) (c : rconfig) (k : ckey) (n : string) : Prop :=
  exists l hv, rget c k = Some (RDict l) /\ hget (h l) n = Some hv /\ shared hv.

(** the inner dictionaries a configuration refers to *)
Definition dictionaries (c : rconfig) : list nat :=
  flat_map (fun kv => match snd kv with RDict l => [l] | RIter _ => [] end) c.
(** a Python dict: no key twice *)
Definition distinct_keys (c : rconfig) : Prop := ForallOrdPairs (fun a b => key_eqb (fst a) (fst b) = false) c.
Definition distinct_names (h : dheap) (c : rconfig) : Prop := forall l, In l (dictionaries c) -> NoDup (map fst (h l)).
(** no inner dictionary is used twice *)
Definition separate (c1 c2 : rconfig) : Prop := NoDup (dictionaries c1 ++ dictionaries c2).

(** the two containers are of one type, and can be iterated over *)
Definition same_container (a b : hval) : Prop := hv_kind a = hv_kind b /\ hv_kind b <> HScalar.
(** keys of both configurations: two lists, or two dictionaries whose common
    hyperparameters have values in containers of the same type *)
Definition mergeable (h : dheap) (c1 c2 : rconfig) : Prop :=
  forall k v1 v2, rget c1 k = Some v1 -> In (k, v2) c2 ->
    match v1, v2 with
    | RIter a, RIter b => hv_kind a = HList /\ hv_kind b = HList
    | RDict l1, RDict l2 => forall n a b, hget (h l1) n = Some a -> In (n, b) (h l2) -> same_container a b
    | RDict _, RIter _ => False
    | RIter _, RDict l2 => h l2 = []
    end.

(** * Checks.  [holds f params]: the configured check [f] accepts the keyword
    arguments; a step violates its check when it does not. *)
Definition violates (holds : value -> list (string * value) -> bool) (ch : checks) (s : step) : Prop :=
  exists f, get_check ch (p_name (fst s)) = Some f /\
            holds f (map (fun t => (t_output t, t_value t)) (snd s)) = false.

(** Model of gama/configuration/parser.py: pset_from_config and
    merge_configurations. *)
From Verif Require Import Base Gp_Model.
Open Scope string_scope.
Open Scope list_scope.
Open Scope nat_scope.

(** The values given for one hyperparameter: the kind of container (what
    [isinstance(values1, type(values))], parser.py:130, compares) and what
    iterating over it yields (for a dict: its keys; the mapped values are read
    nowhere).  [HScalar]: not iterable. *)
Inductive hkind := HList | HRange | HArray | HDict | HScalar.
Record hval := mkHval { hv_kind : hkind; hv_items : list value }.

(** A class used as key.  [c_meta] is [str(type(cls))]; the flags are issubclass
    of TransformerMixin, ClassifierMixin, RegressorMixin (parser.py:71-95). *)
Record cls := mkCls {
  c_id : nat; c_name : string; c_meta : string;
  c_transformer : bool; c_classifier : bool; c_regressor : bool }.
Inductive ckey :=
| KeyStr (s : string)
| KeyClass (c : cls)
| KeyOther (typename : string) (id : nat).

(** What a key is mapped to: [e_iter] is what iterating over it yields ([None]:
    not iterable), [e_dict] its items when it is a dict. *)
Record entry := mkEntry { e_iter : option (list value); e_dict : option (list (string * hval)) }.
Definition config := list (ckey * entry).

(** pset is ONE dictionary holding both primitives and terminals
    (parser.py:30); a defaultdict, so a missing key is an empty list. *)
Inductive item := IPrim (p : primitive) | ITerm (t : terminal).
Definition psdict := list (string * list item).
(** [pset[k].append(x)]. *)
Fixpoint ps_append (d : psdict) (k : string) (x : item) : psdict :=
  match d with
  | [] => [(k, [x])]
  | (k', l) :: d' => if String.eqb k k' then (k', l ++ [x]) :: d' else (k', l) :: ps_append d' k x
  end.
Fixpoint ps_append_all (d : psdict) (k : string) (xs : list item) : psdict :=
  match xs with
  | [] => d
  | x :: xs' => ps_append_all (ps_append d k x) k xs'
  end.

(** parameter_checks: maps class names to checks. *)
Definition checks := list (string * value).
Fixpoint set_check (c : checks) (k : string) (v : value) : checks :=
  match c with
  | [] => [(k, v)]
  | (k', v') :: c' => if String.eqb k k' then (k', v) :: c' else (k', v') :: set_check c' k v
  end.
Fixpoint get_check (c : checks) (k : string) : option value :=
  match c with
  | [] => None
  | (k', v) :: c' => if String.eqb k k' then Some v else get_check c' k
  end.

(** [str(type(key))], parser.py:35. *)
Definition key_type (k : ckey) : string :=
  match k with
  | KeyStr _ => "<class 'str'>"
  | KeyClass c => c_meta c
  | KeyOther t _ => t
  end.
Definition key_leb (a b : ckey * entry) : bool := String.leb (key_type (fst a)) (key_type (fst b)).
(** sorted_keys, parser.py:35. *)
Definition sorted_entries (c : config) : config := rev (py_sorted key_leb c).

(** [param_values[0]], parser.py:56.  Simplification: a dict that has a key 0
    is not modelled (the lookup is a KeyError). *)
Definition first_of (v : hval) : res value :=
  match hv_kind v with
  | HScalar => Err TypeError
  | HDict => Err KeyError
  | _ => match hv_items v with [] => Err IndexError | x :: _ => Ok x end
  end.
Definition is_empty_list (v : hval) : bool :=
  match hv_kind v, hv_items v with HList, [] => true | _, _ => false end.

(** One turn of the inner loop, parser.py:44-68. *)
Definition register_hp (c : cls) (st : list string * psdict * checks) (nv : string * hval)
  : res (list string * psdict * checks) :=
  let '(types, d, ch) := st in let (name, v) := nv in
  if is_empty_list v then Ok (types ++ [name], d, ch)
  else if String.eqb name "param_check" then
    do f <- first_of v; Ok (types, d, set_check ch (c_name c) f)
  else
    let hp := (c_name c ++ "." ++ name)%string in
    match hv_kind v with
    | HScalar => Err TypeError
    | _ => Ok (types ++ [hp], ps_append_all d hp (map (fun x => ITerm (mkTerm x name hp)) (hv_items v)), ch)
    end.
Fixpoint register_hps (c : cls) (st : list string * psdict * checks) (nvs : list (string * hval))
  : res (list string * psdict * checks) :=
  match nvs with
  | [] => Ok st
  | nv :: nvs' => do st' <- register_hp c st nv; register_hps c st' nvs'
  end.
Definition name_leb (a b : string * hval) : bool := String.leb (fst a) (fst b).

(** One turn of the outer loop, parser.py:37-103. *)
Definition register (st : psdict * checks) (ke : ckey * entry) : res (psdict * checks) :=
  let '(d, ch) := st in let (k, e) := ke in
  match k with
  | KeyStr s =>
      match e_iter e with
      | None => Err TypeError
      | Some vs => Ok (ps_append_all d s (map (fun x => ITerm (mkTerm x s s)) vs), ch)
      end
  | KeyClass c =>
      match e_dict e with
      | None => Err AttributeError
      | Some items =>
          do r <- register_hps c ([], d, ch) (py_sorted name_leb items);
          let '(types, d', ch') := r in
          if c_transformer c then Ok (ps_append d' DATA (IPrim (mkPrim types DATA (c_id c) (c_name c))), ch')
          else if c_classifier c then Ok (ps_append d' PREDICTION (IPrim (mkPrim types PREDICTION (c_id c) (c_name c))), ch')
          else if c_regressor c then Ok (ps_append d' PREDICTION (IPrim (mkPrim types PREDICTION (c_id c) (c_name c))), ch')
          else Err TypeError
      end
  | KeyOther _ _ => Err TypeError
  end.
Fixpoint register_all (st : psdict * checks) (kes : config) : res (psdict * checks) :=
  match kes with
  | [] => Ok st
  | ke :: kes' => do st' <- register st ke; register_all st' kes'
  end.
(** pset_from_config, parser.py:9-106. *)
Definition pset_from_config (c : config) : res (psdict * checks) := register_all ([], []) (sorted_entries c).

(** The dictionary as the rest of the model sees it: primitives and terminals
    apart. *)
Definition prims_in (l : list item) : list primitive :=
  flat_map (fun i => match i with IPrim p => [p] | ITerm _ => [] end) l.
Definition terms_in (l : list item) : list terminal :=
  flat_map (fun i => match i with ITerm t => [t] | IPrim _ => [] end) l.
Definition pset_of (d : psdict) : pset :=
  mkPset (map (fun kl => (fst kl, prims_in (snd kl))) d) (map (fun kl => (fst kl, terms_in (snd kl))) d).

(** * merge_configurations

    The two arguments are dictionaries whose values may be (references to)
    dictionaries; those inner dictionaries are objects that merging can modify. *)
Definition hdict := list (string * hval).
Definition dheap := nat -> hdict.
Definition dh_set (h : dheap) (l : nat) (d : hdict) : dheap := fun x => if x =? l then d else h x.
Inductive rval := RIter (v : hval) | RDict (l : nat).
Definition rconfig := list (ckey * rval).

Definition key_eqb (a b : ckey) : bool :=
  match a, b with
  | KeyStr s, KeyStr t => String.eqb s t
  | KeyClass c, KeyClass d => c_id c =? c_id d
  | KeyOther _ i, KeyOther _ j => i =? j
  | _, _ => false
  end.
Fixpoint rget (c : rconfig) (k : ckey) : option rval :=
  match c with [] => None | (k', v) :: c' => if key_eqb k k' then Some v else rget c' k end.
Fixpoint rset (c : rconfig) (k : ckey) (v : rval) : rconfig :=
  match c with
  | [] => [(k, v)]
  | (k', v') :: c' => if key_eqb k k' then (k', v) :: c' else (k', v') :: rset c' k v
  end.
Fixpoint hget (d : hdict) (n : string) : option hval :=
  match d with [] => None | (n', v) :: d' => if String.eqb n n' then Some v else hget d' n end.
Fixpoint hset (d : hdict) (n : string) (v : hval) : hdict :=
  match d with
  | [] => [(n, v)]
  | (n', v') :: d' => if String.eqb n n' then (n', v) :: d' else (n', v') :: hset d' n v
  end.
Definition kind_eqb (a b : hkind) : bool :=
  match a, b with
  | HList, HList | HRange, HRange | HArray, HArray | HDict, HDict | HScalar, HScalar => true
  | _, _ => false
  end.

Section Merge.
(** [list(set(l))]: the order of a set is unspecified, so it is a parameter. *)
Context (set_list : list value -> list value).

(** [{**a, **b}]: the keys of a, then those of b that are not in a. *)
Definition dict_union (a b : list value) : list value :=
  a ++ filter (fun v => negb (existsb (value_eqb v) a)) b.

(** One turn of the inner loop, parser.py:123-138, on the object at [l].
    [list(x)] of a scalar is a TypeError, like the final else branch. *)
Definition merge_hp (h : dheap) (l : nat) (nv : string * hval) : res dheap :=
  let (n, v) := nv in
  match hget (h l) n with
  | None => Ok (dh_set h l (hset (h l) n v))
  | Some v1 =>
      if kind_eqb (hv_kind v1) HDict && kind_eqb (hv_kind v) HDict
      then Ok (dh_set h l (hset (h l) n (mkHval HDict (dict_union (hv_items v1) (hv_items v)))))
      else if kind_eqb (hv_kind v1) (hv_kind v) && negb (kind_eqb (hv_kind v) HScalar)
      then Ok (dh_set h l (hset (h l) n (mkHval HList (set_list (hv_items v1 ++ hv_items v)))))
      else Err TypeError
  end.
Fixpoint merge_hps (h : dheap) (l : nat) (nvs : hdict) : res unit * dheap :=
  match nvs with
  | [] => (Ok tt, h)
  | nv :: nvs' => match merge_hp h l nv with Ok h' => merge_hps h' l nvs' | Err e => (Err e, h) end
  end.
(** One turn of the outer loop, parser.py:113-138.  The inner loop iterates over
    the items of hparams2; they are read at its start (assigning to existing
    keys of a dict during iteration, which happens when both arguments share an
    inner dict, changes values only: not modelled).  Reading an attribute or key
    of the wrong kind of object: AttributeError resp. TypeError. *)
Definition merge_alg (h : dheap) (m : rconfig) (kv : ckey * rval) : res rconfig * dheap :=
  let (k, v2) := kv in
  match rget m k with
  | None => (Ok (rset m k v2), h)
  | Some v1 =>
      match v1, v2 with
      | RIter a, RIter b =>
          if kind_eqb (hv_kind a) HList && kind_eqb (hv_kind b) HList
          then (Ok (rset m k (RIter (mkHval HList (set_list (hv_items a ++ hv_items b))))), h)
          else (Err AttributeError, h)
      | RDict l, RDict l2 =>
          match merge_hps h l (h l2) with
          | (Ok _, h') => (Ok m, h')
          | (Err e, h') => (Err e, h')
          end
      | RDict _, RIter _ => (Err AttributeError, h)
      | RIter _, RDict l2 =>
          match h l2 with [] => (Ok m, h) | _ => (Err TypeError, h) end
      end
  end.
Fixpoint merge_loop (h : dheap) (m : rconfig) (c2 : rconfig) : res rconfig * dheap :=
  match c2 with
  | [] => (Ok m, h)
  | kv :: c2' => match merge_alg h m kv with
                 | (Ok m', h') => merge_loop h' m' c2'
                 | (Err e, h') => (Err e, h')
                 end
  end.
(** merge_configurations, parser.py:109-139; [merged] starts as a shallow copy
    of c1. *)
Definition merge_configurations (h : dheap) (c1 c2 : rconfig) : res rconfig * dheap := merge_loop h c1 c2.
End Merge.

(** A configuration with references, read in a state of the dictionaries.
    Iterating over an inner dict yields its keys, as strings; a configuration in
    which a str key is mapped to a dict is read with an empty iteration
    (simplification). *)
Definition deref (h : dheap) (v : rval) : entry :=
  match v with
  | RIter a => mkEntry (match hv_kind a with HScalar => None | _ => Some (hv_items a) end) None
  | RDict l => mkEntry (Some []) (Some (h l))
  end.
Definition view (h : dheap) (c : rconfig) : config := map (fun kv => (fst kv, deref h (snd kv))) c.

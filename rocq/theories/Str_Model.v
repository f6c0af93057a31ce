(** Model of parsing pipelines from their text: PrimitiveNode.from_string and
    Individual.from_string. *)
From Verif Require Import Base Gp_Model.
Open Scope string_scope.
Open Scope list_scope.
Open Scope nat_scope.

(** Python's [s.split(sep)] for a non-empty [sep]: leftmost occurrences that do
    not overlap.  [skip] counts characters of a separator still to be passed. *)
Fixpoint split_go (sep : string) (skip : nat) (s : string) : list string :=
  match s with
  | EmptyString => [EmptyString]
  | String c s' =>
    match skip with
    | S k => split_go sep k s'
    | O => if String.prefix sep s
           then EmptyString :: split_go sep (String.length sep - 1) s'
           else match split_go sep 0 s' with
                | [] => []
                | h :: t => String c h :: t
                end
    end
  end.
Definition split (sep s : string) : list string := split_go sep 0 s.

(** [s[n:]]. *)
Fixpoint drop (n : nat) (s : string) : string :=
  match n, s with
  | O, _ => s
  | S k, String _ s' => drop k s'
  | S _, EmptyString => EmptyString
  end.

(** [s[s.index(p) + len(p):]]; None when [s.index(p)] raises ValueError. *)
Fixpoint after_first (p s : string) : option string :=
  if String.prefix p s then Some (drop (String.length p) s)
  else match s with
       | EmptyString => None
       | String _ s' => after_first p s'
       end.

(** find_primitive, primitive_node.py:112-118. *)
Definition find_primitive (ps : pset) (name : string) : res primitive :=
  match find (fun p => String.eqb (p_name p) name) (prims_of ps DATA ++ prims_of ps PREDICTION) with
  | Some p => Ok p
  | None => Err IndexError
  end.

(** find_terminal, primitive_node.py:121-127.  The primitive set is a
    defaultdict (parser.py:30): an unknown hyperparameter gives an empty list. *)
Definition find_terminal (ps : pset) (str : string) : res terminal :=
  match split "=" str with
  | [term_type; _] =>
    match find (fun t => String.eqb (term_repr t) str) (terms_of ps term_type) with
    | Some t => Ok t
    | None => Err RuntimeError
    end
  | _ => Err ValueError
  end.

(** primitive_node.py:96-103. *)
Definition parse_terminals (ps : pset) (set : string) : res (list terminal) :=
  if String.eqb set "" then Ok []
  else rmap (find_terminal ps) (split ", " (drop 2 set)).

(** [set(primitive.input) - set(identifiers)] is not empty,
    primitive_node.py:104. *)
Definition has_missing (p : primitive) (ts : list terminal) : bool :=
  existsb (fun i => negb (existsb (fun t => String.eqb (t_ident t) i) ts)) (p_input p).

Definition mlift {A} (r : res A) : M A := fun s => (r, s).

(** The loop of from_string, primitive_node.py:93-107. *)
Fixpoint build_nodes (ps : pset) (strict : bool) (items : list (string * string)) (last : dref) : M dref :=
  match items with
  | [] => mret last
  | (name, set) :: rest =>
    p <- mlift (find_primitive ps name) ;;
    ts <- mlift (parse_terminals ps set) ;;
    if has_missing p ts && strict then mraise ValueError
    else l <- new_node p last ts ;; build_nodes ps strict rest (DRef l)
  end.

(** PrimitiveNode.from_string, primitive_node.py:63-109. *)
Definition node_from_string (str : string) (ps : pset) (strict : bool) : M dref :=
  match after_first DATA str with
  | None => mraise ValueError
  | Some rest =>
    build_nodes ps strict
      (combine (rev (removelast (split "(" str))) (removelast (split ")" rest))) DData
  end.

(** Individual.from_string, individual.py:143-173.  Simplification: for a text
    without any primitive the Python code makes an Individual whose main node
    is the string "data"; no individual of the model has that form, so the model
    gives OtherError 0 here. *)
Definition individual_from_string (str : string) (ps : pset) (strict : bool) : M individual :=
  d <- node_from_string str ps strict ;;
  match d with
  | DRef l => new_individual l
  | DData => mraise (OtherError 0)
  end.

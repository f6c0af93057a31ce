(** Model of gama/genetic_programming: components, operations, mutation,
    crossover and OperatorSet, on an explicit heap of PrimitiveNode objects so
    that in-place modification and sharing are visible. *)
From Verif Require Import Base.
Open Scope string_scope.
Open Scope list_scope.
Open Scope nat_scope.

(** * Components *)

(** A hyperparameter value (terminal.py:12, "value: object").  [v_kind] decides
    how it is formatted (terminal.py:28-34), [v_text] is [str(value)] resp.
    [value.__name__], and Python's [==] on values is equality of [v_eq].
    Simplification: values on which [==] is not an equivalence (NaN, arrays)
    are not modelled. *)
Inductive vkind := KStr | KCallable | KOther.
Record value := mkValue { v_kind : vkind; v_text : string; v_eq : Z }.

(** [value1 == value2]. *)
Definition value_eqb (a b : value) : bool := Z.eqb (v_eq a) (v_eq b).

(** Terminal, terminal.py:6-14. *)
Record terminal := mkTerm { t_value : value; t_output : string; t_ident : string }.

(** DATA_TERMINAL, terminal.py:3. *)
Definition DATA : string := "data".
Definition PREDICTION : string := "prediction".

(** format_hyperparameter_value, terminal.py:28-34. *)
Definition format_value (v : value) : string :=
  match v_kind v with
  | KStr => ("'" ++ v_text v ++ "'")%string
  | KCallable => v_text v
  | KOther => v_text v
  end.

(** Terminal.__str__, terminal.py:16-18. *)
Definition term_str (t : terminal) : string :=
  (t_output t ++ "=" ++ format_value (t_value t))%string.
(** Terminal.__repr__, terminal.py:20-25. *)
Definition term_repr (t : terminal) : string :=
  (t_ident t ++ "=" ++ format_value (t_value t))%string.

(** Primitive, primitive.py:4-19.  [p_class] is the identity of the class used
    as [identifier]; [p_name] its [__name__]. *)
Record primitive := mkPrim {
  p_input : list string; p_output : string; p_class : nat; p_name : string }.

Fixpoint strs_eqb (a b : list string) : bool :=
  match a, b with
  | [], [] => true
  | x :: a', y :: b' => String.eqb x y && strs_eqb a' b'
  | _, _ => false
  end.
(** [p1 == p2] on the named tuples (primitive.py:4). *)
Definition prim_eqb (p q : primitive) : bool :=
  strs_eqb (p_input p) (p_input q) && String.eqb (p_output p) (p_output q)
  && Nat.eqb (p_class p) (p_class q).

(** PrimitiveNode objects, primitive_node.py:6-27: [_primitive], [_data_node]
    (the string "data" or another node), [_terminals]. *)
Definition loc := nat.
Inductive dref := DData | DRef (l : loc).
Record cell := mkCell { c_prim : primitive; c_data : dref; c_terms : list terminal }.
Record heap := mkHeap { h_next : loc; h_get : loc -> option cell }.

(** Individual, individual.py:11-30.  [i_id] models the uuid, [i_parents] and
    [i_origin] the [meta] entries used by GAMA.  fitness is modelled where it
    is used (selection, search). *)
Record individual := mkInd {
  i_main : loc; i_id : nat; i_parents : list nat; i_origin : string }.

(** * State and exceptions.  The state survives an exception. *)
Record st := mkSt { s_heap : heap; s_rng : rng; s_uid : nat }.
Definition M (A : Type) := st -> res A * st.

Definition mret {A} (a : A) : M A := fun s => (Ok a, s).
Definition mraise {A} (e : exn) : M A := fun s => (Err e, s).
Definition mbind {A B} (m : M A) (f : A -> M B) : M B :=
  fun s => match m s with
           | (Ok a, s') => f a s'
           | (Err e, s') => (Err e, s')
           end.
Notation "x <- m ;; k" := (mbind m (fun x => k))
  (at level 61, m at next level, right associativity).
Notation "m ;;; k" := (mbind m (fun _ => k))
  (at level 61, right associativity).

Definition mchoice {A} (l : list A) : M A :=
  fun s => let (x, r) := rchoice l (s_rng s) in (x, mkSt (s_heap s) r (s_uid s)).
Definition mrandint (a b : Z) : M Z :=
  fun s => let (x, r) := rrandint a b (s_rng s) in (x, mkSt (s_heap s) r (s_uid s)).
Definition mget : M heap := fun s => (Ok (s_heap s), s).
Definition mput (h : heap) : M unit := fun s => (Ok tt, mkSt h (s_rng s) (s_uid s)).
(** uuid.uuid4() in Individual.__init__, individual.py:29: a fresh id. *)
Definition mfresh_id : M nat :=
  fun s => (Ok (s_uid s), mkSt (s_heap s) (s_rng s) (S (s_uid s))).

(** Reading attributes of a node object. *)
Definition mread (l : loc) : M cell :=
  fun s => match h_get (s_heap s) l with
           | Some c => (Ok c, s)
           | None => (Err AttributeError, s)
           end.

Definition h_set (h : heap) (l : loc) (c : cell) : heap :=
  mkHeap (h_next h) (fun l' => if Nat.eqb l' l then Some c else h_get h l').
Definition mwrite (l : loc) (c : cell) : M unit :=
  fun s => (Ok tt, mkSt (h_set (s_heap s) l c) (s_rng s) (s_uid s)).

(** [node._data_node = d]. *)
Definition set_data (l : loc) (d : dref) : M unit :=
  c <- mread l ;; mwrite l (mkCell (c_prim c) d (c_terms c)).
(** [node._terminals[i] = t], used in range only. *)
Definition set_term (l : loc) (i : nat) (t : terminal) : M unit :=
  c <- mread l ;; mwrite l (mkCell (c_prim c) (c_data c) (set_nth i t (c_terms c))).

(** Order used by [sorted(terminals, key=str)], primitive_node.py:27. *)
Definition term_leb (a b : terminal) : bool := String.leb (term_str a) (term_str b).

(** PrimitiveNode.__init__, primitive_node.py:19-27. *)
Definition new_node (p : primitive) (d : dref) (ts : list terminal) : M loc :=
  fun s =>
    let h := s_heap s in
    let l := h_next h in
    (Ok l, mkSt (mkHeap (S l) (h_get (h_set h l (mkCell p d (py_sorted term_leb ts)))))
             (s_rng s) (s_uid s)).

(** Individual.__init__, individual.py:23-30. *)
Definition new_individual (main : loc) : M individual :=
  u <- mfresh_id ;; mret (mkInd main u [] "").

(** * Individual *)

(** The loop of Individual.primitives, individual.py:63-71.  The fuel bounds
    the walk; on a cyclic chain the Python loop does not terminate. *)
Fixpoint walk (fuel : nat) (h : heap) (d : dref) : res (list loc) :=
  match d with
  | DData => Ok []
  | DRef l =>
    match fuel with
    | O => Err Diverges
    | S f => match h_get h l with
             | None => Err AttributeError
             | Some c => do r <- walk f h (c_data c); Ok (l :: r)
             end
    end
  end.
(** Individual.primitives, individual.py:63-71. *)
Definition primitives (ind : individual) : M (list loc) :=
  fun s => (walk (S (h_next (s_heap s))) (s_heap s) (DRef (i_main ind)), s).

(** Reads a list of node objects. *)
Fixpoint mread_all (ls : list loc) : M (list cell) :=
  match ls with
  | [] => mret []
  | l :: ls' => c <- mread l ;; cs <- mread_all ls' ;; mret (c :: cs)
  end.

(** Individual.terminals, individual.py:73-76. *)
Definition terminals (ind : individual) : M (list terminal) :=
  ls <- primitives ind ;; cs <- mread_all ls ;; mret (flat_map c_terms cs).

(** The loop of replace_terminal, individual.py:88-105. [position] is a natural
    number: Python's negative indices are not modelled. *)
Fixpoint replace_terminal_loop (ls : list loc) (scan position : nat)
    (t : terminal) : M unit :=
  match ls with
  | [] => if scan <? position then mraise ValueError else mret tt
  | l :: ls' =>
    c <- mread l ;;
    if position <? scan + length (c_terms c) then
      match nth_error (c_terms c) (position - scan) with
      | None => mraise IndexError
      | Some old =>
        if String.eqb (t_ident old) (t_ident t)
        then set_term l (position - scan) t
        else mraise ValueError
      end
    else replace_terminal_loop ls' (scan + length (c_terms c)) position t
  end.
(** Individual.replace_terminal, individual.py:78-105. *)
Definition replace_terminal (ind : individual) (position : nat) (t : terminal) : M unit :=
  ls <- primitives ind ;; replace_terminal_loop ls 0 position t.

(** PrimitiveNode.copy, primitive_node.py:51-61 (data node first, then self).
    Data nodes other than "data" and PrimitiveNodes are not modelled. *)
Fixpoint copy_node (fuel : nat) (l : loc) : M loc :=
  match fuel with
  | O => mraise Diverges
  | S f =>
    c <- mread l ;;
    match c_data c with
    | DData => new_node (c_prim c) DData (c_terms c)
    | DRef l' => l'' <- copy_node f l' ;; new_node (c_prim c) (DRef l'') (c_terms c)
    end
  end.
Definition copy_loc (l : loc) : M loc :=
  h <- mget ;; copy_node (S (h_next h)) l.

(** Individual.copy_as_new, individual.py:135-137. *)
Definition copy_as_new (ind : individual) : M individual :=
  l <- copy_loc (i_main ind) ;; new_individual l.

(** The loop of replace_primitive, individual.py:117-128; returns
    [last_primitive]. *)
Fixpoint replace_primitive_loop (ls : list loc) (i position : nat)
    (last : option loc) (new : loc) : M (option loc) :=
  match ls with
  | [] => mret last
  | l :: ls' =>
    if Nat.eqb i position then
      c <- mread l ;; n <- mread new ;;
      if negb (String.eqb (p_output (c_prim c)) (p_output (c_prim n)))
      then mraise ValueError
      else match c_data c with
           | DData => set_data new DData ;;; mret last
           | DRef l' => l'' <- copy_loc l' ;; set_data new (DRef l'') ;;; mret last
           end
    else replace_primitive_loop ls' (S i) position (Some l) new
  end.
(** Individual.replace_primitive, individual.py:107-133; returns the individual
    with its (possibly new) main node. *)
Definition replace_primitive (ind : individual) (position : nat) (new : loc)
  : M individual :=
  ls <- primitives ind ;;
  last <- replace_primitive_loop ls 0 position None new ;;
  match last with
  | None => mret (mkInd new (i_id ind) (i_parents ind) (i_origin ind))
  | Some l => set_data l (DRef new) ;;; mret ind
  end.

(** PrimitiveNode.__str__, primitive_node.py:29-39. *)
Fixpoint str_dref (fuel : nat) (h : heap) (d : dref) : res string :=
  match d with
  | DData => Ok DATA
  | DRef l =>
    match fuel with
    | O => Err Diverges
    | S f =>
      match h_get h l with
      | None => Err AttributeError
      | Some c =>
        do ds <- str_dref f h (c_data c);
        match c_terms c with
        | [] => Ok (p_name (c_prim c) ++ "(" ++ ds ++ ")")%string
        | ts => Ok (p_name (c_prim c) ++ "(" ++ ds ++ ", "
                    ++ String.concat ", " (map term_repr ts) ++ ")")%string
        end
      end
    end
  end.
(** Individual.pipeline_str, individual.py:59-61. *)
Definition pipeline_str (ind : individual) : M string :=
  fun s => (str_dref (S (h_next (s_heap s))) (s_heap s) (DRef (i_main ind)), s).

(** * Search space (primitive set).  One dictionary in the code
    (configuration/parser.py:30, a defaultdict: a missing key is an empty
    list); here split in primitives (keys "data", "prediction") and terminals. *)
Record pset := mkPset {
  ps_prims : list (string * list primitive);
  ps_terms : list (string * list terminal) }.
Fixpoint assoc {A} (k : string) (l : list (string * list A)) : list A :=
  match l with
  | [] => []
  | (k', v) :: l' => if String.eqb k k' then v else assoc k l'
  end.
Definition prims_of (ps : pset) (k : string) : list primitive := assoc k (ps_prims ps).
Definition terms_of (ps : pset) (k : string) : list terminal := assoc k (ps_terms ps).

(** * operations.py *)

(** random_terminals_for_primitive, operations.py:12-16. *)
Fixpoint random_terminals (ps : pset) (inputs : list string) : M (list terminal) :=
  match inputs with
  | [] => mret []
  | k :: ks => t <- mchoice (terms_of ps k) ;; ts <- random_terminals ps ks ;;
               mret (t :: ts)
  end.
(** random_primitive_node, operations.py:19-25. *)
Definition not_excluded (exclude : option primitive) (p : primitive) : bool :=
  match exclude with None => true | Some q => negb (prim_eqb p q) end.
Definition random_primitive_node (ps : pset) (out : string)
    (exclude : option primitive) : M loc :=
  p <- mchoice (filter (not_excluded exclude) (prims_of ps out)) ;;
  ts <- random_terminals ps (p_input p) ;;
  new_node p DData ts.

(** The loop of create_random_expression, operations.py:37-42. *)
Fixpoint extend_chain (n : nat) (ps : pset) (last : loc) : M unit :=
  match n with
  | O => mret tt
  | S n' => l <- random_primitive_node ps DATA None ;;
            set_data last (DRef l) ;;; extend_chain n' ps l
  end.
(** create_random_expression, operations.py:28-44.  [range(k)] is empty for
    negative k. *)
Definition create_random_expression (ps : pset) (min_length max_length : Z) : M loc :=
  len <- mrandint min_length max_length ;;
  l <- random_primitive_node ps PREDICTION None ;;
  extend_chain (Z.to_nat (len - 1)) ps l ;;; mret l.

(** * mutation.py *)

(** mut_replace_terminal, mutation.py:14-36. *)
Definition term_replaceable (ps : pset) (t : terminal) : bool :=
  1 <? length (terms_of ps (t_ident t)).
Definition mut_replace_terminal (ind : individual) (ps : pset) : M individual :=
  all <- terminals ind ;;
  match filter (fun it => term_replaceable ps (snd it)) (enumerate all) with
  | [] => mraise ValueError
  | ts =>
    it <- mchoice ts ;;
    new <- mchoice (filter (fun t => negb (value_eqb (t_value t) (t_value (snd it))))
                           (terms_of ps (t_ident (snd it)))) ;;
    replace_terminal ind (fst it) new ;;; mret ind
  end.

(** mut_replace_primitive, mutation.py:39-63. *)
Definition prim_replaceable (ps : pset) (c : cell) : bool :=
  1 <? length (prims_of ps (p_output (c_prim c))).
Definition mut_replace_primitive (ind : individual) (ps : pset) : M individual :=
  ls <- primitives ind ;; cs <- mread_all ls ;;
  match filter (fun ic => prim_replaceable ps (snd ic)) (enumerate cs) with
  | [] => mraise ValueError
  | ps' =>
    ic <- mchoice ps' ;;
    new <- random_primitive_node ps (p_output (c_prim (snd ic))) (Some (c_prim (snd ic))) ;;
    replace_primitive ind (fst ic) new
  end.

(** The while loop of mut_shrink, mutation.py:92-96: [n] steps along the data
    pointers; reading [_data_node] of the string "data" is an AttributeError. *)
Fixpoint step_down (n : nat) (d : dref) : M dref :=
  match n with
  | O => mret d
  | S n' => match d with
            | DData => mraise AttributeError
            | DRef l => c <- mread l ;; step_down n' (c_data c)
            end
  end.
(** mut_shrink, mutation.py:66-97. *)
Definition mut_shrink (ind : individual) (shrink_by : option Z) : M individual :=
  ls <- primitives ind ;;
  let n := Z.of_nat (length ls) in
  if match shrink_by with Some k => (n <=? k)%Z | None => false end
  then mraise ValueError
  else
    k <- (match shrink_by with Some k => mret k | None => mrandint 1 (n - 1) end) ;;
    d <- step_down (Z.to_nat (n - 1 - k)) (DRef (i_main ind)) ;;
    match d with
    | DData => mraise AttributeError
    | DRef l => set_data l DData ;;; mret ind
    end.

(** mut_insert, mutation.py:100-116. *)
Definition mut_insert (ind : individual) (ps : pset) : M individual :=
  ls <- primitives ind ;;
  parent <- mchoice ls ;;
  new <- random_primitive_node ps DATA None ;;
  c <- mread parent ;;
  set_data new (c_data c) ;;; set_data parent (DRef new) ;;; mret ind.

(** The callables random_valid_mutation_in_place can pick; [MutShrinkBy] is a
    functools.partial object (mutation.py:149-151). *)
Inductive mutator :=
| MutReplacePrimitive | MutInsert | MutShrink | MutReplaceTerminal | MutShrinkBy (k : Z).

Definition run_mutator (m : mutator) (ind : individual) (ps : pset) : M individual :=
  match m with
  | MutReplacePrimitive => mut_replace_primitive ind ps
  | MutInsert => mut_insert ind ps
  | MutShrink => mut_shrink ind None
  | MutReplaceTerminal => mut_replace_terminal ind ps
  | MutShrinkBy k => mut_shrink ind (Some k)
  end.

(** The list available_mutations, mutation.py:146-168. *)
Definition available_mutations (ps : pset) (max_length : option Z)
    (cs : list cell) : list mutator :=
  let n := Z.of_nat (length cs) in
  if match max_length with Some m => (m <? n)%Z | None => false end
  then [MutShrinkBy (n - match max_length with Some m => m | None => 0 end)]
  else
    (if 1 <? length (filter (prim_replaceable ps) cs) then [MutReplacePrimitive] else [])
    ++ (if match max_length with None => true | Some m => (n <? m)%Z end
        then [MutInsert] else [])
    ++ (if (1 <? n)%Z then [MutShrink] else [])
    ++ (if 1 <? length (filter (term_replaceable ps) (flat_map c_terms cs))
        then [MutReplaceTerminal] else []).

(** random_valid_mutation_in_place, mutation.py:119-173. *)
Definition random_valid_mutation (ind : individual) (ps : pset)
    (max_length : option Z) : M (individual * mutator) :=
  ls <- primitives ind ;; cs <- mread_all ls ;;
  m <- mchoice (available_mutations ps max_length cs) ;;
  ind' <- run_mutator m ind ps ;;
  mret (ind', m).

(** [mutator.__name__], used by operator_set.py:75; a partial has none. *)
Definition mutator_name (m : mutator) : res string :=
  match m with
  | MutReplacePrimitive => Ok "mut_replace_primitive"%string
  | MutInsert => Ok "mut_insert"%string
  | MutShrink => Ok "mut_shrink"%string
  | MutReplaceTerminal => Ok "mut_replace_terminal"%string
  | MutShrinkBy _ => Err AttributeError
  end.

(** * crossover.py *)

(** _shared_terminals with indices, crossover.py:84-126; [value_match] as an
    enumeration (the ValueError for other strings, line 113, is not modelled). *)
Inductive vmatch := MDifferent | MEqual | MAll.
Definition match_ok (m : vmatch) (a b : terminal) : bool :=
  String.eqb (t_ident a) (t_ident b) &&
  match m with
  | MDifferent => negb (value_eqb (t_value a) (t_value b))
  | MEqual => value_eqb (t_value a) (t_value b)
  | MAll => true
  end.
Definition shared_terminals (m : vmatch) (ts1 ts2 : list terminal)
  : list ((nat * terminal) * (nat * terminal)) :=
  flat_map (fun it => map (fun jt => (it, jt))
                        (filter (fun jt => match_ok m (snd it) (snd jt)) (enumerate ts2)))
           (enumerate ts1).

(** crossover_terminals, crossover.py:63-81. *)
Definition crossover_terminals (ind1 ind2 : individual)
  : M (individual * individual) :=
  ts1 <- terminals ind1 ;; ts2 <- terminals ind2 ;;
  o <- mchoice (shared_terminals MDifferent ts1 ts2) ;;
  let '((i, t1), (j, t2)) := o in
  replace_terminal ind1 i t2 ;;; replace_terminal ind2 j t1 ;;; mret (ind1, ind2).

(** crossover_primitives, crossover.py:45-60. *)
Definition crossover_primitives (ind1 ind2 : individual)
  : M (individual * individual) :=
  ls1 <- primitives ind1 ;; p1 <- mchoice (removelast ls1) ;;
  ls2 <- primitives ind2 ;; p2 <- mchoice (removelast ls2) ;;
  c1 <- mread p1 ;; c2 <- mread p2 ;;
  set_data p1 (c_data c2) ;;; set_data p2 (c_data c1) ;;; mret (ind1, ind2).

Inductive crossover := CxTerminals | CxPrimitives.
Definition run_crossover (x : crossover) (ind1 ind2 : individual)
  : M (individual * individual) :=
  match x with
  | CxTerminals => crossover_terminals ind1 ind2
  | CxPrimitives => crossover_primitives ind1 ind2
  end.

(** _valid_crossover_functions, crossover.py:129-149. *)
Definition valid_crossovers (ind1 ind2 : individual) : M (list crossover) :=
  ts1 <- terminals ind1 ;; ts2 <- terminals ind2 ;;
  ls1 <- primitives ind1 ;; ls2 <- primitives ind2 ;;
  mret ((match shared_terminals MDifferent ts1 ts2 with [] => [] | _ => [CxTerminals] end)
        ++ (if (2 <=? length ls1) && (2 <=? length ls2) then [CxPrimitives] else [])).

Definition exceeds (max_length : option Z) (n : nat) : bool :=
  match max_length with None => false | Some m => (m <? Z.of_nat n)%Z end.

(** random_crossover, crossover.py:8-42. *)
Definition random_crossover (ind1 ind2 : individual) (max_length : option Z)
  : M (individual * individual) :=
  ls1 <- primitives ind1 ;;
  if exceeds max_length (length ls1) then mraise ValueError else
  ls2 <- primitives ind2 ;;
  if exceeds max_length (length ls2) then mraise ValueError else
  choices <- valid_crossovers ind1 ind2 ;;
  match choices with
  | [] => mraise ValueError
  | _ =>
    x <- mchoice choices ;;
    r <- run_crossover x ind1 ind2 ;;
    ls1' <- primitives (fst r) ;;
    if exceeds max_length (length ls1') then mret (snd r, fst r) else mret r
  end.

(** * operator_set.py *)

(** The keys of completed_evaluations (operator_set.py:27,41). *)
Definition completed := list string.

(** try_until_new, operator_set.py:52-60.  [last] is the Python variable
    [individual]; unbound when max_retry <= 0. *)
Fixpoint try_until_new (n : nat) (done : completed) (op : M individual)
    (last : option individual) : M individual :=
  match n with
  | O => match last with None => mraise UnboundLocalError | Some i => mret i end
  | S n' =>
    ind <- op ;; s <- pipeline_str ind ;;
    if existsb (String.eqb s) done then try_until_new n' done op (Some ind)
    else mret ind
  end.

(** mate_with_log, operator_set.py:63-67. *)
Definition mate_with_log (max_length : option Z) (ind1 ind2 : individual) : M individual :=
  n1 <- copy_as_new ind1 ;; n2 <- copy_as_new ind2 ;;
  random_crossover n1 n2 max_length ;;;
  mret (mkInd (i_main n1) (i_id n1) [i_id ind1; i_id ind2] "cx"%string).
(** OperatorSet.mate, operator_set.py:62-69, with the operator gama.py:325
    installs. *)
Definition op_mate (max_retry : nat) (done : completed) (max_length : option Z)
    (ind1 ind2 : individual) : M individual :=
  try_until_new max_retry done (mate_with_log max_length ind1 ind2) None.

(** mutate_with_log, operator_set.py:72-76. *)
Definition mutate_with_log (ps : pset) (max_length : option Z) (ind : individual)
  : M individual :=
  n <- copy_as_new ind ;;
  r <- random_valid_mutation n ps max_length ;;
  match mutator_name (snd r) with
  | Err e => mraise e
  | Ok name => mret (mkInd (i_main (fst r)) (i_id (fst r)) [i_id ind] name)
  end.
(** OperatorSet.mutate, operator_set.py:71-78, with the operator gama.py:320. *)
Definition op_mutate (max_retry : nat) (done : completed) (ps : pset)
    (max_length : option Z) (ind : individual) : M individual :=
  try_until_new max_retry done (mutate_with_log ps max_length ind) None.

(** OperatorSet.individual, operator_set.py:80-85, with gama.py:327 (min_length
    keeps its default 1; max_start_length is 3 without a limit, gama.py:318). *)
Definition max_start_length (max_length : option Z) : Z :=
  match max_length with None => 3 | Some m => m end.
Definition op_individual (ps : pset) (max_length : option Z) : M individual :=
  l <- create_random_expression ps 1 (max_start_length max_length) ;;
  u <- mfresh_id ;; mret (mkInd l u [] "new"%string).

(** * Histories.  A search (search_methods, selection.py:12-29) calls
    individual(), mutate() and mate() on individuals created earlier; each call
    sees the set of pipelines evaluated so far.  An exception leaves the pool as
    it was. *)
Inductive gp_call :=
| CallIndividual
| CallMutate (i : nat) (done : completed)
| CallMate (i j : nat) (done : completed).
Record world := mkWorld { w_pool : list individual; w_st : st }.
Definition add_result (w : world) (r : res individual * st) : world :=
  match r with
  | (Ok ind, s') => mkWorld (w_pool w ++ [ind]) s'
  | (Err _, s') => mkWorld (w_pool w) s'
  end.
Definition gp_call_step (ps : pset) (max_length : option Z) (max_retry : nat)
    (w : world) (c : gp_call) : world :=
  match c with
  | CallIndividual => add_result w (op_individual ps max_length (w_st w))
  | CallMutate i done =>
    match nth_error (w_pool w) i with
    | Some ind => add_result w (op_mutate max_retry done ps max_length ind (w_st w))
    | None => w
    end
  | CallMate i j done =>
    match nth_error (w_pool w) i, nth_error (w_pool w) j with
    | Some ind1, Some ind2 =>
      add_result w (op_mate max_retry done max_length ind1 ind2 (w_st w))
    | _, _ => w
    end
  end.
Definition gp_run ps max_length max_retry (w : world) (cs : list gp_call) : world :=
  fold_left (gp_call_step ps max_length max_retry) cs w.
(** The start of a process: no objects, any random seed. *)
Definition empty_world (r : rng) : world :=
  mkWorld [] (mkSt (mkHeap 0 (fun _ => None)) r 0).

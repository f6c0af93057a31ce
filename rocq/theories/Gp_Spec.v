(** Vocabulary in which the properties of the genetic programming operators are
    stated.  Independent of how the operators are implemented. *)
From Verif Require Import Base Gp_Model.
Require Import Ascii.
Require Import Permutation Sorted.

(** A pipeline, as the user sees it: the predictor first, then the
    preprocessing steps, the one applied to the raw data last. *)
Notation step := (primitive * list terminal)%type.

(** [chain h d ls ss]: following the data pointers from [d] in heap [h] visits
    exactly the node objects [ls], which hold the steps [ss], and ends at
    "data". *)
Inductive chain (h : heap) : dref -> list loc -> list step -> Prop :=
| chain_data : chain h DData [] []
| chain_node : forall l c ls ss,
    h_get h l = Some c ->
    chain h (c_data c) ls ss ->
    chain h (DRef l) (l :: ls) ((c_prim c, c_terms c) :: ss).

(** Individual [ind] is the pipeline [ss], stored in the node objects [ls]. *)
Definition pipeline (h : heap) (ind : individual) (ls : list loc) (ss : list step) : Prop :=
  chain h (DRef (i_main ind)) ls ss.

(** No object exists at an address that has not been allocated yet. *)
Definition wf_heap (h : heap) : Prop := forall l, h_next h <= l -> h_get h l = None.

(** Every object that existed in [h], except those in [ws], is the same in [h']. *)
Definition same_except (ws : list loc) (h h' : heap) : Prop :=
  h_next h <= h_next h' /\
  forall l, l < h_next h -> ~ In l ws -> h_get h' l = h_get h l.

Definition all_new (h : heap) (ls : list loc) : Prop := Forall (fun l => h_next h <= l) ls.
Definition disjoint {A} (a b : list A) : Prop := forall x, In x a -> ~ In x b.

(** * Search spaces *)

(** A step that uses primitive [p] of type [k] of the search space with exactly
    one declared value for each declared hyperparameter. *)
Definition step_ok (ps : pset) (k : string) (s : step) : Prop :=
  In (fst s) (prims_of ps k) /\
  exists ts, Permutation (snd s) ts /\
             Forall2 (fun i t => In t (terms_of ps i)) (p_input (fst s)) ts.

(** A predictor followed by preprocessors, all from the search space. *)
Definition pipeline_ok (ps : pset) (ss : list step) : Prop :=
  match ss with
  | [] => False
  | m :: rest => step_ok ps PREDICTION m /\ Forall (step_ok ps DATA) rest
  end.

(** What every search space made by pset_from_config satisfies (see Config):
    primitives are stored under their output type and hyperparameter values
    under their own identifier. *)
Definition pset_typed (ps : pset) : Prop :=
  (forall k p, In p (prims_of ps k) -> p_output p = k) /\
  (forall k t, In t (terms_of ps k) -> t_ident t = k).

(** Every hyperparameter of every primitive has at least one value. *)
Definition pset_inhabited (ps : pset) : Prop :=
  forall k p i, In p (prims_of ps k) -> In i (p_input p) -> terms_of ps i <> [].

(** * List-level meaning of the operators *)

(** same algorithm with the same hyperparameter values, possibly listed in
    another order *)
Definition same_step (s s' : step) : Prop :=
  fst s = fst s' /\ Permutation (snd s) (snd s').

(** the hyperparameter values are listed in the order in which every newly
    constructed node lists them (by their text) *)
Definition in_order (s : step) : Prop :=
  StronglySorted (fun a b => String.leb (term_str a) (term_str b) = true) (snd s).

(** one new preprocessor somewhere below the predictor *)
Definition inserted (ps : pset) (ss ss' : list step) : Prop :=
  exists pre new post,
    ss = pre ++ post /\ pre <> [] /\ step_ok ps DATA new /\ in_order new /\
    ss' = pre ++ new :: post.

(** the hyperparameter value [old] at position [i] (counting through the
    pipeline's hyperparameters in order) becomes [new]; nothing else changes *)
Definition value_changed_at (i : nat) (old new : terminal) (ss ss' : list step) : Prop :=
  exists pre p a b post,
    ss = pre ++ (p, a ++ old :: b) :: post /\
    ss' = pre ++ (p, a ++ new :: b) :: post /\
    i = length (flat_map snd pre) + length a.

Definition terminal_replaced (ps : pset) (ss ss' : list step) : Prop :=
  exists i old new,
    value_changed_at i old new ss ss' /\
    In new (terms_of ps (t_ident old)) /\
    v_eq (t_value new) <> v_eq (t_value old).

(** Python's equality of primitives: same hyperparameters, type and class. *)
Definition same_algorithm (p q : primitive) : Prop :=
  p_input p = p_input q /\ p_output p = p_output q /\ p_class p = p_class q.

(** one step is replaced by one with another primitive of the same type; the
    steps above it are untouched, those below it are the same steps *)
Definition primitive_replaced (ps : pset) (ss ss' : list step) : Prop :=
  exists pre old new post post',
    ss = pre ++ old :: post /\ ss' = pre ++ new :: post' /\
    Forall2 same_step post post' /\
    (Forall in_order post -> post' = post) /\
    step_ok ps (p_output (fst old)) new /\ in_order new /\
    p_output (fst new) = p_output (fst old) /\
    ~ same_algorithm (fst new) (fst old).

(** the [k] steps nearest to the data are gone *)
Definition shrunk (k : nat) (ss ss' : list step) : Prop :=
  exists removed, ss = ss' ++ removed /\ length removed = k /\ ss' <> [].

(** the tails of the two pipelines are exchanged; both keep a head *)
Definition tails_swapped (a b a' b' : list step) : Prop :=
  exists ha ta hb tb,
    a = ha ++ ta /\ b = hb ++ tb /\ ha <> [] /\ hb <> [] /\ ta <> [] /\ tb <> [] /\
    a' = ha ++ tb /\ b' = hb ++ ta.

(** one hyperparameter value of [a] and one of [b] are exchanged *)
Definition terminals_swapped (a b a' b' : list step) : Prop :=
  exists i j t1 t2,
    t_ident t1 = t_ident t2 /\
    v_eq (t_value t1) <> v_eq (t_value t2) /\
    value_changed_at i t1 t2 a a' /\ value_changed_at j t2 t1 b b'.

(** effect of each mutation function on the pipeline *)
Definition mutated (ps : pset) (m : mutator) (ss ss' : list step) : Prop :=
  match m with
  | MutReplacePrimitive => primitive_replaced ps ss ss'
  | MutInsert => inserted ps ss ss'
  | MutShrink => exists k, 0 < k < length ss /\ shrunk k ss ss'
  | MutReplaceTerminal => terminal_replaced ps ss ss'
  | MutShrinkBy k => shrunk (Z.to_nat k) ss ss'
  end.

(** a crossover exchanges either preprocessing tails or a pair of values *)
Definition crossed (ss1 ss2 ss1' ss2' : list step) : Prop :=
  tails_swapped ss1 ss2 ss1' ss2' \/ terminals_swapped ss1 ss2 ss1' ss2'.

(** the two pipelines have a common hyperparameter set to different values *)
Definition share_different_value (ss1 ss2 : list step) : Prop :=
  exists t1 t2, In t1 (flat_map snd ss1) /\ In t2 (flat_map snd ss2) /\
                t_ident t1 = t_ident t2 /\ v_eq (t_value t1) <> v_eq (t_value t2).

(** length limits *)
Definition within (max_length : option Z) (ss : list step) : Prop :=
  match max_length with None => True | Some m => (Z.of_nat (length ss) <= m)%Z end.

(** Search spaces in which no operator can be stuck for lack of alternatives:
    hyperparameters have values, there is a preprocessor, and a type (value
    list) with more than one entry really contains alternatives. *)
Definition pset_rich (ps : pset) : Prop :=
  pset_inhabited ps /\ prims_of ps PREDICTION <> [] /\ prims_of ps DATA <> [] /\
  (forall k p, In p (prims_of ps k) -> 1 < length (prims_of ps k) ->
     exists q, In q (prims_of ps k) /\ ~ same_algorithm q p) /\
  (forall k t, In t (terms_of ps k) -> 1 < length (terms_of ps k) ->
     exists u, In u (terms_of ps k) /\ v_eq (t_value u) <> v_eq (t_value t)).

(** number of hyperparameters of the pipeline that have more than one value *)
Definition tunable (ps : pset) (ss : list step) : nat :=
  length (filter (fun t => 1 <? length (terms_of ps (t_ident t))) (flat_map snd ss)).

Fixpoint has_char (c : Ascii.ascii) (s : string) : bool :=
  match s with
  | EmptyString => false
  | String a s' => Ascii.eqb a c || has_char c s'
  end.

(** Each hyperparameter has one argument name (without '='), and the arguments
    of one primitive have different names. *)
Definition pset_named (ps : pset) : Prop :=
  exists name : string -> string,
    (forall k t, In t (terms_of ps k) -> t_output t = name k) /\
    (forall k, has_char "="%char (name k) = false) /\
    (forall k p, In p (prims_of ps k) -> NoDup (map name (p_input p))).

(** The text of a pipeline, e.g.
    "BernoulliNB(Binarizer(data, Binarizer.threshold=0.6), alpha=1.0)". *)
Fixpoint arguments (ts : list terminal) : string :=
  match ts with
  | [] => ""
  | t :: ts' => ", " ++ t_ident t ++ "=" ++ format_value (t_value t) ++ arguments ts'
  end%string.
Fixpoint text (ss : list step) : string :=
  match ss with
  | [] => "data"
  | (p, ts) :: rest => p_name p ++ "(" ++ text rest ++ arguments ts ++ ")"
  end%string.

(** From [s] to [s'] objects and ids were created, but no existing object was
    modified. *)
Definition extends (s s' : st) : Prop :=
  wf_heap (s_heap s') /\ same_except [] (s_heap s) (s_heap s') /\ s_uid s <= s_uid s'.

(** the same pipeline; also listed identically if it was in canonical order *)
Definition same_pipeline (ss ss' : list step) : Prop :=
  Forall2 same_step ss ss' /\ (Forall in_order ss -> ss' = ss).

(** ** Duplicate avoidance: the sequence of attempts an operator makes *)
Inductive attempts (op : M individual) : st -> list (individual * string) -> st -> Prop :=
| attempts_nil : forall s, attempts op s [] s
| attempts_cons : forall s ind s1 str l s2,
    op s = (Ok ind, s1) -> pipeline_str ind s1 = (Ok str, s1) ->
    attempts op s1 l s2 -> attempts op s ((ind, str) :: l) s2.

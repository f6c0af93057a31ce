(** Vocabulary for C144-C147: what a search does, read off from what happened. *)
From Verif Require Import Base Num Gp_Model Gp_Spec Cov_Spec Evo_Model.
Open Scope nat_scope.
Open Scope list_scope.

(** The individual is the pipeline with these steps. *)
Definition is_pipeline (h : heap) (i : individual) (ss : list step) : Prop := exists ls, pipeline h i ls ss.
(** The objects at the end of the search. *)
Definition objects (w : evo) : heap := s_heap (v_st w).

(** Individuals submitted, results collected, results collected without failure, since the beginning or the
    last restart. *)
Fixpoint submitted (t : list item) : list individual :=
  match t with
  | [] => []
  | Submitted i :: t' => i :: submitted t'
  | _ :: t' => submitted t'
  end.
Fixpoint collected (t : list item) : list individual :=
  match t with
  | [] => []
  | Collected i _ :: t' => i :: collected t'
  | _ :: t' => collected t'
  end.
Fixpoint successes (t : list item) : list member :=
  match t with
  | [] => []
  | Collected i (Evaluated scores false) :: t' => mkMem i scores :: successes t'
  | _ :: t' => successes t'
  end.
Fixpoint since_restart_from (acc t : list item) : list item :=
  match t with
  | [] => acc
  | Restarted :: t' => since_restart_from [] t'
  | x :: t' => since_restart_from (acc ++ [x]) t'
  end.
Definition since_restart (t : list item) : list item := since_restart_from [] t.

(** The pipelines with a finished evaluation, failed ones included. *)
Definition evaluated (h : heap) (t : list item) (ss : list step) : Prop :=
  exists i scores failed, In (Collected i (Evaluated scores failed)) t /\ is_pipeline h i ss.
(** Everything mentioned so far. *)
Definition mentioned (t : list item) (i : individual) : Prop :=
  exists x, In x t /\
    match x with
    | Bred j pop => i = j \/ In i (map m_ind pop)
    | Submitted j => i = j
    | Collected j _ => i = j
    | Restarted => False
    end.

(** One mutation of a member of the population, recorded as such. *)
Definition mutant_of (ps : pset) (h : heap) (pop : list member) (i : individual) (ss : list step) : Prop :=
  exists p m old copy,
    In p pop /\ i_parents i = [i_id (m_ind p)] /\ is_pipeline h (m_ind p) old /\
    same_pipeline old copy /\ mutated ps m copy ss /\ logged_as m (i_origin i).
(** One crossover of two members, recorded as such. *)
Definition child_of (h : heap) (pop : list member) (i : individual) (ss : list step) : Prop :=
  exists a b p q old1 old2 copy1 copy2 other,
    nth_error pop a = Some p /\ nth_error pop b = Some q /\ a <> b /\
    i_parents i = [i_id (m_ind p); i_id (m_ind q)] /\ i_origin i = "cx"%string /\
    is_pipeline h (m_ind p) old1 /\ is_pipeline h (m_ind q) old2 /\
    same_pipeline old1 copy1 /\ same_pipeline old2 copy2 /\ crossed copy1 copy2 ss other.

(** Events after which a search can go on: evaluations yield two scores (or more, the
    same number each time). *)
Definition calm (k : nat) (e : event) : Prop :=
  match e_out e with Raised => True | Evaluated scores _ => length scores = k end.
Definition succeeded (e : event) : bool :=
  match e_out e with Evaluated _ false => true | _ => false end.
Definition n_succeeded (l : list event) : nat := length (filter succeeded l).

(** Start candidates: pipelines of the search space with known ids, within the limit. *)
Definition start_ok (ps : pset) (max_length : option Z) (s : st) (l : list individual) : Prop :=
  Forall (fun i => i_id i < s_uid s /\ exists ss, is_pipeline (s_heap s) i ss /\ pipeline_ok ps ss /\ within max_length ss) l.

(** Limits under which the operators always find something to do, and never exceed the
    limit: none; 2; 1 if every predictor has two hyperparameters with alternatives. *)
Definition roomy (ps : pset) (max_length : option Z) : Prop :=
  max_length = None \/ max_length = Some 2%Z \/
  (max_length = Some 1%Z /\
   forall p, In p (prims_of ps PREDICTION) ->
   2 <= length (filter (fun i => 1 <? length (terms_of ps i)) (p_input p))).
(** The ways in which the search breaks down, other than having too few members to select
    from, when evaluations give [k] scores: a single score, where the selection wants two; a member that is
    longer than the limit, which no operator accepts (only for limits of three or more); a limit
    of one step, and a member that has no alternatives. *)
Definition breakdown (ps : pset) (max_length : option Z) (k : nat) (w : evo) (x : res unit) : Prop :=
  (x = Err IndexError /\ k < 2) \/
  exists m steps limit, In m (v_pop w) /\ is_pipeline (objects w) (m_ind m) steps /\ max_length = Some limit /\
    ((3 <= limit < Z.of_nat (length steps))%Z /\ (x = Err AttributeError \/ x = Err ValueError) \/
     limit = 1%Z /\ length steps = 1 /\ tunable ps steps <= 1 /\ x = Err IndexError).

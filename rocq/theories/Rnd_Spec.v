(** Vocabulary for C148-C149: what random search and ASHA do, read off from what
    happened. *)
From Verif Require Import Base Num Gp_Model Gp_Spec Evo_Model Evo_Spec Rnd_Model.
Open Scope nat_scope.
Open Scope list_scope.

(** The objects at the end. *)
Definition h_objects (w : hst) : heap := s_heap (q_st w).
(** Pipelines given to the workers, with the rung; results, with the rung; the individuals
    of evaluations (failed or not) with their scores, in the order of arrival. *)
Fixpoint started (t : list hitem) : list (individual * nat) :=
  match t with
  | [] => []
  | Started i r :: t' => (i, r) :: started t'
  | _ :: t' => started t'
  end.
Fixpoint finished (t : list hitem) : list (individual * nat) :=
  match t with
  | [] => []
  | Finished i r _ :: t' => (i, r) :: finished t'
  | _ :: t' => finished t'
  end.
Fixpoint results (t : list hitem) : list member :=
  match t with
  | [] => []
  | Finished i _ (Evaluated scores _) :: t' => mkMem i scores :: results t'
  | _ :: t' => results t'
  end.
(** Id and rung. *)
Definition key (p : individual * nat) : nat * nat := (i_id (fst p), snd p).
(** Everything mentioned so far. *)
Definition seen (t : list hitem) (i : individual) : Prop :=
  exists r, In (Started i r) t \/ exists o, In (Finished i r o) t.
(** A random pipeline: no parents. *)
Definition is_new (i : individual) : Prop := i_parents i = [] /\ i_origin i = "new"%string.
(** Results that are evaluations, failed or not. *)
Definition was_evaluated (e : event) : bool := match e_out e with Evaluated _ _ => true | Raised => false end.
Definition n_evaluated (l : list event) : nat := length (filter was_evaluated l).
(** Results with at least one score. *)
Definition has_score (e : event) : Prop :=
  match e_out e with Evaluated [] _ => False | _ => True end.
(** max_pipeline_length is at least 1. *)
Definition allows_one (max_length : option Z) : Prop := match max_length with None => True | Some m => (1 <= m)%Z end.
(** ASHA: the results on a rung, with the first score; the pipelines given to the workers
    on a rung. *)
Definition scored (r : nat) (t : list hitem) : list (num * member) :=
  flat_map (fun x => match x with
    | Finished i r' (Evaluated (score :: l) _) => if r' =? r then [(score, mkMem i (score :: l))] else []
    | _ => [] end) t.
Definition scored_inds (r : nat) (t : list hitem) : list individual := map (fun e => m_ind (snd e)) (scored r t).
Definition started_on (r : nat) (t : list hitem) : list individual :=
  map fst (filter (fun p => snd p =? r) (started t)).
(** From this rung one more pipeline may be promoted. *)
Definition promotable (eta r : nat) (t : list hitem) : Prop := length (started_on (S r) t) < length (scored r t) / eta.

(** Vocabulary for C160-C162. *)
From Verif Require Import Base Num Gp_Model Gp_Spec Evo_Model Evo_Spec Rnd_Model Rnd_Spec.
From Verif Require Async_Model.
Open Scope nat_scope.
Open Scope list_scope.

(** The results that were collected, in order. *)
Fixpoint collections (t : list item) : list (individual * outcome) :=
  match t with
  | [] => []
  | Collected i o :: t' => (i, o) :: collections t'
  | _ :: t' => collections t'
  end.
Fixpoint arrivals (t : list hitem) : list (individual * nat * outcome) :=
  match t with
  | [] => []
  | Finished i r o :: t' => (i, r, o) :: arrivals t'
  | _ :: t' => arrivals t'
  end.
(** What the main process learns from an outcome of the call in the worker: an Evaluation
    with its scores, failed when it has an error; otherwise that there is no result. *)
Definition learned (scores : nat -> list num) (o : Async_Model.outcome) (x : outcome) : Prop :=
  match o with
  | Async_Model.Ret (Async_Model.VEval n e) => exists failed, x = Evaluated (scores n) failed /\ (failed = false <-> e = Async_Model.NoError)
  | _ => x = Raised
  end.
Section Workers.
Context (call : nat -> list nat -> Async_Model.kwargs -> nat -> Async_Model.outcome) (scores : nat -> list num) (defaults : Async_Model.kwargs).
(** The worker's call for the submission numbered [k] ended, with this outcome. *)
Definition call_ended (k : nat) (o : outcome) : Prop :=
  exists choice, call 0 [k] defaults choice <> Async_Model.Die /\ learned scores (call 0 [k] defaults choice) o.
(** [i] is a copy of [j]. *)
Definition copy_of (h : heap) (j i : individual) : Prop :=
  i_id i = i_id j /\ i_parents i = i_parents j /\ i_origin i = i_origin j /\ exists ss, is_pipeline h j ss /\ is_pipeline h i ss.
(** The collected results are those of different submissions: for each of them the call of
    a worker ended with this outcome. *)
Definition from_workers (w : evo) : Prop :=
  exists ks, NoDup ks /\
    Forall2 (fun k x => exists j, nth_error (submitted (v_trace w)) k = Some j /\ copy_of (objects w) j (fst x) /\ call_ended k (snd x))
      ks (collections (v_trace w)).
Definition h_from_workers (w : hst) : Prop :=
  exists ks, NoDup ks /\
    Forall2 (fun k x => let '(i, r, o) := x in
               exists j, nth_error (started (q_trace w)) k = Some (j, r) /\ copy_of (h_objects w) j i /\ call_ended k o)
      ks (arrivals (q_trace w)).
End Workers.

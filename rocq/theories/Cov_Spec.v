(** Vocabulary for C91-C93. *)
From Verif Require Import Base Gp_Model Gp_Spec.
Open Scope nat_scope.

(** The name under which a mutation is logged. *)
Inductive logged_as : mutator -> string -> Prop :=
| log_rp : logged_as MutReplacePrimitive "mut_replace_primitive"
| log_in : logged_as MutInsert "mut_insert"
| log_sh : logged_as MutShrink "mut_shrink"
| log_rt : logged_as MutReplaceTerminal "mut_replace_terminal".

(** number of steps of the pipeline whose type has more than one algorithm *)
Definition swappable (ps : pset) (ss : list step) : nat :=
  length (filter (fun st => 1 <? length (prims_of ps (p_output (fst st)))) ss).

(** With a suitable sequence of random numbers, [m] run on the objects of [h]
    returns something with [Q]. *)
Definition possible {A} (m : M A) (h : heap) (u : nat) (Q : A -> heap -> Prop) : Prop :=
  exists r a s', m (mkSt h r u) = (Ok a, s') /\ Q a (s_heap s').

(** the same pipeline, hyperparameters possibly listed in another order *)
Definition equivalent (ss ss' : list step) : Prop := Forall2 same_step ss ss'.

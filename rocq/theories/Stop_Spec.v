(** Vocabulary for leaving an evaluator. *)
From Verif Require Import Base Stop_Model.
Open Scope nat_scope.

(** [p] is a process that runs *)
Definition lives (p : nat) (s : st) : Prop := In p (map fst (s_live s)).
(** somebody who is gone holds the lock *)
Definition abandoned (lock : option nat) (s : st) : Prop := exists p, lock = Some p /\ ~ lives p s.
(** the jobs that are not finished or not collected *)
Definition busy (l : list (nat * wphase)) : nat := length (filter (fun w => match snd w with Running _ => true | _ => false end) l).
Definition outstanding (s : st) : nat := length (s_input s) + busy (s_live s) + length (s_output s).
(** __exit__ tries to take an item from a queue that somebody else is reading *)
Definition blocked (s : st) : Prop :=
  (s_main s = ClearInput /\ s_input s <> [] /\ s_ilock s <> None) \/
  (s_main s = ClearCommand /\ s_commands s <> 0 /\ s_clock s <> None).
(** The run makes [n] steps of __exit__ that are not blocked. *)
Inductive exit_steps : list action -> st -> nat -> Prop :=
| es_nil s : exit_steps [] s 0
| es_main l s n : ~ blocked s -> exit_steps l (step Main s) n -> exit_steps (Main :: l) s (S n)
| es_blocked l s n : blocked s -> exit_steps l (step Main s) n -> exit_steps (Main :: l) s n
| es_other a l s n : a <> Main -> exit_steps l (step a s) n -> exit_steps (a :: l) s n.
(** nobody is terminated, crashes or is ended by its job *)
Definition calm (l : list action) : Prop := forall a, In a l -> (forall p again, a <> Stop p again) /\ (forall p, a <> Ends p).
(** only __exit__ and the workers go on *)
Definition ordinary (l : list action) : Prop := forall a, In a l -> a = Main \/ exists p, a = Worker p.

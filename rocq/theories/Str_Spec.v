(** Vocabulary for the text format of pipelines. *)
From Verif Require Import Base Gp_Model Gp_Spec.
Open Scope string_scope.
Open Scope nat_scope.

Definition contains (p s : string) : Prop := exists a b, s = (a ++ p ++ b)%string.

(** e.g. "FastICA.tol=0.5" *)
Definition term_text (t : terminal) : string :=
  (t_ident t ++ "=" ++ format_value (t_value t))%string.

(** A hyperparameter value of the search space whose text can be recognised. *)
Definition term_readable (ps : pset) (t : terminal) : Prop :=
  In t (terms_of ps (t_ident t)) /\
  (forall s, s = t_ident t \/ s = format_value (t_value t) ->
     ~ contains "(" s /\ ~ contains ")" s /\ ~ contains "=" s) /\
  ~ contains ", " (t_ident t) /\ ~ contains ", " (format_value (t_value t)) /\
  (forall u, In u (terms_of ps (t_ident t)) -> term_text u = term_text t -> u = t).

(** An algorithm of the search space whose name can be recognised. *)
Definition prim_readable (ps : pset) (p : primitive) : Prop :=
  (In p (prims_of ps DATA) \/ In p (prims_of ps PREDICTION)) /\
  ~ contains "(" (p_name p) /\ ~ contains "data" (p_name p) /\
  (forall q, In q (prims_of ps DATA) \/ In q (prims_of ps PREDICTION) ->
     p_name q = p_name p -> q = p).

Definition step_readable (ps : pset) (s : primitive * list terminal) : Prop :=
  prim_readable ps (fst s) /\ Forall (term_readable ps) (snd s).

(** A search space all of whose entries can be recognised from their text. *)
Definition pset_readable (ps : pset) : Prop :=
  (forall k p, In p (prims_of ps k) -> prim_readable ps p) /\
  (forall k t, In t (terms_of ps k) -> term_readable ps t).

(** every declared hyperparameter is present *)
Definition complete (s : primitive * list terminal) : Prop :=
  forall i, In i (p_input (fst s)) -> exists t, In t (snd s) /\ t_ident t = i.

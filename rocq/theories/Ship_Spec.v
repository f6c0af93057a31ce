(** Vocabulary for C122-C125: what a configuration must look like, in terms of
    what is written in it, for its search space to be usable and its pipelines to
    be readable from their text. *)
From Verif Require Import Base Gp_Model Gp_Spec Str_Spec Conf_Model Conf_Spec.
Require Import Ascii Permutation.
Open Scope string_scope.
Open Scope list_scope.
Open Scope nat_scope.

(** a name with none of the characters that structure a pipeline's text *)
Definition plain_name (s : string) : Prop :=
  has_char "("%char s = false /\ has_char ")"%char s = false /\ has_char "="%char s = false /\ has_char ","%char s = false.
Definition plain_value (v : value) : Prop :=
  ~ contains "(" (format_value v) /\ ~ contains ")" (format_value v) /\
  ~ contains "=" (format_value v) /\ ~ contains ", " (format_value v).

(** the values given for one hyperparameter can be told apart by their text *)
Definition legible_values (vs : list value) : Prop :=
  Forall plain_value vs /\ NoDup (map format_value vs).
Definition legible (cfg : config) : Prop :=
  (forall s e vs, In (KeyStr s, e) cfg -> e_iter e = Some vs -> plain_name s /\ legible_values vs) /\
  (forall c e items, In (KeyClass c, e) cfg -> e_dict e = Some items ->
     plain_name (c_name c) /\ ~ contains "data" (c_name c) /\
     (forall n v, In (n, v) items -> n <> "param_check" -> ~ shared v -> plain_name n /\ legible_values (hv_items v))).

(** no class is a key twice, no value is listed twice for one hyperparameter *)
Definition class_ids (cfg : config) : list nat :=
  flat_map (fun ke => match fst ke with KeyClass c => [c_id c] | _ => [] end) cfg.
Definition no_repetition (cfg : config) : Prop :=
  NoDup (class_ids cfg) /\
  (forall s e vs, In (KeyStr s, e) cfg -> e_iter e = Some vs -> NoDup (map v_eq vs)) /\
  (forall c e items n v, In (KeyClass c, e) cfg -> e_dict e = Some items -> In (n, v) items -> n <> "param_check" ->
     NoDup (map v_eq (hv_items v))).

(** names of shared hyperparameters and of arguments are plain names *)
Definition argument_names (cfg : config) : Prop :=
  (forall s, In s (string_keys cfg) -> has_char "="%char s = false) /\
  (forall c e items n v, In (KeyClass c, e) cfg -> e_dict e = Some items -> In (n, v) items ->
     has_char "="%char n = false /\ (shared v -> has_char "."%char n = false)).

(** A configuration whose search space has everything the other theorems ask
    for. *)
Definition usable (cfg : config) : Prop :=
  Forall valid_entry cfg /\ unambiguous cfg /\ Conf_Spec.complete cfg /\ legible cfg /\ no_repetition cfg /\ argument_names cfg /\
  algorithms cfg "prediction" <> [] /\ algorithms cfg "data" <> [].

(** the step sets hyperparameter [n] to the value written [x] *)
Definition sets (s : step) (n x : string) : Prop :=
  exists t, In t (snd s) /\ t_output t = n /\ v_text (t_value t) = x.

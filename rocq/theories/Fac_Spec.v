(** Vocabulary of the properties of Gama itself. *)
From Verif Require Import Base Num Gp_Model Lib_Model Lib_Spec Fac_Model.
Open Scope string_scope.
Open Scope list_scope.
Open Scope nat_scope.

(** The reasons to reject times and n_jobs. *)
Definition bad_total (a : args) : Prop := match a_total a with None => True | Some t => (t <= 0)%Z end.
Definition bad_eval (a : args) : Prop := match a_eval a with None => False | Some t => (t <= 0)%Z end.
Definition bad_jobs (a : args) : Prop := match a_jobs a with Some j => (j = 0 \/ j < -1)%Z | None => a_cpus a < 2 end.
(** The output directory has something in it. *)
Definition occupied (a : args) : Prop := match a_out a with Some (_ :: _) => True | _ => False end.
Definition unknown_preset (a : args) : Prop := a_post a = false /\ a_preset a <> "simple" /\ a_preset a <> "performance".
(** A length limit above one without preprocessing steps to reach it. *)
Definition bad_length (a : args) : Prop := a_space a = Ok false /\ match a_length a with Some n => (1 < n)%Z | None => False end.

(** A directory with log files and the cache only. *)
Definition log_entry (e : entry) : Prop := en_dir e = false /\ exists stem, en_name e = (stem ++ ".log")%string.
Definition cache_entry (e : entry) : Prop := e = mkEntry "cache" true.
Definition fit_output (d : dir) : Prop := Forall (fun e => log_entry e \/ cache_entry e) d.

(** What the search finds in the directory: what was there, and memory.log, which
    is made if nothing has that name. *)
Definition opened (d d0 : dir) : Prop :=
  ((exists e, In e d /\ en_name e = "memory.log") /\ d0 = d) \/
  ((forall e, In e d -> en_name e <> "memory.log") /\ d0 = d ++ [mkEntry "memory.log" false]).

(** A callback that lets the next one run: it returns or raises an ordinary
    exception, and the time is not over. *)
Definition harmless (c : call) : Prop := c_late c = false /\ c_end c <> Err TimeoutException /\ c_end c <> Err KeyboardInterrupt.
(** The keywords the last instance before was created with. *)
Fixpoint newest (es : list session_event) (k : keywords) : keywords :=
  match es with [] => k | New _ k' :: es' => newest es' k' | Fit _ :: es' => newest es' k end.

(** Used in the examples. *)
Definition ex_args : args := mkArgs "simple" false None "logs" (Some 2%Z) 4 (Some 3600%Z) None (Ok tt) (Ok true) None.
Definition with_out (d : option dir) (a : args) : args :=
  mkArgs (a_preset a) (a_post a) d (a_store a) (a_jobs a) (a_cpus a) (a_total a) (a_eval a) (a_scoring a) (a_space a) (a_length a).
Definition with_jobs (j : option Z) (a : args) : args :=
  mkArgs (a_preset a) (a_post a) (a_out a) (a_store a) j (a_cpus a) (a_total a) (a_eval a) (a_scoring a) (a_space a) (a_length a).
Definition with_total (t : option Z) (a : args) : args :=
  mkArgs (a_preset a) (a_post a) (a_out a) (a_store a) (a_jobs a) (a_cpus a) t (a_eval a) (a_scoring a) (a_space a) (a_length a).
Definition with_space (s : res bool) (n : option Z) (a : args) : args :=
  mkArgs (a_preset a) (a_post a) (a_out a) (a_store a) (a_jobs a) (a_cpus a) (a_total a) (a_eval a) (a_scoring a) s n.
Definition ex_dir : dir := [file "gama.log"; mkEntry "cache" true; file "evaluations.log"; file "memory.log"].
Definition ex_knn : primitive := mkPrim ["data"] "prediction" 1 "KNeighborsClassifier".
Definition ex_nb : primitive := mkPrim ["data"] "prediction" 2 "GaussianNB".
Definition ex_poly : primitive := mkPrim ["data"] "data" 3 "PolynomialFeatures".
Definition ex_space : pset := mkPset [("prediction", [ex_knn; ex_nb]); ("data", [ex_poly])] [].
Definition is_knn (p : primitive) : bool := p_class p =? 1.
Definition is_poly (p : primitive) : bool := p_class p =? 3.

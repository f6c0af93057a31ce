(** Vocabulary for C168-C170. *)
Require Import ZArith.
From Verif Require Import Base Num Lib_Spec Data_Model Data_Spec Tk_Model Gp_Model Gp_Spec Evo_Model Evo_Spec Rnd_Spec End_Spec Pred_Model Fit_Model Fit_Spec Whole_Model.
From Verif Require Async_Model Fac_Model.
Open Scope nat_scope.
Open Scope list_scope.

(** Individuals a search can start from: different pipelines of the search space, all in
    the same memory. *)
Definition usable (space : pset) (max_length : option Z) (l : list obj) : Prop :=
  exists s, wf_heap (s_heap s) /\
    (forall o, In o l -> exists i fitness fixed, o = Obj i fitness fixed s) /\
    start_ok space max_length s (individuals_of l) /\ NoDup (map i_id (individuals_of l)).
(** The memory of the process is in order, and so are the individuals from which the
    search of this call starts, if it does not start from new ones. *)
Definition ready (space : pset) (max_length : option Z) (e : circumstances) (g : inst obj) : Prop :=
  wf_heap (s_heap (e_mem e)) /\
  (forall l, e_warm e = Some (map Some l) -> l <> [] -> usable space max_length l) /\
  (e_warm e = None -> i_final g <> [] -> usable space max_length (i_final g)).
(** The search starts from new individuals. *)
Definition starts_anew (e : circumstances) (g : inst obj) : Prop :=
  e_warm e = Some [] \/ e_warm e = None /\ i_final g = [].
(** The deadline of the search of a fit: its limit in the time keeper, from the moment it began. *)
Definition deadline_of (rate : positive) (e : circumstances) (g' : inst obj) (deadline : Z) : Prop :=
  exists a limit, nth_error (tk_acts (i_keeper g')) 1 = Some a /\ a_name a = "search"%string /\ a_limit a = Some limit /\
    deadline = (e_clock e 5 + limit)%Z /\ exists seconds, limit = (seconds * Zpos rate)%Z.
(** The output directory has only what GAMA puts there, and [store] is one of the four values. *)
Definition tidy (store : string) (d : option Fac_Model.dir) : Prop :=
  (store = "all" \/ store = "logs" \/ store = "models" \/ store = "nothing")%string /\
  forall entries, d = Some entries -> forall x, In x entries ->
    Fac_Model.en_name x = "cache"%string /\ Fac_Model.en_dir x = true \/
    (exists n, Fac_Model.en_name x = String.append n ".log"%string) /\ Fac_Model.en_dir x = false.
(** These fixed steps: those of this call, or of an individual the search started from. *)
Definition steps_of_start (pop : list obj) (fixed : list enc_step) : Prop :=
  exists i fitness mem, In (Obj i fitness (Some fixed) mem) pop.
(** The fixed steps of the pipeline of [i]: those it was started with, if it is one of the
    individuals the search started from and these have some; otherwise those of this call. *)
Definition own_steps (pop : list obj) (ext : list enc_step) (i : individual) (fixed : list enc_step) : Prop :=
  (forall j fitness f mem, In (Obj j fitness (Some f) mem) pop -> i_id j = i_id i -> fixed = f) /\
  ((forall j fitness f mem, In (Obj j fitness (Some f) mem) pop -> i_id j <> i_id i) -> fixed = ext).

Section Model.
Context {E : Type} (build : nat -> list (string * value) -> res E) (estimator : enc_step -> string * E)
  (train : list (string * E) -> frame -> yout -> res model)
  (fit_transform : enc_step -> frame -> res frame) (fitted : list enc_step -> frame -> frame -> res frame).
(** The model that a fit of [g] with the call [c] left in [g']: it was made from the best of
    [found], whose pipeline is one of the search space of this fit, with these fixed steps
    before its own; it was trained on the encoded rows of this call; the object answers
    with it. *)
Definition model_of (c : call obj) (g g' : inst obj) (max_length : option Z) (xe : frame) (y : yout) (objects : heap)
    (found : list member) (fixed : individual -> list enc_step -> Prop) : Prop :=
  exists x classes types steps m ss f made model,
    training_data c (i_classifier g) x y classes /\
    inferred_dtypes (c_x c) (c_declared c) = Ok types /\
    preprocess fit_transform x (i_classifier g) = Ok (xe, steps, i_extension g') /\
    In m found /\ (forall m', In m' found -> ~ lex_lt (m_fit m) (m_fit m')) /\
    is_pipeline objects (m_ind m) ss /\ pipeline_ok (i_pset g') ss /\ within max_length ss /\
    fixed (m_ind m) f /\ made_from build (map estimator f) ss made /\
    train made xe y = Ok model /\ answers (i_gama g') types (fitted steps x) classes model.
End Model.

(** fit accepts its arguments: the data can be prepared ([xe] and [y] go to the search), in time; a warm
    start has nothing but individuals; the output directory is tidy after the search. *)
Definition accepted (rate : positive) (fit_transform : enc_step -> frame -> res frame) (c : call obj) (g : inst obj) (xe : frame) (y : yout) : Prop :=
  exists x classes types steps ext,
    training_data c (i_classifier g) x y classes /\ (forall ls, c_sampling c ls = Ok tt) /\
    inferred_dtypes (c_x c) (c_declared c) = Ok types /\ preprocess fit_transform x (i_classifier g) = Ok (xe, steps, ext) /\
    (spent (c_clock c) 0 1 <= i_total g * Zpos rate)%Z /\ (forall l, c_warm c = Some l -> ~ In None l) /\
    tidy (i_store g) (c_dir c).

Section Series.
Context {E : Type} (build : nat -> list (string * value) -> res E) (estimator : enc_step -> string * E)
  (train : list (string * E) -> frame -> yout -> res model)
  (rate : positive) (fit_transform : enc_step -> frame -> res frame) (fitted : list enc_step -> frame -> frame -> res frame)
  (knn poly : primitive -> bool) (takes_labels : bool)
  (how : method) (max_length : option Z) (n : nat) (log : bool) (defaults : Async_Model.kwargs).
(** What the search method needs (C160, C161): for the evolutionary search a typed search space
    and at least one attempt; for ASHA a search space from which pipelines can be made, a
    limit of at least 1, a rung, and scores. *)
Definition suits (space : pset) (e : circumstances) : Prop :=
  match how with
  | RandomSearch _ => True
  | Evolution max_retry _ _ _ => pset_typed space /\ 0 < max_retry
  | Halving _ first_rung max_rung _ =>
    pset_rich space /\ allows_one max_length /\ (Z.of_nat first_rung <= max_rung)%Z /\ (forall k, e_scores e k <> [])
  end.
(** The limit its pipelines obey (children of the evolutionary search may be longer, C144). *)
Definition limit_kept : option Z := match how with Evolution _ _ _ _ => None | _ => max_length end.
(** Individuals given as a warm start are pipelines of the search space. *)
Definition given_ok (space : pset) (e : circumstances) : Prop :=
  wf_heap (s_heap (e_mem e)) /\ (forall l, e_warm e = Some (map Some l) -> l <> [] -> usable space limit_kept l).
(** The object after any number of calls of fit, failed or not, with any data, workers and
    times, none of which excludes algorithms from the search space (C104). *)
Inductive series : inst obj -> Prop :=
| no_fit classifier total fraction stores store d space : series (new_inst classifier total fraction stores store d space)
| next_fit g e : series g -> given_ok (i_pset g) e -> suits (i_pset g) e ->
    i_pset (snd (fit rate fit_transform fitted knn poly fitness_of takes_labels (this_call build estimator train how max_length n log defaults e) g)) = i_pset g ->
    series (snd (fit rate fit_transform fitted knn poly fitness_of takes_labels (this_call build estimator train how max_length n log defaults e) g)).
End Series.

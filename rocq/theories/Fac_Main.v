(** Theorems about gama.py; restated in [Fac_Props.v]. *)
(*IMPORTS*)
From Verif Require Import Base Num Gp_Model Lib_Model Lib_Spec Lib_Main Eval_Model Fac_Model Fac_Spec.
Require Import Permutation Sorted.
Open Scope string_scope.
Open Scope list_scope.
Open Scope nat_scope.
(*END*)
From Verif Require Import Num_Proofs Gp_Proofs Lib_Proofs Lib_Main Fac_Proofs.

(** C71. The constructor raises ValueError exactly for an unknown preset, an output
    directory with something in it, a total time that is missing or not positive,
    an evaluation time that is not positive, a number of jobs that is 0 or below -1
    (or, by default, half of one processor), or a length limit above one in a
    search space without preprocessing steps. *)
Lemma C71_rejected_main : forall a,
  1 <= a_cpus a -> a_scoring a <> Err ValueError -> a_space a <> Err ValueError ->
  (fst (init a) = Err ValueError <->
   unknown_preset a \/ occupied a \/ bad_total a \/ bad_eval a \/ bad_jobs a \/ (a_scoring a = Ok tt /\ bad_length a)).
Proof. exact init_cases. Qed.
(** When the times or n_jobs are rejected the output directory is gone. *)
Lemma C71_nothing_left_partial_main : forall a,
  1 <= a_cpus a -> ~ unknown_preset a -> ~ occupied a -> bad_total a \/ bad_eval a \/ bad_jobs a ->
  init a = (Err ValueError, None).
Proof. exact init_reject. Qed.
(** For the other reasons something is left behind: after a rejected length limit or
    search space the directory holds the model cache, and a second attempt with the
    same directory and any other arguments fails. *)
Lemma C71_left_behind_refuted_main : forall a,
  1 <= a_cpus a -> ~ unknown_preset a -> ~ occupied a -> ~ bad_total a -> ~ bad_eval a -> ~ bad_jobs a ->
  a_scoring a = Ok tt -> bad_length a \/ (exists e, a_space a = Err e) ->
  exists e d, init a = (Err e, Some d) /\ In (mkEntry "cache" true) d /\
    forall a', a_out a' = Some d -> init a' = (Err ValueError, Some d).
Proof.
  intros a P U O B1 B2 B3 S L. destruct (init_left a P U O B1 B2 B3 S L) as (e & d & E & I). exists e, d. split; [exact E|]. split; [exact I|].
  intros a' A. unfold init. rewrite A. destruct (negb (a_post a') && _); [reflexivity|]. destruct d; [destruct I|reflexivity].
Qed.
(** Otherwise an instance is constructed. *)
Lemma C71_accepted_main : forall a,
  1 <= a_cpus a -> ~ unknown_preset a -> ~ occupied a -> ~ bad_total a -> ~ bad_eval a -> ~ bad_jobs a ->
  a_scoring a = Ok tt -> (exists h, a_space a = Ok h) -> ~ bad_length a ->
  exists g d, init a = (Ok g, Some d) /\ In (mkEntry "cache" true) d /\ fit_output d /\
    g_store g = a_store a /\ a_total a = Some (g_total g) /\
    (a_space a = Ok true -> g_length g = a_length a) /\
    (a_space a = Ok false -> g_length g = match a_length a with None => Some 1%Z | Some n => Some n end).
Proof.
  intros a P U O B1 B2 B3 S Sp L. destruct (init_works a P U O B1 B2 B3 S Sp L) as (g & E). exists g. eexists. split; [exact E|].
  destruct (init_ok a g _ E) as (t & T & _ & G & _ & _ & St & _). split; [apply in_or_app; right; left; reflexivity|]. split; [|split; [exact St|split; [congruence|]]].
  2:{ assert (GL : forall h, a_space a = Ok h -> pipeline_length h (a_length a) = Ok (g_length g)).
      { intros h Eh. unfold init in E. destruct (negb (a_post a) && _); [discriminate|].
        assert (E' : (if invalid a then match cleanup "all" (Some (log_file a)) with (Ok _, d) => (Err ValueError, d) | (Err e, d) => (Err e, d) end
          else match a_total a with None => (Err ValueError, Some (log_file a)) | Some total => match a_scoring a with Err e => (Err e, Some (log_file a)) | Ok _ =>
            let d := log_file a ++ [mkEntry "cache" true; file "evaluations.log"] in
            match a_space a with Err e => (Err e, Some d) | Ok has_data =>
              match pipeline_length has_data (a_length a) with Err e => (Err e, Some d) | Ok n => (Ok (mkGama (a_store a) (jobs a) total (eval_time a total) n), Some d) end end end end)
          = (Ok g, Some (log_file a ++ [mkEntry "cache" true; file "evaluations.log"]))).
        { destruct (a_out a) as [[|? ?]|]; [exact E|discriminate|exact E]. }
        clear E. destruct (invalid a). { destruct (cleanup _ _) as [[] ?]; discriminate. }
        rewrite T, S, Eh in E'. cbv zeta in E'. destruct (pipeline_length h (a_length a)) as [n|]; [|discriminate]. injection E' as <-. reflexivity. }
      split; intros Eh; specialize (GL _ Eh); unfold pipeline_length in GL; [congruence|].
      destruct (a_length a) as [n|]; [|congruence]. destruct (n >? 1)%Z; congruence. }
  unfold fit_output. apply Forall_app. split.
  - unfold log_file. destruct (mem _ _); [|constructor]. constructor; [|constructor]. left. split; [reflexivity|]. exists "gama". reflexivity.
  - constructor; [right; reflexivity|]. constructor; [|constructor]. left. split; [reflexivity|]. exists "evaluations". reflexivity.
Qed.
Example C71_ex_main : fst (init ex_args) = Ok (mkGama "logs" 2 3600 360 None) /\
  init (with_jobs (Some (-2)%Z) ex_args) = (Err ValueError, None) /\ init (with_total (Some 0%Z) (with_out (Some []) ex_args)) = (Err ValueError, None) /\
  init (with_out (Some [file "notes.txt"]) ex_args) = (Err ValueError, Some [file "notes.txt"]) /\
  init (with_space (Ok false) (Some 3%Z) ex_args) = (Err ValueError, Some [file "gama.log"; mkEntry "cache" true; file "evaluations.log"]).
Proof. repeat split. Qed.

(** C72 is false: on a machine with one processor the default is half of it,
    rounded down, and is rejected, whatever the other arguments. *)
Lemma C72_one_cpu_refuted_main : forall a, a_cpus a = 1 -> a_jobs a = None -> fst (init a) = Err ValueError.
Proof.
  intros a C J. unfold init. destruct (negb (a_post a) && _); [reflexivity|].
  assert (I : invalid a = true) by (apply (invalid_spec a); [lia|]; right; right; unfold bad_jobs; rewrite J; lia).
  destruct (a_out a) as [[|]|]; auto; rewrite I, clean_new; reflexivity.
Qed.
(** With two or more processors the default is between 1 and half of them, and
    accepted. *)
Lemma C72_default_jobs_partial_main : forall a,
  2 <= a_cpus a -> a_jobs a = None -> ~ bad_jobs a /\
  forall g d, init a = (Ok g, d) -> (1 <= g_jobs g)%Z /\ (2 * g_jobs g <= Z.of_nat (a_cpus a) < 2 * g_jobs g + 2)%Z.
Proof.
  intros a C J. unfold bad_jobs. rewrite J. split; [lia|].
  pose proof (Nat.div_mod (a_cpus a) 2 ltac:(lia)). pose proof (Nat.mod_upper_bound (a_cpus a) 2 ltac:(lia)).
  intros g d E. destruct (init_ok a g d E) as (t & _ & _ & _ & G & _). rewrite G. unfold jobs. rewrite J. lia.
Qed.
(** A number of jobs that is given is used; -1 stands for all processors. *)
Lemma C72_given_main : forall a g d j, init a = (Ok g, d) -> a_jobs a = Some j ->
  g_jobs g = if (j =? -1)%Z then Z.of_nat (a_cpus a) else j.
Proof. intros a g d j E J. destruct (init_ok a g d E) as (t & _ & _ & _ & G & _). rewrite G. unfold jobs. rewrite J. reflexivity. Qed.
Example C72_ex_main : g_jobs (match fst (init (with_jobs None ex_args)) with Ok g => g | Err _ => mkGama "" 0 0 0 None end) = 2%Z /\
  g_jobs (match fst (init (with_jobs (Some (-1)%Z) ex_args)) with Ok g => g | Err _ => mkGama "" 0 0 0 None end) = 4%Z.
Proof. split; reflexivity. Qed.

(** C73 is false: with a total of one to five seconds the default is 0 seconds
    per evaluation, and evaluating any pipeline under it, at any time, raises. *)
Lemma C73_zero_limit_refuted_main : forall a g d t,
  init a = (Ok g, d) -> a_eval a = None -> a_total a = Some t -> (t <= 5)%Z ->
  g_eval g = 0%Z /\
  forall E P rows index splits sample fit score predict metrics sub hit steps deadline add_length now start stop,
    evaluate_individual (E := E) (P := P) (evaluate_pipeline rows index splits sample fit score predict metrics sub hit true) steps
      (Fin (inject_Z (g_eval g))) deadline add_length now start stop = Err ValueError.
Proof.
  intros a g d t I E T L. destruct (init_ok a g d I) as (t' & T' & P & _ & _ & Ev & _). rewrite T in T'. injection T' as <-.
  assert (Z0 : g_eval g = 0%Z) by (rewrite Ev; apply (eval_default a t E P); exact L). split; [exact Z0|].
  intros. rewrite Z0. unfold evaluate_individual.
  assert (TL : nleb (time_limit (Fin (inject_Z 0)) deadline now) (Fin 0) = true).
  { unfold time_limit. destruct deadline as [dl|]; [|reflexivity]. unfold nmin. destruct (nltb (nsub dl now) (Fin (inject_Z 0))) eqn:N; [|reflexivity].
    destruct (nsub dl now) as [| |q|]; try discriminate; [reflexivity|]. simpl in *. unfold qltb in N. apply negb_true_iff in N.
    destruct (Qle_bool q 0) eqn:Q; auto. exfalso. destruct (Qlt_le_dec 0 q) as [A|A]; [|apply Qle_bool_iff in A; congruence].
    apply Qlt_le_weak in A. apply Qle_bool_iff in A. discriminate (eq_trans (eq_sym A) N). }
  unfold evaluate_pipeline at 1. simpl negb. cbn [rbind]. rewrite TL. reflexivity.
Qed.
(** From a total of six seconds on the default is at least a second and at most
    the total; a limit that is given is used, up to the total. *)
Lemma C73_default_limit_partial_main : forall a g d t,
  init a = (Ok g, d) -> a_total a = Some t ->
  (a_eval a = None -> (6 <= t)%Z -> (1 <= g_eval g <= t)%Z) /\
  (forall e, a_eval a = Some e -> g_eval g = Z.min e t /\ (1 <= g_eval g <= t)%Z).
Proof.
  intros a g d t I T. destruct (init_ok a g d I) as (t' & T' & P & _ & _ & Ev & _ & Pe & _). rewrite T in T'. injection T' as <-. rewrite Ev. split.
  - intros E L. apply (eval_default a t E P). exact L.
  - intros e E. rewrite (eval_own a t e E). rewrite E in Pe. lia.
Qed.
(** The default is the tenth of the total, to the nearest second, and to the even
    one of two that are equally near. *)
Lemma C73_default_value_main : forall a g d t,
  init a = (Ok g, d) -> a_total a = Some t -> a_eval a = None ->
  (2 * Z.abs (10 * g_eval g - t) <= 10)%Z /\ ((2 * Z.abs (10 * g_eval g - t) = 10)%Z -> Z.Even (g_eval g)).
Proof.
  intros a g d t I T E. destruct (init_ok a g d I) as (t' & T' & P & _ & _ & Ev & _). rewrite T in T'. injection T' as <-. rewrite Ev. apply eval_nearest; auto.
Qed.
Example C73_ex_main : map (fun t => match fst (init (with_total (Some t) ex_args)) with Ok g => g_eval g | Err _ => (-1)%Z end) [1; 5; 6; 15; 25; 3600]%Z = [0; 0; 1; 2; 2; 360]%Z.
Proof. reflexivity. Qed.

(** C74. If the search has left log files and the model cache in the directory, a
    fit ends without error and leaves: no directory for "nothing", the log files for
    "logs", the cache for "models", everything for "all". *)
Lemma C74_stored_main : forall g search d d0 d',
  opened d d0 -> search (Some d0) = (Ok tt, Some d') -> fit_output d' ->
  (g_store g = "nothing" -> Fac_Model.fit g search (Some d) = (Ok tt, None)) /\
  (g_store g = "logs" -> exists left, Fac_Model.fit g search (Some d) = (Ok tt, Some left) /\ forall e, In e left <-> In e d' /\ log_entry e) /\
  (g_store g = "models" -> exists left, Fac_Model.fit g search (Some d) = (Ok tt, Some left) /\ forall e, In e left <-> In e d' /\ cache_entry e) /\
  (g_store g = "all" -> Fac_Model.fit g search (Some d) = (Ok tt, Some d')).
Proof.
  intros g search d d0 d' O S F. unfold Fac_Model.fit. rewrite (opened_touch d d0 O), S.
  assert (L : forall e, In e d' -> (is_log e = true <-> log_entry e)).
  { intros e J. split; [|intros K; apply (log_is _ K)]. intros K. unfold fit_output in F. rewrite Forall_forall in F. destruct (F e J) as [M|M]; auto. rewrite (cache_not_log _ M) in K. discriminate. }
  assert (C : forall e, In e d' -> (String.eqb (en_name e) "cache" = true <-> cache_entry e)).
  { intros e J. split; [|intros ->; reflexivity]. intros K. unfold fit_output in F. rewrite Forall_forall in F. destruct (F e J) as [M|M]; auto. destruct (log_is _ M) as (N & _). rewrite (log_not_cache _ N) in K. discriminate. }
  split; [|split; [|split]]; intros ->.
  - apply store_nothing. exact F.
  - eexists. split; [apply store_logs; exact F|]. intros e. rewrite filter_In. split; intros (J & K); split; auto; apply L; auto.
  - eexists. split; [apply store_models; exact F|]. intros e. rewrite filter_In. split; intros (J & K); split; auto; apply C; auto.
  - reflexivity.
Qed.
(** Another file in the directory is kept, and makes a fit with "nothing" fail at
    its very end; an unknown value of store also fails only then. *)
Lemma C74_foreign_main : forall g search d d0 d' e,
  opened d d0 -> search (Some d0) = (Ok tt, Some d') -> g_store g = "nothing" ->
  (forall x, In x d' -> log_entry x \/ cache_entry x \/ x = e) -> In e d' -> (forall stem, en_name e <> (stem ++ ".log")%string) -> en_name e <> "cache" ->
  exists left, Fac_Model.fit g search (Some d) = (Err (OtherError 4), Some left) /\ In e left.
Proof.
  intros g search d1 d0 d e HO HS HG H I L0 N. unfold Fac_Model.fit. rewrite (opened_touch d1 d0 HO), HS, HG.
  assert (L : is_log e = false).
  { unfold is_log. destruct (ends_with ".log" (en_name e)) eqn:W; auto. exfalso. assert (K : forall s, ends_with ".log" s = true -> exists p, s = (p ++ ".log")%string).
    { clear. induction s as [|c s IH]; cbn [ends_with]; intros H; apply orb_true_iff in H as [H|H]; try discriminate.
      - apply String.eqb_eq in H. exists "". exact H.
      - destruct (IH H) as (p & ->). exists (String c p). reflexivity. }
    destruct (K _ W) as (p & Ep). exact (L0 p Ep). }
  apply store_nothing_other; auto.
  - intros x J K. destruct (H x J) as [M|[M|M]]; [apply M| |congruence]. rewrite (cache_not_log _ M) in K. discriminate.
  - intros x J K. destruct (H x J) as [M|[->|M]]; [|reflexivity|]. { destruct (log_is _ M) as (Q & _). rewrite (log_not_cache _ Q) in K. discriminate. }
    subst x. apply String.eqb_eq in K. contradiction.
  - apply String.eqb_neq. exact N.
Qed.
Lemma C74_unknown_store_main : forall g search d d0 d',
  opened d d0 -> search (Some d0) = (Ok tt, Some d') ->
  g_store g <> "all" -> g_store g <> "nothing" -> g_store g <> "logs" -> g_store g <> "models" -> Fac_Model.fit g search (Some d) = (Err KeyError, Some d').
Proof.
  intros g search d1 d0 d HO HS A B C D. unfold Fac_Model.fit. rewrite (opened_touch d1 d0 HO), HS. unfold fit_end. apply String.eqb_neq in A, B, C, D. rewrite A, B, C, D. reflexivity.
Qed.
(** When the search raises, its error gets out and whatever it left stays, for
    every value of store. *)
Lemma C74_failed_search_main : forall g search d d0 d' e,
  opened d d0 -> search (Some d0) = (Err e, d') -> Fac_Model.fit g search (Some d) = (Err e, d').
Proof. intros g search d d0 d' e O H. unfold Fac_Model.fit. rewrite (opened_touch d d0 O), H. reflexivity. Qed.
Example C74_foreign_ex_main : (forall stem, en_name (file "notes.txt") <> (stem ++ ".log")%string) /\
  Fac_Model.fit (mkGama "nothing" 1 60 6 None) (fun d => (Ok tt, match d with Some l => Some (file "notes.txt" :: l) | None => None end)) (Some [file "gama.log"; mkEntry "cache" true]) =
  (Err (OtherError 4), Some [file "notes.txt"]).
Proof.
  split; [|reflexivity]. intros stem E. simpl in E.
  assert (A : forall a b c : string, ((a ++ b) ++ c)%string = (a ++ (b ++ c))%string) by (induction a; simpl; intros; congruence).
  assert (L : forall s, ends_with "t" (s ++ "g")%string = false).
  { induction s as [|c s IH]; [reflexivity|]. change (String c s ++ "g")%string with (String c (s ++ "g")). cbn [ends_with]. rewrite IH, orb_false_r.
    apply String.eqb_neq. intros K. injection K as _ K. destruct s; discriminate. }
  specialize (L (stem ++ ".lo")%string). rewrite A in L. simpl in L. rewrite <- E in L. discriminate L.
Qed.
Example C74_ex_main : fit_output ex_dir /\
  map (fun store => snd (Fac_Model.fit (mkGama store 1 60 6 None) (fun d => (Ok tt, d)) (Some [file "gama.log"; mkEntry "cache" true; file "evaluations.log"]))) ["nothing"; "logs"; "models"; "all"] =
  [None; Some [file "gama.log"; file "evaluations.log"; file "memory.log"]; Some [mkEntry "cache" true]; Some ex_dir].
Proof.
  split; [|reflexivity]. constructor; [left|constructor; [right; reflexivity|constructor; [left|constructor; [left|constructor]]]]; (split; [reflexivity|]).
  - exists "gama". reflexivity.
  - exists "evaluations". reflexivity.
  - exists "memory". reflexivity.
Qed.

(** C75. If no callback times out (or is interrupted by Ctrl-C), every registered
    callback is called exactly once, in the order of registration, whatever other
    exceptions the callbacks raise, and no exception gets out. *)
Lemma C75_all_called_main : forall C V (behave : C -> V -> call) e ks,
  Forall (fun k => harmless (behave k e)) ks ->
  on_completed behave e (fold_left (fun cs k => register_callback k cs) ks []) = (ks, Ok tt).
Proof. intros C V behave e ks F. rewrite fold_register. apply on_completed_all. exact F. Qed.
(** Otherwise the first callback that does is the last one called, and a
    TimeoutException, or its KeyboardInterrupt, gets out. *)
Lemma C75_timeout_main : forall C V (behave : C -> V -> call) e ks k rest,
  Forall (fun k => harmless (behave k e)) ks -> ~ harmless (behave k e) ->
  exists x, on_completed behave e (fold_left (fun cs k => register_callback k cs) (ks ++ k :: rest) []) = (ks ++ [k], Err x) /\
    (x = TimeoutException \/ x = KeyboardInterrupt /\ c_end (behave k e) = Err KeyboardInterrupt).
Proof. intros C V behave e ks k rest F H. rewrite fold_register. apply on_completed_stop; auto. Qed.
Example C75_ex_main : harmless (mkCall (Err ZeroDivisionError) false) /\ ~ harmless (mkCall (Ok tt) true) /\
  on_completed (fun k (_ : nat) => if k =? 1 then mkCall (Err ZeroDivisionError) false else mkCall (Ok tt) (k =? 3)) 0 [0; 1; 2; 3; 4] = ([0; 1; 2; 3], Err TimeoutException).
Proof. split; [repeat split; discriminate|]. split; [intros (A & _); discriminate|]. reflexivity. Qed.

(** C76. The individual BestFitPostProcessing trains is in the final population and
    no individual of the population has a lexicographically higher fitness. *)
Lemma C76_best_main : forall I (key : I -> list num) pop i,
  (forall j, In j pop -> Forall (fun x => x <> NaN) (key j)) -> best_fit (best_individuals key pop) = Ok i ->
  In i pop /\ forall j, In j pop -> ~ lex_lt (key i) (key j).
Proof. exact @best_max. Qed.
(** There is one unless the final population is empty: then an IndexError. *)
Lemma C76_exists_main : forall I (key : I -> list num) pop,
  (pop = [] -> best_fit (best_individuals key pop) = Err IndexError) /\ (pop <> [] -> exists i, best_fit (best_individuals key pop) = Ok i).
Proof.
  intros I key pop. split; [apply best_empty|]. intros N. destruct (best_fit (best_individuals key pop)) as [i|e] eqn:E; eauto. exfalso. apply N. apply (best_empty key).
  unfold best_fit in *. destruct (best_individuals key pop); [reflexivity|discriminate].
Qed.
(** Post-processing gets the whole population, best first. *)
Lemma C76_sorted_main : forall I (key : I -> list num) pop,
  (forall j, In j pop -> Forall (fun x => x <> NaN) (key j)) ->
  Permutation (best_individuals key pop) pop /\ StronglySorted (fun a b => ~ lex_lt (key a) (key b)) (best_individuals key pop).
Proof. exact @best_sorted. Qed.
Example C76_ex_main : best_individuals (fun p => snd p) [(0, [Fin 1; Fin (-2 # 1)]); (1, [Fin 2; Fin (-3 # 1)]); (2, [NInf; Fin (-1 # 1)]); (3, [Fin 2; Fin (-1 # 1)])]
  = [(3, [Fin 2; Fin (-1 # 1)]); (1, [Fin 2; Fin (-3 # 1)]); (0, [Fin 1; Fin (-2 # 1)]); (2, [NInf; Fin (-1 # 1)])].
Proof. reflexivity. Qed.

(** C77 is false: a fit uses the settings of the instance created last before it,
    whichever instance is fitted, in every session. *)
Lemma C77_last_created_refuted_main : forall es i es' s,
  exists before after, session s (es ++ Fit i :: es') = before ++ (i, newest es (call_init s)) :: after.
Proof. intros es i es' s. eexists _, _. apply session_newest. Qed.
Lemma C77_interfere_refuted_main : forall k0 k1, k0 <> k1 ->
  session Original [New 0 k0; New 1 k1; Fit 0] = [(0, k1)].
Proof. reflexivity. Qed.
(** What holds: an instance's own settings are used if no other was created since. *)
Lemma C77_own_partial_main : forall es i k rest es' s,
  Forall (fun e => match e with New _ _ => False | Fit _ => True end) rest ->
  exists before after, session s (es ++ New i k :: rest ++ Fit i :: es') = before ++ (i, k) :: after /\ length before = length (session s (es ++ New i k :: rest)).
Proof.
  intros es i k rest es' s F. pose proof (session_newest s (es ++ New i k :: rest) es' i) as E. rewrite <- app_assoc in E. simpl in E. rewrite (newest_app es i k rest) in E by exact F.
  eexists _, _. split; [exact E|]. reflexivity.
Qed.
Example C77_ex_main : session Original [New 0 (mkKw 4 None "a"); Fit 0; New 1 (mkKw 1 (Some 100%Z) "b"); Fit 1; Fit 0] =
  [(0, mkKw 4 None "a"); (1, mkKw 1 (Some 100%Z) "b"); (0, mkKw 1 (Some 100%Z) "b")].
Proof. reflexivity. Qed.

(** C101 is false: with store "nothing" every second fit fails, whatever the search
    would do, because the directory is gone. *)
Lemma C101_nothing_refuted_main : forall g search search' d d0 d',
  g_store g = "nothing" -> opened d d0 -> search (Some d0) = (Ok tt, Some d') -> fit_output d' ->
  fst (Fac_Model.fit g search (Some d)) = Ok tt /\
  fst (Fac_Model.fit g search' (snd (Fac_Model.fit g search (Some d)))) = Err FileNotFoundError.
Proof.
  intros g search search' d d0 d' St O S F. rewrite (proj1 (C74_stored_main g search d d0 d' O S F) St). split; reflexivity.
Qed.
(** With store "logs" the stored models are lost: none of the best evaluations of
    any history can give its estimators any more, nor its predictions. *)
Lemma C101_models_lost_refuted_main : forall l0 es r l out t,
  empty_lib l0 -> Forall ordinary es -> distinct es -> saves l0 es r = (l, out) -> In t (top l) ->
  (ev_est (nth_ev (saved out) t) <> [] -> get_estimators l t = Ok (ev_est (nth_ev (saved out) t)) /\ get_estimators (wipe l) t = Err FileNotFoundError) /\
  (forall p, get_predictions l t = Ok (Some p) -> get_predictions (wipe l) t = Err FileNotFoundError).
Proof.
  intros l0 es r l out t H1 H2 H3 H4 T. destruct (C34_top_readable_main l0 es r l out H1 H2 H3 H4) as (A & _). destruct (A t T) as (B & C & D & E). clear A.
  change (obj l t) with (obj (wipe l) t) in D, E. split.
  - intros N. split; [exact B|]. unfold get_estimators in *. rewrite D. change (obj l t) with (obj (wipe l) t) in B. rewrite D in B. destruct (ev_file (obj (wipe l) t)); [reflexivity|]. congruence.
  - intros p Q. unfold get_predictions in *. change (obj l t) with (obj (wipe l) t) in Q. rewrite E in Q |- *. destruct (ev_file (obj (wipe l) t)); [reflexivity|discriminate].
Qed.
(** And new evaluations cannot be saved: while there is room for it, a successful
    evaluation that would have been saved with the directory there raises
    FileNotFoundError and is neither among the best nor looked up. *)
Lemma C101_not_saved_refuted_main : forall l e r l1 r1,
  save l e r = (l1, Ok tt, r1) -> success e -> match l_m l with None => True | Some m => length (top l) < m end ->
  exists l', save_gone l e r = (l', Err FileNotFoundError, r1) /\ top l' = top l /\ l_lookup l' = l_lookup l /\ l_other l' = l_other l.
Proof. exact gone_room. Qed.
(** When there is no room, an evaluation that beats one of the best raises as well:
    one of the best is dropped, and the new one, which is not on disk and cannot be
    looked up, is there in its place. *)
Lemma C101_full_refuted_main : forall l0 es r l out m e r2 l1 r1,
  empty_lib l0 -> Forall ordinary es -> distinct es -> saves l0 es r = (l, out) ->
  save l e r2 = (l1, Ok tt, r1) -> success e -> ordinary e -> l_m l = Some m -> length (top l) = m ->
  (exists t, In t (top l) /\ lex_lt (ev_score (nth_ev (saved out) t)) (ev_score e)) ->
  exists l' worst rest, save_gone l e r2 = (l', Err FileNotFoundError, r1) /\
    Permutation (top l) (worst :: rest) /\ Permutation (top l') (length (saved out) :: rest) /\
    (forall t, In t (top l) -> ~ lex_lt (ev_score (nth_ev (saved out) t)) (ev_score (nth_ev (saved out) worst))) /\
    l_lookup l' = l_lookup l.
Proof. exact gone_full. Qed.
(** A failed evaluation, or one that beats none of the best, is saved as ever. *)
Lemma C101_others_partial_main : forall l0 es r l out e r2,
  empty_lib l0 -> Forall ordinary es -> distinct es -> saves l0 es r = (l, out) -> ordinary e ->
  ~ success e \/ (exists m, l_m l = Some m /\ m <= length (top l) /\ forall t, In t (top l) -> ~ lex_lt (ev_score (nth_ev (saved out) t)) (ev_score e)) ->
  save_gone l e r2 = save l e r2.
Proof. exact gone_others. Qed.
Example C101_full_ex_main : let es := [ex_ev 1 1 None; ex_ev 2 3 None] in let e := ex_ev 4 2 None in
  Forall ordinary es /\ distinct es /\ ordinary e /\ success e /\
  exists l out, saves ex_lib es [0; 1; 0] = (l, out) /\ l_m l = Some 2 /\ length (top l) = 2 /\ In 0 (top l) /\
    (exists l1 r1, save l e [0] = (l1, Ok tt, r1)) /\ lex_lt (ev_score (nth_ev (saved out) 0)) (ev_score e) /\
    top (fst (fst (save_gone l e [0]))) = [2; 1].
Proof.
  cbv zeta. split; [repeat constructor; discriminate|]. split; [repeat constructor; simpl; intuition discriminate|].
  split; [repeat constructor; discriminate|]. split; [reflexivity|].
  eexists _, _. split; [vm_compute; reflexivity|]. split; [reflexivity|]. split; [reflexivity|]. split; [vm_compute; auto|].
  split; [eexists _, _; vm_compute; reflexivity|]. split; [|vm_compute; reflexivity].
  apply tuple_lt_lex; [repeat constructor; discriminate|repeat constructor; discriminate|vm_compute; reflexivity].
Qed.
(** What holds: with "all" and "models" the second fit finds the directory and the
    cache as the first search left it. *)
Lemma C101_again_partial_main : forall g search search' d d0 d',
  g_store g = "all" \/ g_store g = "models" -> opened d d0 -> search (Some d0) = (Ok tt, Some d') -> fit_output d' -> In (mkEntry "cache" true) d' ->
  exists d'', Fac_Model.fit g search (Some d) = (Ok tt, Some d'') /\ In (mkEntry "cache" true) d'' /\
    forall d3 d4, opened d'' d4 -> search' (Some d4) = (Ok tt, Some d3) -> fit_output d3 -> fst (Fac_Model.fit g search' (Some d'')) = Ok tt.
Proof.
  intros g search search' d d0 d' St O S F I. destruct (C74_stored_main g search d d0 d' O S F) as (_ & _ & M & A). destruct St as [St|St].
  - exists d'. split; [apply A; exact St|]. split; [exact I|]. intros d3 d4 O4 S3 F3. destruct (C74_stored_main g search' d' d4 d3 O4 S3 F3) as (_ & _ & _ & A'). rewrite (A' St). reflexivity.
  - destruct (M St) as (d'' & E & J). exists d''. split; [exact E|]. split; [apply J; split; [exact I|reflexivity]|]. intros d3 d4 O4 S3 F3.
    destruct (C74_stored_main g search' d'' d4 d3 O4 S3 F3) as (_ & _ & M' & _). destruct (M' St) as (x & -> & _). reflexivity.
Qed.
Example C101_ex_main : map (fun store => let f := Fac_Model.fit (mkGama store 1 60 6 None) (fun d => (Ok tt, d)) in fst (f (snd (f (Some ex_dir))))) ["nothing"; "logs"; "models"; "all"] =
  [Err FileNotFoundError; Ok tt; Ok tt; Ok tt].
Proof. reflexivity. Qed.

(** C102. After preprocessing, with the time [r] remaining and the fraction [f] for
    post-processing, the search gets (1-f)*r rounded down to whole seconds: never
    negative, never more than what remains; no time at all is a RuntimeError. *)
Lemma C102_search_time_main : forall f r, (0 <= f <= 1)%Q ->
  ((r < 0)%Q -> search_time f r = Err RuntimeError) /\
  ((0 <= r)%Q -> exists t, search_time f r = Ok t /\ (0 <= t)%Z /\ (inject_Z t <= (1 - f) * r)%Q /\ ((1 - f) * r < inject_Z (t + 1))%Q /\
     (inject_Z t + f * r <= r)%Q).
Proof.
  intros f r (F0 & F1). unfold search_time. split; intros R.
  - unfold qltb. replace (Qle_bool 0 r) with false; [reflexivity|]. symmetry. apply not_true_is_false. rewrite Qle_bool_iff. apply Qlt_not_le. exact R.
  - unfold qltb. rewrite (proj2 (Qle_bool_iff 0 r) R). cbn [negb].
    assert (P : (0 <= (1 - f) * r)%Q) by (apply Qmult_le_0_compat; [|exact R]; unfold Qminus; apply (Qplus_le_l _ _ f); ring_simplify; exact F1).
    destruct (py_int_floor _ P) as ((A & B) & C). exists (py_int ((1 - f) * r)). repeat split; auto.
    apply (Qplus_le_l _ _ (f * r)) in A. eapply Qle_trans; [exact A|]. ring_simplify. apply Qle_refl.
Qed.
(** Post-processing then gets what remains, rounded down, if anything does. *)
Lemma C102_post_time_main : forall r, (0 <= r)%Q -> (0 <= post_time r)%Z /\ (inject_Z (post_time r) <= r < inject_Z (post_time r + 1))%Q.
Proof. intros r H. destruct (py_int_floor r H). auto. Qed.
Example C102_ex_main : search_time (3 # 10) (355 # 10) = Ok 24%Z /\ search_time 0 (1 # 2) = Ok 0%Z /\ search_time 0 (-1 # 2) = Err RuntimeError.
Proof. repeat split. Qed.

(** C103. The search starts from the given individuals if there are any, from the
    final population of the previous fit if nothing is given, and from 50 new
    individuals otherwise; a given list with anything else in it is a TypeError. *)
Lemma C103_start_main : forall I (fresh : nat -> I) warm final,
  (forall l, warm = Some (map Some l) -> l <> [] -> start_population warm final fresh = Ok l) /\
  (forall l, warm = Some l -> In None l -> start_population warm final fresh = Err TypeError) /\
  (warm = None -> final <> [] -> start_population warm final fresh = Ok final) /\
  (warm = Some [] \/ warm = None /\ final = [] -> start_population warm final fresh = Ok (map fresh (seq 0 50))).
Proof.
  intros I fresh warm final. assert (G : forall l : list I, rmap (fun o => match o with Some i => Ok i | None => Err TypeError end) (map Some l) = Ok l).
  { induction l as [|x l IH]; [reflexivity|]. cbn [map rmap]. rewrite IH. reflexivity. }
  split; [|split; [|split]].
  - intros l -> N. destruct l as [|x l]; [congruence|]. exact (G (x :: l)).
  - intros l -> H. destruct l as [|x l]; [destruct H|]. unfold start_population. clear G. revert H. generalize (x :: l). clear x l. intros l. induction l as [|[i|] l IH]; intros H; [destruct H| |reflexivity].
    destruct H as [H|H]; [discriminate|]. cbn [rmap]. rewrite (IH H). reflexivity.
  - intros -> N. destruct final; [congruence|reflexivity].
  - intros [->|(-> & ->)]; reflexivity.
Qed.
(** The final population is the output of the search also when the time is up or
    the user presses Ctrl-C; any other error gets out and keeps the one before. *)
Lemma C103_final_main : forall I outcome (output final : list I),
  (outcome = Ok tt \/ outcome = Err TimeoutException \/ outcome = Err KeyboardInterrupt -> search_phase outcome output final = (Ok tt, output)) /\
  (forall e, outcome = Err e -> e <> TimeoutException -> e <> KeyboardInterrupt -> search_phase outcome output final = (Err e, final)).
Proof.
  intros I outcome output final. split; [intros [->|[->| ->]]; reflexivity|]. intros e -> A B. destruct e; try reflexivity; contradiction.
Qed.
Example C103_ex_main : start_population (Some [Some 7; Some 8]) [1] (fun i => i) = Ok [7; 8] /\ start_population (Some [Some 7; None]) [1] (fun i => i) = Err TypeError /\
  start_population None [1] (fun i => i) = Ok [1] /\ (match start_population (Some []) [1] (fun i => i) with Ok l => length l | Err _ => 0 end) = 50.
Proof. repeat split. Qed.

(** C104. A fit that stores pipelines removes exactly the KNN models when there are
    more than 6,000,000 cells, and exactly PolynomialFeatures above 50 columns;
    otherwise every primitive stays. *)
Lemma C104_excluded_main : forall stores rows cols knn poly s k p,
  In p (prims_of (restrict stores rows cols knn poly s) k) <->
  In p (prims_of s k) /\ ~ (stores = true /\ k = "prediction" /\ (6000000 < Z.of_nat rows * Z.of_nat cols)%Z /\ knn p = true)
                     /\ ~ (stores = true /\ k = "data" /\ 50 < cols /\ poly p = true).
Proof. exact restrict_in. Qed.
(** C104 is false over several fits: what one fit excluded stays excluded, also for
    data of any size that would not exclude it. *)
Lemma C104_later_fits_refuted_main : forall rows cols rows' cols' knn poly s p,
  knn p = true -> (6000000 < Z.of_nat rows * Z.of_nat cols)%Z ->
  ~ In p (prims_of (restrict true rows' cols' knn poly (restrict true rows cols knn poly s)) "prediction").
Proof.
  intros rows cols rows' cols' knn poly s p K B H. apply restrict_in in H. destruct H as (H & _). apply restrict_in in H. destruct H as (_ & H & _). apply H. auto.
Qed.
Example C104_ex_main : prims_of (restrict true 1000000 10 is_knn is_poly ex_space) "prediction" = [ex_nb] /\
  prims_of (restrict true 100 60 is_knn is_poly ex_space) "data" = [] /\ prims_of (restrict false 1000000 60 is_knn is_poly ex_space) "prediction" = [ex_knn; ex_nb] /\
  prims_of (restrict true 100 10 is_knn is_poly (restrict true 1000000 10 is_knn is_poly ex_space)) "prediction" = [ex_nb].
Proof.
  repeat split; unfold restrict; cbn [andb]; replace (6000000 <? Z.of_nat 1000000 * Z.of_nat 10)%Z with true by (symmetry; apply Z.ltb_lt; lia); reflexivity.
Qed.

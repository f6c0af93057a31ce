(** Property theorems; proofs in Fac_Main.v. *)
From Verif Require Import Base Num Gp_Model Lib_Model Lib_Spec Lib_Main Eval_Model Fac_Model Fac_Spec.
Require Import Permutation Sorted.
Open Scope string_scope.
Open Scope list_scope.
Open Scope nat_scope.
From Verif Require Import Fac_Main.

(** C71. The constructor raises ValueError exactly for an unknown preset, an output
    directory with something in it, a total time that is missing or not positive,
    an evaluation time that is not positive, a number of jobs that is 0 or below -1
    (or, by default, half of one processor), or a length limit above one in a
    search space without preprocessing steps. *)
Theorem C71_rejected : forall a,
  1 <= a_cpus a -> a_scoring a <> Err ValueError -> a_space a <> Err ValueError ->
  (fst (init a) = Err ValueError <->
   unknown_preset a \/ occupied a \/ bad_total a \/ bad_eval a \/ bad_jobs a \/ (a_scoring a = Ok tt /\ bad_length a)).
Proof. exact C71_rejected_main. Qed.
Print Assumptions C71_rejected.

(** When the times or n_jobs are rejected the output directory is gone. *)
Theorem C71_nothing_left_partial : forall a,
  1 <= a_cpus a -> ~ unknown_preset a -> ~ occupied a -> bad_total a \/ bad_eval a \/ bad_jobs a ->
  init a = (Err ValueError, None).
Proof. exact C71_nothing_left_partial_main. Qed.
Print Assumptions C71_nothing_left_partial.

(** For the other reasons something is left behind: after a rejected length limit or
    search space the directory holds the model cache, and a second attempt with the
    same directory and any other arguments fails. *)
Theorem C71_left_behind_refuted : forall a,
  1 <= a_cpus a -> ~ unknown_preset a -> ~ occupied a -> ~ bad_total a -> ~ bad_eval a -> ~ bad_jobs a ->
  a_scoring a = Ok tt -> bad_length a \/ (exists e, a_space a = Err e) ->
  exists e d, init a = (Err e, Some d) /\ In (mkEntry "cache" true) d /\
    forall a', a_out a' = Some d -> init a' = (Err ValueError, Some d).
Proof. exact C71_left_behind_refuted_main. Qed.
Print Assumptions C71_left_behind_refuted.

(** Otherwise an instance is constructed. *)
Theorem C71_accepted : forall a,
  1 <= a_cpus a -> ~ unknown_preset a -> ~ occupied a -> ~ bad_total a -> ~ bad_eval a -> ~ bad_jobs a ->
  a_scoring a = Ok tt -> (exists h, a_space a = Ok h) -> ~ bad_length a ->
  exists g d, init a = (Ok g, Some d) /\ In (mkEntry "cache" true) d /\ fit_output d /\
    g_store g = a_store a /\ a_total a = Some (g_total g) /\
    (a_space a = Ok true -> g_length g = a_length a) /\
    (a_space a = Ok false -> g_length g = match a_length a with None => Some 1%Z | Some n => Some n end).
Proof. exact C71_accepted_main. Qed.
Print Assumptions C71_accepted.

Example C71_ex : fst (init ex_args) = Ok (mkGama "logs" 2 3600 360 None) /\
  init (with_jobs (Some (-2)%Z) ex_args) = (Err ValueError, None) /\ init (with_total (Some 0%Z) (with_out (Some []) ex_args)) = (Err ValueError, None) /\
  init (with_out (Some [file "notes.txt"]) ex_args) = (Err ValueError, Some [file "notes.txt"]) /\
  init (with_space (Ok false) (Some 3%Z) ex_args) = (Err ValueError, Some [file "gama.log"; mkEntry "cache" true; file "evaluations.log"]).
Proof. exact C71_ex_main. Qed.

(** C72 is false: on a machine with one processor the default is half of it,
    rounded down, and is rejected, whatever the other arguments. *)
Theorem C72_one_cpu_refuted : forall a, a_cpus a = 1 -> a_jobs a = None -> fst (init a) = Err ValueError.
Proof. exact C72_one_cpu_refuted_main. Qed.
Print Assumptions C72_one_cpu_refuted.

(** With two or more processors the default is between 1 and half of them, and
    accepted. *)
Theorem C72_default_jobs_partial : forall a,
  2 <= a_cpus a -> a_jobs a = None -> ~ bad_jobs a /\
  forall g d, init a = (Ok g, d) -> (1 <= g_jobs g)%Z /\ (2 * g_jobs g <= Z.of_nat (a_cpus a) < 2 * g_jobs g + 2)%Z.
Proof. exact C72_default_jobs_partial_main. Qed.
Print Assumptions C72_default_jobs_partial.

(** A number of jobs that is given is used; -1 stands for all processors. *)
Theorem C72_given : forall a g d j, init a = (Ok g, d) -> a_jobs a = Some j ->
  g_jobs g = if (j =? -1)%Z then Z.of_nat (a_cpus a) else j.
Proof. exact C72_given_main. Qed.
Print Assumptions C72_given.

Example C72_ex : g_jobs (match fst (init (with_jobs None ex_args)) with Ok g => g | Err _ => mkGama "" 0 0 0 None end) = 2%Z /\
  g_jobs (match fst (init (with_jobs (Some (-1)%Z) ex_args)) with Ok g => g | Err _ => mkGama "" 0 0 0 None end) = 4%Z.
Proof. exact C72_ex_main. Qed.

(** C73 is false: with a total of one to five seconds the default is 0 seconds
    per evaluation, and evaluating any pipeline under it, at any time, raises. *)
Theorem C73_zero_limit_refuted : forall a g d t,
  init a = (Ok g, d) -> a_eval a = None -> a_total a = Some t -> (t <= 5)%Z ->
  g_eval g = 0%Z /\
  forall E P rows index splits sample fit score predict metrics sub hit steps deadline add_length now start stop,
    evaluate_individual (E := E) (P := P) (evaluate_pipeline rows index splits sample fit score predict metrics sub hit true) steps
      (Fin (inject_Z (g_eval g))) deadline add_length now start stop = Err ValueError.
Proof. exact C73_zero_limit_refuted_main. Qed.
Print Assumptions C73_zero_limit_refuted.

(** From a total of six seconds on the default is at least a second and at most
    the total; a limit that is given is used, up to the total. *)
Theorem C73_default_limit_partial : forall a g d t,
  init a = (Ok g, d) -> a_total a = Some t ->
  (a_eval a = None -> (6 <= t)%Z -> (1 <= g_eval g <= t)%Z) /\
  (forall e, a_eval a = Some e -> g_eval g = Z.min e t /\ (1 <= g_eval g <= t)%Z).
Proof. exact C73_default_limit_partial_main. Qed.
Print Assumptions C73_default_limit_partial.

(** The default is the tenth of the total, to the nearest second, and to the even
    one of two that are equally near. *)
Theorem C73_default_value : forall a g d t,
  init a = (Ok g, d) -> a_total a = Some t -> a_eval a = None ->
  (2 * Z.abs (10 * g_eval g - t) <= 10)%Z /\ ((2 * Z.abs (10 * g_eval g - t) = 10)%Z -> Z.Even (g_eval g)).
Proof. exact C73_default_value_main. Qed.
Print Assumptions C73_default_value.

Example C73_ex : map (fun t => match fst (init (with_total (Some t) ex_args)) with Ok g => g_eval g | Err _ => (-1)%Z end) [1; 5; 6; 15; 25; 3600]%Z = [0; 0; 1; 2; 2; 360]%Z.
Proof. exact C73_ex_main. Qed.

(** C74. If the search has left log files and the model cache in the directory, a
    fit ends without error and leaves: no directory for "nothing", the log files for
    "logs", the cache for "models", everything for "all". *)
Theorem C74_stored : forall g search d d0 d',
  opened d d0 -> search (Some d0) = (Ok tt, Some d') -> fit_output d' ->
  (g_store g = "nothing" -> Fac_Model.fit g search (Some d) = (Ok tt, None)) /\
  (g_store g = "logs" -> exists left, Fac_Model.fit g search (Some d) = (Ok tt, Some left) /\ forall e, In e left <-> In e d' /\ log_entry e) /\
  (g_store g = "models" -> exists left, Fac_Model.fit g search (Some d) = (Ok tt, Some left) /\ forall e, In e left <-> In e d' /\ cache_entry e) /\
  (g_store g = "all" -> Fac_Model.fit g search (Some d) = (Ok tt, Some d')).
Proof. exact C74_stored_main. Qed.
Print Assumptions C74_stored.

(** Another file in the directory is kept, and makes a fit with "nothing" fail at
    its very end; an unknown value of store also fails only then. *)
Theorem C74_foreign : forall g search d d0 d' e,
  opened d d0 -> search (Some d0) = (Ok tt, Some d') -> g_store g = "nothing" ->
  (forall x, In x d' -> log_entry x \/ cache_entry x \/ x = e) -> In e d' -> (forall stem, en_name e <> (stem ++ ".log")%string) -> en_name e <> "cache" ->
  exists left, Fac_Model.fit g search (Some d) = (Err (OtherError 4), Some left) /\ In e left.
Proof. exact C74_foreign_main. Qed.
Print Assumptions C74_foreign.

Theorem C74_unknown_store : forall g search d d0 d',
  opened d d0 -> search (Some d0) = (Ok tt, Some d') ->
  g_store g <> "all" -> g_store g <> "nothing" -> g_store g <> "logs" -> g_store g <> "models" -> Fac_Model.fit g search (Some d) = (Err KeyError, Some d').
Proof. exact C74_unknown_store_main. Qed.
Print Assumptions C74_unknown_store.

(** When the search raises, its error gets out and whatever it left stays, for
    every value of store. *)
Theorem C74_failed_search : forall g search d d0 d' e,
  opened d d0 -> search (Some d0) = (Err e, d') -> Fac_Model.fit g search (Some d) = (Err e, d').
Proof. exact C74_failed_search_main. Qed.
Print Assumptions C74_failed_search.

Example C74_foreign_ex : (forall stem, en_name (file "notes.txt") <> (stem ++ ".log")%string) /\
  Fac_Model.fit (mkGama "nothing" 1 60 6 None) (fun d => (Ok tt, match d with Some l => Some (file "notes.txt" :: l) | None => None end)) (Some [file "gama.log"; mkEntry "cache" true]) =
  (Err (OtherError 4), Some [file "notes.txt"]).
Proof. exact C74_foreign_ex_main. Qed.

Example C74_ex : fit_output ex_dir /\
  map (fun store => snd (Fac_Model.fit (mkGama store 1 60 6 None) (fun d => (Ok tt, d)) (Some [file "gama.log"; mkEntry "cache" true; file "evaluations.log"]))) ["nothing"; "logs"; "models"; "all"] =
  [None; Some [file "gama.log"; file "evaluations.log"; file "memory.log"]; Some [mkEntry "cache" true]; Some ex_dir].
Proof. exact C74_ex_main. Qed.

(** C75. If no callback times out (or is interrupted by Ctrl-C), every registered
    callback is called exactly once, in the order of registration, whatever other
    exceptions the callbacks raise, and no exception gets out. *)
Theorem C75_all_called : forall C V (behave : C -> V -> call) e ks,
  Forall (fun k => harmless (behave k e)) ks ->
  on_completed behave e (fold_left (fun cs k => register_callback k cs) ks []) = (ks, Ok tt).
Proof. exact C75_all_called_main. Qed.
Print Assumptions C75_all_called.

(** Otherwise the first callback that does is the last one called, and a
    TimeoutException, or its KeyboardInterrupt, gets out. *)
Theorem C75_timeout : forall C V (behave : C -> V -> call) e ks k rest,
  Forall (fun k => harmless (behave k e)) ks -> ~ harmless (behave k e) ->
  exists x, on_completed behave e (fold_left (fun cs k => register_callback k cs) (ks ++ k :: rest) []) = (ks ++ [k], Err x) /\
    (x = TimeoutException \/ x = KeyboardInterrupt /\ c_end (behave k e) = Err KeyboardInterrupt).
Proof. exact C75_timeout_main. Qed.
Print Assumptions C75_timeout.

Example C75_ex : harmless (mkCall (Err ZeroDivisionError) false) /\ ~ harmless (mkCall (Ok tt) true) /\
  on_completed (fun k (_ : nat) => if k =? 1 then mkCall (Err ZeroDivisionError) false else mkCall (Ok tt) (k =? 3)) 0 [0; 1; 2; 3; 4] = ([0; 1; 2; 3], Err TimeoutException).
Proof. exact C75_ex_main. Qed.

(** C76. The individual BestFitPostProcessing trains is in the final population and
    no individual of the population has a lexicographically higher fitness. *)
Theorem C76_best : forall I (key : I -> list num) pop i,
  (forall j, In j pop -> Forall (fun x => x <> NaN) (key j)) -> best_fit (best_individuals key pop) = Ok i ->
  In i pop /\ forall j, In j pop -> ~ lex_lt (key i) (key j).
Proof. exact C76_best_main. Qed.
Print Assumptions C76_best.

(** There is one unless the final population is empty: then an IndexError. *)
Theorem C76_exists : forall I (key : I -> list num) pop,
  (pop = [] -> best_fit (best_individuals key pop) = Err IndexError) /\ (pop <> [] -> exists i, best_fit (best_individuals key pop) = Ok i).
Proof. exact C76_exists_main. Qed.
Print Assumptions C76_exists.

(** Post-processing gets the whole population, best first. *)
Theorem C76_sorted : forall I (key : I -> list num) pop,
  (forall j, In j pop -> Forall (fun x => x <> NaN) (key j)) ->
  Permutation (best_individuals key pop) pop /\ StronglySorted (fun a b => ~ lex_lt (key a) (key b)) (best_individuals key pop).
Proof. exact C76_sorted_main. Qed.
Print Assumptions C76_sorted.

Example C76_ex : best_individuals (fun p => snd p) [(0, [Fin 1; Fin (-2 # 1)]); (1, [Fin 2; Fin (-3 # 1)]); (2, [NInf; Fin (-1 # 1)]); (3, [Fin 2; Fin (-1 # 1)])]
  = [(3, [Fin 2; Fin (-1 # 1)]); (1, [Fin 2; Fin (-3 # 1)]); (0, [Fin 1; Fin (-2 # 1)]); (2, [NInf; Fin (-1 # 1)])].
Proof. exact C76_ex_main. Qed.

(** C77 is false: a fit uses the settings of the instance created last before it,
    whichever instance is fitted, in every session. *)
Theorem C77_last_created_refuted : forall es i es' s,
  exists before after, session s (es ++ Fit i :: es') = before ++ (i, newest es (call_init s)) :: after.
Proof. exact C77_last_created_refuted_main. Qed.
Print Assumptions C77_last_created_refuted.

Theorem C77_interfere_refuted : forall k0 k1, k0 <> k1 ->
  session Original [New 0 k0; New 1 k1; Fit 0] = [(0, k1)].
Proof. exact C77_interfere_refuted_main. Qed.
Print Assumptions C77_interfere_refuted.

(** What holds: an instance's own settings are used if no other was created since. *)
Theorem C77_own_partial : forall es i k rest es' s,
  Forall (fun e => match e with New _ _ => False | Fit _ => True end) rest ->
  exists before after, session s (es ++ New i k :: rest ++ Fit i :: es') = before ++ (i, k) :: after /\ length before = length (session s (es ++ New i k :: rest)).
Proof. exact C77_own_partial_main. Qed.
Print Assumptions C77_own_partial.

Example C77_ex : session Original [New 0 (mkKw 4 None "a"); Fit 0; New 1 (mkKw 1 (Some 100%Z) "b"); Fit 1; Fit 0] =
  [(0, mkKw 4 None "a"); (1, mkKw 1 (Some 100%Z) "b"); (0, mkKw 1 (Some 100%Z) "b")].
Proof. exact C77_ex_main. Qed.

(** C101 is false: with store "nothing" every second fit fails, whatever the search
    would do, because the directory is gone. *)
Theorem C101_nothing_refuted : forall g search search' d d0 d',
  g_store g = "nothing" -> opened d d0 -> search (Some d0) = (Ok tt, Some d') -> fit_output d' ->
  fst (Fac_Model.fit g search (Some d)) = Ok tt /\
  fst (Fac_Model.fit g search' (snd (Fac_Model.fit g search (Some d)))) = Err FileNotFoundError.
Proof. exact C101_nothing_refuted_main. Qed.
Print Assumptions C101_nothing_refuted.

(** With store "logs" the stored models are lost: none of the best evaluations of
    any history can give its estimators any more, nor its predictions. *)
Theorem C101_models_lost_refuted : forall l0 es r l out t,
  empty_lib l0 -> Forall ordinary es -> distinct es -> saves l0 es r = (l, out) -> In t (top l) ->
  (ev_est (nth_ev (saved out) t) <> [] -> get_estimators l t = Ok (ev_est (nth_ev (saved out) t)) /\ get_estimators (wipe l) t = Err FileNotFoundError) /\
  (forall p, get_predictions l t = Ok (Some p) -> get_predictions (wipe l) t = Err FileNotFoundError).
Proof. exact C101_models_lost_refuted_main. Qed.
Print Assumptions C101_models_lost_refuted.

(** And new evaluations cannot be saved: while there is room for it, a successful
    evaluation that would have been saved with the directory there raises
    FileNotFoundError and is neither among the best nor looked up. *)
Theorem C101_not_saved_refuted : forall l e r l1 r1,
  save l e r = (l1, Ok tt, r1) -> success e -> match l_m l with None => True | Some m => length (top l) < m end ->
  exists l', save_gone l e r = (l', Err FileNotFoundError, r1) /\ top l' = top l /\ l_lookup l' = l_lookup l /\ l_other l' = l_other l.
Proof. exact C101_not_saved_refuted_main. Qed.
Print Assumptions C101_not_saved_refuted.

(** When there is no room, an evaluation that beats one of the best raises as well:
    one of the best is dropped, and the new one, which is not on disk and cannot be
    looked up, is there in its place. *)
Theorem C101_full_refuted : forall l0 es r l out m e r2 l1 r1,
  empty_lib l0 -> Forall ordinary es -> distinct es -> saves l0 es r = (l, out) ->
  save l e r2 = (l1, Ok tt, r1) -> success e -> ordinary e -> l_m l = Some m -> length (top l) = m ->
  (exists t, In t (top l) /\ lex_lt (ev_score (nth_ev (saved out) t)) (ev_score e)) ->
  exists l' worst rest, save_gone l e r2 = (l', Err FileNotFoundError, r1) /\
    Permutation (top l) (worst :: rest) /\ Permutation (top l') (length (saved out) :: rest) /\
    (forall t, In t (top l) -> ~ lex_lt (ev_score (nth_ev (saved out) t)) (ev_score (nth_ev (saved out) worst))) /\
    l_lookup l' = l_lookup l.
Proof. exact C101_full_refuted_main. Qed.
Print Assumptions C101_full_refuted.

(** A failed evaluation, or one that beats none of the best, is saved as ever. *)
Theorem C101_others_partial : forall l0 es r l out e r2,
  empty_lib l0 -> Forall ordinary es -> distinct es -> saves l0 es r = (l, out) -> ordinary e ->
  ~ success e \/ (exists m, l_m l = Some m /\ m <= length (top l) /\ forall t, In t (top l) -> ~ lex_lt (ev_score (nth_ev (saved out) t)) (ev_score e)) ->
  save_gone l e r2 = save l e r2.
Proof. exact C101_others_partial_main. Qed.
Print Assumptions C101_others_partial.

Example C101_full_ex : let es := [ex_ev 1 1 None; ex_ev 2 3 None] in let e := ex_ev 4 2 None in
  Forall ordinary es /\ distinct es /\ ordinary e /\ success e /\
  exists l out, saves ex_lib es [0; 1; 0] = (l, out) /\ l_m l = Some 2 /\ length (top l) = 2 /\ In 0 (top l) /\
    (exists l1 r1, save l e [0] = (l1, Ok tt, r1)) /\ lex_lt (ev_score (nth_ev (saved out) 0)) (ev_score e) /\
    top (fst (fst (save_gone l e [0]))) = [2; 1].
Proof. exact C101_full_ex_main. Qed.

(** What holds: with "all" and "models" the second fit finds the directory and the
    cache as the first search left it. *)
Theorem C101_again_partial : forall g search search' d d0 d',
  g_store g = "all" \/ g_store g = "models" -> opened d d0 -> search (Some d0) = (Ok tt, Some d') -> fit_output d' -> In (mkEntry "cache" true) d' ->
  exists d'', Fac_Model.fit g search (Some d) = (Ok tt, Some d'') /\ In (mkEntry "cache" true) d'' /\
    forall d3 d4, opened d'' d4 -> search' (Some d4) = (Ok tt, Some d3) -> fit_output d3 -> fst (Fac_Model.fit g search' (Some d'')) = Ok tt.
Proof. exact C101_again_partial_main. Qed.
Print Assumptions C101_again_partial.

Example C101_ex : map (fun store => let f := Fac_Model.fit (mkGama store 1 60 6 None) (fun d => (Ok tt, d)) in fst (f (snd (f (Some ex_dir))))) ["nothing"; "logs"; "models"; "all"] =
  [Err FileNotFoundError; Ok tt; Ok tt; Ok tt].
Proof. exact C101_ex_main. Qed.

(** C102. After preprocessing, with the time [r] remaining and the fraction [f] for
    post-processing, the search gets (1-f)*r rounded down to whole seconds: never
    negative, never more than what remains; no time at all is a RuntimeError. *)
Theorem C102_search_time : forall f r, (0 <= f <= 1)%Q ->
  ((r < 0)%Q -> search_time f r = Err RuntimeError) /\
  ((0 <= r)%Q -> exists t, search_time f r = Ok t /\ (0 <= t)%Z /\ (inject_Z t <= (1 - f) * r)%Q /\ ((1 - f) * r < inject_Z (t + 1))%Q /\
     (inject_Z t + f * r <= r)%Q).
Proof. exact C102_search_time_main. Qed.
Print Assumptions C102_search_time.

(** Post-processing then gets what remains, rounded down, if anything does. *)
Theorem C102_post_time : forall r, (0 <= r)%Q -> (0 <= post_time r)%Z /\ (inject_Z (post_time r) <= r < inject_Z (post_time r + 1))%Q.
Proof. exact C102_post_time_main. Qed.
Print Assumptions C102_post_time.

Example C102_ex : search_time (3 # 10) (355 # 10) = Ok 24%Z /\ search_time 0 (1 # 2) = Ok 0%Z /\ search_time 0 (-1 # 2) = Err RuntimeError.
Proof. exact C102_ex_main. Qed.

(** C103. The search starts from the given individuals if there are any, from the
    final population of the previous fit if nothing is given, and from 50 new
    individuals otherwise; a given list with anything else in it is a TypeError. *)
Theorem C103_start : forall I (fresh : nat -> I) warm final,
  (forall l, warm = Some (map Some l) -> l <> [] -> start_population warm final fresh = Ok l) /\
  (forall l, warm = Some l -> In None l -> start_population warm final fresh = Err TypeError) /\
  (warm = None -> final <> [] -> start_population warm final fresh = Ok final) /\
  (warm = Some [] \/ warm = None /\ final = [] -> start_population warm final fresh = Ok (map fresh (seq 0 50))).
Proof. exact C103_start_main. Qed.
Print Assumptions C103_start.

(** The final population is the output of the search also when the time is up or
    the user presses Ctrl-C; any other error gets out and keeps the one before. *)
Theorem C103_final : forall I outcome (output final : list I),
  (outcome = Ok tt \/ outcome = Err TimeoutException \/ outcome = Err KeyboardInterrupt -> search_phase outcome output final = (Ok tt, output)) /\
  (forall e, outcome = Err e -> e <> TimeoutException -> e <> KeyboardInterrupt -> search_phase outcome output final = (Err e, final)).
Proof. exact C103_final_main. Qed.
Print Assumptions C103_final.

Example C103_ex : start_population (Some [Some 7; Some 8]) [1] (fun i => i) = Ok [7; 8] /\ start_population (Some [Some 7; None]) [1] (fun i => i) = Err TypeError /\
  start_population None [1] (fun i => i) = Ok [1] /\ (match start_population (Some []) [1] (fun i => i) with Ok l => length l | Err _ => 0 end) = 50.
Proof. exact C103_ex_main. Qed.

(** C104. A fit that stores pipelines removes exactly the KNN models when there are
    more than 6,000,000 cells, and exactly PolynomialFeatures above 50 columns;
    otherwise every primitive stays. *)
Theorem C104_excluded : forall stores rows cols knn poly s k p,
  In p (prims_of (restrict stores rows cols knn poly s) k) <->
  In p (prims_of s k) /\ ~ (stores = true /\ k = "prediction" /\ (6000000 < Z.of_nat rows * Z.of_nat cols)%Z /\ knn p = true)
                     /\ ~ (stores = true /\ k = "data" /\ 50 < cols /\ poly p = true).
Proof. exact C104_excluded_main. Qed.
Print Assumptions C104_excluded.

(** C104 is false over several fits: what one fit excluded stays excluded, also for
    data of any size that would not exclude it. *)
Theorem C104_later_fits_refuted : forall rows cols rows' cols' knn poly s p,
  knn p = true -> (6000000 < Z.of_nat rows * Z.of_nat cols)%Z ->
  ~ In p (prims_of (restrict true rows' cols' knn poly (restrict true rows cols knn poly s)) "prediction").
Proof. exact C104_later_fits_refuted_main. Qed.
Print Assumptions C104_later_fits_refuted.

Example C104_ex : prims_of (restrict true 1000000 10 is_knn is_poly ex_space) "prediction" = [ex_nb] /\
  prims_of (restrict true 100 60 is_knn is_poly ex_space) "data" = [] /\ prims_of (restrict false 1000000 60 is_knn is_poly ex_space) "prediction" = [ex_knn; ex_nb] /\
  prims_of (restrict true 100 10 is_knn is_poly (restrict true 1000000 10 is_knn is_poly ex_space)) "prediction" = [ex_nb].
Proof. exact C104_ex_main. Qed.

(** Property theorems; proofs in Done_Main.v. *)
Require Import ZArith QArith Qcanon.
From Verif Require Import Base Num Lib_Spec Data_Model Data_Spec Gp_Model Gp_Spec Gp_Examples Eval_Model Evo_Model Evo_Spec Rnd_Model Rnd_Spec End_Model End_Spec Pred_Model Fit_Model Fit_Spec Proc_Spec Whole_Model Whole_Spec Done_Spec.
From Verif Require Async_Model Sys_Model Proc_Model Sys_Main Again_Main Whole_Main Live_Main.
Open Scope string_scope.
Open Scope nat_scope.
Open Scope list_scope.
From Verif Require Import Done_Main.

(** C173.  fit with random search returns: its arguments are accepted, pipelines can be made
    from the search space, estimators can be built and trained; the workers get so many turns
    that the first candidates can be submitted, and more rounds than there are failing
    evaluations. *)
Theorem C173_random :
  forall E (build : nat -> list (string * value) -> res E) estimator train rate fit_transform fitted knn poly takes_labels max_n max_length n log defaults g e xe y r g' candidates failing,
  accepted rate fit_transform (this_call build estimator train (RandomSearch max_n) max_length n log defaults e) g xe y ->
  ready (i_pset g') max_length e g -> pset_rich (i_pset g') -> allows_one max_length ->
  (forall c kwargs, exists x, build c kwargs = Ok x) -> (forall made x y, exists m, train made x y = Ok m) ->
  (match max_n with Some m => (0 < m)%Z | None => True end) -> 0 < n ->
  (forall labels deadline, yields (e_call e xe y labels deadline) defaults failing) ->
  (forall pop, started_from (this_call build estimator train (RandomSearch max_n) max_length n log defaults e) g (i_pset g') pop -> length pop <= candidates) ->
  long_enough n candidates (length failing) (e_plan e) ->
  fit rate fit_transform fitted knn poly fitness_of takes_labels (this_call build estimator train (RandomSearch max_n) max_length n log defaults e) g = (r, g') ->
  exists v, r = Ok v.
Proof. exact C173_random_main. Qed.
Print Assumptions C173_random.

(** C173: ASHA, which submits eight pipelines at first. *)
Theorem C173_asha :
  forall E (build : nat -> list (string * value) -> res E) estimator train rate fit_transform fitted knn poly takes_labels eta first_rung max_rung max_full max_length n log defaults g e xe y r g' failing,
  accepted rate fit_transform (this_call build estimator train (Halving eta first_rung max_rung max_full) max_length n log defaults e) g xe y ->
  ready (i_pset g') max_length e g -> pset_rich (i_pset g') -> allows_one max_length -> (Z.of_nat first_rung <= max_rung)%Z -> (forall k, e_scores e k <> []) ->
  (forall c kwargs, exists x, build c kwargs = Ok x) -> (forall made x y, exists m, train made x y = Ok m) ->
  (match max_full with None => True | Some m => (0 < m)%Z end) -> 0 < n ->
  (forall labels deadline, yields (e_call e xe y labels deadline) defaults failing) ->
  long_enough n 8 (length failing) (e_plan e) ->
  fit rate fit_transform fitted knn poly fitness_of takes_labels (this_call build estimator train (Halving eta first_rung max_rung max_full) max_length n log defaults e) g = (r, g') ->
  exists v, r = Ok v.
Proof. exact C173_asha_main. Qed.
Print Assumptions C173_asha.

(** C173: the evolutionary search without restarts, where the exceptions of C160 remain possible: the
    ValueError of selecting from fewer than three pipelines; with single scores, or a limit of one step, an
    IndexError; with a limit of three or more steps an AttributeError or a ValueError.  Missing: restarts. *)
Theorem C173_evolutionary_partial :
  forall E (build : nat -> list (string * value) -> res E) estimator train rate fit_transform fitted knn poly takes_labels max_retry pop_size max_n max_length n log defaults g e xe y r g' k candidates failing,
  accepted rate fit_transform (this_call build estimator train (Evolution max_retry pop_size max_n false) max_length n log defaults e) g xe y ->
  ready (i_pset g') max_length e g -> pset_typed (i_pset g') -> pset_rich (i_pset g') -> allows_one max_length -> 0 < max_retry ->
  (forall j, length (e_scores e j) = k) ->
  (forall c kwargs, exists x, build c kwargs = Ok x) -> (forall made x y, exists m, train made x y = Ok m) ->
  (match max_n with Some m => (Z.of_nat (length failing) < m)%Z | None => True end) -> 0 < pop_size -> 0 < n ->
  (forall labels deadline, succeeds (e_call e xe y labels deadline) defaults failing) ->
  (forall pop, started_from (this_call build estimator train (Evolution max_retry pop_size max_n false) max_length n log defaults e) g (i_pset g') pop -> length pop <= candidates) ->
  long_enough n candidates (length failing) (e_plan e) ->
  fit rate fit_transform fitted knn poly fitness_of takes_labels (this_call build estimator train (Evolution max_retry pop_size max_n false) max_length n log defaults e) g = (r, g') ->
  (exists v, r = Ok v) \/ r = Err ValueError \/
  (r = Err IndexError /\ (k < 2 \/ max_length = Some 1%Z)) \/
  (r = Err AttributeError /\ exists limit, max_length = Some limit /\ (3 <= limit)%Z).
Proof. exact C173_evolutionary_partial_main. Qed.
Print Assumptions C173_evolutionary_partial.

Example C173_ex :
  (forall how ml k, (exists xe y, accepted 1 ex_ft (this_call Whole_Main.ex_made Whole_Main.ex_estimator Whole_Main.ex_trained how ml 2 true [] (ex_rounds k)) (Whole_Main.ex_object false) xe y) /\
     ready ex_ps ml (ex_rounds k) (Whole_Main.ex_object false)) /\
  (forall how k space pop, started_from (this_call Whole_Main.ex_made Whole_Main.ex_estimator Whole_Main.ex_trained how (Some 2%Z) 2 true [] (ex_rounds k)) (Whole_Main.ex_object false) space pop -> length pop <= 50) /\
  (forall k, long_enough 2 50 k (ex_turns (S k))) /\ yields Again_Main.steady_call [] [] /\ succeeds Again_Main.steady_call [] [] /\
  (forall how k, In how [RandomSearch None; RandomSearch (Some 1%Z); Halving 3 0 2%Z (Some 1%Z); Evolution 50 50 None false] -> In k [0; 1] -> i_pset (snd (ex_done how k)) = ex_ps) /\
  (forall how, In how [RandomSearch None; RandomSearch (Some 1%Z); Halving 3 0 2%Z (Some 1%Z); Evolution 50 50 None false] -> fst (ex_done how 1) = Ok Self) /\
  fst (ex_done (RandomSearch None) 0) = Err IndexError.
Proof. exact C173_ex_main. Qed.

(** C173 is false for the evolutionary search with restarts: a restart forgets all pipelines found
    so far, and when no result arrives after it fit fails, although workers delivered results. *)
Theorem C173_restart_refuted :
  ~ (forall E (build : nat -> list (string * value) -> res E) estimator train rate fit_transform fitted knn poly takes_labels max_retry pop_size restart max_length n log defaults g e xe y r g' k candidates failing,
     accepted rate fit_transform (this_call build estimator train (Evolution max_retry pop_size None restart) max_length n log defaults e) g xe y ->
     ready (i_pset g') max_length e g -> pset_typed (i_pset g') -> pset_rich (i_pset g') -> roomy (i_pset g') max_length -> 0 < max_retry ->
     2 <= k -> (forall j, length (e_scores e j) = k) ->
     (forall c kwargs, exists x, build c kwargs = Ok x) -> (forall made x y, exists m, train made x y = Ok m) ->
     0 < pop_size -> 0 < n ->
     (forall labels deadline, succeeds (e_call e xe y labels deadline) defaults failing) ->
     (forall pop, started_from (this_call build estimator train (Evolution max_retry pop_size None restart) max_length n log defaults e) g (i_pset g') pop -> length pop <= candidates) ->
     long_enough n candidates (length failing) (e_plan e) ->
     fit rate fit_transform fitted knn poly fitness_of takes_labels (this_call build estimator train (Evolution max_retry pop_size None restart) max_length n log defaults e) g = (r, g') ->
     (exists v, r = Ok v) \/ r = Err ValueError).
Proof. exact C173_restart_refuted_main. Qed.
Print Assumptions C173_restart_refuted.

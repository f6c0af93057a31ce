(** Property theorems; proofs in Long_Main.v. *)
Require Import ZArith QArith Qcanon.
From Verif Require Import Base Num Lib_Spec Data_Model Data_Spec Gp_Model Gp_Spec Gp_Examples Eval_Model Evo_Model Evo_Spec Rnd_Model Rnd_Spec End_Model End_Spec Pred_Model Fit_Model Fit_Spec Proc_Spec Whole_Model Whole_Spec Later_Spec Long_Spec.
From Verif Require Async_Model Sys_Model Sys_Main Proc_Model Whole_Main Later_Main.
Import Whole_Main.
Open Scope string_scope.
Open Scope nat_scope.
Open Scope list_scope.
From Verif Require Import Long_Main.

(** C181: two calls of fit with random search, of the same object and with the same arguments; in the
    second the workers get to do more before the search is stopped.  Search space, fixed steps,
    training rows and start of the search are the same; what the first found are the first of
    those the second found, and each answers with the model of the best of what it found. *)
Theorem C181_more_time :
  forall E (build : nat -> list (string * value) -> res E) estimator train rate fit_transform fitted knn poly takes_labels max_n max_length n log defaults g e later r1 g1 r2 g2,
  history rate fit_transform fitted knn poly fitness_of takes_labels g ->
  ready (i_pset g1) max_length e g -> clear_names (i_pset g1) -> (forall k, Forall (fun x => x <> NaN) (e_scores e k)) ->
  let fitting := this_call build estimator train (RandomSearch max_n) max_length n log defaults in
  fit rate fit_transform fitted knn poly fitness_of takes_labels (fitting e) g = (Ok r1, g1) ->
  fit rate fit_transform fitted knn poly fitness_of takes_labels (fitting (given_longer e later)) g = (Ok r2, g2) ->
  i_pset g2 = i_pset g1 /\ i_extension g2 = i_extension g1 /\
  exists pop xe y objects1 found1 objects2 found2,
    started_from (fitting e) g (i_pset g1) pop /\
    model_of build estimator train fit_transform fitted (fitting e) g g1 max_length xe y objects1 found1 (own_steps pop (i_extension g1)) /\
    model_of build estimator train fit_transform fitted (fitting (given_longer e later)) g g2 max_length xe y objects2 found2 (own_steps pop (i_extension g1)) /\
    map fitness_of (i_final g1) = map (fun m => Some (m_fit m)) found1 /\ map fitness_of (i_final g2) = map (fun m => Some (m_fit m)) found2 /\
    prefix found1 found2.
Proof. exact C181_more_time_main. Qed.
Print Assumptions C181_more_time.

(** C181: the same for a higher limit on the number of evaluations. *)
Theorem C181_higher_limit :
  forall E (build : nat -> list (string * value) -> res E) estimator train rate fit_transform fitted knn poly takes_labels max_n max_n' max_length n log defaults g e r1 g1 r2 g2,
  history rate fit_transform fitted knn poly fitness_of takes_labels g ->
  ready (i_pset g1) max_length e g -> clear_names (i_pset g1) -> (forall k, Forall (fun x => x <> NaN) (e_scores e k)) -> no_lower max_n max_n' ->
  let fitting limit := this_call build estimator train (RandomSearch limit) max_length n log defaults e in
  fit rate fit_transform fitted knn poly fitness_of takes_labels (fitting max_n) g = (Ok r1, g1) ->
  fit rate fit_transform fitted knn poly fitness_of takes_labels (fitting max_n') g = (Ok r2, g2) ->
  i_pset g2 = i_pset g1 /\ i_extension g2 = i_extension g1 /\
  exists pop xe y objects1 found1 objects2 found2,
    started_from (fitting max_n) g (i_pset g1) pop /\
    model_of build estimator train fit_transform fitted (fitting max_n) g g1 max_length xe y objects1 found1 (own_steps pop (i_extension g1)) /\
    model_of build estimator train fit_transform fitted (fitting max_n') g g2 max_length xe y objects2 found2 (own_steps pop (i_extension g1)) /\
    map fitness_of (i_final g1) = map (fun m => Some (m_fit m)) found1 /\ map fitness_of (i_final g2) = map (fun m => Some (m_fit m)) found2 /\
    prefix found1 found2.
Proof. exact C181_higher_limit_main. Qed.
Print Assumptions C181_higher_limit.

(** C181: and where the first call returned, so does the second, if estimators can be made and
    trained. *)
Theorem C181_more_time_returns :
  forall E (build : nat -> list (string * value) -> res E) estimator train rate fit_transform fitted knn poly takes_labels max_n max_length n log defaults g e later r1 g1 r2 g2,
  ready (i_pset g1) max_length e g -> pset_rich (i_pset g1) -> allows_one max_length ->
  (forall c kwargs, exists x, build c kwargs = Ok x) -> (forall made x y, exists m, train made x y = Ok m) ->
  let fitting := this_call build estimator train (RandomSearch max_n) max_length n log defaults in
  fit rate fit_transform fitted knn poly fitness_of takes_labels (fitting e) g = (Ok r1, g1) ->
  fit rate fit_transform fitted knn poly fitness_of takes_labels (fitting (given_longer e later)) g = (r2, g2) ->
  exists v, r2 = Ok v.
Proof. exact C181_more_time_returns_main. Qed.
Print Assumptions C181_more_time_returns.

Theorem C181_higher_limit_returns :
  forall E (build : nat -> list (string * value) -> res E) estimator train rate fit_transform fitted knn poly takes_labels max_n max_n' max_length n log defaults g e r1 g1 r2 g2,
  ready (i_pset g1) max_length e g -> pset_rich (i_pset g1) -> allows_one max_length ->
  (forall c kwargs, exists x, build c kwargs = Ok x) -> (forall made x y, exists m, train made x y = Ok m) -> no_lower max_n max_n' ->
  let fitting limit := this_call build estimator train (RandomSearch limit) max_length n log defaults e in
  fit rate fit_transform fitted knn poly fitness_of takes_labels (fitting max_n) g = (Ok r1, g1) ->
  fit rate fit_transform fitted knn poly fitness_of takes_labels (fitting max_n') g = (r2, g2) ->
  exists v, r2 = Ok v.
Proof. exact C181_higher_limit_returns_main. Qed.
Print Assumptions C181_higher_limit_returns.

Example C181_ex :
  history 1 ex_ft ex_fitted no_prim ex_poly fitness_of true (ex_object false) /\ ready ex_ps (Some 3%Z) ex_short (ex_object false) /\
  pset_rich ex_ps /\ allows_one (Some 3%Z) /\ (forall c kwargs, exists x, ex_made c kwargs = Ok x) /\ (forall made x y, exists m, ex_trained made x y = Ok m) /\
  clear_names ex_ps /\ (forall k, Forall (fun x => x <> NaN) (e_scores ex_short k)) /\ no_lower (Some 1%Z) (Some 3%Z) /\
  fst (ex_fits None ex_short) = Ok Self /\ i_pset (snd (ex_fits None ex_short)) = ex_ps /\ length (i_final (snd (ex_fits None ex_short))) = 1 /\
  fst (ex_fits None (given_longer ex_short ex_later)) = Ok Self /\ length (i_final (snd (ex_fits None (given_longer ex_short ex_later)))) = 4 /\
  ex_asked (snd (ex_fits None ex_short)) = Ok (map ex_label [100; 100; 3; 1]) /\ ex_asked (snd (ex_fits None (given_longer ex_short ex_later))) = Ok (map ex_label [100; 100; 3; 0]) /\
  fst (ex_fits (Some 1%Z) few) = Ok Self /\ length (i_final (snd (ex_fits (Some 1%Z) few))) = 1 /\
  fst (ex_fits (Some 3%Z) few) = Ok Self /\ length (i_final (snd (ex_fits (Some 3%Z) few))) = 3.
Proof. exact C181_ex_main. Qed.

Theorem C179_fit_asha_refuted :
  exists (build : nat -> list (string * value) -> res nat) estimator train rate fit_transform fitted knn poly takes_labels eta first_rung max_rung max_full max_length n log defaults g e later r1 g1 r2 g2 o1,
  history rate fit_transform fitted knn poly fitness_of takes_labels g /\ ready (i_pset g1) max_length e g /\ pset_rich (i_pset g1) /\ allows_one max_length /\
  (Z.of_nat first_rung <= max_rung)%Z /\ (forall k, e_scores e k <> []) /\ clear_names (i_pset g1) /\ (forall k, Forall (fun x => x <> NaN) (e_scores e k)) /\
  (let fitting := this_call build estimator train (Halving eta first_rung max_rung max_full) max_length n log defaults in
   fit rate fit_transform fitted knn poly fitness_of takes_labels (fitting e) g = (Ok r1, g1) /\
   fit rate fit_transform fitted knn poly fitness_of takes_labels (fitting (given_longer e later)) g = (Ok r2, g2)) /\
  In o1 (i_final g1) /\ i_final g2 <> [] /\
  exists v1, fitness_of o1 = Some v1 /\ forall o2, In o2 (i_final g2) -> exists v2, fitness_of o2 = Some v2 /\ lex_lt v2 v1.
Proof. exact C179_fit_asha_refuted_main. Qed.
Print Assumptions C179_fit_asha_refuted.

Theorem C179_fit_evolutionary_refuted :
  exists (build : nat -> list (string * value) -> res nat) estimator train rate fit_transform fitted knn poly takes_labels max_retry pop_size n log defaults g e later r1 g1 r2 g2 o1,
  history rate fit_transform fitted knn poly fitness_of takes_labels g /\ ready (i_pset g1) None e g /\ pset_typed (i_pset g1) /\ pset_rich (i_pset g1) /\
  0 < max_retry /\ 3 <= pop_size /\ clear_names (i_pset g1) /\ (forall k, Forall (fun x => x <> NaN) (e_scores e k)) /\
  (let fitting := this_call build estimator train (Evolution max_retry pop_size None false) None n log defaults in
   fit rate fit_transform fitted knn poly fitness_of takes_labels (fitting e) g = (Ok r1, g1) /\
   fit rate fit_transform fitted knn poly fitness_of takes_labels (fitting (given_longer e later)) g = (Ok r2, g2)) /\
  In o1 (i_final g1) /\ i_final g2 <> [] /\
  exists v1, fitness_of o1 = Some v1 /\ forall o2, In o2 (i_final g2) -> exists v2, fitness_of o2 = Some v2 /\ lex_lt v2 v1.
Proof. exact C179_fit_evolutionary_refuted_main. Qed.
Print Assumptions C179_fit_evolutionary_refuted.

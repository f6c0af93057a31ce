(** C181: fit with more time, or with a higher limit on the number of evaluations. *)
(*IMPORTS*)
Require Import ZArith QArith Qcanon.
From Verif Require Import Base Num Lib_Spec Data_Model Data_Spec Gp_Model Gp_Spec Gp_Examples Eval_Model Evo_Model Evo_Spec Rnd_Model Rnd_Spec End_Model End_Spec Pred_Model Fit_Model Fit_Spec Proc_Spec Whole_Model Whole_Spec Later_Spec Long_Spec.
From Verif Require Async_Model Sys_Model Sys_Main Proc_Model Whole_Main Later_Main.
Import Whole_Main.
Open Scope string_scope.
Open Scope nat_scope.
Open Scope list_scope.
(*END*)
Require Import Lia.
From Verif Require Import Whole_Proofs Whole_Proofs2 Whole_Proofs3 Whole_Proofs4 Long_Proofs Long_Proofs2.
From Verif Require Fac_Model Proc_Main End_Main More_Main.

Section Two.
Context {E : Type} (build : nat -> list (string * value) -> res E) (estimator : enc_step -> string * E) (train : list (string * E) -> frame -> yout -> res model)
  (rate : positive) (ft : enc_step -> frame -> res frame) (fitted : list enc_step -> frame -> frame -> res frame) (knn poly : primitive -> bool) (tl : bool)
  (ml : option Z) (n : nat) (log : bool) (d : Async_Model.kwargs).
Notation this mn := (this_call build estimator train (RandomSearch mn) ml n log d).
Lemma same_rows c c' (g g1 g2 : inst obj) mx mx' xe y objects found fixed xe' y' objects' found' fixed' : agree c c' -> i_extension g2 = i_extension g1 ->
  model_of build estimator train ft fitted c g g1 mx xe y objects found fixed -> model_of build estimator train ft fitted c' g g2 mx' xe' y' objects' found' fixed' -> xe' = xe /\ y' = y.
Proof.
  intros (A1 & A2 & _) X (x & cl & ty & st & m & ss & f & made & model & T & _ & P & _) (x2 & cl2 & ty2 & st2 & m2 & ss2 & f2 & made2 & model2 & T2 & _ & P2 & _).
  assert (Q : x2 = x /\ y' = y).
  { unfold training_data in T, T2. rewrite A1, A2 in T2. destruct (i_classifier g); [destruct T as (cs & _ & T); destruct T2 as (cs2 & _ & T2)|destruct T as (_ & T); destruct T2 as (_ & T2)]; rewrite T in T2; injection T2; auto. }
  destruct Q as (-> & ->). rewrite P in P2. injection P2 as <- _ _. auto.
Qed.
Lemma two mn mn' e e' g r g1 r' g2 :
  history rate ft fitted knn poly fitness_of tl g -> ready (i_pset g1) ml e g -> clear_names (i_pset g1) ->
  (forall k, Forall (fun x => x <> NaN) (e_scores e k)) -> (forall k, Forall (fun x => x <> NaN) (e_scores e' k)) -> agree (this mn e) (this mn' e') ->
  (forall x y labels dl ps start s r w p r' w' p',
     Proc_Model.q_rs_phase (e_call e x y labels dl) (e_scores e) ps ml mn n log d start (Proc_Model.before_h s (e_plan e)) = (r, (w, p)) ->
     Proc_Model.q_rs_phase (e_call e' x y labels dl) (e_scores e') ps ml mn' n log d start (Proc_Model.before_h s (e_plan e')) = (r', (w', p')) ->
     prefix (results (q_trace w)) (results (q_trace w'))) ->
  fit rate ft fitted knn poly fitness_of tl (this mn e) g = (Ok r, g1) ->
  fit rate ft fitted knn poly fitness_of tl (this mn' e') g = (Ok r', g2) ->
  i_pset g2 = i_pset g1 /\ i_extension g2 = i_extension g1 /\
  exists pop xe y objects found objects' found',
    started_from (this mn e) g (i_pset g1) pop /\
    model_of build estimator train ft fitted (this mn e) g g1 ml xe y objects found (own_steps pop (i_extension g1)) /\
    model_of build estimator train ft fitted (this mn' e') g g2 ml xe y objects' found' (own_steps pop (i_extension g1)) /\
    map fitness_of (i_final g1) = map (fun m => Some (m_fit m)) found /\ map fitness_of (i_final g2) = map (fun m => Some (m_fit m)) found' /\
    prefix found found'.
Proof.
  intros H R CN NU NU' A RUNS F F'. destruct (fit_two rate ft fitted knn poly fitness_of tl _ _ _ _ _ _ _ A F F') as (Q1 & Q2 & Q3 & pop & xe & y & limit & dl & how & how' & S1 & S2 & S3 & S4 & S5).
  assert (ST : started_from (this mn e) g (i_pset g1) pop) by (apply started_of; exact S1).
  assert (ST' : started_from (this mn' e') g (i_pset g1) pop).
  { apply started_of. destruct A as (_ & _ & _ & A4 & _ & A6). rewrite A4, A6. exact S1. }
  cbn [this_call c_search] in S2, S4.
  destruct (from_usable build estimator train ml n log d e g _ _ _ _ _ _ _ _ _ _ _ ml R (or_introl eq_refl) ST S2 S3) as (s & _ & W & SO & ND & i & f & b & pop' & EP).
  unfold Whole_Model.search in S2, S4. rewrite EP in S2, S4. rewrite <- EP in S2, S4.
  destruct (Proc_Model.q_rs_phase (e_call e xe y (i_labels g1) dl) (e_scores e) (i_pset g1) ml mn n log d (individuals_of pop) (Proc_Model.before_h s (e_plan e))) as [x1 [w1 p1]] eqn:Z1.
  destruct (Proc_Model.q_rs_phase (e_call e' xe y (i_labels g1) dl) (e_scores e') (i_pset g1) ml mn' n log d (individuals_of pop) (Proc_Model.before_h s (e_plan e'))) as [x2 [w2 p2]] eqn:Z2.
  injection S2 as _ EO1. injection S4 as _ EO2. cbn [fst] in EO1, EO2. symmetry in EO1, EO2.
  destruct (rs_found _ _ _ _ _ _ _ _ _ _ _ _ _ _ W SO ND Z1) as (FW1 & O1 & FO1). destruct (rs_found _ _ _ _ _ _ _ _ _ _ _ _ _ _ W SO ND Z2) as (FW2 & O2 & FO2).
  rewrite O1 in EO1. rewrite O2 in EO2.
  destruct (parts build estimator train rate ft fitted knn poly tl (RandomSearch mn) ml n log d g e r g1 H F) as (xa & ya & _ & _ & _ & _ & _ & _ & _ & _ & K1).
  destruct (parts build estimator train rate ft fitted knn poly tl (RandomSearch mn') ml n log d g e' r' g2 H F') as (xb & yb & _ & _ & _ & _ & _ & _ & _ & _ & K2).
  assert (BO : forall m : member, own_steps pop (i_extension g1) (m_ind m) (bound (i_extension g1) pop (i_id (m_ind m)))) by (intros m; apply bound_own; exact ND).
  rewrite Q1 in K2.
  destruct (K1 ml _ _ _ (own_steps pop (i_extension g1)) CN EO1 FO1 (all_numeric _ (Proc_Main.h_results_numeric _ _ _ _ NU FW1)) (fun m _ => BO m)) as (_ & M1).
  destruct (K2 ml _ _ _ (own_steps pop (i_extension g1)) CN EO2 FO2 (all_numeric _ (Proc_Main.h_results_numeric _ _ _ _ NU' FW2)) (fun m _ => BO m)) as (_ & M2).
  destruct (same_rows _ _ _ _ _ _ _ _ _ _ _ _ _ _ _ _ _ A Q2 M1 M2) as (-> & ->).
  split; [exact Q1|]. split; [exact Q2|]. exists pop, xa, ya. do 4 eexists. split; [exact ST|]. split; [exact M1|]. split; [exact M2|].
  split; [rewrite EO1; unfold as_objects; rewrite map_map; reflexivity|]. split; [rewrite EO2; unfold as_objects; rewrite map_map; reflexivity|].
  eapply RUNS; eassumption.
Qed.
Lemma still mn mn' e e' g r g1 r' g2 : ready (i_pset g1) ml e g -> pset_rich (i_pset g1) -> allows_one ml ->
  (forall c kwargs, exists x, build c kwargs = Ok x) -> (forall made x y, exists m, train made x y = Ok m) ->
  agree (this mn e) (this mn' e') -> e_sampling e' = e_sampling e -> e_dir e' = e_dir e ->
  (forall x y labels dl ps start s r w p r' w' p',
     Proc_Model.q_rs_phase (e_call e x y labels dl) (e_scores e) ps ml mn n log d start (Proc_Model.before_h s (e_plan e)) = (r, (w, p)) ->
     Proc_Model.q_rs_phase (e_call e' x y labels dl) (e_scores e') ps ml mn' n log d start (Proc_Model.before_h s (e_plan e')) = (r', (w', p')) ->
     prefix (results (q_trace w)) (results (q_trace w'))) ->
  fit rate ft fitted knn poly fitness_of tl (this mn e) g = (Ok r, g1) ->
  fit rate ft fitted knn poly fitness_of tl (this mn' e') g = (r', g2) -> exists v, r' = Ok v.
Proof.
  intros R RI AO B T A SA DI RUNS F F'. destruct (fit_followed rate ft fitted knn poly fitness_of tl _ _ _ _ _ _ _ A SA F F') as (r0 & u & (Q & pop & xe & y & ext & labels & limit & dl & how & out & how' & out' & S1 & S2 & S3 & S4 & S5) & RR).
  apply started_of in S1. cbn [this_call c_search] in S2, S4.
  destruct (start_rich _ build estimator train (RandomSearch mn) ml n log d e g _ _ _ R (or_introl eq_refl) RI AO S1) as (s & U & W & SO & ND & i & f & b & pop' & EP).
  unfold Whole_Model.search in S2, S4. rewrite EP in S2, S4. rewrite <- EP in S2, S4.
  destruct (Proc_Model.q_rs_phase (e_call e xe y labels dl) (e_scores e) (i_pset g1) ml mn n log d (individuals_of pop) (Proc_Model.before_h s (e_plan e))) as [x1 [w1 p1]] eqn:Z1.
  destruct (Proc_Model.q_rs_phase (e_call e' xe y labels dl) (e_scores e') (i_pset g1) ml mn' n log d (individuals_of pop) (Proc_Model.before_h s (e_plan e'))) as [x2 [w2 p2]] eqn:Z2.
  injection S2 as H1 EO1. injection S4 as H2 EO2. cbn [fst] in EO1, EO2.
  destruct (rs_found _ _ _ _ _ _ _ _ _ _ _ _ _ _ W SO ND Z1) as (_ & O1 & FO1). destruct (rs_found _ _ _ _ _ _ _ _ _ _ _ _ _ _ W SO ND Z2) as (_ & O2 & FO2).
  rewrite O1 in EO1. rewrite O2 in EO2. subst out out'.
  pose proof (RUNS _ _ _ _ _ _ _ _ _ _ _ _ _ Z1 Z2) as PR.
  destruct (Proc_Main.C161_random_runs_main _ _ _ _ _ _ _ _ _ _ _ _ _ _ W SO RI AO Z2) as (X & _).
  assert (EN : ended how') by (rewrite <- H2; left; destruct X as [-> | ->]; reflexivity).
  destruct S3 as [(_ & S3)|(ex & _ & _ & _ & S3)]; [|discriminate]. destruct (S3 (all_evaluated _ _ _)) as (rest & S3'). cbn [this_call c_post c_dir] in S3'.
  destruct S5 as [(_ & S5)|(ex & -> & N1 & N2 & _)]; [|exfalso; destruct EN as [EN|[EN|EN]]; congruence]. destruct (S5 (all_evaluated _ _ _)) as (rest' & S5'). cbn [this_call c_post c_dir] in S5'.
  destruct (post_total build estimator train (i_pset g1) ml (bound ext pop) (q_st w1) (results (q_trace w1)) xe y rest FO1 B (fun made => T made xe y)) as [(_ & PT)|(NE & m & PT)]; rewrite PT in S3'; [discriminate|].
  destruct (post_total build estimator train (i_pset g1) ml (bound ext pop) (q_st w2) (results (q_trace w2)) xe y rest' FO2 B (fun made => T made xe y)) as [(E2 & _)|(_ & m2 & PT2)].
  { exfalso. destruct PR as [more PR]. rewrite E2 in PR. symmetry in PR. apply app_eq_nil in PR as (PR & _). auto. }
  rewrite PT2, DI, <- S3' in S5'. subst r0. exact RR.
Qed.
End Two.

Lemma results_begin (t t' : list hitem) : prefix t t' -> prefix (results t) (results t').
Proof. intros [u ->]. exists (results u). apply Later_Main.results_app. Qed.
(** C181: two calls of fit with random search, of the same object and with the same arguments; in the
    second the workers get to do more before the search is stopped.  Search space, fixed steps,
    training rows and start of the search are the same; what the first found are the first of
    those the second found, and each answers with the model of the best of what it found. *)
Lemma C181_more_time_main :
  forall E (build : nat -> list (string * value) -> res E) estimator train rate fit_transform fitted knn poly takes_labels max_n max_length n log defaults g e later r1 g1 r2 g2,
  history rate fit_transform fitted knn poly fitness_of takes_labels g ->
  ready (i_pset g1) max_length e g -> clear_names (i_pset g1) -> (forall k, Forall (fun x => x <> NaN) (e_scores e k)) ->
  let fitting := this_call build estimator train (RandomSearch max_n) max_length n log defaults in
  fit rate fit_transform fitted knn poly fitness_of takes_labels (fitting e) g = (Ok r1, g1) ->
  fit rate fit_transform fitted knn poly fitness_of takes_labels (fitting (given_longer e later)) g = (Ok r2, g2) ->
  i_pset g2 = i_pset g1 /\ i_extension g2 = i_extension g1 /\
  exists pop xe y objects1 found1 objects2 found2,
    started_from (fitting e) g (i_pset g1) pop /\
    model_of build estimator train fit_transform fitted (fitting e) g g1 max_length xe y objects1 found1 (own_steps pop (i_extension g1)) /\
    model_of build estimator train fit_transform fitted (fitting (given_longer e later)) g g2 max_length xe y objects2 found2 (own_steps pop (i_extension g1)) /\
    map fitness_of (i_final g1) = map (fun m => Some (m_fit m)) found1 /\ map fitness_of (i_final g2) = map (fun m => Some (m_fit m)) found2 /\
    prefix found1 found2.
Proof.
  intros E build estimator train rate ft fitted knn poly tl mn ml n log d g e later r1 g1 r2 g2 H R CN NU fitting F F'.
  refine (two build estimator train rate ft fitted knn poly tl ml n log d mn mn e (given_longer e later) g r1 g1 r2 g2 H R CN NU NU _ _ F F'); [repeat split|].
  intros x y labels dl ps start s r w p r' w' p' Z Z'. apply results_begin.
  destruct (Later_Main.C178_random_main _ _ None _ _ _ _ _ _ _ _ _ _ _ _ _ _ _ _ Z Z') as [(_ & P & _)|[_ ->]]; [exact P|exists []; symmetry; apply app_nil_r].
Qed.
(** C181: the same for a higher limit on the number of evaluations. *)
Lemma C181_higher_limit_main :
  forall E (build : nat -> list (string * value) -> res E) estimator train rate fit_transform fitted knn poly takes_labels max_n max_n' max_length n log defaults g e r1 g1 r2 g2,
  history rate fit_transform fitted knn poly fitness_of takes_labels g ->
  ready (i_pset g1) max_length e g -> clear_names (i_pset g1) -> (forall k, Forall (fun x => x <> NaN) (e_scores e k)) -> no_lower max_n max_n' ->
  let fitting limit := this_call build estimator train (RandomSearch limit) max_length n log defaults e in
  fit rate fit_transform fitted knn poly fitness_of takes_labels (fitting max_n) g = (Ok r1, g1) ->
  fit rate fit_transform fitted knn poly fitness_of takes_labels (fitting max_n') g = (Ok r2, g2) ->
  i_pset g2 = i_pset g1 /\ i_extension g2 = i_extension g1 /\
  exists pop xe y objects1 found1 objects2 found2,
    started_from (fitting max_n) g (i_pset g1) pop /\
    model_of build estimator train fit_transform fitted (fitting max_n) g g1 max_length xe y objects1 found1 (own_steps pop (i_extension g1)) /\
    model_of build estimator train fit_transform fitted (fitting max_n') g g2 max_length xe y objects2 found2 (own_steps pop (i_extension g1)) /\
    map fitness_of (i_final g1) = map (fun m => Some (m_fit m)) found1 /\ map fitness_of (i_final g2) = map (fun m => Some (m_fit m)) found2 /\
    prefix found1 found2.
Proof.
  intros E build estimator train rate ft fitted knn poly tl mn mn' ml n log d g e r1 g1 r2 g2 H R CN NU N fitting F F'.
  refine (two build estimator train rate ft fitted knn poly tl ml n log d mn mn' e e g r1 g1 r2 g2 H R CN NU NU _ _ F F'); [repeat split|].
  intros x y labels dl ps start s r w p r' w' p' Z Z'. apply results_begin.
  destruct (More_Main.C180_random_main _ _ None _ _ _ _ _ _ _ _ _ _ _ _ _ _ _ _ N Z Z') as [(_ & P & _)|[_ ->]]; [exact P|exists []; symmetry; apply app_nil_r].
Qed.
(** C181: and where the first call returned, so does the second, if estimators can be made and
    trained. *)
Lemma C181_more_time_returns_main :
  forall E (build : nat -> list (string * value) -> res E) estimator train rate fit_transform fitted knn poly takes_labels max_n max_length n log defaults g e later r1 g1 r2 g2,
  ready (i_pset g1) max_length e g -> pset_rich (i_pset g1) -> allows_one max_length ->
  (forall c kwargs, exists x, build c kwargs = Ok x) -> (forall made x y, exists m, train made x y = Ok m) ->
  let fitting := this_call build estimator train (RandomSearch max_n) max_length n log defaults in
  fit rate fit_transform fitted knn poly fitness_of takes_labels (fitting e) g = (Ok r1, g1) ->
  fit rate fit_transform fitted knn poly fitness_of takes_labels (fitting (given_longer e later)) g = (r2, g2) ->
  exists v, r2 = Ok v.
Proof.
  intros E build estimator train rate ft fitted knn poly tl mn ml n log d g e later r1 g1 r2 g2 R RI AO B T fitting F F'.
  refine (still build estimator train rate ft fitted knn poly tl ml n log d mn mn e (given_longer e later) g r1 g1 r2 g2 R RI AO B T _ eq_refl eq_refl _ F F'); [repeat split|].
  intros x y labels dl ps start s r w p r' w' p' Z Z'. apply results_begin.
  destruct (Later_Main.C178_random_main _ _ None _ _ _ _ _ _ _ _ _ _ _ _ _ _ _ _ Z Z') as [(_ & P & _)|[_ ->]]; [exact P|exists []; symmetry; apply app_nil_r].
Qed.
Lemma C181_higher_limit_returns_main :
  forall E (build : nat -> list (string * value) -> res E) estimator train rate fit_transform fitted knn poly takes_labels max_n max_n' max_length n log defaults g e r1 g1 r2 g2,
  ready (i_pset g1) max_length e g -> pset_rich (i_pset g1) -> allows_one max_length ->
  (forall c kwargs, exists x, build c kwargs = Ok x) -> (forall made x y, exists m, train made x y = Ok m) -> no_lower max_n max_n' ->
  let fitting limit := this_call build estimator train (RandomSearch limit) max_length n log defaults e in
  fit rate fit_transform fitted knn poly fitness_of takes_labels (fitting max_n) g = (Ok r1, g1) ->
  fit rate fit_transform fitted knn poly fitness_of takes_labels (fitting max_n') g = (r2, g2) ->
  exists v, r2 = Ok v.
Proof.
  intros E build estimator train rate ft fitted knn poly tl mn mn' ml n log d g e r1 g1 r2 g2 R RI AO B T N fitting F F'.
  refine (still build estimator train rate ft fitted knn poly tl ml n log d mn mn' e e g r1 g1 r2 g2 R RI AO B T _ eq_refl eq_refl _ F F'); [repeat split|].
  intros x y labels dl ps start s r w p r' w' p' Z Z'. apply results_begin.
  destruct (More_Main.C180_random_main _ _ None _ _ _ _ _ _ _ _ _ _ _ _ _ _ _ _ N Z Z') as [(_ & P & _)|[_ ->]]; [exact P|exists []; symmetry; apply app_nil_r].
Qed.

(** * Example: two workers, a search stopped after one result and after four; limits of one and of three *)
Definition ex_later : list Sys_Model.turn := concat (repeat [Sys_Main.at_work [Sys_Main.get 1; Sys_Main.exec 1; Sys_Main.flush 1]; Sys_Main.at_work []] 3).
Notation ex_short := (ex_circ (ex_shops 2) (Some []) (ex_plan 50 1)).
Notation ex_fits limit e := (ex_whole (RandomSearch limit) e (ex_object false)).
Example C181_ex_main :
  history 1 ex_ft ex_fitted no_prim ex_poly fitness_of true (ex_object false) /\ ready ex_ps (Some 3%Z) ex_short (ex_object false) /\
  pset_rich ex_ps /\ allows_one (Some 3%Z) /\ (forall c kwargs, exists x, ex_made c kwargs = Ok x) /\ (forall made x y, exists m, ex_trained made x y = Ok m) /\
  clear_names ex_ps /\ (forall k, Forall (fun x => x <> NaN) (e_scores ex_short k)) /\ no_lower (Some 1%Z) (Some 3%Z) /\
  fst (ex_fits None ex_short) = Ok Self /\ i_pset (snd (ex_fits None ex_short)) = ex_ps /\ length (i_final (snd (ex_fits None ex_short))) = 1 /\
  fst (ex_fits None (given_longer ex_short ex_later)) = Ok Self /\ length (i_final (snd (ex_fits None (given_longer ex_short ex_later)))) = 4 /\
  ex_asked (snd (ex_fits None ex_short)) = Ok (map ex_label [100; 100; 3; 1]) /\ ex_asked (snd (ex_fits None (given_longer ex_short ex_later))) = Ok (map ex_label [100; 100; 3; 0]) /\
  fst (ex_fits (Some 1%Z) few) = Ok Self /\ length (i_final (snd (ex_fits (Some 1%Z) few))) = 1 /\
  fst (ex_fits (Some 3%Z) few) = Ok Self /\ length (i_final (snd (ex_fits (Some 3%Z) few))) = 3.
Proof.
  split; [apply constructed|]. split; [apply ex_ready|]. split; [exact Gp_Examples.ex_rich|]. split; [cbn; lia|]. split; [intros c k; eexists; reflexivity|]. split; [intros a b c; eexists; reflexivity|]. split; [exact End_Main.ex_clear|]. split; [exact ex_scores_fine|]. split; [cbn; lia|].
  repeat (split; [vm_compute; reflexivity|]). vm_compute. reflexivity.
Qed.

(** C179: fit with ASHA can get worse with more time: every pipeline it chooses from in the end has a lower
    score than one of those from which it chose with less time. *)
Definition ex_rising (plan : list Sys_Model.turn) : circumstances :=
  mkCirc (e_x few) (e_y few) (e_declared few) (e_warm few) (e_sampling few) (e_clock few) (e_dir few) (e_mem few) (e_call few) Later_Main.ex_rise plan.
Notation ex_halving e := (fit 1 ex_ft ex_fitted no_prim ex_poly fitness_of true (this_call ex_made ex_estimator ex_trained (Halving 3 0 2%Z (Some 1%Z)) (Some 3%Z) 1 true [] e) (ex_object false)).
Lemma C179_fit_asha_refuted_main :
  exists (build : nat -> list (string * value) -> res nat) estimator train rate fit_transform fitted knn poly takes_labels eta first_rung max_rung max_full max_length n log defaults g e later r1 g1 r2 g2 o1,
  history rate fit_transform fitted knn poly fitness_of takes_labels g /\ ready (i_pset g1) max_length e g /\ pset_rich (i_pset g1) /\ allows_one max_length /\
  (Z.of_nat first_rung <= max_rung)%Z /\ (forall k, e_scores e k <> []) /\ clear_names (i_pset g1) /\ (forall k, Forall (fun x => x <> NaN) (e_scores e k)) /\
  (let fitting := this_call build estimator train (Halving eta first_rung max_rung max_full) max_length n log defaults in
   fit rate fit_transform fitted knn poly fitness_of takes_labels (fitting e) g = (Ok r1, g1) /\
   fit rate fit_transform fitted knn poly fitness_of takes_labels (fitting (given_longer e later)) g = (Ok r2, g2)) /\
  In o1 (i_final g1) /\ i_final g2 <> [] /\
  exists v1, fitness_of o1 = Some v1 /\ forall o2, In o2 (i_final g2) -> exists v2, fitness_of o2 = Some v2 /\ lex_lt v2 v1.
Proof.
  assert (A1 : allows_one (Some 3%Z)) by (cbn; lia). assert (A2 : (Z.of_nat 0 <= 2)%Z) by (cbn; lia).
  assert (A3 : forall k, Later_Main.ex_rise k <> []) by (intros k; discriminate). assert (A4 : forall k, Forall (fun x => x <> NaN) (Later_Main.ex_rise k)) by (intros k; repeat constructor; discriminate).
  assert (F1 : fst (ex_halving (ex_rising (repeat Later_Main.ex_work 16))) = Ok Self) by (vm_compute; reflexivity).
  assert (F2 : fst (ex_halving (given_longer (ex_rising (repeat Later_Main.ex_work 16)) (repeat Later_Main.ex_work 14))) = Ok Self) by (vm_compute; reflexivity).
  assert (P1 : i_pset (snd (ex_halving (ex_rising (repeat Later_Main.ex_work 16)))) = ex_ps) by (vm_compute; reflexivity).
  assert (M1 : map fitness_of (i_final (snd (ex_halving (ex_rising (repeat Later_Main.ex_work 16))))) = [Some (Later_Main.ex_rise 0); Some (Later_Main.ex_rise 1); Some (Later_Main.ex_rise 2); Some (Later_Main.ex_rise 3)]) by (vm_compute; reflexivity).
  assert (M2 : map fitness_of (i_final (snd (ex_halving (given_longer (ex_rising (repeat Later_Main.ex_work 16)) (repeat Later_Main.ex_work 14))))) = [Some (Later_Main.ex_rise 10)]) by (vm_compute; reflexivity).
  assert (E1 := surjective_pairing (ex_halving (ex_rising (repeat Later_Main.ex_work 16)))). assert (E2 := surjective_pairing (ex_halving (given_longer (ex_rising (repeat Later_Main.ex_work 16)) (repeat Later_Main.ex_work 14)))).
  rewrite F1 in E1. rewrite F2 in E2. clear F1 F2.
  set (g1 := snd (ex_halving (ex_rising (repeat Later_Main.ex_work 16)))) in *. set (g2 := snd (ex_halving (given_longer (ex_rising (repeat Later_Main.ex_work 16)) (repeat Later_Main.ex_work 14)))) in *. clearbody g1 g2.
  assert (O : exists o1, In o1 (i_final g1) /\ fitness_of o1 = Some (Later_Main.ex_rise 3)).
  { destruct (i_final g1) as [|a [|b [|c [|o l]]]]; try discriminate M1. exists o. split; [right; right; right; left; reflexivity|]. injection M1 as _ _ _ M1 _. exact M1. }
  destruct O as (o1 & I1 & V1).
  exists ex_made, ex_estimator, ex_trained, 1%positive, ex_ft, ex_fitted, no_prim, ex_poly, true, 3, 0, 2%Z, (Some 1%Z), (Some 3%Z), 1, true, [], (ex_object false), (ex_rising (repeat Later_Main.ex_work 16)), (repeat Later_Main.ex_work 14), Self, g1, Self, g2, o1.
  rewrite P1. split; [apply constructed|]. split; [exact (ex_ready ex_ps (Some 3%Z) (ex_plan 50 4))|]. split; [exact Gp_Examples.ex_rich|]. split; [exact A1|]. split; [exact A2|]. split; [exact A3|].
  split; [exact End_Main.ex_clear|]. split; [exact A4|]. split; [split; [exact E1|exact E2]|]. split; [exact I1|].
  split; [intros N; rewrite N in M2; discriminate M2|]. exists (Later_Main.ex_rise 3). split; [exact V1|].
  intros o2 I2. exists (Later_Main.ex_rise 10). split; [|apply Later_Main.first_less; reflexivity].
  apply (in_map fitness_of) in I2. rewrite M2 in I2. destruct I2 as [I2|[]]. symmetry. exact I2.
Qed.

(** C179: so can fit with AsyncEA without restarts. *)
Definition ex_falling (plan : list Sys_Model.turn) : circumstances :=
  mkCirc (e_x few) (e_y few) (e_declared few) (e_warm few) (e_sampling few) (e_clock few) (e_dir few) (e_mem few) (e_call few) Later_Main.ex_fall plan.
Notation ex_evolving e := (fit 1 ex_ft ex_fitted no_prim ex_poly fitness_of true (this_call ex_made ex_estimator ex_trained (Evolution 50 5 None false) None 1 true [] e) (ex_object false)).
Lemma C179_fit_evolutionary_refuted_main :
  exists (build : nat -> list (string * value) -> res nat) estimator train rate fit_transform fitted knn poly takes_labels max_retry pop_size n log defaults g e later r1 g1 r2 g2 o1,
  history rate fit_transform fitted knn poly fitness_of takes_labels g /\ ready (i_pset g1) None e g /\ pset_typed (i_pset g1) /\ pset_rich (i_pset g1) /\
  0 < max_retry /\ 3 <= pop_size /\ clear_names (i_pset g1) /\ (forall k, Forall (fun x => x <> NaN) (e_scores e k)) /\
  (let fitting := this_call build estimator train (Evolution max_retry pop_size None false) None n log defaults in
   fit rate fit_transform fitted knn poly fitness_of takes_labels (fitting e) g = (Ok r1, g1) /\
   fit rate fit_transform fitted knn poly fitness_of takes_labels (fitting (given_longer e later)) g = (Ok r2, g2)) /\
  In o1 (i_final g1) /\ i_final g2 <> [] /\
  exists v1, fitness_of o1 = Some v1 /\ forall o2, In o2 (i_final g2) -> exists v2, fitness_of o2 = Some v2 /\ lex_lt v2 v1.
Proof.
  assert (A1 : 0 < 50) by lia. assert (A2 : 3 <= 5) by lia.
  assert (A4 : forall k, Forall (fun x => x <> NaN) (Later_Main.ex_fall k)) by (intros [|k]; repeat constructor; discriminate).
  assert (F1 : fst (ex_evolving (ex_falling (repeat Later_Main.ex_work 55))) = Ok Self) by (vm_compute; reflexivity).
  assert (F2 : fst (ex_evolving (given_longer (ex_falling (repeat Later_Main.ex_work 55)) (repeat Later_Main.ex_work 5))) = Ok Self) by (vm_compute; reflexivity).
  assert (P1 : i_pset (snd (ex_evolving (ex_falling (repeat Later_Main.ex_work 55)))) = ex_ps) by (vm_compute; reflexivity).
  assert (M1 : map fitness_of (i_final (snd (ex_evolving (ex_falling (repeat Later_Main.ex_work 55))))) = Some (Later_Main.ex_fall 0) :: repeat (Some (Later_Main.ex_fall 1)) 4) by (vm_compute; reflexivity).
  assert (M2 : map fitness_of (i_final (snd (ex_evolving (given_longer (ex_falling (repeat Later_Main.ex_work 55)) (repeat Later_Main.ex_work 5))))) = repeat (Some (Later_Main.ex_fall 1)) 5) by (vm_compute; reflexivity).
  assert (E1 := surjective_pairing (ex_evolving (ex_falling (repeat Later_Main.ex_work 55)))). assert (E2 := surjective_pairing (ex_evolving (given_longer (ex_falling (repeat Later_Main.ex_work 55)) (repeat Later_Main.ex_work 5)))).
  rewrite F1 in E1. rewrite F2 in E2. clear F1 F2.
  set (g1 := snd (ex_evolving (ex_falling (repeat Later_Main.ex_work 55)))) in *. set (g2 := snd (ex_evolving (given_longer (ex_falling (repeat Later_Main.ex_work 55)) (repeat Later_Main.ex_work 5)))) in *. clearbody g1 g2.
  assert (O : exists o1, In o1 (i_final g1) /\ fitness_of o1 = Some (Later_Main.ex_fall 0)).
  { destruct (i_final g1) as [|o l]; [discriminate M1|]. exists o. split; [left; reflexivity|]. cbn [map] in M1. injection M1 as M1 _. exact M1. }
  destruct O as (o1 & I1 & V1).
  exists ex_made, ex_estimator, ex_trained, 1%positive, ex_ft, ex_fitted, no_prim, ex_poly, true, 50, 5, 1, true, [], (ex_object false), (ex_falling (repeat Later_Main.ex_work 55)), (repeat Later_Main.ex_work 5), Self, g1, Self, g2, o1.
  rewrite P1. split; [apply constructed|]. split; [exact (ex_ready ex_ps None (ex_plan 50 4))|]. split; [exact ex_typed|]. split; [exact Gp_Examples.ex_rich|]. split; [exact A1|]. split; [exact A2|].
  split; [exact End_Main.ex_clear|]. split; [exact A4|]. split; [split; [exact E1|exact E2]|]. split; [exact I1|].
  split; [intros N; rewrite N in M2; discriminate M2|]. exists (Later_Main.ex_fall 0). split; [exact V1|].
  intros o2 I2. exists (Later_Main.ex_fall 1). split; [|apply Later_Main.first_less; reflexivity].
  apply (in_map fitness_of) in I2. rewrite M2 in I2. apply repeat_spec in I2. exact I2.
Qed.

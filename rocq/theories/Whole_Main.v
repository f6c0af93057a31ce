(** C168-C170: fit from the data to the model, with the searches on worker processes. *)
(*IMPORTS*)
Require Import ZArith QArith Qcanon.
From Verif Require Import Base Num Lib_Spec Data_Model Data_Spec Gp_Model Gp_Spec Gp_Examples Eval_Model Evo_Model Evo_Spec Rnd_Model Rnd_Spec End_Model End_Spec Pred_Model Fit_Model Fit_Spec Proc_Spec Whole_Model Whole_Spec.
From Verif Require Async_Model Sys_Model Proc_Model.
Open Scope string_scope.
Open Scope nat_scope.
Open Scope list_scope.
(*END*)
From Verif Require Import Whole_Proofs Whole_Proofs2 Whole_Proofs3 Whole_Proofs4.
From Verif Require Gp_Examples Sys_Main Again_Main Fac_Model Fit_Proofs Fit_Proofs2 Fit_Main Proc_Main Evo_Main End_Main End_Proofs.

(** * The parts of a successful fit *)
Section Parts.
Context {E : Type} (build : nat -> list (string * value) -> res E) (estimator : enc_step -> string * E) (train : list (string * E) -> frame -> yout -> res model)
  (rate : positive) (ft : enc_step -> frame -> res frame) (fitted : list enc_step -> frame -> frame -> res frame) (knn poly : primitive -> bool) (tl : bool)
  (how : method) (ml : option Z) (n : nat) (log : bool) (d : Async_Model.kwargs).
Notation this := (this_call build estimator train how ml n log d).
Lemma parts g e r g' : history rate ft fitted knn poly fitness_of tl g -> fit rate ft fitted knn poly fitness_of tl (this e) g = (Ok r, g') ->
  exists xe y pop limit dl ending, started_from (this e) g (i_pset g') pop /\
    Whole_Model.search how ml n log d e (i_pset g') (i_extension g') pop xe y (i_labels g') limit dl = (ending, i_final g') /\ ended ending /\ deadline_of rate e g' dl /\
    (forall mx fixed mem l (allowed : individual -> list enc_step -> Prop), clear_names (i_pset g') -> i_final g' = as_objects fixed mem l -> found_ok (i_pset g') mx mem l -> (forall m, In m l -> numeric m) ->
       (forall m, In m l -> allowed (m_ind m) (fixed (i_id (m_ind m)))) ->
       l <> [] /\ model_of build estimator train ft fitted (this e) g g' mx xe y (s_heap mem) l allowed).
Proof.
  intros H F. destruct (Fit_Main.C116_fitted_main _ _ _ _ _ _ _ _ _ _ _ _ H F) as (x & y & classes & types & steps & xe & best & rest & m & T & Ty & D & _ & (pop & limit & ending & S1 & S2 & S3 & a & S4 & S5 & S6) & B1 & B2 & _ & A).
  exists xe, y, pop, limit. eexists. exists ending. split; [exact S2|]. split; [exact S1|]. split; [exact S3|].
  split; [exists a, (limit * Zpos rate)%Z; split; [exact S4|]; split; [exact S5|]; split; [exact S6|]; split; [reflexivity|eexists; reflexivity]|].
  intros mx fixed mem l allowed CN EF (W & G & ND) NU AL. rewrite EF in B1. cbn [this_call c_post] in B2.
  destruct (post_best build estimator train (i_pset g') mx fixed mem l xe y rest best m W CN NU (fun m0 H0 => proj2 (G m0 H0)) B1 B2) as (m0 & ss & made & model & -> & I0 & M0 & P0 & O0 & L0 & MF & TR).
  split; [intros ->; destruct I0|]. exists x, classes, types, steps, m0, ss, (fixed (i_id (m_ind m0))), made, model. split; [exact T|]. split; [exact Ty|]. split; [exact D|]. auto 12.
Qed.
End Parts.
Lemma all_numeric l : Forall numeric l -> forall m, In m l -> numeric m.
Proof. rewrite Forall_forall. auto. Qed.

(** C168.  fit with random search, from the arguments to the answers: the search ran on the
    encoded rows of this call, in its search space, on worker processes; whatever they did,
    the object answers with the model of the best of the results they delivered, made
    from a pipeline of the search space within the limit, with the fixed steps of this
    call (of the individual the search was started from, if it is one that already had some),
    and trained on the same rows. *)
Lemma C168_random_main :
  forall E (build : nat -> list (string * value) -> res E) estimator train rate fit_transform fitted knn poly takes_labels max_n max_length n log defaults g e r g',
  history rate fit_transform fitted knn poly fitness_of takes_labels g ->
  ready (i_pset g') max_length e g -> clear_names (i_pset g') -> (forall k, Forall (fun x => x <> NaN) (e_scores e k)) ->
  fit rate fit_transform fitted knn poly fitness_of takes_labels (this_call build estimator train (RandomSearch max_n) max_length n log defaults e) g = (Ok r, g') ->
  exists xe y pop s deadline ending w p,
    let call := e_call e xe y (i_labels g') deadline in
    deadline_of rate e g' deadline /\ started_from (this_call build estimator train (RandomSearch max_n) max_length n log defaults e) g (i_pset g') pop /\
    Proc_Model.q_rs_phase call (e_scores e) (i_pset g') max_length max_n n log defaults (individuals_of pop) (Proc_Model.before_h s (e_plan e)) = (ending, (w, p)) /\
    h_from_workers call (e_scores e) defaults w /\
    model_of build estimator train fit_transform fitted (this_call build estimator train (RandomSearch max_n) max_length n log defaults e) g g' max_length xe y
      (h_objects w) (results (q_trace w)) (fun i f => own_steps pop (i_extension g') i f /\ (starts_anew e g -> f = i_extension g')).
Proof.
  intros E build estimator train rate ft fitted knn poly tl max_n ml n log d g e r g' H R CN NU F.
  destruct (parts build estimator train rate ft fitted knn poly tl (RandomSearch max_n) ml n log d g e r g' H F) as (xe & y & pop & limit & dl & ending & S & SE & EN & DL & K).
  destruct (random_search build estimator train ml n log d e g max_n _ _ _ _ _ _ _ _ _ _ R S SE EN) as (s & x & w & p & Q & FW & FO & EO & ND).
  exists xe, y, pop, s, dl, x, w, p. cbv zeta. split; [exact DL|]. split; [exact S|]. split; [exact Q|]. split; [exact FW|].
  refine (proj2 (K ml _ _ _ _ CN EO FO (all_numeric _ (Proc_Main.h_results_numeric _ _ _ _ NU FW)) _)).
  intros m _. pose proof (bound_own (i_extension g') pop (m_ind m) ND) as OS. split; [exact OS|]. intros A. apply (proj2 OS). intros j f fx mem Hj _.
  exact (anew_unbound _ _ _ _ _ _ _ _ _ _ _ _ _ fx A S (ex_intro _ j (ex_intro _ f (ex_intro _ mem Hj)))).
Qed.
(** C168: with ASHA, the best of the results for the highest rung for which there is one. *)
Lemma C168_asha_main :
  forall E (build : nat -> list (string * value) -> res E) estimator train rate fit_transform fitted knn poly takes_labels eta first_rung max_rung max_full max_length n log defaults g e r g',
  history rate fit_transform fitted knn poly fitness_of takes_labels g ->
  ready (i_pset g') max_length e g -> pset_rich (i_pset g') -> allows_one max_length -> (Z.of_nat first_rung <= max_rung)%Z -> (forall k, e_scores e k <> []) ->
  clear_names (i_pset g') -> (forall k, Forall (fun x => x <> NaN) (e_scores e k)) ->
  fit rate fit_transform fitted knn poly fitness_of takes_labels (this_call build estimator train (Halving eta first_rung max_rung max_full) max_length n log defaults e) g = (Ok r, g') ->
  exists xe y pop s deadline ending w p rung,
    let call := e_call e xe y (i_labels g') deadline in
    deadline_of rate e g' deadline /\ started_from (this_call build estimator train (Halving eta first_rung max_rung max_full) max_length n log defaults e) g (i_pset g') pop /\
    Proc_Model.q_asha_phase call (e_scores e) (i_pset g') max_length eta first_rung max_rung max_full n log defaults (individuals_of pop) (Proc_Model.before_h s (e_plan e)) = (ending, (w, p)) /\
    h_from_workers call (e_scores e) defaults w /\
    (forall r', rung < r' -> scored r' (q_trace w) = []) /\
    model_of build estimator train fit_transform fitted (this_call build estimator train (Halving eta first_rung max_rung max_full) max_length n log defaults e) g g' max_length xe y
      (h_objects w) (map snd (scored rung (q_trace w))) (fun i f => own_steps pop (i_extension g') i f /\ (starts_anew e g -> f = i_extension g')).
Proof.
  intros E build estimator train rate ft fitted knn poly tl eta fr mr mf ml n log d g e r g' H R R1 R2 R3 R4 CN NU F.
  destruct (parts build estimator train rate ft fitted knn poly tl (Halving eta fr mr mf) ml n log d g e r g' H F) as (xe & y & pop & limit & dl & ending & S & SE & EN & DL & K).
  destruct (asha_search build estimator train ml n log d e g eta fr mr mf _ _ _ _ _ _ _ _ _ _ R1 R2 R3 R4 R S SE EN) as (s & x & w & p & l & Q & FW & FO & TOP & EO & ND & _).
  assert (AL : forall m, In m l -> own_steps pop (i_extension g') (m_ind m) (bound (i_extension g') pop (i_id (m_ind m))) /\ (starts_anew e g -> bound (i_extension g') pop (i_id (m_ind m)) = i_extension g')).
  { intros m _. pose proof (bound_own (i_extension g') pop (m_ind m) ND) as OS. split; [exact OS|]. intros A. apply (proj2 OS). intros j f fx mem Hj _.
    exact (anew_unbound _ _ _ _ _ _ _ _ _ _ _ _ _ fx A S (ex_intro _ j (ex_intro _ f (ex_intro _ mem Hj)))). }
  assert (NM : forall m, In m l -> numeric m).
  { destruct l as [|m0 l0]; [intros m []|]. destruct TOP as (r0 & -> & _); [discriminate|]. apply all_numeric. exact (Proc_Main.h_scored_numeric _ _ _ _ NU FW r0). }
  destruct (K ml _ _ _ (fun i f => own_steps pop (i_extension g') i f /\ (starts_anew e g -> f = i_extension g')) CN EO FO NM AL) as (NE & MO).
  destruct (TOP NE) as (rg & -> & HR). exists xe, y, pop, s, dl, x, w, p, rg. cbv zeta. split; [exact DL|]. split; [exact S|]. split; [exact Q|]. split; [exact FW|]. split; [exact HR|exact MO].
Qed.
(** C168: with the evolutionary search, the best of the final population, and of all
    successes since the last restart if they were at most as many as the population can
    hold; its fixed steps are those of this call or of an individual the search started
    from.  The search knows what earlier fits of the object evaluated.  Missing: the best of all successes (see C151), within the limit (see C144). *)
Lemma C168_evolutionary_partial_main :
  forall E (build : nat -> list (string * value) -> res E) estimator train rate fit_transform fitted knn poly takes_labels max_retry pop_size max_n restart max_length n log defaults g e r g',
  history rate fit_transform fitted knn poly fitness_of takes_labels g ->
  ready (i_pset g') None e g -> pset_typed (i_pset g') -> 0 < max_retry -> clear_names (i_pset g') -> (forall k, Forall (fun x => x <> NaN) (e_scores e k)) ->
  fit rate fit_transform fitted knn poly fitness_of takes_labels (this_call build estimator train (Evolution max_retry pop_size max_n restart) max_length n log defaults e) g = (Ok r, g') ->
  exists xe y pop (s : setting) deadline ending w p,
    let call := e_call e xe y (i_labels g') deadline in
    let found := successes (since_restart (v_trace w)) in
    deadline_of rate e g' deadline /\ started_from (this_call build estimator train (Evolution max_retry pop_size max_n restart) max_length n log defaults e) g (i_pset g') pop /\
    seen_before s = seen_before (e_mem e) /\
    Proc_Model.p_search call (e_scores e) (i_pset g') max_length max_retry pop_size max_n restart n log defaults (individuals_of pop) (Proc_Model.before_search s (e_plan e)) = (ending, (w, p)) /\
    from_workers call (e_scores e) defaults w /\ incl (v_pop w) found /\ (length found <= pop_size -> v_pop w = found) /\
    model_of build estimator train fit_transform fitted (this_call build estimator train (Evolution max_retry pop_size max_n restart) max_length n log defaults e) g g' None xe y
      (objects w) (v_pop w) (fun i f => f = i_extension g' \/ ~ starts_anew e g /\ steps_of_start pop f).
Proof.
  intros E build estimator train rate ft fitted knn poly tl mr pz mn rs ml n log d g e r g' H R T HN CN NU F.
  destruct (parts build estimator train rate ft fitted knn poly tl (Evolution mr pz mn rs) ml n log d g e r g' H F) as (xe & y & pop & limit & dl & ending & S & SE & EN & DL & K).
  destruct (evo_search build estimator train ml n log d e g mr pz mn rs _ _ _ _ _ _ _ _ _ _ T HN R S SE EN) as (s & x & w & p & SB & Q & FW & INC & ALL & FO & EO).
  exists xe, y, pop, s, dl, x, w, p. cbv zeta. split; [exact DL|]. split; [exact S|]. split; [exact SB|]. split; [exact Q|]. split; [exact FW|]. split; [exact INC|]. split; [exact ALL|].
  pose proof (Proc_Main.v_numeric _ _ _ _ NU FW) as NM. rewrite Forall_forall in NM.
  refine (proj2 (K None _ _ _ _ CN EO FO (fun m Hm => NM m (INC m Hm)) _)).
  intros m _. destruct (inherited_allowed (i_extension g') pop (v_trace w) (bound (i_extension g') pop) (bound_allowed _ _) (i_id (m_ind m))) as [A|A]; [left; exact A|].
  right. split; [|exact A]. intros AN. exact (anew_unbound _ _ _ _ _ _ _ _ _ _ _ _ _ _ AN S A).
Qed.

(** * Series of fits *)
Section Series.
Context {E : Type} (build : nat -> list (string * value) -> res E) (estimator : enc_step -> string * E) (train : list (string * E) -> frame -> yout -> res model)
  (rate : positive) (ft : enc_step -> frame -> res frame) (fitted : list enc_step -> frame -> frame -> res frame) (knn poly : primitive -> bool) (tl : bool)
  (how : method) (ml : option Z) (n : nat) (log : bool) (d : Async_Model.kwargs).
Notation series := (series build estimator train rate ft fitted knn poly tl how ml n log d).
Lemma series_history g : series g -> history rate ft fitted knn poly fitness_of tl g.
Proof. intros H. induction H; [apply constructed|apply refitted; auto]. Qed.
Lemma series_final g : series g -> i_final g <> [] -> usable (i_pset g) (limit_kept how ml) (i_final g).
Proof.
  intros H. induction H as [|g e H IH (W & GI) SU EP]; [intros N; exfalso; apply N; reflexivity|].
  destruct (fit_final rate ft fitted knn poly tl (this_call build estimator train how ml n log d e) g) as [EF|(ext & labels & limit & pop & x & y & ending & dl & S & SE & EN)].
  - rewrite EF, EP. exact IH.
  - intros _. rewrite EP in *. apply started_of in S. remember (i_final (snd _)) as out eqn:EO. clear EO.
    assert (R : ready (i_pset g) (limit_kept how ml) e g) by (split; [exact W|split; [exact GI|intros _; exact IH]]).
    cbn [this_call c_search] in SE. destruct how as [max_n|mr pz mn rs|eta fr mr mf]; cbn [limit_kept suits] in *.
    + destruct (random_search build estimator train ml n log d e g max_n _ _ _ _ _ _ _ _ _ _ R S SE EN) as (s & r & w & p & _ & _ & FO & -> & _). apply found_usable. exact FO.
    + destruct SU as (T & HN). destruct (evo_search build estimator train ml n log d e g mr pz mn rs _ _ _ _ _ _ _ _ _ _ T HN R S SE EN) as (s & r & w & p & _ & _ & _ & _ & _ & FO & ->). apply found_usable. exact FO.
    + destruct SU as (R1 & R2 & R3 & R4). destruct (asha_search build estimator train ml n log d e g eta fr mr mf _ _ _ _ _ _ _ _ _ _ R1 R2 R3 R4 R S SE EN) as (s & r & w & p & l & _ & _ & FO & _ & -> & _). apply found_usable. exact FO.
Qed.
End Series.
(** C169.  After any number of calls of fit, failed or not, that exclude nothing from the
    search space, the next search starts from pipelines of the search space, all different: what
    C168 asks for holds of every fit. *)
Lemma C169_ready_main :
  forall E (build : nat -> list (string * value) -> res E) estimator train rate fit_transform fitted knn poly takes_labels how max_length n log defaults g e,
  series build estimator train rate fit_transform fitted knn poly takes_labels how max_length n log defaults g ->
  given_ok how max_length (i_pset g) e ->
  history rate fit_transform fitted knn poly fitness_of takes_labels g /\ ready (i_pset g) (limit_kept how max_length) e g.
Proof.
  intros E build estimator train rate ft fitted knn poly tl how ml n log d g e H (W & GI). split; [exact (series_history _ _ _ _ _ _ _ _ _ _ _ _ _ _ g H)|].
  split; [exact W|]. split; [exact GI|]. intros _. exact (series_final _ _ _ _ _ _ _ _ _ _ _ _ _ _ g H).
Qed.
(** C169: the search space stays as it is when pipelines are not stored. *)
Lemma C169_space_main :
  forall I rate fit_transform fitted knn poly key takes_labels (c : call I) g,
  i_stores g = false -> i_pset (snd (fit rate fit_transform fitted knn poly key takes_labels c g)) = i_pset g.
Proof.
  intros I rate ft fitted knn poly key tl c g H.
  assert (R : forall rows cols ps, Fac_Model.restrict false rows cols knn poly ps = ps) by (intros rows cols [a b]; reflexivity).
  assert (B : forall c0 g0 r g', i_stores g0 = false -> base_fit rate ft fitted knn poly key c0 g0 = (r, g') -> i_pset g' = i_pset g0).
  { intros c0 g0 r g' H0 E. apply Fit_Proofs.base_fit_cases in E as (r1 & g1 & P & E). assert (P1 : i_pset g1 = i_pset g0).
    { unfold preprocessing in P. destruct (format_x_y _ _ _ _) as [[x y]|ex]; [|injection P as _ <-; reflexivity]. destruct (inferred_dtypes _ _) as [types|ex]; [|injection P as _ <-; reflexivity].
      destruct (basic_encoding _ _ _) as [[x' steps]|ex]; [|injection P as _ <-; reflexivity]. destruct (basic_pipeline_extension _ _) as [ext|ex]; [|injection P as _ <-; reflexivity].
      injection P as _ <-. cbn [set_pset set_extension set_gama set_x set_y i_pset i_stores Fit_Proofs.begun set_keeper]. rewrite H0. apply R. }
    destruct r1 as [u|ex]; [|destruct E as (_ & ->); exact P1]. cbn zeta in E. destruct E as [(_ & _ & ->)|(_ & r2 & g3 & S & E)]; [exact P1|].
    apply Fit_Proofs.search_cases in S as (_ & _ & _ & _ & _ & _ & _ & S & _). cbn [set_keeper i_pset] in S.
    destruct r2 as [u2|ex]; [|destruct E as (_ & ->); cbn [set_keeper i_pset]; congruence]. destruct E as (r3 & g5 & Q & _ & E). apply Fit_Proofs.post_cases in Q as (_ & _ & _ & _ & _ & _ & Q & _). cbn [set_keeper i_pset] in Q.
    destruct r3 as [u3|ex]; destruct E as (_ & ->); cbn [set_keeper set_dir i_pset]; congruence. }
  unfold Fit_Model.fit. destruct (i_classifier g).
  - destruct (classifier_fit rate ft fitted knn poly key tl c g) as [r g'] eqn:EC.
    assert (G : i_pset g' = i_pset g).
    { apply Fit_Proofs2.classifier_cases in EC as [(e & _ & -> & _)|(ls & classes & _ & _ & [(e & _ & -> & _)|(ls' & _ & _ & EC)])]; [auto|auto|].
      destruct (Fit_Proofs2.inner_inst_same tl g classes ls') as (S & _ & Q & _). rewrite <- Q. eapply B; [|exact EC]. destruct S as (_ & _ & _ & S & _). congruence. }
    destruct r; exact G.
  - destruct (base_fit rate ft fitted knn poly key c g) as [r g'] eqn:EB. apply B in EB; auto. destruct r; exact EB.
Qed.
(** C169: so, with random search, for every fit of such a series that succeeds: the object
    answers with the model of the best result of its own search, as in C168. *)
Lemma C169_random_main :
  forall E (build : nat -> list (string * value) -> res E) estimator train rate fit_transform fitted knn poly takes_labels max_n max_length n log defaults g e r g',
  series build estimator train rate fit_transform fitted knn poly takes_labels (RandomSearch max_n) max_length n log defaults g ->
  given_ok (RandomSearch max_n) max_length (i_pset g) e -> i_pset g' = i_pset g -> clear_names (i_pset g) -> (forall k, Forall (fun x => x <> NaN) (e_scores e k)) ->
  fit rate fit_transform fitted knn poly fitness_of takes_labels (this_call build estimator train (RandomSearch max_n) max_length n log defaults e) g = (Ok r, g') ->
  exists xe y pop s deadline ending w p,
    let call := e_call e xe y (i_labels g') deadline in
    deadline_of rate e g' deadline /\ started_from (this_call build estimator train (RandomSearch max_n) max_length n log defaults e) g (i_pset g') pop /\
    Proc_Model.q_rs_phase call (e_scores e) (i_pset g') max_length max_n n log defaults (individuals_of pop) (Proc_Model.before_h s (e_plan e)) = (ending, (w, p)) /\
    h_from_workers call (e_scores e) defaults w /\
    model_of build estimator train fit_transform fitted (this_call build estimator train (RandomSearch max_n) max_length n log defaults e) g g' max_length xe y
      (h_objects w) (results (q_trace w)) (own_steps pop (i_extension g')).
Proof.
  intros E build estimator train rate ft fitted knn poly tl max_n ml n log d g e r g' H GI EP CN NU F.
  destruct (C169_ready_main _ _ _ _ _ _ _ _ _ _ _ _ _ _ _ _ e H GI) as (HI & R). cbn [limit_kept] in R. rewrite <- EP in R, CN.
  destruct (C168_random_main _ _ _ _ _ _ _ _ _ _ _ _ _ _ _ _ _ _ _ HI R CN NU F) as (xe & y & pop & s & dl & ending & w & p & D & A & B & C & M). exists xe, y, pop, s, dl, ending, w, p. cbv zeta.
  split; [exact D|]. split; [exact A|]. split; [exact B|]. split; [exact C|]. destruct M as (x & classes & types & steps & m & ss & f & made & model & M1 & M2 & M3 & M4 & M5 & M6 & M7 & M8 & (M9 & _) & M10).
  exists x, classes, types, steps, m, ss, f, made, model. auto 15.
Qed.

(** * C170 *)
(** C170, what holds: a fit whose search starts from new individuals (the first fit, and every fit
    with warm_start=[]) gives a model made of its own fixed steps and of algorithms of its own
    search space. *)
Lemma C170_anew_partial_main :
  forall E (build : nat -> list (string * value) -> res E) estimator train rate fit_transform fitted knn poly takes_labels how max_length n log defaults g e r g',
  history rate fit_transform fitted knn poly fitness_of takes_labels g -> starts_anew e g ->
  wf_heap (s_heap (e_mem e)) -> suits how max_length (i_pset g') e -> clear_names (i_pset g') -> (forall k, Forall (fun x => x <> NaN) (e_scores e k)) ->
  fit rate fit_transform fitted knn poly fitness_of takes_labels (this_call build estimator train how max_length n log defaults e) g = (Ok r, g') ->
  exists xe y objects found,
    model_of build estimator train fit_transform fitted (this_call build estimator train how max_length n log defaults e) g g' (limit_kept how max_length) xe y
      objects found (fun _ f => f = i_extension g').
Proof.
  intros E build estimator train rate ft fitted knn poly tl how ml n log d g e r g' H A W SU CN NU F.
  assert (R : ready (i_pset g') (limit_kept how ml) e g).
  { split; [exact W|]. split.
    - intros l E1 N. exfalso. destruct A as [A|[A _]]; rewrite A in E1; [|discriminate]. destruct l; [apply N; reflexivity|discriminate].
    - intros E1 N. exfalso. destruct A as [A|[_ A]]; [congruence|exact (N A)]. }
  destruct how as [max_n|mr pz mn rs|eta fr mr mf]; cbn [limit_kept suits] in *.
  - destruct (C168_random_main _ _ _ _ _ _ _ _ _ _ _ _ _ _ _ _ _ _ _ H R CN NU F) as (xe & y & pop & s & dl & ending & w & p & _ & _ & _ & _ & M).
    exists xe, y, (h_objects w), (results (q_trace w)). destruct M as (x & classes & types & steps & m & ss & f & made & model & M1 & M2 & M3 & M4 & M5 & M6 & M7 & M8 & (_ & M9) & M10).
    exists x, classes, types, steps, m, ss, f, made, model. auto 15.
  - destruct SU as (T & HN). destruct (C168_evolutionary_partial_main _ _ _ _ _ _ _ _ _ _ _ _ _ _ _ _ _ _ _ _ _ _ H R T HN CN NU F) as (xe & y & pop & s & dl & ending & w & p & _ & _ & _ & _ & _ & _ & _ & M).
    exists xe, y, (objects w), (v_pop w). destruct M as (x & classes & types & steps & m & ss & f & made & model & M1 & M2 & M3 & M4 & M5 & M6 & M7 & M8 & M9 & M10).
    exists x, classes, types, steps, m, ss, f, made, model. assert (f = i_extension g') by (destruct M9 as [M9|[M9 _]]; [exact M9|destruct (M9 A)]). auto 15.
  - destruct SU as (R1 & R2 & R3 & R4). destruct (C168_asha_main _ _ _ _ _ _ _ _ _ _ _ _ _ _ _ _ _ _ _ _ _ _ H R R1 R2 R3 R4 CN NU F) as (xe & y & pop & s & dl & ending & w & p & rung & _ & _ & _ & _ & _ & M).
    exists xe, y, (h_objects w), (map snd (scored rung (q_trace w))). destruct M as (x & classes & types & steps & m & ss & f & made & model & M1 & M2 & M3 & M4 & M5 & M6 & M7 & M8 & (_ & M9) & M10).
    exists x, classes, types, steps, m, ss, f, made, model. auto 15.
Qed.

(** * When fit returns *)
Lemma start_none ps ml s l : start_ok ps ml s l -> start_ok ps None s l.
Proof. apply Forall_impl. intros i (H & ss & A & B & _). split; auto. exists ss. repeat split; auto. Qed.
Section Returns.
Context {E : Type} (build : nat -> list (string * value) -> res E) (estimator : enc_step -> string * E) (train : list (string * E) -> frame -> yout -> res model)
  (rate : positive) (ft : enc_step -> frame -> res frame) (fitted : list enc_step -> frame -> frame -> res frame) (knn poly : primitive -> bool) (tl : bool)
  (how : method) (ml : option Z) (n : nat) (log : bool) (d : Async_Model.kwargs).
Notation this := (this_call build estimator train how ml n log d).
(** the search of an accepted fit, and what fit makes of its output *)
Lemma accepted_search e g xe y r g' mx : accepted rate ft (this e) g xe y -> ready (i_pset g') mx e g -> (mx = ml \/ mx = None) -> pset_rich (i_pset g') -> allows_one ml ->
  (forall c kwargs, exists x, build c kwargs = Ok x) -> (forall made x y, exists m, train made x y = Ok m) ->
  fit rate ft fitted knn poly fitness_of tl (this e) g = (r, g') ->
  exists pop s limit dl ending out, started_from (this e) g (i_pset g') pop /\
    Whole_Model.search how ml n log d e (i_pset g') (i_extension g') pop xe y (i_labels g') limit dl = (ending, out) /\
    wf_heap (s_heap s) /\ start_ok (i_pset g') mx s (individuals_of pop) /\ NoDup (map i_id (individuals_of pop)) /\ (exists i f b pop', pop = Obj i f b s :: pop') /\
    (ended ending -> forall ps m0 fixed mem l, found_ok ps m0 mem l -> out = as_objects fixed mem l -> (l = [] /\ r = Err IndexError) \/ (l <> [] /\ exists v, r = Ok v)) /\
    (forall ex, ending = Err ex -> ~ ended ending -> r = Err ex).
Proof.
  intros (x & classes & types & steps & ext & A1 & A2 & A3 & A4 & A5 & A6 & A7) R M R1 R2 B T F.
  destruct (fit_goes rate ft fitted knn poly fitness_of tl (this e) g x y classes types xe steps ext r g' A1 A2 A3 A4 A5 A6 F) as (r0 & (pop & limit & dl & ending & out & S & SE & CO) & RR).
  apply started_of in S. cbn [this_call c_search] in SE.
  destruct (start_rich _ build estimator train how ml n log d e g _ _ _ R M R1 R2 S) as (s & U & W & SO & ND & EX).
  exists pop, s, limit, dl, ending, out. split; [exact S|]. split; [exact SE|]. split; [exact W|]. split; [exact SO|]. split; [exact ND|]. split; [exact EX|]. split.
  - intros EN ps m0 fixed mem l FO ->. destruct CO as [(_ & CO)|(ex & -> & N1 & N2 & _)]; [|exfalso; destruct EN as [EN|[EN|EN]]; congruence].
    destruct (CO (all_evaluated fixed mem l)) as (rest & CO'). cbn [this_call c_post c_dir] in CO'.
    destruct (post_total build estimator train ps m0 fixed mem l xe y rest FO B (fun made => T made xe y)) as [(-> & PT)|(NE & m & PT)]; rewrite PT in CO'.
    + left. split; [reflexivity|]. subst r0. exact RR.
    + right. split; [exact NE|]. cbn [this_call c_dir] in A7. rewrite (tidy_end _ _ A7) in CO'. subst r0. exact RR.
  - intros ex -> NE. destruct CO as [(EN & _)|(ex' & [= <-] & _ & _ & ->)]; [contradiction|exact RR].
Qed.
End Returns.
(** C171.  fit with random search returns if and only if the workers delivered a result in
    time: when its arguments are accepted, pipelines can be made from the search space, and
    estimators can be built and trained, the only failure is the IndexError of a search
    without results. *)
Lemma C171_random_main :
  forall E (build : nat -> list (string * value) -> res E) estimator train rate fit_transform fitted knn poly takes_labels max_n max_length n log defaults g e xe y r g',
  accepted rate fit_transform (this_call build estimator train (RandomSearch max_n) max_length n log defaults e) g xe y ->
  ready (i_pset g') max_length e g -> pset_rich (i_pset g') -> allows_one max_length ->
  (forall c kwargs, exists x, build c kwargs = Ok x) -> (forall made x y, exists m, train made x y = Ok m) ->
  fit rate fit_transform fitted knn poly fitness_of takes_labels (this_call build estimator train (RandomSearch max_n) max_length n log defaults e) g = (r, g') ->
  exists pop s deadline ending w p,
    started_from (this_call build estimator train (RandomSearch max_n) max_length n log defaults e) g (i_pset g') pop /\
    Proc_Model.q_rs_phase (e_call e xe y (i_labels g') deadline) (e_scores e) (i_pset g') max_length max_n n log defaults (individuals_of pop) (Proc_Model.before_h s (e_plan e)) = (ending, (w, p)) /\
    ((results (q_trace w) = [] /\ r = Err IndexError) \/ (results (q_trace w) <> [] /\ exists v, r = Ok v)).
Proof.
  intros E build estimator train rate ft fitted knn poly tl max_n ml n log d g e xe y r g' A R R1 R2 B T F.
  destruct (accepted_search build estimator train rate ft fitted knn poly tl (RandomSearch max_n) ml n log d e g xe y r g' ml A R (or_introl eq_refl) R1 R2 B T F) as (pop & s & limit & dl & ending & out & S & SE & W & SO & ND & (i & f & b & pop' & EP) & K & _).
  unfold Whole_Model.search in SE. rewrite EP in SE. rewrite <- EP in SE.
  destruct (Proc_Model.q_rs_phase (e_call e xe y (i_labels g') dl) (e_scores e) (i_pset g') ml max_n n log d (individuals_of pop) (Proc_Model.before_h s (e_plan e))) as [x [w p]] eqn:ER. injection SE as H1 H2.
  destruct (rs_found _ _ _ _ _ _ _ _ _ _ _ _ _ _ W SO ND ER) as (_ & QO & FO). cbn [fst] in H2. rewrite QO in H2.
  destruct (Proc_Main.C161_random_runs_main _ _ _ _ _ _ _ _ _ _ _ _ _ _ W SO R1 R2 ER) as (X & _).
  exists pop, s, dl, x, w, p. split; [exact S|]. split; [exact ER|]. refine (K _ _ _ _ _ _ FO (eq_sym H2)). rewrite <- H1. left. destruct X as [-> | ->]; reflexivity.
Qed.
(** C171: fit with ASHA, likewise; without a result it fails with UnboundLocalError. *)
Lemma C171_asha_main :
  forall E (build : nat -> list (string * value) -> res E) estimator train rate fit_transform fitted knn poly takes_labels eta first_rung max_rung max_full max_length n log defaults g e xe y r g',
  accepted rate fit_transform (this_call build estimator train (Halving eta first_rung max_rung max_full) max_length n log defaults e) g xe y ->
  ready (i_pset g') max_length e g -> pset_rich (i_pset g') -> allows_one max_length -> (Z.of_nat first_rung <= max_rung)%Z -> (forall k, e_scores e k <> []) ->
  (match max_full with None => True | Some m => (0 < m)%Z end) ->
  (forall c kwargs, exists x, build c kwargs = Ok x) -> (forall made x y, exists m, train made x y = Ok m) ->
  fit rate fit_transform fitted knn poly fitness_of takes_labels (this_call build estimator train (Halving eta first_rung max_rung max_full) max_length n log defaults e) g = (r, g') ->
  exists pop s deadline ending w p,
    started_from (this_call build estimator train (Halving eta first_rung max_rung max_full) max_length n log defaults e) g (i_pset g') pop /\
    Proc_Model.q_asha_phase (e_call e xe y (i_labels g') deadline) (e_scores e) (i_pset g') max_length eta first_rung max_rung max_full n log defaults (individuals_of pop) (Proc_Model.before_h s (e_plan e)) = (ending, (w, p)) /\
    (((forall rung, scored rung (q_trace w) = []) /\ r = Err UnboundLocalError) \/ ((exists rung, scored rung (q_trace w) <> []) /\ exists v, r = Ok v)).
Proof.
  intros E build estimator train rate ft fitted knn poly tl eta fr mr mf ml n log d g e xe y r g' A R R1 R2 R3 R4 R5 B T F.
  destruct (accepted_search build estimator train rate ft fitted knn poly tl (Halving eta fr mr mf) ml n log d e g xe y r g' ml A R (or_introl eq_refl) R1 R2 B T F) as (pop & s & limit & dl & ending & out & S & SE & W & SO & ND & (i & f & b & pop' & EP) & K & K2).
  unfold Whole_Model.search in SE. rewrite EP in SE. rewrite <- EP in SE.
  destruct (Proc_Model.q_asha_phase (e_call e xe y (i_labels g') dl) (e_scores e) (i_pset g') ml eta fr mr mf n log d (individuals_of pop) (Proc_Model.before_h s (e_plan e))) as [x [w p]] eqn:ER. cbn [fst] in SE.
  exists pop, s, dl, x, w, p. split; [exact S|]. split; [exact ER|].
  assert (EI : exists i start', individuals_of pop = i :: start') by (exists i, (individuals_of pop'); rewrite EP; reflexivity).
  destruct (asha_ends _ _ _ _ _ _ _ _ _ _ _ _ _ _ _ _ _ W SO ND R1 R2 R3 R4 R5 EI ER) as [(N & EO)|(N & l & EO & NE)].
  - rewrite EO in SE. injection SE as <- _. left. split; [exact N|]. apply K2; [reflexivity|]. intros [Z|[Z|Z]]; discriminate.
  - rewrite EO in SE. injection SE as <- H2. destruct (asha_found _ _ _ _ _ _ _ _ _ _ _ _ _ _ _ _ _ _ W SO ND R1 R2 R3 R4 ER EO) as (_ & FO & _).
    right. split; [exact N|]. destruct (K (or_introl eq_refl) _ _ _ _ _ FO (eq_sym H2)) as [(Z & _)|(_ & Z)]; [contradiction|exact Z].
Qed.
(** C171: fit with the evolutionary search, likewise, with the final population in the place of
    the results, as long as the search itself does not break down; otherwise fit raises the exception of the
    search.  Those are the ValueError of selecting from fewer than three pipelines, and the ones that
    [breakdown] lists for single scores, limits of three or more steps, and a limit of one step. *)
Lemma C171_evolutionary_main :
  forall E (build : nat -> list (string * value) -> res E) estimator train rate fit_transform fitted knn poly takes_labels max_retry pop_size max_n restart max_length n log defaults g e xe y r g' k,
  accepted rate fit_transform (this_call build estimator train (Evolution max_retry pop_size max_n restart) max_length n log defaults e) g xe y ->
  ready (i_pset g') max_length e g -> pset_typed (i_pset g') -> pset_rich (i_pset g') -> allows_one max_length -> 0 < max_retry ->
  (forall j, length (e_scores e j) = k) -> (match max_n with Some m => (0 < m)%Z | None => True end) ->
  (forall c kwargs, exists x, build c kwargs = Ok x) -> (forall made x y, exists m, train made x y = Ok m) ->
  fit rate fit_transform fitted knn poly fitness_of takes_labels (this_call build estimator train (Evolution max_retry pop_size max_n restart) max_length n log defaults e) g = (r, g') ->
  exists pop (s : setting) deadline ending w p,
    started_from (this_call build estimator train (Evolution max_retry pop_size max_n restart) max_length n log defaults e) g (i_pset g') pop /\
    seen_before s = seen_before (e_mem e) /\
    Proc_Model.p_search (e_call e xe y (i_labels g') deadline) (e_scores e) (i_pset g') max_length max_retry pop_size max_n restart n log defaults (individuals_of pop) (Proc_Model.before_search s (e_plan e)) = (ending, (w, p)) /\
    ((ending = Ok tt \/ ending = Err Diverges) /\ (v_pop w = [] /\ r = Err IndexError \/ v_pop w <> [] /\ exists v, r = Ok v) \/
     ending = Err ValueError /\ length (v_pop w) < 3 /\ r = Err ValueError \/
     breakdown (i_pset g') max_length k w ending /\ exists ex, ending = Err ex /\ r = Err ex).
Proof.
  intros E build estimator train rate ft fitted knn poly tl mr pz mn rs ml n log d g e xe y r g' k A R TY R1 R2 HN K1 HM B T F.
  destruct (accepted_search build estimator train rate ft fitted knn poly tl (Evolution mr pz mn rs) ml n log d e g xe y r g' ml A R (or_introl eq_refl) R1 R2 B T F) as (pop & s & limit & dl & ending & out & S & SE & W & SO & ND & (i & f & b & pop' & EP) & K & K2).
  unfold Whole_Model.search in SE. rewrite EP in SE. rewrite <- EP in SE.
  destruct (Proc_Model.p_search (e_call e xe y (i_labels g') dl) (e_scores e) (i_pset g') ml mr pz mn rs n log d (individuals_of pop) (Proc_Model.before_search (mkSetting s (seen_before (e_mem e))) (e_plan e))) as [x [w p]] eqn:ER. injection SE as H1 H2. cbn [fst] in H2.
  change (wf_heap (s_heap (mkSetting s (seen_before (e_mem e))))) in W. change (start_ok (i_pset g') ml (mkSetting s (seen_before (e_mem e))) (individuals_of pop)) in SO.
  exists pop, (mkSetting s (seen_before (e_mem e))), dl, x, w, p. split; [exact S|]. split; [reflexivity|]. split; [exact ER|].
  assert (SO' : start_ok (i_pset g') None (mkSetting s (seen_before (e_mem e))) (individuals_of pop)) by (eapply start_none; exact SO).
  pose proof (Proc_Main.C160_breakdown_main _ _ _ _ _ _ _ _ _ _ _ _ _ _ _ _ _ _ TY R1 R2 HN K1 W SO HM ER) as C.
  assert (C' : (x = Ok tt \/ x = Err Diverges) \/ (x = Err ValueError /\ length (v_pop w) < 3) \/ breakdown (i_pset g') ml k w x) by tauto. clear C. destruct C' as [C|[(-> & L)|C]].
  - assert (X : End_Proofs.stopped x) by (destruct C as [-> | ->]; repeat split; discriminate).
    destruct (evo_found _ _ _ _ _ _ _ _ _ _ _ _ _ _ _ _ _ TY HN W SO' ND X ER) as (_ & _ & _ & FO).
    assert (EN : ended ending) by (rewrite <- H1; left; destruct C as [-> | ->]; reflexivity).
    left. split; [exact C|]. destruct (K EN _ _ _ _ _ FO (eq_sym H2)) as [(Z1 & Z2)|(Z1 & Z2)]; auto.
  - right. left. split; [reflexivity|]. split; [exact L|]. apply K2; [rewrite <- H1; reflexivity|rewrite <- H1; intros [Z|[Z|Z]]; discriminate].
  - right. right. split; [exact C|].
    assert (XE : x = Err IndexError \/ x = Err AttributeError \/ x = Err ValueError).
    { destruct C as [(C & _)|(m & ss & lim & _ & _ & _ & [(_ & [C|C])|(_ & _ & _ & C)])]; auto. }
    destruct XE as [-> |[-> | ->]]; (eexists; split; [reflexivity|]; apply K2; [rewrite <- H1; reflexivity|rewrite <- H1; intros [Z|[Z|Z]]; discriminate]).
Qed.

(** The fits of the examples: two workers, of which the first works on the jobs in turn; a
    trained model answers with the codes of its steps: 100 and the number of
    columns for a fixed one, the class for the others. *)
Definition ex_plan (m k : nat) : list Sys_Model.turn :=
  repeat (Sys_Main.at_work []) m ++ concat (repeat [Sys_Main.at_work [Sys_Main.get 1; Sys_Main.exec 1; Sys_Main.flush 1]; Sys_Main.at_work []] k).
Definition ex_shops (levels : nat) : frame :=
  mkFrame (map Z.of_nat (seq 0 12)) [mkCol (NStr "shop") DCategory (map (fun k => CNum (Q2Qc (inject_Z (Z.of_nat (Nat.min k levels))))) (seq 0 12))].
Definition ex_wide : frame := mkFrame [0%Z; 1%Z] (map (fun k => mkCol (NInt k) DFloat [CNum 1%Qc; CNum 0%Qc]) (seq 0 51)).
Definition ex_estimator (s : enc_step) : string * nat := (st_name s, 100 + length (st_columns s)).
Definition ex_made (c : nat) (kwargs : list (string * value)) : res nat := Ok c.
Definition ex_trained (made : list (string * nat)) (x : frame) (y : yout) : res model :=
  Ok (mkModel (fun f => Ok (map (fun ne => ex_label (snd ne)) made)) (fun _ => Err AttributeError)).
Definition ex_memory : st := mkSt (ex_heap []) (map (fun k => (k * k + 3 * k + 1) mod 13) (seq 0 400)) 0.
Definition ex_circ (x : frame) (warm : option (list (option obj))) (plan : list Sys_Model.turn) : circumstances :=
  mkCirc (XFrame x) (YVec (map ex_label (seq 0 (length (f_index x))))) [TPlain DFloat] warm (fun _ => Ok tt) Z.of_nat (Some []) (first_fit ex_memory)
    (fun _ _ _ _ => Again_Main.steady_call) Sys_Main.ex_scores plan.
Definition ex_poly (p : primitive) : bool := p_class p =? 2.
Notation ex_whole how e g :=
  (fit 1 ex_ft ex_fitted no_prim ex_poly fitness_of true (this_call ex_made ex_estimator ex_trained how (Some 3%Z) 2 true [] e) g).
Definition ex_object (stores : bool) : inst obj := new_inst false 100 (1 # 10) stores "all" (Some []) ex_ps.
Definition ex_asked (g : inst obj) : res (list label) :=
  predict (fun _ => Err ValueError) (fun _ => Err ValueError) (fun _ _ => Err TypeError) (i_gama g) (XFrame ex_x).
Definition few := ex_circ (ex_shops 2) (Some []) (ex_plan 50 4).
Definition many := ex_circ (ex_shops 12) None (ex_plan 3 3).
Definition wide := ex_circ ex_wide None (ex_plan 3 3).
Lemma shown c g g' mx xe y objects found fixed : model_of ex_made ex_estimator ex_trained ex_ft ex_fitted c g g' mx xe y objects found fixed -> i_classifier g = false ->
  exists i ss f own, ex_asked g' = Ok (map (fun ne => ex_label (snd ne)) (map ex_estimator f ++ own)) /\ fixed i f /\ pipeline_ok (i_pset g') ss /\
    Forall2 (fun st ne => p_class (fst st) = snd ne) (rev ss) own.
Proof.
  intros (x & classes & types & steps & m & ss & f & made & model & T & _ & _ & _ & _ & _ & O & _ & F & (own & -> & MF) & TR & A) C.
  unfold training_data in T. rewrite C in T. destruct T as (-> & _). exists (m_ind m), ss, f, own. split; [|split; [exact F|split; [exact O|]]].
  - injection TR as <-. unfold ex_asked. rewrite (proj1 (A _ _ _)). reflexivity.
  - clear - MF. induction MF as [|st ne l l' (kw & E1 & _) MF IH]; constructor; [|exact IH]. injection E1 as ->. reflexivity.
Qed.
Lemma ex_memory_wf : wf_heap (s_heap ex_memory).
Proof. intros l _. reflexivity. Qed.
Lemma ex_scores_fine : forall k, Forall (fun x => x <> NaN) (Sys_Main.ex_scores k).
Proof. intros k. repeat constructor; discriminate. Qed.
Lemma ex_given how x l plan : (l = None \/ l = Some []) -> forall space, given_ok how (Some 3%Z) space (ex_circ x l plan).
Proof.
  intros H space. split; [exact ex_memory_wf|]. intros l0 E0 N. exfalso. cbn [ex_circ e_warm] in E0. destruct H as [-> | ->]; [discriminate|]. injection E0 as E0. destruct l0; [apply N; reflexivity|discriminate].
Qed.
Lemma label_inj a b : Q2Qc (inject_Z (Z.of_nat a)) = Q2Qc (inject_Z (Z.of_nat b)) -> a = b.
Proof. intros H. apply (f_equal this) in H. cbn [this Q2Qc] in H. assert (Q : inject_Z (Z.of_nat a) == inject_Z (Z.of_nat b)) by (rewrite <- (Qred_correct (inject_Z (Z.of_nat a))), H; apply Qred_correct). unfold inject_Z, Qeq in Q. simpl in Q. lia. Qed.
Lemma same_label a b : ex_label a = ex_label b -> a = b.
Proof. intros H. apply label_inj. exact (f_equal (fun l => match l with LNum q => q | _ => 0%Qc end) H). Qed.
Lemma first_label a l b m : Ok (map ex_label (a :: l)) = Ok (ex_label b :: m) -> a = b.
Proof. intros H. apply same_label. exact (f_equal (fun r => match r with Ok (x :: _) => x | _ => ex_label 0 end) H). Qed.
Definition rs3 := RandomSearch (Some 3%Z).
Notation ex_series := (series ex_made ex_estimator ex_trained 1 ex_ft ex_fitted no_prim ex_poly true rs3 (Some 3%Z) 2 true []).
Notation ex_first := (ex_whole rs3 few (ex_object false)).
Lemma ex_series_few : ex_series (snd ex_first).
Proof. apply next_fit; [apply no_fit|apply ex_given; auto|exact Logic.I|]. apply C169_space_main. reflexivity. Qed.
Notation ex_second := (ex_whole rs3 many (snd ex_first)).

(** C170 is false.  Of the steps: the column of shops has few values in the data of the first fit and many in
    those of the second.  The second search starts from the pipelines of the first, which keep the
    steps made for the first data, and so the column is not encoded. *)
Lemma C170_steps_refuted_main :
  ~ (forall E (build : nat -> list (string * value) -> res E) estimator train rate fit_transform fitted knn poly takes_labels how max_length n log defaults g e r g',
     series build estimator train rate fit_transform fitted knn poly takes_labels how max_length n log defaults g ->
     given_ok how max_length (i_pset g) e -> suits how max_length (i_pset g) e -> clear_names (i_pset g) -> (forall k, Forall (fun x => x <> NaN) (e_scores e k)) ->
     fit rate fit_transform fitted knn poly fitness_of takes_labels (this_call build estimator train how max_length n log defaults e) g = (Ok r, g') ->
     exists xe y objects found,
       model_of build estimator train fit_transform fitted (this_call build estimator train how max_length n log defaults e) g g' (limit_kept how max_length) xe y
         objects found (fun _ f => f = i_extension g')).
Proof.
  intros H.
  assert (A1 : i_pset (snd ex_first) = ex_ps) by (apply C169_space_main; reflexivity).
  assert (A2 : clear_names (i_pset (snd ex_first))) by (rewrite A1; exact End_Main.ex_clear).
  assert (A3 : fst ex_second = Ok Self) by (vm_compute; reflexivity).
  assert (A4 : ex_asked (snd ex_second) = Ok (map ex_label [100; 100; 3; 2; 1])) by (vm_compute; reflexivity).
  assert (A5 : hd 0 (map (fun s => length (st_columns s)) (i_extension (snd ex_second))) = 1) by (vm_compute; reflexivity).
  assert (A6 : i_classifier (snd ex_first) = false) by (vm_compute; reflexivity).
  assert (A7 : ex_second = (Ok Self, snd ex_second)) by (rewrite <- A3; apply surjective_pairing).
  assert (A8 := ex_series_few).
  assert (A9 := ex_given rs3 _ None (ex_plan 3 3) (or_introl eq_refl) (i_pset (snd ex_first)) : given_ok rs3 (Some 3%Z) (i_pset (snd ex_first)) many).
  destruct (H _ ex_made ex_estimator ex_trained 1%positive ex_ft ex_fitted no_prim ex_poly true rs3 (Some 3%Z) 2 true [] (snd ex_first) many Self (snd ex_second)
    A8 A9 Logic.I A2 ex_scores_fine A7) as (xe & y & objects & found & M). clear H A9 A8 A7 A3 A1 A2.
  apply shown in M; [|exact A6]. destruct M as (_ & _ & f & own & Q & -> & _). rewrite A4 in Q. clear A4 A6.
  destruct (i_extension (snd ex_second)) as [|s rest]; [discriminate|]. cbn [map hd] in A5. apply first_label in Q. unfold ex_estimator in Q. cbn [snd] in Q. rewrite A5 in Q. discriminate.
Qed.
(** Of the algorithms: the data of the second fit are so wide that polynomial features are
    excluded, but the pipelines of the first fit, from which the second search starts, still have them. *)
Notation ex_third := (ex_whole rs3 few (ex_object true)).
Notation ex_fourth := (ex_whole rs3 wide (snd ex_third)).
Lemma C170_space_refuted_main :
  ~ (forall E (build : nat -> list (string * value) -> res E) estimator train rate fit_transform fitted knn poly takes_labels how max_length n log defaults g e r g',
     series build estimator train rate fit_transform fitted knn poly takes_labels how max_length n log defaults g ->
     given_ok how max_length (i_pset g) e -> suits how max_length (i_pset g) e -> clear_names (i_pset g) -> (forall k, Forall (fun x => x <> NaN) (e_scores e k)) ->
     fit rate fit_transform fitted knn poly fitness_of takes_labels (this_call build estimator train how max_length n log defaults e) g = (Ok r, g') ->
     exists xe y objects found,
       model_of build estimator train fit_transform fitted (this_call build estimator train how max_length n log defaults e) g g' (limit_kept how max_length) xe y
         objects found (fun _ f => True)).
Proof.
  intros H.
  assert (A1 : i_pset (snd ex_third) = ex_ps) by (vm_compute; reflexivity).
  assert (A2 : clear_names (i_pset (snd ex_third))) by (rewrite A1; exact End_Main.ex_clear).
  assert (A3 : fst ex_fourth = Ok Self) by (vm_compute; reflexivity).
  assert (A4 : ex_asked (snd ex_fourth) = Ok (map ex_label [100; 100; 3; 2; 1])) by (vm_compute; reflexivity).
  assert (A5 : i_pset (snd ex_fourth) = mkPset [("prediction", [ex_bnb; ex_gnb]); ("data", [ex_pca])] (ps_terms ex_ps)) by (vm_compute; reflexivity).
  assert (A6 : i_classifier (snd ex_third) = false) by (vm_compute; reflexivity).
  assert (A7 : ex_fourth = (Ok Self, snd ex_fourth)) by (rewrite <- A3; apply surjective_pairing).
  assert (A8 : ex_series (snd ex_third)).
  { apply next_fit; [apply no_fit|apply ex_given; auto|exact Logic.I|exact A1]. }
  assert (A9 := ex_given rs3 _ None (ex_plan 3 3) (or_introl eq_refl) (i_pset (snd ex_third)) : given_ok rs3 (Some 3%Z) (i_pset (snd ex_third)) wide).
  destruct (H _ ex_made ex_estimator ex_trained 1%positive ex_ft ex_fitted no_prim ex_poly true rs3 (Some 3%Z) 2 true [] (snd ex_third) wide Self (snd ex_fourth)
    A8 A9 Logic.I A2 ex_scores_fine A7) as (xe & y & objects & found & M). clear H A9 A7 A8 A3 A1 A2.
  apply shown in M; [|exact A6]. destruct M as (_ & ss & f & own & Q & _ & O & F). rewrite A4 in Q. rewrite A5 in O. clear A4 A5 A6.
  rewrite map_app, map_map in Q.
  assert (N : forall st, In st ss -> p_class (fst st) <> 2).
  { destruct ss as [|st0 ss]; [destruct O|]. destruct O as ((O1 & _) & O2). rewrite Forall_forall in O2. intros st [<- |I0].
    - unfold prims_of in O1. simpl in O1. destruct O1 as [<- |[<- |[]]]; discriminate.
    - apply O2 in I0. destruct I0 as (I0 & _). unfold prims_of in I0. simpl in I0. destruct I0 as [<- |[]]; discriminate. }
  assert (N2 : forall k, In k (map snd own) -> k <> 2).
  { intros k Hk. assert (G : exists st, In st (rev ss) /\ p_class (fst st) = k).
    { clear - F Hk. induction F as [|a b la lb HF F IH]; [destruct Hk|]. destruct Hk as [<- |Hk]; [exists a; split; [left; reflexivity|exact HF]|]. destruct (IH Hk) as (st & I1 & I2). exists st. split; [right; exact I1|exact I2]. }
    destruct G as (st & G1 & <-). apply N. apply in_rev. exact G1. }
  assert (Z : In (ex_label 2) (map (fun x => ex_label (snd (ex_estimator x))) f ++ map (fun ne => ex_label (snd ne)) own)).
  { assert (Q2 : map ex_label [100; 100; 3; 2; 1] = map (fun x => ex_label (snd (ex_estimator x))) f ++ map (fun ne => ex_label (snd ne)) own) by congruence. rewrite <- Q2. apply in_map. right. right. right. left. reflexivity. }
  apply in_app_or in Z as [Z|Z]; apply in_map_iff in Z as (z & Z & I0); apply same_label in Z.
  - unfold ex_estimator in Z. cbn [snd] in Z. lia.
  - apply (N2 (snd z)); [apply in_map; exact I0|exact Z].
Qed.
Lemma ex_ready space l plan : ready space l (ex_circ (ex_shops 2) (Some []) plan) (ex_object false).
Proof.
  split; [exact ex_memory_wf|]. split; [|intros _ N; exfalso; apply N; reflexivity].
  intros l0 E0 N. exfalso. cbn [ex_circ e_warm] in E0. injection E0 as E0. destruct l0; [apply N; reflexivity|discriminate].
Qed.
(** C168 applies: an object with the search space of the examples, fitted with each of the search
    methods; afterwards it answers with the model whose steps are the target encoder for
    no columns, the imputer and the three steps of the third of the new pipelines. *)
Example C168_ex_main :
  history 1 ex_ft ex_fitted no_prim ex_poly fitness_of true (ex_object false) /\
  ready ex_ps (Some 3%Z) few (ex_object false) /\ ready ex_ps None few (ex_object false) /\ starts_anew few (ex_object false) /\
  clear_names ex_ps /\ pset_typed ex_ps /\ pset_rich ex_ps /\ (forall k, Forall (fun x => x <> NaN) (e_scores few k)) /\
  (let z := ex_whole rs3 few (ex_object false) in
   fst z = Ok Self /\ i_pset (snd z) = ex_ps /\ ex_asked (snd z) = Ok (map ex_label [100; 100; 3; 2; 1])) /\
  (let z := ex_whole (Evolution 50 50 (Some 3%Z) false) few (ex_object false) in
   fst z = Ok Self /\ i_pset (snd z) = ex_ps /\ ex_asked (snd z) = Ok (map ex_label [100; 100; 3; 2; 1])) /\
  (let z := ex_whole (Halving 3 0 2%Z (Some 1%Z)) (ex_circ (ex_shops 2) (Some []) (ex_plan 8 20)) (ex_object false) in
   fst z = Ok Self /\ i_pset (snd z) = ex_ps /\ ex_asked (snd z) = Ok (map ex_label [100; 100; 3; 2; 1])).
Proof.
  split; [apply constructed|]. split; [apply ex_ready|]. split; [apply ex_ready|]. split; [left; reflexivity|]. split; [exact End_Main.ex_clear|]. split; [exact ex_typed|].
  split; [exact Gp_Examples.ex_rich|]. split; [exact ex_scores_fine|]. cbv zeta.
  split; [split; [vm_compute; reflexivity|split; vm_compute; reflexivity]|]. split; (split; [vm_compute; reflexivity|split; vm_compute; reflexivity]).
Qed.
(** C169: two fits of one object; the second search starts from the three pipelines that
    the first has evaluated. *)
Example C169_ex_main :
  ex_series (snd ex_first) /\ given_ok rs3 (Some 3%Z) (i_pset (snd ex_first)) many /\ length (i_final (snd ex_first)) = 3 /\
  clear_names (i_pset (snd ex_first)) /\ (forall k, Forall (fun x => x <> NaN) (e_scores many k)) /\
  fst ex_second = Ok Self /\ ex_asked (snd ex_second) = Ok (map ex_label [100; 100; 3; 2; 1]).
Proof.
  split; [exact ex_series_few|]. split; [apply (ex_given rs3 _ None (ex_plan 3 3) (or_introl eq_refl))|]. split; [vm_compute; reflexivity|].
  split; [|split; [exact ex_scores_fine|split; vm_compute; reflexivity]].
  assert (A : i_pset (snd ex_first) = ex_ps) by (vm_compute; reflexivity). rewrite A. exact End_Main.ex_clear.
Qed.
(** C170: with warm_start=[] the second fit encodes the column of shops. *)
Example C170_ex_main :
  let e := ex_circ (ex_shops 12) (Some []) (ex_plan 50 4) in
  history 1 ex_ft ex_fitted no_prim ex_poly fitness_of true (snd ex_first) /\ starts_anew e (snd ex_first) /\ wf_heap (s_heap (e_mem e)) /\
  suits rs3 (Some 3%Z) (i_pset (snd ex_first)) e /\
  fst (ex_whole rs3 e (snd ex_first)) = Ok Self /\ ex_asked (snd (ex_whole rs3 e (snd ex_first))) = Ok (map ex_label [101; 100; 3; 2; 1]).
Proof.
  split; [apply refitted, constructed|]. split; [left; reflexivity|]. split; [exact ex_memory_wf|]. split; [exact Logic.I|]. split; vm_compute; reflexivity.
Qed.
(** C171: the same search methods, with workers that deliver and with workers that deliver nothing. *)
Lemma ex_accepted how ml plan : exists xe y, accepted 1 ex_ft (this_call ex_made ex_estimator ex_trained how ml 2 true [] (ex_circ (ex_shops 2) (Some []) plan)) (ex_object false) xe y.
Proof.
  destruct (format_x_y (XFrame (ex_shops 2)) (YVec (map ex_label (seq 0 (length (f_index (ex_shops 2)))))) TSeries true) as [[x y]|ex] eqn:E1; [|exfalso; vm_compute in E1; discriminate].
  destruct (preprocess ex_ft x false) as [[[xe steps] ext]|ex] eqn:E2; [|exfalso; revert E2; vm_compute in E1; injection E1 as <- _; vm_compute; discriminate].
  destruct (inferred_dtypes (XFrame (ex_shops 2)) [TPlain DFloat]) as [types|ex] eqn:E3; [|exfalso; vm_compute in E3; discriminate].
  exists xe, y, x, None, types, steps, ext. split; [split; [reflexivity|exact E1]|]. split; [reflexivity|]. split; [exact E3|]. split; [exact E2|]. split; [vm_compute; discriminate|].
  split; [intros l [= <-] []|]. split; [left; reflexivity|]. intros entries [= <-] z [].
Qed.
Notation ex_none := (ex_circ (ex_shops 2) (Some []) (ex_plan 50 0)).
Notation ex_short how e := (fit 1 ex_ft ex_fitted no_prim ex_poly fitness_of true (this_call ex_made ex_estimator ex_trained how (Some 2%Z) 2 true [] e) (ex_object false)).
Example C171_ex_main :
  (forall how ml e, e = few \/ e = ex_none -> (exists xe y, accepted 1 ex_ft (this_call ex_made ex_estimator ex_trained how ml 2 true [] e) (ex_object false) xe y) /\ ready ex_ps ml e (ex_object false)) /\
  pset_typed ex_ps /\ pset_rich ex_ps /\ roomy ex_ps (Some 2%Z) /\ allows_one (Some 2%Z) /\ (forall k, length (Sys_Main.ex_scores k) = 2) /\
  (forall how e, In (how, e) [(rs3, few); (rs3, ex_none); (Evolution 50 50 (Some 3%Z) false, few); (Evolution 50 50 (Some 3%Z) false, ex_none); (Halving 3 0 2%Z (Some 1%Z), ex_none)] -> i_pset (snd (ex_short how e)) = ex_ps) /\
  fst (ex_short rs3 few) = Ok Self /\ fst (ex_short rs3 ex_none) = Err IndexError /\
  fst (ex_short (Evolution 50 50 (Some 3%Z) false) few) = Ok Self /\ fst (ex_short (Evolution 50 50 (Some 3%Z) false) ex_none) = Err IndexError /\
  fst (ex_short (Halving 3 0 2%Z (Some 1%Z)) (ex_circ (ex_shops 2) (Some []) (ex_plan 8 20))) = Ok Self /\ fst (ex_short (Halving 3 0 2%Z (Some 1%Z)) ex_none) = Err UnboundLocalError.
Proof.
  split; [intros how ml e [-> | ->]; split; try apply ex_accepted; apply ex_ready|]. split; [exact ex_typed|]. split; [exact Gp_Examples.ex_rich|].
  split; [right; left; reflexivity|]. split; [cbn; lia|]. split; [reflexivity|].
  split; [intros how e [[= <- <-]|[[= <- <-]|[[= <- <-]|[[= <- <-]|[[= <- <-]|[]]]]]]; vm_compute; reflexivity|].
  split; [vm_compute; reflexivity|]. split; [vm_compute; reflexivity|]. split; [vm_compute; reflexivity|]. split; [vm_compute; reflexivity|]. split; vm_compute; reflexivity.
Qed.

(** C174: ASHA comes to its end. *)
(*IMPORTS*)
Require Import ZArith QArith Qcanon.
From Verif Require Import Base Num Lib_Spec Data_Model Data_Spec Gp_Model Gp_Spec Gp_Examples Eval_Model Evo_Model Evo_Spec Rnd_Model Rnd_Spec End_Model End_Spec Pred_Model Fit_Model Fit_Spec Proc_Spec Whole_Model Whole_Spec Done_Spec Top_Spec.
From Verif Require Async_Model Sys_Model Proc_Model Sys_Main Again_Main Whole_Main Live_Spec Live_Main Done_Main.
Open Scope string_scope.
Open Scope nat_scope.
Open Scope list_scope.
(*END*)
Require Import Lia.
From Verif Require Import Rnd_Proofs3 Top_Proofs.
From Verif Require Whole_Proofs Rnd_Proofs Rnd_Main Proc_Main Proc_Proofs Proc_Proofs2 Whole_Proofs2 Proc_Proofs3 Whole_Proofs3.

Lemma phase_bound ps mx eta f R m warm es s x w : 0 < eta -> wf_heap (s_heap s) -> start_ok ps mx s warm -> NoDup (map i_id warm) -> calm_world ps mx f R es ->
  asha_phase ps mx eta f R (Some m) warm es (fresh_h s) = (x, w) ->
  length (finished (q_trace w)) <= results_needed eta (lost (q_trace w)) (Z.to_nat m) (Z.to_nat R - f) /\
  (x <> Ok tt -> length (finished (q_trace w)) < results_needed eta (lost (q_trace w)) (Z.to_nat m) (Z.to_nat R - f)).
Proof.
  intros ETA W SO ND C H. unfold asha_phase, hbind in H. destruct (Rnd_Model.candidates ps mx warm (fresh_h s)) as [y w1] eqn:E1.
  destruct (Rnd_Main.candidates_ok ps mx warm s y w1 W SO E1) as (s1 & -> & W1 & Hy). destruct y as [l|e].
  - destruct Hy as (G & L & N & _). exact (asha_bound ps mx eta f R ETA m l es s1 x w (N ND) W1 G C H).
  - exfalso. destruct C as (C1 & C2 & _). destruct Hy as (CE & _). eapply Rnd_Proofs.no_creation; eauto.
Qed.
Lemma phase_reaches ps mx eta f R mf m warm es s x w : 0 < eta -> wf_heap (s_heap s) -> start_ok ps mx s warm -> NoDup (map i_id warm) -> calm_world ps mx f R es ->
  asha_phase ps mx eta f R mf warm es (fresh_h s) = (x, w) ->
  (Z.of_nat (length (scored (Z.to_nat R) (q_trace w))) < m)%Z -> length (finished (q_trace w)) < results_needed eta (lost (q_trace w)) (Z.to_nat m) (Z.to_nat R - f).
Proof.
  intros ETA W SO ND C H. unfold asha_phase, hbind in H. destruct (Rnd_Model.candidates ps mx warm (fresh_h s)) as [y w1] eqn:E1.
  destruct (Rnd_Main.candidates_ok ps mx warm s y w1 W SO E1) as (s1 & -> & W1 & Hy). destruct y as [l|e].
  - destruct Hy as (G & L & N & _). exact (asha_reaches ps mx eta f R ETA mf m l es s1 x w (N ND) W1 G C H).
  - exfalso. destruct C as (C1 & C2 & _). destruct Hy as (CE & _). eapply Rnd_Proofs.no_creation; eauto.
Qed.
Lemma arrivals_length t : length (arrivals t) = length (finished t).
Proof. induction t as [|[] t IH]; cbn; auto. Qed.

(** C174.  ASHA gets at most so many results before it ends, as are enough for
    max_full_evaluations scores on the top rung, whatever the workers do; when it has not ended, fewer. *)
Lemma C174_results_main :
  forall call scores n log defaults ps max_length eta first_rung max_rung m warm_start s plan x w p,
  0 < eta -> (forall k, scores k <> []) ->
  wf_heap (s_heap s) -> start_ok ps max_length s warm_start -> NoDup (map i_id warm_start) -> pset_rich ps -> allows_one max_length -> (Z.of_nat first_rung <= max_rung)%Z ->
  Proc_Model.q_asha_phase call scores ps max_length eta first_rung max_rung (Some m) n log defaults warm_start (Proc_Model.before_h s plan) = (x, (w, p)) ->
  length (arrivals (q_trace w)) <= results_needed eta (lost (q_trace w)) (Z.to_nat m) (Z.to_nat max_rung - first_rung) /\
  (x <> Ok tt -> length (arrivals (q_trace w)) < results_needed eta (lost (q_trace w)) (Z.to_nat m) (Z.to_nat max_rung - first_rung)).
Proof.
  intros call scores n log d ps ml eta fr mr m warm s plan x w p ETA SC H1 H2 ND H3 H4 H5 E.
  destruct (Proc_Proofs3.asha_top _ _ _ _ _ _ _ _ _ _ _ _ _ _ _ _ _ E) as (_ & _ & es & C & _ & D).
  assert (HS : Forall has_score es). { eapply Forall_impl; [|exact C]. intros e. unfold Proc_Proofs.scored_by, has_score. destruct (e_out e) as [|[|z sc] b]; auto. intros (k & Ek). apply (SC k). auto. }
  pose proof (phase_bound ps ml eta fr mr m warm es s x _ ETA H1 H2 ND (conj H3 (conj H4 (conj H5 HS))) D) as K. cbn [Proc_Proofs3.setq q_trace] in K. rewrite arrivals_length. exact K.
Qed.

(** C174: also without max_full_evaluations (the default), whatever the workers do: so many
    results bring [m] pipelines to the top rung. *)
Lemma C174_top_main :
  forall call scores n log defaults ps max_length eta first_rung max_rung max_full warm_start s plan x w p m,
  0 < eta -> (forall k, scores k <> []) ->
  wf_heap (s_heap s) -> start_ok ps max_length s warm_start -> NoDup (map i_id warm_start) -> pset_rich ps -> allows_one max_length -> (Z.of_nat first_rung <= max_rung)%Z ->
  Proc_Model.q_asha_phase call scores ps max_length eta first_rung max_rung max_full n log defaults warm_start (Proc_Model.before_h s plan) = (x, (w, p)) ->
  results_needed eta (lost (q_trace w)) m (Z.to_nat max_rung - first_rung) <= length (arrivals (q_trace w)) ->
  m <= length (scored (Z.to_nat max_rung) (q_trace w)).
Proof.
  intros call scores n log d ps ml eta fr mr mf warm s plan x w p m ETA SC H1 H2 ND H3 H4 H5 E L.
  destruct (Proc_Proofs3.asha_top _ _ _ _ _ _ _ _ _ _ _ _ _ _ _ _ _ E) as (_ & _ & es & C & _ & D).
  assert (HS : Forall has_score es). { eapply Forall_impl; [|exact C]. intros e. unfold Proc_Proofs.scored_by, has_score. destruct (e_out e) as [|[|z sc] b]; auto. intros (k & Ek). apply (SC k). auto. }
  pose proof (phase_reaches ps ml eta fr mr mf (Z.of_nat m) warm es s x _ ETA H1 H2 ND (conj H3 (conj H4 (conj H5 HS))) D) as K. cbn [Proc_Proofs3.setq q_trace] in K. rewrite arrivals_length in L.
  rewrite Nat2Z.id in K. destruct (le_lt_dec m (length (scored (Z.to_nat mr) (q_trace w)))) as [|LT]; auto. exfalso. specialize (K ltac:(lia)). lia.
Qed.

(** Lost results are those of failing evaluations. *)
Definition is_lost (x : individual * nat * outcome) : bool := match snd x with Evaluated (_ :: _) _ => false | _ => true end.
Lemma lost_arrivals t : lost t = length (filter is_lost (arrivals t)).
Proof. induction t as [|[i r|i r [|[|z sc] b]] t IH]; cbn; auto. Qed.
Lemma lost_few call scores d failing w : (forall k, scores k <> []) -> h_from_workers call scores d w -> yields call d failing -> lost (q_trace w) <= length failing.
Proof.
  intros SC (ks & N & F) (_ & Y). rewrite lost_arrivals.
  assert (K : exists ks', NoDup ks' /\ incl ks' ks /\ incl ks' failing /\ length ks' = length (filter is_lost (arrivals (q_trace w)))).
  { clear - SC N F Y. induction F as [|k [[i r] o] ks l H F IH]; [exists []; split; [constructor|split; [intros z []|split; [intros z []|auto]]]|].
    inversion N as [|? ? N1 N2]; subst. destruct (IH N2) as (ks' & K1 & K2 & K3 & K4). destruct H as (j & _ & _ & c & _ & LE).
    cbn [filter]. unfold is_lost at 1. cbn [snd].
    assert (G : (match o with Evaluated (_ :: _) _ => false | _ => true end) = true -> In k failing).
    { intros B. destruct (in_dec Nat.eq_dec k failing) as [?|NI]; auto. exfalso. destruct (Y k c NI) as (v & e & EC). rewrite EC in LE. destruct LE as (fl & -> & _). pose proof (SC v). destruct (scores v); [congruence|discriminate]. }
    destruct (match o with Evaluated (_ :: _) _ => false | _ => true end).
    - exists (k :: ks'). split; [constructor; auto|]. split; [intros z [<-|Hz]; [left|right]; auto|]. split; [intros z [<-|Hz]; auto|]. cbn. auto.
    - exists ks'. split; auto. split; [intros z Hz; right; auto|]. auto. }
  destruct K as (ks' & K1 & _ & K3 & <-). apply NoDup_incl_length; auto.
Qed.
(** C174: when the workers get their turns, and only these evaluations fail, that many rounds
    are enough: the search comes to its end, with all the scores on the top rung. *)
Lemma C174_ends_main :
  forall call scores n log defaults ps max_length eta first_rung max_rung m warm_start s first_turns rounds rest x w p failing,
  0 < n -> 0 < eta -> yields call defaults failing -> Live_Spec.nobody_killed (first_turns ++ concat rounds) -> Forall (Live_Spec.late_round n) rounds -> 8 <= length first_turns ->
  (forall k, scores k <> []) -> results_needed eta (length failing) (Z.to_nat m) (Z.to_nat max_rung - first_rung) <= length rounds ->
  wf_heap (s_heap s) -> start_ok ps max_length s warm_start -> NoDup (map i_id warm_start) -> pset_rich ps -> allows_one max_length -> (Z.of_nat first_rung <= max_rung)%Z ->
  Proc_Model.q_asha_phase call scores ps max_length eta first_rung max_rung (Some m) n log defaults warm_start (Proc_Model.before_h s (first_turns ++ concat rounds ++ rest)) = (x, (w, p)) ->
  x = Ok tt /\ (m <= Z.of_nat (length (scored (Z.to_nat max_rung) (q_trace w))))%Z.
Proof.
  intros call scores n log d ps ml eta fr mr m warm s init rounds rest x w p failing POS ETA Y NK FR LI SC LR H1 H2 ND H3 H4 H5 E.
  destruct (Live_Main.C172_asha_main _ _ _ _ _ _ _ _ _ _ _ _ _ _ _ _ _ _ _ POS (proj1 Y) NK FR LI SC H1 H2 H3 H4 H5 E) as [K|(X & K & _)]; auto. exfalso.
  destruct (C174_results_main _ _ _ _ _ _ _ _ _ _ _ _ _ _ _ _ _ ETA SC H1 H2 ND H3 H4 H5 E) as [_ B]. specialize (B ltac:(congruence)).
  pose proof (Proc_Main.C161_asha_results_main _ _ _ _ _ _ _ _ _ _ _ _ _ _ _ _ _ H1 H2 ND E) as FW. pose proof (lost_few _ _ _ _ _ SC FW Y) as LF.
  pose proof (needed_mono eta ETA (Z.to_nat m) (Z.to_nat mr - fr) _ _ LF). lia.
Qed.
(** C174: the same for any max_full_evaluations, or none: after so many rounds there are [m]
    scores on the top rung, unless the search has ended before that, with max_full_evaluations. *)
Lemma C174_reaches_main :
  forall call scores n log defaults ps max_length eta first_rung max_rung max_full warm_start s first_turns rounds rest x w p failing m,
  0 < n -> 0 < eta -> yields call defaults failing -> Live_Spec.nobody_killed (first_turns ++ concat rounds) -> Forall (Live_Spec.late_round n) rounds -> 8 <= length first_turns ->
  (forall k, scores k <> []) -> results_needed eta (length failing) m (Z.to_nat max_rung - first_rung) <= length rounds ->
  wf_heap (s_heap s) -> start_ok ps max_length s warm_start -> NoDup (map i_id warm_start) -> pset_rich ps -> allows_one max_length -> (Z.of_nat first_rung <= max_rung)%Z ->
  Proc_Model.q_asha_phase call scores ps max_length eta first_rung max_rung max_full n log defaults warm_start (Proc_Model.before_h s (first_turns ++ concat rounds ++ rest)) = (x, (w, p)) ->
  m <= length (scored (Z.to_nat max_rung) (q_trace w)) \/
  exists full, max_full = Some full /\ x = Ok tt /\ (full <= Z.of_nat (length (scored (Z.to_nat max_rung) (q_trace w))))%Z.
Proof.
  intros call scores n log d ps ml eta fr mr mf warm s init rounds rest x w p failing m POS ETA Y NK FR LI SC LR H1 H2 ND H3 H4 H5 E.
  pose proof (Live_Main.C172_asha_main _ _ _ _ _ _ _ _ _ _ _ _ _ _ _ _ _ _ _ POS (proj1 Y) NK FR LI SC H1 H2 H3 H4 H5 E) as K.
  assert (G : length rounds <= length (arrivals (q_trace w)) -> m <= length (scored (Z.to_nat mr) (q_trace w))).
  { intros G. apply (C174_top_main _ _ _ _ _ _ _ _ _ _ _ _ _ _ _ _ _ m ETA SC H1 H2 ND H3 H4 H5 E).
    pose proof (Proc_Main.C161_asha_results_main _ _ _ _ _ _ _ _ _ _ _ _ _ _ _ _ _ H1 H2 ND E) as FW. pose proof (lost_few _ _ _ _ _ SC FW Y) as LF.
    pose proof (needed_mono eta ETA m (Z.to_nat mr - fr) _ _ LF). lia. }
  destruct mf as [full|]; [destruct K as [(-> & K)|(_ & K & _)]|destruct K as (_ & K)]; eauto.
Qed.
(** C174: fit with ASHA then returns, with a model of the best of the pipelines that were
    evaluated on the top rung, that is, on all the data. *)
Lemma C174_fit_main :
  forall E (build : nat -> list (string * value) -> res E) estimator train rate fit_transform fitted knn poly takes_labels eta first_rung max_rung m max_length n log defaults g e xe y r g' failing,
  history rate fit_transform fitted knn poly fitness_of takes_labels g ->
  accepted rate fit_transform (this_call build estimator train (Halving eta first_rung max_rung (Some m)) max_length n log defaults e) g xe y ->
  ready (i_pset g') max_length e g -> pset_rich (i_pset g') -> allows_one max_length -> (Z.of_nat first_rung <= max_rung)%Z -> (forall k, e_scores e k <> []) ->
  clear_names (i_pset g') -> (forall k, Forall (fun x => x <> NaN) (e_scores e k)) ->
  (forall c kwargs, exists x, build c kwargs = Ok x) -> (forall made x y, exists m, train made x y = Ok m) ->
  (0 < m)%Z -> 0 < eta -> 0 < n ->
  (forall xe y labels deadline, yields (e_call e xe y labels deadline) defaults failing) ->
  long_enough n 8 (results_needed eta (length failing) (Z.to_nat m) (Z.to_nat max_rung - first_rung)) (e_plan e) ->
  fit rate fit_transform fitted knn poly fitness_of takes_labels (this_call build estimator train (Halving eta first_rung max_rung (Some m)) max_length n log defaults e) g = (r, g') ->
  exists v, r = Ok v /\
  exists xe y pop s deadline w p,
    let call := e_call e xe y (i_labels g') deadline in
    Proc_Model.q_asha_phase call (e_scores e) (i_pset g') max_length eta first_rung max_rung (Some m) n log defaults (individuals_of pop) (Proc_Model.before_h s (e_plan e)) = (Ok tt, (w, p)) /\
    h_from_workers call (e_scores e) defaults w /\
    (m <= Z.of_nat (length (scored (Z.to_nat max_rung) (q_trace w))))%Z /\
    model_of build estimator train fit_transform fitted (this_call build estimator train (Halving eta first_rung max_rung (Some m)) max_length n log defaults e) g g' max_length xe y
      (h_objects w) (map snd (scored (Z.to_nat max_rung) (q_trace w))) (fun i f => own_steps pop (i_extension g') i f /\ (starts_anew e g -> f = i_extension g')).
Proof.
  intros E build estimator train rate ft fitted knn poly tl eta fr mr m ml n log d g e xe0 y0 r g' failing H A R R1 R2 R3 R4 CN NU B T M0 ETA POS Y LE F.
  assert (RN : forall k a, a < results_needed eta a (Z.to_nat m) k). { induction k as [|k IH]; intros a; cbn [results_needed]; [cbn; lia|]. specialize (IH a). lia. }
  assert (LE0 := LE). destruct LE as (init & rounds & rest & EPL & NK & FR & LI & LF).
  assert (V : exists v, r = Ok v).
  { apply (Done_Main.C173_asha_main E build estimator train rate ft fitted knn poly tl eta fr mr (Some m) ml n log d g e xe0 y0 r g' failing); auto.
    exists init, rounds, rest. split; auto. split; auto. split; auto. split; auto. pose proof (RN (Z.to_nat mr - fr) (length failing)). lia. }
  destruct V as (v & ->). exists v. split; auto.
  destruct (Whole_Main.parts build estimator train rate ft fitted knn poly tl (Halving eta fr mr (Some m)) ml n log d g e v g' H F) as (xe & y & pop & limit & dl & ending & S & SE & EN & DL & K).
  destruct (Whole_Proofs3.asha_search build estimator train ml n log d e g eta fr mr (Some m) _ _ _ _ _ _ _ _ _ _ R1 R2 R3 R4 R S SE EN) as (s & x & w & p & l & Q & FW & FO & TOP & EO & ND & W & SO).
  assert (Q' := Q). rewrite EPL in Q'.
  destruct (C174_ends_main _ _ _ _ _ _ _ _ _ _ _ _ _ _ _ _ _ _ _ failing POS ETA (Y _ _ _ _) NK FR LI R4 (Nat.lt_le_incl _ _ LF) W SO ND R1 R2 R3 Q') as (-> & EM).
  assert (AL : forall m, In m l -> own_steps pop (i_extension g') (m_ind m) (bound (i_extension g') pop (i_id (m_ind m))) /\ (starts_anew e g -> bound (i_extension g') pop (i_id (m_ind m)) = i_extension g')).
  { intros m0 _. pose proof (Whole_Proofs3.bound_own (i_extension g') pop (m_ind m0) ND) as OS. split; [exact OS|]. intros AN. apply (proj2 OS). intros j f fx mem Hj _.
    exact (Whole_Proofs.anew_unbound _ _ _ _ _ _ _ _ _ _ _ _ _ fx AN S (ex_intro _ j (ex_intro _ f (ex_intro _ mem Hj)))). }
  assert (NM : forall m, In m l -> numeric m).
  { destruct l as [|m0 l0]; [intros ? []|]. destruct TOP as (r0 & -> & _); [discriminate|]. apply Whole_Main.all_numeric. exact (Proc_Main.h_scored_numeric _ _ _ _ NU FW r0). }
  destruct (K ml _ _ _ (fun i f => own_steps pop (i_extension g') i f /\ (starts_anew e g -> f = i_extension g')) CN EO FO NM AL) as (NE & MO).
  destruct (TOP NE) as (rg & -> & HR).
  assert (ER : rg = Z.to_nat mr).
  { destruct (Nat.lt_trichotomy rg (Z.to_nat mr)) as [L|[L|L]]; auto.
    - rewrite (HR _ L) in EM. cbn in EM. lia.
    - exfalso. apply NE. destruct (scored rg (q_trace w)) as [|[sc me] l] eqn:ES; auto. exfalso.
      assert (IN : In (sc, me) (scored rg (q_trace w))) by (rewrite ES; left; auto). apply in_scored in IN as (re & b & IN). apply in_split in IN as (t1 & t2 & ET).
      destruct (Proc_Proofs3.asha_top _ _ _ _ _ _ _ _ _ _ _ _ _ _ _ _ _ Q) as (_ & _ & es & C & _ & D).
      destruct (Rnd_Main.C149_results_main _ _ _ _ _ _ _ _ _ _ _ _ _ _ _ _ W SO D ET) as (j & ss & J & _).
      assert (IJ : In (Started j rg) (q_trace (Proc_Proofs3.setq (Proc_Proofs.outstanding Proc_Proofs3.dj p) w))) by (cbn [Proc_Proofs3.setq q_trace]; rewrite ET; apply in_or_app; auto).
      destruct (Rnd_Main.C149_in_search_space_main _ _ _ _ _ _ _ _ _ _ _ _ _ W SO D IJ) as (_ & LL & _). lia. }
  subst rg. exists xe, y, pop, s, dl, w, p. cbv zeta. auto.
Qed.
(** C174: and for any max_full_evaluations, or none, the model is of the top rung as soon as
    there was time for one score on it, also when the search was stopped by the time limit. *)
Lemma C174_fit_top_main :
  forall E (build : nat -> list (string * value) -> res E) estimator train rate fit_transform fitted knn poly takes_labels eta first_rung max_rung max_full max_length n log defaults g e xe y r g' failing,
  history rate fit_transform fitted knn poly fitness_of takes_labels g ->
  accepted rate fit_transform (this_call build estimator train (Halving eta first_rung max_rung max_full) max_length n log defaults e) g xe y ->
  ready (i_pset g') max_length e g -> pset_rich (i_pset g') -> allows_one max_length -> (Z.of_nat first_rung <= max_rung)%Z -> (forall k, e_scores e k <> []) ->
  clear_names (i_pset g') -> (forall k, Forall (fun x => x <> NaN) (e_scores e k)) ->
  (forall c kwargs, exists x, build c kwargs = Ok x) -> (forall made x y, exists m, train made x y = Ok m) ->
  (match max_full with None => True | Some m => (0 < m)%Z end) -> 0 < eta -> 0 < n ->
  (forall xe y labels deadline, yields (e_call e xe y labels deadline) defaults failing) ->
  long_enough n 8 (results_needed eta (length failing) 1 (Z.to_nat max_rung - first_rung)) (e_plan e) ->
  fit rate fit_transform fitted knn poly fitness_of takes_labels (this_call build estimator train (Halving eta first_rung max_rung max_full) max_length n log defaults e) g = (r, g') ->
  exists v, r = Ok v /\
  exists xe y pop s deadline x w p,
    let call := e_call e xe y (i_labels g') deadline in
    Proc_Model.q_asha_phase call (e_scores e) (i_pset g') max_length eta first_rung max_rung max_full n log defaults (individuals_of pop) (Proc_Model.before_h s (e_plan e)) = (x, (w, p)) /\
    h_from_workers call (e_scores e) defaults w /\
    0 < length (scored (Z.to_nat max_rung) (q_trace w)) /\
    model_of build estimator train fit_transform fitted (this_call build estimator train (Halving eta first_rung max_rung max_full) max_length n log defaults e) g g' max_length xe y
      (h_objects w) (map snd (scored (Z.to_nat max_rung) (q_trace w))) (fun i f => own_steps pop (i_extension g') i f /\ (starts_anew e g -> f = i_extension g')).
Proof.
  intros E build estimator train rate ft fitted knn poly tl eta fr mr mf ml n log d g e xe0 y0 r g' failing H A R R1 R2 R3 R4 CN NU B T M0 ETA POS Y LE F.
  assert (RN : forall k a, a < results_needed eta a 1 k). { induction k as [|k IH]; intros a; cbn [results_needed]; [cbn; lia|]. specialize (IH a). lia. }
  assert (LE0 := LE). destruct LE as (init & rounds & rest & EPL & NK & FR & LI & LF).
  assert (V : exists v, r = Ok v).
  { apply (Done_Main.C173_asha_main E build estimator train rate ft fitted knn poly tl eta fr mr mf ml n log d g e xe0 y0 r g' failing); auto.
    exists init, rounds, rest. split; auto. split; auto. split; auto. split; auto. pose proof (RN (Z.to_nat mr - fr) (length failing)). lia. }
  destruct V as (v & ->). exists v. split; auto.
  destruct (Whole_Main.parts build estimator train rate ft fitted knn poly tl (Halving eta fr mr mf) ml n log d g e v g' H F) as (xe & y & pop & limit & dl & ending & S & SE & EN & DL & K).
  destruct (Whole_Proofs3.asha_search build estimator train ml n log d e g eta fr mr mf _ _ _ _ _ _ _ _ _ _ R1 R2 R3 R4 R S SE EN) as (s & x & w & p & l & Q & FW & FO & TOP & EO & ND & W & SO).
  assert (Q' := Q). rewrite EPL in Q'.
  assert (EM : 0 < length (scored (Z.to_nat mr) (q_trace w))).
  { destruct (C174_reaches_main _ _ _ _ _ _ _ _ _ _ _ _ _ _ _ _ _ _ _ failing 1 POS ETA (Y _ _ _ _) NK FR LI R4 (Nat.lt_le_incl _ _ LF) W SO ND R1 R2 R3 Q') as [EM|(full & -> & _ & EM)]; lia. }
  assert (AL : forall m, In m l -> own_steps pop (i_extension g') (m_ind m) (bound (i_extension g') pop (i_id (m_ind m))) /\ (starts_anew e g -> bound (i_extension g') pop (i_id (m_ind m)) = i_extension g')).
  { intros m0 _. pose proof (Whole_Proofs3.bound_own (i_extension g') pop (m_ind m0) ND) as OS. split; [exact OS|]. intros AN. apply (proj2 OS). intros j f fx mem Hj _.
    exact (Whole_Proofs.anew_unbound _ _ _ _ _ _ _ _ _ _ _ _ _ fx AN S (ex_intro _ j (ex_intro _ f (ex_intro _ mem Hj)))). }
  assert (NM : forall m, In m l -> numeric m).
  { destruct l as [|m0 l0]; [intros ? []|]. destruct TOP as (r0 & -> & _); [discriminate|]. apply Whole_Main.all_numeric. exact (Proc_Main.h_scored_numeric _ _ _ _ NU FW r0). }
  destruct (K ml _ _ _ (fun i f => own_steps pop (i_extension g') i f /\ (starts_anew e g -> f = i_extension g')) CN EO FO NM AL) as (NE & MO).
  destruct (TOP NE) as (rg & -> & HR).
  assert (ER : rg = Z.to_nat mr).
  { destruct (Nat.lt_trichotomy rg (Z.to_nat mr)) as [L|[L|L]]; auto.
    - rewrite (HR _ L) in EM. cbn in EM. lia.
    - exfalso. apply NE. destruct (scored rg (q_trace w)) as [|[sc me] l] eqn:ES; auto. exfalso.
      assert (IN : In (sc, me) (scored rg (q_trace w))) by (rewrite ES; left; auto). apply in_scored in IN as (re & b & IN). apply in_split in IN as (t1 & t2 & ET).
      destruct (Proc_Proofs3.asha_top _ _ _ _ _ _ _ _ _ _ _ _ _ _ _ _ _ Q) as (_ & _ & es & C & _ & D).
      destruct (Rnd_Main.C149_results_main _ _ _ _ _ _ _ _ _ _ _ _ _ _ _ _ W SO D ET) as (j & ss & J & _).
      assert (IJ : In (Started j rg) (q_trace (Proc_Proofs3.setq (Proc_Proofs.outstanding Proc_Proofs3.dj p) w))) by (cbn [Proc_Proofs3.setq q_trace]; rewrite ET; apply in_or_app; auto).
      destruct (Rnd_Main.C149_in_search_space_main _ _ _ _ _ _ _ _ _ _ _ _ _ W SO D IJ) as (_ & LL & _). lia. }
  subst rg. exists xe, y, pop, s, dl, x, w, p. cbv zeta. auto.
Qed.
(** * Examples: two rungs, one pipeline in two goes up; two workers, one of them slower.  With the
    options of GAMA (reduction factor 3, two rungs) 28 results are enough for one pipeline
    that was evaluated on all the data. *)
Notation ex_top full k := (fit 1 ex_ft ex_fitted no_prim Whole_Main.ex_poly fitness_of true
  (this_call Whole_Main.ex_made Whole_Main.ex_estimator Whole_Main.ex_trained (Halving 2 0 1%Z full) (Some 2%Z) 2 true [] (Whole_Main.ex_circ (Whole_Main.ex_shops 2) (Some []) (Done_Main.ex_turns k)))
  (Whole_Main.ex_object false)).
Notation ex_run full k := (Proc_Model.q_asha_phase Live_Main.ex_evaluation Sys_Main.ex_scores ex_ps (Some 3%Z) 2 0 1%Z full 2 true [] Evo_Main.ex_start
  (Proc_Model.before_h (Evo_Main.ex_begin []) (Done_Main.ex_turns k))).
Example C174_ex_main :
  results_needed 3 0 1 1 = 28 /\ results_needed 2 0 1 1 = 19 /\ long_enough 2 8 19 (Done_Main.ex_turns 20) /\ yields Again_Main.steady_call [] [] /\
  history 1 ex_ft ex_fitted no_prim Whole_Main.ex_poly fitness_of true (Whole_Main.ex_object false) /\
  fst (ex_top (Some 1%Z) 20) = Ok Self /\ i_pset (snd (ex_top (Some 1%Z) 20)) = ex_ps /\
  fst (ex_run (Some 1%Z) 9) = Ok tt /\ length (scored 1 (q_trace (fst (snd (ex_run (Some 1%Z) 9))))) = 1 /\
  fst (ex_run (Some 1%Z) 1) = Err Diverges /\ length (arrivals (q_trace (fst (snd (ex_run (Some 1%Z) 1))))) = 2 /\ lost (q_trace (fst (snd (ex_run (Some 1%Z) 9)))) = 0 /\
  (* without max_full_evaluations *)
  fst (ex_top None 20) = Ok Self /\ fst (ex_run None 20) = Err Diverges /\ length (scored 1 (q_trace (fst (snd (ex_run None 20))))) = 11.
Proof.
  split; [reflexivity|]. split; [reflexivity|]. split; [apply (Done_Main.ex_long 19 8); lia|]. split; [split; [apply Done_Main.ex_yields|]; intros k c _; eexists _, _; reflexivity|].
  split; [constructor|]. split; [vm_compute; reflexivity|]. split; [vm_compute; reflexivity|]. split; [vm_compute; reflexivity|]. split; [vm_compute; reflexivity|]. split; [vm_compute; reflexivity|]. split; [vm_compute; reflexivity|]. split; [vm_compute; reflexivity|]. split; [vm_compute; reflexivity|]. split; vm_compute; reflexivity.
Qed.

(** C164: with one worker process, fit is reproducible. *)
(*IMPORTS*)
Require Import QArith.
From Verif Require Import Base Num Gp_Model Gp_Spec Gp_Examples Lib_Spec Evo_Model Evo_Spec Evo_Main Rnd_Model Rnd_Spec End_Model End_Spec End_Main Proc_Model Proc_Spec Again_Spec.
From Verif Require Lib_Model Ens_Model Misc_Model Mix_Model Team_Model Async_Model Sys_Model Sys_Main Det_Spec.
Open Scope nat_scope.
Open Scope list_scope.
(*END*)
Require Import ZArith Lia Permutation.
From Verif Require Import Gp_Proofs4 Evo_Proofs Rnd_Proofs Rnd_Proofs2 Rnd_Proofs3 Rnd_Main Again_Proofs Again_Proofs2 Again_Proofs3.
From Verif Require Again_Proofs4 Proc_Proofs Proc_Proofs2 Proc_Proofs3 Proc_Main.

(** * Whole searches *)
Lemma rs_phase_more ps mx max_n (ev : nat -> event) m1 m2 warm s x1 w1 x2 w2 :
  wf_heap (s_heap s) -> start_ok ps mx s warm ->
  rs_phase ps mx max_n warm (map ev (seq 0 m1)) (fresh_h s) = (x1, w1) ->
  rs_phase ps mx max_n warm (map ev (seq 0 m2)) (fresh_h s) = (x2, w2) -> count w1 <= count w2 ->
  (hgrow w1 w2 \/ w1 = w2) /\ (count w1 = count w2 -> x1 = x2 /\ w1 = w2).
Proof.
  intros W S H1 H2 L. unfold rs_phase, hbind in *. destruct (Rnd_Model.candidates ps mx warm (fresh_h s)) as [y w0] eqn:E1.
  destruct (candidates_ok ps mx warm s y w0 W S E1) as (s1 & -> & W1 & Hy). destruct y as [l|e].
  2:{ injection H1 as <- <-. injection H2 as <- <-. auto. }
  destruct Hy as (G & _). unfold random_search, hbind in *.
  destruct (each_inv ps mx l l (fresh_h s1)) as (w0 & E0 & I0 & N0 & O0 & _); auto.
  - constructor; simpl; auto.
    + intros i (r & [[]|(o & [])]).
    + intros t1 i r t2 H0. destruct t1; discriminate.
    + intros t1 i r o t2 H0. destruct t1; discriminate.
  - apply incl_refl.
  - simpl. rewrite map_map. intros ND. assert (EQ : map (fun i => key (i, 0)) l = map (fun k => (k, 0)) (map i_id l)) by (rewrite map_map; auto).
    rewrite EQ. apply FinFun.Injective_map_NoDup; auto. intros a b E. congruence.
  - reflexivity.
  - rewrite E0 in *. eapply (rs_more ps mx l max_n ev); eauto. split; auto.
Qed.
Lemma asha_phase_more ps mx eta f R max_full (ev : nat -> event) m1 m2 warm s x1 w1 x2 w2 :
  wf_heap (s_heap s) -> start_ok ps mx s warm ->
  asha_phase ps mx eta f R max_full warm (map ev (seq 0 m1)) (fresh_h s) = (x1, w1) ->
  asha_phase ps mx eta f R max_full warm (map ev (seq 0 m2)) (fresh_h s) = (x2, w2) -> count w1 <= count w2 ->
  (hgrow w1 w2 \/ w1 = w2) /\ (count w1 = count w2 -> x1 = x2 /\ w1 = w2).
Proof.
  intros W S H1 H2 L. unfold asha_phase, hbind in *. destruct (Rnd_Model.candidates ps mx warm (fresh_h s)) as [y w0] eqn:E1.
  destruct (candidates_ok ps mx warm s y w0 W S E1) as (s1 & -> & W1 & Hy). destruct y as [l|e].
  2:{ injection H1 as <- <-. injection H2 as <- <-. auto. }
  destruct Hy as (G & _). unfold asha in H1, H2. unfold hbind at 1, set_rungs in H1. unfold hbind at 1, set_rungs in H2. cbn [q_st q_jobs q_start q_out q_trace fresh_h with_state] in H1, H2.
  set (w0 := mkH s1 [] l (empty_rungs f R) [] []) in *.
  assert (I0 : Inv ps mx (asha_allowed eta f R l) w0).
  { constructor; simpl; auto.
    - intros i (r & [[]|(o & [])]).
    - intros t1 i r t2 H0. destruct t1; discriminate.
    - intros t1 i r o t2 H0. destruct t1; discriminate. }
  assert (R0 : RI f R l [] w0).
  { constructor; simpl; unfold empty_rungs; [rewrite map_map; apply map_id| |exists []; rewrite app_nil_r; auto]. intros y Hy. apply in_map_iff in Hy as (n & <- & _). simpl. split; auto. split; auto. intros q []. }
  assert (O0 : OI f R l w0).
  { constructor; simpl; [apply incl_refl|intros i r []| |].
    - intros ND. split; [constructor|]. split; auto. intros i j _ (r & [[]|(o & [])]).
    - exists (rev l), []. rewrite app_nil_r. auto. }
  unfold hbind in H1, H2. destruct (start_jobs ps mx eta f R 8 w0) as [y w3] eqn:E3. destruct (start_jobs_ok ps mx eta f R l 8 w0 y w3 I0 R0 O0 E3) as (I3 & O3 & _ & _ & Hy).
  destruct y as [u|e]; [|injection H1 as <- <-; injection H2 as <- <-; auto].
  destruct Hy as (R3 & _). eapply (asha_more ps mx eta f R l max_full ev); eauto. split; auto.
Qed.

(** * On one worker process *)
Lemma n_arrivals t : length (arrivals t) = length (finished t).
Proof. induction t as [|[]]; simpl; auto. Qed.
Lemma n_collections t : length (collections t) = length (collected t).
Proof. induction t as [|[]]; simpl; auto. Qed.
Lemma setq_eq l1 l2 w1 w2 : q_jobs w1 = [] -> q_jobs w2 = [] -> Proc_Proofs3.setq l1 w1 = Proc_Proofs3.setq l2 w2 -> w1 = w2.
Proof. destruct w1, w2. cbn. intros -> -> [= -> _ -> -> -> ->]. auto. Qed.
Lemma setj_eq l1 l2 w1 w2 : v_jobs w1 = [] -> v_jobs w2 = [] -> Proc_Proofs2.setj l1 w1 = Proc_Proofs2.setj l2 w2 -> w1 = w2.
Proof. destruct w1, w2. cbn. intros -> -> [= -> -> _ -> ->]. auto. Qed.
Lemma h_cont l1 l2 w1 w2 : wf_heap (h_objects w1) -> q_jobs w1 = [] -> q_jobs w2 = [] -> hgrow (Proc_Proofs3.setq l1 w1) (Proc_Proofs3.setq l2 w2) \/ Proc_Proofs3.setq l1 w1 = Proc_Proofs3.setq l2 w2 -> h_continues w1 w2.
Proof.
  intros W J1 J2 [(X & t & E)|E]; [|apply setq_eq in E as ->; auto; exists []; rewrite app_nil_r; auto].
  exists t. split; [exact E|]. intros i ss. apply (is_pipeline_extends (q_st w1) (q_st w2)); auto.
Qed.
Lemma e_cont l1 l2 w1 w2 : wf_heap (objects w1) -> v_jobs w1 = [] -> v_jobs w2 = [] -> Again_Proofs4.egrow (Proc_Proofs2.setj l1 w1) (Proc_Proofs2.setj l2 w2) \/ Proc_Proofs2.setj l1 w1 = Proc_Proofs2.setj l2 w2 -> continues w1 w2.
Proof.
  intros W J1 J2 [(X & t & E)|E]; [|apply setj_eq in E as ->; auto; exists []; rewrite app_nil_r; auto].
  exists t. split; [exact E|]. intros i ss. apply (is_pipeline_extends (v_st w1) (v_st w2)); auto.
Qed.
Section One.
Context (call : nat -> list nat -> Async_Model.kwargs -> nat -> Async_Model.outcome) (scores : nat -> list num) (d : Async_Model.kwargs).
Hypothesis H : Det_Spec.steady call d.
Context (log1 log2 : bool) (ps : pset) (mx : option Z) (warm : list individual) (s : setting) (plan1 plan2 : list Sys_Model.turn).
Hypothesis U1 : Det_Spec.undisturbed plan1.
Hypothesis U2 : Det_Spec.undisturbed plan2.
Hypothesis W : wf_heap (s_heap s).
Lemma rs_again max_n x1 w1 p1 x2 w2 p2 : start_ok ps mx s warm ->
  q_rs_phase call scores ps mx max_n 1 log1 d warm (before_h s plan1) = (x1, (w1, p1)) ->
  q_rs_phase call scores ps mx max_n 1 log2 d warm (before_h s plan2) = (x2, (w2, p2)) ->
  length (arrivals (q_trace w1)) <= length (arrivals (q_trace w2)) ->
  h_continues w1 w2 /\ (length (arrivals (q_trace w1)) = length (arrivals (q_trace w2)) -> x1 = x2 /\ w1 = w2).
Proof.
  intros S E1 E2. destruct (rs_one call scores d H ps mx _ _ _ _ _ _ _ _ U1 E1) as (J1 & m1 & l1 & D1). destruct (rs_one call scores d H ps mx _ _ _ _ _ _ _ _ U2 E2) as (J2 & m2 & l2 & D2).
  rewrite !n_arrivals. intros L. destruct (rs_phase_more ps mx max_n _ m1 m2 warm s _ _ _ _ W S D1 D2 L) as (A & B).
  destruct (rs_ok ps mx max_n warm _ s _ _ W S D1) as ((start & I) & _).
  split; [eapply h_cont; eauto; exact (h_wf _ _ _ _ I)|]. intros EN. destruct (B EN) as (-> & EW). split; auto. eapply setq_eq; eauto.
Qed.
Lemma asha_again eta f R max_full x1 w1 p1 x2 w2 p2 : start_ok ps mx s warm ->
  q_asha_phase call scores ps mx eta f R max_full 1 log1 d warm (before_h s plan1) = (x1, (w1, p1)) ->
  q_asha_phase call scores ps mx eta f R max_full 1 log2 d warm (before_h s plan2) = (x2, (w2, p2)) ->
  length (arrivals (q_trace w1)) <= length (arrivals (q_trace w2)) ->
  h_continues w1 w2 /\ (length (arrivals (q_trace w1)) = length (arrivals (q_trace w2)) -> x1 = x2 /\ w1 = w2).
Proof.
  intros S E1 E2. destruct (asha_one call scores d H ps mx eta f R _ _ _ _ _ _ _ _ U1 E1) as (J1 & m1 & l1 & D1). destruct (asha_one call scores d H ps mx eta f R _ _ _ _ _ _ _ _ U2 E2) as (J2 & m2 & l2 & D2).
  rewrite !n_arrivals. intros L. destruct (asha_phase_more ps mx eta f R max_full _ m1 m2 warm s _ _ _ _ W S D1 D2 L) as (A & B).
  destruct (asha_phase_ok ps mx eta f R max_full warm _ s _ _ W S D1) as (start & l' & _ & _ & _ & I & _).
  split; [eapply h_cont; eauto; exact (h_wf _ _ _ _ I)|]. intros EN. destruct (B EN) as (-> & EW). split; auto. eapply setq_eq; eauto.
Qed.
Lemma search_again max_retry pop_size max_n restart x1 w1 p1 x2 w2 p2 : pset_typed ps -> 0 < max_retry -> start_ok ps None s warm ->
  p_search call scores ps mx max_retry pop_size max_n restart 1 log1 d warm (before_search s plan1) = (x1, (w1, p1)) ->
  p_search call scores ps mx max_retry pop_size max_n restart 1 log2 d warm (before_search s plan2) = (x2, (w2, p2)) ->
  length (collections (v_trace w1)) <= length (collections (v_trace w2)) ->
  continues w1 w2 /\ (length (collections (v_trace w1)) = length (collections (v_trace w2)) -> x1 = x2 /\ w1 = w2).
Proof.
  intros T HN S E1 E2. destruct (search_one call scores d H ps mx max_retry pop_size max_n restart _ _ _ _ _ _ _ U1 E1) as (J1 & m1 & l1 & D1).
  destruct (search_one call scores d H ps mx max_retry pop_size max_n restart _ _ _ _ _ _ _ U2 E2) as (J2 & m2 & l2 & D2).
  rewrite !n_collections. intros L. destruct (Again_Proofs4.search_more ps mx max_retry 1 pop_size max_n restart _ m1 m2 warm s _ _ _ _ T HN W S D1 D2 L) as (A & B).
  destruct (search_ok ps mx max_retry 1 pop_size max_n restart warm _ s _ _ T HN W S D1) as (start & I & _).
  split; [eapply e_cont; eauto; exact (Evo_Proofs2.n_wf _ _ _ _ _ _ _ I)|]. intros EN. destruct (B EN) as (-> & EW). split; auto. eapply setj_eq; eauto.
Qed.
End One.

(** * C164 *)
(** C164.  fit with random search and one worker process: two runs that start with the same
    objects and random numbers, whatever the timing of their worker, whether or not they
    log (no process is killed, and each evaluation ends in the same way in both runs).  The one
    with more results did all that the other one did; with as many results they end in the
    same state, with the same model or the same exception. *)
Lemma C164_random_main :
  forall E (build : nat -> list (string * value) -> res E) fixed call scores log1 log2 defaults ps max_length max_n warm_start s plan1 plan2 x1 w1 p1 x2 w2 p2,
  Det_Spec.steady call defaults -> Det_Spec.undisturbed plan1 -> Det_Spec.undisturbed plan2 ->
  wf_heap (s_heap s) -> start_ok ps max_length s warm_start ->
  fit_random_p call scores build fixed ps max_length 1 log1 defaults max_n warm_start (before_h s plan1) = (x1, (w1, p1)) ->
  fit_random_p call scores build fixed ps max_length 1 log2 defaults max_n warm_start (before_h s plan2) = (x2, (w2, p2)) ->
  length (arrivals (q_trace w1)) <= length (arrivals (q_trace w2)) ->
  h_continues w1 w2 /\ (length (arrivals (q_trace w1)) = length (arrivals (q_trace w2)) -> x1 = x2 /\ w1 = w2).
Proof.
  intros E build fixed call scores log1 log2 d ps ml mn warm s plan1 plan2 x1 w1 p1 x2 w2 p2 H U1 U2 W S E1 E2. unfold fit_random_p in E1, E2.
  destruct (q_rs_phase call scores ps ml mn 1 log1 d warm (before_h s plan1)) as [y1 [v1 r1]] eqn:F1. destruct (q_rs_phase call scores ps ml mn 1 log2 d warm (before_h s plan2)) as [y2 [v2 r2]] eqn:F2.
  assert (K : forall y v (r : pool (individual * nat)) x w (p : pool (individual * nat)), match search_over y with Err e => (Err e, (v, r)) | Ok _ => own (hgp (best_model build fixed (q_out (fst (v, r))))) (v, r) end = (x, (w, p)) ->
     w = v /\ x = match search_over y with Err e => Err e | Ok _ => fst (best_model build fixed (q_out v) (q_st v)) end).
  { clear. intros y v r x w p EQ. destruct (search_over y) as [u|e]; [|injection EQ as <- <- <-; auto].
    unfold own, hgp in EQ. cbn [fst snd] in EQ. destruct (best_model build fixed (q_out v) (q_st v)) as [x2 s2] eqn:EH. pose proof (Proc_Main.best_model_same _ _ _ _ _ _ _ EH) as ->.
    injection EQ as <- <- <-. destruct v; auto. }
  apply K in E1 as (-> & ->). apply K in E2 as (-> & ->). intros L.
  destruct (rs_again call scores d H log1 log2 ps ml warm (first_fit s) plan1 plan2 U1 U2 W mn y1 v1 r1 y2 v2 r2 S F1 F2 L) as (A & B). split; auto. intros EN. destruct (B EN) as (-> & ->). auto.
Qed.
(** C164: with the evolutionary search. *)
Lemma C164_evolutionary_main :
  forall E (build : nat -> list (string * value) -> res E) fixed call scores log1 log2 defaults ps max_length max_retry pop_size max_n restart warm_start (s : setting) plan1 plan2 x1 w1 p1 x2 w2 p2,
  Det_Spec.steady call defaults -> Det_Spec.undisturbed plan1 -> Det_Spec.undisturbed plan2 ->
  pset_typed ps -> 0 < max_retry -> wf_heap (s_heap s) -> start_ok ps None s warm_start ->
  fit_evo_p call scores build fixed ps max_length 1 log1 defaults max_retry pop_size max_n restart warm_start (before_search s plan1) = (x1, (w1, p1)) ->
  fit_evo_p call scores build fixed ps max_length 1 log2 defaults max_retry pop_size max_n restart warm_start (before_search s plan2) = (x2, (w2, p2)) ->
  length (collections (v_trace w1)) <= length (collections (v_trace w2)) ->
  continues w1 w2 /\ (length (collections (v_trace w1)) = length (collections (v_trace w2)) -> x1 = x2 /\ w1 = w2).
Proof.
  intros E build fixed call scores log1 log2 d ps ml mr pz mn rs warm s plan1 plan2 x1 w1 p1 x2 w2 p2 H U1 U2 T HN W S E1 E2. unfold fit_evo_p in E1, E2.
  destruct (p_search call scores ps ml mr pz mn rs 1 log1 d warm (before_search s plan1)) as [y1 [v1 r1]] eqn:F1. destruct (p_search call scores ps ml mr pz mn rs 1 log2 d warm (before_search s plan2)) as [y2 [v2 r2]] eqn:F2.
  assert (K : forall y v (r : pool individual) x w (p : pool individual), match search_over y with Err e => (Err e, (v, r)) | Ok _ => own (gp (best_model build fixed (v_pop (fst (v, r))))) (v, r) end = (x, (w, p)) ->
     w = v /\ x = match search_over y with Err e => Err e | Ok _ => fst (best_model build fixed (v_pop v) (v_st v)) end).
  { clear. intros y v r x w p EQ. destruct (search_over y) as [u|e]; [|injection EQ as <- <- <-; auto].
    unfold own, gp in EQ. cbn [fst snd] in EQ. destruct (best_model build fixed (v_pop v) (v_st v)) as [x2 s2] eqn:EH. pose proof (Proc_Main.best_model_same _ _ _ _ _ _ _ EH) as ->.
    injection EQ as <- <- <-. destruct v; auto. }
  apply K in E1 as (-> & ->). apply K in E2 as (-> & ->). intros L.
  destruct (search_again call scores d H log1 log2 ps ml warm s plan1 plan2 U1 U2 W mr pz mn rs y1 v1 r1 y2 v2 r2 T HN S F1 F2 L) as (A & B). split; auto. intros EN. destruct (B EN) as (-> & ->). auto.
Qed.
Lemma fit_asha_of E call scores n log d (build : nat -> list (string * value) -> res E) fixed ps ml eta fr mr mf warm s plan x w p :
  fit_asha_p call scores build fixed ps ml n log d eta fr mr mf warm (before_h s plan) = (x, (w, p)) ->
  exists y, q_asha_phase call scores ps ml eta fr mr mf n log d warm (before_h s plan) = (y, (w, p)) /\
    x = match fst (Rnd_Model.candidates ps ml warm (fresh_h s)) with
        | Err e => Err e
        | Ok _ => match asha_output y (q_rungs w) with Err e => Err e | Ok pop => fst (best_model build fixed pop (q_st w)) end
        end.
Proof.
  unfold fit_asha_p, q_asha_phase, pbind, own, before_h. cbn [fst snd]. destruct (Rnd_Model.candidates ps ml warm (fresh_h s)) as [[cs|e] wc] eqn:EC.
  - cbn [fst snd set_start]. destruct (q_asha _ _ _ _ _ _ _ _ _ _ _ _) as [y [v q]]. cbn [fst snd]. destruct (asha_output y (q_rungs v)) as [pop|e] eqn:EA.
    + unfold hgp. destruct (best_model build fixed pop (q_st v)) as [x2 s2] eqn:EH. pose proof (Proc_Main.best_model_same _ _ _ _ _ _ _ EH) as ->.
      intros [= <- <- <-]. exists y. destruct v as [a b c d' e g]. cbn [q_st q_jobs q_start q_rungs q_out q_trace] in *. split; [reflexivity|]. rewrite EA, EH. auto.
    + intros [= <- <- <-]. exists y. rewrite EA. auto.
  - intros [= <- <- <-]. eauto.
Qed.
(** C164: with ASHA, if also sets are iterated in the same order in both runs (it is part of
    what is drawn from the random numbers of [s]).  Missing: the order of a set of objects with
    random hashes is not given by the random state, see C143. *)
Lemma C164_asha_partial_main :
  forall E (build : nat -> list (string * value) -> res E) fixed call scores log1 log2 defaults ps max_length eta first_rung max_rung max_full warm_start s plan1 plan2 x1 w1 p1 x2 w2 p2,
  Det_Spec.steady call defaults -> Det_Spec.undisturbed plan1 -> Det_Spec.undisturbed plan2 ->
  wf_heap (s_heap s) -> start_ok ps max_length s warm_start ->
  fit_asha_p call scores build fixed ps max_length 1 log1 defaults eta first_rung max_rung max_full warm_start (before_h s plan1) = (x1, (w1, p1)) ->
  fit_asha_p call scores build fixed ps max_length 1 log2 defaults eta first_rung max_rung max_full warm_start (before_h s plan2) = (x2, (w2, p2)) ->
  length (arrivals (q_trace w1)) <= length (arrivals (q_trace w2)) ->
  h_continues w1 w2 /\ (length (arrivals (q_trace w1)) = length (arrivals (q_trace w2)) -> x1 = x2 /\ w1 = w2).
Proof.
  intros E build fixed call scores log1 log2 d ps ml eta fr mr mf warm s plan1 plan2 x1 w1 p1 x2 w2 p2 H U1 U2 W S E1 E2 L.
  apply fit_asha_of in E1 as (y1 & F1 & ->). apply fit_asha_of in E2 as (y2 & F2 & ->).
  destruct (asha_again call scores d H log1 log2 ps ml warm (first_fit s) plan1 plan2 U1 U2 W eta fr mr mf y1 w1 p1 y2 w2 p2 S F1 F2 L) as (A & B). split; auto. intros EN. destruct (B EN) as (-> & ->). auto.
Qed.
(** C164: fit with the ensemble, with random search. *)
Lemma C164_random_ensemble_main :
  forall A l0 rr data row tr (metric : list A -> Ens_Model.mat -> res num) task options y left r call scores log1 log2 defaults ps max_length max_n warm_start s plan1 plan2 x1 w1 p1 x2 w2 p2,
  Det_Spec.steady call defaults -> Det_Spec.undisturbed plan1 -> Det_Spec.undisturbed plan2 ->
  wf_heap (s_heap s) -> start_ok ps max_length s warm_start ->
  Team_Model.fit_random_ens_p call scores l0 rr data row tr metric task options y left r ps max_length 1 log1 defaults max_n warm_start (before_h s plan1) = (x1, (w1, p1)) ->
  Team_Model.fit_random_ens_p call scores l0 rr data row tr metric task options y left r ps max_length 1 log2 defaults max_n warm_start (before_h s plan2) = (x2, (w2, p2)) ->
  length (arrivals (q_trace w1)) <= length (arrivals (q_trace w2)) ->
  h_continues w1 w2 /\ (length (arrivals (q_trace w1)) = length (arrivals (q_trace w2)) -> x1 = x2 /\ w1 = w2).
Proof.
  intros A l0 rr data row tr metric task options y left r call scores log1 log2 d ps ml mn warm s plan1 plan2 x1 w1 p1 x2 w2 p2 H U1 U2 W S E1 E2 L. unfold Team_Model.fit_random_ens_p in E1, E2.
  destruct (q_rs_phase call scores ps ml mn 1 log1 d warm (before_h s plan1)) as [y1 [v1 r1]] eqn:F1. destruct (q_rs_phase call scores ps ml mn 1 log2 d warm (before_h s plan2)) as [y2 [v2 r2]] eqn:F2.
  assert (v1 = w1) as -> by (destruct (search_over y1); congruence). assert (v2 = w2) as -> by (destruct (search_over y2); congruence).
  destruct (rs_again call scores d H log1 log2 ps ml warm (first_fit s) plan1 plan2 U1 U2 W mn y1 w1 r1 y2 w2 r2 S F1 F2 L) as (P & Q). split; auto. intros EN. destruct (Q EN) as (-> & ->). split; auto.
  cbn [fst] in *. destruct (search_over y2); congruence.
Qed.
(** C164: with the evolutionary search. *)
Lemma C164_evolutionary_ensemble_main :
  forall A l0 rr data row tr (metric : list A -> Ens_Model.mat -> res num) task options y left r call scores log1 log2 defaults ps max_length max_retry pop_size max_n restart warm_start (s : setting) plan1 plan2 x1 w1 p1 x2 w2 p2,
  Det_Spec.steady call defaults -> Det_Spec.undisturbed plan1 -> Det_Spec.undisturbed plan2 ->
  pset_typed ps -> 0 < max_retry -> wf_heap (s_heap s) -> start_ok ps None s warm_start ->
  Team_Model.fit_evo_ens_p call scores l0 rr data row tr metric task options y left r ps max_length 1 log1 defaults max_retry pop_size max_n restart warm_start (before_search s plan1) = (x1, (w1, p1)) ->
  Team_Model.fit_evo_ens_p call scores l0 rr data row tr metric task options y left r ps max_length 1 log2 defaults max_retry pop_size max_n restart warm_start (before_search s plan2) = (x2, (w2, p2)) ->
  length (collections (v_trace w1)) <= length (collections (v_trace w2)) ->
  continues w1 w2 /\ (length (collections (v_trace w1)) = length (collections (v_trace w2)) -> x1 = x2 /\ w1 = w2).
Proof.
  intros A l0 rr data row tr metric task options y left r call scores log1 log2 d ps ml mrt pz mn rs warm s plan1 plan2 x1 w1 p1 x2 w2 p2 H U1 U2 T HN W S E1 E2 L. unfold Team_Model.fit_evo_ens_p in E1, E2.
  destruct (p_search call scores ps ml mrt pz mn rs 1 log1 d warm (before_search s plan1)) as [y1 [v1 r1]] eqn:F1. destruct (p_search call scores ps ml mrt pz mn rs 1 log2 d warm (before_search s plan2)) as [y2 [v2 r2]] eqn:F2.
  assert (v1 = w1) as -> by (destruct (search_over y1); congruence). assert (v2 = w2) as -> by (destruct (search_over y2); congruence).
  destruct (search_again call scores d H log1 log2 ps ml warm s plan1 plan2 U1 U2 W mrt pz mn rs y1 w1 r1 y2 w2 r2 T HN S F1 F2 L) as (P & Q). split; auto. intros EN. destruct (Q EN) as (-> & ->). split; auto.
  cbn [fst] in *. destruct (search_over y2); congruence.
Qed.
(** C164: more results cannot make the model of random search worse: the model's pipeline has a
    result that no result of the shorter run beats. *)
Lemma C164_more_is_not_worse_main :
  forall E (build : nat -> list (string * value) -> res E) fixed call scores log1 log2 defaults ps max_length max_n warm_start s plan1 plan2 steps1 w1 p1 steps2 w2 p2,
  Det_Spec.steady call defaults -> Det_Spec.undisturbed plan1 -> Det_Spec.undisturbed plan2 ->
  wf_heap (s_heap s) -> start_ok ps max_length s warm_start -> NoDup (map i_id warm_start) -> clear_names ps ->
  (forall k, Forall (fun x => x <> NaN) (scores k)) ->
  fit_random_p call scores build fixed ps max_length 1 log1 defaults max_n warm_start (before_h s plan1) = (Ok steps1, (w1, p1)) ->
  fit_random_p call scores build fixed ps max_length 1 log2 defaults max_n warm_start (before_h s plan2) = (Ok steps2, (w2, p2)) ->
  length (arrivals (q_trace w1)) <= length (arrivals (q_trace w2)) ->
  exists m ss, In m (results (q_trace w2)) /\ is_pipeline (h_objects w2) (m_ind m) ss /\ made_from build fixed ss steps2 /\
    forall m', In m' (results (q_trace w1)) -> In m' (results (q_trace w2)) /\ ~ lex_lt (m_fit m) (m_fit m').
Proof.
  intros E build fixed call scores log1 log2 d ps ml mn warm s plan1 plan2 x1 w1 p1 x2 w2 p2 H U1 U2 W S ND C N E1 E2 L.
  destruct (C164_random_main E build fixed call scores log1 log2 d ps ml mn warm s plan1 plan2 _ _ _ _ _ _ H U1 U2 W S E1 E2 L) as ((t & ET & _) & _).
  destruct (Proc_Main.C162_random_main _ _ _ _ _ _ _ _ _ _ _ _ _ _ _ _ _ W S ND C N E2) as (_ & m & ss & M1 & M2 & M3 & _ & _ & M4).
  exists m, ss. split; auto. split; auto. split; auto. intros m' Hm. assert (X : In m' (results (q_trace w2))).
  { rewrite ET, results_app. apply in_or_app. auto. }
  split; auto.
Qed.

(** * Examples *)
(** The call number [k] returns an Evaluation with score [k]. *)
Definition steady_call (f : nat) (args : list nat) (kw : Async_Model.kwargs) (choice : nat) : Async_Model.outcome :=
  Async_Model.Ret (Async_Model.VEval (hd 0 args) Async_Model.NoError).
(** One evaluation after another by worker 1; worker 2 does the same while worker 1 keeps the
    first job; worker 1 is slow. *)
Definition plan_one (k : nat) : list Sys_Model.turn :=
  repeat (Sys_Main.at_work []) 5 ++ concat (repeat [Sys_Main.at_work [Sys_Main.get 1; Sys_Main.exec 1; Sys_Main.flush 1]; Sys_Main.at_work []] k).
Definition plan_two (k : nat) : list Sys_Model.turn :=
  repeat (Sys_Main.at_work []) 5 ++ Sys_Main.at_work [Sys_Main.get 1] ::
  concat (repeat [Sys_Main.at_work [Sys_Main.get 2; Sys_Main.exec 2; Sys_Main.flush 2]; Sys_Main.at_work []] k).
Definition plan_slow (k : nat) : list Sys_Model.turn :=
  repeat (Sys_Main.at_work []) 5 ++
  concat (repeat [Sys_Main.at_work [Sys_Main.get 1]; Sys_Main.at_work []; Sys_Main.at_work [Sys_Main.exec 1]; Sys_Main.at_work [Sys_Main.flush 1]; Sys_Main.at_work []] k).
Lemma ex_steady d : Det_Spec.steady steady_call d.
Proof. intros k. left. eexists _, _. reflexivity. Qed.
Lemma undisturbed_by plan : forallb (fun t => forallb (fun a => match a with Async_Model.Crash _ => false | _ => true end) (Sys_Model.t_acts t)) plan = true -> Det_Spec.undisturbed plan.
Proof.
  intros F t p Ht Hp. rewrite forallb_forall in F. apply F in Ht. rewrite forallb_forall in Ht. apply Ht in Hp. discriminate.
Qed.
Notation ex_fit n log plan :=
  (fit_random_p steady_call Sys_Main.ex_scores ex_class [("imp"%string, 9)] ex_ps (Some 3%Z) n log [] None ex_start (before_h (ex_begin []) plan)).
Lemma pair3 {X Y Z} (a : X * (Y * Z)) : a = (fst a, (fst (snd a), snd (snd a))).
Proof. destruct a as [? [? ?]]. reflexivity. Qed.
(** C164 does not hold with two workers: with as many results, the models differ. *)
Lemma C164_two_workers_refuted_main :
  ~ (forall E (build : nat -> list (string * value) -> res E) fixed call scores n log defaults ps max_length max_n warm_start s plan1 plan2 steps1 w1 p1 steps2 w2 p2,
     Det_Spec.steady call defaults -> Det_Spec.undisturbed plan1 -> Det_Spec.undisturbed plan2 ->
     wf_heap (s_heap s) -> start_ok ps max_length s warm_start ->
     fit_random_p call scores build fixed ps max_length n log defaults max_n warm_start (before_h s plan1) = (Ok steps1, (w1, p1)) ->
     fit_random_p call scores build fixed ps max_length n log defaults max_n warm_start (before_h s plan2) = (Ok steps2, (w2, p2)) ->
     length (arrivals (q_trace w1)) = length (arrivals (q_trace w2)) -> steps1 = steps2).
Proof.
  intros H.
  assert (E1 := pair3 (ex_fit 2 true (plan_one 2))). assert (E2 := pair3 (ex_fit 2 true (plan_two 2))).
  assert (X1 : fst (ex_fit 2 true (plan_one 2)) = Ok [("imp", 9); ("2", 3); ("1", 2); ("0", 0)]%string) by (vm_compute; reflexivity).
  assert (X2 : fst (ex_fit 2 true (plan_two 2)) = Ok [("imp", 9); ("2", 2); ("1", 3); ("0", 1)]%string) by (vm_compute; reflexivity).
  pose proof (eq_trans E1 (f_equal (fun z => (z, (fst (snd (ex_fit 2 true (plan_one 2))), snd (snd (ex_fit 2 true (plan_one 2)))))) X1)) as Y1.
  pose proof (eq_trans E2 (f_equal (fun z => (z, (fst (snd (ex_fit 2 true (plan_two 2))), snd (snd (ex_fit 2 true (plan_two 2)))))) X2)) as Y2. clear E1 E2 X1 X2. cbv beta in Y1, Y2.
  assert (B : [("imp", 9); ("2", 3); ("1", 2); ("0", 0)]%string = [("imp", 9); ("2", 2); ("1", 3); ("0", 1)]%string); [|discriminate].
  refine (H _ _ _ _ _ _ _ _ _ _ _ _ _ _ _ _ _ _ _ _ _ (ex_steady []) _ _ _ _ Y1 Y2 _); clear.
  - apply undisturbed_by. vm_compute. reflexivity.
  - apply undisturbed_by. vm_compute. reflexivity.
  - apply (ex_begin_wf ex_p1 _ eq_refl).
  - apply ex_start_ok. apply Z.le_refl.
  - vm_compute. reflexivity.
Qed.
Example C164_ex_main :
  Det_Spec.steady steady_call [] /\ Det_Spec.undisturbed (plan_one 3) /\ Det_Spec.undisturbed (plan_slow 3) /\ Det_Spec.undisturbed (plan_slow 4) /\
  wf_heap (s_heap (ex_begin [])) /\ start_ok ex_ps (Some 3%Z) (ex_begin []) ex_start /\ pset_typed ex_ps /\ clear_names ex_ps /\
  (* the same number of results with different timing, and one more *)
  fst (ex_fit 1 true (plan_one 3)) = Ok [("imp", 9); ("2", 2); ("1", 3); ("0", 1)]%string /\
  length (arrivals (q_trace (fst (snd (ex_fit 1 true (plan_one 3)))))) = 3 /\
  fst (ex_fit 1 false (plan_slow 3)) = Ok [("imp", 9); ("2", 2); ("1", 3); ("0", 1)]%string /\
  length (arrivals (q_trace (fst (snd (ex_fit 1 false (plan_slow 3)))))) = 3 /\
  fst (ex_fit 1 false (plan_slow 4)) = Ok [("imp", 9); ("0", 0)]%string /\
  length (arrivals (q_trace (fst (snd (ex_fit 1 false (plan_slow 4)))))) = 4 /\
  (* the evolutionary search and ASHA *)
  length (collections (v_trace (fst (snd (fit_evo_p steady_call Sys_Main.ex_scores ex_class [("imp"%string, 9)] ex_ps None 1 true [] 50 5 None false ex_start (before_search (first_fit (ex_begin [])) (plan_slow 4))))))) = 4 /\
  length (arrivals (q_trace (fst (snd (fit_asha_p steady_call Sys_Main.ex_scores ex_class [("imp"%string, 9)] ex_ps (Some 3%Z) 1 true [] 3 0 2%Z (Some 1%Z) ex_start (before_h (ex_begin []) (plan_slow 6))))))) = 6.
Proof.
  split; [apply ex_steady|]. split; [apply undisturbed_by; vm_compute; reflexivity|]. split; [apply undisturbed_by; vm_compute; reflexivity|]. split; [apply undisturbed_by; vm_compute; reflexivity|].
  split; [apply (ex_begin_wf ex_p1 _ eq_refl)|]. split; [apply ex_start_ok; apply Z.le_refl|]. split; [apply ex_typed|]. split; [apply ex_clear|].
  repeat split; vm_compute; reflexivity.
Qed.

(** C165-C167: the searches on pipelines, and fit, with a limit on memory use. *)
(*IMPORTS*)
Require Import Permutation QArith.
From Verif Require Import Base Num Gp_Model Gp_Spec Gp_Examples Lib_Spec Eval_Model Evo_Model Evo_Spec Evo_Main Rnd_Model Rnd_Spec End_Model End_Spec Proc_Model Proc_Spec Limit_Model Limit_Spec.
From Verif Require Async_Model Sys_Model Sys_Main.
From Verif Require Import End_Main.
Open Scope nat_scope.
Open Scope list_scope.
(*END*)
Require Import Lia ZArith.
From Verif Require Import Evo_Proofs Evo_Proofs2 Evo_Proofs3 Rnd_Main End_Proofs Proc_Proofs.
From Verif Require Proc_Proofs2 Proc_Proofs3 Proc_Main Limit_Proofs Limit_Proofs2 Limit_Proofs3 Limit_Proofs4 Limit_Proofs5 Rnd_Proofs Rnd_Proofs2 Async_Proofs Async_Proofs5.
Notation as_ended := Limit_Proofs3.as_ended.

(** * The runs without a limit behind those with one *)
Lemma rs_top call scores limit n log d ps mx max_n warm s plan x w p :
  l_rs_phase call scores limit ps mx max_n n log d warm (before_h s plan) = (x, (w, p)) ->
  Proc_Proofs3.links call scores d w /\ exists l es x', Forall (scored_by scores) es /\ length es <= length plan /\ as_ended (unreadable n plan) x x' /\
    rs_phase ps mx max_n warm es (fresh_h s) = (x', Proc_Proofs3.setq l w).
Proof.
  intros E. destruct (Limit_Proofs3.rs_top call scores limit d (unreadable n plan) n ps mx log max_n warm s plan x w p) as (_ & A & es & B & C & x' & D & F); auto.
  - left. auto.
  - intros t Ht Hf. right. exists t. split; auto.
  - split; auto. exists (outstanding Proc_Proofs3.dj p), es, x'. auto.
Qed.
Lemma asha_top call scores limit n log d ps mx eta f R mf warm s plan x w p :
  l_asha_phase call scores limit ps mx eta f R mf n log d warm (before_h s plan) = (x, (w, p)) ->
  Proc_Proofs3.links call scores d w /\ exists l es x', Forall (scored_by scores) es /\ length es <= length plan /\ as_ended (unreadable n plan) x x' /\
    asha_phase ps mx eta f R mf warm es (fresh_h s) = (x', Proc_Proofs3.setq l w).
Proof.
  intros E. destruct (Limit_Proofs3.asha_top call scores limit d (unreadable n plan) n ps mx eta f R log mf warm s plan x w p) as (_ & A & es & B & C & x' & D & F); auto.
  - left. auto.
  - intros t Ht Hf. right. exists t. split; auto.
  - split; auto. exists (outstanding Proc_Proofs3.dj p), es, x'. auto.
Qed.
Lemma search_top call scores limit n log d ps mx mr pz mn rs warm (s : setting) plan x w p :
  l_search call scores limit ps mx mr pz mn rs n log d warm (before_search s plan) = (x, (w, p)) ->
  Proc_Proofs2.links call scores d w /\ exists l es x', Forall (fun e => scored_by scores (snd e)) es /\ length es <= length plan /\ as_ended (unreadable n plan) x x' /\
    Limit_Proofs4.v_search ps mx mr pz mn rs warm es (fresh_search s) = (x', Proc_Proofs2.setj l w).
Proof.
  intros E. destruct (Limit_Proofs4.search_top call scores limit d (unreadable n plan) n ps mx mr pz mn rs log warm s plan x w p) as (_ & A & es & B & C & x' & D & F); auto.
  - left. auto.
  - intros t Ht Hf. right. exists t. split; auto.
  - split; auto. exists (outstanding Proc_Proofs2.di p), es, x'. auto.
Qed.

(** C165.  Random search with a limit on memory use: whichever workers are stopped, every
    pipeline given to a worker is from the search space, within the limit on its length. *)
Lemma C165_random_in_search_space_main :
  forall call scores limit n log defaults ps max_length max_n warm_start s plan x w p i r,
  wf_heap (s_heap s) -> start_ok ps max_length s warm_start ->
  l_rs_phase call scores limit ps max_length max_n n log defaults warm_start (before_h s plan) = (x, (w, p)) ->
  In (Started i r) (q_trace w) ->
  exists ss, is_pipeline (h_objects w) i ss /\ pipeline_ok ps ss /\ within max_length ss.
Proof.
  intros call scores limit n log d ps mx mn warm s plan x w p i r W S E HI. destruct (rs_top _ _ _ _ _ _ _ _ _ _ _ _ _ _ _ E) as (_ & l & es & x' & _ & _ & _ & D).
  exact (C148_in_search_space_main _ _ _ _ _ _ _ _ i r W S D HI).
Qed.
(** C165: its results are those of workers' calls for different submissions, and all that
    were delivered. *)
Lemma C165_random_results_main :
  forall call scores limit n log defaults ps max_length max_n warm_start s plan x w p,
  wf_heap (s_heap s) -> start_ok ps max_length s warm_start -> NoDup (map i_id warm_start) ->
  l_rs_phase call scores limit ps max_length max_n n log defaults warm_start (before_h s plan) = (x, (w, p)) ->
  h_from_workers call scores defaults w /\ q_out w = results (q_trace w).
Proof.
  intros call scores limit n log d ps mx mn warm s plan x w p W S N E. destruct (rs_top _ _ _ _ _ _ _ _ _ _ _ _ _ _ _ E) as (B & l & es & x' & _ & _ & _ & D).
  destruct (C148_once_main _ _ _ _ _ _ _ _ W S D) as (_ & K1 & K2). split; [|exact K1].
  apply Proc_Main.h_results; auto. intros t1 i r o t2 Et. exact (C148_results_main _ _ _ _ _ _ _ _ _ _ _ _ _ W S D Et).
Qed.
(** C165: it fails only with the evaluator's ValueError, and that needs a worker that is gone
    when its memory use is to be read. *)
Lemma C165_random_runs_main :
  forall call scores limit n log defaults ps max_length max_n warm_start s plan x w p,
  wf_heap (s_heap s) -> start_ok ps max_length s warm_start -> pset_rich ps -> allows_one max_length ->
  l_rs_phase call scores limit ps max_length max_n n log defaults warm_start (before_h s plan) = (x, (w, p)) ->
  (x = Ok tt \/ x = Err Diverges \/ (x = Err ValueError /\ unreadable n plan)) /\
  length (started (q_trace w)) = length (finished (q_trace w)) + match warm_start with [] => 50 | _ => length warm_start end.
Proof.
  intros call scores limit n log d ps mx mn warm s plan x w p W S R1 R2 E. destruct (rs_top _ _ _ _ _ _ _ _ _ _ _ _ _ _ _ E) as (B & l & es & x' & _ & _ & AE & D).
  destruct (C148_keeps_running_main _ _ _ _ _ _ _ _ W S R1 R2 D) as (K1 & K2). destruct (C148_once_main _ _ _ _ _ _ _ _ W S D) as (P & _ & _).
  split.
  - assert (X : x' = Ok tt \/ x' = Err Diverges) by (destruct mn; [destruct K2 as [[-> _]|[-> _]]|destruct K2 as [-> _]]; auto).
    destruct AE as [-> |(G & -> & _)]; auto. destruct X as [-> | ->]; auto.
  - apply Permutation_length in P. rewrite app_length, !map_length in P. rewrite K1 in P. exact P.
Qed.
(** C165: ASHA. *)
Lemma C165_asha_in_search_space_main :
  forall call scores limit n log defaults ps max_length eta first_rung max_rung max_full warm_start s plan x w p i r,
  wf_heap (s_heap s) -> start_ok ps max_length s warm_start ->
  l_asha_phase call scores limit ps max_length eta first_rung max_rung max_full n log defaults warm_start (before_h s plan) = (x, (w, p)) ->
  In (Started i r) (q_trace w) ->
  first_rung <= r /\ (Z.of_nat r <= max_rung)%Z /\
  exists ss, is_pipeline (h_objects w) i ss /\ pipeline_ok ps ss /\ within max_length ss.
Proof.
  intros call scores limit n log d ps mx eta f R mf warm s plan x w p i r W S E HI. destruct (asha_top _ _ _ _ _ _ _ _ _ _ _ _ _ _ _ _ _ _ E) as (_ & l & es & x' & _ & _ & _ & D).
  exact (C149_in_search_space_main _ _ _ _ _ _ _ _ _ _ _ i r W S D HI).
Qed.
Lemma C165_asha_results_main :
  forall call scores limit n log defaults ps max_length eta first_rung max_rung max_full warm_start s plan x w p,
  wf_heap (s_heap s) -> start_ok ps max_length s warm_start -> NoDup (map i_id warm_start) ->
  l_asha_phase call scores limit ps max_length eta first_rung max_rung max_full n log defaults warm_start (before_h s plan) = (x, (w, p)) ->
  h_from_workers call scores defaults w.
Proof.
  intros call scores limit n log d ps mx eta f R mf warm s plan x w p W S N E. destruct (asha_top _ _ _ _ _ _ _ _ _ _ _ _ _ _ _ _ _ _ E) as (B & l & es & x' & _ & _ & _ & D).
  destruct (C149_once_main _ _ _ _ _ _ _ _ _ _ _ W S D) as (_ & K2).
  apply Proc_Main.h_results; auto. intros t1 i r o t2 Et. exact (C149_results_main _ _ _ _ _ _ _ _ _ _ _ _ _ _ _ _ W S D Et).
Qed.
(** C165: what ASHA promotes, with a limit: as C149. *)
Lemma C165_asha_promoted_main :
  forall call scores limit n log defaults ps max_length eta first_rung max_rung max_full warm_start s plan x w p t1 i r t2,
  wf_heap (s_heap s) -> start_ok ps max_length s warm_start ->
  l_asha_phase call scores limit ps max_length eta first_rung max_rung max_full n log defaults warm_start (before_h s plan) = (x, (w, p)) ->
  q_trace w = t1 ++ Started i r :: t2 ->
  r = first_rung \/
  exists below score m, r = S below /\ In (score, m) (scored below t1) /\ m_ind m = i /\
    eta * S (length (started_on r t1)) <= length (scored below t1) /\
    ((forall e, In e (scored below t1) -> fst e <> NaN) ->
     forall score' m', In (score', m') (scored below t1) -> ~ In (i_id (m_ind m')) (map i_id (started_on r t1)) -> nle score' score).
Proof.
  intros call scores limit n log d ps mx eta f R mf warm s plan x w p t1 i r t2 W S E Et. destruct (asha_top _ _ _ _ _ _ _ _ _ _ _ _ _ _ _ _ _ _ E) as (_ & l & es & x' & _ & _ & _ & D).
  exact (C149_promoted_main _ _ _ _ _ _ _ _ _ _ _ t1 i r t2 W S D Et).
Qed.
Lemma scored_has scores es : (forall k : nat, scores k <> []) -> Forall (scored_by scores) es -> Forall has_score es.
Proof. intros H C. eapply Forall_impl; [|exact C]. intros e. unfold scored_by, has_score. destruct (e_out e) as [|[|z sc] b]; auto. intros (k & Ek). apply (H k). auto. Qed.
Lemma C165_asha_runs_main :
  forall call scores limit n log defaults ps max_length eta first_rung max_rung max_full warm_start s plan x w p,
  wf_heap (s_heap s) -> start_ok ps max_length s warm_start -> pset_rich ps -> allows_one max_length ->
  (Z.of_nat first_rung <= max_rung)%Z -> (forall k, scores k <> []) ->
  l_asha_phase call scores limit ps max_length eta first_rung max_rung max_full n log defaults warm_start (before_h s plan) = (x, (w, p)) ->
  x = Ok tt \/ x = Err Diverges \/ (x = Err ValueError /\ unreadable n plan).
Proof.
  intros call scores limit n log d ps mx eta f R mf warm s plan x w p W S R1 R2 R3 R4 E. destruct (asha_top _ _ _ _ _ _ _ _ _ _ _ _ _ _ _ _ _ _ E) as (_ & l & es & x' & C & _ & AE & D).
  destruct (C149_keeps_running_main _ _ _ _ _ _ _ _ _ _ _ W S R1 R2 R3 (scored_has _ _ R4 C) D) as (_ & K). cbv zeta in K.
  destruct AE as [-> |(G & -> & _)]; auto. destruct K as [[-> _]|[-> _]]; auto.
Qed.
(** C165: the evolutionary search. *)
Lemma C165_evolutionary_in_search_space_main :
  forall call scores limit n log defaults ps max_length max_retry pop_size max_n restart warm_start (s : setting) plan x w p i,
  pset_typed ps -> 0 < max_retry -> wf_heap (s_heap s) -> start_ok ps max_length s warm_start ->
  l_search call scores limit ps max_length max_retry pop_size max_n restart n log defaults warm_start (before_search s plan) = (x, (w, p)) ->
  In (Submitted i) (v_trace w) ->
  exists steps, is_pipeline (objects w) i steps /\ pipeline_ok ps steps /\
    match max_length with None => True | Some m => (Z.of_nat (length steps) <= Z.max m (2 * m - 2))%Z end.
Proof.
  intros call scores limit n log d ps mx mr pz mn rs warm s plan x w p i T HN W S E HI. destruct (search_top _ _ _ _ _ _ _ _ _ _ _ _ _ _ _ _ _ _ E) as (_ & l & es & x' & _ & _ & _ & D).
  assert (G : Forall (good_new (fine ps mx) s) warm).
  { eapply Forall_impl; [|exact S]. simpl. intros j (L & ss & C & O & Wi). split; auto. exists ss. split; auto. split; auto. apply within_bounded. auto. }
  destruct (Limit_Proofs5.v_search_inv ps mx mr pz mn rs T HN (fine ps mx) (fine_mut ps mx T) (fine_cross ps mx T) (fine_new ps mx) warm es s x' _ W G D) as ((start & I & _) & _).
  destruct (n_known _ _ _ _ _ _ _ I _ (mentioned_submitted _ _ HI)) as (_ & ss & C & O & B). exists ss. split; auto.
Qed.
Lemma C165_evolutionary_results_main :
  forall call scores limit n log defaults ps max_length max_retry pop_size max_n restart warm_start (s : setting) plan x w p,
  pset_typed ps -> 0 < max_retry -> wf_heap (s_heap s) -> start_ok ps None s warm_start -> NoDup (map i_id warm_start) ->
  l_search call scores limit ps max_length max_retry pop_size max_n restart n log defaults warm_start (before_search s plan) = (x, (w, p)) ->
  from_workers call scores defaults w.
Proof.
  intros call scores limit n log d ps mx mr pz mn rs warm s plan x w p H1 H2 H3 H4 H5 E. destruct (search_top _ _ _ _ _ _ _ _ _ _ _ _ _ _ _ _ _ _ E) as ((ks & N & F) & l & es & x' & _ & _ & _ & D).
  destruct (Limit_Proofs5.v_search_ok _ _ _ _ _ _ _ _ _ _ _ H1 H2 H3 H4 D) as ((start & I & A & B) & _).
  assert (ND : NoDup (map i_id (submitted (v_trace w)))). { apply (n_once _ _ _ _ _ _ _ I). destruct warm as [|i0 warm]; [apply B; auto|rewrite A; auto; discriminate]. }
  exists ks. split; auto. eapply Proc_Main.F2_in; [|exact F]. intros k [i o] HI (j & J1 & J2 & J3). cbn [fst snd] in *. exists j. split; auto. split; auto.
  destruct (Proc_Main.in_collections _ _ _ HI) as (t1 & t2 & Et).
  destruct (n_items _ _ _ _ _ _ _ I t1 (Collected i o) t2 Et) as (j' & ss & K1 & K2 & K3 & K4 & K5 & K6).
  assert (j' = j) as ->.
  { apply (Proc_Main.nodup_nth i_id _ ND).
    - rewrite Et, submitted_app. apply in_or_app. left. apply Proc_Main.in_submitted. auto.
    - eapply nth_error_In; eauto.
    - congruence. }
  split; auto. split; auto. split; auto. exists ss. auto.
Qed.

(** * fit *)
Lemma fit_random_top E call scores limit n log d (build : nat -> list (string * value) -> res E) fixed ps ml mn warm s plan x w p :
  fit_random_l call scores limit build fixed ps ml n log d mn warm (before_h s plan) = (x, (w, p)) ->
  exists x1 p1, l_rs_phase call scores limit ps ml mn n log d warm (before_h s plan) = (x1, (w, p1)) /\
    ((x = Err ValueError /\ x1 = Err ValueError /\ unreadable n plan) \/
     exists es l, Forall (scored_by scores) es /\ fit_random build fixed ps ml mn warm es (fresh_h s) = (x, Proc_Proofs3.setq l w)).
Proof.
  unfold fit_random_l. destruct (l_rs_phase call scores limit ps ml mn n log d warm (before_h s plan)) as [x1 [w1 p1]] eqn:E1. intros E0.
  destruct (rs_top _ _ _ _ _ _ _ _ _ _ _ _ _ _ _ E1) as (B & l & es & x' & C & _ & AE & D).
  destruct AE as [-> |(G & -> & _)]; [|cbn [search_over] in E0; injection E0 as <- <- <-; exists (Err ValueError), p1; auto].
  unfold fit_random. destruct (search_over x') as [u|e] eqn:SO.
  - unfold own, hgp in E0. cbn [fst snd] in E0. destruct (best_model build fixed (q_out w1) (q_st w1)) as [x2 s2] eqn:EH. pose proof (Proc_Main.best_model_same _ _ _ _ _ _ _ EH) as ->.
    injection E0 as <- <- <-. exists x', p1. split; [destruct w1; auto|]. right. exists es, l. split; auto. rewrite D, SO. unfold hgp, Proc_Proofs3.setq. cbn [q_st q_jobs q_start q_rungs q_out q_trace]. rewrite EH. destruct w1. reflexivity.
  - injection E0 as <- <- <-. exists x', p1. split; auto. right. exists es, l. split; auto. rewrite D, SO. auto.
Qed.
Lemma fit_asha_top E call scores limit n log d (build : nat -> list (string * value) -> res E) fixed ps ml eta fr mr mf warm s plan x w p :
  fit_asha_l call scores limit build fixed ps ml n log d eta fr mr mf warm (before_h s plan) = (x, (w, p)) ->
  exists x1 p1, l_asha_phase call scores limit ps ml eta fr mr mf n log d warm (before_h s plan) = (x1, (w, p1)) /\
    ((x = Err UnboundLocalError /\ x1 = Err ValueError /\ unreadable n plan) \/
     exists es l, Forall (scored_by scores) es /\ fit_asha build fixed ps ml eta fr mr mf warm es (fresh_h s) = (x, Proc_Proofs3.setq l w)).
Proof.
  unfold fit_asha_l. intros E0. destruct (l_asha_phase call scores limit ps ml eta fr mr mf n log d warm (before_h s plan)) as [x1 [w1 p1]] eqn:E1.
  destruct (asha_top _ _ _ _ _ _ _ _ _ _ _ _ _ _ _ _ _ _ E1) as (B & l & es & x' & C & _ & AE & D).
  unfold l_asha_phase in E1. unfold asha_phase in D. unfold fit_asha. unfold pbind, own, hbind, before_h in *. cbn [fst snd] in *.
  destruct (Rnd_Model.candidates ps ml warm (fresh_h s)) as [[cs|e] wc] eqn:EC.
  - cbn [fst snd set_start] in *.
    match type of E1 with l_asha _ _ _ _ _ _ _ _ _ _ _ _ ?y = _ => change y with (mkH (q_st wc) (q_jobs wc) cs (q_rungs wc) (q_out wc) (q_trace wc), @idle (individual * nat) plan) in * end.
    rewrite E1 in E0. cbn [fst snd] in E0. exists x1, p1.
    destruct AE as [-> |(G & -> & _)]; [|cbn [asha_output] in E0; injection E0 as <- <- <-; auto].
    destruct (asha_output x' (q_rungs w1)) as [pop|e] eqn:EO.
    + unfold hgp in E0. destruct (best_model build fixed pop (q_st w1)) as [x2 s2] eqn:EH. pose proof (Proc_Main.best_model_same _ _ _ _ _ _ _ EH) as ->.
      injection E0 as <- <- <-. split; [destruct w1; auto|]. right. exists es, l. split; auto. rewrite D. change (q_rungs (Proc_Proofs3.setq l w1)) with (q_rungs w1). rewrite EO.
      unfold hgp, Proc_Proofs3.setq. cbn [q_st q_jobs q_start q_rungs q_out q_trace]. rewrite EH. destruct w1. reflexivity.
    + injection E0 as <- <- <-. split; auto. right. exists es, l. split; auto. rewrite D. change (q_rungs (Proc_Proofs3.setq l w1)) with (q_rungs w1). rewrite EO. auto.
  - injection E0 as <- <- <-. injection E1 as <- <- <-. exists (Err e), (idle plan). split; auto. right. injection D as _ D1. exists es, l. rewrite <- D1. split; auto.
Qed.
(** C166.  fit with random search and a limit on memory use: whichever workers are stopped,
    the model's steps are those of the best of the results they delivered. *)
Lemma C166_random_main :
  forall E (build : nat -> list (string * value) -> res E) fixed call scores limit n log defaults ps max_length max_n warm_start s plan steps w p,
  wf_heap (s_heap s) -> start_ok ps max_length s warm_start -> NoDup (map i_id warm_start) -> clear_names ps ->
  (forall k, Forall (fun x => x <> NaN) (scores k)) ->
  fit_random_l call scores limit build fixed ps max_length n log defaults max_n warm_start (before_h s plan) = (Ok steps, (w, p)) ->
  h_from_workers call scores defaults w /\
  exists m ss, In m (results (q_trace w)) /\ (forall m', In m' (results (q_trace w)) -> ~ lex_lt (m_fit m) (m_fit m')) /\
    is_pipeline (h_objects w) (m_ind m) ss /\ pipeline_ok ps ss /\ within max_length ss /\ made_from build fixed ss steps.
Proof.
  intros E build fixed call scores limit n log d ps ml mn warm s plan steps w p H1 H2 H3 H4 H5 E0. destruct (fit_random_top _ _ _ _ _ _ _ _ _ _ _ _ _ _ _ _ _ _ E0) as (x1 & p1 & A & [(X & _)|(es & l & _ & B)]); [discriminate|].
  destruct (C165_random_results_main _ _ _ _ _ _ _ _ _ _ _ _ _ _ _ H1 H2 H3 A) as [F _]. split; auto.
  exact (C150_best_main _ _ _ _ _ _ _ _ _ _ _ H1 H2 H4 B (Proc_Main.h_results_numeric _ _ _ _ H5 F)).
Qed.
(** C166: it fails only if no result was delivered in time, or with the evaluator's
    ValueError. *)
Lemma C166_random_always_main :
  forall E (build : nat -> list (string * value) -> res E) fixed call scores limit n log defaults ps max_length max_n warm_start s plan x w p,
  wf_heap (s_heap s) -> start_ok ps max_length s warm_start -> pset_rich ps -> allows_one max_length ->
  (forall c kwargs, exists e, build c kwargs = Ok e) ->
  fit_random_l call scores limit build fixed ps max_length n log defaults max_n warm_start (before_h s plan) = (x, (w, p)) ->
  (results (q_trace w) = [] /\ x = Err IndexError) \/ (results (q_trace w) <> [] /\ exists steps, x = Ok steps) \/
  (x = Err ValueError /\ unreadable n plan).
Proof.
  intros E build fixed call scores limit n log d ps ml mn warm s plan x w p H1 H2 H3 H4 H5 E0. destruct (fit_random_top _ _ _ _ _ _ _ _ _ _ _ _ _ _ _ _ _ _ E0) as (x1 & p1 & A & [(X & _ & G)|(es & l & _ & B)]); [auto|].
  destruct (C150_always_main _ _ _ _ _ _ _ _ _ _ _ H1 H2 H3 H4 H5 B) as [K|K]; auto.
Qed.
(** C166: with the evolutionary search, the best of the final population, and of all
    successes since the last restart if they were at most as many as the population can
    hold.  Missing: the best of all successes (see C151). *)
Lemma C166_evolutionary_partial_main :
  forall E (build : nat -> list (string * value) -> res E) fixed call scores limit n log defaults ps max_length max_retry pop_size max_n restart warm_start (s : setting) plan steps w p,
  pset_typed ps -> 0 < max_retry -> wf_heap (s_heap s) -> start_ok ps None s warm_start -> NoDup (map i_id warm_start) -> clear_names ps ->
  (forall k, Forall (fun x => x <> NaN) (scores k)) ->
  fit_evo_l call scores limit build fixed ps max_length n log defaults max_retry pop_size max_n restart warm_start (before_search s plan) = (Ok steps, (w, p)) ->
  let found := successes (since_restart (v_trace w)) in
  from_workers call scores defaults w /\ incl (v_pop w) found /\
  exists m ss, In m (v_pop w) /\ (forall m', In m' (v_pop w) -> ~ lex_lt (m_fit m) (m_fit m')) /\
    (length found <= pop_size -> forall m', In m' found -> ~ lex_lt (m_fit m) (m_fit m')) /\
    is_pipeline (objects w) (m_ind m) ss /\ pipeline_ok ps ss /\ made_from build fixed ss steps.
Proof.
  intros E build fixed call scores limit n log d ps mx mr pop_size mn rs warm s plan steps w p T HN W S ND CN NN H found. unfold found in *. clear found. unfold fit_evo_l in H.
  destruct (l_search call scores limit ps mx mr pop_size mn rs n log d warm (before_search s plan)) as [x [w1 p1]] eqn:ER.
  pose proof (C165_evolutionary_results_main _ _ _ _ _ _ _ _ _ _ _ _ _ _ _ _ _ _ T HN W S ND ER) as FW.
  destruct (search_top _ _ _ _ _ _ _ _ _ _ _ _ _ _ _ _ _ _ ER) as (_ & l & es & x' & _ & _ & AE & D).
  destruct (Limit_Proofs5.v_search_ok _ _ _ _ _ _ _ _ _ _ _ T HN W S D) as ((start & I & _) & K).
  destruct (search_over x) as [a|e] eqn:SO; [|discriminate]. apply over_cases in SO.
  assert (x' = x) as -> by (destruct AE as [-> |(_ & -> & _)]; auto; destruct SO; discriminate).
  destruct (K SO) as (K0 & K2 & _). pose proof (End_Proofs.part_incl _ _ K0) as K1. clear K0. unfold End_Proofs.since in K1, K2. cbn [Proc_Proofs2.setj v_pop v_trace] in K1, K2.
  unfold own, gp in H. cbn [fst snd] in H. destruct (best_model build fixed (v_pop w1) (v_st w1)) as [x2 s2] eqn:EH. pose proof (Proc_Main.best_model_same _ _ _ _ _ _ _ EH) as ->.
  injection H as -> <- <-. cbn [v_trace v_pop]. unfold objects. cbn [v_st].
  assert (NU : Forall numeric (successes (since_restart (v_trace w1)))) by exact (Proc_Main.v_numeric _ _ _ _ NN FW). rewrite Forall_forall in NU.
  split; [destruct w1; exact FW|].
  destruct (best_model_ok build fixed (v_pop w1) (v_st w1) steps (v_st w1) (pipeline_ok ps)) as (_ & m & ss & Hm & Mx & C & O1 & MF); auto.
  - apply I.
  - intros m Hm. exact (NU m (K1 m Hm)).
  - intros m Hm. destruct (n_known _ _ _ _ _ _ _ I (m_ind m)) as (_ & ss & C & O1).
    + apply K1, in_successes, since_incl in Hm. eexists. split; [exact Hm|reflexivity].
    + exists ss. split; auto. split; auto. eapply clear_unambiguous; eauto.
  - split; auto. exists m, ss. split; auto. split; auto. split; [|auto]. intros L m' Hm'. apply Mx. rewrite K2; auto.
Qed.
(** C166: with ASHA, the best of the results for the highest rung for which there is one. *)
Lemma C166_asha_main :
  forall E (build : nat -> list (string * value) -> res E) fixed call scores limit n log defaults ps max_length eta first_rung max_rung max_full warm_start s plan steps w p,
  wf_heap (s_heap s) -> start_ok ps max_length s warm_start -> NoDup (map i_id warm_start) -> pset_rich ps -> allows_one max_length -> clear_names ps ->
  (Z.of_nat first_rung <= max_rung)%Z -> (forall k, scores k <> []) -> (forall k, Forall (fun x => x <> NaN) (scores k)) ->
  fit_asha_l call scores limit build fixed ps max_length n log defaults eta first_rung max_rung max_full warm_start (before_h s plan) = (Ok steps, (w, p)) ->
  h_from_workers call scores defaults w /\
  exists r m ss, In m (map snd (scored r (q_trace w))) /\ (forall r', r < r' -> scored r' (q_trace w) = []) /\
    (forall m', In m' (map snd (scored r (q_trace w))) -> ~ lex_lt (m_fit m) (m_fit m')) /\
    is_pipeline (h_objects w) (m_ind m) ss /\ pipeline_ok ps ss /\ within max_length ss /\ made_from build fixed ss steps.
Proof.
  intros E build fixed call scores limit n log d ps ml eta fr mr mf warm s plan steps w p H1 H2 H3 H4 H5 H6 H7 H8 H9 E0.
  destruct (fit_asha_top _ _ _ _ _ _ _ _ _ _ _ _ _ _ _ _ _ _ _ _ _ E0) as (x1 & p1 & A & [(X & _)|(es & l & C & B)]); [discriminate|].
  pose proof (C165_asha_results_main _ _ _ _ _ _ _ _ _ _ _ _ _ _ _ _ _ _ H1 H2 H3 A) as F. split; auto.
  exact (C152_best_main _ _ _ _ _ _ _ _ _ _ _ _ _ _ H1 H2 H4 H5 H6 H7 (scored_has _ _ H8 C) B (Proc_Main.h_scored_numeric _ _ _ _ H9 F)).
Qed.
Lemma C166_asha_always_main :
  forall E (build : nat -> list (string * value) -> res E) fixed call scores limit n log defaults ps max_length eta first_rung max_rung max_full warm_start s plan x w p,
  wf_heap (s_heap s) -> start_ok ps max_length s warm_start -> pset_rich ps -> allows_one max_length ->
  (Z.of_nat first_rung <= max_rung)%Z -> (forall k, scores k <> []) -> (match max_full with None => True | Some m => (0 < m)%Z end) ->
  (forall c kwargs, exists e, build c kwargs = Ok e) ->
  fit_asha_l call scores limit build fixed ps max_length n log defaults eta first_rung max_rung max_full warm_start (before_h s plan) = (x, (w, p)) ->
  ((forall r, scored r (q_trace w) = []) /\ x = Err UnboundLocalError) \/
  ((exists r, scored r (q_trace w) <> []) /\ exists steps, x = Ok steps) \/
  (x = Err UnboundLocalError /\ unreadable n plan).
Proof.
  intros E build fixed call scores limit n log d ps ml eta fr mr mf warm s plan x w p H1 H2 H3 H4 H5 H6 H7 H8 E0.
  destruct (fit_asha_top _ _ _ _ _ _ _ _ _ _ _ _ _ _ _ _ _ _ _ _ _ E0) as (x1 & p1 & A & [(X & _ & G)|(es & l & C & B)]); [auto|].
  destruct (C152_always_main _ _ _ _ _ _ _ _ _ _ _ _ _ _ H1 H2 H3 H4 H5 (scored_has _ _ H6 C) H7 H8 B) as [K|K]; auto.
Qed.

(** * C167: jobs that are never replaced *)
Definition fine_call (fn : nat) (args : list nat) (kw : Async_Model.kwargs) (choice : nat) : Async_Model.outcome :=
  Async_Model.Ret (Async_Model.VEval (hd 0 args) Async_Model.NoError).
(** A turn in which nobody uses much memory, and one in which process [pid] uses 500 MB. *)
Definition modest (l : list Async_Model.act) : Sys_Model.turn :=
  Sys_Model.mkTurn l (fun _ => Some 1) (fun _ => Some 1) (fun _ => Some 1) true.
Definition too_big (pid : nat) (l : list Async_Model.act) : Sys_Model.turn :=
  Sys_Model.mkTurn l (fun q => Some (if q =? pid then 500 else 1)) (fun q => Some (if q =? pid then 500 else 1)) (fun _ => Some 1) true.
Lemma turns_run call plan : forall s s' plan', Sys_Model.turns call plan s = (s', plan') -> exists l, s' = Async_Model.run call s l.
Proof.
  induction plan as [|t plan IH]; intros s s' plan' E; cbn [Sys_Model.turns] in E.
  - injection E as <- _. exists []. reflexivity.
  - set (a := Async_Model.Turn (Sys_Model.t_mem t) (Sys_Model.t_mem2 t) (Sys_Model.t_mem3 t) (Sys_Model.t_ready t)) in *.
    assert (H : Async_Model.step call (Sys_Model.workers_do call (Sys_Model.t_acts t) s) a = Async_Model.run call s (filter Sys_Model.by_worker (Sys_Model.t_acts t) ++ [a])).
    { unfold Sys_Model.workers_do, Async_Model.run. rewrite fold_left_app. reflexivity. }
    rewrite H in E. destruct (Async_Model.a_waiting _).
    + destruct (IH _ _ _ E) as (l & ->). eexists. unfold Async_Model.run. rewrite <- fold_left_app. reflexivity.
    + injection E as <- _. eexists. reflexivity.
Qed.
(** The only job was lost. *)
Lemma lost_turns call d s plan s' plan' : Limit_Proofs.good call d s -> Async_Model.a_waiting s = true -> Async_Model.a_submitted s = [(0, Sys_Model.future 0)] ->
  Async_Model.a_returned s = [] -> Async_Proofs.pend s = [] -> Sys_Model.turns call plan s = (s', plan') ->
  Async_Model.a_waiting s' = true \/ exists e, Sys_Model.raised_by s s' = Some e.
Proof.
  intros G W SU RT PE E. destruct (Limit_Proofs.turns_good call d plan s s' plan' G W E) as (_ & _ & _ & [(_ & _ & _ & _ & _ & L)|[[(id & o & X1 & X2 & X3 & X4 & X5) _]|[(_ & _ & _ & L & _) _]]]).
  - left. congruence.
  - exfalso. destruct (turns_run _ _ _ _ _ E) as (l & ->). destruct (Limit_Proofs.ids_ok call d _ G) as (_ & _ & HI).
    assert (id = 0) as ->. { specialize (HI id X1). rewrite SU in HI. simpl in HI. lia. }
    apply (Async_Proofs5.lost_forever call l s 0 (Limit_Proofs.g_all _ _ _ G)).
    + unfold Async_Spec.submitted. rewrite SU. simpl. auto.
    + rewrite PE. auto.
    + unfold Async_Spec.returned. rewrite RT. auto.
    + unfold Async_Spec.returned. rewrite X4. rewrite map_app. apply in_or_app. right. left. reflexivity.
  - right. exists ValueError. unfold Sys_Model.raised_by. rewrite L, app_length. destruct (Nat.ltb_spec (length (Async_Model.a_raised s)) (length (Async_Model.a_raised s) + length [ValueError])) as [_|HH]; [|simpl in HH; lia].
    rewrite last_last. auto.
Qed.
Definition lost_plan : list Sys_Model.turn := [modest []; too_big 1 [Async_Model.Get 1]].
Notation the_first := (mkInd 0 0 [] "new").
Notation stuck plan := (l_rs_phase fine_call Sys_Main.ex_scores (Some 100) ex_ps (Some 3%Z) None 1 true [] [the_first] (before_h (ex_begin []) plan)).
Lemma stuck_pool plan : let p := mkPool (Async_Model.step fine_call (Async_Model.step fine_call (Async_Model.new_evaluator 1 (Some 100) true []) Async_Model.Enter) (Async_Model.Submit (Sys_Model.future 0))) [(the_first, 0)] (too_big 1 [Async_Model.Get 1] :: plan) in
  exists e p', pool_wait fine_call p = (Err e, p').
Proof.
  cbv zeta. set (s1 := Async_Model.step fine_call (Async_Model.new_evaluator 1 (Some 100) true []) Async_Model.Enter).
  assert (G1 : Limit_Proofs.good fine_call [] s1) by (apply Limit_Proofs.good_enter).
  set (s2 := Async_Model.step fine_call s1 _). assert (G2 : Limit_Proofs.good fine_call [] s2) by (apply Limit_Proofs.good_step; auto; discriminate).
  unfold pool_wait. cbn [p_s p_plan p_jobs].
  set (s3 := Async_Model.step fine_call s2 Async_Model.Wait). assert (G3 : Limit_Proofs.good fine_call [] s3) by (apply Limit_Proofs.good_step; auto; discriminate).
  assert (R3 : Sys_Model.raised_by s2 s3 = None) by (vm_compute; reflexivity). rewrite R3. cbn [Sys_Model.turns].
  set (s4 := Sys_Model.workers_do fine_call _ s3). assert (G4 : Limit_Proofs.good fine_call [] s4) by (apply Limit_Proofs.workers_good; auto).
  set (s5 := Async_Model.step fine_call s4 _). assert (G5 : Limit_Proofs.good fine_call [] s5) by (apply Limit_Proofs.good_step; auto; discriminate).
  assert (W5 : Async_Model.a_waiting s5 = true) by (vm_compute; reflexivity). rewrite W5.
  destruct (Sys_Model.turns fine_call plan s5) as [s6 plan'] eqn:ET.
  assert (R6 : Sys_Model.raised_by s3 s6 = Sys_Model.raised_by s5 s6) by (unfold Sys_Model.raised_by; replace (Async_Model.a_raised s3) with (Async_Model.a_raised s5) by (vm_compute; reflexivity); reflexivity).
  destruct (lost_turns fine_call [] s5 plan s6 plan' G5 W5) as [L|(e & L)]; auto; try (vm_compute; reflexivity).
  - rewrite L. eauto.
  - rewrite R6, L. destruct (Async_Model.a_waiting s6); eauto.
Qed.
Lemma stuck_run plan : exists x w p, stuck (lost_plan ++ plan) = (x, (w, p)) /\ arrivals (q_trace w) = [].
Proof.
  unfold l_rs_phase, pbind at 1. unfold own at 1. cbn [before_h fst snd Rnd_Model.candidates hret]. unfold l_random_search, with_limit. cbn [fst snd idle p_plan].
  cbn [q_submit_each]. unfold pbind at 1. unfold pbind at 1. unfold q_submit at 1. unfold pret at 1.
  unfold pool_submit. cbn [p_s p_jobs p_plan app length tl].
  change (lost_plan ++ plan) with (modest [] :: too_big 1 [Async_Model.Get 1] :: plan). cbn [tl length Sys_Model.t_acts modest].
  change (Sys_Model.workers_do fine_call [] ?s) with s.
  cbn [q_rs_turns]. unfold pbind at 1. unfold own at 1. cbn [fst snd outputs below q_out fresh_h].
  destruct (stuck_pool plan) as (e & p' & EP). cbv zeta in EP.
  unfold pbind at 1. unfold q_wait_next at 1.
  match goal with |- context [pool_wait fine_call ?p] => change (pool_wait fine_call p) with (pool_wait fine_call (mkPool (Async_Model.step fine_call (Async_Model.step fine_call (Async_Model.new_evaluator 1 (Some 100) true []) Async_Model.Enter) (Async_Model.Submit (Sys_Model.future 0))) [(the_first, 0)] (too_big 1 [Async_Model.Get 1] :: plan))) end.
  rewrite EP. eexists _, _, _. split; [reflexivity|]. reflexivity.
Qed.
(** C167.  With a limit on memory use, a search that is waiting for results can always still
    get one: false.  What is evaluated by a worker that is stopped is not evaluated again,
    and nothing is submitted in its place. *)
Lemma C167_goes_on_refuted_main :
  ~ (forall call scores limit n log defaults ps max_length max_n warm_start s plan w p,
     0 < n -> (forall fn args kwargs choice, exists k, call fn args kwargs choice = Async_Model.Ret (Async_Model.VEval k Async_Model.NoError)) ->
     wf_heap (s_heap s) -> start_ok ps max_length s warm_start -> pset_rich ps -> allows_one max_length -> Forall all_read plan ->
     l_rs_phase call scores limit ps max_length max_n n log defaults warm_start (before_h s plan) = (Err Diverges, (w, p)) ->
     exists plan' x' w' p',
       l_rs_phase call scores limit ps max_length max_n n log defaults warm_start (before_h s (plan ++ plan')) = (x', (w', p')) /\
       length (arrivals (q_trace w)) < length (arrivals (q_trace w'))).
Proof.
  intros H.
  assert (X : fst (stuck lost_plan) = Err Diverges) by (vm_compute; reflexivity).
  assert (E : stuck lost_plan = (Err Diverges, (fst (snd (stuck lost_plan)), snd (snd (stuck lost_plan))))).
  { rewrite <- X. destruct (stuck lost_plan) as [x [w p]]. reflexivity. }
  assert (A1 : forall fn args kwargs choice, exists k, fine_call fn args kwargs choice = Async_Model.Ret (Async_Model.VEval k Async_Model.NoError)) by (intros; eexists; reflexivity).
  assert (A2 : start_ok ex_ps (Some 3%Z) (ex_begin []) [the_first]) by (pose proof (ex_start_ok 3 [] (Z.le_refl 3)) as K; inversion K; subst; constructor; auto).
  assert (A3 : allows_one (Some 3%Z)) by (simpl; lia).
  assert (A4 : Forall all_read lost_plan) by (repeat constructor; discriminate).
  destruct (H _ _ _ _ _ _ _ _ _ _ _ _ _ _ (Nat.lt_0_succ 0) A1 (ex_begin_wf ex_p1 _ eq_refl) A2 ex_rich A3 A4 E) as (plan' & x' & w' & p' & E' & L).
  destruct (stuck_run plan') as (x & w & p & E2 & A). pose proof (eq_trans (eq_sym E2) E') as E3. clear - A E3 L. injection E3 as _ <- _. rewrite A in L. simpl in L. lia.
Qed.
(** * Examples: two workers, one of which is stopped while it works on the third submission *)
Definition limit_plan (k : nat) : list Sys_Model.turn :=
  repeat (modest []) k ++
  [modest [Async_Model.Get 1; Async_Model.Get 2; Sys_Main.exec 1; Async_Model.Flush 1]; modest [Async_Model.Get 1]; too_big 1 [Sys_Main.exec 2];
   modest [Async_Model.Flush 2; Async_Model.Get 2]; modest [Sys_Main.exec 2; Async_Model.Flush 2]; modest [Async_Model.Get 2; Sys_Main.exec 2; Async_Model.Flush 2];
   modest [Async_Model.Get 2; Sys_Main.exec 2; Async_Model.Flush 2]].
(** Both workers have ended by themselves when the limit is exceeded. *)
Definition gone_plan (k : nat) : list Sys_Model.turn :=
  repeat (modest []) k ++
  [modest [Async_Model.Get 1; Async_Model.Get 2; Async_Model.Crash 1; Async_Model.Crash 2];
   Sys_Model.mkTurn [] (fun q => if q =? 0 then Some 500 else None) (fun _ => Some 1) (fun _ => Some 1) true].
Notation ex_lrs plan := (l_rs_phase fine_call Sys_Main.ex_scores (Some 100) ex_ps (Some 3%Z) None 2 true [] ex_start (before_h (ex_begin []) plan)).
Notation ex_lasha plan := (l_asha_phase fine_call Sys_Main.ex_scores (Some 100) ex_ps (Some 3%Z) 3 0 2%Z (Some 1%Z) 2 true [] ex_start (before_h (ex_begin []) plan)).
Notation ex_levo plan := (l_search fine_call Sys_Main.ex_scores (Some 100) ex_ps None 50 5 None false 2 true [] [] (before_search (first_fit (ex_begin [])) plan)).
Example C165_ex_main :
  pset_typed ex_ps /\ pset_rich ex_ps /\ wf_heap (s_heap (ex_begin [])) /\ start_ok ex_ps (Some 3%Z) (ex_begin []) ex_start /\ NoDup (map i_id ex_start) /\ Forall all_read (limit_plan 5) /\
  fst (ex_lrs (limit_plan 5)) = Err Diverges /\
  map (fun x => (i_id (fst (fst x)), snd x)) (arrivals (q_trace (fst (snd (ex_lrs (limit_plan 5)))))) =
    [(0, Evaluated [Fin 0; Fin 0] false); (1, Evaluated [Fin 1; Fin 0] false); (3, Evaluated [Fin (3 # 1); Fin 0] false)] /\
  map (fun x => i_id (fst x)) (started (q_trace (fst (snd (ex_lrs (limit_plan 5)))))) = seq 0 8 /\
  fst (ex_lasha (limit_plan 8)) = Err Diverges /\
  map (fun x => (i_id (fst (fst x)), snd x)) (arrivals (q_trace (fst (snd (ex_lasha (limit_plan 8)))))) =
    [(4, Evaluated [Fin 0; Fin 0] false); (3, Evaluated [Fin 1; Fin 0] false); (1, Evaluated [Fin (3 # 1); Fin 0] false)] /\
  fst (ex_levo (limit_plan 50)) = Err Diverges /\
  map (fun x => (i_id (fst x), snd x)) (collections (v_trace (fst (snd (ex_levo (limit_plan 50)))))) =
    [(5, Evaluated [Fin 0; Fin 0] false); (6, Evaluated [Fin 1; Fin 0] false); (8, Evaluated [Fin (3 # 1); Fin 0] false); (9, Evaluated [Fin (4 # 1); Fin 0] false); (10, Evaluated [Fin (5 # 1); Fin 0] false)] /\
  (* processes that cannot be read *)
  fst (ex_lrs (gone_plan 5)) = Err ValueError /\ fst (ex_lasha (gone_plan 8)) = Err ValueError /\ fst (ex_levo (gone_plan 50)) = Err ValueError /\ ~ Forall all_read (gone_plan 5).
Proof.
  split; [apply ex_typed|]. split; [apply ex_rich|]. split; [apply (ex_begin_wf ex_p1 _ eq_refl)|]. split; [apply ex_start_ok; apply Z.le_refl|].
  split; [vm_compute; repeat constructor; simpl; intuition discriminate|]. split; [repeat constructor; discriminate|].
  repeat (split; [vm_compute; reflexivity|]). intros F. rewrite Forall_forall in F.
  destruct (F (Sys_Model.mkTurn [] (fun q => if q =? 0 then Some 500 else None) (fun _ => Some 1) (fun _ => Some 1) true)) as [K _]; [|exact (K 1 eq_refl)].
  unfold gone_plan. apply in_or_app. right. right. left. reflexivity.
Qed.
Example C166_ex_main :
  clear_names ex_ps /\ (forall k, Sys_Main.ex_scores k <> []) /\ (forall k, Forall (fun x => x <> NaN) (Sys_Main.ex_scores k)) /\
  fst (fit_random_l fine_call Sys_Main.ex_scores (Some 100) ex_class [("imp"%string, 9)] ex_ps (Some 3%Z) 2 true [] None ex_start (before_h (ex_begin []) (limit_plan 5))) =
    Ok [("imp", 9); ("0", 0)]%string /\
  fst (fit_asha_l fine_call Sys_Main.ex_scores (Some 100) ex_class [("imp"%string, 9)] ex_ps (Some 3%Z) 2 true [] 3 0 2%Z (Some 1%Z) ex_start (before_h (ex_begin []) (limit_plan 8))) =
    Ok [("imp", 9); ("2", 3); ("1", 2); ("0", 0)]%string /\
  (exists steps, fst (fit_evo_l fine_call Sys_Main.ex_scores (Some 100) ex_class [("imp"%string, 9)] ex_ps None 2 true [] 50 5 None false [] (before_search (first_fit (ex_begin [])) (limit_plan 50))) = Ok steps) /\
  (* no result in time *)
  fst (fit_random_l fine_call Sys_Main.ex_scores (Some 100) ex_class [("imp"%string, 9)] ex_ps (Some 3%Z) 1 true [] None [the_first] (before_h (ex_begin []) lost_plan)) = Err IndexError /\
  (* processes that cannot be read *)
  fst (fit_random_l fine_call Sys_Main.ex_scores (Some 100) ex_class [("imp"%string, 9)] ex_ps (Some 3%Z) 2 true [] None ex_start (before_h (ex_begin []) (gone_plan 5))) = Err ValueError /\
  fst (fit_asha_l fine_call Sys_Main.ex_scores (Some 100) ex_class [("imp"%string, 9)] ex_ps (Some 3%Z) 2 true [] 3 0 2%Z (Some 1%Z) ex_start (before_h (ex_begin []) (gone_plan 8))) = Err UnboundLocalError.
Proof.
  split; [apply ex_clear|]. split; [discriminate|]. split; [intros k; repeat constructor; discriminate|]. split; [vm_compute; reflexivity|]. split; [vm_compute; reflexivity|].
  split; [eexists; vm_compute; reflexivity|]. repeat split; vm_compute; reflexivity.
Qed.

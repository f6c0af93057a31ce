(** C160-C162: the searches on pipelines, and fit, on top of the worker processes. *)
(*IMPORTS*)
Require Import Permutation QArith.
From Verif Require Import Base Num Gp_Model Gp_Spec Gp_Examples Lib_Spec Eval_Model Evo_Model Evo_Spec Evo_Main Rnd_Model Rnd_Spec End_Model End_Spec Proc_Model Proc_Spec.
From Verif Require Async_Model Sys_Model Sys_Main.
From Verif Require Import End_Main.
Open Scope nat_scope.
Open Scope list_scope.
(*END*)
From Verif Require Import Proc_Proofs Proc_Proofs2 Rnd_Main.
From Verif Require Proc_Proofs3 Evo_Proofs Evo_Proofs2.

(** * From the identity of the submission to its pipeline *)
Lemma in_collections t i o : In (i, o) (collections t) -> exists t1 t2, t = t1 ++ Collected i o :: t2.
Proof.
  induction t as [|[i' pop|i'|i' o'|] t IH]; simpl; try tauto; intros H.
  1, 2, 4: destruct (IH H) as (t1 & t2 & ->); eexists (_ :: t1), t2; reflexivity.
  destruct H as [[= -> ->]|H]; [exists [], t; auto|]. destruct (IH H) as (t1 & t2 & ->). eexists (_ :: t1), t2. reflexivity.
Qed.
Lemma in_submitted t i : In (Submitted i) t -> In i (submitted t).
Proof. induction t as [|[] t IH]; simpl; try tauto; intros [H|H]; try discriminate; auto. injection H as ->. auto. Qed.
Lemma nodup_nth {A B} (f : A -> B) l : NoDup (map f l) -> forall a b, In a l -> In b l -> f a = f b -> a = b.
Proof.
  induction l as [|x l IH]; simpl; intros N a b; [tauto|]. apply NoDup_cons_iff in N as [N1 N2]. intros [<-|Ha] [<-|Hb] E; auto.
  - destruct N1. rewrite E. apply in_map. auto.
  - destruct N1. rewrite <- E. apply in_map. auto.
Qed.
Lemma F2_in {A B} (R R' : A -> B -> Prop) l l' : (forall a b, In b l' -> R a b -> R' a b) -> Forall2 R l l' -> Forall2 R' l l'.
Proof. intros H F. induction F; constructor; auto. - apply H; simpl; auto. - apply IHF. intros. apply H; simpl; auto. Qed.

(** C160.  The evolutionary search on pipelines with its worker processes: however they take
    turns, and whichever of them die, the search behaves like one in which the evaluations
    finish one after the other ([Evo_Model.v], C144-C147, C151, C154), with scores of
    evaluations. *)
Lemma C160_schedule_main :
  forall call scores n log defaults ps max_length max_retry pop_size max_n restart warm_start (s : setting) plan x w p,
  p_search call scores ps max_length max_retry pop_size max_n restart n log defaults warm_start (before_search s plan) = (x, (w, p)) ->
  exists events outstanding, length events <= length plan /\
    (forall e l failed, In e events -> e_out e = Evaluated l failed -> exists k, l = scores k) /\
    search ps max_length max_retry n pop_size max_n restart warm_start events (fresh_search s) =
      (x, mkEvo (v_st w) (v_pop w) outstanding (v_saved w) (v_trace w)).
Proof.
  intros call scores n log defaults ps ml mr pz mn rs warm s plan x w p E. destruct (search_top _ _ _ _ _ _ _ _ _ _ _ _ _ _ _ _ _ E) as (A & B & es & C0 & C & D).
  exists es, (outstanding di p). split; auto. split; auto. intros e l f He El. rewrite Forall_forall in C0. specialize (C0 _ He). unfold scored_by in C0. rewrite El in C0. auto.
Qed.
(** C160: the results that were collected are those of different submissions: for each, a
    worker's call for this pipeline ended with this outcome. *)
Lemma C160_results_main :
  forall call scores n log defaults ps max_length max_retry pop_size max_n restart warm_start (s : setting) plan x w p,
  pset_typed ps -> 0 < max_retry -> wf_heap (s_heap s) -> start_ok ps None s warm_start -> NoDup (map i_id warm_start) ->
  p_search call scores ps max_length max_retry pop_size max_n restart n log defaults warm_start (before_search s plan) = (x, (w, p)) ->
  from_workers call scores defaults w.
Proof.
  intros call scores n log defaults ps ml mr pz mn rs warm s plan x w p H1 H2 H3 H4 H5 E. destruct (search_top _ _ _ _ _ _ _ _ _ _ _ _ _ _ _ _ _ E) as (A & (ks & N & F) & es & _ & _ & D).
  destruct (C145_once_main _ _ _ _ _ _ _ _ _ _ _ _ H1 H2 H3 H4 H5 D) as [ND _]. cbn [setj v_trace] in ND.
  exists ks. split; auto. eapply F2_in; [|exact F]. intros k [i o] HI (j & J1 & J2 & J3). cbn [fst snd] in *. exists j. split; auto. split; auto.
  destruct (in_collections _ _ _ HI) as (t1 & t2 & Et).
  destruct (C144_results_main _ _ _ _ _ _ _ _ _ _ _ _ t1 i o t2 H1 H2 H3 H4 D Et) as (j' & ss & K1 & K2 & K3 & K4 & K5 & K6).
  assert (j' = j) as ->.
  { apply (nodup_nth i_id _ ND).
    - rewrite Et, submitted_app. apply in_or_app. left. apply in_submitted. auto.
    - eapply nth_error_In; eauto.
    - congruence. }
  split; auto. split; auto. split; auto. exists ss. auto.
Qed.
(** C160: every pipeline given to a worker is one of the search space, with at most
    max(m, 2m - 2) steps when max_pipeline_length is m (see C144). *)
Lemma C160_in_search_space_main :
  forall call scores n log defaults ps max_length max_retry pop_size max_n restart warm_start (s : setting) plan x w p i,
  pset_typed ps -> 0 < max_retry -> wf_heap (s_heap s) -> start_ok ps max_length s warm_start ->
  p_search call scores ps max_length max_retry pop_size max_n restart n log defaults warm_start (before_search s plan) = (x, (w, p)) ->
  In (Submitted i) (v_trace w) ->
  exists steps, is_pipeline (objects w) i steps /\ pipeline_ok ps steps /\
    match max_length with None => True | Some m => (Z.of_nat (length steps) <= Z.max m (2 * m - 2))%Z end.
Proof.
  intros call scores n log defaults ps ml mr pz mn rs warm s plan x w p i H1 H2 H3 H4 E HI. destruct (search_top _ _ _ _ _ _ _ _ _ _ _ _ _ _ _ _ _ E) as (_ & _ & es & _ & _ & D).
  assert (H4' : start_ok ps None s warm). { eapply Forall_impl; [|exact H4]. intros j (J1 & ss & J2 & J3 & _). split; auto. exists ss. split; auto. split; [auto|exact Logic.I]. }
  destruct (C144_in_search_space_main _ _ _ _ _ _ _ _ _ _ _ _ i H1 H2 H3 H4' D HI) as (ss & S1 & S2). cbn [setj] in S1.
  exists ss. split; auto. split; auto. destruct ml as [m|]; auto.
  destruct (C144_length_partial_main _ _ _ _ _ _ _ _ _ _ _ _ i H1 H2 H3 H4 D HI) as (ss' & T1 & T2). assert (ss' = ss) as -> by (eapply Evo_Proofs.is_pipeline_fun; eauto). lia.
Qed.
(** C160: the exceptions of C147 are all: with a search space with alternatives, no limit
    or one the operators can respect, and at least two scores (always as many) in every
    evaluation, the only exception that ends the search is that of selecting from fewer than
    three pipelines, whatever the workers do. *)
Lemma C160_exceptions_main :
  forall call scores n log defaults ps max_length max_retry pop_size max_n restart warm_start (s : setting) plan x w p k,
  pset_typed ps -> pset_rich ps -> roomy ps max_length -> 0 < max_retry -> 2 <= k -> (forall e, length (scores e) = k) ->
  wf_heap (s_heap s) -> start_ok ps max_length s warm_start -> (match max_n with Some m => (0 < m)%Z | None => True end) ->
  p_search call scores ps max_length max_retry pop_size max_n restart n log defaults warm_start (before_search s plan) = (x, (w, p)) ->
  x = Ok tt \/ x = Err Diverges \/ (x = Err ValueError /\ length (v_pop w) < 3).
Proof.
  intros call scores n log defaults ps ml mr pz mn rs warm s plan x w p k H1 H2 H3 H4 H5 H6 H7 H8 H9 E.
  destruct (search_top _ _ _ _ _ _ _ _ _ _ _ _ _ _ _ _ _ E) as (_ & _ & es & C & _ & D).
  assert (HC : Forall (calm k) es). { eapply Forall_impl; [|exact C]. intros e. unfold scored_by, calm. destruct (e_out e); auto. intros (e0 & ->). auto. }
  destruct (C147_exceptions_partial_main _ _ _ _ _ _ _ _ _ _ _ _ _ H1 H2 H3 H4 H5 H7 H8 HC H9 D) as [A|[A|(A & B & _)]]; auto.
Qed.

(** C160: and with any limit and any number of scores: the exceptions of C147. *)
Lemma C160_breakdown_main :
  forall call scores n log defaults ps max_length max_retry pop_size max_n restart warm_start (s : setting) plan x w p k,
  pset_typed ps -> pset_rich ps -> match max_length with None => True | Some m => (1 <= m)%Z end -> 0 < max_retry -> (forall e, length (scores e) = k) ->
  wf_heap (s_heap s) -> start_ok ps max_length s warm_start -> (match max_n with Some m => (0 < m)%Z | None => True end) ->
  p_search call scores ps max_length max_retry pop_size max_n restart n log defaults warm_start (before_search s plan) = (x, (w, p)) ->
  x = Ok tt \/ x = Err Diverges \/ (x = Err ValueError /\ length (v_pop w) < 3) \/ breakdown ps max_length k w x.
Proof.
  intros call scores n log defaults ps ml mr pz mn rs warm s plan x w p k H1 H2 H3 H4 H6 H7 H8 H9 E.
  destruct (search_top _ _ _ _ _ _ _ _ _ _ _ _ _ _ _ _ _ E) as (_ & _ & es & C & _ & D).
  assert (HC : Forall (calm k) es). { eapply Forall_impl; [|exact C]. intros e. unfold scored_by, calm. destruct (e_out e); auto. intros (e0 & ->). auto. }
  destruct (C147_breakdown_main _ _ _ _ _ _ _ _ _ _ _ _ _ H1 H2 H3 H4 H7 H8 HC H9 D) as [A|[A|[(A & B & _)|A]]]; auto 6.
Qed.

(** C161.  Random search with its worker processes. *)
Lemma C161_random_main :
  forall call scores n log defaults ps max_length max_n warm_start s plan x w p,
  q_rs_phase call scores ps max_length max_n n log defaults warm_start (before_h s plan) = (x, (w, p)) ->
  exists events outstanding, length events <= length plan /\
    (forall e l failed, In e events -> e_out e = Evaluated l failed -> exists k, l = scores k) /\
    rs_phase ps max_length max_n warm_start events (fresh_h s) =
      (x, mkH (q_st w) outstanding (q_start w) (q_rungs w) (q_out w) (q_trace w)).
Proof.
  intros call scores n log defaults ps ml mn warm s plan x w p E. destruct (Proc_Proofs3.rs_top _ _ _ _ _ _ _ _ _ _ _ _ _ _ E) as (A & B & es & C0 & C & D).
  exists es, (outstanding Proc_Proofs3.dj p). split; auto. split; auto. intros e l f He El. rewrite Forall_forall in C0. specialize (C0 _ He). unfold scored_by in C0. rewrite El in C0. auto.
Qed.
Lemma in_arrivals t i r o : In (i, r, o) (arrivals t) -> exists t1 t2, t = t1 ++ Finished i r o :: t2.
Proof.
  induction t as [|[i' r'|i' r' o'] t IH]; simpl; try tauto; intros H.
  - destruct (IH H) as (t1 & t2 & ->). eexists (_ :: t1), t2. reflexivity.
  - destruct H as [[= -> -> ->]|H]; [exists [], t; auto|]. destruct (IH H) as (t1 & t2 & ->). eexists (_ :: t1), t2. reflexivity.
Qed.
Lemma in_started t i r : In (Started i r) t -> In (i, r) (started t).
Proof. induction t as [|[] t IH]; simpl; try tauto; intros [H|H]; try discriminate; auto. injection H as -> ->. auto. Qed.
Lemma h_results call scores d w :
  Proc_Proofs3.links call scores d w -> NoDup (map key (started (q_trace w))) ->
  (forall t1 i r o t2, q_trace w = t1 ++ Finished i r o :: t2 ->
    exists j ss, In (Started j r) t1 /\ is_pipeline (h_objects w) j ss /\ is_pipeline (h_objects w) i ss /\
    i_id i = i_id j /\ i_parents i = i_parents j /\ i_origin i = i_origin j) ->
  h_from_workers call scores d w.
Proof.
  intros (ks & N & F) ND HR. exists ks. split; auto. eapply F2_in; [|exact F]. intros k [[i r] o] HI (j & J1 & J2 & J3). cbn [fst snd] in *. exists j. split; auto. split; auto.
  destruct (in_arrivals _ _ _ _ HI) as (t1 & t2 & Et). destruct (HR _ _ _ _ _ Et) as (j' & ss & K1 & K2 & K3 & K4 & K5 & K6).
  assert (EQ : (j', r) = (j, r)).
  { apply (nodup_nth key _ ND).
    - rewrite Et, Proc_Proofs3.started_app. apply in_or_app. left. apply in_started. auto.
    - eapply nth_error_In; eauto.
    - unfold key. cbn [fst snd]. congruence. }
  injection EQ as ->. split; auto. split; auto. split; auto. exists ss. auto.
Qed.
Lemma C161_random_results_main :
  forall call scores n log defaults ps max_length max_n warm_start s plan x w p,
  wf_heap (s_heap s) -> start_ok ps max_length s warm_start -> NoDup (map i_id warm_start) ->
  q_rs_phase call scores ps max_length max_n n log defaults warm_start (before_h s plan) = (x, (w, p)) ->
  h_from_workers call scores defaults w /\ q_out w = results (q_trace w).
Proof.
  intros call scores n log defaults ps ml mn warm s plan x w p H1 H2 H3 E. destruct (Proc_Proofs3.rs_top _ _ _ _ _ _ _ _ _ _ _ _ _ _ E) as (A & B & es & _ & _ & D).
  destruct (C148_once_main _ _ _ _ _ _ _ _ H1 H2 D) as (_ & K1 & K2). split; [|exact K1].
  apply h_results; auto. intros t1 i r o t2 Et. exact (C148_results_main _ _ _ _ _ _ _ _ _ _ _ _ _ H1 H2 D Et).
Qed.
(** C161: random search on worker processes never fails, whatever they do. *)
Lemma C161_random_runs_main :
  forall call scores n log defaults ps max_length max_n warm_start s plan x w p,
  wf_heap (s_heap s) -> start_ok ps max_length s warm_start -> pset_rich ps -> allows_one max_length ->
  q_rs_phase call scores ps max_length max_n n log defaults warm_start (before_h s plan) = (x, (w, p)) ->
  (x = Ok tt \/ x = Err Diverges) /\
  length (started (q_trace w)) = length (finished (q_trace w)) + match warm_start with [] => 50 | _ => length warm_start end.
Proof.
  intros call scores n log defaults ps ml mn warm s plan x w p H1 H2 H3 H4 E. destruct (Proc_Proofs3.rs_top _ _ _ _ _ _ _ _ _ _ _ _ _ _ E) as (A & B & es & _ & _ & D).
  destruct (C148_keeps_running_main _ _ _ _ _ _ _ _ H1 H2 H3 H4 D) as (K1 & K2). destruct (C148_once_main _ _ _ _ _ _ _ _ H1 H2 D) as (P & _ & _).
  split; [destruct mn; [destruct K2 as [[-> _]|[-> _]]|destruct K2 as [-> _]]; auto|].
  apply Permutation_length in P. rewrite app_length, !map_length in P. rewrite K1 in P. exact P.
Qed.

(** C161: ASHA. *)
Lemma C161_asha_main :
  forall call scores n log defaults ps max_length eta first_rung max_rung max_full warm_start s plan x w p,
  q_asha_phase call scores ps max_length eta first_rung max_rung max_full n log defaults warm_start (before_h s plan) = (x, (w, p)) ->
  exists events outstanding, length events <= length plan /\
    (forall e l failed, In e events -> e_out e = Evaluated l failed -> exists k, l = scores k) /\
    asha_phase ps max_length eta first_rung max_rung max_full warm_start events (fresh_h s) =
      (x, mkH (q_st w) outstanding (q_start w) (q_rungs w) (q_out w) (q_trace w)).
Proof.
  intros call scores n log defaults ps ml eta fr mr mf warm s plan x w p E. destruct (Proc_Proofs3.asha_top _ _ _ _ _ _ _ _ _ _ _ _ _ _ _ _ _ E) as (A & B & es & C0 & C & D).
  exists es, (outstanding Proc_Proofs3.dj p). split; auto. split; auto. intros e l f He El. rewrite Forall_forall in C0. specialize (C0 _ He). unfold scored_by in C0. rewrite El in C0. auto.
Qed.
Lemma C161_asha_results_main :
  forall call scores n log defaults ps max_length eta first_rung max_rung max_full warm_start s plan x w p,
  wf_heap (s_heap s) -> start_ok ps max_length s warm_start -> NoDup (map i_id warm_start) ->
  q_asha_phase call scores ps max_length eta first_rung max_rung max_full n log defaults warm_start (before_h s plan) = (x, (w, p)) ->
  h_from_workers call scores defaults w.
Proof.
  intros call scores n log defaults ps ml eta fr mr mf warm s plan x w p H1 H2 H3 E. destruct (Proc_Proofs3.asha_top _ _ _ _ _ _ _ _ _ _ _ _ _ _ _ _ _ E) as (A & B & es & _ & _ & D).
  destruct (C149_once_main _ _ _ _ _ _ _ _ _ _ _ H1 H2 D) as (_ & K2).
  apply h_results; auto. intros t1 i r o t2 Et. exact (C149_results_main _ _ _ _ _ _ _ _ _ _ _ _ _ _ _ _ H1 H2 D Et).
Qed.

(** * fit *)
Lemma mread_all_same ls : forall s x s', mread_all ls s = (x, s') -> s' = s.
Proof.
  induction ls as [|l ls IH]; simpl; intros s x s' E; [injection E as _ <-; auto|]. unfold mbind, mread in E. destruct (h_get (s_heap s) l); [|injection E as _ <-; auto].
  destruct (mread_all ls s) as [y s1] eqn:E1. apply IH in E1 as ->. destruct y; injection E as _ <-; auto.
Qed.
Lemma best_model_same E (build : nat -> list (string * value) -> res E) fixed pop s x s' : best_model build fixed pop s = (x, s') -> s' = s.
Proof.
  unfold best_model. destruct (Fac_Model.best_fit _); [|intros [= _ <-]; auto]. unfold compile, mbind, primitives.
  destruct (walk _ _ _) as [ls|e]; [|intros [= _ <-]; auto]. destruct (mread_all ls s) as [y s1] eqn:E1. apply mread_all_same in E1 as ->. destruct y; intros [= _ <-]; auto.
Qed.
Lemma fit_random_top E call scores n log d (build : nat -> list (string * value) -> res E) fixed ps ml mn warm s plan x w p :
  fit_random_p call scores build fixed ps ml n log d mn warm (before_h s plan) = (x, (w, p)) ->
  exists es x1 p1 l, Forall (scored_by scores) es /\ q_rs_phase call scores ps ml mn n log d warm (before_h s plan) = (x1, (w, p1)) /\
    fit_random build fixed ps ml mn warm es (fresh_h s) = (x, Proc_Proofs3.setq l w).
Proof.
  unfold fit_random_p. destruct (q_rs_phase call scores ps ml mn n log d warm (before_h s plan)) as [x1 [w1 p1]] eqn:E1. intros E0.
  destruct (Proc_Proofs3.rs_top _ _ _ _ _ _ _ _ _ _ _ _ _ _ E1) as (A & B & es & C & _ & D).
  exists es, x1, p1, (outstanding Proc_Proofs3.dj p1). unfold fit_random. rewrite D. destruct (search_over x1) as [u|e].
  - unfold own, hgp in E0. cbn [fst snd] in E0. destruct (best_model build fixed (q_out w1) (q_st w1)) as [x2 s2] eqn:EH. pose proof (best_model_same _ _ _ _ _ _ _ EH) as ->.
    injection E0 as <- <- <-. split; auto. unfold hgp, Proc_Proofs3.setq. cbn [q_st q_jobs q_start q_rungs q_out q_trace]. rewrite EH. destruct w1. split; reflexivity.
  - injection E0 as <- <- <-. split; auto.
Qed.
Lemma fit_evo_top E call scores n log d (build : nat -> list (string * value) -> res E) fixed ps ml mr pz mn rs warm (s : setting) plan x w p :
  fit_evo_p call scores build fixed ps ml n log d mr pz mn rs warm (before_search s plan) = (x, (w, p)) ->
  exists es x1 p1 l, Forall (scored_by scores) es /\ p_search call scores ps ml mr pz mn rs n log d warm (before_search s plan) = (x1, (w, p1)) /\
    fit_evo build fixed ps ml mr n pz mn rs warm es (fresh_search s) = (x, setj l w).
Proof.
  unfold fit_evo_p. destruct (p_search call scores ps ml mr pz mn rs n log d warm (before_search s plan)) as [x1 [w1 p1]] eqn:E1. intros E0.
  destruct (search_top _ _ _ _ _ _ _ _ _ _ _ _ _ _ _ _ _ E1) as (A & B & es & C & _ & D).
  exists es, x1, p1, (outstanding di p1). unfold fit_evo. rewrite D. destruct (search_over x1) as [u|e].
  - unfold own, gp in E0. cbn [fst snd] in E0. destruct (best_model build fixed (v_pop w1) (v_st w1)) as [x2 s2] eqn:EH. pose proof (best_model_same _ _ _ _ _ _ _ EH) as ->.
    injection E0 as <- <- <-. split; auto. unfold gp, setj. cbn [v_st v_pop v_jobs v_saved v_trace]. rewrite EH. destruct w1. split; reflexivity.
  - injection E0 as <- <- <-. split; auto.
Qed.
Lemma fit_asha_top E call scores n log d (build : nat -> list (string * value) -> res E) fixed ps ml eta fr mr mf warm s plan x w p :
  fit_asha_p call scores build fixed ps ml n log d eta fr mr mf warm (before_h s plan) = (x, (w, p)) ->
  exists es x1 p1 l, Forall (scored_by scores) es /\ q_asha_phase call scores ps ml eta fr mr mf n log d warm (before_h s plan) = (x1, (w, p1)) /\
    fit_asha build fixed ps ml eta fr mr mf warm es (fresh_h s) = (x, Proc_Proofs3.setq l w).
Proof.
  unfold fit_asha_p. intros E0. destruct (q_asha_phase call scores ps ml eta fr mr mf n log d warm (before_h s plan)) as [x1 [w1 p1]] eqn:E1.
  destruct (Proc_Proofs3.asha_top _ _ _ _ _ _ _ _ _ _ _ _ _ _ _ _ _ E1) as (A & B & es & C & _ & D).
  unfold q_asha_phase in E1. unfold asha_phase in D. unfold fit_asha. unfold pbind, own, hbind, before_h in *. cbn [fst snd] in *.
  destruct (Rnd_Model.candidates ps ml warm (fresh_h s)) as [[cs|e] wc] eqn:EC.
  - cbn [fst snd set_start] in *.
    match type of E1 with q_asha _ _ _ _ _ _ _ _ _ _ _ ?y = _ => change y with (mkH (q_st wc) (q_jobs wc) cs (q_rungs wc) (q_out wc) (q_trace wc), @idle (individual * nat) plan) in * end.
    rewrite E1 in E0. cbn [fst snd] in E0.
    exists es, x1, p1, (outstanding Proc_Proofs3.dj p1). rewrite D. change (q_rungs (Proc_Proofs3.setq (outstanding Proc_Proofs3.dj p1) w1)) with (q_rungs w1).
    destruct (asha_output x1 (q_rungs w1)) as [pop|e].
    + unfold hgp in E0. destruct (best_model build fixed pop (q_st w1)) as [x2 s2] eqn:EH. pose proof (best_model_same _ _ _ _ _ _ _ EH) as ->.
      injection E0 as <- <- <-. split; auto. unfold hgp, Proc_Proofs3.setq. cbn [q_st q_jobs q_start q_rungs q_out q_trace]. rewrite EH. destruct w1. split; reflexivity.
    + injection E0 as <- <- <-. split; auto.
  - injection E0 as <- <- <-. injection E1 as <- <- <-. injection D as D1. exists es, (Err e), (idle plan), (outstanding Proc_Proofs3.dj (@idle (individual * nat) plan)). rewrite <- D1. split; auto.
Qed.
Lemma F2_exists {A B} (R : A -> B -> Prop) l l' : Forall2 R l l' -> forall b, In b l' -> exists a, In a l /\ R a b.
Proof. intros F. induction F; simpl; [tauto|]. intros b [<-|Hb]; [exists x; auto|]. destruct (IHF b Hb) as (a & H1 & H2). exists a. auto. Qed.
Lemma ended_numeric call scores d k l b : (forall k, Forall (fun x => x <> NaN) (scores k)) -> call_ended call scores d k (Evaluated l b) -> Forall (fun x => x <> NaN) l.
Proof. intros N (c & _ & L). unfold learned in L. destruct (call 0 [k] d c) as [[]| |]; try discriminate. destruct L as (f & [= -> _] & _). apply N. Qed.
Lemma h_numeric call scores d w : (forall k, Forall (fun x => x <> NaN) (scores k)) -> h_from_workers call scores d w ->
  forall i r l b, In (Finished i r (Evaluated l b)) (q_trace w) -> Forall (fun x => x <> NaN) l.
Proof.
  intros N (ks & _ & F) i r l b HI.
  assert (HA : In (i, r, Evaluated l b) (arrivals (q_trace w))). { clear - HI. induction (q_trace w) as [|[] t IH]; simpl in *; auto; destruct HI as [H|H]; try discriminate; auto. injection H as -> -> ->. auto. }
  destruct (F2_exists _ _ _ F _ HA) as (k & _ & j & _ & _ & L). eapply ended_numeric; eauto.
Qed.
Lemma v_numeric call scores d w : (forall k, Forall (fun x => x <> NaN) (scores k)) -> from_workers call scores d w -> Forall numeric (successes (since_restart (v_trace w))).
Proof.
  intros N (ks & _ & F). apply Forall_forall. intros m Hm. apply Evo_Proofs2.in_successes, Evo_Proofs2.since_incl in Hm.
  assert (HA : In (m_ind m, Evaluated (m_fit m) false) (collections (v_trace w))). { clear - Hm. induction (v_trace w) as [|[] t IH]; simpl in *; auto; destruct Hm as [H|H]; try discriminate; auto. injection H as -> ->. auto. }
  destruct (F2_exists _ _ _ F _ HA) as (k & _ & j & _ & _ & L). eapply ended_numeric; eauto.
Qed.
Lemma h_results_numeric call scores d w : (forall k, Forall (fun x => x <> NaN) (scores k)) -> h_from_workers call scores d w -> Forall numeric (results (q_trace w)).
Proof. intros N F. apply Forall_forall. intros m Hm. apply in_results in Hm as (r & b & Hm). eapply h_numeric; eauto. Qed.
Lemma h_scored_numeric call scores d w : (forall k, Forall (fun x => x <> NaN) (scores k)) -> h_from_workers call scores d w -> forall r, Forall numeric (map snd (scored r (q_trace w))).
Proof.
  intros N F r. apply Forall_forall. intros m Hm. apply in_map_iff in Hm as ([z m'] & <- & Hm). unfold scored in Hm. apply in_flat_map in Hm as (it & Hi & Hm).
  destruct it as [|i r' [|[|sc l] b]]; simpl in Hm; try tauto. destruct (r' =? r); simpl in Hm; [|tauto]. destruct Hm as [[= <- <-]|[]]. exact (h_numeric _ _ _ _ N F _ _ _ _ Hi).
Qed.

(** C162.  fit with random search, on worker processes: whatever they do, the model's steps
    are those of the best of the results they delivered (no score is NaN), which is a
    pipeline of the search space that was given to a worker, whose call ended with this
    score. *)
Lemma C162_random_main :
  forall E (build : nat -> list (string * value) -> res E) fixed call scores n log defaults ps max_length max_n warm_start s plan steps w p,
  wf_heap (s_heap s) -> start_ok ps max_length s warm_start -> NoDup (map i_id warm_start) -> clear_names ps ->
  (forall k, Forall (fun x => x <> NaN) (scores k)) ->
  fit_random_p call scores build fixed ps max_length n log defaults max_n warm_start (before_h s plan) = (Ok steps, (w, p)) ->
  h_from_workers call scores defaults w /\
  exists m ss, In m (results (q_trace w)) /\ (forall m', In m' (results (q_trace w)) -> ~ lex_lt (m_fit m) (m_fit m')) /\
    is_pipeline (h_objects w) (m_ind m) ss /\ pipeline_ok ps ss /\ within max_length ss /\ made_from build fixed ss steps.
Proof.
  intros E build fixed call scores n log d ps ml mn warm s plan steps w p H1 H2 H3 H4 H5 E0. destruct (fit_random_top _ _ _ _ _ _ _ _ _ _ _ _ _ _ _ _ _ E0) as (es & x1 & p1 & l & _ & A & B).
  destruct (C161_random_results_main _ _ _ _ _ _ _ _ _ _ _ _ _ _ H1 H2 H3 A) as [F _]. split; auto.
  exact (C150_best_main _ _ _ _ _ _ _ _ _ _ _ H1 H2 H4 B (h_results_numeric _ _ _ _ H5 F)).
Qed.
(** C162: it fails only if the workers delivered no result in time. *)
Lemma C162_random_always_main :
  forall E (build : nat -> list (string * value) -> res E) fixed call scores n log defaults ps max_length max_n warm_start s plan x w p,
  wf_heap (s_heap s) -> start_ok ps max_length s warm_start -> pset_rich ps -> allows_one max_length ->
  (forall c kwargs, exists e, build c kwargs = Ok e) ->
  fit_random_p call scores build fixed ps max_length n log defaults max_n warm_start (before_h s plan) = (x, (w, p)) ->
  (results (q_trace w) = [] /\ x = Err IndexError) \/ (results (q_trace w) <> [] /\ exists steps, x = Ok steps).
Proof.
  intros E build fixed call scores n log d ps ml mn warm s plan x w p H1 H2 H3 H4 H5 E0. destruct (fit_random_top _ _ _ _ _ _ _ _ _ _ _ _ _ _ _ _ _ E0) as (es & x1 & p1 & l & _ & A & B).
  exact (C150_always_main _ _ _ _ _ _ _ _ _ _ _ H1 H2 H3 H4 H5 B).
Qed.
(** C162: with the evolutionary search, the best of the final population, and of all
    successes since the last restart if they were at most as many as the population can
    hold.  Missing: the best of all successes (see C151). *)
Lemma C162_evolutionary_partial_main :
  forall E (build : nat -> list (string * value) -> res E) fixed call scores n log defaults ps max_length max_retry pop_size max_n restart warm_start (s : setting) plan steps w p,
  pset_typed ps -> 0 < max_retry -> wf_heap (s_heap s) -> start_ok ps None s warm_start -> NoDup (map i_id warm_start) -> clear_names ps ->
  (forall k, Forall (fun x => x <> NaN) (scores k)) ->
  fit_evo_p call scores build fixed ps max_length n log defaults max_retry pop_size max_n restart warm_start (before_search s plan) = (Ok steps, (w, p)) ->
  let found := successes (since_restart (v_trace w)) in
  from_workers call scores defaults w /\ incl (v_pop w) found /\
  exists m ss, In m (v_pop w) /\ (forall m', In m' (v_pop w) -> ~ lex_lt (m_fit m) (m_fit m')) /\
    (length found <= pop_size -> forall m', In m' found -> ~ lex_lt (m_fit m) (m_fit m')) /\
    is_pipeline (objects w) (m_ind m) ss /\ pipeline_ok ps ss /\ made_from build fixed ss steps.
Proof.
  intros E build fixed call scores n log d ps ml mr pz mn rs warm s plan steps w p H1 H2 H3 H4 H5 H6 H7 E0 found. destruct (fit_evo_top _ _ _ _ _ _ _ _ _ _ _ _ _ _ _ _ _ _ _ _ E0) as (es & x1 & p1 & l & _ & A & B).
  pose proof (C160_results_main _ _ _ _ _ _ _ _ _ _ _ _ _ _ _ _ _ H1 H2 H3 H4 H5 A) as F. split; auto.
  exact (C151_best_partial_main _ _ _ _ _ _ _ _ _ _ _ _ _ _ _ H1 H2 H3 H4 H6 B (v_numeric _ _ _ _ H7 F)).
Qed.
(** C162: with ASHA, the best of the results for the highest rung for which there is one. *)
Lemma C162_asha_main :
  forall E (build : nat -> list (string * value) -> res E) fixed call scores n log defaults ps max_length eta first_rung max_rung max_full warm_start s plan steps w p,
  wf_heap (s_heap s) -> start_ok ps max_length s warm_start -> NoDup (map i_id warm_start) -> pset_rich ps -> allows_one max_length -> clear_names ps ->
  (Z.of_nat first_rung <= max_rung)%Z -> (forall k, scores k <> []) -> (forall k, Forall (fun x => x <> NaN) (scores k)) ->
  fit_asha_p call scores build fixed ps max_length n log defaults eta first_rung max_rung max_full warm_start (before_h s plan) = (Ok steps, (w, p)) ->
  h_from_workers call scores defaults w /\
  exists r m ss, In m (map snd (scored r (q_trace w))) /\ (forall r', r < r' -> scored r' (q_trace w) = []) /\
    (forall m', In m' (map snd (scored r (q_trace w))) -> ~ lex_lt (m_fit m) (m_fit m')) /\
    is_pipeline (h_objects w) (m_ind m) ss /\ pipeline_ok ps ss /\ within max_length ss /\ made_from build fixed ss steps.
Proof.
  intros E build fixed call scores n log d ps ml eta fr mr mf warm s plan steps w p H1 H2 H3 H4 H5 H6 H7 H8 H9 E0. destruct (fit_asha_top _ _ _ _ _ _ _ _ _ _ _ _ _ _ _ _ _ _ _ _ E0) as (es & x1 & p1 & l & C & A & B).
  pose proof (C161_asha_results_main _ _ _ _ _ _ _ _ _ _ _ _ _ _ _ _ _ H1 H2 H3 A) as F. split; auto.
  assert (HS : Forall has_score es). { eapply Forall_impl; [|exact C]. intros e. unfold scored_by, has_score. destruct (e_out e) as [|[|z sc] b]; auto. intros (k & Ek). apply (H8 k). auto. }
  exact (C152_best_main _ _ _ _ _ _ _ _ _ _ _ _ _ _ H1 H2 H4 H5 H6 H7 HS B (h_scored_numeric _ _ _ _ H9 F)).
Qed.
Lemma C162_asha_always_main :
  forall E (build : nat -> list (string * value) -> res E) fixed call scores n log defaults ps max_length eta first_rung max_rung max_full warm_start s plan x w p,
  wf_heap (s_heap s) -> start_ok ps max_length s warm_start -> pset_rich ps -> allows_one max_length ->
  (Z.of_nat first_rung <= max_rung)%Z -> (forall k, scores k <> []) -> (match max_full with None => True | Some m => (0 < m)%Z end) ->
  (forall c kwargs, exists e, build c kwargs = Ok e) ->
  fit_asha_p call scores build fixed ps max_length n log defaults eta first_rung max_rung max_full warm_start (before_h s plan) = (x, (w, p)) ->
  ((forall r, scored r (q_trace w) = []) /\ x = Err UnboundLocalError) \/
  ((exists r, scored r (q_trace w) <> []) /\ exists steps, x = Ok steps).
Proof.
  intros E build fixed call scores n log d ps ml eta fr mr mf warm s plan x w p H1 H2 H3 H4 H5 H6 H7 H8 E0. destruct (fit_asha_top _ _ _ _ _ _ _ _ _ _ _ _ _ _ _ _ _ _ _ _ E0) as (es & x1 & p1 & l & C & A & B).
  assert (HS : Forall has_score es). { eapply Forall_impl; [|exact C]. intros e. unfold scored_by, has_score. destruct (e_out e) as [|[|z sc] b]; auto. intros (k & Ek). apply (H6 k). auto. }
  exact (C152_always_main _ _ _ _ _ _ _ _ _ _ _ _ _ _ H1 H2 H3 H4 H5 HS H7 H8 B).
Qed.

(** * Examples: two workers; the call for the third submission kills its worker, the sixth
    evaluation fails *)
Notation ex_plan50 := (repeat (Sys_Main.at_work []) 45 ++ Sys_Main.ex_plan).
Notation ex_evo := (p_search Sys_Main.ex_call Sys_Main.ex_scores ex_ps None 50 5 None false 2 true [] [] (before_search (first_fit (ex_begin [])) ex_plan50)).
Example C160_ex_main :
  pset_typed ex_ps /\ pset_rich ex_ps /\ wf_heap (s_heap (ex_begin [])) /\ start_ok ex_ps None (ex_begin []) [] /\
  fst ex_evo = Err Diverges /\
  map (fun x => (i_id (fst x), snd x)) (collections (v_trace (fst (snd ex_evo)))) =
    [(5, Evaluated [Fin 0; Fin 0] false); (6, Evaluated [Fin 1; Fin 0] false); (8, Evaluated [Fin (3 # 1); Fin 0] false);
     (10, Evaluated [Fin (5 # 1); Fin 0] true); (9, Evaluated [Fin (4 # 1); Fin 0] false)] /\
  map i_id (submitted (v_trace (fst (snd ex_evo)))) = seq 5 50.
Proof.
  split; [apply ex_typed|]. split; [apply ex_rich|]. split; [apply (ex_begin_wf ex_p1 _ eq_refl)|]. split; [constructor|].
  split; [vm_compute; reflexivity|]. split; vm_compute; reflexivity.
Qed.
Notation ex_rs := (q_rs_phase Sys_Main.ex_call Sys_Main.ex_scores ex_ps (Some 3%Z) None 2 true [] ex_start (before_h (ex_begin []) Sys_Main.ex_plan)).
Notation ex_asha := (q_asha_phase Sys_Main.ex_call Sys_Main.ex_scores ex_ps (Some 3%Z) 3 0 2%Z (Some 1%Z) 2 true [] ex_start (before_h (ex_begin []) Sys_Main.ex_plan)).
Example C161_ex_main :
  start_ok ex_ps (Some 3%Z) (ex_begin []) ex_start /\ NoDup (map i_id ex_start) /\
  fst ex_rs = Err Diverges /\
  map (fun x => (i_id (fst (fst x)), snd x)) (arrivals (q_trace (fst (snd ex_rs)))) =
    [(0, Evaluated [Fin 0; Fin 0] false); (1, Evaluated [Fin 1; Fin 0] false); (3, Evaluated [Fin (3 # 1); Fin 0] false);
     (4, Evaluated [Fin (4 # 1); Fin 0] false)] /\
  map (fun x => i_id (fst x)) (started (q_trace (fst (snd ex_rs)))) = seq 0 9 /\
  fst ex_asha = Err Diverges /\
  map (fun x => (i_id (fst (fst x)), snd x)) (arrivals (q_trace (fst (snd ex_asha)))) =
    [(4, Evaluated [Fin 0; Fin 0] false); (3, Evaluated [Fin 1; Fin 0] false); (1, Evaluated [Fin (3 # 1); Fin 0] false)] /\
  map (fun x => (i_id (fst x), snd x)) (started (q_trace (fst (snd ex_asha)))) =
    [(4, 0); (3, 0); (2, 0); (1, 0); (0, 0); (5, 0); (6, 0); (7, 0); (8, 0); (9, 0); (1, 1)].
Proof.
  split; [apply ex_start_ok; apply Z.le_refl|]. split; [vm_compute; repeat constructor; simpl; intuition discriminate|].
  repeat split; vm_compute; reflexivity.
Qed.
Example C162_ex_main :
  clear_names ex_ps /\ (forall k, Sys_Main.ex_scores k <> []) /\ (forall k, Forall (fun x => x <> NaN) (Sys_Main.ex_scores k)) /\
  fst (fit_random_p Sys_Main.ex_call Sys_Main.ex_scores ex_class [("imp"%string, 9)] ex_ps (Some 3%Z) 2 true [] None ex_start (before_h (ex_begin []) Sys_Main.ex_plan)) =
    Ok [("imp", 9); ("1", 3); ("0", 1)]%string /\
  (exists steps, fst (fit_evo_p Sys_Main.ex_call Sys_Main.ex_scores ex_class [("imp"%string, 9)] ex_ps None 2 true [] 50 5 None false [] (before_search (first_fit (ex_begin [])) ex_plan50)) = Ok steps) /\
  fst (fit_asha_p Sys_Main.ex_call Sys_Main.ex_scores ex_class [("imp"%string, 9)] ex_ps (Some 3%Z) 2 true [] 3 0 2%Z (Some 1%Z) ex_start (before_h (ex_begin []) Sys_Main.ex_plan)) =
    Ok [("imp", 9); ("2", 3); ("1", 2); ("0", 0)]%string /\
  (* no result in time *)
  fst (fit_random_p Sys_Main.ex_call Sys_Main.ex_scores ex_class [("imp"%string, 9)] ex_ps (Some 3%Z) 2 true [] None ex_start (before_h (ex_begin []) [])) = Err IndexError.
Proof.
  split; [apply ex_clear|]. split; [discriminate|]. split; [intros k; repeat constructor; discriminate|]. split; [vm_compute; reflexivity|].
  split; [eexists; vm_compute; reflexivity|]. split; vm_compute; reflexivity.
Qed.

(** C148-C149: random search and ASHA on pipelines. *)
(*IMPORTS*)
Require Import Permutation QArith.
From Verif Require Import Base Num Gp_Model Gp_Spec Gp_Examples Evo_Model Evo_Spec Evo_Main Rnd_Model Rnd_Spec.
Open Scope nat_scope.
Open Scope list_scope.
(*END*)
From Verif Require Import Nsga_Model Gp_Proofs Gp_Proofs2 Gp_Proofs3 Gp_Proofs4 Gp_Main Evo_Proofs Evo_Proofs2 Rnd_Proofs Rnd_Proofs2 Rnd_Proofs3.

(** * The whole phase *)
Section Whole.
Context (ps : pset) (mx : option Z).
Lemma start_good s l : start_ok ps mx s l -> Forall (good ps mx s) l.
Proof. auto. Qed.
Lemma fresh_inv allowed s : wf_heap (s_heap s) -> Inv ps mx allowed (fresh_h s).
Proof.
  intros W. constructor; simpl; auto.
  - intros i (r & [[]|(o & [])]).
  - intros t1 i r t2 H0. destruct t1; discriminate.
  - intros t1 i r o t2 H0. destruct t1; discriminate.
Qed.
Definition n_candidates (warm : list individual) : nat := match warm with [] => 50 | _ => length warm end.
Lemma candidates_ok warm s y w1 : wf_heap (s_heap s) -> start_ok ps mx s warm -> Rnd_Model.candidates ps mx warm (fresh_h s) = (y, w1) ->
  exists s1, w1 = fresh_h s1 /\ wf_heap (s_heap s1) /\
  match y with
  | Ok l => Forall (good ps mx s1) l /\ length l = n_candidates warm /\ (NoDup (map i_id warm) -> NoDup (map i_id l)) /\
      (exists l', l = warm ++ l' /\ Forall is_new l' /\ (warm <> [] -> l' = []))
  | Err e => creation_error ps mx e /\ warm = []
  end.
Proof.
  intros W S H. destruct warm as [|i0 warm].
  - change (random_individuals ps mx 50 (fresh_h s) = (y, w1)) in H. apply random_individuals_ok in H as (s1 & -> & X & Hy); [|exact W].
    exists s1. split; [reflexivity|]. split; [apply X|]. destruct y as [l|e]; auto. destruct Hy as (L & ND & FA & _).
    split; [eapply Forall_impl; [|exact FA]; simpl; tauto|]. split; [exact L|]. split; [auto|]. exists l. split; [reflexivity|]. split; [|congruence].
    eapply Forall_impl; [|exact FA]; simpl; tauto.
  - injection H as <- <-. exists s. split; auto. split; auto. split; auto. split; auto. split; auto. exists []. rewrite app_nil_r. auto.
Qed.
Lemma rs_ok max_n warm es s x w : wf_heap (s_heap s) -> start_ok ps mx s warm -> rs_phase ps mx max_n warm es (fresh_h s) = (x, w) ->
  (exists start, Inv ps mx (rs_allowed start) w) /\ (NoDup (map i_id warm) -> NoDup (map key (started (q_trace w)))) /\ out_ok w /\
  (exists l, map fst (started (q_trace w)) = warm ++ l /\ Forall is_new l) /\
  (pset_rich ps -> allows_one mx ->
   length (q_jobs w) = n_candidates warm /\
   match max_n with
   | None => x = Err Diverges /\ length (finished (q_trace w)) = length es
   | Some m => (x = Ok tt /\ (m <= Z.of_nat (length (q_out w)))%Z /\ ((0 <= m)%Z -> Z.of_nat (length (q_out w)) = m)) \/
       (x = Err Diverges /\ (Z.of_nat (length (q_out w)) < m)%Z /\ length (finished (q_trace w)) = length es /\ length (q_out w) = n_evaluated es)
   end).
Proof.
  intros W S H. unfold rs_phase, hbind in H. destruct (Rnd_Model.candidates ps mx warm (fresh_h s)) as [y w1] eqn:E1.
  destruct (candidates_ok warm s y w1 W S E1) as (s1 & -> & W1 & Hy). destruct y as [l|e].
  - destruct Hy as (G & L & ND & l' & -> & FN & _).
    destruct (random_search_inv ps mx (warm ++ l') max_n es s1 x w W1 G H) as (I & N & O & (l & D1 & D2) & K).
    split; [eauto|]. split; [intros HN; apply N; auto|]. split; auto. split.
    + exists (l' ++ l). rewrite D1, app_assoc. split; auto. apply Forall_app. auto.
    + intros R1 R2. destruct K as (K1 & K2); auto.
      * destruct warm; [destruct l'; discriminate|discriminate].
      * split; [rewrite K1; auto|auto].
  - injection H as <- <-. split; [exists []; apply fresh_inv; auto|]. split; [intros _; constructor|]. split; [reflexivity|]. destruct Hy as (CE & ->). split; [exists []; auto|].
    intros R1 R2. exfalso. eapply no_creation; eauto.
Qed.
Lemma asha_phase_ok eta f R max_full warm es s x w : wf_heap (s_heap s) -> start_ok ps mx s warm ->
  asha_phase ps mx eta f R max_full warm es (fresh_h s) = (x, w) ->
  exists start l', start = warm ++ l' /\ Forall is_new l' /\ (warm <> [] -> l' = []) /\ Inv ps mx (asha_allowed eta f R start) w /\ (NoDup (map i_id warm) -> NoDup (map i_id start)) /\ (NoDup (map i_id warm) -> NoDup (map key (started (q_trace w)))) /\
  (forall i r, In (Started i r) (q_trace w) -> In r (rung_numbers f R)) /\
  (exists rest l, rev warm ++ l = started_on f (q_trace w) ++ rest /\ Forall is_new l) /\
  (calm_world ps mx f R es -> length (q_jobs w) = 8 /\
     ((x = Ok tt /\ full R max_full w) \/ (x = Err Diverges /\ ~ full R max_full w /\ length (finished (q_trace w)) = length es))).
Proof.
  intros W S H. unfold asha_phase, hbind in H. destruct (Rnd_Model.candidates ps mx warm (fresh_h s)) as [y w1] eqn:E1.
  destruct (candidates_ok warm s y w1 W S E1) as (s1 & -> & W1 & Hy). destruct y as [l|e].
  - destruct Hy as (G & L & ND & l' & -> & FN & FW). exists (warm ++ l'), l'. split; auto. split; auto. split; auto.
    destruct (asha_ok ps mx eta f R (warm ++ l') max_full es s1 x w W1 G H) as (I & [OS OR OO OD] & K). split; auto. split; auto. split; [intros HN; apply OO; auto|]. split; [exact OR|]. split.
    + destruct OD as (rest & l & D1 & D2). rewrite rev_app_distr in D1. destruct warm as [|i0 warm].
      * simpl in *. exists rest, (rev l' ++ l). rewrite app_nil_r in D1. split; auto. apply Forall_app. split; auto. apply Forall_rev. auto.
      * rewrite FW in D1 by discriminate. exists rest, l. auto.
    + intros C. destruct (K C) as (_ & K2 & K3). auto.
  - injection H as <- <-. exists warm, []. rewrite app_nil_r. split; auto. split; auto. split; auto. split; [apply fresh_inv; auto|]. split; auto. split; [intros _; constructor|]. split; [intros i r []|].
    split; [exists (rev warm), []; rewrite app_nil_r; auto|]. intros (C1 & C2 & _). exfalso. destruct Hy as (CE & _). eapply no_creation; eauto.
Qed.
End Whole.

(** C148.  Whatever the search space, the start candidates, the results of evaluations and
    their order, and the random numbers: every pipeline random search gives to a worker is
    a pipeline of the search space with at most max_pipeline_length steps. *)
Lemma C148_in_search_space_main :
  forall ps max_length max_n warm_start events s x w i r,
  wf_heap (s_heap s) -> start_ok ps max_length s warm_start ->
  rs_phase ps max_length max_n warm_start events (fresh_h s) = (x, w) ->
  In (Started i r) (q_trace w) ->
  exists ss, is_pipeline (h_objects w) i ss /\ pipeline_ok ps ss /\ within max_length ss.
Proof.
  intros ps mx max_n warm es s x w i r W S H Hi. destruct (rs_ok ps mx max_n warm es s x w W S H) as ((start & I) & _).
  destruct (h_seen _ _ _ w I i) as (_ & G); [exists r; auto|exact G].
Qed.
(** The given start candidates come first, in their order; all others are new random
    pipelines. *)
Lemma C148_candidates_then_new_main :
  forall ps max_length max_n warm_start events s x w,
  wf_heap (s_heap s) -> start_ok ps max_length s warm_start ->
  rs_phase ps max_length max_n warm_start events (fresh_h s) = (x, w) ->
  exists l, map fst (started (q_trace w)) = warm_start ++ l /\ Forall is_new l.
Proof.
  intros ps mx max_n warm es s x w W S H. destruct (rs_ok ps mx max_n warm es s x w W S H) as (_ & _ & _ & D & _). exact D.
Qed.
(** A result is for a pipeline given to a worker before: the same id, parents, origin and
    steps. *)
Lemma C148_results_main :
  forall ps max_length max_n warm_start events s x w t1 i r o t2,
  wf_heap (s_heap s) -> start_ok ps max_length s warm_start ->
  rs_phase ps max_length max_n warm_start events (fresh_h s) = (x, w) ->
  q_trace w = t1 ++ Finished i r o :: t2 ->
  exists j ss, In (Started j r) t1 /\ is_pipeline (h_objects w) j ss /\ is_pipeline (h_objects w) i ss /\
    i_id i = i_id j /\ i_parents i = i_parents j /\ i_origin i = i_origin j.
Proof.
  intros ps mx max_n warm es s x w t1 i r o t2 W S H Ht. destruct (rs_ok ps mx max_n warm es s x w W S H) as ((start & I) & _).
  exact (h_answers _ _ _ w I _ _ _ _ _ Ht).
Qed.
(** Every pipeline given to a worker has one result or is outstanding, with every id at
    most once; what the search returns is the individuals of the evaluations, with their scores, in the order
    in which they arrived. *)
Lemma C148_once_main :
  forall ps max_length max_n warm_start events s x w,
  wf_heap (s_heap s) -> start_ok ps max_length s warm_start ->
  rs_phase ps max_length max_n warm_start events (fresh_h s) = (x, w) ->
  Permutation (map key (started (q_trace w))) (map key (finished (q_trace w)) ++ map key (q_jobs w)) /\
  q_out w = results (q_trace w) /\
  (NoDup (map i_id warm_start) -> NoDup (map key (started (q_trace w)))).
Proof.
  intros ps mx max_n warm es s x w W S H. destruct (rs_ok ps mx max_n warm es s x w W S H) as ((start & I) & N & O & _).
  split; [exact (h_perm _ _ _ w I)|auto].
Qed.
(** The search never fails, and always has as many jobs outstanding as there were
    candidates (50 if none are given).  Without max_evaluations it goes on as long as there
    are results to wait for; with it, it ends as soon as so many evaluations are there. *)
Lemma C148_keeps_running_main :
  forall ps max_length max_n warm_start events s x w,
  wf_heap (s_heap s) -> start_ok ps max_length s warm_start -> pset_rich ps -> allows_one max_length ->
  rs_phase ps max_length max_n warm_start events (fresh_h s) = (x, w) ->
  length (q_jobs w) = match warm_start with [] => 50 | _ => length warm_start end /\
  match max_n with
  | None => x = Err Diverges /\ length (finished (q_trace w)) = length events
  | Some m =>
    (x = Ok tt /\ (m <= Z.of_nat (length (q_out w)))%Z /\ ((0 <= m)%Z -> Z.of_nat (length (q_out w)) = m)) \/
    (x = Err Diverges /\ (Z.of_nat (length (q_out w)) < m)%Z /\ length (finished (q_trace w)) = length events /\
     length (q_out w) = n_evaluated events)
  end.
Proof.
  intros ps mx max_n warm es s x w W S R1 R2 H. destruct (rs_ok ps mx max_n warm es s x w W S H) as (_ & _ & _ & _ & K). exact (K R1 R2).
Qed.

(** C149.  The same for ASHA. *)
Lemma C149_in_search_space_main :
  forall ps max_length eta first_rung max_rung max_full warm_start events s x w i r,
  wf_heap (s_heap s) -> start_ok ps max_length s warm_start ->
  asha_phase ps max_length eta first_rung max_rung max_full warm_start events (fresh_h s) = (x, w) ->
  In (Started i r) (q_trace w) ->
  first_rung <= r /\ (Z.of_nat r <= max_rung)%Z /\
  exists ss, is_pipeline (h_objects w) i ss /\ pipeline_ok ps ss /\ within max_length ss.
Proof.
  intros ps mx eta f R mf warm es s x w i r W S H Hi. destruct (asha_phase_ok ps mx eta f R mf warm es s x w W S H) as (start & l' & _ & _ & _ & I & _ & _ & OR & _).
  destruct (h_seen _ _ _ w I i) as (_ & G); [exists r; auto|]. apply OR, nums_in in Hi. tauto.
Qed.
(** On the first rung: the given candidates from the last to the first, then only new
    random pipelines. *)
Lemma C149_first_rung_main :
  forall ps max_length eta first_rung max_rung max_full warm_start events s x w,
  wf_heap (s_heap s) -> start_ok ps max_length s warm_start ->
  asha_phase ps max_length eta first_rung max_rung max_full warm_start events (fresh_h s) = (x, w) ->
  exists rest l, rev warm_start ++ l = started_on first_rung (q_trace w) ++ rest /\ Forall is_new l.
Proof.
  intros ps mx eta f R mf warm es s x w W S H. destruct (asha_phase_ok ps mx eta f R mf warm es s x w W S H) as (start & l' & _ & _ & _ & _ & _ & _ & _ & D & _). exact D.
Qed.
(** On another rung: only pipelines with a score on the rung below, at most one for
    every [eta] scores there, and the best of those which were not started on this rung
    before (if no score is NaN). *)
Lemma C149_promoted_main :
  forall ps max_length eta first_rung max_rung max_full warm_start events s x w t1 i r t2,
  wf_heap (s_heap s) -> start_ok ps max_length s warm_start ->
  asha_phase ps max_length eta first_rung max_rung max_full warm_start events (fresh_h s) = (x, w) ->
  q_trace w = t1 ++ Started i r :: t2 ->
  r = first_rung \/
  exists below score m, r = S below /\ In (score, m) (scored below t1) /\ m_ind m = i /\
    eta * S (length (started_on r t1)) <= length (scored below t1) /\
    ((forall e, In e (scored below t1) -> fst e <> NaN) ->
     forall score' m', In (score', m') (scored below t1) -> ~ In (i_id (m_ind m')) (map i_id (started_on r t1)) -> nle score' score).
Proof.
  intros ps mx eta f R mf warm es s x w t1 i r t2 W S H Ht. destruct (asha_phase_ok ps mx eta f R mf warm es s x w W S H) as (start & l' & _ & _ & _ & I & _).
  destruct (h_items _ _ _ w I _ _ _ _ Ht) as [(-> & _)|(r' & -> & _ & _ & K & (sc & m & M1 & M2 & M3) & _)]; auto. right. exists r', sc, m. auto 10.
Qed.
(** Nothing that may be promoted is left waiting: a job for the first rung is started only
    when nothing may be promoted from any rung, one for another rung only when nothing may
    be promoted from a higher rung than the one below it. *)
Lemma C149_promotions_first_main :
  forall ps max_length eta first_rung max_rung max_full warm_start events s x w t1 i r t2 r',
  wf_heap (s_heap s) -> start_ok ps max_length s warm_start -> NoDup (map i_id warm_start) ->
  asha_phase ps max_length eta first_rung max_rung max_full warm_start events (fresh_h s) = (x, w) ->
  q_trace w = t1 ++ Started i r :: t2 ->
  r <= r' -> (Z.of_nat r' < max_rung)%Z -> ~ promotable eta r' t1.
Proof.
  intros ps mx eta f R mf warm es s x w t1 i r t2 r' W S ND H Ht L1 L2. destruct (asha_phase_ok ps mx eta f R mf warm es s x w W S H) as (start & l' & _ & _ & _ & I & N & _).
  destruct (h_items _ _ _ w I _ _ _ _ Ht) as [(-> & _ & K)|(r0 & -> & _ & _ & _ & _ & K)]; apply K; auto.
Qed.
Lemma C149_results_main :
  forall ps max_length eta first_rung max_rung max_full warm_start events s x w t1 i r o t2,
  wf_heap (s_heap s) -> start_ok ps max_length s warm_start ->
  asha_phase ps max_length eta first_rung max_rung max_full warm_start events (fresh_h s) = (x, w) ->
  q_trace w = t1 ++ Finished i r o :: t2 ->
  exists j ss, In (Started j r) t1 /\ is_pipeline (h_objects w) j ss /\ is_pipeline (h_objects w) i ss /\
    i_id i = i_id j /\ i_parents i = i_parents j /\ i_origin i = i_origin j.
Proof.
  intros ps mx eta f R mf warm es s x w t1 i r o t2 W S H Ht. destruct (asha_phase_ok ps mx eta f R mf warm es s x w W S H) as (start & l' & _ & _ & _ & I & _).
  exact (h_answers _ _ _ w I _ _ _ _ _ Ht).
Qed.
(** No pipeline is evaluated twice on the same rung. *)
Lemma C149_once_main :
  forall ps max_length eta first_rung max_rung max_full warm_start events s x w,
  wf_heap (s_heap s) -> start_ok ps max_length s warm_start ->
  asha_phase ps max_length eta first_rung max_rung max_full warm_start events (fresh_h s) = (x, w) ->
  Permutation (map key (started (q_trace w))) (map key (finished (q_trace w)) ++ map key (q_jobs w)) /\
  (NoDup (map i_id warm_start) -> NoDup (map key (started (q_trace w)))).
Proof.
  intros ps mx eta f R mf warm es s x w W S H. destruct (asha_phase_ok ps mx eta f R mf warm es s x w W S H) as (start & l' & _ & _ & _ & I & _ & N & _).
  split; [exact (h_perm _ _ _ w I)|auto].
Qed.
(** Eight jobs are always outstanding; the search ends only when so many pipelines as
    max_full_evaluations have a score on the top rung. *)
Lemma C149_keeps_running_main :
  forall ps max_length eta first_rung max_rung max_full warm_start events s x w,
  wf_heap (s_heap s) -> start_ok ps max_length s warm_start -> pset_rich ps -> allows_one max_length ->
  (Z.of_nat first_rung <= max_rung)%Z -> Forall has_score events ->
  asha_phase ps max_length eta first_rung max_rung max_full warm_start events (fresh_h s) = (x, w) ->
  length (q_jobs w) = 8 /\
  let enough := match max_full with None => False | Some m => (m <= Z.of_nat (length (scored (Z.to_nat max_rung) (q_trace w))))%Z end in
  (x = Ok tt /\ enough) \/
  (x = Err Diverges /\ ~ enough /\ length (finished (q_trace w)) = length events).
Proof.
  intros ps mx eta f R mf warm es s x w W S R1 R2 R3 R4 H. destruct (asha_phase_ok ps mx eta f R mf warm es s x w W S H) as (start & l' & _ & _ & _ & _ & _ & _ & _ & _ & K).
  apply K. split; auto.
Qed.

(** * Examples: five candidates, limit 3 *)
Notation ex_rs := (rs_phase ex_ps (Some 3%Z) (Some 3%Z) ex_start
  [ex_win 1; ex_crash; mkEv 2 (Evaluated [Fin (0 # 1); Fin (0 # 1)] true); ex_win 2; ex_win 3]
  (fresh_h (ex_begin [4; 0; 2; 6; 1; 3; 0; 2; 5; 7; 1; 2; 3]))).
Notation ex_asha := (asha_phase ex_ps (Some 3%Z) 3 0 2 (Some 1%Z) ex_start
  (map ex_win [5; 1; 2; 3; 4; 6; 7; 8; 9; 10; 11; 12; 13; 14; 15; 16; 17; 18; 19; 20; 21; 22; 23; 24; 25; 26]%Z)
  (fresh_h (ex_begin [4; 0; 2; 6; 1; 3; 0; 2; 5; 7; 1; 2; 3]))).
Example C148_ex_main :
  wf_heap (s_heap (ex_begin [4; 0; 2; 6; 1; 3; 0; 2; 5; 7; 1; 2; 3])) /\
  start_ok ex_ps (Some 3%Z) (ex_begin [4; 0; 2; 6; 1; 3; 0; 2; 5; 7; 1; 2; 3]) ex_start /\ NoDup (map i_id ex_start) /\
  pset_rich ex_ps /\ allows_one (Some 3%Z) /\
  fst ex_rs = Ok tt /\
  map key (started (q_trace (snd ex_rs))) = map (fun k => (k, 0)) [0; 1; 2; 3; 4; 5; 6; 7; 8] /\
  map key (finished (q_trace (snd ex_rs))) = map (fun k => (k, 0)) [0; 1; 4; 2] /\
  map (fun m => i_id (m_ind m)) (q_out (snd ex_rs)) = [0; 4; 2] /\
  map i_id (map fst (q_jobs (snd ex_rs))) = [3; 5; 6; 7; 8].
Proof.
  split; [apply (ex_begin_wf ex_p1); auto|]. split; [apply ex_start_ok; lia|].
  split; [simpl; repeat (constructor; [simpl; intuition congruence|]); constructor|]. split; [apply ex_rich|]. split; [simpl; lia|].
  vm_compute. auto 10.
Qed.
(** Without max_evaluations and candidates: 50 jobs. *)
Example C148_default_ex_main :
  fst (rs_phase ex_ps None None [] (repeat (ex_win 1) 9) (fresh_h (ex_begin [1; 0; 1; 2; 3]))) = Err Diverges /\
  length (started (q_trace (snd (rs_phase ex_ps None None [] (repeat (ex_win 1) 9) (fresh_h (ex_begin [1; 0; 1; 2; 3])))))) = 59.
Proof. vm_compute. auto. Qed.
Example C149_ex_main :
  wf_heap (s_heap (ex_begin [4; 0; 2; 6; 1; 3; 0; 2; 5; 7; 1; 2; 3])) /\
  start_ok ex_ps (Some 3%Z) (ex_begin [4; 0; 2; 6; 1; 3; 0; 2; 5; 7; 1; 2; 3]) ex_start /\ NoDup (map i_id ex_start) /\
  pset_rich ex_ps /\ allows_one (Some 3%Z) /\ Forall has_score (map ex_win [5; 1; 2; 3]%Z) /\
  fst ex_asha = Ok tt /\
  map i_id (started_on 0 (q_trace (snd ex_asha))) = [4; 3; 2; 1; 0] ++ seq 5 21 /\
  map i_id (started_on 1 (q_trace (snd ex_asha))) = [4; 5; 8; 11; 14; 17] /\
  map i_id (started_on 2 (q_trace (snd ex_asha))) = [8] /\
  map i_id (scored_inds 2 (q_trace (snd ex_asha))) = [8] /\
  length (q_jobs (snd ex_asha)) = 8.
Proof.
  split; [apply (ex_begin_wf ex_p1); auto|]. split; [apply ex_start_ok; lia|].
  split; [simpl; repeat (constructor; [simpl; intuition congruence|]); constructor|]. split; [apply ex_rich|]. split; [simpl; lia|].
  split; [repeat constructor|].
  vm_compute. auto 10.
Qed.

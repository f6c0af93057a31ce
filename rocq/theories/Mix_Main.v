(** C153-C155: the ensemble of the best pipelines found. *)
(*IMPORTS*)
Require Import Permutation QArith Qcanon.
From Verif Require Import Base Num Gp_Model Gp_Spec Gp_Examples Misc_Model Lib_Model Lib_Spec Evo_Model Evo_Spec Evo_Main Rnd_Model Rnd_Spec End_Model End_Spec Mix_Model Mix_Spec.
From Verif Require Ens_Model Ens_Spec Ens_Main.
Open Scope nat_scope.
Open Scope list_scope.
(*END*)
From Verif Require Import Gp_Proofs Gp_Proofs2 Gp_Proofs3 Gp_Proofs4 Gp_Main Lib_Proofs Lib_Main Evo_Proofs Evo_Proofs2 Rnd_Proofs Rnd_Proofs2 Rnd_Proofs3 Rnd_Main End_Main Mix_Proofs Mix_Proofs2 Mix_Proofs3.

Lemma among_ext (P Q : nat -> individual -> list num -> Prop) mm sc : (forall k i c, P k i c <-> Q k i c) -> among_best P mm sc -> among_best Q mm sc.
Proof. intros H A b N HB. apply A; auto. intros k Hk. destruct (HB k Hk) as (i & c & G & L). exists i, c. rewrite H. auto. Qed.
Lemma ensemble_ext (P Q : nat -> individual -> list num -> Prop) data mm size e : (forall k i c, P k i c <-> Q k i c) -> ensemble_of P data mm size e -> ensemble_of Q data mm size e.
Proof.
  intros H (A & B & C & fitted & D & E & F). split; auto. split; auto. split.
  - intros m w Hm. destruct (C m w Hm) as (W & k & i & sc & G & I & AB). split; auto. exists k, i, sc. rewrite <- H. split; auto. split; auto. eapply among_ext; eauto.
  - exists fitted. split; auto. split; auto. intros e' w. rewrite F. split; intros (m & k & i & sc & Hm & G & I & He); exists m, k, i, sc; [rewrite <- H|rewrite H]; auto.
Qed.
Lemma delivers_ext (P Q : nat -> individual -> list num -> Prop) rows data : (forall k i c, P k i c <-> Q k i c) -> delivers rows P data -> delivers rows Q data.
Proof. intros H (A & B). split; auto. intros k i sc G. apply (B k i sc), H. auto. Qed.
Lemma result_seen t k i r sc b : result_at t k i r sc b -> seen t i.
Proof. intros (t1 & t2 & -> & _). exists r. right. eexists. apply in_or_app. right. left. reflexivity. Qed.

Lemma nodup_left {B} (a b : list B) : NoDup (a ++ b) -> NoDup a.
Proof.
  induction a as [|x a IH]; intros H; constructor; apply NoDup_cons_iff in H as [H1 H2]; auto. intros K. apply H1, in_or_app; auto.
Qed.
Lemma h_once ps mx allowed w : Inv ps mx allowed w -> NoDup (map key (started (q_trace w))) -> NoDup (map key (finished (q_trace w))).
Proof. intros I N. eapply nodup_left, Permutation_NoDup; [exact (h_perm _ _ _ w I)|exact N]. Qed.
Lemma rung_zero ps mx start w : Inv ps mx (rs_allowed start) w -> forall i r o, In (Finished i r o) (q_trace w) -> r = 0.
Proof.
  intros I i q o Hi. apply in_split in Hi as (t1 & t2 & Hi). destruct (h_answers _ _ _ w I _ _ _ _ _ Hi) as (j & ss & Hj & _).
  apply in_split in Hj as (t3 & t4 & Hj). apply (h_items _ _ _ w I t3 j q (t4 ++ Finished i q o :: t2)). rewrite Hi, Hj, <- app_assoc. reflexivity.
Qed.

(** C153.  fit with random search and an ensemble: when at least one evaluation succeeded,
    the model is an ensemble of the requested size, made of the best of the evaluations that
    succeeded; each of them is of a pipeline of the search space within the limit. *)
Lemma C153_ensemble_main :
  forall A l0 rr data row tr (metric : list A -> Ens_Model.mat -> res num) task size hillclimb models y left r c
    ps max_length max_n warm_start events s x w,
  wf_heap (s_heap s) -> start_ok ps max_length s warm_start -> NoDup (map i_id warm_start) -> pset_rich ps -> allows_one max_length ->
  new_library (length y) l0 -> (forall n, Ens_Spec.readable row tr n c) -> (forall y1, Ens_Spec.scores (length y1) c (metric y1)) -> nlt (Fin 0) left ->
  fit_random_ens l0 rr data row tr metric task (ensemble_hps (VNum (Zpos size # 1)) hillclimb models) y left r
    ps max_length max_n warm_start events (fresh_h s) = (x, w) ->
  let good := fun k i scores => exists rung, result_at (q_trace w) k i rung scores false in
  Forall numeric (results (q_trace w)) -> delivers (length y) good data ->
  (exists k i scores, good k i scores) ->
  (exists e, x = Ok (e, Ok tt) /\ ensemble_of good data (l_m l0) (Pos.to_nat size) e) /\
  (forall k i scores, good k i scores -> exists ss, is_pipeline (h_objects w) i ss /\ pipeline_ok ps ss /\ within max_length ss).
Proof.
  intros A l0 rr data row tr metric task size hc mm y left r c ps mx max_n warm es s x w W S ND R1 R2 NL RD SC LF H good NU DV EX.
  unfold fit_random_ens in H. destruct (rs_phase ps mx max_n warm es (fresh_h s)) as [z w1] eqn:ER.
  destruct (rs_ok ps mx max_n warm es s z w1 W S ER) as ((start & I) & N & _ & _ & K). specialize (K R1 R2).
  assert (SO : search_over z = Ok tt).
  { destruct K as (_ & K). destruct max_n; [destruct K as [(-> & _)|(-> & _)]; auto|destruct K as (-> & _); auto]. }
  rewrite SO in H. injection H as <- <-. pose proof (rung_zero _ _ _ _ I) as R0. pose proof (h_once _ _ _ _ I (N ND)) as ON. set (t := q_trace w1) in *.
  assert (GG : forall k i sc, good_at (rs_reports t) k i sc <-> good k i sc) by (intros; apply rs_good; auto).
  split.
  - destruct (ensemble_ok l0 rr data row tr metric task size hc mm y left r (q_st w1) (rs_reports t)) with (c := c) as (e & E1 & E2); auto.
    + rewrite rs_asha by auto. apply asha_nodup. auto.
    + rewrite rs_asha by auto. apply asha_numeric. auto.
    + apply DV.
    + eapply delivers_ext; [|exact DV]. intros. symmetry. apply GG.
    + destruct EX as (k & i & sc & G). exists k, i, sc. apply GG. auto.
    + exists e. split; [exact E1|]. eapply ensemble_ext; [|exact E2]. exact GG.
  - intros k i sc (q & G). apply (h_seen _ _ _ w1 I). eapply result_seen; eauto.
Qed.
(** C153: when no evaluation succeeded there is nothing to predict with; fit need not
    fail, predict does. *)
Lemma C153_nothing_main :
  forall A l0 rr data row tr (metric : list A -> Ens_Model.mat -> res num) task size hillclimb models y left r
    ps max_length max_n warm_start events s e x w,
  wf_heap (s_heap s) -> start_ok ps max_length s warm_start -> NoDup (map i_id warm_start) -> new_library (length y) l0 ->
  fit_random_ens l0 rr data row tr metric task (ensemble_hps (VNum (Zpos size # 1)) hillclimb models) y left r
    ps max_length max_n warm_start events (fresh_h s) = (Ok (e, x), w) ->
  let good := fun k i scores => exists rung, result_at (q_trace w) k i rung scores false in
  Forall numeric (results (q_trace w)) -> delivers (length y) good data ->
  (forall k i scores, ~ good k i scores) -> useless tr e.
Proof.
  intros A l0 rr data row tr metric task size hc mm y left r ps mx max_n warm es s e x w W S ND NL H good NU DV EX.
  unfold fit_random_ens in H. destruct (rs_phase ps mx max_n warm es (fresh_h s)) as [z w1] eqn:ER.
  destruct (rs_ok ps mx max_n warm es s z w1 W S ER) as ((start & I) & N & _). destruct (search_over z); [|discriminate]. injection H as H <-.
  pose proof (rung_zero _ _ _ _ I) as R0. pose proof (h_once _ _ _ _ I (N ND)) as ON. set (t := q_trace w1) in *.
  pose proof (ensemble_none l0 rr data row tr metric task size hc mm y left r (q_st w1) (rs_reports t)) as EN. rewrite H in EN. apply EN; auto.
  - rewrite rs_asha by auto. apply asha_nodup. auto.
  - rewrite rs_asha by auto. apply asha_numeric. auto.
  - apply DV.
  - intros k i sc G. apply (EX k i sc). apply rs_good; auto.
Qed.

(** C154.  The same for the evolutionary search, unless the search itself fails (see C147):
    every evaluation since the beginning counts, restarts make no difference. *)
Lemma C154_ensemble_main :
  forall A l0 rr data row tr (metric : list A -> Ens_Model.mat -> res num) task size hillclimb models y left r c
    ps max_length max_retry workers pop_size max_n restart warm_start events (s : setting) x w,
  pset_typed ps -> 0 < max_retry -> wf_heap (s_heap s) -> start_ok ps None s warm_start -> NoDup (map i_id warm_start) ->
  new_library (length y) l0 -> (forall n, Ens_Spec.readable row tr n c) -> (forall y1, Ens_Spec.scores (length y1) c (metric y1)) -> nlt (Fin 0) left ->
  fit_evo_ens l0 rr data row tr metric task (ensemble_hps (VNum (Zpos size # 1)) hillclimb models) y left r
    ps max_length max_retry workers pop_size max_n restart warm_start events (fresh_search s) = (x, w) ->
  let good := fun k i scores => collected_at (v_trace w) k i scores false in
  (forall k i scores failed, collected_at (v_trace w) k i scores failed -> Forall (fun x => x <> NaN) scores) -> delivers (length y) good data ->
  (exists k i scores, good k i scores) ->
  ((exists e, x = Ok (e, Ok tt) /\ ensemble_of good data (l_m l0) (Pos.to_nat size) e) \/
   (exists ex, x = Err ex /\ ex <> Diverges /\ fst (search ps max_length max_retry workers pop_size max_n restart warm_start events (fresh_search s)) = Err ex)) /\
  (forall k i scores, good k i scores -> exists ss, is_pipeline (objects w) i ss /\ pipeline_ok ps ss).
Proof.
  intros A l0 rr data row tr metric task size hc mm y left r c ps mx n workers pop_size max_n restart warm es s x w T HN W S ND NL RD SC LF H good NU DV EX.
  unfold fit_evo_ens in H. destruct (search ps mx n workers pop_size max_n restart warm es (fresh_search s)) as [z w1] eqn:ER.
  destruct (search_ok _ _ _ _ _ _ _ _ _ _ _ _ T HN W S ER) as (start & I & _).
  destruct (C145_once_main _ _ _ _ _ _ _ _ _ _ _ _ T HN W S ND ER) as (O1 & O2).
  assert (EW : w = w1) by (destruct (search_over z); congruence). subst w1.
  assert (ON : NoDup (map i_id (collected (v_trace w)))) by (eapply nodup_left, Permutation_NoDup; eauto). clear O1 O2.
  assert (GG : forall k i sc, good_at (ea_reports (v_trace w)) k i sc <-> good k i sc) by (intros; apply ea_good; auto).
  split.
  - destruct (search_over z) as [u|ex] eqn:SO.
    + left. injection H as <-.
      destruct (ensemble_ok l0 rr data row tr metric task size hc mm y left r (v_st w) (ea_reports (v_trace w))) with (c := c) as (e & E1 & E2); auto.
      * apply ea_nodup. auto.
      * apply ea_numeric. auto.
      * apply DV.
      * eapply delivers_ext; [|exact DV]. intros. symmetry. apply GG.
      * destruct EX as (k & i & sc & G). exists k, i, sc. apply GG. auto.
      * exists e. split; [exact E1|]. eapply ensemble_ext; [|exact E2]. exact GG.
    + right. injection H as <-. exists ex. split; auto. cbn [fst]. destruct z as [|e0]; [discriminate|]. destruct e0; try discriminate; injection SO as <-; split; auto; discriminate.
  - intros k i sc (t1 & t2 & E & _). destruct (n_known _ _ _ _ _ _ w I i) as (_ & ss & C & O); eauto.
    eexists. split; [rewrite E; apply in_or_app; right; left; reflexivity|reflexivity].
Qed.
Lemma C154_nothing_main :
  forall A l0 rr data row tr (metric : list A -> Ens_Model.mat -> res num) task size hillclimb models y left r
    ps max_length max_retry workers pop_size max_n restart warm_start events (s : setting) e x w,
  pset_typed ps -> 0 < max_retry -> wf_heap (s_heap s) -> start_ok ps None s warm_start -> NoDup (map i_id warm_start) -> new_library (length y) l0 ->
  fit_evo_ens l0 rr data row tr metric task (ensemble_hps (VNum (Zpos size # 1)) hillclimb models) y left r
    ps max_length max_retry workers pop_size max_n restart warm_start events (fresh_search s) = (Ok (e, x), w) ->
  let good := fun k i scores => collected_at (v_trace w) k i scores false in
  (forall k i scores failed, collected_at (v_trace w) k i scores failed -> Forall (fun x => x <> NaN) scores) -> delivers (length y) good data ->
  (forall k i scores, ~ good k i scores) -> useless tr e.
Proof.
  intros A l0 rr data row tr metric task size hc mm y left r ps mx n workers pop_size max_n restart warm es s e x w T HN W S ND NL H good NU DV EX.
  unfold fit_evo_ens in H. destruct (search ps mx n workers pop_size max_n restart warm es (fresh_search s)) as [z w1] eqn:ER.
  destruct (C145_once_main _ _ _ _ _ _ _ _ _ _ _ _ T HN W S ND ER) as (O1 & O2). destruct (search_over z); [|discriminate]. injection H as H <-.
  assert (ON : NoDup (map i_id (collected (v_trace w1)))) by (eapply nodup_left, Permutation_NoDup; eauto).
  pose proof (ensemble_none l0 rr data row tr metric task size hc mm y left r (v_st w1) (ea_reports (v_trace w1))) as EN. rewrite H in EN. apply EN; auto.
  - apply ea_nodup. auto.
  - apply ea_numeric. auto.
  - apply DV.
  - intros k i sc G. apply (EX k i sc). apply ea_good; auto.
Qed.
(** C154: the pipelines the evolutionary search takes for evaluated, and makes no copies of
    (C146), are those the library knows. *)
Lemma C154_lookup_main :
  forall l0 rr data rows ps max_length max_retry workers pop_size max_n restart warm_start events (s : setting) x w ss,
  pset_typed ps -> 0 < max_retry -> wf_heap (s_heap s) -> start_ok ps None s warm_start -> NoDup (map i_id warm_start) -> new_library rows l0 ->
  search ps max_length max_retry workers pop_size max_n restart warm_start events (fresh_search s) = (x, w) -> seen_before s = [] ->
  (forall k i scores failed, collected_at (v_trace w) k i scores failed -> Forall (fun x => x <> NaN) scores) ->
  (forall k, match snd (data k) with Some p => length p = rows | None => True end) ->
  let l := library l0 rr data (v_st w) (ea_reports (v_trace w)) in
  (In (text ss) (v_saved w) <-> find_key (text ss) (l_lookup l) <> None) /\
  (In (text ss) (v_saved w) <-> exists i scores failed ss', In (Collected i (Evaluated scores failed)) (v_trace w) /\ is_pipeline (objects w) i ss' /\ text ss' = text ss).
Proof.
  intros l0 rr data rows ps mx n workers pop_size max_n restart warm es s x w ss T HN W S ND NL H SB NU DV l.
  destruct (search_ok _ _ _ _ _ _ _ _ _ _ _ _ T HN W S H) as (start & I & _).
  destruct (C145_once_main _ _ _ _ _ _ _ _ _ _ _ _ T HN W S ND H) as (O1 & O2).
  assert (ON : NoDup (map i_id (collected (v_trace w)))) by (eapply nodup_left, Permutation_NoDup; eauto). clear O1 O2.
  assert (LEN : exists y : list unit, length y = rows) by (exists (repeat tt rows); apply repeat_length). destruct LEN as (y & <-).
  assert (SV : In (text ss) (v_saved w) <-> exists i scores failed ss', In (Collected i (Evaluated scores failed)) (v_trace w) /\ is_pipeline (objects w) i ss' /\ text ss' = text ss).
  { rewrite (n_saved _ _ _ _ _ _ w I). rewrite SB. split; [intros [[]|(ss' & (i & sc & b & Hi & C) & E)]|intros (i & sc & b & ss' & Hi & C & E)]; [exists i, sc, b, ss'; auto|].
    right. exists ss'. split; [exists i, sc, b; auto|auto]. }
  split; [|exact SV]. rewrite SV. subst l. unfold library.
  destruct (saves l0 (evaluations (text_in (v_st w)) data 0 (ea_reports (v_trace w))) rr) as [l out] eqn:ES. cbn [fst].
  pose proof (filled l0 rr data (fun _ _ => Err ValueError) y (v_st w) (ea_reports (v_trace w)) (ea_nodup _ ON) (ea_numeric _ NU) NL DV l out ES) as F.
  pose proof (C36_lookup_main l0 _ rr l out (text ss) (proj1 NL) ES) as LK. rewrite F in LK.
  assert (LW : last_with (text ss) (evaluations (text_in (v_st w)) data 0 (ea_reports (v_trace w))) <> None <->
    exists e, In e (evaluations (text_in (v_st w)) data 0 (ea_reports (v_trace w))) /\ ev_key e = text ss).
  { generalize (evaluations (text_in (v_st w)) data 0 (ea_reports (v_trace w))) as q. clear. induction q as [|e q IH]; simpl.
    - split; [congruence|intros (e & [] & _)].
    - destruct (last_with (text ss) q) as [u|].
      + split; [|discriminate]. intros _. destruct (proj1 IH) as (e' & He & E); [discriminate|]. eauto.
      + destruct (String.eqb_spec (ev_key e) (text ss)) as [E|N]; split; try discriminate; eauto; try congruence.
        intros (e' & [<-|He] & E); [congruence|]. apply IH. eauto. }
  assert (FK : find_key (text ss) (l_lookup l) <> None <-> last_with (text ss) (evaluations (text_in (v_st w)) data 0 (ea_reports (v_trace w))) <> None).
  { destruct (find_key (text ss) (l_lookup l)), (last_with (text ss) _); try contradiction; split; congruence. }
  rewrite FK, LW. clear - I. split.
  - intros (i & sc & b & ss' & Hi & C & E). assert (HR : In (reported i sc b) (ea_reports (v_trace w))).
    { apply in_flat_map. eexists. split; [exact Hi|left; reflexivity]. }
    apply In_nth_error in HR as (k & HR). exists (nth_ev (evaluations (text_in (v_st w)) data 0 (ea_reports (v_trace w))) k). split.
    + apply nth_In. rewrite ev_length. apply nth_error_Some. congruence.
    + rewrite (ev_nth _ _ _ 0 k _ HR). simpl. unfold text_in. rewrite (is_pipeline_str (v_st w) i ss'); auto. apply I.
  - intros (e & He & E). apply ev_in in He as (j & p & Hj & ->). simpl in E. apply nth_error_In in Hj. apply in_flat_map in Hj as (x & Hx & Hj).
    destruct x as [| |i [|sc b]|]; simpl in Hj; try contradiction. destruct Hj as [<-|[]]. simpl in E.
    destruct (n_known _ _ _ _ _ _ w I i) as (_ & ss' & C & _); [eexists; split; [exact Hx|reflexivity]|].
    exists i, sc, b, ss'. split; auto. split; auto. unfold text_in in E. rewrite (is_pipeline_str (v_st w) i ss') in E; auto. apply I.
Qed.

Lemma find_key_in k (l : list (string * nat)) : find_key k l <> None <-> In k (map fst l).
Proof.
  induction l as [|[a u] l IH]; simpl; [split; [congruence|intros []]|]. destruct (String.eqb_spec a k) as [->|N].
  - split; [auto|intros _; discriminate].
  - rewrite IH. split; [auto|intros [E|H]; [congruence|auto]].
Qed.
Lemma saves_keys : forall es l r l' out, saves l es r = (l', out) ->
  (forall k, In k (map fst (l_lookup l')) -> In k (map fst (l_lookup l)) \/ exists e, In e es /\ ev_key e = k) /\
  (Forall (fun p => snd p = Ok tt) out -> forall k, In k (map fst (l_lookup l)) \/ (exists e, In e es /\ ev_key e = k) -> In k (map fst (l_lookup l'))).
Proof.
  induction es as [|e es IH]; intros l r l' out E; cbn [saves] in E.
  - injection E as <- <-. split; [auto|]. intros _ k [H|(e & [] & _)]. auto.
  - destruct (Lib_Model.save l e r) as [[l1 x] r1] eqn:ES. destruct (saves l1 es r1) as [l2 xs] eqn:EV. injection E as <- <-.
    destruct (IH _ _ _ _ EV) as [A B]. destruct (Lib_Proofs3.save_lookup _ _ _ _ _ _ ES) as [K _]. split.
    + intros k H. apply A in H as [H|(e' & He & Hk)]; [|right; exists e'; split; [right|]; auto].
      destruct x as [u|y].
      * destruct K as (K & _). rewrite K in H. destruct H as [H|H]; [|left; auto]. right. exists e. split; [left|]; auto.
      * destruct K as (K & _). rewrite K in H. left. auto.
    + intros F k H. inversion F as [|? ? F1 F2]; subst. cbn in F1. subst x. destruct K as (K & _). apply (B F2).
      destruct H as [H|(e' & [<-|He] & Hk)].
      * left. rewrite K. right. auto.
      * left. rewrite K. left. auto.
      * right. exists e'. auto.
Qed.
(** C154: the same for a later fit on the same object.  Its library [l0] can be any, with all
    that earlier fits left in it; the search begins with the texts that [l0] can look up.
    Then what the library can look up is taken for evaluated, and when no evaluation is
    rejected by the library it is exactly that; so a next fit begins in the same way. *)
Lemma C154_lookup_later_main :
  forall l0 rr data ps max_length max_retry workers pop_size max_n restart warm_start events (s : setting) x w known,
  pset_typed ps -> 0 < max_retry -> wf_heap (s_heap s) -> start_ok ps None s warm_start ->
  seen_before s = map fst (l_lookup l0) ->
  search ps max_length max_retry workers pop_size max_n restart warm_start events (fresh_search s) = (x, w) ->
  let reports := evaluations (text_in (v_st w)) data 0 (ea_reports (v_trace w)) in
  let l := library l0 rr data (v_st w) (ea_reports (v_trace w)) in
  (find_key known (l_lookup l) <> None -> In known (v_saved w)) /\
  (Forall (fun attempt => snd attempt = Ok tt) (snd (saves l0 reports rr)) -> (In known (v_saved w) <-> find_key known (l_lookup l) <> None)) /\
  (In known (v_saved w) <-> find_key known (l_lookup l0) <> None \/
     exists i scores failed steps, In (Collected i (Evaluated scores failed)) (v_trace w) /\ is_pipeline (objects w) i steps /\ text steps = known).
Proof.
  intros l0 rr data ps mx n workers pop_size max_n restart warm es s x w known T HN W S SB H reports l.
  destruct (search_ok _ _ _ _ _ _ _ _ _ _ _ _ T HN W S H) as (start & I & _).
  assert (SV : In known (v_saved w) <-> In known (map fst (l_lookup l0)) \/
     exists i scores failed ss', In (Collected i (Evaluated scores failed)) (v_trace w) /\ is_pipeline (objects w) i ss' /\ text ss' = known).
  { rewrite (n_saved _ _ _ _ _ _ w I). unfold already. rewrite SB. split.
    - intros [K|(ss' & (i & sc & b & Hi & C) & E)]; [left; exact K|right; exists i, sc, b, ss'; auto].
    - intros [K|(i & sc & b & ss' & Hi & C & E)]; [left; exact K|right]. exists ss'. split; [exists i, sc, b; auto|auto]. }
  assert (RV : (exists e, In e reports /\ ev_key e = known) <->
     exists i scores failed ss', In (Collected i (Evaluated scores failed)) (v_trace w) /\ is_pipeline (objects w) i ss' /\ text ss' = known).
  { unfold reports. clear - I. split.
    - intros (e & He & E). apply ev_in in He as (j & p & Hj & ->). simpl in E. apply nth_error_In in Hj. apply in_flat_map in Hj as (x & Hx & Hj).
      destruct x as [| |i [|sc b]|]; simpl in Hj; try contradiction. destruct Hj as [<-|[]]. simpl in E.
      destruct (n_known _ _ _ _ _ _ w I i) as (_ & ss' & C & _); [eexists; split; [exact Hx|reflexivity]|].
      exists i, sc, b, ss'. split; auto. split; auto. unfold text_in in E. rewrite (is_pipeline_str (v_st w) i ss') in E; auto. apply I.
    - intros (i & sc & b & ss' & Hi & C & E). assert (HR : In (reported i sc b) (ea_reports (v_trace w))).
      { apply in_flat_map. eexists. split; [exact Hi|left; reflexivity]. }
      apply In_nth_error in HR as (k & HR). exists (nth_ev (evaluations (text_in (v_st w)) data 0 (ea_reports (v_trace w))) k). split.
      + apply nth_In. rewrite ev_length. apply nth_error_Some. congruence.
      + rewrite (ev_nth _ _ _ 0 k _ HR). simpl. unfold text_in. rewrite (is_pipeline_str (v_st w) i ss'); auto. apply I. }
  rewrite !find_key_in. unfold l, library. fold reports. destruct (saves l0 reports rr) as [l1 out] eqn:ES. cbn [fst snd].
  destruct (saves_keys _ _ _ _ _ ES) as [A B]. split; [|split; [|exact SV]].
  - intros K. apply SV. rewrite <- RV. exact (A _ K).
  - intros F. rewrite SV, <- RV. split; [exact (B F known)|exact (A known)].
Qed.

Lemma scored_nonempty t r k i sc b : scored_ok t -> result_at t k i r sc b -> scored r t <> [].
Proof.
  intros K (t1 & t2 & -> & _) E. assert (N : sc <> []) by (apply (K i r sc b), in_or_app; right; left; auto). unfold scored in E. rewrite flat_map_app in E. apply app_eq_nil in E as [_ E].
  simpl in E. destruct sc as [|x sc]; [congruence|]. rewrite Nat.eqb_refl in E. discriminate.
Qed.
(** C155.  With ASHA only complete evaluations count, those on the top rung: when one of
    them succeeded, the model is an ensemble of the best of them.  The rest of the claim,
    that the successful evaluations on lower rungs are enough, is false
    ([C155_lower_rungs_refuted]). *)
Lemma C155_ensemble_partial_main :
  forall A l0 rr data row tr (metric : list A -> Ens_Model.mat -> res num) task size hillclimb models y left r c
    ps max_length eta first_rung max_rung max_full warm_start events s x w,
  wf_heap (s_heap s) -> start_ok ps max_length s warm_start -> NoDup (map i_id warm_start) -> pset_rich ps -> allows_one max_length ->
  (Z.of_nat first_rung <= max_rung)%Z -> Forall has_score events ->
  new_library (length y) l0 -> (forall n, Ens_Spec.readable row tr n c) -> (forall y1, Ens_Spec.scores (length y1) c (metric y1)) -> nlt (Fin 0) left ->
  fit_asha_ens l0 rr data row tr metric task (ensemble_hps (VNum (Zpos size # 1)) hillclimb models) y left r
    ps max_length eta first_rung max_rung max_full warm_start events (fresh_h s) = (x, w) ->
  let good := fun k i scores => exists rung, Z.of_nat rung = max_rung /\ result_at (q_trace w) k i rung scores false in
  Forall numeric (results (q_trace w)) -> delivers (length y) good data ->
  (exists k i scores, good k i scores) ->
  (exists e, x = Ok (e, Ok tt) /\ ensemble_of good data (l_m l0) (Pos.to_nat size) e) /\
  (forall k i scores, good k i scores -> exists ss, is_pipeline (h_objects w) i ss /\ pipeline_ok ps ss /\ within max_length ss).
Proof.
  intros A l0 rr data row tr metric task size hc mm y left r c ps mx eta f R mf warm es s x w W S ND R1 R2 R3 R4 NL RD SC LF H good NU DV EX.
  destruct (asha_end ps mx eta f R mf warm es s W S) as (l & s1 & z & w1 & E1 & E2 & I & RR & O & CA); [split; auto|].
  assert (PH : asha_phase ps mx eta f R mf warm es (fresh_h s) = (z, w1)) by (unfold asha_phase, hbind; rewrite E1; exact E2).
  destruct (C149_once_main ps mx eta f R mf warm es s z w1 W S PH) as (_ & N). pose proof (h_once _ _ _ _ I (N ND)) as ON.
  unfold fit_asha_ens, hbind in H. rewrite E1 in H. cbn [q_st q_jobs q_start q_rungs q_out q_trace fresh_h] in H. rewrite E2 in H.
  assert (EW : w = w1) by (destruct (asha_output z (q_rungs w1)); congruence). subst w1.
  assert (SO : exists pop, asha_output z (q_rungs w) = Ok pop).
  { assert (HH : highest_reached (q_rungs w) <> None).
    { intros HN. destruct EX as (k & i & sc & q & Hq & G). apply (scored_nonempty (q_trace w) q k i sc false); auto.
      - eapply asha_scores; [exact R4| |exact E2]. intros ? ? ? ? [].
      - exact (none_ok ps mx eta f R l w I RR O HN q). }
    destruct CA as [(-> & _)|(-> & _)]; simpl.
    - destruct (q_rungs w); [exfalso; apply HH; reflexivity|eauto].
    - destruct (highest_reached (q_rungs w)); [eauto|congruence]. }
  destruct SO as (pop & SO). rewrite SO in H. injection H as <-. set (t := q_trace w) in *.
  assert (GG : forall k i sc, good_at (asha_reports R t) k i sc <-> good k i sc) by (intros; apply asha_good).
  split.
  - destruct (ensemble_ok l0 rr data row tr metric task size hc mm y left r (q_st w) (asha_reports R t)) with (c := c) as (e & G1 & G2); auto.
    + apply asha_nodup. auto.
    + apply asha_numeric. auto.
    + apply DV.
    + eapply delivers_ext; [|exact DV]. intros. symmetry. apply GG.
    + destruct EX as (k & i & sc & G). exists k, i, sc. apply GG. auto.
    + exists e. split; [exact G1|]. eapply ensemble_ext; [|exact G2]. exact GG.
  - intros k i sc (q & _ & G). apply (h_seen _ _ _ w I). eapply result_seen; eauto.
Qed.
(** C155: when no evaluation on the top rung succeeded there is nothing to predict with. *)
Lemma C155_nothing_main :
  forall A l0 rr data row tr (metric : list A -> Ens_Model.mat -> res num) task size hillclimb models y left r
    ps max_length eta first_rung max_rung max_full warm_start events s e x w,
  wf_heap (s_heap s) -> start_ok ps max_length s warm_start -> NoDup (map i_id warm_start) -> new_library (length y) l0 ->
  fit_asha_ens l0 rr data row tr metric task (ensemble_hps (VNum (Zpos size # 1)) hillclimb models) y left r
    ps max_length eta first_rung max_rung max_full warm_start events (fresh_h s) = (Ok (e, x), w) ->
  let good := fun k i scores => exists rung, Z.of_nat rung = max_rung /\ result_at (q_trace w) k i rung scores false in
  Forall numeric (results (q_trace w)) -> delivers (length y) good data ->
  (forall k i scores, ~ good k i scores) -> useless tr e.
Proof.
  intros A l0 rr data row tr metric task size hc mm y left r ps mx eta f R mf warm es s e x w W S ND NL H good NU DV EX.
  unfold fit_asha_ens, hbind in H. destruct (Rnd_Model.candidates ps mx warm (fresh_h s)) as [[l|ex] w0] eqn:E1; [|discriminate].
  destruct (asha ps mx eta f R mf es (mkH (q_st w0) (q_jobs w0) l (q_rungs w0) (q_out w0) (q_trace w0))) as [z w1] eqn:E2.
  assert (PH : asha_phase ps mx eta f R mf warm es (fresh_h s) = (z, w1)) by (unfold asha_phase, hbind; rewrite E1; exact E2).
  destruct (C149_once_main ps mx eta f R mf warm es s z w1 W S PH) as (P & N). specialize (N ND).
  destruct (asha_output z (q_rungs w1)); [|discriminate]. injection H as H <-.
  assert (ON : NoDup (map key (finished (q_trace w1)))) by (eapply nodup_left, Permutation_NoDup; eauto).
  pose proof (ensemble_none l0 rr data row tr metric task size hc mm y left r (q_st w1) (asha_reports R (q_trace w1))) as EN. rewrite H in EN. apply EN; auto.
  - apply asha_nodup. auto.
  - apply asha_numeric. auto.
  - apply DV.
  - intros k i sc G. apply (EX k i sc). apply asha_good. auto.
Qed.

(** * Examples *)
(** Four rows; evaluation [k] has one estimator, [100 + k], and predicts [k], [k + 1], ... *)
Definition ex_y : list Qc := map Ens_Model.qn [2; 3; 4; 5].
Definition ex_data (k : nat) : list nat * option (list nat) := ([100 + k], Some (map (fun j => k + j) [0; 1; 2; 3])).
Definition ex_lib2 : lib := new_lib (Some 2) None None.
Definition ex_options : hps := ensemble_hps (VNum (3 # 1)) (VNum (10000 # 1)) (VNum (200 # 1)).
Lemma ex_lib_new : new_library (length ex_y) ex_lib2.
Proof. split; [vm_compute; auto|]. split; [discriminate|]. split; [discriminate|]. change (length ex_y <= 10000). apply Nat.leb_le. vm_compute. reflexivity. Qed.
Lemma ex_read n : Ens_Spec.readable Ens_Main.ex_row None n 1.
Proof. intros vs H. exists (map Ens_Main.ex_row vs). split; auto. split; [rewrite map_length; auto|]. rewrite Forall_map. apply Forall_forall. reflexivity. Qed.
Lemma ex_delivers good : delivers (length ex_y) good ex_data.
Proof. split; [reflexivity|]. intros k i sc _. split; discriminate. Qed.
Definition ex_rand : rng := [4; 0; 2; 6; 1; 3; 0; 2; 5; 7; 1; 2; 3].
Definition ex_scores_n (n : nat) : list event :=
  map ex_win (firstn n [5; 1; 2; 3; 4; 6; 7; 8; 9; 10; 11; 12; 13; 14; 15; 16; 17; 18; 19; 20; 21; 22; 23; 24; 25; 26; 27; 28; 29; 30; 31; 32; 33; 34; 35; 36]%Z).
Notation ex_rs_ens events := (fit_random_ens ex_lib2 [] ex_data Ens_Main.ex_row None Ens_Main.sq_err None ex_options ex_y (Fin (1 # 1)) []
  ex_ps (Some 3%Z) (Some 4%Z) ex_start events (fresh_h (ex_begin ex_rand))).
Notation ex_ea_ens events := (fit_evo_ens ex_lib2 [] ex_data Ens_Main.ex_row None Ens_Main.sq_err None ex_options ex_y (Fin (1 # 1)) []
  ex_ps None 50 1 5 None false ex_start events (fresh_search (first_fit (ex_begin [])))).
Notation ex_asha_ens n := (fit_asha_ens ex_lib2 [] ex_data Ens_Main.ex_row None Ens_Main.sq_err None ex_options ex_y (Fin (1 # 1)) []
  ex_ps (Some 3%Z) 3 0 2 (Some 2%Z) ex_start (ex_scores_n n) (fresh_h (ex_begin ex_rand))).
(** Members and fitted estimators. *)
Definition ex_show (x : res (Ens_Model.ens * res unit)) : list (nat * nat) * option (list (nat * nat)) * res unit :=
  match x with
  | Ok (e, y) => (map (fun mw => (Ens_Model.m_id (fst mw), snd mw)) (Ens_Spec.members e), Ens_Model.e_fit e, y)
  | Err ex => ([], None, Err ex)
  end.
Lemma ex_ids : NoDup (map i_id ex_start).
Proof. simpl. repeat (constructor; [simpl; intuition congruence|]). constructor. Qed.
Example C153_ex_main :
  wf_heap (s_heap (ex_begin ex_rand)) /\ start_ok ex_ps (Some 3%Z) (ex_begin ex_rand) ex_start /\ NoDup (map i_id ex_start) /\
  pset_rich ex_ps /\ allows_one (Some 3%Z) /\ new_library (length ex_y) ex_lib2 /\
  (forall n, Ens_Spec.readable Ens_Main.ex_row None n 1) /\ (forall y1, Ens_Spec.scores (length y1) 1 (Ens_Main.sq_err y1)) /\
  (forall good, delivers (length ex_y) good ex_data) /\
  Forall numeric (results (q_trace (snd (ex_rs_ens [ex_win 1; ex_crash; ex_fail; ex_win 2; ex_win 3; ex_win 4])))) /\
  map (fun m => (i_id (m_ind m), m_fit m)) (results (q_trace (snd (ex_rs_ens [ex_win 1; ex_crash; ex_fail; ex_win 2; ex_win 3; ex_win 4])))) =
    [(0, [Fin 1; Fin (-3 # 1)]); (2, [Fin 0; Fin 0]); (3, [Fin (2 # 1); Fin (-3 # 1)]); (4, [Fin (3 # 1); Fin (-3 # 1)])] /\
  ex_show (fst (ex_rs_ens [ex_win 1; ex_crash; ex_fail; ex_win 2; ex_win 3; ex_win 4])) = ([(4, 1); (3, 2)], Some [(103, 1); (102, 2)], Ok tt) /\
  ex_show (fst (ex_rs_ens [ex_crash; ex_fail])) = ([], None, Err ZeroDivisionError).
Proof.
  split; [apply (ex_begin_wf ex_p1); auto|]. split; [apply ex_start_ok; lia|]. split; [apply ex_ids|]. split; [apply ex_rich|]. split; [simpl; lia|].
  split; [apply ex_lib_new|]. split; [apply ex_read|]. split; [intros; apply Ens_Main.ex_scores|]. split; [apply ex_delivers|].
  split; [vm_compute; repeat (constructor; try discriminate)|]. split; [vm_compute; reflexivity|]. split; vm_compute; reflexivity.
Qed.
Example C154_ex_main :
  pset_typed ex_ps /\ start_ok ex_ps None (ex_begin []) ex_start /\
  (forall k i scores failed, collected_at (v_trace (snd (ex_ea_ens [ex_win 1; ex_win 4; ex_win 3; ex_win 2; ex_fail]))) k i scores failed -> Forall (fun x => x <> NaN) scores) /\
  map i_id (collected (v_trace (snd (ex_ea_ens [ex_win 1; ex_win 4; ex_win 3; ex_win 2; ex_fail])))) = [0; 1; 2; 3; 4] /\
  ex_show (fst (ex_ea_ens [ex_win 1; ex_win 4; ex_win 3; ex_win 2; ex_fail])) = ([(1, 1); (2, 2)], Some [(101, 1); (102, 2)], Ok tt) /\
  ex_show (fst (ex_ea_ens [ex_fail])) = ([], None, Err ZeroDivisionError).
Proof.
  split; [apply ex_typed|]. split; [eapply start_none, (ex_start_ok 3); lia|]. split.
  { intros k i sc b (t1 & t2 & E & _). assert (H : In (Collected i (Evaluated sc b)) (v_trace (snd (ex_ea_ens [ex_win 1; ex_win 4; ex_win 3; ex_win 2; ex_fail])))).
    { rewrite E. apply in_or_app. right. left. auto. }
    clear E. vm_compute in H. repeat (destruct H as [H|H]; [try discriminate; injection H as _ <- _; repeat (constructor; try discriminate)|]). destruct H. }
  split; [vm_compute; reflexivity|]. split; vm_compute; reflexivity.
Qed.
(** A first fit that evaluates four pipelines, and a second one on the same object. *)
Notation ex_one := (snd (search ex_ps None 50 1 5 None false ex_start (map ex_win [1; 2; 3]%Z ++ [ex_fail]) (fresh_search (first_fit (ex_begin []))))).
Notation ex_lib_one := (library ex_lib2 [] ex_data (v_st ex_one) (ea_reports (v_trace ex_one))).
Notation ex_two := (snd (search ex_ps None 50 1 5 None false ex_start (map ex_win [4; 1; 2]%Z)
  (fresh_search (mkSetting (ex_begin [4; 0; 2; 6; 1; 3; 0; 2; 5; 7; 1; 2; 3]) (map fst (l_lookup ex_lib_one)))))).
Notation ex_lib_two := (library ex_lib_one [] ex_data (v_st ex_two) (ea_reports (v_trace ex_two))).
Example C154_later_ex_main :
  length (l_lookup ex_lib_one) = 4 /\ length (v_saved ex_two) = 7 /\ length (l_lookup ex_lib_two) = 7 /\
  Forall (fun attempt => snd attempt = Ok tt) (snd (saves ex_lib_one (evaluations (text_in (v_st ex_two)) ex_data 0 (ea_reports (v_trace ex_two))) [])) /\
  In "BNB(data, alpha=1.0, BNB.fit_prior=False)"%string (map fst (l_lookup ex_lib_one)) /\
  In "BNB(data, alpha=1.0, BNB.fit_prior=False)"%string (v_saved ex_two).
Proof.
  split; [vm_compute; reflexivity|]. split; [vm_compute; reflexivity|]. split; [vm_compute; reflexivity|]. split; [vm_compute; repeat constructor|].
  split; vm_compute; auto 10.
Qed.
(** C155: an evaluation that succeeded is not always enough for a model to predict with. *)
Lemma C155_lower_rungs_refuted_main : ~
  (forall A l0 rr data row tr (metric : list A -> Ens_Model.mat -> res num) task size hillclimb models y left r c
    ps max_length eta first_rung max_rung max_full warm_start events s x w,
  wf_heap (s_heap s) -> start_ok ps max_length s warm_start -> NoDup (map i_id warm_start) -> pset_rich ps -> allows_one max_length ->
  (Z.of_nat first_rung <= max_rung)%Z -> Forall has_score events ->
  new_library (length y) l0 -> (forall n, Ens_Spec.readable row tr n c) -> (forall y1, Ens_Spec.scores (length y1) c (metric y1)) -> nlt (Fin 0) left ->
  fit_asha_ens l0 rr data row tr metric task (ensemble_hps (VNum (Zpos size # 1)) hillclimb models) y left r
    ps max_length eta first_rung max_rung max_full warm_start events (fresh_h s) = (x, w) ->
  let good := fun k i scores => exists rung, result_at (q_trace w) k i rung scores false in
  Forall numeric (results (q_trace w)) -> delivers (length y) good data ->
  (exists k i scores, good k i scores) ->
  forall e y, x = Ok (e, y) -> ~ useless tr e).
Proof.
  intros H. assert (E1 := surjective_pairing (ex_asha_ens 20)). revert E1. intros E1.
  refine (H _ _ _ _ _ _ _ _ 3%positive _ _ _ _ _ 1 _ _ _ _ _ _ _ _ _ _ _ _ _ _ _ _ _ _ _ _ _ _ E1 _ _ _ _ (Err ZeroDivisionError) _ _); clear.
  - apply (ex_begin_wf ex_p1); auto.
  - apply ex_start_ok; lia.
  - apply ex_ids.
  - apply ex_rich.
  - simpl; lia.
  - lia.
  - repeat constructor.
  - apply ex_lib_new.
  - apply ex_read.
  - intros; apply Ens_Main.ex_scores.
  - reflexivity.
  - vm_compute. repeat (constructor; try discriminate).
  - apply ex_delivers.
  - exists 0, (mkInd 18 4 [] "new"%string), [Fin (5 # 1); Fin ((-3) # 1)], 0.
    exists (firstn 8 (q_trace (snd (ex_asha_ens 20)))), (skipn 9 (q_trace (snd (ex_asha_ens 20)))). split; vm_compute; reflexivity.
  - vm_compute. reflexivity.
  - split; [reflexivity|]. intros. reflexivity.
Qed.
Example C155_ex_main :
  Forall has_score (ex_scores_n 36) /\
  Forall numeric (results (q_trace (snd (ex_asha_ens 36)))) /\
  map i_id (scored_inds 2 (q_trace (snd (ex_asha_ens 36)))) = [8] /\
  ex_show (fst (ex_asha_ens 36)) = ([(8, 3)], Some [(124, 3)], Ok tt) /\
  (* stopped before anything is complete *)
  length (results (q_trace (snd (ex_asha_ens 20)))) = 20 /\ ex_show (fst (ex_asha_ens 20)) = ([], None, Err ZeroDivisionError).
Proof.
  split; [repeat constructor|]. split; [vm_compute; repeat (constructor; try discriminate)|].
  split; [vm_compute; reflexivity|]. split; [vm_compute; reflexivity|]. split; vm_compute; reflexivity.
Qed.

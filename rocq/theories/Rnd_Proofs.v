(** C148-C149: what holds throughout random search and ASHA. *)
Require Import Permutation.
From Verif Require Import Base Num Nsga_Model Gp_Model Gp_Spec Gp_Proofs Gp_Proofs2 Gp_Proofs3 Gp_Proofs4 Gp_Main
  Evo_Model Evo_Spec Evo_Proofs Evo_Proofs2 Rnd_Model Rnd_Spec.
Open Scope nat_scope.
Open Scope list_scope.

(** * Traces *)
Lemma started_app t u : started (t ++ u) = started t ++ started u.
Proof. induction t as [|[]]; simpl; auto; rewrite IHt; auto. Qed.
Lemma finished_app t u : finished (t ++ u) = finished t ++ finished u.
Proof. induction t as [|[]]; simpl; auto; rewrite IHt; auto. Qed.
Lemma results_app t u : results (t ++ u) = results t ++ results u.
Proof. induction t as [|[|i r [|sc f]]]; simpl; auto; rewrite IHt; auto. Qed.
Lemma in_started t i r : In (i, r) (started t) <-> In (Started i r) t.
Proof.
  induction t as [|[j r'|j r' o] t IH]; simpl; [tauto| |]; rewrite IH; clear IH; split.
  - intros [H|H]; [injection H as -> ->; auto|auto].
  - intros [H|H]; [injection H as -> ->; auto|auto].
  - auto.
  - intros [H|H]; [discriminate|auto].
Qed.
Lemma in_finished t i r : In (i, r) (finished t) <-> exists o, In (Finished i r o) t.
Proof.
  induction t as [|[j r'|j r' o] t IH]; simpl; [firstorder| |].
  - rewrite IH. split; intros (o & H); exists o; auto. destruct H as [H|H]; [discriminate|auto].
  - rewrite IH. split.
    + intros [H|(o' & H)]; [injection H as -> ->; eauto|eauto].
    + intros (o' & [H|H]); [injection H as -> -> ->; auto|eauto].
Qed.
Lemma seen_app t u i : seen (t ++ u) i <-> seen t i \/ seen u i.
Proof.
  split.
  - intros (r & [H|(o & H)]); apply in_app_or in H as [H|H]; [left|right|left|right]; exists r; eauto.
  - intros [(r & [H|(o & H)])|(r & [H|(o & H)])]; exists r; [left|right; exists o|left|right; exists o]; apply in_or_app; auto.
Qed.
Lemma seen_one x i : seen [x] i -> match x with Started j _ => i = j | Finished j _ _ => i = j end.
Proof. intros (r & [[->|[]]|(o & [->|[]])]); auto. Qed.

Lemma perm_nth {A} (d : A) : forall k l, k < length l -> Permutation l (nth k l d :: remove_nth k l).
Proof.
  induction k as [|k IH]; intros [|x l] H; simpl in *; try lia; auto.
  rewrite (IH l) at 1 by lia. apply perm_swap.
Qed.

Section Common.
Context (ps : pset) (mx : option Z).
Definition good (s : st) (i : individual) : Prop := i_id i < s_uid s /\ exists ss, is_pipeline (s_heap s) i ss /\ pipeline_ok ps ss /\ within mx ss.
Lemma good_extends s s' i : wf_heap (s_heap s) -> extends s s' -> good s i -> good s' i.
Proof.
  intros W X (L & ss & C & O). split; [pose proof (proj2 (proj2 X)); lia|]. exists ss. split; auto. eapply is_pipeline_extends; eauto.
Qed.
(** when a pipeline may be started *)
Context (allowed : list hitem -> individual -> nat -> Prop).
Definition answer (h : heap) (t : list hitem) (i : individual) (r : nat) : Prop :=
  exists j ss, In (Started j r) t /\ is_pipeline h j ss /\ is_pipeline h i ss /\
    i_id i = i_id j /\ i_parents i = i_parents j /\ i_origin i = i_origin j.
Record Inv (w : hst) : Prop := {
  h_wf : wf_heap (h_objects w);
  h_jobs : forall p, In p (q_jobs w) -> In (Started (fst p) (snd p)) (q_trace w);
  h_perm : Permutation (map key (started (q_trace w))) (map key (finished (q_trace w)) ++ map key (q_jobs w));
  h_seen : forall i, seen (q_trace w) i -> good (q_st w) i;
  h_start : Forall (good (q_st w)) (q_start w);
  h_items : forall t1 i r t2, q_trace w = t1 ++ Started i r :: t2 -> allowed t1 i r;
  h_answers : forall t1 i r o t2, q_trace w = t1 ++ Finished i r o :: t2 -> answer (h_objects w) t1 i r }.
Definition with_state (s : st) (w : hst) : hst := mkH s (q_jobs w) (q_start w) (q_rungs w) (q_out w) (q_trace w).
Lemma answer_extends s s' t i r : wf_heap (s_heap s) -> extends s s' -> answer (s_heap s) t i r -> answer (s_heap s') t i r.
Proof.
  intros W X (j & ss & H1 & H2 & H3 & H4). exists j, ss. split; auto. split; [eapply is_pipeline_extends; eauto|]. split; [eapply is_pipeline_extends; eauto|auto].
Qed.
Lemma inv_state w s : extends (q_st w) s -> Inv w -> Inv (with_state s w).
Proof.
  intros X [A B C D E F G]. constructor; simpl; auto.
  - exact (proj1 X).
  - intros i Hi. eapply good_extends; eauto.
  - eapply Forall_impl; [|exact E]. intros i. apply good_extends; auto.
  - intros t1 i r o t2 H. eapply answer_extends; eauto.
Qed.
Lemma inv_rungs w l l' : Inv w -> Inv (mkH (q_st w) (q_jobs w) (q_start w) l l' (q_trace w)).
Proof. intros [A B C D E F G]. constructor; auto. Qed.

Lemma submit_inv w i r : Inv w -> good (q_st w) i -> allowed (q_trace w) i r ->
  forall x w', hsubmit i r w = (x, w') -> Inv w' /\ x = Ok tt /\ q_trace w' = q_trace w ++ [Started i r] /\ q_jobs w' = q_jobs w ++ [(i, r)] /\
    q_st w' = q_st w /\ q_start w' = q_start w /\ q_rungs w' = q_rungs w /\ q_out w' = q_out w.
Proof.
  intros [A B C D E F G] HG HA x w' H. injection H as <- <-. split; [|simpl; auto 10]. constructor; simpl; auto.
  - intros p Hp. apply in_or_app. apply in_app_or in Hp as [Hp|[<-|[]]]; simpl; auto.
  - rewrite started_app, finished_app, !map_app. simpl. rewrite app_nil_r, C, <- app_assoc. auto.
  - intros j Hj. apply seen_app in Hj as [Hj|Hj]; auto. apply seen_one in Hj as ->. auto.
  - intros t1 j r' t2 H. apply snoc_split in H as [(-> & -> & H)|(t2' & -> & H)]; eauto. injection H as -> ->. auto.
  - intros t1 j r' o t2 H. apply snoc_split in H as [(-> & -> & H)|(t2' & -> & H)]; eauto. discriminate.
Qed.
Lemma wait_inv_h w e x w' : Inv w -> hwait e w = (x, w') ->
  Inv w' /\ q_start w' = q_start w /\ q_rungs w' = q_rungs w /\ q_out w' = q_out w /\ s_uid (q_st w') = s_uid (q_st w) /\
  match x with
  | Err ex => ex = RuntimeError /\ q_jobs w = [] /\ w' = w
  | Ok (i, r, o) => o = e_out e /\ q_trace w' = q_trace w ++ [Finished i r o] /\ length (q_jobs w) = S (length (q_jobs w')) /\
      In (i_id i, r) (map key (q_jobs w))
  end.
Proof.
  intros I H. pose proof I as [A B C D E F G]. unfold hwait in H. destruct (q_jobs w) as [|j0 js] eqn:EJ.
  { injection H as <- <-. split; auto 10. }
  rewrite <- EJ in *. assert (NJ : q_jobs w <> []) by (rewrite EJ; discriminate).
  set (k := e_pick e mod length (q_jobs w)) in *. assert (Hk : k < length (q_jobs w)) by (apply Nat.mod_upper_bound; rewrite EJ; discriminate).
  set (j := nth k (q_jobs w) j0) in *. assert (Hj : In j (q_jobs w)) by (apply nth_In; auto).
  pose proof (perm_nth j0 k _ Hk) as PJ. fold j in PJ.
  assert (IJ : forall y, In y (remove_nth k (q_jobs w)) -> In y (q_jobs w)).
  { intros y Hy. eapply Permutation_in; [symmetry; exact PJ|]. right. auto. }
  assert (LJ : length (q_jobs w) = S (length (remove_nth k (q_jobs w)))) by (rewrite (Permutation_length PJ) at 1; auto).
  assert (KJ : In (key j) (map key (q_jobs w))) by (apply in_map; auto).
  pose proof (B _ Hj) as Sj. assert (Gj : good (q_st w) (fst j)) by (apply D; exists (snd j); auto). destruct Gj as (Lj & ss & Cj & Oj).
  assert (PP : forall i o, i_id i = i_id (fst j) -> Permutation (map key (started (q_trace w ++ [Finished i (snd j) o])))
    (map key (finished (q_trace w ++ [Finished i (snd j) o])) ++ map key (remove_nth k (q_jobs w)))).
  { intros i o Hi. rewrite started_app, finished_app, !map_app. simpl. rewrite app_nil_r, C, <- app_assoc. apply Permutation_app_head.
    rewrite (Permutation_map key PJ). simpl. unfold key at 1 3. simpl. rewrite Hi. auto. }
  destruct (e_out e) as [|sc f] eqn:EO.
  - unfold hbind, hnote, hret in H. injection H as <- <-. split; [|simpl; auto 10]. constructor; simpl; auto.
    + intros p Hp. apply in_or_app. auto.
    + intros i Hi. apply seen_app in Hi as [Hi|Hi]; auto. apply seen_one in Hi as ->. split; eauto.
    + intros t1 i r t2 H. apply snoc_split in H as [(-> & -> & H)|(t2' & -> & H)]; eauto. discriminate.
    + intros t1 i r o t2 H. apply snoc_split in H as [(-> & -> & H)|(t2' & -> & H)]; eauto. injection H as -> -> ->. exists (fst j), ss. auto 10.
  - destruct (unpickle_ok (q_st w) (fst j) ss A Cj) as (i & s' & Eu & X & Us & Ci & Ii & Ip & Io).
    unfold hbind at 1 in H. unfold hgp in H. cbn [q_st] in H. rewrite Eu in H. unfold hbind, hnote, hret in H. cbn [q_st q_jobs q_start q_rungs q_out q_trace] in H.
    injection H as <- <-. split; [|simpl; split; auto; split; auto; split; auto; split; auto; split; auto; split; auto; split; auto; rewrite Ii; exact KJ].
    constructor; simpl; auto.
    + exact (proj1 X).
    + intros p Hp. apply in_or_app. auto.
    + intros i' Hi. apply seen_app in Hi as [Hi|Hi]; [eapply good_extends; eauto|]. apply seen_one in Hi as ->. split; [rewrite Us, Ii; auto|eauto].
    + eapply Forall_impl; [|exact E]. intros i'. apply good_extends; auto.
    + intros t1 i' r t2 H. apply snoc_split in H as [(-> & -> & H)|(t2' & -> & H)]; eauto. discriminate.
    + intros t1 i' r o t2 H. apply snoc_split in H as [(-> & -> & H)|(t2' & -> & H)].
      * injection H as -> -> ->. exists (fst j), ss. split; auto. split; [eapply is_pipeline_extends; eauto|auto].
      * eapply answer_extends; eauto.
Qed.
Lemma new_inv w x w' : Inv w -> hgp (op_individual ps mx) w = (x, w') ->
  Inv w' /\ q_jobs w' = q_jobs w /\ q_start w' = q_start w /\ q_rungs w' = q_rungs w /\ q_out w' = q_out w /\ q_trace w' = q_trace w /\
  s_uid (q_st w) <= s_uid (q_st w') /\
  match x with
  | Ok i => good (q_st w') i /\ is_new i /\ s_uid (q_st w) <= i_id i
  | Err e => creation_error ps mx e
  end.
Proof.
  intros I H. unfold hgp in H. pose proof (wp_op_individual ps mx (q_st w) (h_wf w I)) as WP. unfold wp in WP.
  destruct (op_individual ps mx (q_st w)) as [[i|ex] s1]; injection H as <- <-.
  - destruct WP as (X & HI & Hp & Ho & ls & ss & C & _ & Ok1 & _ & Len).
    split; [exact (inv_state w s1 X I)|]. simpl. do 5 (split; auto). split; [apply X|]. split; [|split; [split; auto|lia]].
    split; [lia|]. exists ss. split; [exists ls; auto|]. split; auto. destruct mx; simpl in *; auto. lia.
  - destruct WP as (X & He). split; [exact (inv_state w s1 X I)|]. simpl. do 5 (split; auto). split; [apply X|auto].
Qed.
Lemma no_creation e : pset_rich ps -> allows_one mx -> ~ creation_error ps mx e.
Proof.
  intros (Hi & Hp & Hd & _) HL [(_ & H)|(_ & [H|(_ & H)])]; [|exact (rich_node ps Hi PREDICTION Hp H)|exact (rich_node ps Hi DATA Hd H)].
  destruct mx; simpl in *; lia.
Qed.
End Common.

(** * The candidates *)
Lemma random_individuals_ok ps mx n : forall w x w', wf_heap (s_heap (q_st w)) -> random_individuals ps mx n w = (x, w') ->
  exists s, w' = with_state s w /\ extends (q_st w) s /\
  match x with
  | Ok l => length l = n /\ NoDup (map i_id l) /\ Forall (fun i => good ps mx s i /\ is_new i /\ s_uid (q_st w) <= i_id i) l /\
      (forall l1 i l2, l = l1 ++ i :: l2 -> forall j, In j l1 -> i_id j < i_id i)
  | Err e => creation_error ps mx e
  end.
Proof.
  induction n as [|n IH]; intros w x w' W H.
  { injection H as <- <-. exists (q_st w). split; [destruct w; auto|]. split; [apply extends_refl; auto|]. split; auto. split; [constructor|]. split; [constructor|].
    intros l1 i l2 H. destruct l1; discriminate. }
  cbn [random_individuals] in H. unfold hbind at 1, hgp in H.
  pose proof (wp_op_individual ps mx (q_st w) W) as WP. unfold wp in WP. destruct (op_individual ps mx (q_st w)) as [[i|ex] s1].
  2:{ injection H as <- <-. exists s1. split; [reflexivity|exact WP]. }
  destruct WP as (X & HI & Hp & Ho & ls & ss & C & _ & Ok1 & _ & Len).
  unfold hbind in H. destruct (random_individuals ps mx n _) as [y w2] eqn:E2. apply IH in E2; [|exact (proj1 X)]. cbn [q_st] in E2.
  destruct E2 as (s2 & -> & X2 & Hy). assert (XX : extends (q_st w) s2) by (eapply extends_trans; eauto).
  destruct y as [l|ex]; injection H as <- <-; exists s2; (split; [reflexivity|split; [auto|]]); auto.
  destruct Hy as (L & ND & FA & Inc). rewrite Forall_forall in FA. split; [simpl; auto|]. split.
  { simpl. constructor; auto. intros Hin. apply in_map_iff in Hin as (j & Hj & Hin). apply FA in Hin as (_ & _ & Hin). lia. }
  split.
  - constructor.
    + split; [|split; [split; auto|lia]]. apply (good_extends ps mx s1); auto; [apply X|]. split; [lia|]. exists ss. split; [exists ls; auto|]. split; auto.
      destruct mx; simpl in *; auto. lia.
    + apply Forall_forall. intros j Hj. destruct (FA _ Hj) as (A & B & D). pose proof (proj2 (proj2 X)). split; auto. split; auto. lia.
  - intros [|j l1] k l2 E j' Hj'; [destruct Hj'|]. injection E as <- ->. destruct Hj' as [<-|Hj'].
    + destruct (FA k) as (_ & _ & D); [apply in_or_app; simpl; auto|]. lia.
    + eapply Inc; eauto.
Qed.

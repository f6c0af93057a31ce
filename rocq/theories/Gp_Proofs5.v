From Verif Require Import Base Gp_Model Gp_Spec Gp_Proofs Gp_Proofs2 Gp_Proofs3 Gp_Proofs4.
Require Import Ascii Permutation Sorted.
Open Scope nat_scope.

(** * Histories *)
Definition world_inv (ps : pset) (w : world) : Prop :=
  let h := s_heap (w_st w) in
  wf_heap h /\
  exists cs : list (list loc * list step),
    Forall2 (fun ind c => pipeline h ind (fst c) (snd c) /\ pipeline_ok ps (snd c) /\
                          (pset_named ps -> Forall in_order (snd c)))
            (w_pool w) cs /\
    NoDup (flat_map fst cs) /\
    NoDup (map i_id (w_pool w)) /\
    Forall (fun ind => i_id ind < s_uid (w_st w)) (w_pool w).

Lemma nodup_app {A} (a b : list A) : NoDup a -> NoDup b -> (forall x, In x a -> ~ In x b) -> NoDup (a ++ b).
Proof.
  induction a as [|x a IH]; simpl; intros Ha Hb H; auto.
  inversion Ha; subst. constructor.
  - rewrite in_app_iff. intros [?|?]; [contradiction|apply (H x); auto].
  - apply IH; auto.
Qed.

Lemma nodup_app_r {A} (a b : list A) : NoDup (a ++ b) -> NoDup b.
Proof. induction a; simpl; auto. intros H; inversion H; auto. Qed.

Lemma Forall2_impl {A B} (R R' : A -> B -> Prop) l l' :
  (forall a b, R a b -> R' a b) -> Forall2 R l l' -> Forall2 R' l l'.
Proof. induction 2; constructor; auto. Qed.

Lemma world_keep ps w s' : world_inv ps w -> extends (w_st w) s' -> world_inv ps (mkWorld (w_pool w) s').
Proof.
  intros (W & cs & F & ND & NI & LI) X. pose proof X as (W' & _ & U). split; auto. exists cs.
  cbn [w_pool w_st]. split; [|split; [auto|split; [auto|]]].
  - eapply Forall2_impl; [|exact F]. simpl. intros ind c (P & Q). split; auto.
    apply (extends_pipeline (w_st w)); auto.
  - eapply Forall_impl; [|exact LI]. simpl. intros; lia.
Qed.

Lemma world_add ps w ind s' ls ss :
  world_inv ps w -> extends (w_st w) s' ->
  s_uid (w_st w) <= i_id ind < s_uid s' ->
  pipeline (s_heap s') ind ls ss -> all_new (s_heap (w_st w)) ls -> pipeline_ok ps ss ->
  (pset_named ps -> Forall in_order ss) ->
  world_inv ps (mkWorld (w_pool w ++ [ind]) s').
Proof.
  intros WI X HI P N Hok HO. pose proof WI as (W & cs0 & F0 & _).
  destruct (world_keep _ _ _ WI X) as (W' & cs & F & ND & NI & LI). cbn [w_pool w_st] in *.
  destruct WI as (_ & cs1 & F1 & _ & _ & LI1).
  split; auto. exists (cs ++ [(ls, ss)]). cbn [w_pool w_st]. split; [|split; [|split]].
  - apply Forall2_app; auto.
  - rewrite flat_map_app. simpl. rewrite app_nil_r. apply nodup_app; auto.
    + eapply chain_nodup; eauto.
    + intros l Hl Hl'. unfold all_new in N. rewrite Forall_forall in N. specialize (N _ Hl').
      assert (HH : l < h_next (s_heap (w_st w))); [|lia].
      clear - F F1 Hl X W. revert cs1 F1. induction F as [|i c pool cs (P & _) F IH]; simpl in Hl; [tauto|].
      intros cs1 F1. inversion F1 as [|? c1 ? cs2 (P1 & _) F2]; subst.
      apply in_app_or in Hl as [Hl|Hl]; [|eauto].
      pose proof (extends_pipeline _ _ _ _ _ W X P1) as P1'.
      destruct (chain_fun _ _ _ _ P _ _ P1') as [E _]. rewrite E in Hl.
      eapply chain_lt; eauto.
  - rewrite map_app. simpl. apply nodup_app; auto.
    + constructor; auto. constructor.
    + intros x Hx [<-|[]]. apply in_map_iff in Hx as (y & E & Hy).
      rewrite Forall_forall in LI1. specialize (LI1 _ Hy). lia.
  - apply Forall_app. split; auto. constructor; auto. lia.
Qed.

Lemma Forall2_nth {A B} (R : A -> B -> Prop) l l' : Forall2 R l l' ->
  forall i x, nth_error l i = Some x -> exists y, nth_error l' i = Some y /\ R x y.
Proof.
  induction 1; intros [|i] z E; simpl in *; try discriminate.
  - inversion E; subst; eauto.
  - eauto.
Qed.

Lemma world_lookup ps w i ind : world_inv ps w -> nth_error (w_pool w) i = Some ind ->
  exists ls ss, pipeline (s_heap (w_st w)) ind ls ss /\ pipeline_ok ps ss /\ (pset_named ps -> Forall in_order ss).
Proof.
  intros (_ & cs & F & _) E. destruct (Forall2_nth _ _ _ F _ _ E) as ((ls & ss) & _ & R). eauto.
Qed.

Lemma gp_step_inv ps mx n w c :
  pset_typed ps -> 0 < n -> world_inv ps w ->
  world_inv ps (gp_call_step ps mx n w c) /\ extends (w_st w) (w_st (gp_call_step ps mx n w c)) /\
  exists added, w_pool (gp_call_step ps mx n w c) = w_pool w ++ added.
Proof.
  intros T Hn WI. pose proof WI as (W & _).
  destruct c as [|i done|i j done]; simpl.
  - pose proof (wp_op_individual ps mx (w_st w) W) as H. unfold wp in H.
    destruct (op_individual ps mx (w_st w)) as [[ind|e] s'].
    + destruct H as (X & HI & _ & _ & ls & ss & P & N & Hok & O & _). simpl. split; [|split; eauto].
      eapply world_add; eauto.
    + destruct H as (X & _). simpl. split; [|split; [auto|exists []; rewrite app_nil_r; auto]].
      apply world_keep; auto.
  - destruct (nth_error (w_pool w) i) as [ind|] eqn:E.
    2: { split; auto. split; [apply extends_refl; auto|exists []; rewrite app_nil_r; auto]. }
    destruct (world_lookup _ _ _ _ WI E) as (ls & ss & P & Hok & O).
    pose proof (wp_op_mutate n done ps mx ind (w_st w) ls ss W P T Hn) as H. unfold wp in H.
    destruct (op_mutate n done ps mx ind (w_st w)) as [[ind'|e] s'].
    + destruct H as (X & HI & _ & _ & m & ls' & ss0 & ss' & P' & N & _ & SP & O0 & Mu & _).
      pose proof (same_pipeline_ok _ _ _ SP Hok) as Hok0. simpl. split; [|split; eauto].
      eapply world_add; eauto using mutated_ok. intros NM. eapply mutated_in_order; eauto.
    + destruct H as (X & _). simpl. split; [|split; [auto|exists []; rewrite app_nil_r; auto]].
      apply world_keep; auto.
  - destruct (nth_error (w_pool w) i) as [ind1|] eqn:E1.
    2: { split; auto. split; [apply extends_refl; auto|exists []; rewrite app_nil_r; auto]. }
    destruct (nth_error (w_pool w) j) as [ind2|] eqn:E2.
    2: { split; auto. split; [apply extends_refl; auto|exists []; rewrite app_nil_r; auto]. }
    destruct (world_lookup _ _ _ _ WI E1) as (ls1 & ss1 & P1 & Hok1 & O1).
    destruct (world_lookup _ _ _ _ WI E2) as (ls2 & ss2 & P2 & Hok2 & O2).
    pose proof (wp_op_mate n done mx ind1 ind2 (w_st w) ls1 ss1 ls2 ss2 W P1 P2 Hn) as H. unfold wp in H.
    destruct (op_mate n done mx ind1 ind2 (w_st w)) as [[ind'|e] s'].
    + destruct H as (X & HI & _ & _ & _ & _ & ls' & a & b & ss' & o & P' & N & SP1 & Oa & SP2 & Ob & Cr).
      pose proof (same_pipeline_ok _ _ _ SP1 Hok1) as Ha. pose proof (same_pipeline_ok _ _ _ SP2 Hok2) as Hb.
      simpl. split; [|split; eauto].
      eapply world_add; eauto.
      * exact (proj1 (crossed_ok ps _ _ _ _ T Ha Hb Cr)).
      * intros NM. exact (crossed_in_order ps _ _ _ _ T NM Ha Hb Cr Oa Ob).
    + destruct H as (X & _). simpl. split; [|split; [auto|exists []; rewrite app_nil_r; auto]].
      apply world_keep; auto.
Qed.

Lemma gp_run_inv ps mx n cs : forall w,
  pset_typed ps -> 0 < n -> world_inv ps w ->
  world_inv ps (gp_run ps mx n w cs) /\ extends (w_st w) (w_st (gp_run ps mx n w cs)) /\
  exists added, w_pool (gp_run ps mx n w cs) = w_pool w ++ added.
Proof.
  induction cs as [|c cs IH]; intros w T Hn WI; simpl.
  - split; auto. split; [apply extends_refl; apply WI|exists []; rewrite app_nil_r; auto].
  - destruct (gp_step_inv ps mx n w c T Hn WI) as (W1 & X1 & a1 & E1).
    destruct (IH _ T Hn W1) as (W2 & X2 & a2 & E2). split; auto. split.
    + eapply extends_trans; eauto.
    + exists (a1 ++ a2). unfold gp_run in E2 |- *. cbn [fold_left]. rewrite E2, E1, app_assoc. auto.
Qed.

Lemma empty_inv ps r : world_inv ps (empty_world r).
Proof.
  split; [intros l _; reflexivity|]. exists []. simpl. repeat split; constructor.
Qed.

Lemma world_disjoint ps w i j ind1 ind2 ls1 ss1 ls2 ss2 :
  world_inv ps w -> i <> j ->
  nth_error (w_pool w) i = Some ind1 -> nth_error (w_pool w) j = Some ind2 ->
  pipeline (s_heap (w_st w)) ind1 ls1 ss1 -> pipeline (s_heap (w_st w)) ind2 ls2 ss2 ->
  disjoint ls1 ls2 /\ i_id ind1 <> i_id ind2.
Proof.
  intros (W & cs & F & ND & NI & _) Hij E1 E2 P1 P2. split.
  - destruct (Forall2_nth _ _ _ F _ _ E1) as (c1 & G1 & Q1 & _).
    destruct (Forall2_nth _ _ _ F _ _ E2) as (c2 & G2 & Q2 & _).
    destruct (chain_fun _ _ _ _ P1 _ _ Q1) as [-> _]. destruct (chain_fun _ _ _ _ P2 _ _ Q2) as [-> _].
    clear - ND G1 G2 Hij. revert i j Hij G1 G2. induction cs as [|c cs IH]; intros [|i] [|j] Hij G1 G2; simpl in *;
      try discriminate; try congruence.
    + inversion G1; subst. intros x Hx Hx2.
      assert (HI : In x (flat_map fst cs)) by (apply in_flat_map; exists c2; split; auto; eapply nth_error_In; eauto).
      clear - ND Hx HI. induction (fst c1) as [|y l IH]; simpl in *; [tauto|].
      inversion ND; subst. destruct Hx as [->|Hx]; [rewrite in_app_iff in *; tauto|auto].
    + inversion G2; subst. intros x Hx2 Hx.
      assert (HI : In x (flat_map fst cs)) by (apply in_flat_map; exists c1; split; auto; eapply nth_error_In; eauto).
      clear - ND Hx HI. induction (fst c2) as [|y l IH]; simpl in *; [tauto|].
      inversion ND; subst. destruct Hx as [->|Hx]; [rewrite in_app_iff in *; tauto|auto].
    + apply nodup_app_r in ND. apply (IH ND i j); auto.
  - intros E. apply Hij. eapply (NoDup_nth_error (map i_id (w_pool w))); eauto.
    + rewrite map_length. apply nth_error_Some. congruence.
    + rewrite (map_nth_error i_id _ _ E1), (map_nth_error i_id _ _ E2). congruence.
Qed.

(** ** Search-level lengths: as long as nothing is mated (crossover results can
    be longer, see C04), every individual respects the limit. *)
Definition no_mate (c : gp_call) : Prop := match c with CallMate _ _ _ => False | _ => True end.

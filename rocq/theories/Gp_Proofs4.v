From Verif Require Import Base Gp_Model Gp_Spec Gp_Proofs Gp_Proofs2 Gp_Proofs3.
Require Import Ascii Permutation Sorted.
Open Scope nat_scope.

(** * Text *)
Lemma str_app_assoc (a b c : string) : ((a ++ b) ++ c = a ++ (b ++ c))%string.
Proof. induction a; simpl; congruence. Qed.
Lemma str_app_nil (a : string) : (a ++ "")%string = a.
Proof. induction a; simpl; congruence. Qed.

Lemma args_concat t ts :
  arguments (t :: ts) = (", " ++ String.concat ", " (map term_repr (t :: ts)))%string.
Proof.
  revert t. induction ts as [|u ts IH]; intros t.
  - simpl. unfold term_repr. rewrite str_app_nil. reflexivity.
  - change (arguments (t :: u :: ts)) with
      (", " ++ t_ident t ++ "=" ++ format_value (t_value t) ++ arguments (u :: ts))%string.
    rewrite IH.
    change (String.concat ", " (map term_repr (t :: u :: ts))) with
      ((t_ident t ++ "=" ++ format_value (t_value t)) ++ ", "
       ++ String.concat ", " (map term_repr (u :: ts)))%string.
    rewrite !str_app_assoc. reflexivity.
Qed.

Lemma str_dref_ok h d ls ss : chain h d ls ss -> forall f, length ls <= f ->
  str_dref f h d = Ok (text ss).
Proof.
  induction 1 as [|l c ls ss G C IH]; intros f Hf.
  - destruct f; reflexivity.
  - destruct f as [|f]; simpl in Hf; [lia|]. simpl. rewrite G, IH by lia. simpl.
    destruct (c_terms c) as [|t ts]; [reflexivity|].
    rewrite args_concat. rewrite !str_app_assoc. reflexivity.
Qed.

Lemma pipeline_str_ok ind s ls ss :
  wf_heap (s_heap s) -> pipeline (s_heap s) ind ls ss -> pipeline_str ind s = (Ok (text ss), s).
Proof.
  intros W C. unfold pipeline_str. f_equal. eapply str_dref_ok; [exact C|].
  pose proof (chain_bound _ _ _ _ W C). lia.
Qed.

(** * Operators of the OperatorSet *)
Lemma extends_refl s : wf_heap (s_heap s) -> extends s s.
Proof. intros; split; auto. split; auto. apply same_refl. Qed.
Lemma extends_trans s1 s2 s3 : extends s1 s2 -> extends s2 s3 -> extends s1 s3.
Proof.
  intros (W1 & F1 & U1) (W2 & F2 & U2). split; auto. split; [eapply same_trans; eauto|lia].
Qed.
Lemma extends_pipeline s s' ind ls ss : wf_heap (s_heap s) ->
  extends s s' -> pipeline (s_heap s) ind ls ss -> pipeline (s_heap s') ind ls ss.
Proof.
  intros W (_ & (_ & F) & _) C. eapply chain_frame; [exact C|].
  intros l Hl. apply F; auto. eapply chain_lt; eauto.
Qed.
Lemma same_pipeline_resort ss : same_pipeline ss (map resort ss).
Proof. split; [apply resort_all_same|apply resort_all_id]. Qed.
Lemma same_pipeline_len ss ss' : same_pipeline ss ss' -> length ss' = length ss.
Proof. intros [H _]. symmetry. eapply Forall2_length; eauto. Qed.

Lemma same_pipeline_perm ss ss' : same_pipeline ss ss' ->
  Permutation (flat_map snd ss) (flat_map snd ss').
Proof.
  intros [H _]. induction H as [|a b l l' [_ P] H IH]; simpl; auto. apply Permutation_app; auto.
Qed.
Lemma perm_filter_len {A} (f : A -> bool) l l' : Permutation l l' ->
  length (filter f l) = length (filter f l').
Proof.
  induction 1; simpl; auto.
  - destruct (f x); simpl; congruence.
  - destruct (f x), (f y); simpl; auto.
  - congruence.
Qed.
Lemma same_pipeline_tunable ps ss ss' : same_pipeline ss ss' -> tunable ps ss' = tunable ps ss.
Proof. intros H. apply perm_filter_len, Permutation_sym, same_pipeline_perm; auto. Qed.

Lemma mut_error_same ps mx ss ss' e : same_pipeline ss ss' -> mut_error ps mx ss' e -> mut_error ps mx ss e.
Proof.
  intros H. pose proof (same_pipeline_len _ _ H) as HL. unfold mut_error.
  rewrite (same_pipeline_tunable _ _ _ H), HL.
  intros [HE|[HE|[HE|[(-> & st & Hin & Hn & Hno)|(-> & old & Hin & HE)]]]]; auto.
  - right; right; right; left. split; auto. destruct H as [H _].
    clear HL. induction H as [|a b l l' [Ef _] H IH]; simpl in Hin; [tauto|].
    destruct Hin as [->|Hin].
    + exists a. rewrite Ef. simpl; auto.
    + destruct (IH Hin) as (x & ? & ? & ?). exists x. simpl; auto.
  - right; right; right; right. split; auto. exists old. split; auto.
    eapply Permutation_in; [apply Permutation_sym, same_pipeline_perm; eauto|auto].
Qed.

Definition mutant (ps : pset) (mx : option Z) (s : st) (ind : individual) (ss : list step)
    (ind' : individual) (s' : st) : Prop :=
  s_uid s <= i_id ind' < s_uid s' /\ i_parents ind' = [i_id ind] /\
  within mx ss /\
  exists m ls' ss0 ss', pipeline (s_heap s') ind' ls' ss' /\ all_new (s_heap s) ls' /\
    mutator_name m = Ok (i_origin ind') /\
    same_pipeline ss ss0 /\ Forall in_order ss0 /\ mutated ps m ss0 ss' /\ within mx ss'.

Definition mutate_error (ps : pset) (mx : option Z) (ss : list step) (e : exn) : Prop :=
  mut_error ps mx ss e \/
  (e = AttributeError /\ exists b, mx = Some b /\ (1 <= b < Z.of_nat (length ss))%Z).

Lemma within_same mx ss ss' : same_pipeline ss ss' -> within mx ss' -> within mx ss.
Proof. intros H. unfold within. rewrite (same_pipeline_len _ _ H). auto. Qed.

Lemma wp_mutate_with_log ps mx ind s ls ss :
  wf_heap (s_heap s) -> pipeline (s_heap s) ind ls ss -> pset_typed ps ->
  wp (mutate_with_log ps mx ind) s
     (fun ind' s' => extends s s' /\ mutant ps mx s ind ss ind' s')
     (fun e s' => extends s s' /\ mutate_error ps mx ss e).
Proof.
  intros W C T. unfold mutate_with_log.
  destruct (copy_as_new_ok s ind ls ss W C) as (h1 & l1 & E1 & W1 & F1 & ls1 & C1 & N1).
  eapply wp_bind_eq; [exact E1|].
  set (s1 := mkSt h1 (s_rng s) (S (s_uid s))).
  set (ind1 := mkInd l1 (s_uid s) [] ""%string).
  pose proof (same_pipeline_resort ss) as SR.
  assert (LN1 : length (map resort ss) = length ss) by (apply map_length).
  assert (EXT : forall s', keeps ls1 s1 s' -> extends s s').
  { intros s' (W' & (Hn & F') & U'). split; auto. split.
    - destruct F1 as [Hn1 F1]. split; [simpl in Hn; lia|]. intros l Hl _.
      rewrite F'; [apply F1; auto| |].
      + simpl. lia.
      + intros Hin. unfold all_new in N1. rewrite Forall_forall in N1. specialize (N1 _ Hin). lia.
    - rewrite U'. simpl. lia. }
  apply wp_bind. eapply wp_mono; [apply (wp_random_valid_mutation ps mx ind1 s1 ls1 (map resort ss) W1 C1 T)| |].
  - intros [ind' m] s' (K & I1 & I2 & I3 & ls' & ss' & P & Gr & Mu & Wi & Hc). cbn [fst snd] in *.
    pose proof (EXT _ K) as EX.
    destruct (mutator_name m) as [name|e] eqn:En.
    + apply wp_ret. split; auto. split; [|split; [reflexivity|]].
      * cbn [i_id]. rewrite I1. destruct K as (_ & _ & U'). rewrite U'. simpl. lia.
      * split.
        { destruct m; try (eapply within_same; eauto; fail). discriminate. }
        exists m, ls', (map resort ss), ss'. split; [exact P|]. split.
        { apply Forall_forall. intros l Hl. destruct (Gr _ Hl) as [Hl'|Hl'].
          - unfold all_new in N1. rewrite Forall_forall in N1. auto.
          - destruct F1 as [Hn1 _]. simpl in Hl'. lia. }
        split; [exact En|]. split; [exact SR|]. split.
        { apply Forall_map, Forall_forall. intros; apply resort_in_order. }
        split; auto.
    + unfold wp, mraise. split; auto. right.
      destruct m; try discriminate. simpl in En. inversion En; subst. split; auto.
      destruct Hc as (b & -> & Hb & ->). rewrite LN1 in *. exists b. split; auto.
      destruct Mu as (rm & Ess & Hrm & Hne). split; [|lia].
      apply (f_equal (@length _)) in Ess. rewrite app_length, Hrm, LN1 in Ess.
      destruct ss'; [congruence|]. simpl in Ess. lia.
  - intros e s' (K & _ & He). split; [apply EXT; auto|]. left. eapply mut_error_same; eauto.
Qed.

Definition offspring2 (mx : option Z) (s : st) (ind1 ind2 : individual) (ss1 ss2 : list step)
    (ind' : individual) (s' : st) : Prop :=
  s_uid s <= i_id ind' < s_uid s' /\ i_parents ind' = [i_id ind1; i_id ind2] /\
  i_origin ind' = "cx"%string /\ within mx ss1 /\ within mx ss2 /\
  exists ls' ss10 ss20 ss' other, pipeline (s_heap s') ind' ls' ss' /\ all_new (s_heap s) ls' /\
    same_pipeline ss1 ss10 /\ Forall in_order ss10 /\
    same_pipeline ss2 ss20 /\ Forall in_order ss20 /\ crossed ss10 ss20 ss' other.

Definition cross_error (mx : option Z) (ss1 ss2 : list step) (e : exn) : Prop :=
  e = ValueError /\
  (~ within mx ss1 \/ ~ within mx ss2 \/
   (~ share_different_value ss1 ss2 /\ ~ (2 <= length ss1 /\ 2 <= length ss2))).

Lemma shared_nil_iff ss1 ss2 :
  shared_terminals MDifferent (flat_map snd ss1) (flat_map snd ss2) = [] <-> ~ share_different_value ss1 ss2.
Proof.
  split.
  - intros E (t1 & t2 & H1 & H2 & Hi & Hv).
    apply In_nth_error in H1 as (i & H1). apply In_nth_error in H2 as (j & H2).
    assert (HI : In ((i, t1), (j, t2)) (shared_terminals MDifferent (flat_map snd ss1) (flat_map snd ss2))).
    { apply shared_in. split; auto. split; auto. unfold match_ok. rewrite Hi, String.eqb_refl. simpl.
      apply negb_true_iff, Z.eqb_neq; auto. }
    rewrite E in HI. auto.
  - intros H. destruct (shared_terminals _ _ _) as [|[[i t1] [j t2]] rest] eqn:E; auto.
    exfalso. apply H.
    assert (HI : In ((i, t1), (j, t2)) (shared_terminals MDifferent (flat_map snd ss1) (flat_map snd ss2)))
      by (rewrite E; simpl; auto).
    apply shared_in in HI as (H1 & H2 & H3). unfold match_ok in H3. apply andb_true_iff in H3 as [H3 H4].
    apply String.eqb_eq in H3. apply negb_true_iff, Z.eqb_neq in H4.
    exists t1, t2. split; [eapply nth_error_In; eauto|]. split; [eapply nth_error_In; eauto|auto].
Qed.

Lemma exceeds_within mx ss : exceeds mx (length ss) = true <-> ~ within mx ss.
Proof.
  destruct mx as [b|]; simpl.
  - rewrite Z.ltb_lt. lia.
  - split; [discriminate|tauto].
Qed.
Lemma exceeds_within_f mx ss : exceeds mx (length ss) = false <-> within mx ss.
Proof.
  destruct mx as [b|]; simpl.
  - rewrite Z.ltb_ge. lia.
  - tauto.
Qed.

Lemma share_same ss1 ss2 ss1' ss2' : same_pipeline ss1 ss1' -> same_pipeline ss2 ss2' ->
  share_different_value ss1 ss2 -> share_different_value ss1' ss2'.
Proof.
  intros H1 H2 (t1 & t2 & I1 & I2 & R). exists t1, t2. split; [|split; [|exact R]].
  - eapply Permutation_in; [apply same_pipeline_perm; eauto|auto].
  - eapply Permutation_in; [apply same_pipeline_perm; eauto|auto].
Qed.

Lemma wp_mate_with_log mx ind1 ind2 s ls1 ss1 ls2 ss2 :
  wf_heap (s_heap s) -> pipeline (s_heap s) ind1 ls1 ss1 -> pipeline (s_heap s) ind2 ls2 ss2 ->
  wp (mate_with_log mx ind1 ind2) s
     (fun ind' s' => extends s s' /\ offspring2 mx s ind1 ind2 ss1 ss2 ind' s')
     (fun e s' => extends s s' /\ cross_error mx ss1 ss2 e).
Proof.
  intros W C1 C2. unfold mate_with_log.
  destruct (copy_as_new_ok s ind1 ls1 ss1 W C1) as (h1 & l1 & E1 & W1 & F1 & n1 & P1 & N1).
  eapply wp_bind_eq; [exact E1|]. set (s1 := mkSt h1 (s_rng s) (S (s_uid s))).
  assert (X1 : extends s s1) by (split; [exact W1|split; [exact F1|simpl; lia]]).
  pose proof (extends_pipeline _ _ _ _ _ W X1 C2) as C2'.
  destruct (copy_as_new_ok s1 ind2 ls2 ss2 W1 C2') as (h2 & l2 & E2 & W2 & F2 & n2 & P2 & N2).
  eapply wp_bind_eq; [exact E2|]. set (s2 := mkSt h2 (s_rng s1) (S (s_uid s1))).
  assert (X2 : extends s1 s2) by (split; [exact W2|split; [exact F2|simpl; lia]]).
  set (i1 := mkInd l1 (s_uid s) [] ""%string) in *. set (i2 := mkInd l2 (s_uid s1) [] ""%string) in *.
  pose proof (extends_pipeline s1 s2 i1 _ _ W1 X2 P1) as P1'.
  assert (D : disjoint n1 n2).
  { intros x Hx Hx2. unfold all_new in N2. rewrite Forall_forall in N2. specialize (N2 _ Hx2).
    pose proof (chain_lt _ _ _ _ W1 P1 _ Hx). simpl in N2. lia. }
  assert (NEW : forall l, In l (n1 ++ n2) -> h_next (s_heap s) <= l).
  { intros l Hl. apply in_app_or in Hl. unfold all_new in *. rewrite Forall_forall in *.
    destruct Hl as [Hl|Hl]; [apply N1; auto|]. specialize (N2 _ Hl). destruct F1. simpl in N2. lia. }
  pose proof (same_pipeline_resort ss1) as SR1. pose proof (same_pipeline_resort ss2) as SR2.
  assert (IO : forall l, Forall in_order (map resort l)).
  { intros l. apply Forall_map, Forall_forall. intros; apply resort_in_order. }
  pose proof (extends_trans _ _ _ X1 X2) as X12.
  apply wp_bind. eapply wp_mono; [apply (wp_random_crossover i1 i2 mx s2 n1 _ n2 _ W2 P1' P2 D)| |].
  - intros r s' ((W' & (Hn & F') & U') & Xf1 & Xf2 & ls1' & ls2' & ss1' & ss2' & Q1 & Q2 & Cr & In1 & _).
    rewrite map_length in Xf1, Xf2.
    apply exceeds_within_f in Xf1, Xf2.
    apply wp_ret. split; [|split; [|split; [|split; [|split; [|split]]]]]; auto.
    + split; auto. split.
      * destruct X12 as (_ & [Hn2 F12] & _). split; [lia|]. intros l Hl _.
        rewrite F'; [apply F12; auto|lia|]. intros Hin. specialize (NEW _ Hin). lia.
      * rewrite U'. simpl. lia.
    + cbn [i_id]. simpl. rewrite U'. simpl. lia.
    + exists ls1', (map resort ss1), (map resort ss2), ss1', ss2'. split; [exact Q1|]. split.
      * apply Forall_forall. intros l Hl. apply NEW, In1; auto.
      * auto 10.
  - intros e s' (-> & -> & He). split; [exact X12|]. split; auto.
    rewrite !map_length in He.
    destruct He as [He|[He|[He1 He2]]]; [left; apply exceeds_within; auto|right; left; apply exceeds_within; auto|].
    right; right. split; auto. apply shared_nil_iff in He1. intros HS. apply He1. eapply share_same; eauto.
Qed.

(** * try_until_new *)
Lemma existsb_in s done : existsb (String.eqb s) done = true <-> In s done.
Proof.
  rewrite existsb_exists. split.
  - intros (x & H & E). apply String.eqb_eq in E. subst; auto.
  - intros H. exists s. split; auto. apply String.eqb_refl.
Qed.

Lemma try_sound done op : forall n last s ind s',
  try_until_new n done op last s = (Ok ind, s') ->
  (n = 0 /\ last = Some ind /\ s' = s) \/
  exists prev str, attempts op s (prev ++ [(ind, str)]) s' /\ length prev < n /\
    Forall (fun p => In (snd p) done) prev /\ (~ In str done \/ length prev + 1 = n).
Proof.
  induction n as [|n IH]; intros last s ind s' E; simpl in E.
  - left. destruct last; inversion E; auto.
  - right. unfold mbind in E. destruct (op s) as [[i|e] s1] eqn:Eo; [|discriminate].
    unfold pipeline_str in E. destruct (str_dref _ _ _) as [str|e] eqn:Es; [|discriminate].
    assert (PS : pipeline_str i s1 = (Ok str, s1)) by (unfold pipeline_str; rewrite Es; auto).
    destruct (existsb (String.eqb str) done) eqn:Ex.
    + apply existsb_in in Ex. apply IH in E as [(-> & E & ->)|(prev & str' & A & Hl & Hf & Hc)].
      * inversion E; subst i. exists [], str. simpl. split; [repeat (econstructor; eauto)|].
        split; [lia|]. split; auto.
      * exists ((i, str) :: prev), str'. simpl. split; [econstructor; eauto|]. split; [lia|].
        split; [constructor; auto|]. destruct Hc; [auto|right; lia].
    + inversion E; subst. exists [], str. simpl. split; [repeat (econstructor; eauto)|].
      split; [lia|]. split; [constructor|]. left. intros H. apply existsb_in in H. congruence.
Qed.

Lemma try_fails done op : forall n last s e s',
  try_until_new n done op last s = (Err e, s') ->
  (n = 0 /\ last = None /\ e = UnboundLocalError /\ s' = s) \/
  exists prev s1, attempts op s prev s1 /\ length prev < n /\ Forall (fun p => In (snd p) done) prev /\
    (op s1 = (Err e, s') \/ exists i, op s1 = (Ok i, s') /\ pipeline_str i s' = (Err e, s')).
Proof.
  induction n as [|n IH]; intros last s e s' E; simpl in E.
  - left. destruct last; inversion E; auto.
  - right. unfold mbind in E. destruct (op s) as [[i|e0] s1] eqn:Eo.
    2: { inversion E; subst. exists [], s. simpl. split; [constructor|]. split; [lia|]. split; [constructor|auto]. }
    unfold pipeline_str in E. destruct (str_dref _ _ _) as [str|e0] eqn:Es.
    2: { inversion E; subst. exists [], s. simpl. split; [constructor|]. split; [lia|]. split; [constructor|].
         right. exists i. split; auto. unfold pipeline_str. rewrite Es; auto. }
    assert (PS : pipeline_str i s1 = (Ok str, s1)) by (unfold pipeline_str; rewrite Es; auto).
    destruct (existsb (String.eqb str) done) eqn:Ex; [|discriminate].
    apply existsb_in in Ex. apply IH in E as [(-> & E & _)|(prev & s2 & A & Hl & Hf & Hc)]; [discriminate|].
    exists ((i, str) :: prev), s2. simpl. split; [econstructor; eauto|]. split; [lia|].
    split; [constructor; auto|auto].
Qed.

Lemma wp_try done op s0 (P : individual -> st -> Prop) (E : exn -> Prop) :
  (forall s, extends s0 s ->
     wp op s (fun ind s' => extends s s' /\ P ind s' /\
                            exists str, pipeline_str ind s' = (Ok str, s'))
             (fun e s' => extends s s' /\ E e)) ->
  forall n last s, extends s0 s ->
  match last with None => 0 < n | Some i => P i s end ->
  wp (try_until_new n done op last) s
     (fun ind s' => extends s0 s' /\ P ind s') (fun e s' => extends s0 s' /\ E e).
Proof.
  intros Hop. induction n as [|n IH]; intros last s X HL; simpl.
  - destruct last; [|lia]. apply wp_ret. auto.
  - apply wp_bind. eapply wp_mono; [apply Hop; auto| |].
    + intros i s1 (X1 & HP & str & Es). eapply wp_bind_eq; [exact Es|].
      pose proof (extends_trans _ _ _ X X1).
      destruct (existsb _ _); [apply IH; auto|apply wp_ret; auto].
    + intros e s1 (X1 & HE). split; auto. eapply extends_trans; eauto.
Qed.

Lemma all_new_ext s0 s ls : extends s0 s -> all_new (s_heap s) ls -> all_new (s_heap s0) ls.
Proof.
  intros (_ & (Hn & _) & _) H. unfold all_new in *. eapply Forall_impl; [|exact H]. simpl. intros; lia.
Qed.

Lemma wp_op_mutate n done ps mx ind s ls ss :
  wf_heap (s_heap s) -> pipeline (s_heap s) ind ls ss -> pset_typed ps -> 0 < n ->
  wp (op_mutate n done ps mx ind) s
     (fun ind' s' => extends s s' /\ mutant ps mx s ind ss ind' s')
     (fun e s' => extends s s' /\ mutate_error ps mx ss e).
Proof.
  intros W C T Hn. unfold op_mutate. apply wp_try; auto using extends_refl.
  intros s1 X1. pose proof (extends_pipeline _ _ _ _ _ W X1 C) as C1. destruct X1 as (W1 & F1 & U1).
  eapply wp_mono; [apply (wp_mutate_with_log ps mx ind s1 ls ss W1 C1 T)| |].
  - intros ind' s' (X & (I1 & I2 & I3 & m & ls' & ss0 & ss' & P & N & R)). split; auto. split.
    + split; [lia|]. split; auto. split; auto. exists m, ls', ss0, ss'. split; auto.
      split; [|auto]. eapply (all_new_ext s s1); [split; [exact W1|split; auto]|auto].
    + exists (text ss'). destruct X. eapply pipeline_str_ok; eauto.
  - auto.
Qed.

Lemma wp_op_mate n done mx ind1 ind2 s ls1 ss1 ls2 ss2 :
  wf_heap (s_heap s) -> pipeline (s_heap s) ind1 ls1 ss1 -> pipeline (s_heap s) ind2 ls2 ss2 -> 0 < n ->
  wp (op_mate n done mx ind1 ind2) s
     (fun ind' s' => extends s s' /\ offspring2 mx s ind1 ind2 ss1 ss2 ind' s')
     (fun e s' => extends s s' /\ cross_error mx ss1 ss2 e).
Proof.
  intros W C1 C2 Hn. unfold op_mate. apply wp_try; auto using extends_refl.
  intros s1 X1. pose proof (extends_pipeline _ _ _ _ _ W X1 C1) as C1'.
  pose proof (extends_pipeline _ _ _ _ _ W X1 C2) as C2'. destruct X1 as (W1 & F1 & U1).
  eapply wp_mono; [apply (wp_mate_with_log mx ind1 ind2 s1 ls1 ss1 ls2 ss2 W1 C1' C2')| |].
  - intros ind' s' (X & (I1 & I2 & I3 & I4 & I5 & ls' & a & b & ss' & o & P & N & R)).
    split; auto. split.
    + split; [lia|]. split; auto. split; auto. split; auto. split; auto.
      exists ls', a, b, ss', o. split; auto. split; [|exact R].
      eapply (all_new_ext s s1); [split; [exact W1|split; auto]|auto].
    + exists (text ss'). destruct X. eapply pipeline_str_ok; eauto.
  - auto.
Qed.

Definition creation_error (ps : pset) (mx : option Z) (e : exn) : Prop :=
  (e = ValueError /\ (max_start_length mx < 1)%Z) \/
  (e = IndexError /\ (no_node ps PREDICTION None \/
                      ((1 < max_start_length mx)%Z /\ no_node ps DATA None))).

Lemma wp_op_individual ps mx s :
  wf_heap (s_heap s) ->
  wp (op_individual ps mx) s
     (fun ind s' => extends s s' /\ s_uid s <= i_id ind < s_uid s' /\ i_parents ind = [] /\
        i_origin ind = "new"%string /\
        exists ls ss, pipeline (s_heap s') ind ls ss /\ all_new (s_heap s) ls /\
          pipeline_ok ps ss /\ Forall in_order ss /\
          (1 <= Z.of_nat (length ss) <= max_start_length mx)%Z)
     (fun e s' => extends s s' /\ creation_error ps mx e).
Proof.
  intros W. unfold op_individual. apply wp_bind.
  eapply wp_mono; [apply (wp_create ps 1 (max_start_length mx) s W)| |].
  - intros l s' ((W' & F' & U') & ls & ss & C & N & Hok & O & Hle & Hlen).
    unfold mfresh_id, mbind, mret, wp. simpl.
    split; [split; [exact W'|split; [exact F'|simpl; lia]]|]. split; [lia|]. split; auto. split; auto.
    exists ls, ss. split; auto. split; auto. split; auto. split; auto. lia.
  - intros e s' ((W' & F' & U') & He). split; [split; [auto|split; [auto|lia]]|].
    unfold creation_error. destruct He as [(-> & H & _)|(-> & H & He)]; auto.
Qed.

(** in_order is preserved by the operators *)
Lemma value_changed_in_order ps i old new ss ss' :
  pset_typed ps -> pset_named ps -> pipeline_ok ps ss ->
  value_changed_at i old new ss ss' -> In new (terms_of ps (t_ident old)) ->
  Forall in_order ss -> Forall in_order ss'.
Proof.
  intros T N Hok V Hin O. pose proof (value_changed_in _ _ _ _ _ _ T Hok V) as Hold.
  destruct V as (pre & p & a & b & post & -> & -> & _).
  assert (HH : exists k, step_ok ps k (p, a ++ old :: b)).
  { destruct pre as [|m pre]; simpl in *; [destruct Hok; eauto|].
    destruct Hok as [_ H]. apply Forall_app in H as [_ H]. inversion H; eauto. }
  destruct HH as (k & Hk). rewrite Forall_app in *. destruct O as [O1 O2]. inversion O2; subst.
  split; auto. constructor; auto. eapply in_order_replace; eauto.
Qed.

Lemma mutated_in_order ps m ss ss' :
  pset_typed ps -> pset_named ps -> pipeline_ok ps ss -> mutated ps m ss ss' ->
  Forall in_order ss -> Forall in_order ss'.
Proof.
  intros T N Hok. destruct m; simpl.
  - intros (pre & old & new & post & post' & -> & -> & _ & He & _ & Hn & _) O.
    apply Forall_app in O as [O1 O2]. inversion O2; subst. apply Forall_app. split; auto.
    constructor; auto. rewrite He; auto.
  - intros (pre & new & post & -> & _ & _ & Hn & ->) O. rewrite Forall_app in *. intuition.
  - intros (k & _ & rm & -> & _) O. apply Forall_app in O. tauto.
  - intros (i & old & new & V & Hin & _). eapply value_changed_in_order; eauto.
  - intros (rm & -> & _) O. apply Forall_app in O. tauto.
Qed.

Lemma crossed_in_order ps ss1 ss2 ss1' ss2' :
  pset_typed ps -> pset_named ps -> pipeline_ok ps ss1 -> pipeline_ok ps ss2 ->
  crossed ss1 ss2 ss1' ss2' -> Forall in_order ss1 -> Forall in_order ss2 -> Forall in_order ss1'.
Proof.
  intros T N H1 H2 [(ha & ta & hb & tb & -> & -> & Na & Nb & _ & _ & -> & ->)|(i & j & t1 & t2 & Hid & _ & V1 & V2)] O1 O2.
  - rewrite Forall_app in *. tauto.
  - apply (value_changed_in_order ps i t1 t2 _ _ T N H1 V1); auto. rewrite Hid.
    eapply value_changed_in; [exact T|exact H2|exact V2].
Qed.

Lemma same_pipeline_ok ps ss ss' : same_pipeline ss ss' -> pipeline_ok ps ss -> pipeline_ok ps ss'.
Proof. intros [H _]. apply pipeline_ok_same; auto. Qed.

Lemma crossed_bound mx ss1 ss2 ss1' ss2' : crossed ss1 ss2 ss1' ss2' ->
  within (Some mx) ss1 -> within (Some mx) ss2 -> ss2' <> [] ->
  (Z.of_nat (length ss1') <= 2 * mx - 1)%Z.
Proof.
  intros H H1 H2 Hne. apply crossed_lengths in H. unfold within in *.
  destruct ss2'; [congruence|]. simpl in H. lia.
Qed.

From Verif Require Import Base Gp_Model Gp_Spec Gp_Proofs.
Require Import Permutation Sorted.
Open Scope nat_scope.

(** * create_random_expression *)
Lemma wp_extend ps : forall n s d a l ss,
  wf_heap (s_heap s) -> chain (s_heap s) d (a ++ [l]) ss ->
  wp (extend_chain n ps l) s
     (fun _ s' => keeps [l] s s' /\
        exists ls' ss', chain (s_heap s') d (a ++ l :: ls') (ss ++ ss') /\
          length ss' = n /\ Forall (step_ok ps DATA) ss' /\ Forall in_order ss' /\
          all_new (s_heap s) ls')
     (fun e s' => e = IndexError /\ keeps [l] s s' /\ no_node ps DATA None).
Proof.
  induction n as [|n IH]; intros s d a l ss W C; simpl.
  - apply wp_ret. split; [apply keeps_refl; auto|]. exists [], []. rewrite app_nil_r.
    repeat split; auto. constructor.
  - apply wp_bind. apply wp_random_node.
    + intros p ts r Hp Hok _.
      set (c0 := mkCell p DData (py_sorted term_leb ts)).
      set (h1 := alloc (s_heap s) c0).
      set (new := h_next (s_heap s)).
      assert (W1 : wf_heap h1) by (apply wf_alloc; auto).
      assert (Hls : forall x, In x (a ++ [l]) -> x < new) by (apply (chain_lt _ _ _ _ W C)).
      destruct (chain_at _ _ _ _ _ _ C) as (sa & c & sb & Ess & S & G & C' & N1 & N2 & L).
      assert (Hl : l < new) by (apply Hls; rewrite in_app_iff; simpl; auto).
      assert (G1 : h_get h1 l = Some c) by (unfold h1; rewrite alloc_other; auto; fold new; lia).
      eapply wp_bind_eq; [apply set_data_ok; exact G1|]. cbn [s_heap s_rng s_uid].
      set (h2 := h_set h1 l (mkCell (c_prim c) (DRef new) (c_terms c))).
      assert (W2 : wf_heap h2) by (eapply wf_h_set; eauto).
      inversion C' as [Hd Hl1 Hs1|]; subst sb.
      assert (C2 : chain h2 d ((a ++ [l]) ++ [new]) (ss ++ [(p, py_sorted term_leb ts)])).
      { rewrite Ess, <- !app_assoc. simpl.
        eapply (chain_rebuild (s_heap s) h2 d a sa l (mkCell (c_prim c) (DRef new) (c_terms c))
                 [new] [(p, py_sorted term_leb ts)] S).
        - intros x Hx. assert (x < new) by (apply Hls; rewrite in_app_iff; auto).
          unfold h2. rewrite h_set_other by (intros ->; contradiction).
          apply alloc_other. fold new; lia.
        - apply h_set_same.
        - simpl. change (p, py_sorted term_leb ts) with (c_prim c0, c_terms c0).
          econstructor; [|constructor]. unfold h2. rewrite h_set_other by lia. apply alloc_same. }
      assert (K2 : keeps [l] s (mkSt h2 r (s_uid s))).
      { split; [exact W2|]. split; [|reflexivity]. cbn [s_heap]. split; [simpl; lia|].
        intros x Hx Hn. unfold h2. rewrite h_set_other by (intros ->; apply Hn; simpl; auto).
        apply alloc_other. lia. }
      eapply wp_mono; [apply (IH (mkSt h2 r (s_uid s)) d (a ++ [l]) new _ W2 C2)| |].
      * intros _ s' ((W' & F' & U') & ls' & ss' & C3 & Hlen & Hf & Ho & Hn).
        destruct K2 as (_ & F2 & _). cbn [s_heap s_uid] in *.
        split.
        -- split; [exact W'|]. split; [|exact U'].
           destruct F2 as [Na Fa], F' as [Nb Fb]. split; [lia|].
           intros x Hx Hni. rewrite Fb; auto. lia. simpl. fold new in Hx. lia.
        -- exists (new :: ls'), ((p, py_sorted term_leb ts) :: ss').
           rewrite <- !app_assoc in C3. simpl in C3. split; [exact C3|].
           split; [simpl; lia|]. split; [constructor; auto|].
           split; [constructor; auto; apply py_sorted_in_order|].
           constructor; [unfold new; lia|]. eapply Forall_impl; [|exact Hn].
           simpl. intros x Hx. lia.
      * intros e s' (-> & (W' & F' & U') & HE). split; auto. split; auto.
        destruct K2 as (_ & F2 & _). cbn [s_heap s_uid] in *.
        split; [exact W'|]. split; [|exact U'].
        destruct F2 as [Na Fa], F' as [Nb Fb]. split; [lia|].
        intros x Hx Hni. rewrite Fb; auto. lia. simpl. fold new in Hx. lia.
    + intros HE r. split; auto. split; auto. split; [exact W|]. split; [apply same_refl|reflexivity].
Qed.

Lemma wp_create ps lo hi s :
  wf_heap (s_heap s) ->
  wp (create_random_expression ps lo hi) s
     (fun l s' => keeps [] s s' /\
        exists ls ss, chain (s_heap s') (DRef l) ls ss /\ all_new (s_heap s) ls /\
          pipeline_ok ps ss /\ Forall in_order ss /\ (lo <= hi)%Z /\
          (lo <= Z.of_nat (length ss) <= Z.max 1 hi)%Z)
     (fun e s' => keeps [] s s' /\
        ((e = ValueError /\ (hi < lo)%Z /\ s' = s) \/
         (e = IndexError /\ (lo <= hi)%Z /\
          (no_node ps PREDICTION None \/ ((1 < hi)%Z /\ no_node ps DATA None))))).
Proof.
  intros W. unfold create_random_expression. apply wp_bind. apply wp_randint.
  - intros k r Hk. apply wp_bind. apply wp_random_node.
    + intros p ts r' Hp Hok _. cbn [s_heap s_uid].
      set (c0 := mkCell p DData (py_sorted term_leb ts)).
      set (h1 := alloc (s_heap s) c0).
      set (new := h_next (s_heap s)).
      assert (W1 : wf_heap h1) by (apply wf_alloc; auto).
      assert (C1 : chain h1 (DRef new) ([] ++ [new]) [(p, py_sorted term_leb ts)]).
      { simpl. change (p, py_sorted term_leb ts) with (c_prim c0, c_terms c0).
        econstructor; [apply alloc_same|constructor]. }
      apply wp_bind.
      destruct (Z_le_gt_dec k 1) as [Hk1|Hk1].
      * replace (Z.to_nat (k - 1)) with 0 by lia. simpl. apply wp_ret. apply wp_ret.
        split; [split; [exact W1|split; [apply same_alloc|reflexivity]]|].
        exists [new], [(p, py_sorted term_leb ts)]. split; [exact C1|].
        split; [constructor; auto|]. split; [split; auto|].
        split; [constructor; auto; apply py_sorted_in_order|]. simpl. lia.
      * eapply wp_mono; [apply (wp_extend ps (Z.to_nat (k - 1)) (mkSt h1 r' (s_uid s)) _ [] new _ W1 C1)| |].
        -- intros _ s' ((W' & F' & U') & ls' & ss' & C3 & Hlen & Hf & Ho & Hn).
           apply wp_ret. simpl app in C3. cbn [s_heap s_uid] in *. split.
           ++ split; [exact W'|]. split; [|exact U'].
              destruct F' as [Nb Fb]. simpl in Nb. split; [lia|].
              intros x Hx Hni. rewrite Fb; [apply alloc_other; lia|simpl; lia|simpl; fold new in Hx; lia].
           ++ exists (new :: ls'), ((p, py_sorted term_leb ts) :: ss'). split; [exact C3|].
              split; [constructor; [unfold new; lia|]; eapply Forall_impl; [|exact Hn]; simpl; intros; lia|].
              split; [split; auto|]. split; [constructor; auto; apply py_sorted_in_order|].
              simpl length. lia.
        -- intros e s' (-> & (W' & F' & U') & HE). split.
           ++ split; [exact W'|]. split; [|exact U']. cbn [s_heap] in *.
              destruct F' as [Nb Fb]. simpl in Nb. split; [lia|].
              intros x Hx Hni. rewrite Fb; [apply alloc_other; lia|simpl; lia|simpl; fold new in Hx; lia].
           ++ right. split; auto. split; [lia|]. right. split; [lia|auto].
    + intros HE r'. split; [split; [exact W|split; [apply same_refl|reflexivity]]|].
      right. split; auto. split; [lia|auto].
  - intros Hlt. split; [apply keeps_refl; auto|]. left. auto.
Qed.

(** * crossover_primitives *)
Lemma in_removelast_split {A} (l : list A) x : In x (removelast l) ->
  exists a b, l = a ++ x :: b /\ b <> [].
Proof.
  intros H. apply in_split in H as (a & b & E).
  destruct l as [|y l] using rev_ind; [destruct a; discriminate|].
  rewrite removelast_last in E. subst l. exists a, (b ++ [y]).
  rewrite <- app_assoc. split; auto. destruct b; discriminate.
Qed.

Lemma removelast_nil {A} (l : list A) : removelast l = [] <-> length l <= 1.
Proof.
  destruct l as [|x [|y l]]; simpl; split; intros; auto; try lia; discriminate.
Qed.

Lemma wp_crossover_primitives ind1 ind2 s ls1 ss1 ls2 ss2 :
  wf_heap (s_heap s) -> pipeline (s_heap s) ind1 ls1 ss1 -> pipeline (s_heap s) ind2 ls2 ss2 ->
  disjoint ls1 ls2 ->
  wp (crossover_primitives ind1 ind2) s
     (fun r s' => r = (ind1, ind2) /\ keeps (ls1 ++ ls2) s s' /\
        exists ls1' ls2' ss1' ss2',
          pipeline (s_heap s') ind1 ls1' ss1' /\ pipeline (s_heap s') ind2 ls2' ss2' /\
          tails_swapped ss1 ss2 ss1' ss2' /\
          incl ls1' (ls1 ++ ls2) /\ incl ls2' (ls1 ++ ls2) /\ disjoint ls1' ls2')
     (fun e s' => e = IndexError /\ s_heap s' = s_heap s /\ s_uid s' = s_uid s /\
                  (length ss1 <= 1 \/ length ss2 <= 1)).
Proof.
  intros W C1 C2 D. unfold crossover_primitives.
  eapply wp_bind_eq; [eapply primitives_ok; eauto|].
  apply wp_bind. apply wp_choice.
  2: { intros Hn. repeat split; auto. left. apply removelast_nil in Hn.
       rewrite <- (chain_len _ _ _ _ C1). auto. }
  intros p1 r1 H1. eapply wp_bind_eq; [apply (primitives_ok ind2 (mkSt (s_heap s) r1 (s_uid s)) _ _ W C2)|].
  apply wp_bind. apply wp_choice.
  2: { intros Hn. repeat split; auto. right. apply removelast_nil in Hn.
       rewrite <- (chain_len _ _ _ _ C2). auto. }
  intros p2 r2 H2. cbn [s_heap s_uid].
  apply in_removelast_split in H1 as (a1 & b1 & -> & Hb1).
  apply in_removelast_split in H2 as (a2 & b2 & -> & Hb2).
  destruct (chain_at _ _ _ _ _ _ C1) as (sa1 & c1 & sb1 & E1 & S1 & G1 & B1 & N1 & M1 & L1).
  destruct (chain_at _ _ _ _ _ _ C2) as (sa2 & c2 & sb2 & E2 & S2 & G2 & B2 & N2 & M2 & L2).
  assert (D1 : forall x, In x a1 \/ x = p1 \/ In x b1 -> ~ (In x a2 \/ x = p2 \/ In x b2)).
  { intros x Hx Hy. apply (D x); rewrite in_app_iff; simpl; intuition. }
  assert (P12 : p1 <> p2) by (intros ->; apply (D1 p2); auto).
  eapply wp_bind_eq; [apply mread_ok; exact G1|].
  eapply wp_bind_eq; [apply mread_ok; exact G2|].
  eapply wp_bind_eq; [apply set_data_ok; exact G1|]. cbn [s_heap s_rng s_uid].
  set (h1 := h_set (s_heap s) p1 (mkCell (c_prim c1) (c_data c2) (c_terms c1))).
  assert (G2' : h_get h1 p2 = Some c2) by (unfold h1; rewrite h_set_other; auto).
  eapply wp_bind_eq; [apply set_data_ok; exact G2'|]. cbn [s_heap s_rng s_uid].
  set (h2 := h_set h1 p2 (mkCell (c_prim c2) (c_data c1) (c_terms c2))).
  assert (W1 : wf_heap h1) by (eapply wf_h_set; eauto).
  assert (W2 : wf_heap h2) by (eapply wf_h_set; eauto).
  assert (F2 : forall x, x <> p1 -> x <> p2 -> h_get h2 x = h_get (s_heap s) x).
  { intros x X1 X2. unfold h2, h1. rewrite !h_set_other; auto. }
  apply wp_ret. split; auto. split.
  { split; [exact W2|]. split; [|reflexivity]. cbn [s_heap]. split; [simpl; lia|].
    intros x Hx Hn. apply F2; intros ->; apply Hn; rewrite !in_app_iff; simpl; auto 10. }
  exists (a1 ++ p1 :: b2), (a2 ++ p2 :: b1),
    (sa1 ++ (c_prim c1, c_terms c1) :: sb2), (sa2 ++ (c_prim c2, c_terms c2) :: sb1).
  assert (Nb1 : sb1 <> []).
  { intros ->. apply Hb1. destruct b1; auto. apply chain_len in B1. discriminate. }
  assert (Nb2 : sb2 <> []).
  { intros ->. apply Hb2. destruct b2; auto. apply chain_len in B2. discriminate. }
  split; [|split; [|split; [|split; [|split]]]].
  - cbn [s_heap]. unfold pipeline.
    eapply (chain_rebuild (s_heap s) h2 _ a1 sa1 p1 (mkCell (c_prim c1) (c_data c2) (c_terms c1)) b2 sb2 S1).
    + intros x Hx. apply F2; intros ->; [contradiction|]. apply (D1 p2); auto.
    + unfold h2. rewrite h_set_other by auto. apply h_set_same.
    + simpl. eapply chain_frame; [exact B2|]. intros x Hx.
      apply F2; intros ->; [|contradiction]. apply (D1 p1); auto.
  - cbn [s_heap]. unfold pipeline.
    eapply (chain_rebuild (s_heap s) h2 _ a2 sa2 p2 (mkCell (c_prim c2) (c_data c1) (c_terms c2)) b1 sb1 S2).
    + intros x Hx. apply F2; intros ->; [|contradiction]. apply (D1 p1); auto.
    + apply h_set_same.
    + simpl. eapply chain_frame; [exact B1|]. intros x Hx.
      apply F2; intros ->; [contradiction|]. apply (D1 p2); auto.
  - exists (sa1 ++ [(c_prim c1, c_terms c1)]), sb1, (sa2 ++ [(c_prim c2, c_terms c2)]), sb2.
    rewrite <- !app_assoc. simpl.
    split; [exact E1|]. split; [exact E2|].
    split; [intros E; apply app_eq_nil in E as [_ E]; discriminate|].
    split; [intros E; apply app_eq_nil in E as [_ E]; discriminate|]. auto.
  - intros x. rewrite !in_app_iff. simpl. intuition.
  - intros x. rewrite !in_app_iff. simpl. intuition.
  - pose proof (chain_nodup _ _ _ _ C1) as ND1. pose proof (chain_nodup _ _ _ _ C2) as ND2.
    intros x. rewrite !in_app_iff. simpl. intros Hx Hy.
    assert (Nd1 : In x a1 \/ p1 = x -> ~ In x b1).
    { intros Ha Hb. rewrite <- (app_nil_l b1), app_comm_cons, app_assoc in ND1.
      assert (In x (a1 ++ [p1])) by (rewrite in_app_iff; simpl; tauto).
      revert ND1 H Hb. clear. intros ND1 H Hb.
      replace (a1 ++ p1 :: b1) with ((a1 ++ [p1]) ++ b1) in ND1 by (rewrite <- app_assoc; reflexivity).
      induction (a1 ++ [p1]); simpl in *; [tauto|].
      inversion ND1; subst. destruct H as [->|?]; auto. apply H2. rewrite in_app_iff; auto. }
    assert (Nd2 : In x a2 \/ p2 = x -> ~ In x b2).
    { intros Ha Hb.
      assert (In x (a2 ++ [p2])) by (rewrite in_app_iff; simpl; tauto).
      revert ND2 H Hb. clear. intros ND1 H Hb.
      replace (a2 ++ p2 :: b2) with ((a2 ++ [p2]) ++ b2) in ND1 by (rewrite <- app_assoc; reflexivity).
      induction (a2 ++ [p2]); simpl in *; [tauto|].
      inversion ND1; subst. destruct H as [->|?]; auto. apply H2. rewrite in_app_iff; auto. }
    specialize (D1 x). intuition (subst; auto).
Qed.

(** * crossover_terminals *)
Lemma shared_in m ts1 ts2 i t1 j t2 :
  In ((i, t1), (j, t2)) (shared_terminals m ts1 ts2) <->
  nth_error ts1 i = Some t1 /\ nth_error ts2 j = Some t2 /\ match_ok m t1 t2 = true.
Proof.
  unfold shared_terminals. rewrite in_flat_map. split.
  - intros ([i' t1'] & H1 & H2). apply in_map_iff in H2 as ([j' t2'] & E & H2).
    inversion E; subst. apply filter_In in H2 as [H2 H3]. simpl in H3.
    apply enumerate_nth in H1, H2. auto.
  - intros (H1 & H2 & H3). exists (i, t1). split; [apply enumerate_nth; auto|].
    apply in_map_iff. exists (j, t2). split; auto. apply filter_In. split; auto.
    apply enumerate_nth; auto.
Qed.

Lemma wp_crossover_terminals ind1 ind2 s ls1 ss1 ls2 ss2 :
  wf_heap (s_heap s) -> pipeline (s_heap s) ind1 ls1 ss1 -> pipeline (s_heap s) ind2 ls2 ss2 ->
  disjoint ls1 ls2 ->
  wp (crossover_terminals ind1 ind2) s
     (fun r s' => r = (ind1, ind2) /\ keeps (ls1 ++ ls2) s s' /\
        exists ss1' ss2',
          pipeline (s_heap s') ind1 ls1 ss1' /\ pipeline (s_heap s') ind2 ls2 ss2' /\
          terminals_swapped ss1 ss2 ss1' ss2')
     (fun e s' => e = IndexError /\ s' = s /\
        shared_terminals MDifferent (flat_map snd ss1) (flat_map snd ss2) = []).
Proof.
  intros W C1 C2 D. unfold crossover_terminals.
  eapply wp_bind_eq; [eapply terminals_ok; eauto|].
  eapply wp_bind_eq; [eapply terminals_ok; eauto|].
  apply wp_bind. apply wp_choice; [|intros ->; auto].
  intros [[i t1] [j t2]] r Hin. apply shared_in in Hin as (H1 & H2 & H3).
  unfold match_ok in H3. apply andb_true_iff in H3 as [H3 H4].
  apply String.eqb_eq in H3. apply negb_true_iff, Z.eqb_neq in H4.
  destruct (replace_terminal_cases ind1 (mkSt (s_heap s) r (s_uid s)) ls1 ss1 i t2 W C1)
    as [(o1 & En1 & [(Hid1 & s1 & ss1' & E1 & P1 & V1 & (W1 & F1 & U1) & R1)|(Hid1 & _)])|[[El _]|[El _]]].
  2: { exfalso. rewrite H1 in En1; inversion En1; subst. auto. }
  2,3: exfalso; assert (i < length (flat_map snd ss1)) by (apply nth_error_Some; congruence); lia.
  rewrite H1 in En1; inversion En1; subst o1. clear En1.
  eapply wp_bind_eq; [exact E1|].
  assert (C2' : pipeline (s_heap s1) ind2 ls2 ss2).
  { eapply chain_frame; [exact C2|]. intros x Hx. apply F1.
    - apply (chain_lt _ _ _ _ W C2); auto.
    - intros Hy. apply (D x); auto. }
  destruct (replace_terminal_cases ind2 s1 ls2 ss2 j t1 W1 C2')
    as [(o2 & En2 & [(Hid2 & s2 & ss2' & E2 & P2 & V2 & (W2 & F2 & U2) & R2)|(Hid2 & _)])|[[El _]|[El _]]].
  2: { exfalso. rewrite H2 in En2; inversion En2; subst. auto. }
  2,3: exfalso; assert (j < length (flat_map snd ss2)) by (apply nth_error_Some; congruence); lia.
  rewrite H2 in En2; inversion En2; subst o2. clear En2.
  eapply wp_bind_eq; [exact E2|]. apply wp_ret. split; auto. split.
  - split; [exact W2|]. split; [|simpl in *; congruence].
    eapply same_trans.
    + eapply same_weaken; [exact F1|]. intros; rewrite in_app_iff; auto.
    + eapply same_weaken; [exact F2|]. intros; rewrite in_app_iff; auto.
  - exists ss1', ss2'. split; [|split; auto].
    + eapply chain_frame; [exact P1|]. intros x Hx. apply F2.
      * apply (chain_lt _ _ _ _ W1 P1); auto.
      * intros Hy. apply (D x); auto.
    + exists i, j, t1, t2. auto.
Qed.

(** * random_crossover *)
Lemma valid_crossovers_ok ind1 ind2 s ls1 ss1 ls2 ss2 :
  wf_heap (s_heap s) -> pipeline (s_heap s) ind1 ls1 ss1 -> pipeline (s_heap s) ind2 ls2 ss2 ->
  exists xs, valid_crossovers ind1 ind2 s = (Ok xs, s) /\
    (In CxTerminals xs <->
       shared_terminals MDifferent (flat_map snd ss1) (flat_map snd ss2) <> []) /\
    (In CxPrimitives xs <-> 2 <= length ss1 /\ 2 <= length ss2).
Proof.
  intros W C1 C2. unfold valid_crossovers, mbind.
  rewrite (terminals_ok _ _ _ _ W C1), (terminals_ok _ _ _ _ W C2),
    (primitives_ok _ _ _ _ W C1), (primitives_ok _ _ _ _ W C2).
  eexists. split; [reflexivity|].
  rewrite (chain_len _ _ _ _ C1), (chain_len _ _ _ _ C2).
  rewrite !in_app_iff.
  set (b := (2 <=? length ss1) && (2 <=? length ss2)).
  assert (Hb : b = true <-> 2 <= length ss1 /\ 2 <= length ss2).
  { unfold b. rewrite andb_true_iff, !Nat.leb_le. tauto. }
  destruct (shared_terminals _ _ _); destruct b; simpl; split; split; intros H;
    intuition (try discriminate; try congruence).
Qed.

Lemma valid_nil ind1 ind2 s ls1 ss1 ls2 ss2 :
  wf_heap (s_heap s) -> pipeline (s_heap s) ind1 ls1 ss1 -> pipeline (s_heap s) ind2 ls2 ss2 ->
  forall xs, valid_crossovers ind1 ind2 s = (Ok xs, s) ->
  (xs = [] <-> shared_terminals MDifferent (flat_map snd ss1) (flat_map snd ss2) = []
               /\ ~ (2 <= length ss1 /\ 2 <= length ss2)).
Proof.
  intros W C1 C2 xs E. destruct (valid_crossovers_ok ind1 ind2 s _ _ _ _ W C1 C2) as (xs' & E' & HT & HP).
  rewrite E in E'; inversion E'; subst xs'. clear E'. split.
  - intros ->. simpl in *. split; [|tauto].
    destruct (shared_terminals _ _ _); auto. exfalso. apply HT. discriminate.
  - intros [H1 H2]. destruct xs as [|[|] xs]; auto; exfalso.
    + apply HT in H1; auto. simpl; auto.
    + apply H2, HP. simpl; auto.
Qed.

Lemma exceeds_spec m n : exceeds (Some m) n = true <-> (m < Z.of_nat n)%Z.
Proof. simpl. apply Z.ltb_lt. Qed.

Lemma wp_random_crossover ind1 ind2 mx s ls1 ss1 ls2 ss2 :
  wf_heap (s_heap s) -> pipeline (s_heap s) ind1 ls1 ss1 -> pipeline (s_heap s) ind2 ls2 ss2 ->
  disjoint ls1 ls2 ->
  wp (random_crossover ind1 ind2 mx) s
     (fun r s' => keeps (ls1 ++ ls2) s s' /\
        exceeds mx (length ss1) = false /\ exceeds mx (length ss2) = false /\
        exists ls1' ls2' ss1' ss2',
          pipeline (s_heap s') ind1 ls1' ss1' /\ pipeline (s_heap s') ind2 ls2' ss2' /\
          crossed ss1 ss2 ss1' ss2' /\
          incl ls1' (ls1 ++ ls2) /\ incl ls2' (ls1 ++ ls2) /\ disjoint ls1' ls2' /\
          r = if exceeds mx (length ss1') then (ind2, ind1) else (ind1, ind2))
     (fun e s' => e = ValueError /\ s' = s /\
        (exceeds mx (length ss1) = true \/ exceeds mx (length ss2) = true \/
         (shared_terminals MDifferent (flat_map snd ss1) (flat_map snd ss2) = []
               /\ ~ (2 <= length ss1 /\ 2 <= length ss2)))).
Proof.
  intros W C1 C2 D. unfold random_crossover.
  eapply wp_bind_eq; [eapply primitives_ok; eauto|]. rewrite (chain_len _ _ _ _ C1).
  destruct (exceeds mx (length ss1)) eqn:X1; [unfold wp, mraise; auto|].
  eapply wp_bind_eq; [eapply primitives_ok; eauto|]. rewrite (chain_len _ _ _ _ C2).
  destruct (exceeds mx (length ss2)) eqn:X2; [unfold wp, mraise; auto|].
  destruct (valid_crossovers_ok ind1 ind2 s _ _ _ _ W C1 C2) as (xs & Exs & HT & HP).
  pose proof (valid_nil _ _ _ _ _ _ _ W C1 C2 _ Exs) as HN.
  eapply wp_bind_eq; [exact Exs|].
  destruct xs as [|x0 xs]; [unfold wp, mraise; split; auto; split; auto; right; right; apply HN; auto|].
  remember (x0 :: xs) as xs0 eqn:Exs0.
  apply wp_bind. apply wp_choice; [|intros Hnil; congruence].
  intros x r Hx. apply wp_bind.
  destruct x; cbn [run_crossover].
  - eapply wp_mono; [apply (wp_crossover_terminals ind1 ind2 (mkSt (s_heap s) r (s_uid s)) _ _ _ _ W C1 C2 D)| |].
    + intros [? ?] s' (Er & K & ss1' & ss2' & P1 & P2 & T). inversion Er; subst. clear Er.
      cbn [fst snd]. pose proof K as (W' & _ & _).
      eapply wp_bind_eq; [eapply primitives_ok; eauto|]. rewrite (chain_len _ _ _ _ P1).
      assert (HH : forall rr, rr = (if exceeds mx (length ss1') then (ind2, ind1) else (ind1, ind2)) ->
        keeps (ls1 ++ ls2) s s' /\ false = false /\ false = false /\
        exists ls1' ls2' ss1' ss2',
          pipeline (s_heap s') ind1 ls1' ss1' /\ pipeline (s_heap s') ind2 ls2' ss2' /\
          crossed ss1 ss2 ss1' ss2' /\
          incl ls1' (ls1 ++ ls2) /\ incl ls2' (ls1 ++ ls2) /\ disjoint ls1' ls2' /\
          rr = if exceeds mx (length ss1') then (ind2, ind1) else (ind1, ind2)).
      { intros rr Err. split; [exact K|]. split; auto. split; auto.
        exists ls1, ls2, ss1', ss2'. split; auto. split; auto. split; [right; auto|].
        split; [intros y; rewrite in_app_iff; auto|]. split; [intros y; rewrite in_app_iff; auto|]. auto. }
      destruct (exceeds mx (length ss1')) eqn:X3; apply wp_ret; apply HH; reflexivity.
    + intros e s' (-> & _ & Hs). exfalso. apply HT in Hx. auto.
  - eapply wp_mono; [apply (wp_crossover_primitives ind1 ind2 (mkSt (s_heap s) r (s_uid s)) _ _ _ _ W C1 C2 D)| |].
    + intros [? ?] s' (Er & K & ls1' & ls2' & ss1' & ss2' & P1 & P2 & T & I1 & I2 & D').
      inversion Er; subst. clear Er.
      cbn [fst snd]. pose proof K as (W' & _ & _).
      eapply wp_bind_eq; [eapply primitives_ok; eauto|]. rewrite (chain_len _ _ _ _ P1).
      destruct (exceeds mx (length ss1')) eqn:X3; apply wp_ret; (split; [exact K|]); split; auto; split; auto;
        exists ls1', ls2', ss1', ss2'; rewrite X3;
        (split; [auto|]); (split; [auto|]); (split; [left; auto|]); auto.
    + intros e s' (-> & _ & _ & Hs). exfalso. apply HP in Hx. lia.
Qed.

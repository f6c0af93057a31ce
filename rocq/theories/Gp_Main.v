(*IMPORTS*)
From Verif Require Import Base Gp_Model Gp_Spec Gp_Examples.
Require Import Permutation.
Open Scope nat_scope.
(*END*)
From Verif Require Import Gp_Proofs Gp_Proofs2 Gp_Proofs3 Gp_Proofs4 Gp_Proofs5.

Lemma rich_node ps : pset_inhabited ps -> forall k, prims_of ps k <> [] -> ~ no_node ps k None.
Proof.
  intros Hi k Hk [E|(p & i & Hp & Hin & E)].
  - unfold candidates in E. simpl in E. apply Hk. clear - E.
    induction (prims_of ps k); simpl in *; auto. discriminate.
  - unfold candidates in Hp. apply filter_In in Hp as [Hp _]. exact (Hi _ _ _ Hp Hin E).
Qed.
Lemma rich_alt ps : pset_rich ps -> forall k p, In p (prims_of ps k) -> 1 < length (prims_of ps k) ->
  ~ no_node ps k (Some p).
Proof.
  intros (Hi & _ & _ & Ha & _) k p Hp Hl [E|(q & i & Hq & Hin & E)].
  - destruct (Ha _ _ Hp Hl) as (q & Hq & Hn).
    assert (HH : In q (candidates ps k (Some p))).
    { apply filter_In. split; auto. simpl. apply negb_true_iff.
      destruct (prim_eqb q p) eqn:E1; auto. apply prim_eqb_spec in E1. contradiction. }
    rewrite E in HH. auto.
  - unfold candidates in Hq. apply filter_In in Hq as [Hq _]. exact (Hi _ _ _ Hq Hin E).
Qed.
Lemma pipeline_ok_step ps ss st : pipeline_ok ps ss -> In st ss -> exists k, step_ok ps k st.
Proof.
  destruct ss as [|m rest]; simpl; [tauto|]. intros [H1 H2] [<-|H]; [eauto|].
  rewrite Forall_forall in H2. eauto.
Qed.
Lemma pipeline_ok_term ps ss t : pset_typed ps -> pipeline_ok ps ss -> In t (flat_map snd ss) ->
  In t (terms_of ps (t_ident t)).
Proof.
  intros [_ TT] Hok Hin. apply in_flat_map in Hin as (st & Hst & Ht).
  destruct (pipeline_ok_step _ _ _ Hok Hst) as (k & _ & ts & Hp & Hf).
  assert (Ht' : In t ts) by (eapply Permutation_in; eauto).
  apply in_split in Ht' as (c & d & ->). apply Forall2_app_inv_r in Hf as (i1 & i2 & F1 & F2 & E).
  inversion F2 as [|j ? js ? Hi F3]; subst. rewrite (TT _ _ Hi). auto.
Qed.
Lemma rich_mut_error ps mx ss e : pset_typed ps -> pset_rich ps -> pipeline_ok ps ss ->
  mut_error ps mx ss e ->
  (e = IndexError /\ mx = Some 1%Z /\ length ss = 1 /\ tunable ps ss <= 1) \/
  (e = ValueError /\ exists b, mx = Some b /\ (b < 1)%Z).
Proof.
  intros T R Hok [(-> & -> & L & Tn)|[He|[(-> & He)|[(-> & st & Hin & Hl & He)|(-> & old & Hin & Hr & He)]]]].
  - left. rewrite L in *. auto.
  - auto.
  - exfalso. destruct R as (Hi & _ & Hd & _). eapply rich_node; eauto.
  - exfalso. destruct (pipeline_ok_step _ _ _ Hok Hin) as (k & Hs).
    pose proof (step_ok_output _ _ _ T Hs) as E. rewrite E in *. destruct Hs as [Hp _].
    eapply rich_alt; eauto.
  - exfalso. unfold term_replaceable in Hr. apply Nat.ltb_lt in Hr.
    pose proof (pipeline_ok_term _ _ _ T Hok Hin) as Ho.
    destruct R as (_ & _ & _ & _ & Ha). destruct (Ha _ _ Ho Hr) as (u & Hu & Hn). auto.
Qed.

(** C01: every pipeline obtained by any sequence of calls of the operators,
    from nothing, with any random numbers, lies in the search space. *)
Lemma C01_generated_pipelines_in_search_space_main :
  forall ps max_length max_retry r calls ind,
    pset_typed ps -> 0 < max_retry ->
    In ind (w_pool (gp_run ps max_length max_retry (empty_world r) calls)) ->
    exists ls ss,
      pipeline (s_heap (w_st (gp_run ps max_length max_retry (empty_world r) calls))) ind ls ss
      /\ pipeline_ok ps ss.
Proof.
  intros ps mx n r calls ind T Hn Hin.
  destruct (gp_run_inv ps mx n calls (empty_world r) T Hn (empty_inv ps r)) as (WI & _).
  apply In_nth_error in Hin as (i & E).
  destruct (world_lookup _ _ _ _ WI E) as (ls & ss & P & Hok & _). eauto.
Qed.
Example C01_generated_ex_main :
  pset_typed ex_ps /\
  length (w_pool (gp_run ex_ps (Some 4%Z) 5 (empty_world [2; 0; 1; 0; 1; 0; 3; 1; 0; 2; 1; 1; 0; 0; 1; 1; 1])
                    [CallIndividual; CallIndividual; CallMutate 0 []; CallMate 0 1 []; CallMutate 3 []])) = 5.
Proof. split; [exact ex_typed|vm_compute; reflexivity]. Qed.

(** C01 for the in-place operators on their own. *)
Lemma C01_mutation_in_search_space_main :
  forall ps max_length ind s ls ss ind' m s',
    wf_heap (s_heap s) -> pipeline (s_heap s) ind ls ss -> pset_typed ps -> pipeline_ok ps ss ->
    random_valid_mutation ind ps max_length s = (Ok (ind', m), s') ->
    exists ls' ss', pipeline (s_heap s') ind' ls' ss' /\ pipeline_ok ps ss'.
Proof.
  intros ps mx ind s ls ss ind' m s' W C T Hok E.
  pose proof (wp_ok _ _ _ _ _ _ E (wp_random_valid_mutation ps mx ind s ls ss W C T))
    as (_ & _ & _ & _ & ls' & ss' & P & _ & Mu & _).
  exists ls', ss'. split; auto. eapply mutated_ok; eauto.
Qed.
Example C01_mutation_ex_main :
  wf_heap (s_heap (ex_state [0; 0; 1])) /\ pipeline (s_heap (ex_state [0; 0; 1])) ex_ind1 [0; 1; 2; 3] ex_long
  /\ pset_typed ex_ps /\ pipeline_ok ex_ps ex_long /\
  exists m, fst (random_valid_mutation ex_ind1 ex_ps (Some 5%Z) (ex_state [0; 2; 1])) = Ok (ex_ind1, m).
Proof.
  split; [apply ex_wf|]. split; [apply ex_pipe1|]. split; [apply ex_typed|]. split; [apply ex_ok1|].
  exists MutReplacePrimitive. vm_compute. reflexivity.
Qed.

Lemma C01_crossover_in_search_space_main :
  forall ps max_length ind1 ind2 s ls1 ss1 ls2 ss2 c1 c2 s',
    wf_heap (s_heap s) -> pipeline (s_heap s) ind1 ls1 ss1 -> pipeline (s_heap s) ind2 ls2 ss2 ->
    disjoint ls1 ls2 -> pset_typed ps -> pipeline_ok ps ss1 -> pipeline_ok ps ss2 ->
    random_crossover ind1 ind2 max_length s = (Ok (c1, c2), s') ->
    exists l1 t1 l2 t2, pipeline (s_heap s') c1 l1 t1 /\ pipeline_ok ps t1 /\
                        pipeline (s_heap s') c2 l2 t2 /\ pipeline_ok ps t2 /\ disjoint l1 l2.
Proof.
  intros ps mx ind1 ind2 s ls1 ss1 ls2 ss2 c1 c2 s' W C1 C2 D T H1 H2 E.
  pose proof (wp_ok _ _ _ _ _ _ E (wp_random_crossover ind1 ind2 mx s ls1 ss1 ls2 ss2 W C1 C2 D))
    as (_ & _ & _ & l1 & l2 & t1 & t2 & P1 & P2 & Cr & _ & _ & D' & R).
  destruct (crossed_ok ps _ _ _ _ T H1 H2 Cr) as [O1 O2].
  destruct (exceeds mx (length t1)); inversion R; subst.
  - exists l2, t2, l1, t1. repeat split; auto. intros x Hx Hy. exact (D' x Hy Hx).
  - exists l1, t1, l2, t2. auto 10.
Qed.
Example C01_crossover_ex_main :
  disjoint [0; 1; 2; 3] [4; 5] /\ pipeline_ok ex_ps ex_short /\
  fst (random_crossover ex_ind1 ex_ind2 (Some 4%Z) (ex_state [1; 2; 0])) = Ok (ex_ind1, ex_ind2).
Proof. split; [apply ex_disjoint|]. split; [apply ex_ok2|]. vm_compute. reflexivity. Qed.

(** C02: length bounds of random pipelines, and when creation fails. *)
Lemma C02_creation_length_main :
  forall ps min_length max_length s,
    wf_heap (s_heap s) -> (1 <= min_length)%Z ->
    ((max_length < min_length)%Z ->
       create_random_expression ps min_length max_length s = (Err ValueError, s)) /\
    (forall l s', create_random_expression ps min_length max_length s = (Ok l, s') ->
       exists ls ss, chain (s_heap s') (DRef l) ls ss /\ pipeline_ok ps ss /\
         (min_length <= Z.of_nat (length ss) <= max_length)%Z /\
         all_new (s_heap s) ls /\ same_except [] (s_heap s) (s_heap s')) /\
    (pset_inhabited ps -> prims_of ps PREDICTION <> [] ->
     (prims_of ps DATA <> [] \/ max_length = 1%Z) -> (min_length <= max_length)%Z ->
       exists l s', create_random_expression ps min_length max_length s = (Ok l, s')).
Proof.
  intros ps lo hi s W Hlo.
  pose proof (wp_create ps lo hi s W) as H. split; [|split].
  - intros Hlt. unfold create_random_expression, mbind, mrandint, rrandint.
    destruct (Z.ltb_spec hi lo); [|lia]. destruct s; reflexivity.
  - intros l s' E. unfold wp in H. rewrite E in H.
    destruct H as ((W' & F' & _) & ls & ss & C & N & Hok & _ & Hle & Hl).
    exists ls, ss. split; auto. split; auto. split; [lia|]. auto.
  - intros Hi Hp Hd Hle. unfold wp in H.
    destruct (create_random_expression ps lo hi s) as [[l|e] s']; [eauto|].
    destruct H as (_ & [(_ & H & _)|(_ & _ & [H|[H1 H2]])]); exfalso; [lia| |].
    + eapply rich_node; eauto.
    + destruct Hd as [Hd|Hd]; [|lia]. eapply rich_node; eauto.
Qed.
Example C02_creation_ex_main :
  pset_inhabited ex_ps /\ prims_of ex_ps PREDICTION <> [] /\ prims_of ex_ps DATA <> [] /\
  exists l s', create_random_expression ex_ps 1 3 (ex_state [2; 0; 1; 1; 0; 1; 1]) = (Ok l, s').
Proof.
  split; [apply ex_inhabited|]. split; [discriminate|]. split; [discriminate|].
  eexists. eexists. vm_compute. reflexivity.
Qed.

(** C03: mutation leaves at most max_length steps; longer pipelines are cut to
    exactly max_length. *)
Lemma C03_mutation_max_length_main :
  forall ps m ind s ls ss ind' mu s',
    wf_heap (s_heap s) -> pipeline (s_heap s) ind ls ss -> pset_typed ps ->
    random_valid_mutation ind ps (Some m) s = (Ok (ind', mu), s') ->
    exists ls' ss', pipeline (s_heap s') ind' ls' ss' /\
      (Z.of_nat (length ss') <= m)%Z /\
      ((m < Z.of_nat (length ss))%Z ->
         Z.of_nat (length ss') = m /\ ss' = firstn (length ss') ss).
Proof.
  intros ps mx ind s ls ss ind' m s' W C T E.
  pose proof (wp_ok _ _ _ _ _ _ E (wp_random_valid_mutation ps (Some mx) ind s ls ss W C T))
    as (_ & _ & _ & _ & ls' & ss' & P & _ & Mu & Wi & Hc).
  cbn [fst snd] in *.
  exists ls', ss'. split; auto. split; [exact Wi|]. intros Hlong.
  destruct m; simpl in Hc; try lia.
  destruct Hc as (b & Eb & Hb & ->). inversion Eb; subst b.
  destruct Mu as (rm & -> & Hrm & _). rewrite app_length in *. split; [lia|].
  rewrite firstn_app, firstn_all, Nat.sub_diag. simpl. rewrite app_nil_r. reflexivity.
Qed.
Example C03_mutation_ex_main :
  exists m s', random_valid_mutation ex_ind1 ex_ps (Some 2%Z) (ex_state []) = (Ok (ex_ind1, m), s').
Proof. eexists. eexists. vm_compute. reflexivity. Qed.

(** C04 is false of the code: a crossover of two pipelines of 4 steps can return
    one of 6 steps although the limit is 4. *)
Definition ex_four : list step := [(ex_gnb, []); (ex_pca, []); (ex_pca, []); (ex_pca, [])].
Definition ex_state4 : st := mkSt (ex_heap [ex_four; ex_four]) [0; 2; 0] 2.
Lemma chain_node' h l c s ls ss : h_get h l = Some c -> s = (c_prim c, c_terms c) ->
  chain h (c_data c) ls ss -> chain h (DRef l) (l :: ls) (s :: ss).
Proof. intros G -> C. econstructor; eauto. Qed.
Ltac chain_tac := unfold pipeline;
  repeat (eapply chain_node'; [vm_compute; reflexivity|reflexivity|]; cbn [c_data c_prim c_terms]);
  apply chain_data.
Lemma C04_mate_max_length_refuted_main :
  exists s ind1 ls1 ss1 ind2 ls2 ss2 ind' s' ls' ss',
    wf_heap (s_heap s) /\ pipeline (s_heap s) ind1 ls1 ss1 /\ pipeline (s_heap s) ind2 ls2 ss2 /\
    pipeline_ok ex_ps ss1 /\ pipeline_ok ex_ps ss2 /\
    length ss1 <= 4 /\ length ss2 <= 4 /\
    op_mate 50 [] (Some 4%Z) ind1 ind2 s = (Ok ind', s') /\
    pipeline (s_heap s') ind' ls' ss' /\ ~ (length ss' <= 4).
Proof.
  exists ex_state4, ex_ind1, [0;1;2;3], ex_four, ex_ind2, [4;5;6;7], ex_four.
  assert (OK : pipeline_ok ex_ps ex_four).
  { split; [step_ok_tac|]. repeat (constructor; [step_ok_tac|]). constructor. }
  assert (E : exists i, fst (op_mate 50 [] (Some 4%Z) ex_ind1 ex_ind2 ex_state4) = Ok i)
    by (eexists; vm_compute; reflexivity).
  destruct E as (i & E). pose proof E as E1. vm_compute in E1. injection E1 as <-.
  eexists. exists (snd (op_mate 50 [] (Some 4%Z) ex_ind1 ex_ind2 ex_state4)). eexists. eexists.
  split; [|split; [|split; [|split; [|split; [|split; [|split; [|split; [|split]]]]]]]].
  - intros l H. change (h_next (s_heap ex_state4)) with 8 in H. do 8 (destruct l as [|l]; [lia|]). reflexivity.
  - chain_tac.
  - chain_tac.
  - exact OK.
  - exact OK.
  - simpl; lia.
  - simpl; lia.
  - rewrite <- E. apply surjective_pairing.
  - chain_tac.
  - simpl. lia.
Qed.

(** What does hold: as many steps as the first parent or, if preprocessing tails were
    exchanged, at most two less than both parents together; so at most 2m - 2 (or m). *)
Lemma C04_mate_length_partial_main :
  forall max_retry done m ind1 ind2 s ls1 ss1 ls2 ss2 ind' s',
    wf_heap (s_heap s) -> pipeline (s_heap s) ind1 ls1 ss1 -> pipeline (s_heap s) ind2 ls2 ss2 ->
    0 < max_retry ->
    op_mate max_retry done (Some m) ind1 ind2 s = (Ok ind', s') ->
    exists ls' ss', pipeline (s_heap s') ind' ls' ss' /\
      (1 <= Z.of_nat (length ss') <= Z.max m (2 * m - 2))%Z /\
      (length ss' = length ss1 \/ 2 <= length ss1 /\ 2 <= length ss2 /\ 2 <= length ss' <= length ss1 + length ss2 - 2).
Proof.
  intros n done m ind1 ind2 s ls1 ss1 ls2 ss2 ind' s' W C1 C2 Hn E.
  pose proof (wp_ok _ _ _ _ _ _ E (wp_op_mate n done (Some m) ind1 ind2 s ls1 ss1 ls2 ss2 W C1 C2 Hn))
    as (_ & _ & _ & _ & W1 & W2 & ls' & a & b & ss' & o & P & _ & S1 & _ & S2 & _ & Cr).
  exists ls', ss'. split; auto.
  pose proof (same_pipeline_len _ _ S1) as L1. pose proof (same_pipeline_len _ _ S2) as L2.
  pose proof (crossed_lengths _ _ _ _ Cr) as L. unfold within in *.
  assert (B : length ss' = length ss1 /\ 1 <= length ss' \/ 2 <= length ss1 /\ 2 <= length ss2 /\ 2 <= length ss' <= length ss1 + length ss2 - 2).
  { destruct Cr as [(ha & ta & hb & tb & -> & -> & Na & Nb & Ta & Tb & -> & ->)|(i & j & t1 & t2 & _ & _ & V & _)].
    - right. rewrite !app_length in *. destruct ha, ta, hb, tb; try congruence. simpl in *. lia.
    - left. destruct V as (pre & p & x & y & post & -> & -> & _). rewrite app_length in *. simpl in *. lia. }
  destruct B as [(B1 & B2)|B]; [split; [lia|left; lia]|split; [lia|right; lia]].
Qed.
Example C04_mate_partial_ex_main :
  exists ind' s', op_mate 50 [] (Some 4%Z) ex_ind1 ex_ind2 (ex_state [1; 2; 0]) = (Ok ind', s').
Proof. eexists. eexists. vm_compute. reflexivity. Qed.

(** C05: the first individual random_crossover returns respects the limit; over-long
    inputs are rejected and nothing is modified. *)
Lemma C05_crossover_first_result_main :
  forall m ind1 ind2 s ls1 ss1 ls2 ss2,
    wf_heap (s_heap s) -> pipeline (s_heap s) ind1 ls1 ss1 -> pipeline (s_heap s) ind2 ls2 ss2 ->
    disjoint ls1 ls2 ->
    (forall c1 c2 s', random_crossover ind1 ind2 (Some m) s = (Ok (c1, c2), s') ->
       (Z.of_nat (length ss1) <= m)%Z /\ (Z.of_nat (length ss2) <= m)%Z /\
       exists l1 t1 l2 t2, pipeline (s_heap s') c1 l1 t1 /\ pipeline (s_heap s') c2 l2 t2 /\
         (Z.of_nat (length t1) <= m)%Z /\
         ((c1, c2) = (ind1, ind2) \/ (c1, c2) = (ind2, ind1)) /\
         length t1 + length t2 = length ss1 + length ss2) /\
    ((m < Z.of_nat (length ss1))%Z \/ (m < Z.of_nat (length ss2))%Z ->
       random_crossover ind1 ind2 (Some m) s = (Err ValueError, s)).
Proof.
  intros m ind1 ind2 s ls1 ss1 ls2 ss2 W C1 C2 D.
  pose proof (wp_random_crossover ind1 ind2 (Some m) s ls1 ss1 ls2 ss2 W C1 C2 D) as H. split.
  - intros c1 c2 s' E. unfold wp in H. rewrite E in H.
    destruct H as (_ & X1 & X2 & l1 & l2 & t1 & t2 & P1 & P2 & Cr & _ & _ & D' & R).
    apply exceeds_within_f in X1, X2. simpl in X1, X2. split; auto. split; auto.
    pose proof (crossed_lengths _ _ _ _ Cr) as L.
    destruct (exceeds (Some m) (length t1)) eqn:X3.
    + apply exceeds_within in X3. simpl in X3. inversion R; subst. exists l2, t2, l1, t1.
      split; auto. split; auto. split; [lia|]. split; auto. lia.
    + apply exceeds_within_f in X3. simpl in X3. inversion R; subst. exists l1, t1, l2, t2. auto 10.
  - intros Hlong. unfold wp in H.
    destruct (random_crossover ind1 ind2 (Some m) s) as [[[c1 c2]|e] s'].
    + destruct H as (_ & X1 & X2 & _). apply exceeds_within_f in X1, X2. simpl in X1, X2. lia.
    + destruct H as (-> & -> & _). reflexivity.
Qed.
Example C05_crossover_ex_main :
  exists s', random_crossover ex_ind1 ex_ind2 (Some 4%Z) (ex_state [1; 0; 0]) = (Ok (ex_ind1, ex_ind2), s').
Proof. eexists. vm_compute. reflexivity. Qed.

(** C06: mutate and mate change no existing object (even when they fail) and
    return an individual made of new objects only, with a new id. *)
Lemma C06_mutate_leaves_parents_main :
  forall max_retry done ps max_length ind s ls ss r s',
    wf_heap (s_heap s) -> pipeline (s_heap s) ind ls ss -> pset_typed ps -> 0 < max_retry ->
    op_mutate max_retry done ps max_length ind s = (r, s') ->
    extends s s' /\
    (forall ind', r = Ok ind' ->
       s_uid s <= i_id ind' < s_uid s' /\ i_parents ind' = [i_id ind] /\
       exists ls' ss', pipeline (s_heap s') ind' ls' ss' /\ all_new (s_heap s) ls').
Proof.
  intros n done ps mx ind s ls ss r s' W C T Hn E.
  pose proof (wp_op_mutate n done ps mx ind s ls ss W C T Hn) as H. unfold wp in H. rewrite E in H.
  destruct r as [i|e].
  - destruct H as (X & I1 & I2 & _ & m & ls' & ss0 & ss' & P & N & _). split; auto.
    intros ind' E'. inversion E'; subst. eauto 8.
  - destruct H as (X & _). split; auto. discriminate.
Qed.
Lemma C06_mate_leaves_parents_main :
  forall max_retry done max_length ind1 ind2 s ls1 ss1 ls2 ss2 r s',
    wf_heap (s_heap s) -> pipeline (s_heap s) ind1 ls1 ss1 -> pipeline (s_heap s) ind2 ls2 ss2 ->
    0 < max_retry ->
    op_mate max_retry done max_length ind1 ind2 s = (r, s') ->
    extends s s' /\
    (forall ind', r = Ok ind' ->
       s_uid s <= i_id ind' < s_uid s' /\ i_parents ind' = [i_id ind1; i_id ind2] /\
       exists ls' ss', pipeline (s_heap s') ind' ls' ss' /\ all_new (s_heap s) ls').
Proof.
  intros n done mx ind1 ind2 s ls1 ss1 ls2 ss2 r s' W C1 C2 Hn E.
  pose proof (wp_op_mate n done mx ind1 ind2 s ls1 ss1 ls2 ss2 W C1 C2 Hn) as H. unfold wp in H.
  rewrite E in H. destruct r as [i|e].
  - destruct H as (X & I1 & I2 & _ & _ & _ & ls' & a & b & ss' & o & P & N & _). split; auto.
    intros ind' E'. inversion E'; subst. eauto 8.
  - destruct H as (X & _). split; auto. discriminate.
Qed.
(** C06 over whole histories: once created, an individual keeps its position,
    its nodes and its steps whatever calls follow; two individuals never share
    a node and never have the same id. *)
Lemma C06_individuals_never_change_main :
  forall ps max_length max_retry r calls1 calls2 i ind,
    pset_typed ps -> 0 < max_retry ->
    let w1 := gp_run ps max_length max_retry (empty_world r) calls1 in
    let w2 := gp_run ps max_length max_retry w1 calls2 in
    nth_error (w_pool w1) i = Some ind ->
    nth_error (w_pool w2) i = Some ind /\
    exists ls ss, pipeline (s_heap (w_st w1)) ind ls ss /\ pipeline (s_heap (w_st w2)) ind ls ss /\
      (forall j ind2 ls2 ss2, j <> i -> nth_error (w_pool w2) j = Some ind2 ->
         pipeline (s_heap (w_st w2)) ind2 ls2 ss2 ->
         disjoint ls ls2 /\ i_id ind <> i_id ind2).
Proof.
  intros ps mx n r calls1 calls2 i ind T Hn w1 w2 E.
  destruct (gp_run_inv ps mx n calls1 (empty_world r) T Hn (empty_inv ps r)) as (WI1 & _).
  fold w1 in WI1.
  destruct (gp_run_inv ps mx n calls2 w1 T Hn WI1) as (WI2 & X & added & Ea). fold w2 in WI2, X, Ea.
  assert (E2 : nth_error (w_pool w2) i = Some ind).
  { rewrite Ea. rewrite nth_error_app1; auto. apply nth_error_Some. congruence. }
  split; auto. destruct (world_lookup _ _ _ _ WI1 E) as (ls & ss & P & _).
  pose proof (extends_pipeline _ _ _ _ _ (proj1 WI1) X P) as P2.
  exists ls, ss. split; auto. split; auto.
  intros j ind2 ls2 ss2 Hj Ej Pj.
  apply (world_disjoint ps w2 i j ind ind2 ls ss ls2 ss2); auto.
Qed.
Example C06_ex_main :
  nth_error (w_pool (gp_run ex_ps (Some 4%Z) 5 (empty_world [2; 0; 1; 0; 1; 0; 3; 1; 0; 2; 1; 1; 0; 0; 1; 1; 1])
                    [CallIndividual; CallIndividual; CallMutate 0 []])) 2
  = Some (mkInd 8 2 [0] "mut_replace_primitive"%string).
Proof. vm_compute. reflexivity. Qed.

(** C07: shrinking. *)
Lemma C07_shrink_by_main :
  forall ind s ls ss k,
    wf_heap (s_heap s) -> pipeline (s_heap s) ind ls ss ->
    ((Z.of_nat (length ss) <= k)%Z -> mut_shrink ind (Some k) s = (Err ValueError, s)) /\
    ((0 <= k < Z.of_nat (length ss))%Z ->
       exists s' ls', mut_shrink ind (Some k) s = (Ok ind, s') /\
         pipeline (s_heap s') ind ls' (firstn (length ss - Z.to_nat k) ss) /\
         same_except ls (s_heap s) (s_heap s')).
Proof.
  intros ind s ls ss k W C.
  destruct (mut_shrink_by ind s ls ss k W C) as [[Hk E]|[[Hk E]|(Hk & s' & ls' & ss' & E & K & P & I & _ & Sh)]].
  - split; intros; auto. lia.
  - split; intros; lia.
  - split; intros; [lia|]. exists s', ls'. split; auto.
    destruct Sh as (rm & Ess & Hrm & _).
    replace (firstn (length ss - Z.to_nat k) ss) with ss'.
    + split; auto. apply K.
    + rewrite Ess, app_length, firstn_app. replace (length ss' + length rm - Z.to_nat k) with (length ss') by lia.
      rewrite firstn_all, Nat.sub_diag. simpl. rewrite app_nil_r. auto.
Qed.
Lemma C07_shrink_random_main :
  forall ind s ls ss,
    wf_heap (s_heap s) -> pipeline (s_heap s) ind ls ss ->
    (length ss = 1 -> mut_shrink ind None s = (Err ValueError, s)) /\
    (2 <= length ss ->
       exists s' ls' n, mut_shrink ind None s = (Ok ind, s') /\ 1 <= n < length ss /\
         pipeline (s_heap s') ind ls' (firstn n ss) /\ same_except ls (s_heap s) (s_heap s')).
Proof.
  intros ind s ls ss W C. pose proof (wp_mut_shrink_any ind s ls ss W C) as H. unfold wp in H.
  destruct (mut_shrink ind None s) as [[i|e] s'].
  - destruct H as (-> & K & k & ls' & ss' & Hk & P & I & Sh). split; [intros; lia|]. intros _.
    destruct Sh as (rm & Ess & Hrm & Hne).
    exists s', ls', (length ss'). split; auto. rewrite Ess in Hk |- *. rewrite app_length in Hk |- *.
    assert (0 < length ss') by (destruct ss'; [congruence|simpl; lia]).
    split; [lia|]. rewrite firstn_app, firstn_all, Nat.sub_diag. simpl. rewrite app_nil_r.
    split; auto. apply K.
  - destruct H as (-> & -> & HL). split; auto. intros; lia.
Qed.
Example C07_ex_main : exists s', mut_shrink ex_ind1 (Some 3%Z) (ex_state []) = (Ok ex_ind1, s').
Proof. eexists. vm_compute. reflexivity. Qed.

(** C08: insertion. *)
Lemma C08_insert_main :
  forall ps ind s ls ss,
    wf_heap (s_heap s) -> pipeline (s_heap s) ind ls ss ->
    pset_inhabited ps -> prims_of ps DATA <> [] ->
    exists s' ls' predictor above new below,
      mut_insert ind ps s = (Ok ind, s') /\
      ss = predictor :: above ++ below /\
      pipeline (s_heap s') ind ls' (predictor :: above ++ new :: below) /\
      step_ok ps DATA new /\
      same_except ls (s_heap s) (s_heap s').
Proof.
  intros ps ind s ls ss W C Hi Hd. pose proof (wp_mut_insert ps ind s ls ss W C) as H. unfold wp in H.
  destruct (mut_insert ind ps s) as [[i|e] s'].
  - destruct H as (-> & K & ls' & ss' & P & (pre & new & post & -> & Hne & Hs & _ & ->) & _).
    destruct pre as [|m pre]; [congruence|]. exists s', ls', m, pre, new, post.
    split; auto. split; auto. split; auto. split; auto. apply K.
  - destruct H as (_ & _ & _ & H). exfalso. eapply rich_node; eauto.
Qed.
Example C08_ex_main : exists s', mut_insert ex_ind1 ex_ps (ex_state [2; 0; 1]) = (Ok ex_ind1, s').
Proof. eexists. vm_compute. reflexivity. Qed.

(** C09: terminal mutation. *)
Lemma C09_replace_terminal_main :
  forall ps ind s ls ss,
    wf_heap (s_heap s) -> pipeline (s_heap s) ind ls ss -> pset_typed ps -> pset_rich ps ->
    pipeline_ok ps ss ->
    (tunable ps ss = 0 /\ mut_replace_terminal ind ps s = (Err ValueError, s)) \/
    (0 < tunable ps ss /\
     exists s' ss', mut_replace_terminal ind ps s = (Ok ind, s') /\
       pipeline (s_heap s') ind ls ss' /\ terminal_replaced ps ss ss' /\
       same_except ls (s_heap s) (s_heap s')).
Proof.
  intros ps ind s ls ss W C T R Hok.
  destruct (Nat.eq_dec (tunable ps ss) 0) as [E0|E0].
  - left. split; auto. unfold mut_replace_terminal, mbind.
    rewrite (terminals_ok _ _ _ _ W C).
    destruct (filter _ (enumerate _)) as [|x l] eqn:Ef; [reflexivity|]. exfalso.
    assert (Hx : In x (filter (fun it => term_replaceable ps (snd it)) (enumerate (flat_map snd ss))))
      by (rewrite Ef; simpl; auto).
    apply filter_In in Hx as [Hx Hr]. destruct x as [i t]. apply enumerate_nth in Hx. apply nth_error_In in Hx.
    assert (Hf : In t (filter (term_replaceable ps) (flat_map snd ss))) by (apply filter_In; auto).
    unfold tunable in E0. apply length_zero_iff_nil in E0. unfold term_replaceable in Hf.
    rewrite E0 in Hf. destruct Hf.
  - right. split; [lia|]. pose proof (wp_mut_replace_terminal ps ind s ls ss W C T) as H. unfold wp in H.
    destruct (mut_replace_terminal ind ps s) as [[i|e] s'].
    + destruct H as (-> & K & ss' & P & TR). exists s', ss'. split; auto. split; auto. split; auto. apply K.
    + exfalso. destruct H as (_ & _ & [[_ Hn]|(_ & old & Hin & Hr & He)]).
      * unfold tunable in E0. unfold term_replaceable in Hn. rewrite Hn in E0. simpl in E0. lia.
      * unfold term_replaceable in Hr. apply Nat.ltb_lt in Hr.
        pose proof (pipeline_ok_term _ _ _ T Hok Hin) as Ho.
        destruct R as (_ & _ & _ & _ & Ha). destruct (Ha _ _ Ho Hr) as (u & Hu & Hn). auto.
Qed.
Example C09_ex_main :
  wf_heap (s_heap (ex_state [1; 0])) /\ pipeline (s_heap (ex_state [1; 0])) ex_ind1 [0; 1; 2; 3] ex_long /\
  pset_typed ex_ps /\ pset_rich ex_ps /\ pipeline_ok ex_ps ex_long /\ tunable ex_ps ex_long = 4 /\
  exists s', mut_replace_terminal ex_ind1 ex_ps (ex_state [1; 0]) = (Ok ex_ind1, s').
Proof.
  split; [apply ex_wf|]. split; [apply ex_pipe1|]. split; [apply ex_typed|]. split; [apply ex_rich|].
  split; [apply ex_ok1|]. split; [reflexivity|]. eexists. vm_compute. reflexivity.
Qed.

(** C10: primitive mutation.  ValueError iff no step has an alternative. *)
Lemma C10_replace_primitive_main :
  forall ps ind s ls ss,
    wf_heap (s_heap s) -> pipeline (s_heap s) ind ls ss -> pset_typed ps -> pset_rich ps ->
    pipeline_ok ps ss ->
    ((forall st, In st ss -> length (prims_of ps (p_output (fst st))) <= 1) /\
     mut_replace_primitive ind ps s = (Err ValueError, s)) \/
    ((exists st, In st ss /\ 1 < length (prims_of ps (p_output (fst st)))) /\
     exists ind' s' ls' ss', mut_replace_primitive ind ps s = (Ok ind', s') /\
       pipeline (s_heap s') ind' ls' ss' /\ i_id ind' = i_id ind /\
       primitive_replaced ps ss ss' /\ (Forall in_order ss -> Forall in_order ss') /\
       same_except ls (s_heap s) (s_heap s')).
Proof.
  intros ps ind s ls ss W C T R Hok.
  pose proof (wp_mut_replace_primitive ps ind s ls ss W C T) as H.
  destruct (existsb (fun st : step => 1 <? length (prims_of ps (p_output (fst st)))) ss) eqn:Ex.
  - right. apply existsb_exists in Ex as (st & Hin & Hl). apply Nat.ltb_lt in Hl.
    split; [eauto|]. unfold wp in H. destruct (mut_replace_primitive ind ps s) as [[i|e] s'].
    + destruct H as (K & I1 & _ & _ & ls' & ss' & P & PR & _ & O).
      exists i, s', ls', ss'. split; auto. split; auto. split; auto. split; auto. split; auto. apply K.
    + exfalso. destruct H as (_ & _ & [[_ Hn]|(_ & st' & Hin' & Hl' & He)]).
      * specialize (Hn _ Hin). lia.
      * destruct (pipeline_ok_step _ _ _ Hok Hin') as (k & Hs).
        pose proof (step_ok_output _ _ _ T Hs) as E. rewrite E in *. destruct Hs as [Hp _].
        exact (rich_alt ps R _ _ Hp Hl' He).
  - left. assert (Hall : forall st, In st ss -> length (prims_of ps (p_output (fst st))) <= 1).
    { intros st Hin. destruct (Nat.le_gt_cases (length (prims_of ps (p_output (fst st)))) 1); auto.
      exfalso. assert (existsb (fun st : step => 1 <? length (prims_of ps (p_output (fst st)))) ss = true).
      { apply existsb_exists. exists st. split; auto. apply Nat.ltb_lt; auto. } congruence. }
    split; auto. unfold mut_replace_primitive, mbind. rewrite (primitives_ok _ _ _ _ W C).
    destruct (mread_all_ok s _ _ _ C) as (cs & Ecs & Mcs). rewrite Ecs.
    destruct (filter _ (enumerate cs)) as [|x l] eqn:Ef; [reflexivity|]. exfalso.
    assert (Hx : In x (filter (fun ic => prim_replaceable ps (snd ic)) (enumerate cs)))
      by (rewrite Ef; simpl; auto).
    apply filter_In in Hx as [Hx Hr]. destruct x as [i c]. apply enumerate_nth in Hx. apply nth_error_In in Hx.
    apply (in_map cell_step) in Hx. rewrite Mcs in Hx. specialize (Hall _ Hx).
    unfold prim_replaceable in Hr. apply Nat.ltb_lt in Hr. simpl in *. lia.
Qed.
Example C10_ex_main :
  exists ind' s', mut_replace_primitive ex_ind1 ex_ps (ex_state [1; 0; 0; 1]) = (Ok ind', s').
Proof. eexists. eexists. vm_compute. reflexivity. Qed.

(** C11: terminal crossover. *)
Lemma C11_crossover_terminals_main :
  forall ind1 ind2 s ls1 ss1 ls2 ss2,
    wf_heap (s_heap s) -> pipeline (s_heap s) ind1 ls1 ss1 -> pipeline (s_heap s) ind2 ls2 ss2 ->
    disjoint ls1 ls2 -> share_different_value ss1 ss2 ->
    exists s' ss1' ss2',
      crossover_terminals ind1 ind2 s = (Ok (ind1, ind2), s') /\
      pipeline (s_heap s') ind1 ls1 ss1' /\ pipeline (s_heap s') ind2 ls2 ss2' /\
      terminals_swapped ss1 ss2 ss1' ss2' /\
      same_except (ls1 ++ ls2) (s_heap s) (s_heap s').
Proof.
  intros ind1 ind2 s ls1 ss1 ls2 ss2 W C1 C2 D Sh.
  pose proof (wp_crossover_terminals ind1 ind2 s ls1 ss1 ls2 ss2 W C1 C2 D) as H. unfold wp in H.
  destruct (crossover_terminals ind1 ind2 s) as [[r|e] s'].
  - destruct H as (-> & K & ss1' & ss2' & P1 & P2 & TS). exists s', ss1', ss2'.
    split; auto. split; auto. split; auto. split; auto. apply K.
  - exfalso. destruct H as (_ & _ & H). apply shared_nil_iff in H. auto.
Qed.
Example C11_ex_main :
  share_different_value ex_long ex_short /\
  exists s', crossover_terminals ex_ind1 ex_ind2 (ex_state [0]) = (Ok (ex_ind1, ex_ind2), s').
Proof.
  split; [|eexists; vm_compute; reflexivity].
  exists ex_alpha1, ex_alpha2. simpl. split; auto. split; auto. split; auto. discriminate.
Qed.

(** C12: primitive crossover. *)
Lemma C12_crossover_primitives_main :
  forall ind1 ind2 s ls1 ss1 ls2 ss2,
    wf_heap (s_heap s) -> pipeline (s_heap s) ind1 ls1 ss1 -> pipeline (s_heap s) ind2 ls2 ss2 ->
    disjoint ls1 ls2 ->
    (2 <= length ss1 /\ 2 <= length ss2 ->
     exists s' ls1' ss1' ls2' ss2',
       crossover_primitives ind1 ind2 s = (Ok (ind1, ind2), s') /\
       pipeline (s_heap s') ind1 ls1' ss1' /\ pipeline (s_heap s') ind2 ls2' ss2' /\
       tails_swapped ss1 ss2 ss1' ss2' /\
       length ss1' + length ss2' = length ss1 + length ss2 /\
       incl ls1' (ls1 ++ ls2) /\ incl ls2' (ls1 ++ ls2) /\ disjoint ls1' ls2' /\
       same_except (ls1 ++ ls2) (s_heap s) (s_heap s')) /\
    (length ss1 < 2 \/ length ss2 < 2 ->
     exists s', crossover_primitives ind1 ind2 s = (Err IndexError, s') /\ s_heap s' = s_heap s).
Proof.
  intros ind1 ind2 s ls1 ss1 ls2 ss2 W C1 C2 D.
  pose proof (wp_crossover_primitives ind1 ind2 s ls1 ss1 ls2 ss2 W C1 C2 D) as H. unfold wp in H.
  destruct (crossover_primitives ind1 ind2 s) as [[r|e] s'].
  - destruct H as (-> & K & ls1' & ls2' & ss1' & ss2' & P1 & P2 & TS & I1 & I2 & D'). split.
    + intros _. exists s', ls1', ss1', ls2', ss2'. split; auto. split; auto. split; auto. split; auto.
      split; [apply crossed_lengths; left; auto|]. split; auto. split; auto. split; auto. apply K.
    + intros Hs. exfalso. destruct TS as (ha & ta & hb & tb & -> & -> & Na & Nb & Ta & Tb & _ & _).
      rewrite !app_length in Hs. destruct ha, ta, hb, tb; try congruence. simpl in *. lia.
  - destruct H as (-> & Hh & _ & Hs). split; [intros; lia|]. eauto.
Qed.
Example C12_ex_main :
  exists s', crossover_primitives ex_ind1 ex_ind2 (ex_state [2; 0]) = (Ok (ex_ind1, ex_ind2), s').
Proof. eexists. vm_compute. reflexivity. Qed.

(** C13 at the boundary is false: position = number of hyperparameters is
    accepted silently. *)
Lemma C13_replace_terminal_refuted_main :
  exists s ind ls ss t,
    wf_heap (s_heap s) /\ pipeline (s_heap s) ind ls ss /\
    nth_error (flat_map snd ss) 4 = None /\ replace_terminal ind 4 t s = (Ok tt, s).
Proof.
  exists (ex_state []), ex_ind1, [0;1;2;3], ex_long, ex_alpha1.
  split; [apply ex_wf|]. split; [apply ex_pipe1|]. split; [reflexivity|]. vm_compute. reflexivity.
Qed.
Lemma C13_replace_terminal_partial_main :
  forall ind s ls ss position t,
    wf_heap (s_heap s) -> pipeline (s_heap s) ind ls ss ->
    match nth_error (flat_map snd ss) position with
    | Some old =>
      if String.eqb (t_ident old) (t_ident t)
      then exists s' ss', replace_terminal ind position t s = (Ok tt, s') /\
             pipeline (s_heap s') ind ls ss' /\ value_changed_at position old t ss ss' /\
             same_except ls (s_heap s) (s_heap s')
      else replace_terminal ind position t s = (Err ValueError, s)
    | None =>
      if position =? length (flat_map snd ss)
      then replace_terminal ind position t s = (Ok tt, s) (* accepted, without effect *)
      else replace_terminal ind position t s = (Err ValueError, s)
    end.
Proof.
  intros ind s ls ss pos t W C.
  destruct (replace_terminal_cases ind s ls ss pos t W C) as
    [(old & En & [(Hid & s' & ss' & E & P & V & K & _)|(Hid & E)])|[(Hp & E)|(Hp & E)]].
  - rewrite En, Hid, String.eqb_refl. exists s', ss'. split; auto. split; auto. split; auto. apply K.
  - rewrite En. destruct (String.eqb_spec (t_ident old) (t_ident t)); [contradiction|auto].
  - assert (En : nth_error (flat_map snd ss) pos = None) by (apply nth_error_None; lia).
    rewrite En, Hp, Nat.eqb_refl. subst; auto.
  - assert (En : nth_error (flat_map snd ss) pos = None) by (apply nth_error_None; lia).
    rewrite En. destruct (Nat.eqb_spec pos (length (flat_map snd ss))); [lia|auto].
Qed.
Example C13_ex_main :
  exists s', replace_terminal ex_ind1 2 ex_thr2 (ex_state []) = (Ok tt, s').
Proof. eexists. vm_compute. reflexivity. Qed.

(** C14 is false out of range: the node is appended as an extra step. *)
Definition ex_state_extra : st := mkSt (ex_heap [ex_long; ex_short; [(ex_pca, [])]]) [] 2.
Lemma ex_extra_wf : wf_heap (s_heap ex_state_extra).
Proof.
  intros l H. change (h_next (s_heap ex_state_extra)) with 7 in H.
  do 7 (destruct l as [|l]; [lia|]). reflexivity.
Qed.
Lemma C14_replace_primitive_refuted_main :
  exists s ind ls ss new cn s' ls' ss',
    wf_heap (s_heap s) /\ pipeline (s_heap s) ind ls ss /\
    h_get (s_heap s) new = Some cn /\ ~ In new ls /\
    replace_primitive ind (length ss) new s = (Ok ind, s') /\
    pipeline (s_heap s') ind ls' ss' /\ length ss' = S (length ss).
Proof.
  exists ex_state_extra, ex_ind1, [0;1;2;3], ex_long, 6, (mkCell ex_pca DData []).
  eexists. eexists. eexists.
  split; [apply ex_extra_wf|]. split; [chain_tac|]. split; [reflexivity|].
  split; [simpl; intuition lia|]. split; [vm_compute; reflexivity|].
  split; [chain_tac|]. reflexivity.
Qed.
Lemma C14_replace_primitive_partial_main :
  forall ind s ls ss new cn position,
    wf_heap (s_heap s) -> pipeline (s_heap s) ind ls ss ->
    h_get (s_heap s) new = Some cn -> ~ In new ls -> position < length ss ->
    exists above old below, ss = above ++ old :: below /\ length above = position /\
      ((p_output (fst old) <> p_output (c_prim cn) /\
        replace_primitive ind position new s = (Err ValueError, s)) \/
       (p_output (fst old) = p_output (c_prim cn) /\
        exists ind' s' ls' below',
          replace_primitive ind position new s = (Ok ind', s') /\
          pipeline (s_heap s') ind' ls' (above ++ (c_prim cn, c_terms cn) :: below') /\
          same_pipeline below below' /\ i_id ind' = i_id ind /\
          same_except (new :: ls) (s_heap s) (s_heap s'))).
Proof.
  intros ind s ls ss new cn pos W C G Hn Hp.
  rewrite <- (chain_len _ _ _ _ C) in Hp.
  destruct (replace_primitive_in ind s ls ss new cn pos W C G Hn Hp)
    as (sa & p & sb & E & L & [[H1 H2]|(H1 & ind' & s' & ls' & E' & P & K & _ & _ & I1 & _)]).
  - exists sa, p, sb. auto.
  - exists sa, p, sb. split; auto. split; auto. right. split; auto. exists ind', s', ls', (map resort sb).
    split; auto. split; auto. split; [apply same_pipeline_resort|]. split; auto. apply K.
Qed.
Example C14_ex_main :
  wf_heap (s_heap ex_state_extra) /\ h_get (s_heap ex_state_extra) 6 = Some (mkCell ex_pca DData []) /\
  exists s', replace_primitive ex_ind1 1 6 ex_state_extra = (Ok ex_ind1, s').
Proof.
  split; [apply ex_extra_wf|]. split; [reflexivity|]. eexists. vm_compute. reflexivity.
Qed.

(** C15 is false: with max_pipeline_length = 1 an algorithm with fewer than two
    tunable hyperparameters cannot be mutated. *)
Definition ex_one : list step := [(ex_gnb, [])].
Definition ex_state_one : st := mkSt (ex_heap [ex_one]) [] 1.
Lemma C15_mutation_exists_refuted_main :
  exists s ind ls ss,
    wf_heap (s_heap s) /\ pipeline (s_heap s) ind ls ss /\
    pset_typed ex_ps /\ pset_rich ex_ps /\ pipeline_ok ex_ps ss /\ within (Some 1%Z) ss /\
    fst (random_valid_mutation ind ex_ps (Some 1%Z) s) = Err IndexError.
Proof.
  exists ex_state_one, ex_ind1, [0], ex_one.
  split; [intros l H; change (h_next (s_heap ex_state_one)) with 1 in H; destruct l; [lia|reflexivity]|].
  split; [chain_tac|]. split; [apply ex_typed|]. split; [apply ex_rich|].
  split; [split; [step_ok_tac|constructor]|]. split; [simpl; lia|]. vm_compute. reflexivity.
Qed.
(** Exactly when it fails (for limits of at least 1, in rich search spaces). *)
Lemma C15_mutation_exists_partial_main :
  forall ps max_length ind s ls ss,
    wf_heap (s_heap s) -> pipeline (s_heap s) ind ls ss -> pset_typed ps -> pset_rich ps ->
    pipeline_ok ps ss ->
    match max_length with Some m => (1 <= m)%Z | None => True end ->
    ((exists ind' m s', random_valid_mutation ind ps max_length s = (Ok (ind', m), s')) <->
     ~ (max_length = Some 1%Z /\ length ss = 1 /\ tunable ps ss <= 1)).
Proof.
  intros ps mx ind s ls ss W C T R Hok Hm. split.
  - intros (ind' & m & s' & E) (-> & L & Tn).
    pose proof (wp_ok _ _ _ _ _ _ E (wp_random_valid_mutation ps (Some 1%Z) ind s ls ss W C T))
      as (_ & _ & _ & _ & ls' & ss' & P & _ & Mu & Wi & Hc).
    revert E. unfold random_valid_mutation, mbind.
    rewrite (primitives_ok _ _ _ _ W C).
    destruct (mread_all_ok s _ _ _ C) as (cs & Ecs & Mcs). rewrite Ecs.
    assert (LC : length cs = 1) by (rewrite <- L, <- Mcs, map_length; auto).
    assert (Ha : available_mutations ps (Some 1%Z) cs = []).
    { unfold available_mutations. rewrite LC. cbv zeta. simpl (Z.of_nat 1).
      replace (1 <? 1)%Z with false by reflexivity.
      assert (H1 : length (filter (prim_replaceable ps) cs) <= 1)
        by (destruct cs as [|c [|d cs]]; simpl in *; try lia; destruct (prim_replaceable ps c); simpl; lia).
      assert (H2 : length (filter (term_replaceable ps) (flat_map c_terms cs)) <= 1).
      { rewrite flat_map_cells, Mcs. exact Tn. }
      destruct (Nat.ltb_spec 1 (length (filter (prim_replaceable ps) cs))); [lia|].
      destruct (Nat.ltb_spec 1 (length (filter (term_replaceable ps) (flat_map c_terms cs)))); [lia|].
      reflexivity. }
    rewrite Ha, mchoice_nil. discriminate.
  - intros Hno. pose proof (wp_random_valid_mutation ps mx ind s ls ss W C T) as H. unfold wp in H.
    destruct (random_valid_mutation ind ps mx s) as [[[i m]|e] s']; [eauto|].
    destruct H as (_ & _ & H). exfalso.
    apply (rich_mut_error ps mx ss e T R Hok) in H as [(_ & -> & L & Tn)|(_ & b & -> & Hb)]; [auto|lia].
Qed.
Example C15_ex_main :
  exists ind' m s', random_valid_mutation ex_ind1 ex_ps (Some 4%Z) (ex_state [1]) = (Ok (ind', m), s').
Proof. do 3 eexists. vm_compute. reflexivity. Qed.

(** C16 is false: OperatorSet.mutate raises AttributeError (a functools.partial
    has no __name__) on every over-long individual.  The in-place mutation itself
    does repair it, to exactly the allowed length. *)
Lemma overlong_mutation ps m ind s ls ss :
  wf_heap (s_heap s) -> pipeline (s_heap s) ind ls ss -> (1 <= m < Z.of_nat (length ss))%Z ->
  exists s' ls', random_valid_mutation ind ps (Some m) s
                   = (Ok (ind, MutShrinkBy (Z.of_nat (length ss) - m)), s') /\
    pipeline (s_heap s') ind ls' (firstn (Z.to_nat m) ss) /\ same_except ls (s_heap s) (s_heap s').
Proof.
  intros W C Hm. unfold random_valid_mutation, mbind. rewrite (primitives_ok _ _ _ _ W C).
  destruct (mread_all_ok s _ _ _ C) as (cs & Ecs & Mcs). rewrite Ecs.
  assert (LC : length cs = length ss) by (rewrite <- Mcs, map_length; auto).
  unfold available_mutations. rewrite LC. destruct (Z.ltb_spec m (Z.of_nat (length ss))); [|lia].
  set (k := (Z.of_nat (length ss) - m)%Z).
  assert (Ec : exists r, mchoice [MutShrinkBy k] s = (Ok (MutShrinkBy k), mkSt (s_heap s) r (s_uid s))).
  { unfold mchoice, rchoice. destruct (draw (s_rng s)) as [n r] eqn:Er.
    exists r. cbn [length]. rewrite Nat.mod_1_r. reflexivity. }
  destruct Ec as (r & Ec). rewrite Ec. cbn [run_mutator].
  set (s1 := mkSt (s_heap s) r (s_uid s)).
  destruct (mut_shrink_by ind s1 ls ss k W C) as [[Hk E]|[[Hk E]|(Hk & s' & ls' & ss' & E & K & P & I & _ & Sh)]];
    [subst k; lia|subst k; lia|].
  rewrite E. exists s', ls'. split; [reflexivity|].
  destruct Sh as (rm & Ess & Hrm & _).
  replace (firstn (Z.to_nat m) ss) with ss'; [split; auto; apply K|].
  assert (HL : length ss = length ss' + length rm) by (rewrite Ess, app_length; auto).
  rewrite Ess, firstn_app. replace (Z.to_nat m) with (length ss') by (subst k; lia).
  rewrite firstn_all, Nat.sub_diag. simpl. rewrite app_nil_r. auto.
Qed.
Lemma C16_mutate_overlong_refuted_main :
  forall max_retry done ps m ind s ls ss,
    wf_heap (s_heap s) -> pipeline (s_heap s) ind ls ss -> 0 < max_retry ->
    (1 <= m < Z.of_nat (length ss))%Z ->
    exists s', op_mutate max_retry done ps (Some m) ind s = (Err AttributeError, s').
Proof.
  intros n done ps m ind s ls ss W C Hn Hm.
  destruct n as [|n]; [lia|].
  destruct (copy_as_new_ok s ind ls ss W C) as (h1 & l1 & E1 & W1 & F1 & ls1 & C1 & N1).
  set (s1 := mkSt h1 (s_rng s) (S (s_uid s))) in *. set (i1 := mkInd l1 (s_uid s) [] ""%string) in *.
  assert (LN1 : length (map resort ss) = length ss) by (apply map_length).
  destruct (overlong_mutation ps m i1 s1 ls1 (map resort ss) W1 C1 ltac:(lia)) as (s' & ls' & E & P & S).
  exists s'. unfold op_mutate. cbn [try_until_new]. unfold mbind at 1. unfold mutate_with_log, mbind.
  rewrite E1, E. reflexivity.
Qed.
Lemma C16_mutate_in_place_overlong_partial_main :
  forall ps m ind s ls ss,
    wf_heap (s_heap s) -> pipeline (s_heap s) ind ls ss -> (1 <= m < Z.of_nat (length ss))%Z ->
    exists s' ls' mutator, random_valid_mutation ind ps (Some m) s = (Ok (ind, mutator), s') /\
      pipeline (s_heap s') ind ls' (firstn (Z.to_nat m) ss) /\ same_except ls (s_heap s) (s_heap s').
Proof.
  intros ps m ind s ls ss W C Hm. destruct (overlong_mutation ps m ind s ls ss W C Hm) as (s' & ls' & H).
  eauto.
Qed.
Example C16_ex_main :
  wf_heap (s_heap (ex_state [])) /\ pipeline (s_heap (ex_state [])) ex_ind1 [0; 1; 2; 3] ex_long /\
  (1 <= 2 < Z.of_nat (length ex_long))%Z.
Proof. split; [apply ex_wf|]. split; [apply ex_pipe1|]. simpl. lia. Qed.

(** C17: duplicate avoidance.  [attempts op s l s'] is a run of successful calls
    of the operator with the pipelines they gave. *)
Definition avoids_duplicates (op : M individual) (run : M individual) (max_retry : nat) (done : completed) : Prop :=
  forall s r s', run s = (r, s') ->
    match r with
    | Ok ind => exists rejected str,
        attempts op s (rejected ++ [(ind, str)]) s' /\ length rejected < max_retry /\
        Forall (fun p => In (snd p) done) rejected /\
        (~ In str done \/ length rejected + 1 = max_retry)
    | Err e => exists rejected s1,
        attempts op s rejected s1 /\ length rejected < max_retry /\
        Forall (fun p => In (snd p) done) rejected /\
        (op s1 = (Err e, s') \/ exists i, op s1 = (Ok i, s') /\ pipeline_str i s' = (Err e, s'))
    end.
Lemma try_avoids op n done : 0 < n -> avoids_duplicates op (try_until_new n done op None) n done.
Proof.
  intros Hn s r s' E. destruct r as [ind|e].
  - apply try_sound in E as [(-> & _)|H]; [lia|auto].
  - apply try_fails in E as [(-> & _)|H]; [lia|auto].
Qed.
Lemma C17_mutate_avoids_duplicates_main :
  forall max_retry done ps max_length ind, 0 < max_retry ->
    avoids_duplicates (mutate_with_log ps max_length ind) (op_mutate max_retry done ps max_length ind)
                      max_retry done.
Proof. intros. apply try_avoids; auto. Qed.
Lemma C17_mate_avoids_duplicates_main :
  forall max_retry done max_length ind1 ind2, 0 < max_retry ->
    avoids_duplicates (mate_with_log max_length ind1 ind2) (op_mate max_retry done max_length ind1 ind2)
                      max_retry done.
Proof. intros. apply try_avoids; auto. Qed.
(** the text compared with the evaluated ones is the text of the pipeline *)
Lemma C17_compared_text_main :
  forall ind s ls ss, wf_heap (s_heap s) -> pipeline (s_heap s) ind ls ss ->
    pipeline_str ind s = (Ok (text ss), s).
Proof. intros. eapply pipeline_str_ok; eauto. Qed.
Example C17_ex_main :
  exists ind s', op_mutate 3 [text (removelast ex_long)] ex_ps (Some 4%Z) ex_ind1 (ex_state [1; 0; 2; 0; 1; 1; 0])
                 = (Ok ind, s') /\ 2 < s_uid s'.
Proof. do 2 eexists. split; [vm_compute; reflexivity|]. simpl. lia. Qed.

(** C18: which crossovers are offered, and when random_crossover succeeds. *)
Lemma C18_valid_crossovers_main :
  forall ind1 ind2 s ls1 ss1 ls2 ss2,
    wf_heap (s_heap s) -> pipeline (s_heap s) ind1 ls1 ss1 -> pipeline (s_heap s) ind2 ls2 ss2 ->
    exists offered, valid_crossovers ind1 ind2 s = (Ok offered, s) /\
      (In CxTerminals offered <-> share_different_value ss1 ss2) /\
      (In CxPrimitives offered <-> 2 <= length ss1 /\ 2 <= length ss2).
Proof.
  intros ind1 ind2 s ls1 ss1 ls2 ss2 W C1 C2.
  destruct (valid_crossovers_ok ind1 ind2 s _ _ _ _ W C1 C2) as (xs & E & HT & HP).
  exists xs. split; auto. split; auto. rewrite HT, shared_nil_iff. split; [|tauto].
  intros H. destruct (shared_terminals MDifferent (flat_map snd ss1) (flat_map snd ss2)) as [|x l] eqn:Es.
  - exfalso. apply shared_nil_iff in Es. auto.
  - destruct x as [[i t1] [j t2]].
    assert (HI : In ((i, t1), (j, t2)) (shared_terminals MDifferent (flat_map snd ss1) (flat_map snd ss2)))
      by (rewrite Es; simpl; auto).
    apply shared_in in HI as (H1 & H2 & H3). unfold match_ok in H3. apply andb_true_iff in H3 as [H3 H4].
    apply String.eqb_eq in H3. apply negb_true_iff, Z.eqb_neq in H4.
    exists t1, t2. apply nth_error_In in H1, H2. auto.
Qed.
Lemma C18_random_crossover_main :
  forall max_length ind1 ind2 s ls1 ss1 ls2 ss2,
    wf_heap (s_heap s) -> pipeline (s_heap s) ind1 ls1 ss1 -> pipeline (s_heap s) ind2 ls2 ss2 ->
    disjoint ls1 ls2 ->
    ((exists r s', random_crossover ind1 ind2 max_length s = (Ok r, s')) <->
     within max_length ss1 /\ within max_length ss2 /\
     (share_different_value ss1 ss2 \/ 2 <= length ss1 /\ 2 <= length ss2)) /\
    (forall e s', random_crossover ind1 ind2 max_length s = (Err e, s') -> e = ValueError /\ s' = s).
Proof.
  intros mx ind1 ind2 s ls1 ss1 ls2 ss2 W C1 C2 D.
  pose proof (wp_random_crossover ind1 ind2 mx s ls1 ss1 ls2 ss2 W C1 C2 D) as H. unfold wp in H.
  destruct (random_crossover ind1 ind2 mx s) as [[r|e] s'].
  - split; [|discriminate]. split; [|eauto]. intros _.
    destruct H as (_ & X1 & X2 & l1 & l2 & t1 & t2 & P1 & P2 & Cr & _).
    apply exceeds_within_f in X1, X2. split; auto. split; auto.
    destruct Cr as [(ha & ta & hb & tb & -> & -> & Na & Nb & Ta & Tb & _)|Cr].
    + right. rewrite !app_length. destruct ha, ta, hb, tb; try congruence. simpl. lia.
    + left. destruct Cr as (i & j & a & b & Hid & Hne & V1 & V2).
      destruct V1 as (pre & p & x & y & post & E & _).
      destruct V2 as (pre2 & p2 & x2 & y2 & post2 & E2 & _).
      exists a, b. rewrite E, E2, !flat_map_app. cbn [flat_map snd].
      split; [rewrite !in_app_iff; simpl; auto 6|]. split; [rewrite !in_app_iff; simpl; auto 6|]. auto.
  - destruct H as (-> & -> & H). split; [|intros; inversion H0; auto].
    split; [intros (r & s' & ?); discriminate|]. intros (B1 & B2 & B3). exfalso.
    destruct H as [H|[H|[H1 H2]]].
    + apply exceeds_within in H. auto.
    + apply exceeds_within in H. auto.
    + apply shared_nil_iff in H1. tauto.
Qed.
Example C18_ex_main :
  share_different_value ex_long ex_short /\ not (share_different_value ex_long ex_one) /\
  exists s', valid_crossovers ex_ind1 ex_ind2 (ex_state []) = (Ok [CxTerminals; CxPrimitives], s').
Proof.
  split; [|split; [|eexists; vm_compute; reflexivity]].
  - exists ex_alpha1, ex_alpha2. simpl. split; auto. split; auto. split; auto. discriminate.
  - intros (a & b & _ & H & _). destruct H.
Qed.

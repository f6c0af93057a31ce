(*IMPORTS*)
From Verif Require Import Base Gp_Model Gp_Spec Cov_Spec Gp_Examples.
Require Import Permutation.
Open Scope nat_scope.
(*END*)
From Verif Require Import Gp_Proofs Gp_Proofs2 Gp_Proofs3 Gp_Proofs4 Gp_Proofs5 Cov_Proofs.

(** C91: a new individual is a pipeline of the search space with between one
    step and the limit (three steps without a limit), a fresh id, no parents and
    origin "new"; nothing existing changes.  A limit below one is a ValueError. *)
Lemma C91_new_individual_main :
  forall ps max_length s,
    wf_heap (s_heap s) ->
    (forall ind s', op_individual ps max_length s = (Ok ind, s') ->
       exists ls ss, pipeline (s_heap s') ind ls ss /\ pipeline_ok ps ss /\ 1 <= length ss /\
         match max_length with
         | Some m => (Z.of_nat (length ss) <= m)%Z
         | None => length ss <= 3
         end /\
         s_uid s <= i_id ind < s_uid s' /\ i_parents ind = [] /\ i_origin ind = "new"%string /\
         all_new (s_heap s) ls /\ extends s s') /\
    (forall m, max_length = Some m -> (m < 1)%Z -> fst (op_individual ps max_length s) = Err ValueError) /\
    (pset_inhabited ps -> prims_of ps PREDICTION <> [] -> prims_of ps DATA <> [] ->
     match max_length with Some m => (1 <= m)%Z | None => True end ->
       exists ind s', op_individual ps max_length s = (Ok ind, s')).
Proof.
  intros ps mx s W. pose proof (wp_op_individual ps mx s W) as H. split; [|split].
  - intros ind s' E. unfold wp in H. rewrite E in H. destruct H as (X & I & P & O & ls & ss & C & N & Hok & _ & L).
    exists ls, ss. split; auto. split; auto. split; [lia|]. split; [destruct mx; cbn [max_start_length] in L; lia|]. auto 10.
  - intros m -> Hm. unfold op_individual, mbind, create_random_expression, mbind, mrandint, rrandint. cbn [max_start_length].
    destruct (Z.ltb_spec m 1); [reflexivity|lia].
  - intros Hi Hp Hd Hm. unfold wp in H. destruct (op_individual ps mx s) as [[ind|e] s'] eqn:E; [eauto|]. exfalso.
    assert (NN : forall k, prims_of ps k <> [] -> ~ no_node ps k None).
    { intros k Hk [Ek|(p & i & Hpi & Hin & Ek)].
      - unfold candidates in Ek. apply Hk. destruct (prims_of ps k); auto. discriminate.
      - apply filter_In in Hpi as [Hpi _]. exact (Hi _ _ _ Hpi Hin Ek). }
    destruct H as (_ & [(_ & L)|(_ & [K|[_ K]])]); [destruct mx; cbn [max_start_length] in L; lia|apply (NN _ Hp K)|apply (NN _ Hd K)].
Qed.
Example C91_ex_main : pset_inhabited ex_ps /\ prims_of ex_ps DATA <> [] /\
  exists ind s' ls, op_individual ex_ps (Some 3%Z) (ex_state [2; 0; 1; 1; 0; 1; 1]) = (Ok ind, s') /\
    i_id ind = 2 /\ primitives ind s' = (Ok ls, s') /\ length ls = 3.
Proof.
  split; [apply ex_inhabited|]. split; [discriminate|].
  remember (op_individual ex_ps (Some 3%Z) (ex_state [2; 0; 1; 1; 0; 1; 1])) as o eqn:E. vm_compute in E. subst o.
  do 3 eexists. split; [reflexivity|]. split; [reflexivity|]. split; [vm_compute; reflexivity|reflexivity].
Qed.

(** C92: what the operators that the search calls return.  mutate: one mutation
    of (a copy of) the parent, logged under the name of that mutation. *)
Lemma C92_mutate_main :
  forall max_retry done ps max_length ind s ls ss ind' s',
    0 < max_retry -> wf_heap (s_heap s) -> pipeline (s_heap s) ind ls ss -> pset_typed ps ->
    op_mutate max_retry done ps max_length ind s = (Ok ind', s') ->
    exists m ls' ss0 ss',
      same_pipeline ss ss0 /\ mutated ps m ss0 ss' /\ pipeline (s_heap s') ind' ls' ss' /\
      logged_as m (i_origin ind') /\ i_parents ind' = [i_id ind] /\
      s_uid s <= i_id ind' < s_uid s' /\ within max_length ss' /\
      all_new (s_heap s) ls' /\ extends s s'.
Proof.
  intros n done ps mx ind s ls ss ind' s' Hn W C T E.
  pose proof (wp_op_mutate n done ps mx ind s ls ss W C T Hn) as H. unfold wp in H. rewrite E in H.
  destruct H as (X & I1 & I2 & I3 & m & ls' & ss0 & ss' & P & N & Hm & S & O & M & Wi).
  exists m, ls', ss0, ss'. split; auto. split; auto. split; auto. split; [|auto 10].
  destruct m; simpl in Hm; try discriminate; injection Hm as <-; constructor.
Qed.
Example C92_mutate_ex_main :
  exists ind' s', op_mutate 50 [] ex_ps (Some 4%Z) ex_ind1 (ex_state [1; 0; 2; 0; 1; 1; 0]) = (Ok ind', s') /\
    i_origin ind' = "mut_shrink"%string.
Proof.
  remember (op_mutate 50 [] ex_ps (Some 4%Z) ex_ind1 (ex_state [1; 0; 2; 0; 1; 1; 0])) as o eqn:E. vm_compute in E. subst o.
  do 2 eexists. split; reflexivity.
Qed.
(** mate: the first result of one crossover of (copies of) the parents. *)
Lemma C92_mate_main :
  forall max_retry done max_length ind1 ind2 s ls1 ss1 ls2 ss2 ind' s',
    0 < max_retry -> wf_heap (s_heap s) -> pipeline (s_heap s) ind1 ls1 ss1 -> pipeline (s_heap s) ind2 ls2 ss2 ->
    op_mate max_retry done max_length ind1 ind2 s = (Ok ind', s') ->
    exists ls' ss10 ss20 ss' other,
      same_pipeline ss1 ss10 /\ same_pipeline ss2 ss20 /\ crossed ss10 ss20 ss' other /\
      pipeline (s_heap s') ind' ls' ss' /\
      i_origin ind' = "cx"%string /\ i_parents ind' = [i_id ind1; i_id ind2] /\
      s_uid s <= i_id ind' < s_uid s' /\ all_new (s_heap s) ls' /\ extends s s'.
Proof.
  intros n done mx ind1 ind2 s ls1 ss1 ls2 ss2 ind' s' Hn W C1 C2 E.
  pose proof (wp_op_mate n done mx ind1 ind2 s ls1 ss1 ls2 ss2 W C1 C2 Hn) as H. unfold wp in H. rewrite E in H.
  destruct H as (X & I1 & I2 & I3 & I4 & I5 & ls' & a & b & ss' & o & P & N & S1 & _ & S2 & _ & Cr).
  exists ls', a, b, ss', o. auto 12.
Qed.
Example C92_mate_ex_main :
  exists ind' s', op_mate 50 [] (Some 4%Z) ex_ind1 ex_ind2 (ex_state [1; 2; 0]) = (Ok ind', s').
Proof. do 2 eexists. vm_compute. reflexivity. Qed.

Lemma possible_reach {A} (m : M A) h u (Q : A -> heap -> Prop) : reach m h u (fun a s' => Q a (s_heap s')) -> possible m h u Q.
Proof. intros (r & a & s' & H & E). exists r, a, s'. auto. Qed.
Lemma reach_mono {A} (m : M A) h u (Q Q' : A -> st -> Prop) : reach m h u Q -> (forall a s', Q a s' -> Q' a s') -> reach m h u Q'.
Proof. intros (r & a & s' & H & E) I. exists r, a, s'. auto. Qed.
Lemma same_step_refl (s : step) : same_step s s.
Proof. split; auto. Qed.
Lemma equivalent_refl ss : equivalent ss ss.
Proof. induction ss; constructor; auto using same_step_refl. Qed.

(** C93: every outcome the operators are meant to have does occur for some
    random numbers.  Creation: every pipeline of the search space within the
    length limits. *)
Lemma C93_create_main :
  forall ps min_length max_length h u ss,
    wf_heap h -> pipeline_ok ps ss -> (min_length <= Z.of_nat (length ss) <= max_length)%Z ->
    possible (create_random_expression ps min_length max_length) h u
      (fun l h' => exists ls ss', chain h' (DRef l) ls ss' /\ equivalent ss ss').
Proof.
  intros ps lo hi h u ss W Hok Hl. apply possible_reach.
  eapply reach_mono; [apply can_end; apply (can_create ps lo hi h u ss W Hok Hl)|]. intros a s' H. exact H.
Qed.
Lemma C93_individual_main :
  forall ps max_length h u ss,
    wf_heap h -> pipeline_ok ps ss ->
    match max_length with Some m => (Z.of_nat (length ss) <= m)%Z | None => length ss <= 3 end ->
    possible (op_individual ps max_length) h u
      (fun ind h' => exists ls ss', pipeline h' ind ls ss' /\ equivalent ss ss').
Proof.
  intros ps mx h u ss W Hok Hl. apply possible_reach. unfold op_individual.
  assert (1 <= length ss) by (destruct ss; simpl in *; [contradiction|lia]).
  eapply can_reach; [apply (can_create ps 1 (max_start_length mx) h u ss W Hok); destruct mx; cbn [max_start_length]; lia|].
  intros l h' u' (ls & ss' & C & S). eexists [], _, _. split; [|reflexivity]. exists ls, ss'. split; auto.
Qed.
Example C93_create_ex_main : pipeline_ok ex_ps ex_short /\ (1 <= Z.of_nat (length ex_short) <= 3)%Z.
Proof. split; [apply ex_ok2|]. vm_compute. split; discriminate. Qed.

Lemma mutated_reach ps m ind h u ls ss ss' :
  wf_heap h -> pipeline h ind ls ss -> pset_typed ps -> pipeline_ok ps ss -> mutated ps m ss ss' ->
  match m with MutShrinkBy _ => False | _ => True end ->
  reach (run_mutator m ind ps) h u (fun ind' s' => exists ls' ss'', pipeline (s_heap s') ind' ls' ss'' /\ equivalent ss' ss'').
Proof.
  intros W C T Hok M Hk. destruct m; cbn [run_mutator mutated] in *; try contradiction.
  - destruct M as (pre & old & new & post & post' & -> & -> & F & _ & Hn & _ & _ & Hne).
    eapply reach_mono; [apply (reach_replace_primitive ps ind h u ls pre old new post W C T); auto|].
    + destruct T as [T1 T2]. destruct pre as [|q pre]; simpl in Hok.
      * destruct Hok as [[Hp _] _]. rewrite (T1 _ _ Hp). exact Hp.
      * destruct Hok as [_ Hok]. apply Forall_app in Hok as [_ Hok]. inversion Hok as [|? ? [Hp _] ?]; subst. rewrite (T1 _ _ Hp). exact Hp.
    + intros ind' s' (ls' & new' & post'' & S1 & S2 & P). exists ls', (pre ++ new' :: post''). split; auto.
      apply Forall2_app; [apply equivalent_refl|]. constructor; auto.
      clear - F S2. revert post'' S2. induction F as [|x y l l' [A1 A2] F IH]; intros p2 S2; inversion S2 as [|? z ? ? [B1 B2] ?]; subst; constructor; auto.
      split; [congruence|]. eapply perm_trans; [apply Permutation_sym; exact A2|exact B2].
  - destruct M as (pre & new & post & -> & Hne & Hn & _ & ->).
    eapply reach_mono; [apply (reach_insert ps ind h u ls pre new post W C Hne Hn)|].
    intros ind' s' (-> & ls' & new' & S & P). exists ls', (pre ++ new' :: post). split; auto.
    apply Forall2_app; [apply equivalent_refl|]. constructor; auto. apply equivalent_refl.
  - destruct M as (k & Hk' & rm & -> & <- & Hne).
    assert (length ss' <> 0) by (destruct ss'; simpl; [congruence|lia]).
    eapply reach_mono; [apply (reach_shrink ind h u ls (ss' ++ rm) (length ss') W C); rewrite app_length in *; lia|].
    intros ind' s' (-> & ls' & P). exists ls', ss'. rewrite firstn_app, Nat.sub_diag, firstn_all in P. simpl in P. rewrite app_nil_r in P.
    split; auto. apply equivalent_refl.
  - destruct M as (i & old & new & V & Hin & Hv).
    eapply reach_mono; [apply (reach_replace_terminal ps ind h u ls ss ss' i old new W C T Hok V Hin Hv)|].
    intros ind' s' (-> & P). exists ls, ss'. split; auto. apply equivalent_refl.
Qed.
(** Every single mutation: any position, any replacement. *)
Lemma C93_mutations_main :
  forall ps m ind h u ls ss ss',
    wf_heap h -> pipeline h ind ls ss -> pset_typed ps -> pipeline_ok ps ss -> mutated ps m ss ss' ->
    (forall k, m <> MutShrinkBy k) ->
    possible (run_mutator m ind ps) h u
      (fun ind' h' => exists ls' ss'', pipeline h' ind' ls' ss'' /\ equivalent ss' ss'').
Proof.
  intros ps m ind h u ls ss ss' W C T Hok M Hk. apply possible_reach.
  eapply reach_mono; [apply (mutated_reach ps m ind h u ls ss ss' W C T Hok M)|auto].
  destruct m; auto. exact (Hk _ eq_refl).
Qed.
(** random_valid_mutation_in_place chooses each of them, provided the result is
    within the limit and (for replacements) the pipeline has two places where one
    is possible. *)
Lemma C93_random_mutation_main :
  forall ps max_length m ind h u ls ss ss',
    wf_heap h -> pipeline h ind ls ss -> pset_typed ps -> pipeline_ok ps ss -> mutated ps m ss ss' ->
    (forall k, m <> MutShrinkBy k) -> within max_length ss -> within max_length ss' ->
    (m = MutReplacePrimitive -> 2 <= swappable ps ss) -> (m = MutReplaceTerminal -> 2 <= tunable ps ss) ->
    possible (random_valid_mutation ind ps max_length) h u
      (fun im h' => snd im = m /\ exists ls' ss'', pipeline h' (fst im) ls' ss'' /\ equivalent ss' ss'').
Proof.
  intros ps mx m ind h u ls ss ss' W C T Hok M Hk Wi Wi' H1 H2. apply possible_reach.
  unfold random_valid_mutation. eapply can_reach; [apply can_det; intros r; apply (primitives_ok ind (mkSt h r u) _ _ W C)|].
  intros x h' u' (-> & -> & ->). destruct (read_all_any _ _ _ _ C) as (cs & Ecs & Mcs).
  eapply can_reach; [apply can_det; intros r; apply Ecs|]. intros x h' u' (-> & -> & ->).
  assert (LC : length cs = length ss) by (rewrite <- Mcs, map_length; auto).
  assert (EX : exceeds mx (length cs) = false).
  { unfold exceeds, within in *. destruct mx; auto. apply Z.ltb_ge. lia. }
  eapply can_reach; [apply (can_choice _ m)|].
  - apply available_in. destruct m; cbv zeta; cbn [mutated] in M.
    + split; auto. specialize (H1 eq_refl). unfold swappable in H1. rewrite <- Mcs in H1. clear - H1.
      assert (E : forall cs, length (filter (fun st : step => 1 <? length (prims_of ps (p_output (fst st)))) (map cell_step cs)) = length (filter (prim_replaceable ps) cs)).
      { induction cs0 as [|c l IH]; simpl; auto. unfold prim_replaceable at 1. destruct (1 <? length (prims_of ps (p_output (c_prim c)))); simpl; auto. }
      rewrite E in H1. lia.
    + destruct mx as [b|]; auto. right. exists b. split; auto. destruct M as (pre & new & post & -> & _ & _ & _ & ->).
      unfold within in *. rewrite LC, !app_length in *. simpl in *. lia.
    + split; auto. destruct M as (k & Hk' & _). lia.
    + split; auto. specialize (H2 eq_refl). unfold tunable in H2. rewrite flat_map_cells, Mcs. unfold term_replaceable. lia.
    + exfalso. exact (Hk _ eq_refl).
  - intros x h' u' (-> & -> & ->).
    destruct (mutated_reach ps m ind h u ls ss ss' W C T Hok M) as (r & ind' & s' & Q & E); [destruct m; auto; exact (Hk _ eq_refl)|].
    exists r, (ind', m), s'. split; [split; auto|]. unfold mbind. rewrite E. reflexivity.
Qed.
Example C93_mutations_ex_main : pipeline_ok ex_ps ex_long /\ 2 <= swappable ex_ps ex_long /\ 2 <= tunable ex_ps ex_long /\
  mutated ex_ps MutShrink ex_long (firstn 2 ex_long).
Proof.
  split; [apply ex_ok1|]. split; [vm_compute; lia|]. split; [vm_compute; lia|].
  exists 2. split; [simpl; lia|]. exists (skipn 2 ex_long). split; [reflexivity|]. split; [reflexivity|discriminate].
Qed.
(** Every crossover of two individuals. *)
Lemma C93_crossover_main :
  forall ind1 ind2 h u ls1 ls2 ss1 ss2 ss1' ss2' max_length,
    wf_heap h -> pipeline h ind1 ls1 ss1 -> pipeline h ind2 ls2 ss2 -> disjoint ls1 ls2 ->
    crossed ss1 ss2 ss1' ss2' -> within max_length ss1 -> within max_length ss2 -> within max_length ss1' ->
    possible (random_crossover ind1 ind2 max_length) h u
      (fun r h' => r = (ind1, ind2) /\ exists ls1' ls2', pipeline h' ind1 ls1' ss1' /\ pipeline h' ind2 ls2' ss2').
Proof.
  intros ind1 ind2 h u ls1 ls2 ss1 ss2 ss1' ss2' mx W C1 C2 D X W1 W2 W1'. apply possible_reach.
  assert (EX : forall ss (n : nat), within mx ss -> n = length ss -> exceeds mx n = false).
  { intros ss n H ->. unfold exceeds, within in *. destruct mx; auto. apply Z.ltb_ge. lia. }
  unfold random_crossover.
  eapply can_reach; [apply can_det; intros r; apply (primitives_ok ind1 (mkSt h r u) _ _ W C1)|]. intros x h' u' (-> & -> & ->).
  rewrite (EX ss1) by (auto; apply (chain_len _ _ _ _ C1)).
  eapply can_reach; [apply can_det; intros r; apply (primitives_ok ind2 (mkSt h r u) _ _ W C2)|]. intros x h' u' (-> & -> & ->).
  rewrite (EX ss2) by (auto; apply (chain_len _ _ _ _ C2)).
  eapply can_reach.
  { apply can_det. intros r. unfold valid_crossovers, mbind. rewrite (terminals_ok ind1 (mkSt h r u) _ _ W C1).
    rewrite (terminals_ok ind2 (mkSt h r u) _ _ W C2). rewrite (primitives_ok ind1 (mkSt h r u) _ _ W C1). rewrite (primitives_ok ind2 (mkSt h r u) _ _ W C2). reflexivity. }
  intros x h' u' (-> & -> & ->).
  set (choices := _ ++ _).
  assert (K : exists x, In x choices /\ reach (run_crossover x ind1 ind2) h u (fun r s' => r = (ind1, ind2) /\ wf_heap (s_heap s') /\ exists ls1' ls2',
    pipeline (s_heap s') ind1 ls1' ss1' /\ pipeline (s_heap s') ind2 ls2' ss2')).
  { assert (WF : forall x r s', run_crossover x ind1 ind2 (mkSt h r u) = (Ok (ind1, ind2), s') -> wf_heap (s_heap s')).
    { intros [|] r s' E; cbn [run_crossover] in E.
      - pose proof (wp_ok _ _ _ _ _ _ E (wp_crossover_terminals ind1 ind2 (mkSt h r u) ls1 ss1 ls2 ss2 W C1 C2 D)) as (_ & (Wx & _) & _). exact Wx.
      - pose proof (wp_ok _ _ _ _ _ _ E (wp_crossover_primitives ind1 ind2 (mkSt h r u) ls1 ss1 ls2 ss2 W C1 C2 D)) as (_ & (Wx & _) & _). exact Wx. }
    destruct X as [X|X].
    - exists CxPrimitives. split.
      + unfold choices. apply in_or_app. right. rewrite (chain_len _ _ _ _ C1), (chain_len _ _ _ _ C2).
        destruct X as (ha & ta & hb & tb & -> & -> & A & B & A2 & B2 & _). rewrite !app_length.
        destruct ha, ta, hb, tb; try congruence. simpl length. simpl app.
        destruct (Nat.leb_spec 2 (S (length ha) + S (length ta))); [|lia]. destruct (Nat.leb_spec 2 (S (length hb) + S (length tb))); [|lia]. left; auto.
      + destruct (reach_swap_tails ind1 ind2 h u ls1 ls2 ss1 ss2 ss1' ss2' W C1 C2 D X) as (r & a & s' & (-> & Q) & E).
        exists r, (ind1, ind2), s'. split; auto. split; auto. split; auto. apply (WF CxPrimitives r). exact E.
    - exists CxTerminals. split.
      + unfold choices. apply in_or_app. left. destruct (shared_terminals MDifferent (flat_map snd ss1) (flat_map snd ss2)) eqn:Es; [|left; auto].
        apply shared_nil_iff in Es. exfalso. apply Es. destruct X as (i & j & t1 & t2 & Hid & Hv & V1 & V2).
        exists t1, t2. apply vc_nth, nth_error_In in V1, V2. auto.
      + destruct (reach_swap_terminals ind1 ind2 h u ls1 ls2 ss1 ss2 ss1' ss2' W C1 C2 D X) as (r & a & s' & (-> & Q) & E).
        exists r, (ind1, ind2), s'. split; auto. split; auto. split; auto. apply (WF CxTerminals r). exact E. }
  destruct K as (x & Hx & (r & a & s' & (-> & Ws & l1 & l2 & P1 & P2) & E)).
  destruct choices as [|z zs]; [destruct Hx|].
  eapply can_reach; [apply (can_choice _ x); exact Hx|]. intros y h' u' (-> & -> & ->).
  exists r, (ind1, ind2), s'. split; [split; auto; exists l1, l2; auto|].
  unfold mbind. rewrite E. cbn [fst snd]. rewrite (primitives_ok ind1 s' _ _ Ws P1).
  rewrite (EX ss1') by (auto; apply (chain_len _ _ _ _ P1)). reflexivity.
Qed.
Example C93_crossover_ex_main : exists a b, tails_swapped ex_long ex_short a b /\ disjoint [0; 1; 2; 3] [4; 5].
Proof.
  exists (firstn 1 ex_long ++ skipn 1 ex_short), (firstn 1 ex_short ++ skipn 1 ex_long). split; [|apply ex_disjoint].
  exists (firstn 1 ex_long), (skipn 1 ex_long), (firstn 1 ex_short), (skipn 1 ex_short).
  repeat (split; [reflexivity || discriminate|]). split; reflexivity.
Qed.

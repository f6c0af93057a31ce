(** What the random operators can produce, for a suitable choice of random numbers. *)
From Verif Require Import Base Gp_Model Gp_Spec Gp_Proofs Gp_Proofs2 Gp_Proofs3 Gp_Proofs4.
Require Import Permutation Sorted.
Open Scope nat_scope.

(** [m] can return [a] and heap [h'], having used up a certain prefix of the random numbers. *)
Definition can {A} (m : M A) (h : heap) (u : nat) (Q : A -> heap -> nat -> Prop) : Prop :=
  exists r a h' u', Q a h' u' /\ forall r', m (mkSt h (r ++ r') u) = (Ok a, mkSt h' r' u').
Definition reach {A} (m : M A) (h : heap) (u : nat) (Q : A -> st -> Prop) : Prop :=
  exists r a s', Q a s' /\ m (mkSt h r u) = (Ok a, s').

Lemma can_bind {A B} (m : M A) (k : A -> M B) h u Q Q' :
  can m h u Q -> (forall a h' u', Q a h' u' -> can (k a) h' u' Q') -> can (mbind m k) h u Q'.
Proof.
  intros (r & a & h' & u' & HQ & E) H. destruct (H a h' u' HQ) as (r2 & b & h2 & u2 & HQ2 & E2).
  exists (r ++ r2), b, h2, u2. split; auto. intros r'. unfold mbind. rewrite <- app_assoc, E. apply E2.
Qed.
Lemma can_reach {A B} (m : M A) (k : A -> M B) h u Q (Q' : B -> st -> Prop) :
  can m h u Q -> (forall a h' u', Q a h' u' -> reach (k a) h' u' Q') -> reach (mbind m k) h u Q'.
Proof.
  intros (r & a & h' & u' & HQ & E) H. destruct (H a h' u' HQ) as (r2 & b & s2 & HQ2 & E2).
  exists (r ++ r2), b, s2. split; auto. unfold mbind. rewrite E. exact E2.
Qed.
Lemma can_end {A} (m : M A) h u Q : can m h u Q -> reach m h u (fun a s' => Q a (s_heap s') (s_uid s')).
Proof. intros (r & a & h' & u' & HQ & E). exists r, a, (mkSt h' [] u'). split; auto. rewrite <- (app_nil_r r). apply E. Qed.
Lemma can_det {A} (m : M A) h u a : (forall r, m (mkSt h r u) = (Ok a, mkSt h r u)) ->
  can m h u (fun a' h' u' => a' = a /\ h' = h /\ u' = u).
Proof. intros H. exists [], a, h, u. split; auto. Qed.
Lemma can_ret {A} (a : A) h u : can (mret a) h u (fun a' h' u' => a' = a /\ h' = h /\ u' = u).
Proof. apply can_det. reflexivity. Qed.
Lemma can_choice {A} (l : list A) x h u : In x l -> can (mchoice l) h u (fun a' h' u' => a' = x /\ h' = h /\ u' = u).
Proof.
  intros H. apply In_nth_error in H as (k & H). exists [k], x, h, u. split; auto. intros r'.
  assert (L : k < length l) by (apply nth_error_Some; congruence).
  unfold mchoice, rchoice. destruct l as [|y l]; [simpl in L; lia|]. cbn [s_rng app draw].
  rewrite Nat.mod_small by auto. rewrite H. reflexivity.
Qed.
Lemma can_randint a b k h u : (a <= k <= b)%Z -> can (mrandint a b) h u (fun a' h' u' => a' = k /\ h' = h /\ u' = u).
Proof.
  intros H. exists [Z.to_nat (k - a)], k, h, u. split; auto. intros r'. unfold mrandint, rrandint.
  destruct (Z.ltb_spec b a); [lia|]. cbn [s_rng app draw]. rewrite Z2Nat.id by lia. rewrite Z.mod_small by lia.
  f_equal. f_equal. lia.
Qed.
Lemma can_terminals ps : forall ks ts h u, Forall2 (fun i t => In t (terms_of ps i)) ks ts ->
  can (random_terminals ps ks) h u (fun a' h' u' => a' = ts /\ h' = h /\ u' = u).
Proof.
  induction ks as [|k ks IH]; intros ts h u H; inversion H as [|? t ? ts' H1 H2]; subst; simpl; [apply can_ret|].
  eapply can_bind; [apply (can_choice _ t); auto|]. intros a h' u' (-> & -> & ->).
  eapply can_bind; [apply (IH ts'); auto|]. intros a h' u' (-> & -> & ->). apply can_ret.
Qed.
Lemma can_node ps out ex p ts h u : In p (candidates ps out ex) -> Forall2 (fun i t => In t (terms_of ps i)) (p_input p) ts ->
  can (random_primitive_node ps out ex) h u
    (fun l h' u' => l = h_next h /\ h' = alloc h (mkCell p DData (py_sorted term_leb ts)) /\ u' = u).
Proof.
  intros Hp Ht. unfold random_primitive_node. fold (candidates ps out ex).
  eapply can_bind; [apply (can_choice _ p); auto|]. intros a h' u' (-> & -> & ->).
  eapply can_bind; [apply (can_terminals ps _ ts); auto|]. intros a h' u' (-> & -> & ->).
  exists [], (h_next h), (alloc h (mkCell p DData (py_sorted term_leb ts))), u. split; auto.
Qed.
Lemma step_same_sorted (st : step) ts : Permutation (snd st) ts -> same_step st (fst st, py_sorted term_leb ts).
Proof. intros H. split; auto. simpl. eapply perm_trans; [exact H|apply py_sorted_perm]. Qed.
Lemma no_exclusion ps k p : In p (prims_of ps k) -> In p (candidates ps k None).
Proof. intros H. apply filter_In. split; auto. Qed.

(** * Creation *)
Lemma can_extend ps : forall ss h u d a l done,
  wf_heap h -> chain h d (a ++ [l]) done -> Forall (step_ok ps DATA) ss ->
  can (extend_chain (length ss) ps l) h u
    (fun _ h' u' => exists ls' ss', chain h' d (a ++ l :: ls') (done ++ ss') /\ Forall2 same_step ss ss').
Proof.
  induction ss as [|[p ts0] ss IH]; intros h u d a l done W C F; cbn [length extend_chain].
  - exists [], tt, h, u. split; [|reflexivity]. exists [], []. rewrite app_nil_r. split; auto.
  - inversion F as [|? ? (Hp & ts & HP & Ht) F']; subst. cbn [fst snd] in *.
    eapply can_bind; [apply (can_node ps DATA None p ts); auto; apply no_exclusion; auto|].
    intros new h1 u1 (-> & -> & ->).
    set (c0 := mkCell p DData (py_sorted term_leb ts)). set (h1 := alloc h c0). set (new := h_next h).
    assert (W1 : wf_heap h1) by (apply wf_alloc; auto).
    assert (Hls : forall x, In x (a ++ [l]) -> x < new) by (apply (chain_lt _ _ _ _ W C)).
    destruct (chain_at _ _ _ _ _ _ C) as (sa & c & sb & Ess & S & G & C' & N1 & N2 & L).
    assert (Hl : l < new) by (apply Hls; rewrite in_app_iff; simpl; auto).
    assert (G1 : h_get h1 l = Some c) by (unfold h1; rewrite alloc_other; auto; fold new; lia).
    set (h2 := h_set h1 l (mkCell (c_prim c) (DRef new) (c_terms c))).
    assert (W2 : wf_heap h2) by (eapply wf_h_set; eauto).
    inversion C' as [Hd Hl1 Hs1|]; subst sb.
    assert (C2 : chain h2 d ((a ++ [l]) ++ [new]) (done ++ [(p, py_sorted term_leb ts)])).
    { rewrite Ess, <- !app_assoc. simpl.
      eapply (chain_rebuild h h2 d a sa l (mkCell (c_prim c) (DRef new) (c_terms c)) [new] [(p, py_sorted term_leb ts)] S).
      - intros x Hx. assert (x < new) by (apply Hls; rewrite in_app_iff; auto).
        unfold h2. rewrite h_set_other by (intros ->; contradiction). apply alloc_other. fold new; lia.
      - apply h_set_same.
      - simpl. change (p, py_sorted term_leb ts) with (c_prim c0, c_terms c0).
        econstructor; [|constructor]. unfold h2. rewrite h_set_other by lia. apply alloc_same. }
    eapply (can_bind _ _ _ _ (fun _ h' u' => h' = h2 /\ u' = u)).
    { exists [], tt, h2, u. split; auto. intros r'. apply (set_data_ok (mkSt h1 r' u)). exact G1. }
    intros _ h' u' (-> & ->).
    destruct (IH h2 u d (a ++ [l]) new _ W2 C2 F') as (r & x & h3 & u3 & (ls' & ss' & C3 & F2) & E).
    exists r, x, h3, u3. split; auto. exists (new :: ls'), ((p, py_sorted term_leb ts) :: ss').
    rewrite <- !app_assoc in C3. split; [exact C3|]. constructor; auto.
    split; auto. simpl. eapply perm_trans; [exact HP|apply py_sorted_perm].
Qed.
Lemma can_create ps lo hi h u ss : wf_heap h -> pipeline_ok ps ss -> (lo <= Z.of_nat (length ss) <= hi)%Z ->
  can (create_random_expression ps lo hi) h u
    (fun l h' u' => exists ls ss', chain h' (DRef l) ls ss' /\ Forall2 same_step ss ss').
Proof.
  intros W Hok Hlen. destruct ss as [|[p ts0] ss]; [destruct Hok|]. destruct Hok as [(Hp & ts & HP & Ht) F]. cbn [fst snd] in *.
  unfold create_random_expression. eapply can_bind; [apply (can_randint lo hi _ h u Hlen)|]. intros k h' u' (-> & -> & ->).
  eapply can_bind; [apply (can_node ps PREDICTION None p ts); auto; apply no_exclusion; auto|]. intros new h1 u1 (-> & -> & ->).
  set (c0 := mkCell p DData (py_sorted term_leb ts)). set (h1 := alloc h c0). set (new := h_next h).
  assert (W1 : wf_heap h1) by (apply wf_alloc; auto).
  assert (C1 : chain h1 (DRef new) ([] ++ [new]) [(p, py_sorted term_leb ts)]).
  { simpl. change (p, py_sorted term_leb ts) with (c_prim c0, c_terms c0). econstructor; [apply alloc_same|constructor]. }
  replace (Z.to_nat (Z.of_nat (length ((p, ts0) :: ss)) - 1)) with (length ss) by (simpl length; lia).
  eapply can_bind; [apply (can_extend ps ss h1 u _ [] new _ W1 C1 F)|]. intros _ h2 u2 (ls' & ss' & C2 & F2).
  exists [], new, h2, u2. split; [|reflexivity]. eexists _, _. split; [exact C2|]. simpl. constructor; auto.
  split; auto. simpl. eapply perm_trans; [exact HP|apply py_sorted_perm].
Qed.

(** * Mutation *)
Lemma reach_insert ps ind h u ls pre new post : wf_heap h -> pipeline h ind ls (pre ++ post) -> pre <> [] -> step_ok ps DATA new ->
  reach (mut_insert ind ps) h u (fun ind' s' => ind' = ind /\ exists ls' new', same_step new new' /\ pipeline (s_heap s') ind ls' (pre ++ new' :: post)).
Proof.
  intros W C Hne (Hp & ts & HP & Ht). destruct new as [p ts0]. cbn [fst snd] in *.
  destruct (exists_last Hne) as (pre0 & q & ->). clear Hne.
  assert (LS : exists a l b, ls = a ++ l :: b /\ length a = length pre0).
  { pose proof (chain_len _ _ _ _ C) as L. rewrite !app_length in L. simpl in L.
    exists (firstn (length pre0) ls). destruct (skipn (length pre0) ls) as [|l b] eqn:E.
    - apply (f_equal (@length _)) in E. rewrite skipn_length in E. simpl in E. lia.
    - exists l, b. rewrite <- E, firstn_skipn. split; auto. rewrite firstn_length. lia. }
  destruct LS as (a & l & b & -> & La).
  destruct (chain_at _ _ _ _ _ _ C) as (sa & c & sb & Ess & S & G & C' & N1 & N2 & L).
  assert (ES : sa = pre0 /\ (c_prim c, c_terms c) = q /\ sb = post).
  { rewrite <- app_assoc in Ess. simpl in Ess. assert (EL : length pre0 = length sa) by lia. clear - Ess EL. revert sa EL Ess.
    induction pre0 as [|x pre0 IH]; intros [|y sa] EL Ess; simpl in *; try discriminate.
    - injection Ess as -> ->. auto.
    - injection Ess as -> Ess. destruct (IH sa) as (-> & -> & ->); auto. }
  destruct ES as (-> & <- & ->).
  unfold mut_insert. eapply can_reach; [apply can_det; intros r; apply (primitives_ok ind (mkSt h r u) _ _ W C)|].
  intros x h' u' (-> & -> & ->). eapply can_reach; [apply (can_choice _ l); apply in_or_app; simpl; auto|].
  intros x h' u' (-> & -> & ->). eapply can_reach; [apply (can_node ps DATA None p ts); auto; apply no_exclusion; auto|].
  intros new h1 u1 (-> & -> & ->).
  set (c0 := mkCell p DData (py_sorted term_leb ts)). set (new := h_next h). set (h1 := alloc h c0).
  assert (Hl : l < new) by (apply (chain_lt _ _ _ _ W C); rewrite in_app_iff; simpl; auto).
  assert (Ha : forall x, In x a -> x < new) by (intros x Hx; apply (chain_lt _ _ _ _ W C); rewrite in_app_iff; auto).
  assert (Hb : forall x, In x b -> x < new) by (intros x Hx; apply (chain_lt _ _ _ _ W C); rewrite in_app_iff; simpl; auto).
  assert (G1 : h_get h1 l = Some c) by (unfold h1; rewrite alloc_other; auto; fold new; lia).
  assert (Gn : h_get h1 new = Some c0) by apply alloc_same.
  set (h2 := h_set h1 new (mkCell (c_prim c0) (c_data c) (c_terms c0))).
  assert (G2 : h_get h2 l = Some c) by (unfold h2; rewrite h_set_other; auto; lia).
  set (h3 := h_set h2 l (mkCell (c_prim c) (DRef new) (c_terms c))).
  exists [], ind, (mkSt h3 [] u). split.
  - split; auto. exists (a ++ l :: new :: b), (p, py_sorted term_leb ts). split; [split; auto; simpl; eapply perm_trans; [exact HP|apply py_sorted_perm]|].
    assert (F3 : forall x, x <> l -> x <> new -> h_get h3 x = h_get h x).
    { intros x X1 X2. unfold h3, h2. rewrite h_set_other, h_set_other by auto. apply alloc_other. auto. }
    cbn [s_heap]. unfold pipeline. rewrite <- app_assoc. simpl.
    eapply (chain_rebuild h h3 _ a pre0 l (mkCell (c_prim c) (DRef new) (c_terms c)) (new :: b) ((p, py_sorted term_leb ts) :: post) S).
    + intros x Hx. apply F3; [intros ->; contradiction|]. specialize (Ha _ Hx). lia.
    + apply h_set_same.
    + simpl. assert (G3 : h_get h3 new = Some (mkCell (c_prim c0) (c_data c) (c_terms c0))).
      { unfold h3. rewrite h_set_other by lia. apply h_set_same. }
      change (p, py_sorted term_leb ts) with (c_prim (mkCell (c_prim c0) (c_data c) (c_terms c0)), c_terms (mkCell (c_prim c0) (c_data c) (c_terms c0))).
      econstructor; [exact G3|]. simpl. eapply chain_frame; [exact C'|]. intros x Hx. apply F3; [intros ->; contradiction|]. specialize (Hb _ Hx). lia.
  - unfold mbind. rewrite (mread_ok (mkSt h1 [] u) l c G1). cbv beta iota. rewrite (set_data_ok (mkSt h1 [] u) _ _ _ Gn). cbn [s_heap s_rng s_uid]. fold h2.
    rewrite (set_data_ok (mkSt h2 [] u) l (DRef new) c G2). reflexivity.
Qed.
Lemma reach_shrink ind h u ls ss n : wf_heap h -> pipeline h ind ls ss -> 1 <= n < length ss ->
  reach (mut_shrink ind None) h u (fun ind' s' => ind' = ind /\ exists ls', pipeline (s_heap s') ind ls' (firstn n ss)).
Proof.
  intros W C Hn. pose proof (chain_len _ _ _ _ C) as HL.
  destruct (can_randint 1 (Z.of_nat (length ls) - 1) (Z.of_nat (length ss - n)) h u) as (r & k & h' & u' & (-> & -> & ->) & E); [lia|].
  specialize (E []). rewrite app_nil_r in E.
  assert (Er : rrandint 1 (Z.of_nat (length ls) - 1) r = (Ok (Z.of_nat (length ss - n)), [])).
  { unfold mrandint in E. cbn [s_rng s_heap s_uid] in E. destruct (rrandint _ _ r) as [x r2]. injection E as -> ->. reflexivity. }
  destruct (mut_shrink_by ind (mkSt h [] u) ls ss (Z.of_nat (length ss - n)) W C) as [[? _]|[[? _]|(_ & s' & ls' & ss' & E2 & K & P & I & _ & (rm & Es & Lr & Hne))]]; try lia.
  exists r, ind, s'. split.
  - split; auto. exists ls'. replace (firstn n ss) with ss'; auto. rewrite Es. rewrite Nat2Z.id in Lr.
    assert (length ss' = n) by (apply (f_equal (@length _)) in Es; rewrite app_length in Es; lia).
    rewrite firstn_app. replace (n - length ss') with 0 by lia. rewrite firstn_all2 by lia. simpl. rewrite app_nil_r. auto.
  - rewrite (mut_shrink_eq ind (mkSt h r u) ls ss (Z.of_nat (length ss - n)) []); auto. lia.
Qed.
Lemma vc_nth i old new ss ss' : value_changed_at i old new ss ss' -> nth_error (flat_map snd ss) i = Some old.
Proof.
  intros (pre & p & a & b & post & -> & -> & ->). rewrite flat_map_app. simpl. rewrite nth_error_app2 by lia.
  replace (length (flat_map snd pre) + length a - length (flat_map snd pre)) with (length a) by lia.
  rewrite nth_error_app1 by (rewrite app_length; simpl; lia). rewrite nth_error_app2 by lia. rewrite Nat.sub_diag. reflexivity.
Qed.
Lemma vc_unique i o1 o2 new (ss ss1 ss2 : list step) : value_changed_at i o1 new ss ss1 -> value_changed_at i o2 new ss ss2 -> ss1 = ss2.
Proof.
  intros (pre & p & a & b & post & -> & -> & Ei) (pre' & p' & a' & b' & post' & V1 & -> & V3).
  rewrite Ei in V3. clear Ei.
  assert (K : pre = pre' /\ p = p' /\ a = a' /\ b = b' /\ post = post').
  { revert pre' V1 V3. induction pre as [|x pre IH]; intros [|y pre'] V1 V3; simpl in *.
    - injection V1 as -> V1 ->. assert (a = a' /\ b = b'); [|intuition].
      clear - V1 V3. revert a' V1 V3. induction a as [|z a IH]; intros [|z' a'] V1 V3; simpl in *; try lia; injection V1 as V0 V1; auto.
      subst. destruct (IH a'); auto; try lia. subst; auto.
    - injection V1 as V0 V1. subst y. simpl in V3. rewrite !app_length in V3. simpl in V3. lia.
    - injection V1 as V0 V1. subst x. simpl in V3. rewrite !app_length in V3. simpl in V3. lia.
    - injection V1 as <- V1. rewrite !app_length in V3. destruct (IH pre' V1) as (-> & -> & -> & -> & ->); auto. lia. }
  destruct K as (-> & -> & -> & -> & ->). reflexivity.
Qed.
Lemma reach_replace_terminal ps ind h u ls ss ss' i old new : wf_heap h -> pipeline h ind ls ss -> pset_typed ps -> pipeline_ok ps ss ->
  value_changed_at i old new ss ss' -> In new (terms_of ps (t_ident old)) -> v_eq (t_value new) <> v_eq (t_value old) ->
  reach (mut_replace_terminal ind ps) h u (fun ind' s' => ind' = ind /\ pipeline (s_heap s') ind ls ss').
Proof.
  intros W C T Hok V Hin Hv. pose proof (value_changed_in _ _ _ _ _ _ T Hok V) as Hold.
  unfold mut_replace_terminal. eapply can_reach; [apply can_det; intros r; apply (terminals_ok ind (mkSt h r u) _ _ W C)|].
  intros x h' u' (-> & -> & ->).
  destruct V as (pre & p & a & b & post & -> & -> & ->).
  set (i := length (flat_map snd pre) + length a) in *. set (ss := pre ++ (p, a ++ old :: b) :: post) in *.
  assert (En : nth_error (flat_map snd ss) i = Some old).
  { unfold ss, i. rewrite flat_map_app. simpl. rewrite nth_error_app2 by lia.
    replace (length (flat_map snd pre) + length a - length (flat_map snd pre)) with (length a) by lia.
    rewrite nth_error_app1 by (rewrite app_length; simpl; lia). rewrite nth_error_app2 by lia. rewrite Nat.sub_diag. reflexivity. }
  assert (Hr : In (i, old) (filter (fun it => term_replaceable ps (snd it)) (enumerate (flat_map snd ss)))).
  { apply filter_In. split; [apply enumerate_nth; auto|]. unfold term_replaceable. cbn [snd]. apply Nat.ltb_lt.
    destruct (terms_of ps (t_ident old)) as [|x [|y l]]; simpl in *; try tauto; try lia.
    destruct Hold as [-> |[]], Hin as [-> |[]]. congruence. }
  destruct (filter _ (enumerate (flat_map snd ss))) as [|z zs]; [destruct Hr|].
  eapply can_reach; [apply (can_choice _ (i, old)); exact Hr|]. intros x h' u' (-> & -> & ->). cbn [fst snd].
  eapply can_reach; [apply (can_choice _ new)|].
  { apply filter_In. split; auto. apply negb_true_iff. unfold value_eqb. apply Z.eqb_neq. auto. }
  intros x h' u' (-> & -> & ->).
  assert (Hid : t_ident old = t_ident new) by (destruct T as [_ T2]; symmetry; apply (T2 _ _ Hin)).
  destruct (replace_terminal_cases ind (mkSt h [] u) ls ss i new W C) as [(o & Eo & [(_ & s' & ss' & E & P & V & _)|(Hbad & _)])|[[El _]|[El _]]].
  - rewrite En in Eo. injection Eo as <-. exists [], ind, s'. split; [|unfold mbind; rewrite E; reflexivity]. split; auto.
    replace (pre ++ (p, a ++ new :: b) :: post) with ss'; auto.
    eapply vc_unique; [exact V|]. exists pre, p, a, b, post. split; [reflexivity|]. split; reflexivity.
  - rewrite En in Eo. injection Eo as <-. congruence.
  - exfalso. assert (i < length (flat_map snd ss)) by (apply nth_error_Some; congruence). lia.
  - exfalso. assert (i < length (flat_map snd ss)) by (apply nth_error_Some; congruence). lia.
Qed.
Lemma read_all_any h : forall d ls ss, chain h d ls ss ->
  exists cs, (forall r u, mread_all ls (mkSt h r u) = (Ok cs, mkSt h r u)) /\ map cell_step cs = ss.
Proof.
  induction 1; simpl.
  - exists []; split; reflexivity.
  - destruct IHchain as (cs & E & M). exists (c :: cs). split; [|simpl; rewrite M; reflexivity].
    intros r u. unfold mbind, mread. cbn [s_heap]. rewrite H, E. reflexivity.
Qed.
Lemma two_prims ps p q k : In p (prims_of ps k) -> In q (prims_of ps k) -> ~ same_algorithm q p -> 1 < length (prims_of ps k).
Proof.
  intros H1 H2 H. destruct (prims_of ps k) as [|x [|y l]]; simpl in *; try tauto; try lia.
  destruct H1 as [-> |[]], H2 as [-> |[]]. exfalso. apply H. repeat split; auto.
Qed.
Lemma reach_replace_primitive ps ind h u ls pre old new post : wf_heap h -> pipeline h ind ls (pre ++ old :: post) -> pset_typed ps ->
  In (fst old) (prims_of ps (p_output (fst old))) -> step_ok ps (p_output (fst old)) new -> ~ same_algorithm (fst new) (fst old) ->
  reach (mut_replace_primitive ind ps) h u (fun ind' s' => exists ls' new' post', same_step new new' /\ Forall2 same_step post post' /\
    pipeline (s_heap s') ind' ls' (pre ++ new' :: post')).
Proof.
  intros W C [T1 T2] Hold (Hp & ts & HP & Ht) Hne. destruct new as [p ts0]. cbn [fst snd] in *.
  unfold mut_replace_primitive. eapply can_reach; [apply can_det; intros r; apply (primitives_ok ind (mkSt h r u) _ _ W C)|].
  intros x h' u' (-> & -> & ->).
  destruct (read_all_any _ _ _ _ C) as (cs & Ecs & Mcs).
  eapply can_reach; [apply can_det; intros r; apply Ecs|]. intros x h' u' (-> & -> & ->).
  assert (En : nth_error (map cell_step cs) (length pre) = Some old).
  { rewrite Mcs, nth_error_app2 by lia. rewrite Nat.sub_diag. reflexivity. }
  rewrite nth_error_map in En. destruct (nth_error cs (length pre)) as [c|] eqn:Ec; [|discriminate]. cbn [option_map] in En. injection En as <-.
  cbn [cell_step fst snd] in *.
  assert (Hr : In (length pre, c) (filter (fun ic => prim_replaceable ps (snd ic)) (enumerate cs))).
  { apply filter_In. split; [apply enumerate_nth; auto|]. unfold prim_replaceable. cbn [snd]. apply Nat.ltb_lt. apply (two_prims ps (c_prim c) p); auto. }
  destruct (filter _ (enumerate cs)) as [|z zs]; [destruct Hr|].
  eapply can_reach; [apply (can_choice _ (length pre, c)); exact Hr|]. intros x h' u' (-> & -> & ->). cbn [fst snd].
  eapply can_reach; [apply (can_node ps _ _ p ts); [|exact Ht]|].
  { apply filter_In. split; auto. apply negb_true_iff. destruct (prim_eqb p (c_prim c)) eqn:E; auto. exfalso. apply Hne. apply prim_eqb_spec in E. exact E. }
  intros new h1 u1 (-> & -> & ->).
  set (c0 := mkCell p DData (py_sorted term_leb ts)). set (new := h_next h). set (h1 := alloc h c0).
  assert (W1 : wf_heap h1) by (apply wf_alloc; auto).
  assert (Hlt : forall x, In x ls -> x < new) by (apply (chain_lt _ _ _ _ W C)).
  assert (C1 : pipeline h1 ind ls (pre ++ cell_step c :: post)).
  { eapply chain_frame; [exact C|]. intros x Hx. apply alloc_other. specialize (Hlt _ Hx). fold new. lia. }
  destruct (replace_primitive_in ind (mkSt h1 [] u) ls _ new c0 (length pre) W1 C1) as (sa & q & sb & Ess & Lsa & Hcase).
  - apply alloc_same.
  - intros Hx. specialize (Hlt _ Hx). lia.
  - pose proof (chain_len _ _ _ _ C) as L. rewrite app_length in L. simpl in L. lia.
  - assert (K : pre = sa /\ cell_step c = q /\ post = sb).
    { clear - Ess Lsa. revert sa Lsa Ess. induction pre as [|x pre IH]; intros [|y sa] Lsa Ess; simpl in *; try discriminate.
      - injection Ess as -> ->. auto.
      - injection Ess as -> Ess. destruct (IH sa) as (-> & -> & ->); auto. }
    destruct K as (<- & <- & <-). destruct Hcase as [[Hbad _]|(_ & ind' & s' & ls' & E & P & _)].
    + exfalso. apply Hbad. cbn [cell_step fst c0 c_prim]. symmetry. apply T1. auto.
    + exists [], ind', s'. split; [|exact E]. exists ls', (p, py_sorted term_leb ts), (map resort post).
      split; [split; auto; simpl; eapply perm_trans; [exact HP|apply py_sorted_perm]|]. split; [apply resort_all_same|exact P].
Qed.

(** * Crossover *)
Lemma chain_split_at h d ls pre q post : chain h d ls (pre ++ q :: post) ->
  exists a l b c, ls = a ++ l :: b /\ length a = length pre /\ h_get h l = Some c /\ (c_prim c, c_terms c) = q /\
    seg h d a pre (DRef l) /\ chain h (c_data c) b post /\ ~ In l a /\ ~ In l b.
Proof.
  intros C.
  assert (LS : exists a l b, ls = a ++ l :: b /\ length a = length pre).
  { pose proof (chain_len _ _ _ _ C) as L. rewrite !app_length in L. simpl in L.
    exists (firstn (length pre) ls). destruct (skipn (length pre) ls) as [|l b] eqn:E.
    - apply (f_equal (@length _)) in E. rewrite skipn_length in E. simpl in E. lia.
    - exists l, b. rewrite <- E, firstn_skipn. split; auto. rewrite firstn_length. lia. }
  destruct LS as (a & l & b & -> & La).
  destruct (chain_at _ _ _ _ _ _ C) as (sa & c & sb & Ess & S & G & C' & N1 & N2 & L).
  assert (ES : sa = pre /\ (c_prim c, c_terms c) = q /\ sb = post).
  { assert (EL : length pre = length sa) by lia. clear - Ess EL. revert sa EL Ess.
    induction pre as [|x pre IH]; intros [|y sa] EL Ess; simpl in *; try discriminate.
    - injection Ess as -> ->. auto.
    - injection Ess as -> Ess. destruct (IH sa) as (-> & -> & ->); auto. }
  destruct ES as (-> & <- & ->). exists a, l, b, c. repeat (split; auto).
Qed.
Lemma removelast_in {A} (a : list A) x b : b <> [] -> In x (removelast (a ++ x :: b)).
Proof. intros H. rewrite removelast_app by discriminate. apply in_or_app. right. destruct b; [congruence|]. simpl. auto. Qed.
Lemma reach_swap_tails ind1 ind2 h u ls1 ls2 ss1 ss2 ss1' ss2' : wf_heap h -> pipeline h ind1 ls1 ss1 -> pipeline h ind2 ls2 ss2 ->
  disjoint ls1 ls2 -> tails_swapped ss1 ss2 ss1' ss2' ->
  reach (crossover_primitives ind1 ind2) h u (fun r s' => r = (ind1, ind2) /\ exists ls1' ls2',
    pipeline (s_heap s') ind1 ls1' ss1' /\ pipeline (s_heap s') ind2 ls2' ss2').
Proof.
  intros W C1 C2 D (ha & ta & hb & tb & -> & -> & Ha & Hb & Hta & Htb & -> & ->).
  destruct (exists_last Ha) as (ha0 & q1 & ->). destruct (exists_last Hb) as (hb0 & q2 & ->). clear Ha Hb.
  pose proof C1 as D1. pose proof C2 as D2. unfold pipeline in D1, D2. rewrite <- app_assoc in D1, D2. cbn [app] in D1, D2.
  destruct (chain_split_at _ _ _ _ _ _ D1) as (a1 & p1 & b1 & c1 & -> & L1 & G1 & E1 & S1 & B1 & N1 & M1).
  destruct (chain_split_at _ _ _ _ _ _ D2) as (a2 & p2 & b2 & c2 & -> & L2 & G2 & E2 & S2 & B2 & N2 & M2).
  assert (Nb1 : b1 <> []) by (intros ->; apply chain_len in B1; destruct ta; [congruence|discriminate]).
  assert (Nb2 : b2 <> []) by (intros ->; apply chain_len in B2; destruct tb; [congruence|discriminate]).
  assert (DD : forall x, In x a1 \/ x = p1 \/ In x b1 -> ~ (In x a2 \/ x = p2 \/ In x b2)).
  { intros x Hx Hy. apply (D x); rewrite in_app_iff; simpl; intuition. }
  assert (P12 : p1 <> p2) by (intros ->; apply (DD p2); auto).
  unfold crossover_primitives.
  eapply can_reach; [apply can_det; intros r; apply (primitives_ok ind1 (mkSt h r u) _ _ W C1)|]. intros x h' u' (-> & -> & ->).
  eapply can_reach; [apply (can_choice _ p1); apply removelast_in; auto|]. intros x h' u' (-> & -> & ->).
  eapply can_reach; [apply can_det; intros r; apply (primitives_ok ind2 (mkSt h r u) _ _ W C2)|]. intros x h' u' (-> & -> & ->).
  eapply can_reach; [apply (can_choice _ p2); apply removelast_in; auto|]. intros x h' u' (-> & -> & ->).
  set (h1 := h_set h p1 (mkCell (c_prim c1) (c_data c2) (c_terms c1))).
  assert (G2' : h_get h1 p2 = Some c2) by (unfold h1; rewrite h_set_other; auto).
  set (h2 := h_set h1 p2 (mkCell (c_prim c2) (c_data c1) (c_terms c2))).
  assert (F2 : forall x, x <> p1 -> x <> p2 -> h_get h2 x = h_get h x).
  { intros x X1 X2. unfold h2, h1. rewrite !h_set_other; auto. }
  exists [], (ind1, ind2), (mkSt h2 [] u). split.
  - split; auto. exists (a1 ++ p1 :: b2), (a2 ++ p2 :: b1). cbn [s_heap]. unfold pipeline. rewrite <- !app_assoc. cbn [app]. rewrite <- E1, <- E2. split.
    + eapply (chain_rebuild h h2 _ a1 ha0 p1 (mkCell (c_prim c1) (c_data c2) (c_terms c1)) b2 tb S1).
      * intros x Hx. apply F2; intros ->; [contradiction|]. apply (DD p2); auto.
      * unfold h2. rewrite h_set_other by auto. apply h_set_same.
      * simpl. eapply chain_frame; [exact B2|]. intros x Hx. apply F2; intros ->; [|contradiction]. apply (DD p1); auto.
    + eapply (chain_rebuild h h2 _ a2 hb0 p2 (mkCell (c_prim c2) (c_data c1) (c_terms c2)) b1 ta S2).
      * intros x Hx. apply F2; intros ->; [|contradiction]. apply (DD p1); auto.
      * apply h_set_same.
      * simpl. eapply chain_frame; [exact B1|]. intros x Hx. apply F2; intros ->; [contradiction|]. apply (DD p2); auto.
  - unfold mbind. rewrite (mread_ok (mkSt h [] u) p1 c1 G1). cbv beta iota. rewrite (mread_ok (mkSt h [] u) p2 c2 G2). cbv beta iota.
    rewrite (set_data_ok (mkSt h [] u) _ _ _ G1). cbn [s_heap s_rng s_uid]. fold h1.
    rewrite (set_data_ok (mkSt h1 [] u) _ _ _ G2'). reflexivity.
Qed.
Lemma reach_swap_terminals ind1 ind2 h u ls1 ls2 ss1 ss2 ss1' ss2' : wf_heap h -> pipeline h ind1 ls1 ss1 -> pipeline h ind2 ls2 ss2 ->
  disjoint ls1 ls2 -> terminals_swapped ss1 ss2 ss1' ss2' ->
  reach (crossover_terminals ind1 ind2) h u (fun r s' => r = (ind1, ind2) /\ exists ls1' ls2',
    pipeline (s_heap s') ind1 ls1' ss1' /\ pipeline (s_heap s') ind2 ls2' ss2').
Proof.
  intros W C1 C2 D (i & j & t1 & t2 & Hid & Hv & V1 & V2).
  pose proof (vc_nth _ _ _ _ _ V1) as N1. pose proof (vc_nth _ _ _ _ _ V2) as N2.
  unfold crossover_terminals.
  eapply can_reach; [apply can_det; intros r; apply (terminals_ok ind1 (mkSt h r u) _ _ W C1)|]. intros x h' u' (-> & -> & ->).
  eapply can_reach; [apply can_det; intros r; apply (terminals_ok ind2 (mkSt h r u) _ _ W C2)|]. intros x h' u' (-> & -> & ->).
  eapply can_reach; [apply (can_choice _ ((i, t1), (j, t2)))|].
  { apply shared_in. split; auto. split; auto. unfold match_ok. apply andb_true_iff. split; [apply String.eqb_eq; auto|].
    apply negb_true_iff, Z.eqb_neq. auto. }
  intros x h' u' (-> & -> & ->).
  destruct (replace_terminal_cases ind1 (mkSt h [] u) ls1 ss1 i t2 W C1)
    as [(o1 & En1 & [(Hid1 & s1 & ss1x & E1 & P1 & X1 & (W1 & F1 & U1) & R1)|(Hid1 & _)])|[[El _]|[El _]]].
  2: { exfalso. rewrite N1 in En1; injection En1 as <-. congruence. }
  2,3: exfalso; assert (i < length (flat_map snd ss1)) by (apply nth_error_Some; congruence); lia.
  rewrite (vc_unique _ _ _ _ _ _ _ X1 V1) in P1.
  assert (C2' : pipeline (s_heap s1) ind2 ls2 ss2).
  { eapply chain_frame; [exact C2|]. intros x Hx. apply F1; [apply (chain_lt _ _ _ _ W C2); auto|]. intros Hy. apply (D x); auto. }
  destruct (replace_terminal_cases ind2 s1 ls2 ss2 j t1 W1 C2')
    as [(o2 & En2 & [(Hid2 & s2 & ss2x & E2 & P2 & X2 & (W2 & F2 & U2) & R2)|(Hid2 & _)])|[[El _]|[El _]]].
  2: { exfalso. rewrite N2 in En2; injection En2 as <-. congruence. }
  2,3: exfalso; assert (j < length (flat_map snd ss2)) by (apply nth_error_Some; congruence); lia.
  rewrite (vc_unique _ _ _ _ _ _ _ X2 V2) in P2.
  exists [], (ind1, ind2), s2. split.
  - split; auto. exists ls1, ls2. split; auto. eapply chain_frame; [exact P1|]. intros x Hx. apply F2; [apply (chain_lt _ _ _ _ W1 P1); auto|]. apply D; auto.
  - unfold mbind. rewrite E1, E2. reflexivity.
Qed.

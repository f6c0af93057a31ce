From Verif Require Import Base Gp_Model Gp_Spec Gp_Proofs Gp_Proofs2.
Require Import Ascii Permutation Sorted.
Open Scope nat_scope.

Lemma Forall2_length {A B} (R : A -> B -> Prop) l l' : Forall2 R l l' -> length l = length l'.
Proof. induction 1; simpl; auto. Qed.

(** * random_valid_mutation *)
Lemma available_in ps mx cs m :
  In m (available_mutations ps mx cs) <->
  let n := Z.of_nat (length cs) in
  match m with
  | MutShrinkBy k => exists b, mx = Some b /\ (b < n)%Z /\ k = (n - b)%Z
  | MutReplacePrimitive => exceeds mx (length cs) = false /\ 1 < length (filter (prim_replaceable ps) cs)
  | MutInsert => mx = None \/ exists b, mx = Some b /\ (n < b)%Z
  | MutShrink => exceeds mx (length cs) = false /\ 1 < length cs
  | MutReplaceTerminal => exceeds mx (length cs) = false /\
                          1 < length (filter (term_replaceable ps) (flat_map c_terms cs))
  end.
Proof.
  unfold available_mutations, exceeds. cbv zeta.
  destruct mx as [b|].
  - destruct (Z.ltb_spec b (Z.of_nat (length cs))) as [H|H].
    + simpl. destruct m; split; try (intros [E|[]]; discriminate); try (intros [? ?]; discriminate).
      * intros [E|(b' & E & ?)]; [discriminate|]. inversion E; subst. lia.
      * intros [E|[]]. inversion E; subst. eauto.
      * intros (b' & E & _ & ->). inversion E; subst. auto.
    + rewrite !in_app_iff.
      destruct (Nat.ltb_spec 1 (length (filter (prim_replaceable ps) cs))) as [H1|H1],
        (Z.ltb_spec (Z.of_nat (length cs)) b) as [H2|H2], (Z.ltb_spec 1 (Z.of_nat (length cs))) as [H3|H3],
        (Nat.ltb_spec 1 (length (filter (term_replaceable ps) (flat_map c_terms cs)))) as [H4|H4];
        destruct m; simpl; split; intros HH;
        repeat match goal with
        | H : _ \/ _ |- _ => destruct H
        | H : exists _, _ |- _ => destruct H
        | H : _ /\ _ |- _ => destruct H
        | H : Some _ = Some _ |- _ => inversion H; subst; clear H
        end; try discriminate; try tauto; try lia; try (split; auto; lia); eauto 6.
  - rewrite !in_app_iff.
    destruct (Nat.ltb_spec 1 (length (filter (prim_replaceable ps) cs))) as [H1|H1],
        (Z.ltb_spec 1 (Z.of_nat (length cs))) as [H3|H3],
        (Nat.ltb_spec 1 (length (filter (term_replaceable ps) (flat_map c_terms cs)))) as [H4|H4];
        destruct m; simpl; split; intros HH;
        repeat match goal with
        | H : _ \/ _ |- _ => destruct H
        | H : exists _, _ |- _ => destruct H
        | H : _ /\ _ |- _ => destruct H
        end; try discriminate; try tauto; try lia; try (split; auto; lia); eauto 6.
Qed.

Lemma filter_prim_cells ps cs :
  length (filter (prim_replaceable ps) cs) =
  length (filter (fun st : step => 1 <? length (prims_of ps (p_output (fst st)))) (map cell_step cs)).
Proof.
  induction cs as [|c cs IH]; simpl; auto. unfold prim_replaceable at 1.
  destruct (1 <? length (prims_of ps (p_output (c_prim c)))); simpl; congruence.
Qed.

Definition mut_error (ps : pset) (mx : option Z) (ss : list step) (e : exn) : Prop :=
  (* no mutation available *)
  (e = IndexError /\ mx = Some (Z.of_nat (length ss)) /\ length ss = 1 /\ tunable ps ss <= 1)
  (* max_length < 1 *)
  \/ (e = ValueError /\ exists b, mx = Some b /\ (b < 1)%Z)
  (* the search space lacks values or alternatives *)
  \/ (e = IndexError /\ no_node ps DATA None)
  \/ (e = IndexError /\ exists st, In st ss /\ 1 < length (prims_of ps (p_output (fst st))) /\
                                   no_node ps (p_output (fst st)) (Some (fst st)))
  \/ (e = IndexError /\ exists old, In old (flat_map snd ss) /\ term_replaceable ps old = true /\
        forall t, In t (terms_of ps (t_ident old)) -> v_eq (t_value t) = v_eq (t_value old)).

Lemma wp_random_valid_mutation ps mx ind s ls ss :
  wf_heap (s_heap s) -> pipeline (s_heap s) ind ls ss -> pset_typed ps ->
  wp (random_valid_mutation ind ps mx) s
     (fun r s' => keeps ls s s' /\
        i_id (fst r) = i_id ind /\ i_parents (fst r) = i_parents ind /\ i_origin (fst r) = i_origin ind /\
        exists ls' ss', pipeline (s_heap s') (fst r) ls' ss' /\ grows (s_heap s) ls ls' /\
          mutated ps (snd r) ss ss' /\ within mx ss' /\
          (match snd r with
           | MutShrinkBy k => exists b, mx = Some b /\ (b < Z.of_nat (length ss))%Z /\
                                        k = (Z.of_nat (length ss) - b)%Z
           | _ => within mx ss end))
     (fun e s' => keeps ls s s' /\ s_heap s' = s_heap s /\ mut_error ps mx ss e).
Proof.
  intros W C T. pose proof (chain_nonempty _ _ _ _ C) as HN. pose proof (chain_len _ _ _ _ C) as HL.
  unfold random_valid_mutation.
  eapply wp_bind_eq; [eapply primitives_ok; eauto|].
  destruct (mread_all_ok s _ _ _ C) as (cs & Ecs & Mcs).
  assert (LC : length cs = length ss) by (rewrite <- Mcs, map_length; auto).
  eapply wp_bind_eq; [exact Ecs|].
  assert (TU : length (filter (term_replaceable ps) (flat_map c_terms cs)) = tunable ps ss).
  { unfold tunable. rewrite flat_map_cells, Mcs. reflexivity. }
  assert (K0 : forall r, keeps ls s (mkSt (s_heap s) r (s_uid s))).
  { intros r. split; [exact W|]. split; [apply same_refl|reflexivity]. }
  apply wp_bind. apply wp_choice.
  2: { intros Hnil. split; [apply keeps_refl; auto|]. split; auto. left. split; auto.
       assert (NA : forall m, ~ In m (available_mutations ps mx cs)) by (rewrite Hnil; auto).
       destruct mx as [b|].
       2: { exfalso. apply (NA MutInsert). apply available_in. simpl. auto. }
       assert (B1 : (b <= Z.of_nat (length cs))%Z).
       { destruct (Z_lt_le_dec (Z.of_nat (length cs)) b); auto.
         exfalso. apply (NA MutInsert). apply available_in. simpl. right. eauto. }
       assert (B2 : (Z.of_nat (length cs) <= b)%Z).
       { destruct (Z_lt_le_dec b (Z.of_nat (length cs))); auto.
         exfalso. apply (NA (MutShrinkBy (Z.of_nat (length cs) - b))). apply available_in. simpl. eauto. }
       assert (XF : exceeds (Some b) (length cs) = false) by (simpl; apply Z.ltb_ge; lia).
       split; [f_equal; lia|]. split.
       - destruct (Nat.lt_ge_cases 1 (length cs)); [|lia].
         exfalso. apply (NA MutShrink). apply available_in. simpl. auto.
       - rewrite <- TU. destruct (Nat.lt_ge_cases 1 (length (filter (term_replaceable ps) (flat_map c_terms cs)))); [|lia].
         exfalso. apply (NA MutReplaceTerminal). apply available_in. simpl. auto. }
  intros m r Hm. apply available_in in Hm. cbv zeta in Hm. rewrite LC in Hm.
  set (s0 := mkSt (s_heap s) r (s_uid s)).
  apply wp_bind. destruct m; cbn [run_mutator].
  - destruct Hm as [Hx Hc].
    assert (Wi : within mx ss) by (destruct mx as [b|]; simpl in *; auto; apply Z.ltb_ge in Hx; lia).
    eapply wp_mono; [apply (wp_mut_replace_primitive ps ind s0 ls ss W C T)| |].
    + intros ind' s' (K & I1 & I2 & I3 & ls' & ss' & P & R & Gr & _). apply wp_ret. cbn [fst snd].
      split; [exact K|]. split; auto. split; auto. split; auto. exists ls', ss'.
      split; auto. split; auto. split; auto. split; auto.
      destruct R as (pre & old & new & post & post' & -> & -> & F2 & _). apply Forall2_length in F2.
      destruct mx; simpl in *; auto. rewrite app_length in *. simpl in *. lia.
    + intros e s' (Hh & Hu & [[-> Hall]|[-> He]]).
      * exfalso. rewrite filter_prim_cells, Mcs in Hc.
        destruct (filter _ ss) as [|st rest] eqn:Ef; [simpl in Hc; lia|].
        assert (Hin : In st (filter (fun st : step => 1 <? length (prims_of ps (p_output (fst st)))) ss))
          by (rewrite Ef; simpl; auto).
        apply filter_In in Hin as [Hin Hlt]. apply Nat.ltb_lt in Hlt. specialize (Hall _ Hin). lia.
      * split; [|split]; [|auto|].
        -- split; [rewrite Hh; auto|]. split; [rewrite Hh; apply same_refl|auto].
        -- right; right; right; left. auto.
  - eapply wp_mono; [apply (wp_mut_insert ps ind s0 ls ss W C)| |].
    + intros ind' s' (-> & K & ls' & ss' & P & R & Gr). apply wp_ret. cbn [fst snd].
      split; [exact K|]. split; auto. split; auto. split; auto. exists ls', ss'.
      split; auto. split; auto. split; auto.
      destruct R as (pre & new & post & -> & _ & _ & _ & ->).
      destruct Hm as [->|(b & -> & Hb)]; simpl; auto. rewrite !app_length in *. simpl in *. split; lia.
    + intros e s' (-> & Hh & Hu & He). split; [|split]; [|auto|].
      * split; [rewrite Hh; auto|]. split; [rewrite Hh; apply same_refl|auto].
      * right; right; left. auto.
  - destruct Hm as [Hx Hc].
    assert (Wi : within mx ss) by (destruct mx as [b|]; simpl in *; auto; apply Z.ltb_ge in Hx; lia).
    eapply wp_mono; [apply (wp_mut_shrink_any ind s0 ls ss W C)| |].
    + intros ind' s' (-> & K & k & ls' & ss' & Hk & P & I & Sh). apply wp_ret. cbn [fst snd].
      split; [exact K|]. split; auto. split; auto. split; auto. exists ls', ss'.
      split; auto. split; [intros x Hx'; left; apply I; auto|]. split; [exists k; auto|].
      split; auto. destruct Sh as (rm & -> & _ & _). destruct mx; simpl in *; auto.
      rewrite app_length in *. lia.
    + intros e s' (_ & _ & H1). lia.
  - destruct Hm as [Hx Hc].
    assert (Wi : within mx ss) by (destruct mx as [b|]; simpl in *; auto; apply Z.ltb_ge in Hx; lia).
    eapply wp_mono; [apply (wp_mut_replace_terminal ps ind s0 ls ss W C T)| |].
    + intros ind' s' (-> & K & ss' & P & R). apply wp_ret. cbn [fst snd].
      split; [exact K|]. split; auto. split; auto. split; auto. exists ls, ss'.
      split; auto. split; [intros x Hx'; auto|]. split; auto. split; auto.
      destruct R as (i & old & new & (pre & p & a & b & post & -> & -> & _) & _).
      destruct mx; simpl in *; auto. rewrite app_length in *. simpl in *. lia.
    + intros e s' (Hh & Hu & [[-> Hnil]|[-> He]]).
      * exfalso. rewrite TU in Hc. unfold tunable in Hc. unfold term_replaceable in Hnil.
        rewrite Hnil in Hc. simpl in Hc. lia.
      * split; [|split]; [|auto|].
        -- split; [rewrite Hh; auto|]. split; [rewrite Hh; apply same_refl|auto].
        -- right; right; right; right. auto.
  - destruct Hm as (b & -> & Hb & ->).
    destruct (mut_shrink_by ind s0 ls ss (Z.of_nat (length ss) - b) W C)
      as [[Hk E]|[[Hk E]|(Hk & s' & ls' & ss' & E & K & P & I & _ & Sh)]].
    + eapply wp_err; [exact E|]. split; [apply K0|]. split; [reflexivity|].
      right; left. split; auto. exists b. split; auto. lia.
    + lia.
    + eapply wp_eq; [exact E|]. apply wp_ret. cbn [fst snd].
      split; [exact K|]. split; auto. split; auto. split; auto. exists ls', ss'.
      split; auto. split; [intros x Hx'; left; apply I; auto|]. split; auto.
      split; [|eauto]. destruct Sh as (rm & Ess & Hrm & _). simpl.
      apply (f_equal (@length _)) in Ess. rewrite app_length in Ess. lia.
Qed.

(** * Closure: conforming pipelines stay conforming *)
Lemma pipeline_ok_app ps pre post : pre <> [] ->
  (pipeline_ok ps (pre ++ post) <-> pipeline_ok ps pre /\ Forall (step_ok ps DATA) post).
Proof.
  destruct pre as [|m pre]; [congruence|]. intros _. simpl. rewrite Forall_app. tauto.
Qed.

Lemma step_ok_replace ps k p a old b new :
  pset_typed ps -> step_ok ps k (p, a ++ old :: b) -> In new (terms_of ps (t_ident old)) ->
  step_ok ps k (p, a ++ new :: b).
Proof.
  intros [_ TT] (Hin & ts & Hp & Hf) Hnew. split; auto. simpl in *.
  assert (Hold : In old ts) by (eapply Permutation_in; [exact Hp|]; rewrite in_app_iff; simpl; auto).
  apply in_split in Hold as (c & d & ->).
  assert (Hp' : Permutation (a ++ b) (c ++ d)) by (eapply Permutation_app_inv; eauto).
  exists (c ++ new :: d). split.
  - apply Permutation_trans with (new :: a ++ b); [apply Permutation_sym, Permutation_middle|].
    apply Permutation_trans with (new :: c ++ d); [constructor; auto|apply Permutation_middle].
  - apply Forall2_app_inv_r in Hf as (i1 & i2 & F1 & F2 & E).
    inversion F2 as [|i ? is ? Hi F3]; subst. rewrite E. apply Forall2_app; auto. constructor; auto.
    pose proof (TT _ _ Hi). subst i. auto.
Qed.

Lemma step_ok_same ps k s s' : same_step s s' -> step_ok ps k s -> step_ok ps k s'.
Proof.
  intros [E P] (Hin & ts & Hp & Hf). unfold step_ok. rewrite <- E. split; auto. exists ts. split; auto.
  eapply Permutation_trans; [apply Permutation_sym; eauto|auto].
Qed.
Lemma steps_ok_same ps k ss ss' : Forall2 same_step ss ss' -> Forall (step_ok ps k) ss -> Forall (step_ok ps k) ss'.
Proof.
  induction 1; intros F; inversion F; subst; constructor; auto. eapply step_ok_same; eauto.
Qed.
Lemma pipeline_ok_same ps ss ss' : Forall2 same_step ss ss' -> pipeline_ok ps ss -> pipeline_ok ps ss'.
Proof.
  intros H. inversion H; subst; simpl; auto. intros [Ha Hb]. split.
  - eapply step_ok_same; eauto.
  - eapply steps_ok_same; eauto.
Qed.
Lemma pipeline_ok_resort ps ss : pipeline_ok ps ss -> pipeline_ok ps (map resort ss).
Proof. apply pipeline_ok_same, resort_all_same. Qed.

Lemma step_ok_output ps k s : pset_typed ps -> step_ok ps k s -> p_output (fst s) = k.
Proof. intros [TP _] [H _]. apply TP; auto. Qed.

Lemma value_changed_ok ps i old new ss ss' :
  pset_typed ps -> pipeline_ok ps ss -> value_changed_at i old new ss ss' ->
  In new (terms_of ps (t_ident old)) -> pipeline_ok ps ss'.
Proof.
  intros T Hok (pre & p & a & b & post & -> & -> & _) Hin.
  destruct pre as [|m pre]; simpl in *.
  - destruct Hok. split; auto. eapply step_ok_replace; eauto.
  - destruct Hok as [H1 H2]. split; auto. rewrite Forall_app in *. destruct H2 as [H2 H3].
    inversion H3; subst. split; auto. constructor; auto. eapply step_ok_replace; eauto.
Qed.

Lemma shrunk_ok ps k ss ss' : pipeline_ok ps ss -> shrunk k ss ss' -> pipeline_ok ps ss'.
Proof.
  intros Hok (rm & -> & _ & Hne). apply pipeline_ok_app in Hok; tauto.
Qed.

Lemma mutated_ok ps m ss ss' :
  pset_typed ps -> pipeline_ok ps ss -> mutated ps m ss ss' -> pipeline_ok ps ss'.
Proof.
  intros T Hok. destruct m; simpl.
  - intros (pre & old & new & post & post' & -> & -> & F2 & _ & Hs & _).
    destruct pre as [|m pre]; simpl in *.
    + destruct Hok as [H1 H2]. rewrite (step_ok_output _ _ _ T H1) in Hs. split; auto.
      eapply steps_ok_same; eauto.
    + destruct Hok as [H1 H2]. rewrite Forall_app in *. destruct H2 as [H2 H3]. inversion H3; subst.
      split; auto. split; auto.
      match goal with H : step_ok ps DATA old |- _ => rewrite (step_ok_output _ _ _ T H) in Hs end.
      constructor; auto. eapply steps_ok_same; eauto.
  - intros (pre & new & post & -> & Hne & Hs & _ & ->). apply pipeline_ok_app in Hok; auto.
    destruct Hok as [H1 H2]. apply pipeline_ok_app; auto.
  - intros (k & _ & Sh). eapply shrunk_ok; eauto.
  - intros (i & old & new & V & Hin & _). eapply value_changed_ok; eauto.
  - intros Sh. eapply shrunk_ok; eauto.
Qed.

Lemma value_changed_in ps i old new ss ss' :
  pset_typed ps -> pipeline_ok ps ss -> value_changed_at i old new ss ss' ->
  In old (terms_of ps (t_ident old)).
Proof.
  intros T Hok (pre & p & a & b & post & -> & _).
  assert (HH : exists k, step_ok ps k (p, a ++ old :: b)).
  { destruct pre as [|m pre]; simpl in *; [destruct Hok; eauto|].
    destruct Hok as [_ H]. apply Forall_app in H as [_ H]. inversion H; eauto. }
  destruct HH as (k & _ & ts & Hp & Hf). simpl in *.
  assert (Hin : In old ts) by (eapply Permutation_in; [exact Hp|]; rewrite in_app_iff; simpl; auto).
  apply in_split in Hin as (c & d & ->).
  apply Forall2_app_inv_r in Hf as (i1 & i2 & F1 & F2 & E).
  inversion F2 as [|j ? js ? Hi F3]; subst. destruct T as [_ TT].
  rewrite (TT _ _ Hi). auto.
Qed.

Lemma crossed_ok ps ss1 ss2 ss1' ss2' :
  pset_typed ps -> pipeline_ok ps ss1 -> pipeline_ok ps ss2 -> crossed ss1 ss2 ss1' ss2' ->
  pipeline_ok ps ss1' /\ pipeline_ok ps ss2'.
Proof.
  intros T H1 H2 [(ha & ta & hb & tb & -> & -> & Na & Nb & _ & _ & -> & ->)|(i & j & t1 & t2 & Hid & _ & V1 & V2)].
  - apply pipeline_ok_app in H1, H2; auto. split; apply pipeline_ok_app; tauto.
  - pose proof (value_changed_in _ _ _ _ _ _ T H1 V1) as I1.
    pose proof (value_changed_in _ _ _ _ _ _ T H2 V2) as I2.
    split; [apply (value_changed_ok ps _ _ _ _ _ T H1 V1); rewrite Hid; auto
           |apply (value_changed_ok ps _ _ _ _ _ T H2 V2); rewrite <- Hid; auto].
Qed.

Lemma crossed_lengths ss1 ss2 ss1' ss2' : crossed ss1 ss2 ss1' ss2' ->
  length ss1' + length ss2' = length ss1 + length ss2.
Proof.
  intros [(ha & ta & hb & tb & -> & -> & Na & Nb & _ & _ & -> & ->)
         |(i & j & t1 & t2 & _ & _ & (pre & p & a & b & post & -> & -> & _) & (pre' & p' & a' & b' & post' & -> & -> & _))];
    rewrite !app_length; simpl; lia.
Qed.

(** * Order of hyperparameters *)
Lemma has_char_cons c a s : has_char c (String a s) = false -> a <> c /\ has_char c s = false.
Proof.
  simpl. intros H. apply orb_false_iff in H as [H1 H2]. split; auto.
  intros ->. rewrite Ascii.eqb_refl in H1. discriminate.
Qed.

Lemma compare_named o1 : forall o2 v1 v2 v1' v2',
  has_char "="%char o1 = false -> has_char "="%char o2 = false -> o1 <> o2 ->
  String.compare (o1 ++ "=" ++ v1) (o2 ++ "=" ++ v2) = String.compare (o1 ++ "=" ++ v1') (o2 ++ "=" ++ v2').
Proof.
  induction o1 as [|a o1 IH]; intros [|b o2] v1 v2 v1' v2' H1 H2 Hne.
  - congruence.
  - apply has_char_cons in H2 as [Hb _]. cbn [String.append String.compare].
    destruct (Ascii.compare "=" b) eqn:E; auto.
    apply ascii_compare_eq in E. congruence.
  - apply has_char_cons in H1 as [Ha _]. cbn [String.append String.compare].
    destruct (Ascii.compare a "=") eqn:E; auto.
    apply ascii_compare_eq in E. congruence.
  - apply has_char_cons in H1 as [Ha H1]. apply has_char_cons in H2 as [Hb H2].
    cbn [String.append String.compare].
    destruct (Ascii.compare a b) eqn:E; auto.
    apply ascii_compare_eq in E. subst b. apply IH; auto. congruence.
Qed.

Lemma term_leb_named t u t' u' :
  t_output t = t_output t' -> t_output u = t_output u' -> t_output t <> t_output u ->
  has_char "="%char (t_output t) = false -> has_char "="%char (t_output u) = false ->
  String.leb (term_str t) (term_str u) = String.leb (term_str t') (term_str u').
Proof.
  intros E1 E2 Hne N1 N2. unfold term_str, String.leb. rewrite <- E1, <- E2.
  rewrite (compare_named _ _ (format_value (t_value t)) (format_value (t_value u))
             (format_value (t_value t')) (format_value (t_value u')) N1 N2 Hne). reflexivity.
Qed.

Lemma sorted_replace (le : terminal -> terminal -> Prop) a old new b :
  (forall x, In x a -> le x old -> le x new) ->
  (forall x, In x b -> le old x -> le new x) ->
  StronglySorted le (a ++ old :: b) -> StronglySorted le (a ++ new :: b).
Proof.
  intros H1 H2. induction a as [|x a IH]; simpl; intros S; inversion S; subst.
  - constructor; auto. apply Forall_forall. rewrite Forall_forall in H4. auto.
  - constructor.
    + apply IH; auto. intros; apply H1; simpl; auto.
    + rewrite Forall_app in *. destruct H4 as [F1 F2]. inversion F2; subst. split; auto.
      constructor; auto. apply H1; simpl; auto.
Qed.

Lemma step_outputs_nodup ps k p ts (nm : string -> string) :
  (forall k t, In t (terms_of ps k) -> t_output t = nm k) ->
  (forall k p, In p (prims_of ps k) -> NoDup (map nm (p_input p))) ->
  step_ok ps k (p, ts) -> NoDup (map t_output ts).
Proof.
  intros Hn Hd (Hin & ts' & Hp & Hf). simpl in *.
  eapply Permutation_NoDup; [apply Permutation_map, Permutation_sym; exact Hp|].
  specialize (Hd _ _ Hin).
  replace (map t_output ts') with (map nm (p_input p)); auto.
  clear - Hf Hn. induction Hf; simpl; auto. rewrite (Hn _ _ H), IHHf. reflexivity.
Qed.

Lemma in_order_replace ps k p a old new b :
  pset_typed ps -> pset_named ps -> step_ok ps k (p, a ++ old :: b) ->
  In new (terms_of ps (t_ident old)) -> In old (terms_of ps (t_ident old)) ->
  in_order (p, a ++ old :: b) -> in_order (p, a ++ new :: b).
Proof.
  intros T (nm & Hn & Hc & Hd) Hok Hnew Hold. unfold in_order. simpl.
  pose proof (step_outputs_nodup ps k p _ nm Hn Hd Hok) as ND.
  rewrite map_app in ND. simpl in ND. apply NoDup_remove_2 in ND. rewrite <- map_app in ND.
  assert (Eo : t_output old = t_output new) by (rewrite (Hn _ _ Hnew), (Hn _ _ Hold); auto).
  assert (Nc : forall x, In x (a ++ old :: b) -> has_char "="%char (t_output x) = false).
  { intros x Hx. destruct Hok as (_ & ts & Hp & Hf). simpl in *.
    assert (Hx' : In x ts) by (eapply Permutation_in; eauto).
    apply in_split in Hx' as (c & d & ->). apply Forall2_app_inv_r in Hf as (i1 & i2 & F1 & F2 & E).
    inversion F2 as [|j ? js ? Hi F3]; subst. rewrite (Hn _ _ Hi). apply Hc. }
  apply sorted_replace.
  - intros x Hx. rewrite (term_leb_named x old x new); auto.
    + intros E. apply ND. rewrite <- E. apply in_map. rewrite in_app_iff; auto.
    + apply Nc. rewrite in_app_iff; auto.
    + apply Nc. rewrite in_app_iff; simpl; auto.
  - intros x Hx. rewrite (term_leb_named old x new x); auto.
    + intros E. apply ND. rewrite E. apply in_map. rewrite in_app_iff; auto.
    + apply Nc. rewrite in_app_iff; simpl; auto.
    + apply Nc. rewrite in_app_iff; simpl; auto.
Qed.

From Verif Require Import Base Num Num_Proofs Heap_Model Heap_Proofs Nsga_Model Lib_Model Lib_Spec.
Require Import Permutation Lqa.
Open Scope nat_scope.

(** * Order on tuples *)
Definition okn (a : list num) : Prop := Forall (fun x => x <> NaN) a.
Lemma neqb_nle a b : neqb a b = true <-> nle a b /\ nle b a.
Proof.
  unfold nle. destruct a, b; simpl; try (split; [discriminate|intros []; discriminate]); try tauto.
  rewrite Qeq_bool_iff, !Qle_bool_iff. split; [intros; split; lra|]. intros [H1 H2]. lra.
Qed.
Lemma tri a b : a <> NaN -> b <> NaN -> nltb a b = true \/ neqb a b = true \/ nltb b a = true.
Proof.
  intros Ha Hb. destruct (nltb a b) eqn:E1; auto. destruct (nltb b a) eqn:E2; auto.
  right; left. apply neqb_nle. split; apply not_lt_nle; auto; unfold nlt; congruence.
Qed.
Lemma neqb_sym a b : neqb a b = neqb b a.
Proof. apply eq_true_iff_eq. rewrite !neqb_nle. tauto. Qed.

Lemma tuple_lt_asym a b : okn a -> okn b -> tuple_lt a b = true -> tuple_lt b a = false.
Proof.
  intros Ha. revert b. induction Ha as [|x a Hx Ha IH]; intros [|y b] Hb; simpl; auto; try discriminate.
  inversion Hb; subst. rewrite (neqb_sym y x). destruct (neqb x y) eqn:E; [auto|].
  intros H. destruct (nltb y x) eqn:E2; auto. exfalso. apply (nlt_irrefl x). eapply nlt_trans; eauto.
Qed.
(** "not smaller" is transitive *)
Lemma tuple_nlt_trans a b c : okn a -> okn b -> okn c ->
  tuple_lt a b = false -> tuple_lt b c = false -> tuple_lt a c = false.
Proof.
  intros Ha. revert b c. induction Ha as [|x a Hx Ha IH]; intros [|y b] [|z c] Hb Hc; simpl; auto; try discriminate.
  inversion Hb; subst. inversion Hc; subst.
  destruct (tri x y) as [T1|[T1|T1]]; auto.
  - destruct (neqb x y) eqn:E; [|congruence]. apply neqb_nle in E as [_ E]. apply nle_not_lt in E. exfalso; auto.
  - rewrite T1. intros K1. destruct (tri y z) as [T2|[T2|T2]]; auto.
    + destruct (neqb y z) eqn:E; [|congruence]. apply neqb_nle in E as [_ E]. apply nle_not_lt in E. exfalso; auto.
    + rewrite T2. intros K2. apply neqb_nle in T1 as [A1 A2], T2 as [B1 B2].
      assert (E : neqb x z = true) by (apply neqb_nle; split; eapply nle_trans; eauto). rewrite E. eauto.
    + assert (N1 : neqb y z = false).
      { destruct (neqb y z) eqn:E; auto. apply neqb_nle in E as [E _]. apply nle_not_lt in E. exfalso; auto. }
      rewrite N1. intros _. apply neqb_nle in T1 as [A1 A2].
      assert (Lzx : nlt z x) by (eapply nlt_le_trans; eauto).
      assert (N2 : neqb x z = false).
      { destruct (neqb x z) eqn:E; auto. apply neqb_nle in E as [E _]. apply nle_not_lt in E. exfalso; auto. }
      rewrite N2. destruct (nltb x z) eqn:E; auto. exfalso. apply (nlt_irrefl x). eapply nlt_trans; eauto.
  - assert (N1 : neqb x y = false).
    { destruct (neqb x y) eqn:E; auto. apply neqb_nle in E as [E _]. apply nle_not_lt in E. exfalso; auto. }
    rewrite N1. intros _.
    assert (HZ : tuple_lt (y :: b) (z :: c) = false -> nle z y).
    { simpl. destruct (neqb y z) eqn:E; [intros _; apply neqb_nle in E; tauto|]. intros H. apply not_lt_nle; auto. unfold nlt; congruence. }
    intros K2. apply HZ in K2. assert (Lzx : nlt z x) by (eapply nle_lt_trans; eauto).
    assert (N2 : neqb x z = false).
    { destruct (neqb x z) eqn:E; auto. apply neqb_nle in E as [E _]. apply nle_not_lt in E. exfalso; auto. }
    rewrite N2. destruct (nltb x z) eqn:E; auto. exfalso. apply (nlt_irrefl x). eapply nlt_trans; eauto.
Qed.
Lemma tuple_eq_lt a b : tuple_eq a b = true -> tuple_lt a b = false.
Proof.
  revert b. induction a as [|x a IH]; intros [|y b]; simpl; auto; try discriminate.
  intros H. apply andb_true_iff in H as [H1 H2]. rewrite H1. auto.
Qed.
Lemma tuple_eq_refl a : okn a -> tuple_eq a a = true.
Proof.
  induction 1; simpl; auto. rewrite IHForall, andb_true_r. apply neqb_nle. split; apply nle_refl; auto.
Qed.
Lemma tuple_lt_lex a b : okn a -> okn b -> (tuple_lt a b = true <-> lex_lt a b).
Proof.
  intros Ha. revert b. induction Ha as [|x a Hx Ha IH]; intros [|y b] Hb.
  - simpl. split; [discriminate|]. intros (i & _ & [(H & _)|[_ H]]); simpl in H; lia.
  - simpl. split; auto. intros _. exists 0. split; [intros; lia|]. right. simpl. lia.
  - simpl. split; [discriminate|]. intros (i & _ & [(_ & H & _)|[_ H]]); simpl in H; lia.
  - inversion Hb; subst. simpl. destruct (neqb x y) eqn:E.
    + rewrite IH by auto. split.
      * intros (i & K1 & K2). exists (S i). split.
        { intros [|j] Hj; [simpl; split; [lia|split; [lia|apply neqb_nle; auto]]|].
          destruct (K1 j ltac:(lia)) as (A & B & C). simpl. split; [lia|split; [lia|auto]]. }
        { simpl. destruct K2 as [(A & B & C)|[A B]]; [left|right]; repeat split; auto; lia. }
      * intros (i & K1 & K2). destruct i as [|i].
        { destruct K2 as [(A & B & C)|[A B]]; simpl in *; [|lia]. apply neqb_nle in E as [_ E]. apply nle_not_lt in E. exfalso; auto. }
        exists i. split.
        { intros j Hj. destruct (K1 (S j) ltac:(lia)) as (A & B & C). simpl in *. split; [lia|split; [lia|auto]]. }
        { destruct K2 as [(A & B & C)|[A B]]; simpl in *; [left|right]; repeat split; auto; lia. }
    + split.
      * intros H. exists 0. split; [intros; lia|]. left. simpl. split; [lia|split; [lia|auto]].
      * intros (i & K1 & K2). destruct i as [|i].
        { destruct K2 as [(A & B & C)|[A B]]; simpl in *; [auto|lia]. }
        destruct (K1 0 ltac:(lia)) as (_ & _ & C). simpl in C. unfold num_same in C. rewrite <- neqb_nle in C. congruence.
Qed.

Definition okitem (x : item) : Prop := okn (fst x).
Lemma item_asym x y : okitem x -> okitem y -> item_lt x y = true -> item_lt y x = false.
Proof. apply tuple_lt_asym. Qed.
Lemma item_trans x y z : okitem x -> okitem y -> okitem z -> item_lt x y = false -> item_lt y z = false -> item_lt x z = false.
Proof. apply tuple_nlt_trans. Qed.

(** * Lists of objects *)
Lemma on_obj_length u f os : length (on_obj u f os) = length os.
Proof. unfold on_obj. destruct (nth_error os u); auto. apply set_nth_len. Qed.
Lemma nth_on_obj u f os v d : u < length os -> nth v (on_obj u f os) d = if v =? u then f (nth u os d) else nth v os d.
Proof.
  intros H. unfold on_obj. destruct (nth_error os u) as [e|] eqn:E; [|apply nth_error_None in E; lia].
  destruct (Nat.eqb_spec v u) as [->|N].
  - rewrite nth_set_eq by auto. f_equal. symmetry. apply nth_error_nth. auto.
  - apply nth_set_neq. auto.
Qed.

(** * Disk *)
Lemma find_file_in f disk c : find_file f disk = Some c -> In f (map fst disk).
Proof.
  induction disk as [|[g x] disk IH]; simpl; [discriminate|]. destruct (Nat.eqb_spec g f); auto.
Qed.
Lemma find_file_none f disk : find_file f disk = None <-> ~ In f (map fst disk).
Proof.
  induction disk as [|[g x] disk IH]; simpl; [tauto|]. destruct (Nat.eqb_spec g f) as [->|N].
  - split; [discriminate|]. intros H. exfalso. auto.
  - rewrite IH. intuition.
Qed.
Lemma find_file_filter f g disk : find_file f (filter (fun x => negb (fst x =? g)) disk) = if f =? g then None else find_file f disk.
Proof.
  induction disk as [|[h x] disk IH]; simpl; [destruct (f =? g); auto|].
  destruct (Nat.eqb_spec h g) as [->|N]; simpl.
  - rewrite IH. destruct (Nat.eqb_spec f g) as [->|N]; auto. destruct (Nat.eqb_spec g f); congruence.
  - rewrite IH. destruct (Nat.eqb_spec h f) as [->|N2]; auto. destruct (Nat.eqb_spec f g); [congruence|auto].
Qed.
Lemma find_file_write f g c disk : find_file f (write g c disk) = if f =? g then Some c else find_file f disk.
Proof.
  unfold write. simpl. rewrite find_file_filter. destruct (Nat.eqb_spec g f) as [->|N].
  - rewrite Nat.eqb_refl. auto.
  - destruct (Nat.eqb_spec f g); [congruence|auto].
Qed.
Lemma filter_keys g (disk : list (nat * (list nat * option (list nat)))) :
  map fst (filter (fun x => negb (fst x =? g)) disk) = filter (fun x => negb (x =? g)) (map fst disk).
Proof. induction disk as [|[h x] disk IH]; simpl; auto. destruct (h =? g); simpl; rewrite IH; auto. Qed.
Lemma filter_absent g l : ~ In g l -> filter (fun x => negb (x =? g)) l = l.
Proof.
  induction l as [|x l IH]; simpl; auto. intros H. destruct (Nat.eqb_spec x g) as [->|N]; simpl; [tauto|]. rewrite IH; tauto.
Qed.
Lemma filter_perm {A} (f : A -> bool) l l' : Permutation l l' -> Permutation (filter f l) (filter f l').
Proof.
  induction 1; simpl; auto.
  - destruct (f x); auto.
  - destruct (f x), (f y); auto. apply perm_swap.
  - eapply perm_trans; eauto.
Qed.

(** * process *)
Lemma rmap_pick rows p : (forall i, In i rows -> i < length p) -> pick rows p = Ok (map (fun i => nth i p 0) rows).
Proof.
  unfold pick. induction rows as [|i rows IH]; simpl; intros H; auto.
  destruct (nth_error p i) as [x|] eqn:E; [|apply nth_error_None in E; specialize (H i (or_introl eq_refl)); lia].
  simpl. rewrite IH by auto. simpl. f_equal. f_equal. symmetry. apply nth_error_nth. auto.
Qed.
Lemma pick_ok rows p p' : pick rows p = Ok p' -> p' = map (fun i => nth i p 0) rows.
Proof.
  unfold pick. revert p'. induction rows as [|i rows IH]; simpl; intros p' H; [inversion H; auto|].
  destruct (nth_error p i) as [x|] eqn:E; simpl in H; [|discriminate].
  destruct (rmap _ rows) as [ys|]; simpl in H; [|discriminate]. inversion H; subst. rewrite (IH ys) by auto.
  f_equal. symmetry. apply nth_error_nth. auto.
Qed.

Definition no_pred (n : option nat) (e : ev) : Prop := n = Some 0 \/ ev_pred e = None.
Lemma kept_no_pred n s e : no_pred n e -> kept n s (ev_pred e) = None.
Proof. intros [->|H]; simpl; auto. rewrite H. destruct n as [[|]|]; auto. Qed.

Lemma set_sample_same l : set_sample (l_sample l) l = l.
Proof. destruct l; auto. Qed.
Lemma set_sample_twice s s' l : set_sample s (set_sample s' l) = set_sample s l.
Proof. auto. Qed.
Lemma with_pred_same e : with_pred (ev_pred e) e = e.
Proof. destruct e; auto. Qed.
Lemma determine_size_ok l k size r l1 d r1 :
  determine (B := unit) (fun _ _ r => (Err ValueError, r)) l k (Some size) None r = (l1, d, r1) ->
  exists s, l1 = set_sample s l /\ (forall x, d = Ok x -> s <> NotSet) /\ (forall x, d = Err x -> s = l_sample l).
Proof.
  unfold determine. intros H.
  destruct (match k with None => l_n l | Some _ => k end) as [n|].
  - destruct (n <? size).
    + destruct (rsample n (seq 0 size) r) as [[rows|x] r']; inversion H; subst.
      * exists (Rows rows). repeat split; congruence.
      * exists (l_sample l1). rewrite set_sample_same. repeat split; congruence.
    + inversion H; subst. exists KeepAll. repeat split; congruence.
  - inversion H; subst. exists KeepAll. repeat split; congruence.
Qed.
Lemma process_ok l e r l1 p r1 : process l e r = (l1, p, r1) ->
  exists s, l1 = set_sample s l /\ (l_sample l <> NotSet \/ no_pred (l_n l) e -> s = l_sample l) /\
    forall e1, p = Ok e1 -> e1 = with_pred (kept (l_n l) s (ev_pred e)) e /\ (s = NotSet -> no_pred (l_n l) e).
Proof.
  intros E. unfold process in E.
  destruct (match l_n l with Some 0 => true | _ => false end) eqn:E0.
  { assert (En : l_n l = Some 0) by (destruct (l_n l) as [[|]|]; try discriminate; auto).
    rewrite En in *. simpl in E. inversion E; subst. exists (l_sample l1). rewrite set_sample_same. repeat split; auto.
    - inversion H; subst. unfold kept. auto.
    - left; auto. }
  assert (E00 : (match l_n l with Some 0 => with_pred None e | _ => e end) = e)
    by (destruct (l_n l) as [[|]|]; try discriminate; auto).
  rewrite E00 in E.
  destruct (ev_pred e) as [pr|] eqn:EP.
  2:{ inversion E; subst. exists (l_sample l1). rewrite set_sample_same. repeat split; auto.
      - inversion H; subst. unfold kept. destruct e1; simpl in *. subst. destruct (l_n l1) as [[|]|]; auto.
      - right; auto. }
  assert (NP : ~ no_pred (l_n l) e) by (intros [H|H]; [rewrite H in E0; discriminate|congruence]).
  assert (KP : forall s, kept (l_n l) s (Some pr) = Some (match s with Rows rows => map (fun i => nth i pr 0) rows | _ => pr end))
    by (intros s; unfold kept; destruct (l_n l) as [[|]|]; try discriminate; auto).
  assert (SAME : e = with_pred (Some pr) e) by (rewrite <- EP; symmetry; apply with_pred_same).
  assert (HD : exists s, l_sample l <> NotSet /\ s = l_sample l /\
       match s with Rows rows => match pick rows pr with Err x => (l, Err x, r) | Ok p' => (l, Ok (with_pred (Some p') e), r) end
       | _ => (l, Ok e, r) end = (l1, p, r1) \/ l_sample l = NotSet).
  { destruct (l_sample l) eqn:ES; [exists NotSet; auto|exists KeepAll; left|exists (Rows l0); left].
    - rewrite ES in E. split; [discriminate|]. auto.
    - rewrite ES in E. split; [discriminate|]. auto. }
  destruct HD as (s & [(Hs & -> & HE)|Hs]).
  - destruct (l_sample l) as [| |rows] eqn:ES; [congruence| |].
    + inversion HE; subst. exists KeepAll. rewrite <- ES, set_sample_same. split; auto. split; auto.
      intros e1 H. inversion H; subst. rewrite ES, KP. split; [auto|]. discriminate.
    + exists (Rows rows). destruct (pick rows pr) as [p'|x] eqn:EK.
      * inversion HE; subst. split; [rewrite <- ES, set_sample_same; auto|]. split; auto.
        intros e1 H. inversion H; subst. rewrite KP, (pick_ok _ _ _ EK). split; [auto|]. discriminate.
      * inversion HE; subst. split; [rewrite <- ES, set_sample_same; auto|]. split; auto. intros; discriminate.
  - rewrite Hs in E.
    destruct (determine _ l (l_n l) (Some (length pr)) None r) as [[la d] ra] eqn:ED.
    destruct (determine_size_ok _ _ _ _ _ _ _ ED) as (s' & -> & D1 & D2).
    destruct d as [[]|x].
    + specialize (D1 tt eq_refl). exists s'. cbn [set_sample l_sample] in E.
      destruct s' as [| |rows]; [congruence| |].
      * inversion E; subst. split; auto. split; [intros [H|H]; congruence|]. intros e1 H; inversion H; subst.
        rewrite KP. split; auto. discriminate.
      * destruct (pick rows pr) as [p'|x] eqn:EK; inversion E; subst.
        { split; auto. split; [intros [H|H]; congruence|]. intros e1 H; inversion H; subst. rewrite KP, (pick_ok _ _ _ EK).
          split; auto. discriminate. }
        { split; auto. split; [intros [H|H]; congruence|]. intros; discriminate. }
    + inversion E; subst. exists s'. split; auto. split; [intros [H|H]; congruence|]. intros; discriminate.
Qed.

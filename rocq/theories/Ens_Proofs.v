(** Lemmas on tables and means. *)
From Verif Require Import Base Num Num_Proofs Nsga_Model Ens_Model Ens_Spec.
Open Scope nat_scope.

Lemma vzip_ok f a : forall b, length a = length b -> exists v, vzip f a b = Ok v /\ length v = length a /\
  forall j, j < length a -> nth j v 0%Qc = f (nth j a 0%Qc) (nth j b 0%Qc).
Proof.
  induction a as [|x a IH]; intros [|y b] H; simpl in H; try lia.
  - exists []. repeat split; auto. simpl; lia.
  - destruct (IH b) as (v & E & L & N); [lia|]. simpl. rewrite E. exists (f x y :: v). repeat split; simpl; auto.
    intros [|j] Hj; auto. apply N. lia.
Qed.
Lemma shape_cons r c v p : shape (S r) c (v :: p) <-> length v = c /\ shape r c p.
Proof.
  unfold shape. simpl. split.
  - intros [A B]. inversion B; subst. auto.
  - intros (A & B & C). split; auto.
Qed.
Lemma mzip_ok f a : forall b r c, shape r c a -> shape r c b -> exists m, mzip f a b = Ok m /\ shape r c m /\
  forall i j, i < r -> j < c -> at_ m i j = f (at_ a i j) (at_ b i j).
Proof.
  induction a as [|x a IH]; intros b r c Ha Hb.
  - destruct Ha as [<- _]. destruct Hb as [Hb _]. destruct b; simpl in Hb; try lia. exists []. repeat split; auto. simpl. lia.
  - destruct r as [|r]; [destruct Ha; discriminate|]. destruct b as [|y b]; [destruct Hb; discriminate|].
    apply shape_cons in Ha as [Ha1 Ha], Hb as [Hb1 Hb].
    destruct (vzip_ok f x y) as (v & E & L & N); [congruence|]. destruct (IH b r c Ha Hb) as (m & Em & Sm & Nm).
    simpl. rewrite E. simpl. rewrite Em. simpl. exists (v :: m). split; auto. split; [apply shape_cons; split; auto; congruence|].
    intros [|i] j Hi Hj; unfold at_; simpl; [apply N; congruence|apply Nm; lia].
Qed.
Lemma shape_mmap f r c a : shape r c a -> shape r c (mmap f a).
Proof.
  intros [A B]. split; [unfold mmap; rewrite map_length; auto|]. unfold mmap. rewrite Forall_map.
  eapply Forall_impl; [|exact B]. intros v Hv. simpl. rewrite map_length; auto.
Qed.
Lemma at_mmap f r c a i j : shape r c a -> i < r -> j < c -> at_ (mmap f a) i j = f (at_ a i j).
Proof.
  intros [A B] Hi Hj. unfold at_, mmap.
  rewrite (nth_indep _ [] (map f [])) by (rewrite map_length; lia). rewrite map_nth.
  rewrite (nth_indep _ 0%Qc (f 0%Qc)); [rewrite map_nth; auto|]. rewrite map_length.
  rewrite Forall_forall in B. rewrite (B (nth i a [])); auto. apply nth_In. lia.
Qed.
Lemma vec_ext : forall (a b : list Qc), length a = length b -> (forall j, j < length a -> nth j a 0%Qc = nth j b 0%Qc) -> a = b.
Proof.
  induction a as [|x a IH]; intros [|y b] L H; simpl in L; try lia; auto. f_equal.
  - apply (H 0). simpl; lia.
  - apply IH; [lia|]. intros j Hj. apply (H (S j)). simpl; lia.
Qed.
Lemma mat_ext : forall a b r c, shape r c a -> shape r c b -> (forall i j, i < r -> j < c -> at_ a i j = at_ b i j) -> a = b.
Proof.
  induction a as [|x a IH]; intros b r c Ha Hb H.
  - destruct Ha as [<- _]. destruct Hb as [Hb _]. destruct b; simpl in Hb; try lia. auto.
  - destruct r as [|r]; [destruct Ha; discriminate|]. destruct b as [|y b]; [destruct Hb; discriminate|].
    apply shape_cons in Ha as [Ha1 Ha], Hb as [Hb1 Hb]. f_equal.
    + apply vec_ext; [congruence|]. intros j Hj. apply (H 0 j); lia.
    + apply (IH b r c); auto. intros i j Hi Hj. apply (H (S i) j); lia.
Qed.
Lemma mean_unique r c l a b : is_mean r c l a -> is_mean r c l b -> a = b.
Proof. intros [A1 A2] [B1 B2]. apply (mat_ext a b r c); auto. intros i j Hi Hj. rewrite A2, B2; auto. Qed.

(** Sums. *)
Lemma qn_0 : qn 0 = 0%Qc. Proof. apply Qc_is_canon. reflexivity. Qed.
Lemma qn_S n : qn (S n) = (qn n + 1)%Qc.
Proof.
  unfold qn. apply Qc_is_canon. unfold Qcplus, Q2Qc, this. rewrite !Qred_correct.
  rewrite Nat2Z.inj_succ. unfold Z.succ. rewrite inject_Z_plus. reflexivity.
Qed.
Lemma qn_add a b : qn (a + b) = (qn a + qn b)%Qc.
Proof. induction a as [|a IH]; simpl; [rewrite qn_0; ring|]. rewrite !qn_S, IH. ring. Qed.
Lemma qn_nonneg n : (0 <= qn n)%Qc.
Proof.
  unfold Qcle. change (this (qn n)) with (Qred (inject_Z (Z.of_nat n))). rewrite Qred_correct.
  change (this 0%Qc) with (inject_Z 0). rewrite <- Zle_Qle. lia.
Qed.
Lemma qn_nz n : 0 < n -> qn n <> 0%Qc.
Proof.
  intros H E. assert (K : (qn n == 0)%Q) by (rewrite E; reflexivity).
  change (this (qn n)) with (Qred (inject_Z (Z.of_nat n))) in K. rewrite Qred_correct in K.
  unfold Qeq, inject_Z in K. simpl in K. lia.
Qed.
Lemma qn_pos n : 0 < n -> (0 < qn n)%Qc.
Proof.
  intros H. pose proof (qn_nonneg n) as A. destruct (Qc_eq_dec (qn n) 0) as [E|E]; [destruct (qn_nz n H E)|].
  apply Qcle_lt_or_eq in A as [A|A]; auto. destruct (E (eq_sym A)).
Qed.
Lemma sum_from_ok r c : forall l a, shape r c a -> Forall (fun pw => shape r c (fst pw)) l ->
  exists m, sum_from a l = Ok m /\ shape r c m /\
  forall i j, i < r -> j < c -> at_ m i j = (at_ a i j + qsum (map (fun pw => at_ (fst pw) i j * qn (snd pw)) l))%Qc.
Proof.
  induction l as [|[p w] l IH]; intros a Ha Hl; cbn [sum_from].
  - exists a. repeat split; auto; try apply Ha. intros. simpl. ring.
  - inversion Hl; subst. simpl in H1.
    destruct (mzip_ok Qcplus a (mmap (fun x => (x * qn w)%Qc) p) r c Ha (shape_mmap _ _ _ _ H1)) as (b & E & Sb & Nb).
    rewrite E. cbn [rbind]. destruct (IH b Sb H2) as (m & Em & Sm & Nm). exists m. split; auto. split; auto.
    intros i j Hi Hj. rewrite Nm, Nb by auto. rewrite (at_mmap _ r c) by auto. simpl. ring.
Qed.
Lemma total_wsum l : total l = wsum l. Proof. reflexivity. Qed.
Lemma mean_ok r c l : l <> [] -> Forall (fun pw => shape r c (fst pw)) l -> exists m, mean l = Ok m /\ is_mean r c l m.
Proof.
  destruct l as [|[p w] l]; intros N H; [congruence|]. inversion H; subst. simpl in H2.
  destruct (sum_from_ok r c l (mmap (fun x => (x * qn w)%Qc) p) (shape_mmap _ _ _ _ H2) H3) as (m & E & Sm & Nm).
  unfold mean. cbn [py_sum]. rewrite E. cbn [rbind]. eexists. split; [reflexivity|]. split; [apply shape_mmap; auto|].
  intros i j Hi Hj. rewrite (at_mmap _ r c) by auto. rewrite Nm by auto. rewrite (at_mmap _ r c) by auto. reflexivity.
Qed.
(** Adding one more table to a mean. *)
Lemma mean_incr r c l a p d m :
  0 < wsum (map snd l) -> is_mean r c l a -> shape r c p ->
  mzip Qcminus p a = Ok d -> mzip Qcplus a (mmap (fun x => (x / qn (wsum (map snd l) + 1))%Qc) d) = Ok m ->
  is_mean r c ((p, 1) :: l) m.
Proof.
  intros W [Sa Na] Sp Ed Em. destruct (mzip_ok Qcminus p a r c Sp Sa) as (d' & Ed' & Sd & Nd).
  assert (d' = d) by congruence. subst d'.
  destruct (mzip_ok Qcplus a (mmap (fun x => (x / qn (wsum (map snd l) + 1))%Qc) d) r c Sa (shape_mmap _ _ _ _ Sd)) as (m' & Em' & Sm & Nm).
  assert (m' = m) by congruence. subst m'. split; auto.
  intros i j Hi Hj. rewrite Nm, (at_mmap _ r c), Nd, Na by auto. cbn [map fst snd fold_right qsum wsum].
  replace (1 + fold_right Nat.add 0 (map snd l)) with (wsum (map snd l) + 1) by (unfold wsum; lia).
  fold (wsum (map snd l)). fold (qsum (map (fun pw => (at_ (fst pw) i j * qn (snd pw))%Qc) l)).
  set (w := wsum (map snd l)) in *. replace (qn 1) with 1%Qc by (apply Qc_is_canon; reflexivity).
  assert (qn w <> 0%Qc) by (apply qn_nz; auto). assert (qn (w + 1) <> 0%Qc) by (apply qn_nz; lia).
  rewrite qn_add in *. replace (qn 1) with 1%Qc in * by (apply Qc_is_canon; reflexivity). field. auto.
Qed.

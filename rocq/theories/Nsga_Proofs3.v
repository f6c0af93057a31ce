From Verif Require Import Base Num Num_Proofs Nsga_Model Nsga_Proofs Nsga_Proofs2.
Require Import Permutation Sorting Lqa.
Open Scope nat_scope.

(** * Sorting, for a comparison that is an order on the elements sorted *)
Section SortOn.
Context {A : Type} (leb : A -> A -> bool) (P : A -> Prop).
Hypothesis tot : forall a b, P a -> P b -> leb a b = true \/ leb b a = true.
Hypothesis tr : forall a b c, P a -> P b -> P c -> leb a b = true -> leb b c = true -> leb a c = true.
Lemma insert_perm x (l : list A) : Permutation (x :: l) (insert_sorted leb x l).
Proof.
  induction l as [|y l IH]; simpl; auto. destruct (leb x y); auto.
  apply perm_trans with (y :: x :: l); [constructor|]. constructor; auto.
Qed.
Lemma sorted_perm (l : list A) : Permutation l (py_sorted leb l).
Proof.
  induction l as [|x l IH]; simpl; auto.
  apply perm_trans with (x :: py_sorted leb l); [constructor; auto|apply insert_perm].
Qed.
Lemma insert_ss_on x l : P x -> Forall P l -> StronglySorted (fun a b => leb a b = true) l ->
  StronglySorted (fun a b => leb a b = true) (insert_sorted leb x l).
Proof.
  intros Px F S. revert F. induction S as [|y l S IH F]; intros FP; simpl.
  - constructor; constructor.
  - inversion FP; subst. destruct (leb x y) eqn:E.
    + constructor; [constructor; auto|]. constructor; auto.
      rewrite Forall_forall in *. intros z Hz. apply tr with y; auto.
    + constructor; auto.
      assert (Hyx : leb y x = true) by (destruct (tot x y); auto; congruence).
      eapply Permutation_Forall; [apply insert_perm|]. constructor; auto.
Qed.
Lemma sorted_ss_on l : Forall P l -> StronglySorted (fun a b => leb a b = true) (py_sorted leb l).
Proof.
  induction 1; simpl; [constructor|]. apply insert_ss_on; auto.
  eapply Permutation_Forall; [apply sorted_perm|]; auto.
Qed.
End SortOn.

Lemma ss_hd {A} (R : A -> A -> Prop) d l : (forall x, In x l -> R x x) -> StronglySorted R l -> forall x, In x l -> R (hd d l) x.
Proof.
  intros RR S x Hx. destruct S as [|y l S F]; [destruct Hx|]. simpl. destruct Hx as [->|Hx]; [apply RR; simpl; auto|].
  rewrite Forall_forall in F. auto.
Qed.
Lemma ss_last {A} (R : A -> A -> Prop) d l : (forall x, In x l -> R x x) -> StronglySorted R l -> forall x, In x l -> R x (last l d).
Proof.
  intros RR S. induction S as [|y l S IH F]; intros x Hx; [destruct Hx|].
  destruct l as [|z l].
  - destruct Hx as [->|[]]. simpl. apply RR; simpl; auto.
  - change (last (y :: z :: l) d) with (last (z :: l) d). destruct Hx as [->|Hx].
    + rewrite Forall_forall in F. apply F. clear. revert z. induction l as [|w l IH]; intros z; simpl; auto.
      right. apply IH.
    + apply IH; auto. intros; apply RR; simpl in *; auto.
Qed.
Lemma hd_in {A} (d : A) l : l <> [] -> In (hd d l) l.
Proof. destruct l; simpl; [congruence|auto]. Qed.
Lemma last_in {A} (d : A) l : l <> [] -> In (last l d) l.
Proof.
  induction l as [|x l IH]; [congruence|]. intros _. destruct l; [simpl; auto|]. right. apply IH. discriminate.
Qed.

Lemma ss_split {A} (R : A -> A -> Prop) pre x post : StronglySorted R (pre ++ x :: post) ->
  (forall y, In y pre -> R y x) /\ (forall y, In y post -> R x y).
Proof.
  induction pre as [|z pre IH]; simpl; intros S; inversion S; subst.
  - split; [intros y []|]. rewrite Forall_forall in H2. auto.
  - destruct (IH H1) as [I1 I2]. split; auto. intros y [->|Hy]; auto.
    rewrite Forall_forall in H2. apply H2, in_or_app. simpl; auto.
Qed.

(** * Triples of neighbours *)
Lemma triples_split I a b c : In (a, b, c) (triples I) <-> exists pre post, I = pre ++ a :: b :: c :: post.
Proof.
  split.
  - induction I as [|x [|y [|z I']] IH]; try (intros []; fail).
    intros [E|H].
    + inversion E; subst. exists [], I'. auto.
    + destruct (IH H) as (pre & post & ->). exists (x :: pre), post. auto.
  - intros (pre & post & ->). induction pre as [|x pre IH].
    + simpl. auto.
    + change ((x :: pre) ++ a :: b :: c :: post) with (x :: (pre ++ a :: b :: c :: post)).
      destruct pre as [|y pre]; simpl in *; auto.
      destruct (pre ++ a :: b :: c :: post) as [|w r] eqn:Eq; [destruct pre; discriminate|]. right. auto.
Qed.
Definition mid (t : nat * nat * nat) : nat := snd (fst t).
Lemma triples_mid I : map mid (triples I) = removelast (tl I).
Proof.
  induction I as [|x [|y [|z I']] IH]; auto.
  change (triples (x :: y :: z :: I')) with ((x, y, z) :: triples (y :: z :: I')). cbn [map]. rewrite IH. reflexivity.
Qed.
Lemma in_removelast {A} (x d : A) l : NoDup l -> l <> [] -> (In x (removelast l) <-> In x l /\ x <> last l d).
Proof.
  intros ND HN. rewrite (app_removelast_last d HN) in ND. apply NoDup_app_split in ND as (_ & _ & ND).
  pose proof (app_removelast_last d HN) as E. split.
  - intros H. split; [rewrite E; apply in_or_app; auto|]. intros ->. apply (ND _ H). simpl; auto.
  - intros [H1 H2]. rewrite E in H1. apply in_app_or in H1 as [H1|[H1|[]]]; congruence.
Qed.
Lemma removelast_nodup {A} (l : list A) : NoDup l -> NoDup (removelast l).
Proof.
  destruct l as [|x l]; auto. intros ND. rewrite (app_removelast_last x (l := x :: l)) in ND by discriminate.
  apply NoDup_app_split in ND. tauto.
Qed.
Lemma triples_mid_in I b : NoDup I -> I <> [] -> (exists a c, In (a, b, c) (triples I)) <-> In b I /\ b <> hd 0 I /\ b <> last I 0.
Proof.
  intros ND HN.
  assert (HM : (exists a c, In (a, b, c) (triples I)) <-> In b (map mid (triples I))).
  { rewrite in_map_iff. split.
    - intros (a & c & H). exists (a, b, c). auto.
    - intros ([[a b'] c] & E & H). simpl in E. unfold mid in E. simpl in E. subst. eauto. }
  rewrite HM, triples_mid. destruct I as [|x I]; [congruence|]. simpl tl. simpl hd. inversion ND; subst.
  destruct I as [|y I].
  - simpl. split; [tauto|]. intros ([->|[]] & H & _). congruence.
  - rewrite (in_removelast b 0) by (auto; discriminate).
    change (last (x :: y :: I) 0) with (last (y :: I) 0). cbn [In] in *. split.
    + intros [Hb Hl]. split; [tauto|]. split; auto. intros ->. tauto.
    + intros ([->|Hb] & Hx & Hl); [congruence|auto].
Qed.

(** * Folding additions over the triples *)
Lemma fold_add (dl : nat -> nat -> num) : forall T ms,
  (forall a b c, In (a, b, c) T -> b < length ms) -> NoDup (map mid T) ->
  let ms' := fold_left (fun ms' (abc : nat * nat * nat) => let '(a, b, c) := abc in
               upd b (fun x => set_dist (nadd (m_dist x) (dl c a)) x) ms') T ms in
  length ms' = length ms /\
  (forall a b c, In (a, b, c) T -> get ms' b = set_dist (nadd (m_dist (get ms b)) (dl c a)) (get ms b)) /\
  (forall b, ~ In b (map mid T) -> get ms' b = get ms b).
Proof.
  induction T as [|[[a b] c] T IH]; intros ms HB ND; cbn [fold_left].
  - simpl. split; auto. split; auto. intros; tauto.
  - cbn [map] in ND. unfold mid at 1 in ND. cbn [fst snd] in ND. inversion ND; subst.
    assert (Hb : b < length ms) by (eapply HB; simpl; eauto).
    destruct (IH (upd b (fun x => set_dist (nadd (m_dist x) (dl c a)) x) ms)) as (L & H & K); auto.
    { rewrite upd_length. intros; eapply HB; simpl; eauto. }
    rewrite upd_length in L. split; auto. split.
    + intros a' b' c' [E|Hin].
      * inversion E; subst. rewrite K by auto. rewrite get_upd, Nat.eqb_refl by auto. auto.
      * rewrite (H _ _ _ Hin). rewrite get_upd by auto. destruct (Nat.eqb_spec b' b) as [->|]; auto.
        exfalso. apply H1. apply in_map_iff. exists (a', b, c'). auto.
    + intros b' Hn. simpl in Hn. rewrite K by tauto. rewrite get_upd by auto.
      destruct (Nat.eqb_spec b' b) as [->|]; auto. exfalso. apply Hn. left. reflexivity.
Qed.

(** * One metric *)
Definition same_but_dist (ms ms' : list meta) : Prop :=
  length ms' = length ms /\
  forall p, m_vals (get ms' p) = m_vals (get ms p) /\ m_rank (get ms' p) = m_rank (get ms p).
Lemma sbd_value ms ms' m p : same_but_dist ms ms' -> value_at ms' m p = value_at ms m p.
Proof. intros [_ H]. unfold value_at. destruct (H p) as [-> _]. auto. Qed.

Definition smallest (ms : list meta) (I : list nat) (m p : nat) : Prop :=
  In p I /\ forall q, In q I -> nle (value_at ms m p) (value_at ms m q).
Definition largest (ms : list meta) (I : list nat) (m p : nat) : Prop :=
  In p I /\ forall q, In q I -> nle (value_at ms m q) (value_at ms m p).

Lemma not_ltb_total a b : negb (nltb b a) = true \/ negb (nltb a b) = true.
Proof.
  destruct (nltb b a) eqn:E1, (nltb a b) eqn:E2; auto. exfalso. apply (nlt_irrefl a). eapply nlt_trans; eauto.
Qed.
Lemma negb_ltb_nle a b : a <> NaN -> b <> NaN -> (negb (nltb b a) = true <-> nle a b).
Proof.
  intros Ha Hb. rewrite negb_true_iff. split.
  - intros H. apply not_lt_nle; auto. unfold nlt. congruence.
  - intros H. apply nle_not_lt in H. unfold nlt in H. destruct (nltb b a); congruence.
Qed.
Lemma sort_by_ss ms m I : (forall p, In p I -> value_at ms m p <> NaN) ->
  StronglySorted (fun a b => nle (value_at ms m a) (value_at ms m b)) (sort_by ms m I) /\ Permutation I (sort_by ms m I).
Proof.
  intros HN. assert (PM : Permutation I (sort_by ms m I)) by apply sorted_perm. split; auto.
  assert (S : StronglySorted (fun a b => negb (nltb (value_at ms m b) (value_at ms m a)) = true) (sort_by ms m I)).
  { apply sorted_ss_on with (P := fun p => value_at ms m p <> NaN).
    - intros. apply not_ltb_total.
    - intros a b c Ha Hb Hc. rewrite !negb_ltb_nle by auto. apply nle_trans.
    - apply Forall_forall. auto. }
  assert (HN' : forall p, In p (sort_by ms m I) -> value_at ms m p <> NaN).
  { intros p Hp. apply HN. eapply Permutation_in; [apply Permutation_sym; eauto|auto]. }
  clear PM HN. induction S as [|x l S IH F]; constructor.
  - apply IH. intros; apply HN'; simpl; auto.
  - rewrite Forall_forall in *. intros y Hy. apply negb_ltb_nle; auto; [apply HN'|apply HN']; simpl; auto.
Qed.

Lemma fin_between a b x : nle a x -> nle x b -> nisinf a = false -> nisinf b = false -> exists q, x = Fin q.
Proof. unfold nle. destruct a, b, x; simpl; intros; try discriminate; eauto. Qed.

Definition delta (ms : list meta) (m lo hi c a : nat) : num :=
  ndiv (nsub (value_at ms m c) (value_at ms m a)) (nsub (value_at ms m hi) (value_at ms m lo)).

Lemma delta_nonneg ms m lo hi c a :
  nle (value_at ms m lo) (value_at ms m a) -> nle (value_at ms m a) (value_at ms m c) -> nle (value_at ms m c) (value_at ms m hi) ->
  neqb (value_at ms m hi) (value_at ms m lo) = false -> nisinf (value_at ms m lo) = false -> nisinf (value_at ms m hi) = false ->
  exists d, delta ms m lo hi c a = Fin d /\ (0 <= d)%Q.
Proof.
  unfold delta. intros H1 H2 H3 H4 H5 H6.
  assert (Hac := nle_trans _ _ _ H1 H2). assert (Hah := nle_trans _ _ _ H2 H3). assert (Hlh := nle_trans _ _ _ H1 Hah).
  destruct (fin_between _ _ _ H1 Hah H5 H6) as [qa Ea]. destruct (fin_between _ _ _ Hac H3 H5 H6) as [qc Ec].
  destruct (value_at ms m lo) as [| |ql|]; try discriminate. destruct (value_at ms m hi) as [| |qh|]; try discriminate.
  rewrite Ea, Ec in *. unfold nle in *. simpl in *. rewrite Qle_bool_iff in *.
  eexists. split; [reflexivity|].
  assert (qh == ql -> False)%Q. { intros E. apply Qeq_bool_iff in E. congruence. }
  apply Qle_shift_div_l; lra.
Qed.

Lemma crowd_metric_ok m I ms I0 :
  NoDup I -> I <> [] -> (forall p, In p I -> p < length ms) -> (forall p, In p I -> value_at ms m p <> NaN) -> Permutation I I0 ->
  exists I1 ms1, crowd_metric (I0, ms) m = (I1, ms1) /\ Permutation I I1 /\ same_but_dist ms ms1 /\
    (forall p, ~ In p I -> get ms1 p = get ms p) /\
    exists lo hi, smallest ms I m lo /\ largest ms I m hi /\ m_dist (get ms1 lo) = PInf /\ m_dist (get ms1 hi) = PInf /\
      forall p, In p I -> p <> lo -> p <> hi ->
        (m_dist (get ms1 p) = m_dist (get ms p) /\
         (neqb (value_at ms m hi) (value_at ms m lo) || nisinf (value_at ms m lo) || nisinf (value_at ms m hi) = true)) \/
        (neqb (value_at ms m hi) (value_at ms m lo) || nisinf (value_at ms m lo) || nisinf (value_at ms m hi) = false /\
         exists a c, In a I /\ In c I /\ nle (value_at ms m a) (value_at ms m p) /\ nle (value_at ms m p) (value_at ms m c) /\
           a <> p /\ c <> p /\
           (forall q, In q I -> nle (value_at ms m q) (value_at ms m a) \/ q = p \/ nle (value_at ms m c) (value_at ms m q)) /\
           m_dist (get ms1 p) = nadd (m_dist (get ms p)) (delta ms m lo hi c a)).
Proof.
  intros ND NE HL HV PM. unfold crowd_metric.
  set (I1 := sort_by ms m I0).
  assert (HV0 : forall p, In p I0 -> value_at ms m p <> NaN).
  { intros p Hp. apply HV. eapply Permutation_in; [apply Permutation_sym; eauto|auto]. }
  destruct (sort_by_ss ms m I0 HV0) as [SS PM0]. fold I1 in SS, PM0.
  assert (PM1 : Permutation I I1) by (eapply perm_trans; eauto).
  assert (IN : forall p, In p I1 <-> In p I) by (intros p; split; intros; [apply Permutation_in with (l := I1); [apply Permutation_sym; exact PM1|auto]|apply Permutation_in with (l := I); auto]).
  assert (ND1 : NoDup I1) by (eapply Permutation_NoDup; eauto).
  assert (NE1 : I1 <> []). { intros Z. rewrite Z in PM1. apply Permutation_sym, Permutation_nil in PM1. auto. }
  set (lo := hd 0 I1). set (hi := last I1 0).
  assert (Hlo : In lo I1) by (apply hd_in; auto). assert (Hhi : In hi I1) by (apply last_in; auto).
  set (ms0 := upd lo (set_dist PInf) ms). set (ms1 := upd hi (set_dist PInf) ms0).
  assert (Llo : lo < length ms) by (apply HL, IN; auto). assert (Lhi : hi < length ms) by (apply HL, IN; auto).
  assert (L0 : length ms0 = length ms) by apply upd_length.
  assert (L1 : length ms1 = length ms) by (unfold ms1; rewrite upd_length; auto).
  assert (G : forall p, get ms1 p = if (p =? lo) || (p =? hi) then set_dist PInf (get ms p) else get ms p).
  { intros p. unfold ms1. rewrite get_upd by lia. unfold ms0. rewrite !get_upd by auto.
    destruct (Nat.eqb_spec p hi) as [Hp|Hp]; destruct (Nat.eqb_spec p lo) as [Hp'|Hp']; simpl; auto.
    - destruct (Nat.eqb_spec hi lo) as [Hq|]; [|congruence]. rewrite Hp'. auto.
    - destruct (Nat.eqb_spec hi lo) as [Hq|]; [congruence|]. rewrite Hp. auto.
    - rewrite Hp'. auto. }
  assert (SB : same_but_dist ms ms1).
  { split; auto. intros p. rewrite G. destruct ((p =? lo) || (p =? hi)); auto. }
  assert (VE : forall p, value_at ms1 m p = value_at ms m p) by (intros; apply sbd_value; auto).
  assert (RR : forall x, In x I1 -> nle (value_at ms m x) (value_at ms m x)).
  { intros x Hx. apply nle_refl, HV, IN; auto. }
  assert (SM : smallest ms I m lo).
  { split; [apply IN; auto|]. intros q Hq. apply IN in Hq. exact (ss_hd _ 0 I1 RR SS q Hq). }
  assert (LG : largest ms I m hi).
  { split; [apply IN; auto|]. intros q Hq. apply IN in Hq. exact (ss_last _ 0 I1 RR SS q Hq). }
  rewrite !VE.
  destruct (neqb (value_at ms m hi) (value_at ms m lo) || nisinf (value_at ms m lo) || nisinf (value_at ms m hi)) eqn:Eg.
  - exists I1, ms1. split; auto. split; auto. split; auto. split.
    + intros p Hp. rewrite G. destruct (Nat.eqb_spec p lo) as [->|]; [exfalso; apply Hp, IN; auto|].
      destruct (Nat.eqb_spec p hi) as [->|]; [exfalso; apply Hp, IN; auto|]. auto.
    + exists lo, hi. split; auto. split; auto. split; [rewrite G, Nat.eqb_refl; auto|].
      split; [rewrite G, Nat.eqb_refl, orb_true_r; auto|]. intros p Hp H1 H2. left. rewrite G.
      destruct (Nat.eqb_spec p lo); [congruence|]. destruct (Nat.eqb_spec p hi); [congruence|]. auto.
  - assert (NDM : NoDup (map mid (triples I1))).
    { rewrite triples_mid. apply removelast_nodup. destruct I1; [constructor|]. inversion ND1; auto. }
    destruct (fold_add (fun c a => ndiv (nsub (value_at ms1 m c) (value_at ms1 m a)) (nsub (value_at ms m hi) (value_at ms m lo)))
               (triples I1) ms1) as (LF & HF & KF); auto.
    { intros a b c H. rewrite L1. apply HL, IN. apply triples_split in H as (pre & post & ->).
      apply in_or_app. simpl; auto. }
    set (ms2 := fold_left _ (triples I1) ms1) in *.
    assert (MI : forall b, (exists a c, In (a, b, c) (triples I1)) <-> In b I1 /\ b <> lo /\ b <> hi)
      by (intros; apply triples_mid_in; auto).
    assert (KM : forall b, (b = lo \/ b = hi \/ ~ In b I1) -> get ms2 b = get ms1 b).
    { intros b Hb. apply KF. intros H. apply in_map_iff in H as ([[a b'] c] & E & H). unfold mid in E; simpl in E. subst b'.
      destruct (proj1 (MI b)) as (H1 & H2 & H3); eauto. tauto. }
    exists I1, ms2. split; auto. split; auto. split; [|split].
    + split; [congruence|]. intros p. destruct (in_dec Nat.eq_dec p (map mid (triples I1))) as [Hp|Hp].
      * apply in_map_iff in Hp as ([[a b] c] & E & H). unfold mid in E; simpl in E. subst b.
        rewrite (HF _ _ _ H). simpl. apply SB.
      * rewrite (KF _ Hp). apply SB.
    + intros p Hp. rewrite KM by (rewrite IN; auto). rewrite G.
      destruct (Nat.eqb_spec p lo) as [->|]; [exfalso; apply Hp, IN; auto|].
      destruct (Nat.eqb_spec p hi) as [->|]; [exfalso; apply Hp, IN; auto|]. auto.
    + exists lo, hi. split; auto. split; auto.
      split; [rewrite KM by auto; rewrite G, Nat.eqb_refl; auto|].
      split; [rewrite KM by auto; rewrite G, Nat.eqb_refl, orb_true_r; auto|].
      intros p Hp H1 H2. right. split; auto.
      destruct (proj2 (MI p)) as (a & c & Ht); [rewrite IN; auto|].
      rewrite (HF _ _ _ Ht), !VE.
      pose proof (proj1 (triples_split _ _ _ _) Ht) as (pre & post & E).
      assert (Ia : In a I1) by (rewrite E; apply in_or_app; simpl; auto).
      assert (Ic : In c I1) by (rewrite E; apply in_or_app; simpl; auto).
      exists a, c. rewrite <- !IN. split; auto. split; auto.
      assert (Gp : get ms1 p = get ms p).
      { rewrite G. destruct (Nat.eqb_spec p lo); [congruence|]. destruct (Nat.eqb_spec p hi); [congruence|]. auto. }
      rewrite Gp. cbn [m_dist set_dist].
      assert (SSx : forall pre x post, I1 = pre ++ x :: post ->
                (forall y, In y pre -> nle (value_at ms m y) (value_at ms m x)) /\ (forall y, In y post -> nle (value_at ms m x) (value_at ms m y))).
      { intros pre0 x post0 E0. rewrite E0 in SS. apply ss_split in SS. auto. }
      clear HF KF MI KM.
      destruct (SSx pre a (p :: c :: post) E) as [Pa Qa].
      destruct (SSx (pre ++ [a]) p (c :: post)) as [Pp Qp]; [rewrite <- app_assoc; auto|].
      destruct (SSx (pre ++ [a; p]) c post) as [Pc Qc]; [rewrite <- app_assoc; auto|].
      split; [apply Qa; simpl; auto|]. split; [apply Qp; simpl; auto|].
      split; [|split; [|split; [|reflexivity]]].
      * intros ->. rewrite E in ND1. apply NoDup_app_split in ND1 as (_ & ND1 & _). inversion ND1; subst. simpl in *; tauto.
      * intros ->. rewrite E in ND1. apply NoDup_app_split in ND1 as (_ & ND1 & _). inversion ND1; subst. inversion H4; subst. simpl in *; tauto.
      * intros q Hq. apply IN in Hq. rewrite E in Hq. apply in_app_or in Hq as [Hq|Hq]; [left; auto|].
        cbn [In] in Hq. destruct Hq as [<-|[<-|[<-|Hq]]].
        { left. apply RR; auto. } { right; left; auto. } { right; right; apply RR; auto. } { right; right; auto. }
Qed.

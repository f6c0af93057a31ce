From Verif Require Import Base Num Num_Proofs Nsga_Model.
Require Import Permutation.
Open Scope nat_scope.

(** * Objects *)
Lemma set_nth_length {A} i (x : A) l : length (set_nth i x l) = length l.
Proof. revert i. induction l; intros [|i]; simpl; auto. Qed.
Lemma nth_set_same {A} i (x d : A) l : i < length l -> nth i (set_nth i x l) d = x.
Proof. revert i. induction l; intros [|i] H; simpl in *; try lia; auto. apply IHl; lia. Qed.
Lemma nth_set_other {A} i j (x d : A) l : i <> j -> nth j (set_nth i x l) d = nth j l d.
Proof. revert i j. induction l; intros [|i] [|j] H; simpl in *; try congruence; auto. Qed.

Lemma upd_length i f ms : length (upd i f ms) = length ms.
Proof. apply set_nth_length. Qed.
Lemma get_upd i f ms j : i < length ms -> get (upd i f ms) j = if j =? i then f (get ms i) else get ms j.
Proof.
  intros H. unfold get, upd. destruct (Nat.eqb_spec j i) as [->|Hn].
  - rewrite nth_set_same; auto.
  - rewrite nth_set_other; auto.
Qed.
Lemma upd_out i f ms : length ms <= i -> upd i f ms = ms.
Proof.
  intros H. unfold upd. clear - H. generalize (f (get ms i)). intros x. revert i H.
  induction ms; intros [|i] H; simpl in *; auto; try lia. rewrite IHms; auto; lia.
Qed.

(** * Edges recorded by the comparisons *)
Definition edge_of (d : nat -> nat -> bool) (pq : nat * nat) : list (nat * nat) :=
  let (p, q) := pq in if d p q then [(p, q)] else if d q p then [(q, p)] else [].
Definition edges_of (d : nat -> nat -> bool) (l : list (nat * nat)) : list (nat * nat) := flat_map (edge_of d) l.
Definition succs (E : list (nat * nat)) (p : nat) : list nat := map snd (filter (fun e => fst e =? p) E).
Definition preds (E : list (nat * nat)) (q : nat) : nat := length (filter (fun e => snd e =? q) E).

Definition vdom (vs : list (list num)) (p q : nat) : bool := all_gt (nth p vs []) (nth q vs []).
Definition fresh (ms : list meta) : Prop := Forall (fun m => m_rank m = 0 /\ m_dist m = Fin 0 /\ m_doms m = [] /\ m_count m = 0%Z) ms.

Lemma nth_vals ms p : nth p (map m_vals ms) [] = m_vals (get ms p).
Proof.
  unfold get. revert p. induction ms as [|m ms IH]; intros [|p]; simpl; auto.
Qed.

Definition recorded (vs : list (list num)) (E : list (nat * nat)) (ms : list meta) : Prop :=
  map m_vals ms = vs /\
  (forall p, p < length ms -> m_doms (get ms p) = succs E p /\ m_count (get ms p) = Z.of_nat (preds E p) /\
             m_rank (get ms p) = 0 /\ m_dist (get ms p) = Fin 0).

Lemma vals_upd i f ms : (forall m, m_vals (f m) = m_vals m) -> map m_vals (upd i f ms) = map m_vals ms.
Proof.
  intros H. unfold upd. unfold get. revert i. induction ms as [|m ms IH]; intros [|i]; simpl; auto; f_equal; auto.
Qed.

Lemma succs_app E F p : succs (E ++ F) p = succs E p ++ succs F p.
Proof. unfold succs. rewrite filter_app, map_app. auto. Qed.
Lemma preds_app E F p : preds (E ++ F) p = preds E p + preds F p.
Proof. unfold preds. rewrite filter_app, app_length. auto. Qed.

Lemma record_edge vs E ms p q : recorded vs E ms -> p < length ms -> q < length ms -> p <> q ->
  recorded vs (E ++ [(p, q)]) (upd q (add_count 1) (upd p (add_dom q) ms)).
Proof.
  intros [HV H] Hp Hq Hne. split.
  - rewrite !vals_upd; auto.
  - rewrite !upd_length. intros x Hx. rewrite get_upd by (rewrite upd_length; auto). rewrite !get_upd by auto.
    rewrite succs_app, preds_app. unfold succs at 2, preds at 2. simpl.
    destruct (H x Hx) as (H1 & H2 & H3 & H4). destruct (H q Hq) as (G1 & G2 & G3 & G4). destruct (H p Hp) as (K1 & K2 & K3 & K4).
    destruct (Nat.eqb_spec x q) as [->|Hxq].
    + destruct (Nat.eqb_spec q p); [congruence|]. simpl.
      destruct (Nat.eqb_spec p q); [congruence|]. rewrite Nat.eqb_refl. simpl. rewrite app_nil_r.
      split; auto. split; [lia|auto].
    + destruct (Nat.eqb_spec x p) as [->|Hxp]; simpl.
      * rewrite Nat.eqb_refl. simpl. destruct (Nat.eqb_spec q p); [congruence|]. simpl.
        rewrite K1. split; auto. split; [lia|auto].
      * destruct (Nat.eqb_spec p x); [congruence|]. destruct (Nat.eqb_spec q x); [congruence|]. simpl.
        rewrite app_nil_r. split; auto. split; [lia|auto].
Qed.

Lemma compare_all_ok vs : forall l E ms, recorded vs E ms ->
  (forall p q, In (p, q) l -> p < length ms /\ q < length ms /\ p <> q) ->
  recorded vs (E ++ edges_of (vdom vs) l) (fold_left compare_pair l ms) /\
  length (fold_left compare_pair l ms) = length ms.
Proof.
  induction l as [|[p q] l IH]; intros E ms R HL.
  - simpl. rewrite app_nil_r. auto.
  - destruct (HL p q ltac:(simpl; auto)) as (Hp & Hq & Hne).
    cbn [fold_left edges_of flat_map]. fold (edges_of (vdom vs) l). rewrite app_assoc.
    assert (HH : recorded vs (E ++ edge_of (vdom vs) (p, q)) (compare_pair ms (p, q)) /\ length (compare_pair ms (p, q)) = length ms).
    { unfold compare_pair, edge_of, dominates, vdom. destruct R as [HV R]. rewrite <- HV, !nth_vals.
      destruct (all_gt (m_vals (get ms p)) (m_vals (get ms q))).
      - rewrite !upd_length. split; auto. rewrite HV. apply record_edge; auto. split; auto.
      - destruct (all_gt (m_vals (get ms q)) (m_vals (get ms p))).
        + rewrite !upd_length. split; auto. rewrite HV. apply record_edge; auto. split; auto.
        + rewrite app_nil_r. split; auto. split; auto. }
    destruct HH as [H1 H2]. destruct (IH _ _ H1) as [I1 I2].
    { rewrite H2. intros a b Hab. apply HL. simpl; auto. }
    split; auto. congruence.
Qed.

Lemma combinations2_in n p q : In (p, q) (combinations2 n) <-> p < q /\ q < n.
Proof.
  unfold combinations2. rewrite in_flat_map. split.
  - intros (x & Hx & H). apply in_map_iff in H as (y & E & Hy). inversion E; subst.
    apply in_seq in Hx, Hy. lia.
  - intros [H1 H2]. exists p. split; [apply in_seq; lia|]. apply in_map_iff. exists q. split; auto. apply in_seq. lia.
Qed.

Lemma edges_in d n a b : In (a, b) (edges_of d (combinations2 n)) <->
  (a < b /\ b < n /\ d a b = true) \/ (b < a /\ a < n /\ d a b = true /\ d b a = false).
Proof.
  unfold edges_of. rewrite in_flat_map. split.
  - intros ([p q] & Hpq & H). apply combinations2_in in Hpq as [H1 H2]. unfold edge_of in H.
    destruct (d p q) eqn:E1; [destruct H as [H|[]]; inversion H; subst; auto|].
    destruct (d q p) eqn:E2; [destruct H as [H|[]]; inversion H; subst; auto|destruct H].
  - intros [(H1 & H2 & H3)|(H1 & H2 & H3 & H4)].
    + exists (a, b). split; [apply combinations2_in; auto|]. simpl. rewrite H3. simpl; auto.
    + exists (b, a). split; [apply combinations2_in; auto|]. simpl. rewrite H4, H3. simpl; auto.
Qed.

(** * Counting *)
Definition memb (x : nat) (l : list nat) : bool := existsb (Nat.eqb x) l.
Lemma memb_in x l : memb x l = true <-> In x l.
Proof.
  unfold memb. rewrite existsb_exists. split.
  - intros (y & Hy & E). apply Nat.eqb_eq in E. subst; auto.
  - intros H. exists x. split; auto. apply Nat.eqb_refl.
Qed.
Lemma memb_not x l : memb x l = false <-> ~ In x l.
Proof. rewrite <- memb_in. destruct (memb x l); intuition congruence. Qed.

Section Sort.
Variable E : list (nat * nat).
(** predecessors of [q] that are not in [X] *)
Definition left (X : list nat) (q : nat) : nat :=
  length (filter (fun e => (snd e =? q) && negb (memb (fst e) X)) E).
Definition occ (q : nat) (l : list nat) : nat := count_occ Nat.eq_dec l q.

Lemma occ_app q a b : occ q (a ++ b) = occ q a + occ q b.
Proof. apply count_occ_app. Qed.
Lemma occ_succs q p : occ q (succs E p) = length (filter (fun e => (snd e =? q) && (fst e =? p)) E).
Proof.
  unfold succs, occ. induction E as [|[a b] l IH]; simpl; auto.
  destruct (Nat.eqb_spec a p) as [->|Hn]; simpl.
  - rewrite andb_true_r. destruct (Nat.eqb_spec b q) as [->|Hq].
    + destruct (Nat.eq_dec q q); [|congruence]. simpl. auto.
    + destruct (Nat.eq_dec b q); [congruence|]. auto.
  - rewrite andb_false_r. auto.
Qed.
Lemma left_app X F q : NoDup F -> (forall x, In x F -> ~ In x X) ->
  left X q = left (X ++ F) q + occ q (flat_map (succs E) F).
Proof.
  intros ND HD. induction F as [|p F IH] using rev_ind.
  - rewrite app_nil_r. simpl. unfold occ. simpl. lia.
  - assert (ND' : NoDup F).
    { clear - ND. induction F; [constructor|]. simpl in ND. inversion ND; subst. constructor; auto.
      rewrite in_app_iff in *. tauto. }
    assert (Hp : ~ In p F).
    { clear - ND. induction F; auto. simpl in ND. inversion ND; subst. intros [->|H]; [apply H1, in_or_app; simpl; auto|].
      apply IHF in H; auto. }
    rewrite IH; auto; [|intros x Hx; apply HD, in_or_app; auto].
    rewrite flat_map_app, occ_app. simpl. rewrite app_nil_r.
    enough (HH : left (X ++ F) q = left (X ++ F ++ [p]) q + occ q (succs E p)) by lia.
    rewrite occ_succs. unfold left.
    assert (HpX : ~ In p (X ++ F)) by (intros H; apply in_app_or in H as [H|H]; [apply (HD p); auto; apply in_or_app; simpl; auto|auto]).
    clear - HpX. induction E as [|[a b] l IH]; simpl; auto.
    destruct (b =? q); simpl; auto.
    assert (HM : memb a (X ++ F ++ [p]) = memb a (X ++ F) || (a =? p)).
    { unfold memb. rewrite app_assoc, (existsb_app _ (X ++ F)). simpl. rewrite orb_false_r. auto. }
    rewrite HM. destruct (Nat.eqb_spec a p) as [->|Hn].
    + apply memb_not in HpX. rewrite HpX. simpl. rewrite IH. lia.
    + rewrite orb_false_r. destruct (memb a (X ++ F)); simpl; lia.
Qed.

(** * Visiting *)
Definition frame (ms ms' : list meta) : Prop :=
  length ms' = length ms /\
  forall p, m_vals (get ms' p) = m_vals (get ms p) /\ m_doms (get ms' p) = m_doms (get ms p) /\
            m_dist (get ms' p) = m_dist (get ms p).
Lemma frame_refl ms : frame ms ms. Proof. split; auto. Qed.
Lemma frame_trans a b c : frame a b -> frame b c -> frame a c.
Proof.
  intros [L1 H1] [L2 H2]. split; [congruence|]. intros p. destruct (H1 p) as (A1 & A2 & A3), (H2 p) as (B1 & B2 & B3).
  repeat split; congruence.
Qed.
Lemma frame_upd i f ms : (forall m, m_vals (f m) = m_vals m /\ m_doms (f m) = m_doms m /\ m_dist (f m) = m_dist m) ->
  frame ms (upd i f ms).
Proof.
  intros H. split; [apply upd_length|]. intros p.
  destruct (Nat.lt_ge_cases i (length ms)) as [Hi|Hi]; [|rewrite upd_out; auto].
  rewrite get_upd by auto. destruct (Nat.eqb_spec p i) as [->|]; auto.
Qed.

Lemma visit_all i : forall L ms next, (forall q, In q L -> q < length ms) ->
  exists ms' new,
    fold_left (visit i) L (ms, next) = (ms', next ++ new) /\ frame ms ms' /\
    (forall q, q < length ms -> m_count (get ms' q) = (m_count (get ms q) - Z.of_nat (occ q L))%Z) /\
    NoDup new /\
    (forall q, In q new <-> q < length ms /\ (0 < m_count (get ms q) <= Z.of_nat (occ q L))%Z) /\
    (forall q, m_rank (get ms' q) = if memb q new then i + 1 else m_rank (get ms q)).
Proof.
  induction L as [|x L IH]; intros ms next HL.
  - exists ms, []. simpl. rewrite app_nil_r. split; auto. split; [apply frame_refl|].
    split; [intros; unfold occ; simpl; lia|]. split; [constructor|]. split; auto.
    intros q. unfold occ. simpl. split; [tauto|lia].
  - assert (Hx : x < length ms) by (apply HL; simpl; auto).
    cbn [fold_left visit]. set (ms1 := upd x (add_count (-1)) ms).
    assert (G1 : forall q, get ms1 q = if q =? x then add_count (-1) (get ms x) else get ms q)
      by (intros q; apply get_upd; auto).
    assert (L1 : length ms1 = length ms) by apply upd_length.
    assert (F1 : frame ms ms1) by (apply frame_upd; intros []; simpl; auto).
    assert (C1 : forall q, m_count (get ms1 q) = (m_count (get ms q) - if Nat.eqb q x then 1 else 0)%Z).
    { intros q. rewrite G1. destruct (Nat.eqb_spec q x) as [->|]; simpl; lia. }
    assert (OC : forall q, Z.of_nat (occ q (x :: L)) = (Z.of_nat (occ q L) + if Nat.eqb q x then 1 else 0)%Z).
    { intros q. unfold occ. destruct (Nat.eqb_spec q x) as [->|Hn].
      - rewrite count_occ_cons_eq by auto. lia.
      - rewrite count_occ_cons_neq by auto. lia. }
    destruct (Z.eqb_spec (m_count (get ms1 x)) 0) as [Ez|Ez].
    + set (ms2 := upd x (set_rank (i + 1)) ms1).
      assert (L2 : length ms2 = length ms) by (unfold ms2; rewrite upd_length; auto).
      assert (F2 : frame ms1 ms2) by (apply frame_upd; intros []; simpl; auto).
      assert (C2 : forall q, m_count (get ms2 q) = m_count (get ms1 q)).
      { intros q. unfold ms2. rewrite get_upd by lia. destruct (Nat.eqb_spec q x) as [->|]; auto. }
      destruct (IH ms2 (next ++ [x])) as (ms' & new & E1 & F & C & ND & HN & HR).
      { rewrite L2. intros q Hq. apply HL; simpl; auto. }
      assert (Hxn : ~ In x new).
      { rewrite HN. rewrite C2. lia. }
      exists ms', (x :: new). split; [rewrite E1, <- app_assoc; reflexivity|].
      split; [eapply frame_trans; [exact F1|eapply frame_trans; eauto]|].
      split; [|split; [constructor; auto|split]].
      * intros q Hq. rewrite C by lia. rewrite C2, C1, OC. lia.
      * intros q. cbn [In]. rewrite HN, L2, C2, C1, OC. specialize (C1 x). rewrite Nat.eqb_refl in C1.
        destruct (Nat.eqb_spec q x) as [->|Hn].
        { split; [intros _; split; auto; unfold occ; lia|auto]. }
        { split; [intros [H|H]; [congruence|lia]|intros; right; lia]. }
      * intros q. rewrite HR. unfold ms2. rewrite get_upd by lia. rewrite !G1. simpl.
        destruct (Nat.eqb_spec q x) as [->|Hn]; simpl; auto. destruct (memb x new); auto.
    + destruct (IH ms1 next) as (ms' & new & E1 & F & C & ND & HN & HR).
      { rewrite L1. intros q Hq. apply HL; simpl; auto. }
      exists ms', new. split; auto. split; [eapply frame_trans; eauto|].
      split; [|split; [auto|split]].
      * intros q Hq. rewrite C by lia. rewrite C1, OC. lia.
      * intros q. rewrite HN, L1, C1, OC. specialize (C1 x). rewrite Nat.eqb_refl in C1.
        destruct (Nat.eqb_spec q x) as [->|Hn]; lia.
      * intros q. rewrite HR, G1. destruct (Nat.eqb_spec q x) as [->|]; simpl; auto.
Qed.
End Sort.

From Verif Require Import Base Num Num_Proofs Nsga_Model Nsga_Proofs.
Require Import Permutation.
Open Scope nat_scope.

Section Sort.
Variable E : list (nat * nat).
Variable N : nat.
Hypothesis E_ok : forall a b, In (a, b) E -> a < N /\ b < N.
(** every set of individuals has one with no predecessor in the set *)
Hypothesis E_wf : forall S : list nat, S <> [] -> exists q, In q S /\ forall p, In p S -> ~ In (p, q) E.

Notation left := (left E).

Lemma visit_front_flat i : forall front ms next (D : nat -> list nat),
  (forall p, m_doms (get ms p) = D p) ->
  (forall p q, In p front -> In q (D p) -> q < length ms) ->
  fold_left (fun st p => fold_left (visit i) (m_doms (get (fst st) p)) st) front (ms, next) =
  fold_left (visit i) (flat_map D front) (ms, next).
Proof.
  induction front as [|p front IH]; intros ms next D HD HL; cbn [fold_left flat_map]; auto.
  rewrite fold_left_app. cbn [fst]. rewrite HD.
  destruct (visit_all i (D p) ms next) as (ms' & new & E1 & F & _).
  { intros q Hq. eapply HL; eauto. simpl; auto. }
  rewrite E1. apply IH.
  - intros x. destruct F as [_ F]. destruct (F x) as (_ & G & _). congruence.
  - destruct F as [F0 _]. rewrite F0. intros a b Ha Hb. eapply HL; eauto. simpl; auto.
Qed.

Record inv (X F : list nat) (ms : list meta) : Prop := {
  i_len : length ms = N;
  i_doms : forall p, p < N -> m_doms (get ms p) = succs E p;
  i_cnt : forall q, q < N -> m_count (get ms q) = Z.of_nat (left X q);
  i_nodup : NoDup (X ++ F);
  i_front : forall q, In q F <-> q < N /\ ~ In q X /\ left X q = 0;
  i_done : forall q, In q X -> q < N /\ left X q = 0 }.

Lemma succs_in p q : In q (succs E p) <-> In (p, q) E.
Proof.
  unfold succs. rewrite in_map_iff. split.
  - intros ([a b] & E1 & H). apply filter_In in H as [H1 H2]. apply Nat.eqb_eq in H2. simpl in *. subst. auto.
  - intros H. exists (p, q). split; auto. apply filter_In. split; auto. apply Nat.eqb_refl.
Qed.
Lemma succs_out p : N <= p -> succs E p = [].
Proof.
  intros H. destruct (succs E p) as [|q l] eqn:Eq; auto.
  assert (In q (succs E p)) by (rewrite Eq; simpl; auto). apply succs_in in H0. apply E_ok in H0. lia.
Qed.
Lemma left_zero X q : left X q = 0 <-> forall p, In (p, q) E -> In p X.
Proof.
  unfold Nsga_Proofs.left. split.
  - intros H p Hp. destruct (memb p X) eqn:M; [apply memb_in; auto|].
    assert (HI : In (p, q) (filter (fun e => (snd e =? q) && negb (memb (fst e) X)) E)).
    { apply filter_In. split; auto. simpl. rewrite Nat.eqb_refl, M. auto. }
    destruct (filter _ E); [destruct HI|simpl in H; lia].
  - intros H. destruct (filter _ E) as [|[a b] l] eqn:Eq; auto.
    assert (HI : In (a, b) (filter (fun e => (snd e =? q) && negb (memb (fst e) X)) E)) by (rewrite Eq; simpl; auto).
    apply filter_In in HI as [H1 H2]. simpl in H2. apply andb_true_iff in H2 as [H2 H3].
    apply Nat.eqb_eq in H2. subst. apply H in H1. apply memb_in in H1. rewrite H1 in H3. discriminate.
Qed.

Lemma NoDup_app_split {A} (a b : list A) : NoDup (a ++ b) -> NoDup a /\ NoDup b /\ forall x, In x a -> ~ In x b.
Proof.
  induction a as [|x a IH]; simpl; intros H.
  - split; [constructor|]. auto.
  - inversion H; subst. destruct (IH H3) as (H4 & H5 & H6). split; [constructor; auto|].
    + intros Hx. apply H2, in_or_app. auto.
    + split; auto. intros y [->|Hy] Hb; [apply H2, in_or_app; auto|eapply H6; eauto].
Qed.
Lemma NoDup_app_join {A} (a b : list A) : NoDup a -> NoDup b -> (forall x, In x a -> ~ In x b) -> NoDup (a ++ b).
Proof.
  induction a as [|x a IH]; simpl; intros Ha Hb H; auto. inversion Ha; subst. constructor.
  - intros Hx. apply in_app_or in Hx as [Hx|Hx]; [auto|eapply H; eauto].
  - apply IH; auto. 
Qed.

Lemma step_inv i X F ms ms' next : inv X F ms -> visit_front i F ms = (ms', next) ->
  inv (X ++ F) next ms' /\ frame ms ms' /\
  (forall q, m_rank (get ms' q) = if memb q next then i + 1 else m_rank (get ms q)).
Proof.
  intros [L D C ND FR DN] HV. unfold visit_front in HV.
  destruct (NoDup_app_split _ _ ND) as (NDX & NDF & DIS).
  assert (DD : forall p, m_doms (get ms p) = succs E p).
  { intros p. destruct (Nat.lt_ge_cases p N); auto. rewrite succs_out by auto.
    unfold get. rewrite nth_overflow by lia. auto. }
  rewrite (visit_front_flat i F ms [] (succs E)) in HV; auto.
  2:{ intros p q _ H. apply succs_in in H. apply E_ok in H. lia. }
  destruct (visit_all i (flat_map (succs E) F) ms []) as (ms1 & new & E1 & FM & CC & NN & HN & HR).
  { intros q H. apply in_flat_map in H as (p & _ & H). apply succs_in in H. apply E_ok in H. lia. }
  rewrite E1 in HV. inversion HV; subst ms' next. clear HV. simpl app.
  assert (LA : forall q, left X q = left (X ++ F) q + occ q (flat_map (succs E) F)).
  { intros q. apply left_app; auto. intros x Hx HX. eapply DIS; eauto. }
  split; [|split; auto].
  split.
  - destruct FM as [F0 _]. congruence.
  - intros p Hp. destruct FM as [_ F1]. destruct (F1 p) as (_ & G & _). rewrite G. auto.
  - intros q Hq. rewrite CC by lia. rewrite C by auto. rewrite (LA q). lia.
  - apply NoDup_app_join; auto. intros x Hx Hn. apply HN in Hn as [Hn1 Hn2]. rewrite C in Hn2 by lia.
    apply in_app_or in Hx as [Hx|Hx]; [destruct (DN x Hx); lia|]. apply FR in Hx. lia.
  - intros q. rewrite HN. rewrite L. split.
    + intros [Hq H]. rewrite C in H by auto. split; auto. specialize (LA q). split; [|lia].
      intros HX. apply in_app_or in HX as [HX|HX]; [destruct (DN q HX); lia|apply FR in HX; lia].
    + intros (Hq & Hx & H). rewrite C by auto. split; auto. specialize (LA q).
      assert (left X q <> 0). { intros Z. apply Hx, in_or_app. right. apply FR. split; auto. split; auto.
        intros HX. apply Hx, in_or_app. auto. } lia.
  - intros q Hq. specialize (LA q). apply in_app_or in Hq as [Hq|Hq].
    + destruct (DN q Hq). split; auto. lia.
    + apply FR in Hq. destruct Hq as (? & ? & ?). split; auto. lia.
Qed.

Lemma all_covered X ms : inv X [] ms -> forall q, q < N -> In q X.
Proof.
  intros I q Hq. destruct (memb q X) eqn:M; [apply memb_in; auto|exfalso].
  set (S := filter (fun x => negb (memb x X)) (seq 0 N)).
  assert (HS : forall x, In x S <-> x < N /\ ~ In x X).
  { intros x. unfold S. rewrite filter_In, in_seq, negb_true_iff, memb_not. intuition lia. }
  destruct (E_wf S) as (m & Hm & Hmin).
  { intros Z. assert (In q S) by (apply HS; split; auto; apply memb_not; auto). rewrite Z in H. destruct H. }
  apply HS in Hm as [Hm1 Hm2]. apply (i_front _ _ _ I m). split; auto. split; auto.
  apply left_zero. intros p Hp. destruct (memb p X) eqn:Mp; [apply memb_in; auto|].
  exfalso. apply (Hmin p); auto. apply HS. split; [apply E_ok in Hp; lia|apply memb_not; auto].
Qed.

(** What the sequence of fronts looks like, given that [X] precedes it. *)
Definition layered (X : list nat) (fs : list (list nat)) : Prop :=
  (forall k F, nth_error fs k = Some F -> forall q, In q F <->
     q < N /\ ~ In q (X ++ concat (firstn k fs)) /\ left (X ++ concat (firstn k fs)) q = 0) /\
  NoDup (X ++ concat fs) /\
  (forall q, q < N -> In q (X ++ concat fs)) /\
  (exists body, fs = body ++ [[]] /\ Forall (fun F => F <> []) body).

Lemma inv_bound X F ms : inv X F ms -> length (X ++ F) <= N.
Proof.
  intros I. rewrite <- (seq_length N 0). apply NoDup_incl_length; [apply (i_nodup _ _ _ I)|].
  intros x Hx. apply in_seq. apply in_app_or in Hx as [Hx|Hx].
  - apply (i_done _ _ _ I) in Hx. lia.
  - apply (i_front _ _ _ I) in Hx. lia.
Qed.

Lemma sort_loop_ok : forall fuel i F ms X, inv X F ms -> N - length X < fuel ->
  exists ms' fs, sort_loop fuel i F ms = Ok (ms', F :: fs) /\ layered X (F :: fs) /\ frame ms ms' /\
    (forall q, In q (X ++ F) -> m_rank (get ms' q) = m_rank (get ms q)) /\
    (forall k G q, nth_error fs k = Some G -> In q G -> m_rank (get ms' q) = i + k + 1).
Proof.
  induction fuel as [|fuel IH]; intros i F ms X I Hf; [lia|].
  destruct F as [|f F'].
  - exists ms, []. split; [reflexivity|]. split; [|split; [apply frame_refl|split; auto]].
    + split; [|split; [|split]].
      * intros [|k] F Hk; [|destruct k; discriminate]. inversion Hk; subst. simpl. rewrite app_nil_r. apply (i_front _ _ _ I).
      * pose proof (i_nodup _ _ _ I). simpl. rewrite app_nil_r in *. auto.
      * intros q Hq. simpl. rewrite app_nil_r. eapply all_covered; eauto.
      * exists []. split; auto.
    + intros [|k] G q Hk; discriminate.
  - set (F := f :: F') in *. cbn [sort_loop]. fold F.
    destruct (visit_front i F ms) as [ms1 next] eqn:EV.
    destruct (step_inv i X F ms ms1 next I EV) as (I1 & FM & RK).
    destruct (IH (S i) next ms1 (X ++ F) I1) as (ms' & fs & E1 & (LY1 & LY2 & LY3 & LY4) & FM' & R1 & R2).
    { pose proof (inv_bound _ _ _ I). rewrite app_length in *. unfold F in *. simpl in *. lia. }
    exists ms', (next :: fs).
    unfold F at 1. cbv beta iota. rewrite E1. split; [reflexivity|].
    split; [|split; [eapply frame_trans; eauto|split]].
    + split; [|split; [|split]].
      * intros [|k] G Hk.
        { simpl in Hk. inversion Hk; subst G. simpl. rewrite app_nil_r. apply (i_front _ _ _ I). }
        { cbn [nth_error] in Hk. cbn [firstn concat]. rewrite app_assoc. apply LY1. auto. }
      * cbn [concat]. rewrite app_assoc. exact LY2.
      * cbn [concat]. rewrite app_assoc. exact LY3.
      * destruct LY4 as (body & Eb & Hb). exists (F :: body). split; [simpl; rewrite Eb; auto|].
        constructor; auto. unfold F; discriminate.
    + intros q Hq. rewrite R1 by (rewrite in_app_iff; auto). rewrite RK.
      destruct (memb q next) eqn:M; auto. apply memb_in in M.
      pose proof (i_nodup _ _ _ I1) as ND. apply NoDup_app_split in ND as (_ & _ & ND). exfalso; eapply ND; eauto.
    + intros [|k] G q Hk Hq.
      * simpl in Hk. inversion Hk; subst G. rewrite R1 by (rewrite in_app_iff; auto). rewrite RK.
        assert (M : memb q next = true) by (apply memb_in; auto). rewrite M. lia.
      * simpl in Hk. rewrite (R2 k G q Hk Hq). lia.
Qed.
End Sort.

Lemma first_front_ok : forall l ms front, (forall p, In p l -> p < length ms) -> NoDup l ->
  exists ms', fold_left first_step l (ms, front) = (ms', front ++ filter (fun p => Z.eqb (m_count (get ms p)) 0) l) /\
    frame ms ms' /\ (forall q, m_count (get ms' q) = m_count (get ms q)) /\
    (forall q, m_rank (get ms' q) = if memb q l && Z.eqb (m_count (get ms q)) 0 then 1 else m_rank (get ms q)).
Proof.
  induction l as [|p l IH]; intros ms front HL ND.
  - exists ms. simpl. rewrite app_nil_r. split; auto. split; [apply frame_refl|]. auto.
  - inversion ND; subst. cbn [fold_left first_step filter].
    assert (Hp : p < length ms) by (apply HL; simpl; auto).
    destruct (Z.eqb_spec (m_count (get ms p)) 0) as [Ez|Ez].
    + set (ms1 := upd p (set_rank 1) ms).
      assert (G : forall q, get ms1 q = if q =? p then set_rank 1 (get ms p) else get ms q) by (intros; apply get_upd; auto).
      assert (FM : frame ms ms1) by (apply frame_upd; intros []; simpl; auto).
      assert (GC : forall q, m_count (get ms1 q) = m_count (get ms q)).
      { intros q. rewrite G. destruct (Nat.eqb_spec q p) as [->|]; auto. }
      destruct (IH ms1 (front ++ [p])) as (ms' & E1 & FM' & C & R); auto.
      { destruct FM as [F0 _]. rewrite F0. intros; apply HL; simpl; auto. }
      exists ms'. split; [|split; [eapply frame_trans; eauto|split]].
      * rewrite E1, <- app_assoc. simpl. f_equal. f_equal. f_equal. apply filter_ext. intros a. rewrite GC. auto.
      * intros q. rewrite C. auto.
      * intros q. rewrite R, GC, G. simpl. destruct (Nat.eqb_spec q p) as [->|]; simpl; auto.
        apply memb_not in H1. rewrite H1. simpl. rewrite Ez. auto.
    + destruct (IH ms front) as (ms' & E1 & FM & C & R); auto.
      { intros; apply HL; simpl; auto. }
      exists ms'. split; [auto|]. split; auto. split; auto.
      intros q. rewrite R. simpl. destruct (Nat.eqb_spec q p) as [->|]; simpl; auto.
      apply memb_not in H1. rewrite H1. simpl. destruct (Z.eqb_spec (m_count (get ms p)) 0); congruence.
Qed.

(** [all_gt] on lists of one non-zero length is a strict order. *)
Lemma all_gt_nth a b : length a = length b ->
  (all_gt a b = true <-> forall m, m < length a -> nlt (nth m b NaN) (nth m a NaN)).
Proof.
  revert b. induction a as [|x a IH]; intros [|y b] L; simpl in *; try lia.
  - split; intros; [lia|auto].
  - rewrite andb_true_iff, IH by lia. split.
    + intros [H1 H2] [|m] Hm; auto. apply H2. lia.
    + intros H. split; [apply (H 0); lia|]. intros m Hm. apply (H (S m)). lia.
Qed.

Section Order.
Variable vs : list (list num).
Variable k : nat.
Hypothesis k_pos : 0 < k.
Hypothesis arity : Forall (fun v => length v = k) vs.
Notation n := (length vs).
Lemma vdom_lt p q : p < n -> q < n ->
  (vdom vs p q = true <-> forall m, m < k -> nlt (nth m (nth q vs []) NaN) (nth m (nth p vs []) NaN)).
Proof.
  intros Hp Hq. unfold vdom. rewrite Forall_forall in arity.
  assert (Lp := arity _ (nth_In vs [] Hp)). assert (Lq := arity _ (nth_In vs [] Hq)).
  rewrite all_gt_nth by congruence. rewrite Lp. tauto.
Qed.
Lemma vdom_asym p q : p < n -> q < n -> vdom vs p q = true -> vdom vs q p = false.
Proof.
  intros Hp Hq H. destruct (vdom vs q p) eqn:E2; auto.
  rewrite vdom_lt in H by auto. rewrite vdom_lt in E2 by auto.
  exfalso. eapply nlt_irrefl. eapply nlt_trans; [apply (H 0); auto|apply (E2 0); auto].
Qed.
Lemma vdom_irrefl p : p < n -> vdom vs p p = false.
Proof. intros Hp. destruct (vdom vs p p) eqn:H; auto. rewrite <- H. apply vdom_asym; auto. Qed.
Lemma vdom_trans p q r : p < n -> q < n -> r < n -> vdom vs p q = true -> vdom vs q r = true -> vdom vs p r = true.
Proof.
  intros Hp Hq Hr. rewrite !vdom_lt by auto. intros H1 H2 m Hm. eapply nlt_trans; eauto.
Qed.
Definition Es := edges_of (vdom vs) (combinations2 n).
Lemma Es_in a b : In (a, b) Es <-> a < n /\ b < n /\ vdom vs a b = true.
Proof.
  unfold Es. rewrite edges_in. split.
  - intros [(H1 & H2 & H3)|(H1 & H2 & H3 & H4)]; repeat split; auto; lia.
  - intros (H1 & H2 & H3). destruct (Nat.lt_trichotomy a b) as [H|[->|H]]; auto.
    + rewrite vdom_irrefl in H3 by auto. discriminate.
    + right. repeat split; auto. apply vdom_asym; auto.
Qed.
Lemma Es_wf (S : list nat) : S <> [] -> exists q, In q S /\ forall p, In p S -> ~ In (p, q) Es.
Proof.
  induction S as [|x S IH]; [congruence|]. intros _.
  destruct S as [|y S'].
  - exists x. split; simpl; auto. intros p [->|[]] H. apply Es_in in H as (H1 & _ & H). rewrite vdom_irrefl in H; auto; discriminate.
  - destruct IH as (q & Hq & Hmin); [discriminate|].
    destruct (vdom vs x q) eqn:D.
    + destruct (Nat.lt_ge_cases x n) as [Hx|Hx]; [destruct (Nat.lt_ge_cases q n) as [Hqn|Hqn]|].
      * exists x. split; [simpl; auto|]. intros p [->|Hp] H; apply Es_in in H as (H1 & _ & H).
        { rewrite vdom_irrefl in H; auto; discriminate. }
        { apply (Hmin p Hp). apply Es_in. split; auto. split; auto. apply vdom_trans with (q := x); auto. }
      * exists q. split; [simpl in *; tauto|]. intros p Hp H. apply Es_in in H. lia.
      * exists q. split; [simpl in *; tauto|]. intros p [->|Hp] H; [apply Es_in in H; lia|]. eapply Hmin; eauto.
    + exists q. split; [simpl in *; tauto|]. intros p [->|Hp] H; [apply Es_in in H as (_ & _ & H); congruence|eapply Hmin; eauto].
Qed.
End Order.

Lemma fresh_recorded ms : fresh ms -> recorded (map m_vals ms) [] ms.
Proof.
  intros F. split; auto. intros p Hp. unfold fresh in F. rewrite Forall_forall in F.
  destruct (F (get ms p)) as (H1 & H2 & H3 & H4); [apply nth_In; auto|]. rewrite H1, H2, H3, H4. auto.
Qed.

Lemma fast_sort_ok ms k : fresh ms -> 0 < k -> Forall (fun m => length (m_vals m) = k) ms ->
  let vs := map m_vals ms in
  exists ms' fs, fast_sort ms = Ok (ms', fs) /\ layered (Es vs) (length ms) [] fs /\
    length ms' = length ms /\ map m_vals ms' = vs /\
    (forall p, p < length ms -> m_dist (get ms' p) = Fin 0) /\
    (forall j G q, nth_error fs j = Some G -> In q G -> m_rank (get ms' q) = Nat.max 1 j).
Proof.
  intros FR Hk AR vs.
  assert (AV : Forall (fun v => length v = k) vs).
  { unfold vs. rewrite Forall_map. auto. }
  assert (LV : length vs = length ms) by apply map_length.
  unfold fast_sort.
  destruct (compare_all_ok vs (combinations2 (length ms)) [] ms) as [[R1 R2] L1].
  { apply fresh_recorded; auto. }
  { intros p q H. apply combinations2_in in H. lia. }
  fold (compare_all ms) in *. set (ms1 := compare_all ms) in *. simpl app in R2.
  unfold first_front. rewrite L1.
  destruct (first_front_ok (seq 0 (length ms)) ms1 []) as (ms2 & E2 & FM & C2 & RK2).
  { intros p Hp. apply in_seq in Hp. lia. } { apply seq_NoDup. }
  rewrite E2. simpl app.
  set (F := filter (fun p => Z.eqb (m_count (get ms1 p)) 0) (seq 0 (length ms))).
  assert (EsE : edges_of (vdom vs) (combinations2 (length ms)) = Es vs) by (unfold Es; rewrite LV; auto).
  rewrite EsE in R2.
  assert (PL : forall q, preds (Es vs) q = left (Es vs) [] q).
  { intros q. unfold preds, left. f_equal. apply filter_ext. intros e. simpl. rewrite andb_true_r. auto. }
  assert (I : inv (Es vs) (length ms) [] F ms2).
  { destruct FM as [FM0 FM1]. split.
    - congruence.
    - intros p Hp. destruct (FM1 p) as (_ & G & _). rewrite G. apply R2. lia.
    - intros q Hq. rewrite C2. destruct (R2 q) as (_ & G & _); [lia|]. rewrite G, PL. auto.
    - simpl. apply NoDup_filter, seq_NoDup.
    - intros q. unfold F. rewrite filter_In, in_seq, Z.eqb_eq. split.
      + intros [H1 H2]. destruct (R2 q) as (_ & G & _); [lia|]. rewrite G, PL in H2. repeat split; try lia. auto.
      + intros (H1 & _ & H2). split; [lia|]. destruct (R2 q) as (_ & G & _); [lia|]. rewrite G, PL. lia.
    - intros q []. }
  destruct (sort_loop_ok (Es vs) (length ms)) with (fuel := S (length ms)) (i := 0) (F := F) (ms := ms2) (X := @nil nat)
    as (ms' & fs & E3 & LY & FM3 & R3 & R4); auto.
  { intros a b H. apply (Es_in vs k) in H; auto. lia. }
  { apply (Es_wf vs k); auto. }
  { simpl. lia. }
  exists ms', (F :: fs). split; auto. split; auto. destruct FM as [FM0 FM1], FM3 as [FM30 FM31].
  split; [congruence|]. split; [|split].
  - rewrite <- R1. apply nth_ext with (d := []) (d' := []); [rewrite !map_length; congruence|].
    intros p Hp. rewrite !nth_vals. destruct (FM31 p) as (-> & _). destruct (FM1 p) as (-> & _). auto.
  - intros p Hp. destruct (FM31 p) as (_ & _ & ->). destruct (FM1 p) as (_ & _ & ->). apply R2. lia.
  - intros [|j] G q Hj Hq.
    + simpl in Hj. inversion Hj; subst G. rewrite R3 by (simpl; auto). rewrite RK2.
      unfold F in Hq. apply filter_In in Hq as [H1 H2]. apply memb_in in H1. rewrite H1, H2. simpl. auto.
    + simpl in Hj. rewrite (R4 j G q Hj Hq). lia.
Qed.

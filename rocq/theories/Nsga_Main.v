(** Theorems about nsga2.py; restated in [Nsga_Props.v]. *)
(*IMPORTS*)
From Verif Require Import Base Num Nsga_Model Nsga_Spec.
Require Import Permutation.
Open Scope nat_scope.
(*END*)
From Verif Require Import Num_Proofs Nsga_Proofs Nsga_Proofs2 Nsga_Proofs3 Nsga_Proofs4 Nsga_Proofs5.
Require Import Sorting Lqa.

(** The objects fast_non_dominated_sort is called with for a population. *)
Definition metas {A} (metrics : list (A -> num)) (pop : list A) : list meta := map (new_meta metrics) pop.
(** Distances and ranks of the objects, by position. *)
Definition dist_of (ms : list meta) (i : nat) : num := m_dist (nth i ms (mkMeta [] 0 (Fin 0) [] 0)).
Definition rank_of (ms : list meta) (i : nat) : nat := m_rank (nth i ms (mkMeta [] 0 (Fin 0) [] 0)).

Section Common.
Context {A : Type} (metrics : list (A -> num)) (pop : list A).
Hypothesis HM : metrics <> [].
Let k := length metrics.
Let n := length pop.
Lemma k_pos : 0 < k.
Proof. unfold k. destruct metrics; [congruence|simpl; lia]. Qed.
Lemma metas_fresh : fresh (metas metrics pop).
Proof. unfold fresh, metas. rewrite Forall_map. apply Forall_forall. intros x _. simpl. auto. Qed.
Lemma metas_arity : Forall (fun m => length (m_vals m) = k) (metas metrics pop).
Proof. unfold metas. rewrite Forall_map. apply Forall_forall. intros x _. simpl. apply map_length. Qed.
Lemma metas_length : length (metas metrics pop) = n.
Proof. apply map_length. Qed.
Lemma vals_nth i : i < n -> exists x, nth_error pop i = Some x /\ nth i (map m_vals (metas metrics pop)) [] = map (fun f => f x) metrics.
Proof.
  intros Hi. destruct (nth_error pop i) as [x|] eqn:E; [|apply nth_error_None in E; unfold n in *; lia].
  exists x. split; auto. unfold metas. rewrite map_map. simpl.
  rewrite (nth_indep _ [] (map (fun f => f x) metrics)) by (rewrite map_length; auto).
  change (map (fun f => f x) metrics) with ((fun x => map (fun m => m x) metrics) x).
  rewrite map_nth. apply nth_error_nth with (d := x) in E. rewrite E. auto.
Qed.
Lemma value_nth i m : i < n -> m < k -> nth m (nth i (map m_vals (metas metrics pop)) []) NaN = value metrics pop m i.
Proof.
  intros Hi Hm. destruct (vals_nth i Hi) as (x & E & ->). unfold value. rewrite E.
  destruct (nth_error metrics m) as [f|] eqn:Ef; [|apply nth_error_None in Ef; unfold k in *; lia].
  rewrite (nth_indep _ NaN (f x)) by (rewrite map_length; auto).
  change (f x) with ((fun f => f x) f) at 1. rewrite map_nth. apply nth_error_nth with (d := f) in Ef. rewrite Ef. auto.
Qed.
Lemma beats_vdom i j : i < n -> j < n -> (vdom (map m_vals (metas metrics pop)) i j = true <-> beats metrics pop i j).
Proof.
  intros Hi Hj. assert (L : length (map m_vals (metas metrics pop)) = n) by (rewrite map_length; apply metas_length).
  rewrite (vdom_lt _ k) by (try rewrite Forall_map; try apply metas_arity; lia).
  unfold beats. fold k. split; intros H m Hm; specialize (H m Hm).
  - rewrite !value_nth in H by auto. auto.
  - rewrite !value_nth by auto. auto.
Qed.

Lemma sort_facts : exists ms fronts, fast_sort (metas metrics pop) = Ok (ms, fronts) /\
  Permutation (concat fronts) (seq 0 n) /\ ended fronts /\
  (forall k1 k2 i j, k1 <= k2 -> in_front fronts k1 i -> in_front fronts k2 j -> ~ beats metrics pop j i) /\
  (forall k1 i, in_front fronts (S k1) i -> exists j, in_front fronts k1 j /\ beats metrics pop j i) /\
  length ms = n /\ map m_vals ms = map m_vals (metas metrics pop) /\
  (forall p, p < n -> m_dist (get ms p) = Fin 0) /\
  (forall j q, in_front fronts j q -> m_rank (get ms q) = Nat.max 1 j).
Proof.
  destruct (fast_sort_ok (metas metrics pop) k) as (ms & fs & E & (LY1 & LY2 & LY3 & LY4) & L & V & D & R);
    [apply metas_fresh|apply k_pos|apply metas_arity|].
  rewrite metas_length in *. simpl app in *.
  set (vs := map m_vals (metas metrics pop)) in *.
  assert (Lvs : length vs = n) by (unfold vs; rewrite map_length; apply metas_length).
  assert (AV : Forall (fun v => length v = k) vs) by (unfold vs; rewrite Forall_map; apply metas_arity).
  assert (EB : forall i j, In (i, j) (Es vs) <-> i < n /\ j < n /\ beats metrics pop i j).
  { intros i j. rewrite (Es_in vs k k_pos AV). rewrite Lvs. split; intros (H1 & H2 & H3); repeat split; auto; apply beats_vdom; auto. }
  assert (LT : forall j i, in_front fs j i -> i < n).
  { intros j i (F & HF & Hi). apply (LY1 j F HF) in Hi. tauto. }
  assert (IFC : forall a b i, a < b -> in_front fs a i -> In i (concat (firstn b fs))).
  { intros a b i Hab (F & HF & Hi). apply in_concat. exists F. split; auto.
    rewrite <- (firstn_skipn b fs) in HF. rewrite nth_error_app1 in HF; [eapply nth_error_In; eauto|].
    assert (a < length fs). { apply nth_error_Some. rewrite <- (firstn_skipn b fs). congruence. }
    rewrite firstn_length. lia. }
  exists ms, fs. split; auto. split; [|split; [|split; [|split; [|split; [|split; [|split]]]]]]; auto.
  - apply NoDup_Permutation; auto; [apply seq_NoDup|]. intros x. rewrite in_seq. split.
    + intros Hx. apply in_concat in Hx as (F & HF & Hx). apply In_nth_error in HF as [j HF]. apply (LY1 j F HF) in Hx. lia.
    + intros. apply LY3. lia.
  - intros a b i j Hab Ha Hb HB. pose proof (LT _ _ Ha). pose proof (LT _ _ Hb).
    destruct Ha as (F & HF & Hi). apply (LY1 a F HF) in Hi as (_ & Hn & Hz). rewrite left_zero in Hz.
    assert (Hj : In j (concat (firstn a fs))) by (apply Hz, EB; auto).
    destruct Hb as (G & HG & Hj'). apply (LY1 b G HG) in Hj' as (_ & Hnj & _). apply Hnj.
    apply in_concat in Hj as (F' & HF' & Hj). apply in_concat. exists F'. split; auto.
    replace a with (Nat.min a b) in HF' by lia. rewrite <- firstn_firstn in HF'.
    rewrite <- (firstn_skipn a (firstn b fs)). apply in_or_app. left. auto.
  - intros a i (F & HF & Hi). pose proof Hi as Hi0. apply (LY1 (S a) F HF) in Hi as (Hin & Hn & Hz). rewrite left_zero in Hz.
    destruct (nth_error fs a) as [G|] eqn:HG.
    2:{ apply nth_error_None in HG. assert (S a < length fs) by (apply nth_error_Some; congruence). lia. }
    assert (SA : concat (firstn (S a) fs) = concat (firstn a fs) ++ G).
    { clear - HG. revert a HG. induction fs as [|x fs IH]; intros [|a] H; simpl in *; try discriminate.
      - inversion H; subst. rewrite app_nil_r. auto.
      - change (firstn (S a) (x :: fs)) with (x :: firstn a fs) in *. rewrite <- app_assoc, <- (IH a H). auto. }
    assert (HNZ : left (Es vs) (concat (firstn a fs)) i <> 0).
    { intros Z. apply Hn. rewrite SA. apply in_or_app. right. apply (LY1 a G HG). split; auto. split; auto.
      intros H. apply Hn. rewrite SA. apply in_or_app. auto. }
    assert (HX : exists p, In (p, i) (Es vs) /\ ~ In p (concat (firstn a fs))).
    { unfold left in HNZ. destruct (filter _ (Es vs)) as [|[p q] l] eqn:EF; [simpl in HNZ; lia|].
      assert (HI : In (p, q) (filter (fun e => (snd e =? i) && negb (memb (fst e) (concat (firstn a fs)))) (Es vs))) by (rewrite EF; simpl; auto).
      apply filter_In in HI as [H1 H2]. apply andb_true_iff in H2 as [H2 H3]. apply Nat.eqb_eq in H2. simpl in *. subst q.
      exists p. split; auto. apply memb_not. rewrite negb_true_iff in H3. auto. }
    destruct HX as (p & Hp1 & Hp2). exists p. pose proof (Hz p Hp1) as Hp3. rewrite SA in Hp3.
    apply in_app_or in Hp3 as [Hp3|Hp3]; [tauto|]. split; [exists G; auto|]. apply EB in Hp1. tauto.
  - intros j q (G & HG & Hq). eauto.
Qed.

Lemma values_kept ms : map m_vals ms = map m_vals (metas metrics pop) -> length ms = n ->
  forall m p, m < k -> p < n -> value_at ms m p = value metrics pop m p.
Proof. intros H L m p Hm Hp. unfold value_at. rewrite <- nth_vals, H. apply value_nth; auto. Qed.

Lemma in_concat_firstn fs j x : In x (concat (firstn j fs)) <-> exists i, i < j /\ in_front fs i x.
Proof.
  revert j. induction fs as [|F fs IH]; intros j.
  - rewrite firstn_nil. simpl. split; [tauto|]. intros (i & _ & F & HF & _). destruct i; discriminate.
  - destruct j as [|j]; simpl.
    + split; [tauto|]. intros (i & H & _). lia.
    + rewrite in_app_iff, IH. split.
      * intros [H|(i & Hi & G & HG & Hx)]; [exists 0; split; [lia|exists F; auto]|]. exists (S i). split; [lia|]. exists G. auto.
      * intros ([|i] & Hi & G & HG & Hx); simpl in HG; [inversion HG; subst; auto|]. right. exists i. split; [lia|exists G; auto].
Qed.

Lemma in_front_unique fs a b x : NoDup (concat fs) -> in_front fs a x -> in_front fs b x -> a = b.
Proof.
  assert (HH : forall fs a b x, NoDup (concat fs) -> a < b -> in_front fs a x -> in_front fs b x -> False).
  { clear. induction fs as [|F fs IH]; intros a b x ND Hab (G & HG & Hx) (G' & HG' & Hx'); [destruct a; discriminate|].
    simpl in ND. apply NoDup_app_split in ND as (_ & ND & DIS). destruct b as [|b]; [lia|]. simpl in HG'. destruct a as [|a]; simpl in HG.
    - inversion HG; subst. apply (DIS x Hx). apply in_concat. exists G'. split; auto. eapply nth_error_In; eauto.
    - apply (IH a b x); auto; [lia|exists G; auto|exists G'; auto]. }
  intros ND Ha Hb. destruct (Nat.lt_trichotomy a b) as [H|[H|H]]; auto; exfalso; eapply HH; eauto.
Qed.

Lemma nsga2_facts c : 0 < c <= n ->
  exists ms0 fronts ms sel, fast_sort (metas metrics pop) = Ok (ms0, fronts) /\ nsga2 pop c metrics = Ok (ms, sel) /\
    length sel = c /\ NoDup sel /\ (forall i, In i sel -> i < n) /\
    (forall a b i j, a < b -> in_front fronts a i -> in_front fronts b j -> In j sel -> In i sel) /\
    (forall i j, In j sel -> ~ In i sel -> i < n -> ~ beats metrics pop i j) /\
    length ms = n /\ (forall j q, in_front fronts j q -> m_rank (get ms q) = Nat.max 1 j) /\
    ((forall m i, m < k -> i < n -> value metrics pop m i <> NaN) ->
     (forall a F, nth_error fronts a = Some F -> (exists i, In i F /\ In i sel) ->
        crowding k (value metrics pop) F (fun p => m_dist (get ms p)) /\
        forall i j, In i F -> In j F -> In i sel -> ~ In j sel -> ~ nlt (m_dist (get ms i)) (m_dist (get ms j)))).
Proof.
  intros Hc. destruct sort_facts as (ms0 & fs & E & PM & EN & F1 & F2 & L & V & D & R).
  assert (ND : NoDup (concat fs)) by (eapply Permutation_NoDup; [apply Permutation_sym; eauto|apply seq_NoDup]).
  assert (LC : length (concat fs) = n) by (rewrite (Permutation_length PM), seq_length; auto).
  destruct (fill_ok fs c [] ms0) as (ms & sel & E2 & SB & LS & j & F & x & HC1 & HC2 & HC3); auto.
  { simpl. lia. }
  simpl app in *.
  assert (NS : nsga2 pop c metrics = Ok (ms, sel)).
  { unfold nsga2. destruct (Nat.eqb_spec c 0); [lia|]. destruct (Nat.ltb_spec (length pop) c); [unfold n in *; lia|]. simpl.
    unfold metas in E. rewrite E. simpl. auto. }
  assert (ISEL : forall y, In y (firstn x (crowd_sort ms F)) -> In y F).
  { intros y Hy. apply Permutation_in with (l := crowd_sort ms F); [apply Permutation_sym, crowd_sort_perm|].
    rewrite <- (firstn_skipn x (crowd_sort ms F)). apply in_or_app; auto. }
  assert (SEL : forall i, In i sel -> exists a, a <= j /\ in_front fs a i).
  { intros i Hi. rewrite HC3 in Hi. apply in_app_or in Hi as [Hi|Hi].
    - apply in_concat_firstn in Hi as (a & Ha & Hi). exists a. split; [lia|auto].
    - exists j. split; auto. exists F. split; auto. }
  assert (SEL2 : forall a i, a < j -> in_front fs a i -> In i sel).
  { intros a i Ha Hi. rewrite HC3. apply in_or_app. left. apply in_concat_firstn. exists a; auto. }
  assert (BND : forall a i, in_front fs a i -> i < n).
  { intros a i (G & HG & Hi). assert (In i (seq 0 n)); [|rewrite in_seq in *; lia].
    eapply Permutation_in; [exact PM|]. apply in_concat. exists G. split; auto. eapply nth_error_In; eauto. }
  exists ms0, fs, ms, sel. split; auto. split; auto. split; auto.
  split; [|split; [|split; [|split; [|split; [|split]]]]].
  - rewrite HC3. apply NoDup_app_join.
    + assert (H : NoDup (concat (firstn j fs) ++ concat (skipn j fs))) by (rewrite <- concat_app, firstn_skipn; auto).
      apply NoDup_app_split in H. tauto.
    + assert (HF : NoDup (crowd_sort ms F)).
      { eapply Permutation_NoDup; [apply crowd_sort_perm|].
        apply nth_error_split in HC1 as (l1 & l2 & El & _). rewrite El, concat_app in ND. simpl in ND.
        apply NoDup_app_split in ND as (_ & ND & _). apply NoDup_app_split in ND. tauto. }
      rewrite <- (firstn_skipn x (crowd_sort ms F)) in HF. apply NoDup_app_split in HF. tauto.
    + intros y Hy Hy2. apply in_concat_firstn in Hy as (a & Ha & Hy). apply ISEL in Hy2.
      assert (a = j) by (eapply in_front_unique; eauto; exists F; auto). lia.
  - intros i Hi. destruct (SEL i Hi) as (a & _ & Ha). eauto.
  - intros a b i i' Hab Ha Hb Hs. destruct (SEL i' Hs) as (b' & Hb' & Hi').
    assert (b' = b) by (eapply in_front_unique; eauto). subst b'. apply (SEL2 a); auto. lia.
  - intros i i' Hs Hn Hi HB. destruct (SEL i' Hs) as (b & Hb & Hib).
    assert (HI : In i (concat fs)) by (eapply Permutation_in; [apply Permutation_sym; exact PM|apply in_seq; lia]).
    assert (HI' : exists a, in_front fs a i).
    { apply in_concat in HI as (G & HG & HI). apply In_nth_error in HG as [a HG]. exists a, G. auto. }
    destruct HI' as [a Ha]. destruct (Nat.lt_ge_cases a j) as [Haj|Haj]; [apply Hn; eapply SEL2; eauto|].
    eapply (F1 b a i' i); eauto. lia.
  - destruct SB as [SB0 _]. congruence.
  - intros a q Ha. destruct SB as [_ SB1]. destruct (SB1 q) as [_ ->]. auto.
  - intros NN a G HG (i0 & Hi0 & Hs0).
    assert (VK : forall m p, m < k -> p < n -> value_at ms0 m p = value metrics pop m p) by (apply values_kept; auto).
    assert (PLN : forall G, In G fs -> plain k ms0 G).
    { intros G' HG'. split.
      - apply In_nth_error in HG' as [b HG']. apply nth_error_split in HG' as (l1 & l2 & El & _). rewrite El, concat_app in ND. simpl in ND.
        apply NoDup_app_split in ND as (_ & ND & _). apply NoDup_app_split in ND. tauto.
      - intros p Hp. apply In_nth_error in HG' as [b HG']. assert (Hpn : p < n) by (apply (BND b); exists G'; auto).
        split; [lia|]. split.
        + rewrite <- nth_vals, V. pose proof metas_arity as AR. rewrite Forall_forall in AR.
          rewrite nth_vals. apply AR. apply nth_In. rewrite metas_length. auto.
        + intros m Hm. rewrite VK by auto. auto. }
    destruct (fill_crowding k fs c [] ms0 ms sel) as (OUT & j' & F' & x' & HC' & HCR); auto.
    { intros p Hp. apply D. assert (In p (seq 0 n)) by (eapply Permutation_in; eauto). rewrite in_seq in *; lia. }
    { simpl; lia. }
    assert (Haj : a <= j). { destruct (SEL i0 Hs0) as (a' & Ha' & H'). assert (a' = a) by (eapply in_front_unique; eauto; exists G; auto). lia. }
    assert (Hj' : j' = j).
    { destruct HC' as (HC1' & HC2' & HC3').
      assert (NEx : forall y l, 0 < y <= length F -> exists w, In w (firstn y (crowd_sort ms l)) \/ l <> F).
      { intros y l Hy. destruct (firstn y (crowd_sort ms l)) as [|w r] eqn:Ef; [|exists w; simpl; auto].
        exists 0. right. intros ->. assert (length (firstn y (crowd_sort ms F)) = y).
        { apply firstn_length_le. rewrite <- (Permutation_length (crowd_sort_perm ms F)). lia. }
        rewrite Ef in H. simpl in H. lia. }
      assert (HW : exists w, In w (firstn x (crowd_sort ms F))).
      { destruct (NEx x F HC2) as [w [H|H]]; [eauto|congruence]. }
      assert (HW' : exists w, In w (firstn x' (crowd_sort ms F'))).
      { destruct (firstn x' (crowd_sort ms F')) as [|w r] eqn:Ef; [|exists w; simpl; auto].
        assert (length (firstn x' (crowd_sort ms F')) = x').
        { apply firstn_length_le. rewrite <- (Permutation_length (crowd_sort_perm ms F')). lia. }
        rewrite Ef in H. simpl in H. lia. }
      destruct HW as [w Hw], HW' as [w' Hw'].
      assert (Iw : In w sel) by (rewrite HC3; apply in_or_app; auto).
      assert (Iw' : In w' sel) by (rewrite HC3'; apply in_or_app; auto).
      assert (Fw' : in_front fs j' w').
      { exists F'. split; auto. apply Permutation_in with (l := crowd_sort ms F'); [apply Permutation_sym, crowd_sort_perm|].
        rewrite <- (firstn_skipn x' (crowd_sort ms F')). apply in_or_app; auto. }
      assert (Fw : in_front fs j w) by (exists F; auto).
      destruct (SEL w' Iw') as (b & Hb & Hwb). assert (b = j') by (eapply in_front_unique; eauto). subst b.
      rewrite HC3' in Iw. apply in_app_or in Iw as [Iw|Iw].
      - apply in_concat_firstn in Iw as (b & Hb' & Hwb'). assert (b = j) by (eapply in_front_unique; eauto). lia.
      - assert (Fw2 : in_front fs j' w).
        { exists F'. split; auto. apply Permutation_in with (l := crowd_sort ms F'); [apply Permutation_sym, crowd_sort_perm|].
          rewrite <- (firstn_skipn x' (crowd_sort ms F')). apply in_or_app; auto. }
        eapply in_front_unique; eauto. }
    subst j'.
    assert (CR : crowding k (value metrics pop) G (fun p => m_dist (get ms p))).
    { eapply crowding_ext; [| |exact (HCR a G Haj HG)]; auto. intros m p Hm Hp. apply VK; auto. apply (BND a). exists G; auto. }
    split; auto.
    intros i i' Hi Hi' Hs Hns.
    assert (a = j). { destruct (Nat.eq_dec a j); auto. exfalso. apply Hns. apply (SEL2 a); [lia|]. exists G; auto. }
    subst a. assert (G = F) by congruence. subst G.
    assert (Ri : forall q, In q F -> m_rank (get ms q) = Nat.max 1 j).
    { intros q Hq. destruct SB as [_ SB1]. destruct (SB1 q) as [_ ->]. apply R. exists F; auto. }
    assert (GD : forall q, In q F -> m_dist (get ms q) <> NaN).
    { intros q Hq. destruct CR as (_ & _ & CR & _). destruct (CR q Hq) as [H|(z & H & _)]; rewrite H; discriminate. }
    assert (SS : StronglySorted (fun a b => negb (better (get ms b) (get ms a)) = true) (crowd_sort ms F)).
    { apply sorted_ss_on with (P := fun q => In q F).
      - intros a b Ha Hb. destruct (better (get ms b) (get ms a)) eqn:B; auto. apply better_asym in B. rewrite B. auto.
      - intros a b d Ha Hb Hd. unfold better. rewrite !Ri by auto. rewrite Nat.ltb_irrefl, Nat.eqb_refl. simpl.
        rewrite !negb_ltb_nle by auto. intros X Y. eapply nle_trans; eauto.
      - apply Forall_forall. auto. }
    rewrite <- (firstn_skipn x (crowd_sort ms F)) in SS.
    assert (Hi1 : In i (firstn x (crowd_sort ms F))).
    { rewrite HC3 in Hs. apply in_app_or in Hs as [Hs|Hs]; auto. apply in_concat_firstn in Hs as (b & Hb & Hib).
      assert (b = j) by (eapply in_front_unique; eauto; exists F; auto). lia. }
    assert (Hi2 : In i' (skipn x (crowd_sort ms F))).
    { assert (H : In i' (crowd_sort ms F)) by (eapply Permutation_in; [apply crowd_sort_perm|auto]).
      rewrite <- (firstn_skipn x (crowd_sort ms F)) in H. apply in_app_or in H as [H|H]; auto.
      exfalso. apply Hns. rewrite HC3. apply in_or_app; auto. }
    apply in_split in Hi1 as (l1 & l2 & El). rewrite El, <- app_assoc in SS. simpl in SS. apply ss_split in SS as [_ SS].
    specialize (SS i' ltac:(apply in_or_app; auto)). unfold better in SS. rewrite !Ri in SS by auto.
    rewrite Nat.ltb_irrefl, Nat.eqb_refl in SS. simpl in SS. unfold nlt. intros HH. rewrite HH in SS. discriminate.
Qed.
End Common.

(** C27: the fronts contain everybody exactly once; nobody is beaten (in every
    metric) by someone of the same or a later front; everybody outside the first
    front is beaten by someone in the front just before. *)
Lemma C27_fronts_main :
  forall (A : Type) (metrics : list (A -> num)) (pop : list A), metrics <> [] ->
  exists ms fronts, fast_sort (metas metrics pop) = Ok (ms, fronts) /\
    Permutation (concat fronts) (seq 0 (length pop)) /\
    (forall k1 k2 i j, k1 <= k2 -> in_front fronts k1 i -> in_front fronts k2 j -> ~ beats metrics pop j i) /\
    (forall k i, in_front fronts (S k) i -> exists j, in_front fronts k j /\ beats metrics pop j i).
Proof.
  intros A metrics pop HM. destruct (sort_facts metrics pop HM) as (ms & fs & E & PM & EN & F1 & F2 & _).
  exists ms, fs. auto.
Qed.
(** the list of fronts ends with one empty front, no other front is empty *)
Lemma C27_one_empty_front_main :
  forall (A : Type) (metrics : list (A -> num)) (pop : list A) ms fronts, metrics <> [] ->
  fast_sort (metas metrics pop) = Ok (ms, fronts) ->
  exists body, fronts = body ++ [[]] /\ Forall (fun F => F <> []) body.
Proof.
  intros A metrics pop ms0 fs0 HM E0. destruct (sort_facts metrics pop HM) as (ms & fs & E & PM & EN & _).
  rewrite E in E0. injection E0 as <- <-. exact EN.
Qed.
(** a population with three fronts *)
Definition ex_metrics : list (Z * Z -> num) := [fun x => Fin (inject_Z (fst x)); fun x => Fin (inject_Z (snd x))].
Definition ex_pop : list (Z * Z) := [(1, 1); (5, 2); (2, 5); (3, 3); (0, 0); (4, 4)]%Z.
Example C27_ex_main : exists ms, fast_sort (metas ex_metrics ex_pop) = Ok (ms, [[1; 2; 5]; [3]; [0]; [4]; []]).
Proof. eexists. vm_compute. reflexivity. Qed.

(** C28: exactly n different members, whole fronts before later ones; nobody is
    selected while someone beating them is not. *)
Lemma C28_selection_main :
  forall (A : Type) (metrics : list (A -> num)) (pop : list A) (n : nat), metrics <> [] -> 0 < n <= length pop ->
  exists ms0 fronts ms sel, fast_sort (metas metrics pop) = Ok (ms0, fronts) /\ nsga2 pop n metrics = Ok (ms, sel) /\
    length sel = n /\ NoDup sel /\ (forall i, In i sel -> i < length pop) /\
    (forall k1 k2 i j, k1 < k2 -> in_front fronts k1 i -> in_front fronts k2 j -> In j sel -> In i sel).
Proof.
  intros A metrics pop n HM Hn.
  destruct (nsga2_facts metrics pop HM n Hn) as (ms0 & fs & ms & sel & H1 & H2 & H3 & H4 & H5 & H6 & _).
  exists ms0, fs, ms, sel. repeat (split; auto).
Qed.
Lemma C28_no_better_left_out_main :
  forall (A : Type) (metrics : list (A -> num)) (pop : list A) (n : nat) ms sel i j, metrics <> [] ->
  nsga2 pop n metrics = Ok (ms, sel) -> In j sel -> i < length pop -> ~ In i sel -> ~ beats metrics pop i j.
Proof.
  intros A metrics pop n ms' sel' i j HM E Hj Hi Hn.
  assert (Hb : 0 < n <= length pop).
  { unfold nsga2 in E. destruct (Nat.eqb_spec n 0); [discriminate|]. destruct (Nat.ltb_spec (length pop) n); [discriminate|]. lia. }
  destruct (nsga2_facts metrics pop HM n Hb) as (ms0 & fs & ms & sel & H1 & H2 & H3 & H4 & H5 & H6 & H7 & _).
  rewrite H2 in E. injection E as <- <-. apply H7; auto.
Qed.
(** of a front that is only partly selected the least crowded members are taken,
    where the distances are crowding distances within their front *)
Lemma C28_least_crowded_main :
  forall (A : Type) (metrics : list (A -> num)) (pop : list A) (n : nat) ms0 fronts ms sel k F, metrics <> [] ->
  (forall m i, m < length metrics -> i < length pop -> value metrics pop m i <> NaN) ->
  fast_sort (metas metrics pop) = Ok (ms0, fronts) -> nsga2 pop n metrics = Ok (ms, sel) ->
  nth_error fronts k = Some F -> (exists i, In i F /\ In i sel) ->
  crowding (length metrics) (value metrics pop) F (dist_of ms) /\
  forall i j, In i F -> In j F -> In i sel -> ~ In j sel -> ~ nlt (dist_of ms i) (dist_of ms j).
Proof.
  intros A metrics pop n ms0' fs' ms' sel' k F HM NN E0 E HF HX.
  assert (Hb : 0 < n <= length pop).
  { unfold nsga2 in E. destruct (Nat.eqb_spec n 0); [discriminate|]. destruct (Nat.ltb_spec (length pop) n); [discriminate|]. lia. }
  destruct (nsga2_facts metrics pop HM n Hb) as (ms0 & fs & ms & sel & H1 & H2 & H3 & H4 & H5 & H6 & H7 & H8 & H9 & H10).
  rewrite H1 in E0. injection E0 as <- <-. rewrite H2 in E. injection E as <- <-.
  destruct (H10 NN k F HF HX) as [C L]. split; auto.
Qed.
Lemma C28_errors_main :
  forall (A : Type) (metrics : list (A -> num)) (pop : list A) (n : nat),
  n = 0 \/ length pop < n -> nsga2 pop n metrics = Err ValueError.
Proof.
  intros A metrics pop n H. unfold nsga2. destruct (Nat.eqb_spec n 0); auto.
  destruct (Nat.ltb_spec (length pop) n); auto. lia.
Qed.
Example C28_ex_main : exists ms, nsga2 ex_pop 2 ex_metrics = Ok (ms, [1; 2]).
Proof. eexists. vm_compute. reflexivity. Qed.

(** C29: n pairs of two different members. *)
Lemma C29_pairs_main :
  forall (A : Type) (metrics : list (A -> num)) (pop : list A) (n : nat) (r : rng), metrics <> [] -> 3 <= length pop ->
  exists ps r', nsga2_select pop n metrics r = (Ok ps, r') /\ length ps = n /\
    forall f g, In (f, g) ps -> f < length pop /\ g < length pop /\ f <> g.
Proof.
  intros A metrics pop n r HM HL.
  destruct (nsga2_facts metrics pop HM (length pop) ltac:(lia)) as (ms0 & fs & ms & sel & H1 & H2 & H3 & H4 & H5 & _).
  unfold nsga2_select. destruct (Nat.ltb_spec (length pop) 3); [lia|]. rewrite H2.
  destruct (select_pairs_ok ms sel H4 ltac:(lia) n r) as (ps & r' & E & L & HP). exists ps, r'. split; auto. split; auto.
  intros f g Hfg. destruct (HP f g Hfg) as (Hf & Hg & Hne & _). auto.
Qed.
Lemma C29_too_few_main :
  forall (A : Type) (metrics : list (A -> num)) (pop : list A) (n : nat) (r : rng), length pop < 3 ->
  nsga2_select pop n metrics r = (Err ValueError, r).
Proof. intros. unfold nsga2_select. destruct (Nat.ltb_spec (length pop) 3); auto. lia. Qed.
(** both parents won a tournament: some other member is not preferable to them *)
Lemma C29_tournament_main :
  forall (A : Type) (metrics : list (A -> num)) (pop : list A) (n : nat) (r : rng) ps r' ms sel f g, metrics <> [] ->
  nsga2_select pop n metrics r = (Ok ps, r') -> nsga2 pop (length pop) metrics = Ok (ms, sel) -> In (f, g) ps ->
  forall w, w = f \/ w = g -> exists loser, loser < length pop /\ loser <> w /\
    (rank_of ms w < rank_of ms loser \/ rank_of ms w = rank_of ms loser /\ ~ nlt (dist_of ms w) (dist_of ms loser)).
Proof.
  intros A metrics pop n r ps r' ms' sel' f g HM E E2 Hfg w Hw.
  assert (HL : 3 <= length pop). { unfold nsga2_select in E. destruct (Nat.ltb_spec (length pop) 3); [discriminate|lia]. }
  destruct (nsga2_facts metrics pop HM (length pop) ltac:(lia)) as (ms0 & fs & ms & sel & H1 & H2 & H3 & H4 & H5 & _).
  rewrite H2 in E2. injection E2 as <- <-.
  unfold nsga2_select in E. destruct (Nat.ltb_spec (length pop) 3); [lia|]. rewrite H2 in E.
  destruct (select_pairs_ok ms sel H4 ltac:(lia) n r) as (ps2 & r2 & E3 & L & HH). rewrite E3 in E. injection E as <- <-.
  destruct (HH f g Hfg) as (Hf & Hg & Hne & (l1 & L1 & N1 & B1) & (l2 & L2 & N2 & N3 & B2)).
  assert (BB : forall l w, better (get ms l) (get ms w) = false ->
     rank_of ms w < rank_of ms l \/ rank_of ms w = rank_of ms l /\ ~ nlt (dist_of ms w) (dist_of ms l)).
  { intros l v. unfold better, rank_of, dist_of, get, nlt. intros B. apply orb_false_iff in B as [B1' B2'].
    apply Nat.ltb_ge in B1'. apply andb_false_iff in B2' as [B2'|B2'].
    - apply Nat.eqb_neq in B2'. lia.
    - destruct (Nat.eq_dec (m_rank (nth v ms (mkMeta [] 0 (Fin 0) [] 0))) (m_rank (nth l ms (mkMeta [] 0 (Fin 0) [] 0)))) as [Eq|]; [|lia].
      right. split; auto. congruence. }
  destruct Hw as [-> | ->].
  - exists l1. split; auto.
  - exists l2. split; auto.
Qed.
Example C29_ex_main : exists r', nsga2_select ex_pop 2 ex_metrics [1; 2; 3; 0; 5; 4; 2; 2; 1] = (Ok [(3, 2); (3, 2)], r').
Proof. eexists. vm_compute. reflexivity. Qed.

(** C30: false: the first two fronts get the same rank. *)
Lemma C30_rank_refuted_main :
  exists (A : Type) (metrics : list (A -> num)) (pop : list A) ms fronts i j,
    metrics <> [] /\ fast_sort (metas metrics pop) = Ok (ms, fronts) /\
    in_front fronts 0 i /\ in_front fronts 1 j /\ beats metrics pop i j /\ rank_of ms i = rank_of ms j.
Proof.
  exists (Z * Z)%type, ex_metrics, ex_pop. eexists _, _, 5, 3. split; [discriminate|]. split; [vm_compute; reflexivity|].
  split; [eexists; split; [reflexivity|simpl; auto]|]. split; [eexists; split; [reflexivity|simpl; auto]|].
  split; [|reflexivity]. intros [|[|m]] H; simpl in *; try lia; reflexivity.
Qed.
(** From the second front on, ranks are strictly increasing, and the first front
    never has a larger rank. *)
Lemma C30_rank_partial_main :
  forall (A : Type) (metrics : list (A -> num)) (pop : list A) ms fronts, metrics <> [] ->
    fast_sort (metas metrics pop) = Ok (ms, fronts) ->
    (forall k i, in_front fronts (S k) i -> rank_of ms i = S k) /\ (forall i, in_front fronts 0 i -> rank_of ms i = 1).
Proof.
  intros A metrics pop ms' fs' HM E0. destruct (sort_facts metrics pop HM) as (ms & fs & E & PM & EN & F1 & F2 & L & V & D & R).
  rewrite E in E0. injection E0 as <- <-. split.
  - intros k i H. apply R in H. exact H.
  - intros i H. apply R in H. exact H.
Qed.
Example C30_ex_main : exists ms fronts, fast_sort (metas ex_metrics ex_pop) = Ok (ms, fronts) /\
  map (rank_of ms) [1; 3; 0; 4] = [1; 1; 2; 3].
Proof. eexists _, _. split; vm_compute; reflexivity. Qed.

(** C31: crowding distances of a front [I] of (freshly made) individuals. *)
Lemma C31_crowding_main :
  forall (A : Type) (metrics : list (A -> num)) (pop : list A) (I : list nat),
    metrics <> [] -> I <> [] -> NoDup I -> (forall i, In i I -> i < length pop) ->
    (forall m i, m < length metrics -> In i I -> value metrics pop m i <> NaN) ->
    exists ms', crowd (metas metrics pop) I = Ok ms' /\
      crowding (length metrics) (value metrics pop) I (dist_of ms') /\
      (forall i, ~ In i I -> dist_of ms' i = Fin 0) /\ (forall i, rank_of ms' i = 0).
Proof.
  intros A metrics pop I HM NE ND HL NN.
  pose proof (metas_length metrics pop) as ML.
  assert (VK : forall m p, m < length metrics -> p < length pop -> value_at (metas metrics pop) m p = value metrics pop m p)
    by (apply values_kept; auto).
  assert (FR := metas_fresh metrics pop). unfold fresh in FR. rewrite Forall_forall in FR.
  assert (G0 : forall i, m_dist (get (metas metrics pop) i) = Fin 0 /\ m_rank (get (metas metrics pop) i) = 0).
  { intros i. destruct (Nat.lt_ge_cases i (length (metas metrics pop))) as [Hi|Hi].
    - destruct (FR (get (metas metrics pop) i)) as (H1 & H2 & _); [apply nth_In; auto|]. auto.
    - unfold get. rewrite nth_overflow by auto. auto. }
  destruct (crowd_ok (length metrics) (metas metrics pop) I) as (ms' & E & SB & OUT & C); auto.
  { split; auto. intros p Hp. specialize (HL p Hp). split; [lia|]. split.
    - pose proof (metas_arity metrics pop) as AR. rewrite Forall_forall in AR. apply AR. apply nth_In. lia.
    - intros m Hm. rewrite VK by auto. auto. }
  { intros p _. apply G0. }
  exists ms'. split; auto. split; [|split].
  - eapply crowding_ext; [| |exact C]; auto.
  - intros i Hi. change (m_dist (get ms' i) = Fin 0). rewrite OUT by auto. apply G0.
  - intros i. change (m_rank (get ms' i) = 0). destruct SB as [_ SB]. destruct (SB i) as [_ ->]. apply G0.
Qed.
(** the empty front is an IndexError *)
Lemma C31_empty_main : forall ms, crowd ms [] = Err IndexError.
Proof. reflexivity. Qed.
Example C31_ex_main :
  exists ms', crowd (metas ex_metrics ex_pop) [1; 2; 3; 5] = Ok ms' /\
    map (fun i => match dist_of ms' i with Fin q => Fin (Qred q) | d => d end) [1; 2; 3; 5] =
      [PInf; PInf; Fin (4 # 3); Fin (4 # 3)].
Proof. eexists. split; vm_compute; reflexivity. Qed.

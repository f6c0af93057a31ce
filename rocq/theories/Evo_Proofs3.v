(** C144, C147: lengths, and exceptions of the evolutionary search. *)
Require Import Permutation.
From Verif Require Import Base Num Nsga_Model Nsga_Main Par_Model Gp_Model Gp_Spec Gp_Proofs Gp_Proofs2 Gp_Proofs3 Gp_Proofs4 Gp_Main
  Cov_Spec Evo_Model Evo_Spec Evo_Proofs Evo_Proofs2.
Open Scope nat_scope.
Open Scope list_scope.

(** * Lengths *)
Definition bounded (mx : option Z) (ss : list step) : Prop :=
  match mx with None => True | Some m => (Z.of_nat (length ss) <= Z.max m (2 * m - 2))%Z end.
Lemma within_bounded mx ss : within mx ss -> bounded mx ss.
Proof. unfold within, bounded. destruct mx; auto. lia. Qed.
Lemma crossed_length ss1 ss2 ss other : crossed ss1 ss2 ss other ->
  length ss = length ss1 \/ (2 <= length ss1 /\ 2 <= length ss2 /\ length ss <= length ss1 + length ss2 - 2).
Proof.
  intros [(ha & ta & hb & tb & -> & -> & Na & Nb & Nc & Nd & -> & _)|(i & j & t1 & t2 & _ & _ & (pre & p & a & b & post & -> & -> & _) & _)].
  - right. rewrite !app_length. destruct ha; [congruence|]. destruct ta; [congruence|]. destruct hb; [congruence|]. destruct tb; [congruence|]. simpl. lia.
  - left. rewrite !app_length. auto.
Qed.
Section Bound.
Context (ps : pset) (mx : option Z).
Hypothesis T : pset_typed ps.
Definition fine (ss : list step) : Prop := pipeline_ok ps ss /\ bounded mx ss.
Lemma fine_mut m old copy ss : fine old -> within mx old -> within mx ss -> same_pipeline old copy -> mutated ps m copy ss -> fine ss.
Proof.
  intros (O & _) _ W S Mu. split; [|apply within_bounded; auto]. exact (mutated_ok ps m copy ss T (same_pipeline_ok _ _ _ S O) Mu).
Qed.
Lemma fine_cross old1 old2 copy1 copy2 ss other : fine old1 -> fine old2 -> within mx old1 -> within mx old2 ->
  same_pipeline old1 copy1 -> same_pipeline old2 copy2 -> crossed copy1 copy2 ss other -> fine ss.
Proof.
  intros (O1 & _) (O2 & _) W1 W2 S1 S2 C. split.
  - exact (proj1 (crossed_ok ps _ _ _ _ T (same_pipeline_ok _ _ _ S1 O1) (same_pipeline_ok _ _ _ S2 O2) C)).
  - apply crossed_length in C. rewrite (same_pipeline_len _ _ S1), (same_pipeline_len _ _ S2) in C.
    unfold bounded, within in *. destruct mx as [m|]; auto. lia.
Qed.
Lemma fine_new ss : pipeline_ok ps ss -> (1 <= Z.of_nat (length ss) <= max_start_length mx)%Z -> fine ss.
Proof. intros O L. split; auto. unfold bounded, max_start_length in *. destruct mx as [m|]; auto. lia. Qed.
(** limits that are never exceeded *)
Definition fits_in (ss : list step) : Prop := pipeline_ok ps ss /\ within mx ss.
Hypothesis R : roomy ps mx.
Lemma fits_mut m old copy ss : fits_in old -> within mx old -> within mx ss -> same_pipeline old copy -> mutated ps m copy ss -> fits_in ss.
Proof. intros (O & _) _ W S Mu. split; auto. exact (mutated_ok ps m copy ss T (same_pipeline_ok _ _ _ S O) Mu). Qed.
Lemma fits_cross old1 old2 copy1 copy2 ss other : fits_in old1 -> fits_in old2 -> within mx old1 -> within mx old2 ->
  same_pipeline old1 copy1 -> same_pipeline old2 copy2 -> crossed copy1 copy2 ss other -> fits_in ss.
Proof.
  intros (O1 & _) (O2 & _) W1 W2 S1 S2 C. split.
  - exact (proj1 (crossed_ok ps _ _ _ _ T (same_pipeline_ok _ _ _ S1 O1) (same_pipeline_ok _ _ _ S2 O2) C)).
  - apply crossed_length in C. rewrite (same_pipeline_len _ _ S1), (same_pipeline_len _ _ S2) in C.
    destruct R as [->|[->|(-> & _)]]; simpl in *; auto; lia.
Qed.
Lemma fits_new ss : pipeline_ok ps ss -> (1 <= Z.of_nat (length ss) <= max_start_length mx)%Z -> fits_in ss.
Proof. intros O L. split; auto. destruct mx as [m|]; simpl in *; auto. lia. Qed.

(** * The operators do not raise *)
Lemma perm_filter_length {A} (f : A -> bool) l l' : Permutation l l' -> length (filter f l) = length (filter f l').
Proof. induction 1; simpl; auto; try (destruct (f x); try destruct (f y); simpl; congruence). congruence. Qed.
Lemma tunable_ge p ts rest : step_ok ps PREDICTION (p, ts) ->
  length (filter (fun i => 1 <? length (terms_of ps i)) (p_input p)) <= tunable ps ((p, ts) :: rest).
Proof.
  intros (_ & us & Pm & F). unfold tunable. simpl in *. rewrite filter_app, app_length, (perm_filter_length _ _ _ Pm).
  assert (H : length (filter (fun i => 1 <? length (terms_of ps i)) (p_input p)) = length (filter (fun t => 1 <? length (terms_of ps (t_ident t))) us)); [|lia].
  clear - F T. induction F as [|i t is ts Hi F IH]; simpl; auto. destruct T as [_ TT]. rewrite (TT _ _ Hi). destruct (1 <? length (terms_of ps i)); simpl; lia.
Qed.
Hypothesis RI : pset_rich ps.
Lemma no_mutate_error ss e : fits_in ss -> ~ mutate_error ps mx ss e.
Proof.
  intros (O & W) [H|(_ & b & -> & Hb)]; [|simpl in W; lia].
  apply rich_mut_error in H as [(_ & -> & L & Tn)|(_ & b & -> & Hb)]; auto.
  - destruct R as [R'|[R'|(_ & R')]]; try discriminate. destruct ss as [|[p ts] rest]; [discriminate|]. destruct O as [O _].
    pose proof (tunable_ge p ts rest O). pose proof (R' p (proj1 O)). lia.
  - destruct R as [R'|[R'|(R' & _)]]; try discriminate; injection R' as ->; lia.
Qed.
Lemma no_breed_error ss1 ss2 e : fits_in ss1 -> fits_in ss2 -> ~ breed_fails ps mx ss1 ss2 e.
Proof. intros F1 F2 [H|(_ & [H|H])]; [exact (no_mutate_error _ _ F1 H)|apply H, F1|apply H, F2]. Qed.
Lemma no_creation_error e : ~ creation_error ps mx e.
Proof.
  destruct RI as (Hi & Hp & Hd & _). intros [(_ & H)|(_ & [H|(_ & H)])]; [|exact (rich_node ps Hi PREDICTION Hp H)|exact (rich_node ps Hi DATA Hd H)].
  destruct R as [->|[->|(-> & _)]]; simpl in H; lia.
Qed.
End Bound.

(** * Elimination of members *)
Lemma m_remove_first_id (x : member) l : In (i_id (m_ind x)) (map (fun m => i_id (m_ind m)) l) -> exists l', remove_first (fun y => same_id y x) l = Some l' /\
  Permutation (map (fun m => i_id (m_ind m)) l) (i_id (m_ind x) :: map (fun m => i_id (m_ind m)) l') /\ incl l' l.
Proof.
  induction l as [|y l IH]; simpl; [intros []|]. intros H. unfold same_id at 1. destruct (Nat.eqb_spec (i_id (m_ind y)) (i_id (m_ind x))).
  - exists l. rewrite e. split; auto. split; auto. apply incl_tl, incl_refl.
  - destruct H as [H|H]; [congruence|]. destruct (IH H) as (l' & E & P & I). rewrite E. exists (y :: l'). split; auto. split.
    + simpl. rewrite P. apply perm_swap.
    + intros z [<-|Hz]; simpl; auto.
Qed.
Lemma m_remove_all_total : forall tr (front : list member) rest, Permutation (map (fun m => i_id (m_ind m)) front) (map (fun m => i_id (m_ind m)) tr ++ rest) ->
  exists f', remove_all same_id tr front = Ok f' /\ incl f' front.
Proof.
  induction tr as [|x tr IH]; intros front rest P; simpl; [exists front; split; auto; apply incl_refl|].
  destruct (m_remove_first_id x front) as (l' & E & P' & I).
  { eapply Permutation_in; [symmetry; exact P|]. simpl. auto. }
  rewrite E. destruct (IH l' rest) as (f' & E2 & I2).
  { rewrite P' in P. simpl in P. apply Permutation_cons_inv in P. exact P. }
  exists f'. split; auto. eapply incl_tran; eauto.
Qed.
Lemma m_scan_perm vals v (front tr : list member) : scan vals v front = Some tr -> exists rest, Permutation front (tr ++ rest).
Proof.
  revert tr. induction front as [|y front IH]; simpl; intros tr H; [injection H as <-; exists []; auto|].
  destruct (all_le v (vals y)); [discriminate|]. destruct (scan vals v front) as [t|]; [|discriminate].
  destruct (IH t eq_refl) as [rest P]. injection H as <-. destruct (all_le (vals y) v).
  - exists rest. simpl. constructor. auto.
  - exists (y :: rest). rewrite P. apply Permutation_middle.
Qed.
Lemma m_updates_total (vals : member -> list num) k items : forall front, (forall x, In x (front ++ items) -> length (vals x) = k) -> front ++ items <> [] ->
  exists f', updates vals same_id (fun _ => false) front items = Ok f' /\ incl f' (front ++ items) /\ f' <> [].
Proof.
  induction items as [|x items IH]; intros front HA NE; simpl.
  - rewrite app_nil_r in *. exists front. split; auto. split; auto. apply incl_refl.
  - assert (HU : exists f' b, update vals same_id (fun _ => false) front x = (f', Ok b) /\ incl f' (front ++ [x]) /\ f' <> []).
    { unfold update. destruct front as [|f0 fr] eqn:EF; [exists [x], true; split; auto; split; [apply incl_refl|discriminate]|].
      assert (EL : length (vals f0) = length (vals x)).
      { rewrite (HA f0), (HA x); auto; [apply in_or_app; right; simpl; auto|simpl; auto]. }
      apply Nat.eqb_eq in EL. rewrite EL. rewrite <- EF. destruct (scan vals (vals x) front) as [tr|] eqn:ES.
      - destruct (m_scan_perm _ _ _ _ ES) as [rest P]. destruct (m_remove_all_total tr front (map (fun m => i_id (m_ind m)) rest)) as (f' & E & I).
        { rewrite P at 1. rewrite map_app. auto. }
        rewrite E. exists (f' ++ [x]), true. split; auto. split; [|destruct f'; discriminate]. intros z Hz. apply in_app_or in Hz as [Hz|Hz]; apply in_or_app; auto.
      - exists front, false. split; auto. split; [apply incl_appl, incl_refl|subst; discriminate]. }
    destruct HU as (f' & b & E & I & NE'). rewrite E. destruct (IH f') as (g & Eg & Ig & Ng).
    + intros z Hz. apply HA. apply in_app_or in Hz as [Hz|Hz]; [|apply in_or_app; simpl; auto]. apply I in Hz.
      apply in_app_or in Hz as [Hz|[<-|[]]]; apply in_or_app; simpl; auto.
    + destruct f'; [congruence|discriminate].
    + exists g. split; auto. split; auto. intros z Hz. apply Ig in Hz. apply in_app_or in Hz as [Hz|Hz]; [|apply in_or_app; simpl; auto].
      apply I in Hz. apply in_app_or in Hz as [Hz|[<-|[]]]; apply in_or_app; simpl; auto.
Qed.
Lemma m_eliminate pop k r : (forall x, In x pop -> length (m_fit x) = k) -> pop <> [] ->
  exists x r', eliminate same_id m_fit pop 1 r = (Ok [x], r') /\ In x pop.
Proof.
  intros HA NE. unfold eliminate. simpl Z.eqb. cbv iota.
  destruct (m_updates_total (fun i => map nopp (m_fit i)) k pop []) as (f & E & I & NF); auto.
  { simpl. intros x Hx. rewrite map_length. auto. }
  rewrite E. unfold rchoice. destruct f as [|f0 fs]; [congruence|]. destruct (draw r) as [d r'].
  destruct (nth_error (f0 :: fs) (d mod length (f0 :: fs))) as [x|] eqn:En.
  - exists x, r'. split; auto. apply I. eapply nth_error_In; eauto.
  - apply nth_error_None in En. pose proof (Nat.mod_upper_bound d (length (f0 :: fs)) ltac:(discriminate)). lia.
Qed.
Lemma m_remove_self (x : member) l : In x l -> exists l', remove_first (same_id x) l = Some l' /\ incl l' l /\ length l = S (length l').
Proof.
  induction l as [|y l IH]; [intros []|]. intros H. simpl. unfold same_id at 1. destruct (Nat.eqb_spec (i_id (m_ind x)) (i_id (m_ind y))).
  - exists l. split; auto. split; [apply incl_tl, incl_refl|auto].
  - destruct H as [->|H]; [congruence|]. destruct (IH H) as (l' & -> & I & L). exists (y :: l'). split; auto. split; [|simpl; lia].
    intros z [<-|Hz]; simpl; auto.
Qed.

Lemma submit_all_live l : forall w, exists w', submit_all l w = (Ok tt, w') /\ v_pop w' = v_pop w /\ v_jobs w' = v_jobs w ++ l.
Proof.
  induction l as [|i l IH]; intros w; [exists w; rewrite app_nil_r; auto|]. cbn [submit_all]. unfold ebind, submit.
  match goal with |- context [submit_all l ?w1] => destruct (IH w1) as (w' & E & P & J) end. exists w'. split; auto. split; auto. rewrite J. simpl. rewrite <- app_assoc. auto.
Qed.
Lemma begin_live l w : exists w', begin l w = (Ok tt, w') /\ v_pop w' = [] /\ v_jobs w' = v_jobs w ++ l.
Proof. unfold begin, ebind, set_population. match goal with |- context [submit_all l ?w1] => destruct (submit_all_live l w1) as (w' & E & P & J) end. eauto. Qed.

(** * Exceptions *)
(** * One result per turn *)
Definition n_coll (w : evo) : nat := length (collected (v_trace w)).
Definition quiet {A} (m : ME A) : Prop := forall w x w', m w = (x, w') -> n_coll w' = n_coll w.
Lemma quiet_ret {A} (a : A) : quiet (eret a).
Proof. intros w x w' H. injection H as _ <-. auto. Qed.
Lemma quiet_raise {A} e : quiet (@eraise A e).
Proof. intros w x w' H. injection H as _ <-. auto. Qed.
Lemma quiet_bind {A B} (m : ME A) (f : A -> ME B) : quiet m -> (forall a, quiet (f a)) -> quiet (ebind m f).
Proof.
  intros Q1 Q2 w x w' H. unfold ebind in H. destruct (m w) as [[a|e] w1] eqn:E; [|injection H as _ <-; eapply Q1; eauto].
  rewrite (Q2 a _ _ _ H). eapply Q1; eauto.
Qed.
Lemma quiet_gp {A} (m : M A) : quiet (gp m).
Proof. intros w x w' H. unfold gp in H. destruct (m (v_st w)). injection H as _ <-. auto. Qed.
Lemma quiet_pop : quiet population.
Proof. intros w x w' H. injection H as _ <-. auto. Qed.
Lemma quiet_set l : quiet (set_population l).
Proof. intros w x w' H. injection H as _ <-. auto. Qed.
Lemma quiet_note y : (forall i o, y <> Collected i o) -> quiet (note y).
Proof. intros N w x w' H. injection H as _ <-. unfold n_coll. simpl. rewrite collected_app, app_length. destruct y; simpl; try lia. destruct (N i o eq_refl). Qed.
Lemma quiet_submit i : quiet (submit i).
Proof. intros w x w' H. injection H as _ <-. unfold n_coll. simpl. rewrite collected_app, app_length. simpl. lia. Qed.
Lemma quiet_submit_all l : quiet (submit_all l).
Proof. induction l; simpl; [apply quiet_ret|]. apply quiet_bind; auto using quiet_submit. Qed.
Lemma quiet_begin l : quiet (begin l).
Proof. apply quiet_bind; auto using quiet_set, quiet_submit_all. Qed.
Lemma quiet_individuals ps mx k : quiet (individuals ps mx k).
Proof. induction k; simpl; [apply quiet_ret|]. apply quiet_bind; [apply quiet_gp|]. intros i. apply quiet_bind; auto. intros l. apply quiet_ret. Qed.
Lemma quiet_add pop_size m : quiet (add_to_population pop_size m).
Proof.
  apply quiet_bind; [apply quiet_pop|]. intros pop. cbv zeta. apply quiet_bind; [apply quiet_set|]. intros _. destruct (pop_size <? length (pop ++ [m])); [|apply quiet_ret].
  apply quiet_bind; [apply quiet_gp|]. intros [|y l]; [apply quiet_raise|]. destruct (remove_first (same_id y) (pop ++ [m])); [apply quiet_set|apply quiet_raise].
Qed.
Lemma quiet_refill ps mx n workers : quiet (refill ps mx n workers).
Proof.
  intros w x w' H. unfold refill in H. destruct (_ <=? 1)%Z; [|injection H as _ <-; auto].
  revert H. apply quiet_bind; [apply quiet_gp|]. intros i. apply quiet_bind; [apply quiet_note; discriminate|]. intros _. apply quiet_submit.
Qed.
Lemma save_trace i w x w' : save i w = (x, w') -> v_trace w' = v_trace w.
Proof. unfold save. destruct (pipeline_str i (v_st w)) as [[str|e] s]; intros H; injection H as _ <-; auto. Qed.
Lemma wait_count e w a w' : wait_next e w = (Ok a, w') -> n_coll w' = S (n_coll w).
Proof.
  unfold wait_next. destruct (v_jobs w) as [|j0 js] eqn:EJ; [discriminate|]. rewrite <- EJ.
  destruct (e_out e) as [|sc f].
  - unfold ebind, note, eret. intros H. injection H as _ <-. unfold n_coll. simpl. rewrite collected_app, app_length. simpl. lia.
  - unfold ebind at 1. unfold gp. cbn [v_st]. destruct (unpickle _ (v_st w)) as [[i|ex] s]; [|discriminate].
    unfold ebind at 1. unfold note. cbn [v_st v_pop v_jobs v_saved v_trace]. unfold ebind.
    match goal with |- context [save i ?w1] => destruct (save i w1) as [[[]|ex] w2] eqn:ES end; [|discriminate]. apply save_trace in ES.
    unfold eret. intros H. injection H as _ <-. unfold n_coll. rewrite ES. simpl. rewrite collected_app, app_length. simpl. lia.
Qed.
Lemma turn_count ps mx n workers pop_size restart e w w' : turn ps mx n workers pop_size restart e w = (Ok tt, w') -> n_coll w' = S (n_coll w).
Proof.
  unfold turn. unfold ebind at 1. destruct (wait_next e w) as [[[i o]|ex] w1] eqn:E; [|discriminate]. apply wait_count in E. rewrite <- E.
  apply quiet_bind; [destruct o as [|sc []]; auto using quiet_ret, quiet_add|]. intros _. apply quiet_bind; [apply quiet_refill|]. intros _.
  apply quiet_bind; [destruct restart; [apply quiet_gp|apply quiet_ret]|]. intros []; [|apply quiet_ret].
  apply quiet_bind; [apply quiet_note; discriminate|]. intros _. apply quiet_bind; [apply quiet_individuals|]. intros l. apply quiet_begin.
Qed.

Section Live.
Context (seen : list string).
Context (ps : pset) (mx : option Z) (n workers pop_size k : nat) (max_n : option Z) (restart : bool) (start : list individual).
Hypothesis T : pset_typed ps.
Hypothesis HN : 0 < n.
Hypothesis R : roomy ps mx.
Hypothesis RI : pset_rich ps.
Hypothesis K2 : 2 <= k.
Notation Inv := (Inv seen ps n restart (fits_in ps mx) start).
Definition fits (w : evo) : Prop := forall m, In m (v_pop w) -> length (m_fit m) = k.
Lemma fits_metric l : (forall m, In m l -> length (m_fit m) = k) -> metric_error l = None.
Proof.
  induction l as [|m l IH]; intros H; simpl; auto. pose proof (H m (or_introl eq_refl)) as L. destruct (m_fit m) as [|a [|b v]]; simpl in L; try lia.
  apply IH. intros y Hy. apply H. right; auto.
Qed.
Lemma add_live m w : Inv w -> fits w -> length (m_fit m) = k ->
  exists w', add_to_population pop_size m w = (Ok tt, w') /\ fits w' /\ v_jobs w' = v_jobs w /\
    length (v_pop w') = (if pop_size <? S (length (v_pop w)) then length (v_pop w) else S (length (v_pop w))).
Proof.
  intros I F Lm. unfold add_to_population. unfold ebind at 1. unfold population. unfold ebind at 1. unfold set_population at 1.
  assert (F1 : forall y, In y (v_pop w ++ [m]) -> length (m_fit y) = k) by (intros y Hy; apply in_app_or in Hy as [Hy|[<-|[]]]; auto).
  assert (L1 : length (v_pop w ++ [m]) = S (length (v_pop w))) by (rewrite app_length; simpl; lia). rewrite L1.
  destruct (pop_size <? S (length (v_pop w))).
  2:{ eexists. split; [reflexivity|]. simpl. auto. }
  unfold ebind at 1. unfold gp, mrandom.
  destruct (m_eliminate (v_pop w ++ [m]) k (s_rng (v_st w)) F1 ltac:(intros H; apply app_eq_nil in H as [_ H]; discriminate)) as (d & r' & E & Hd).
  cbn [v_st]. rewrite E. destruct (m_remove_self d _ Hd) as (l' & E2 & I2 & L2). rewrite E2. eexists. split; [reflexivity|]. simpl. split; [|split; auto; lia].
  intros y Hy. apply F1. apply I2. exact Hy.
Qed.
Lemma refill_live w w' x : Inv w -> popok w -> fits w -> refill ps mx n workers w = (x, w') ->
  (x = Ok tt /\ length (v_jobs w') = Nat.max (length (v_jobs w)) (if (length (v_jobs w) <=? workers + 1) then S (length (v_jobs w)) else 0)) \/
  (x = Err ValueError /\ length (v_pop w) < 3 /\ length (v_jobs w) <= workers + 1 /\ v_jobs w' = v_jobs w).
Proof.
  intros I PO F H. assert (H0 := H).
  destruct (refill_inv _ ps mx n workers restart T HN (fits_in ps mx) (fits_mut ps mx T) (fits_cross ps mx T R) start w w' x I PO H) as (I' & P' & Ep & Hx).
  destruct x as [[]|ex]; auto. right. destruct Hx as (LE & s' & EC). destruct (create_made ps mx n T HN (v_pop w) (v_st w) (v_saved w) (Err ex) s' (n_wf _ _ _ _ _ _ _ I)
    (pop_pipes_of _ _ _ _ _ _ w I PO) EC) as (_ & [[(L & ->)|(L & He)]|(p & q & o1 & o2 & Ip & Iq & C1 & C2 & B)]).
  - split; auto. split; auto. split; auto. unfold refill in H0.
    destruct (Z.of_nat (length (v_jobs w)) - Z.of_nat workers <=? 1)%Z; [|discriminate]. unfold ebind at 1 in H0. unfold gp in H0. rewrite EC in H0.
    pose proof (f_equal snd H0) as H1. simpl in H1. subst w'. auto.
  - rewrite (fits_metric _ F) in He. discriminate.
  - exfalso. destruct (n_known _ _ _ _ _ _ _ I _ (pop_known _ _ _ _ _ _ w p I PO Ip)) as (_ & o1' & C1' & F1).
    destruct (n_known _ _ _ _ _ _ _ I _ (pop_known _ _ _ _ _ _ w q I PO Iq)) as (_ & o2' & C2' & F2).
    rewrite (is_pipeline_fun _ _ _ _ C1' C1) in F1. rewrite (is_pipeline_fun _ _ _ _ C2' C2) in F2. exact (no_breed_error ps mx T R RI _ _ _ F1 F2 B).
Qed.

(** what happens in a turn *)
Lemma turn_facts e w w' x : Inv w -> popok w -> fits w -> calm k e -> v_jobs w <> [] ->
  turn ps mx n workers pop_size restart e w = (x, w') ->
  (x = Ok tt /\ Inv w' /\ popok w' /\ fits w' /\ v_jobs w' <> [] /\
    (restart = false -> length (v_jobs w') = Nat.max (length (v_jobs w) - 1) (workers + 2) \/ (length (v_jobs w') = length (v_jobs w) /\ length (v_jobs w) <= workers + 2)) /\
    (restart = false -> length (v_pop w') = (if succeeded e then (if pop_size <? S (length (v_pop w)) then length (v_pop w) else S (length (v_pop w))) else length (v_pop w)))) \/
  (x = Err ValueError /\ length (v_pop w') < 3 /\ length (v_jobs w') <= workers + 1 /\ length (v_jobs w) = S (length (v_jobs w')) /\
    length (v_pop w') = (if succeeded e then (if pop_size <? S (length (v_pop w)) then length (v_pop w) else S (length (v_pop w))) else length (v_pop w))).
Proof.
  intros I PO F CA NJ H. assert (HT := H).
  destruct (turn_inv _ ps mx n workers pop_size restart T HN (fits_in ps mx) (fits_mut ps mx T) (fits_cross ps mx T R) (fits_new ps mx R) start e w w' x I PO HT) as (I' & PO').
  unfold turn in H. unfold ebind at 1 in H. destruct (wait_next e w) as [y w1] eqn:E1.
  destruct (wait_inv _ ps n restart HN (fits_in ps mx) start e w w1 y I PO E1) as (I1 & P1 & Ep & Hy).
  destruct y as [[i o]|ex]; [|destruct Hy as (Hy & _); congruence].
  destruct Hy as (_ & Eo & LJ & HS). unfold ebind at 1 in H. assert (F1 : fits w1) by (intros m Hm; rewrite Ep in Hm; auto).
  match type of H with (match ?t with _ => _ end) = _ => change t with ((match o with Evaluated scores false => add_to_population pop_size (mkMem i scores) | _ => eret tt end) w1) in H end.
  assert (H2 : exists w2, (match o with Evaluated scores false => add_to_population pop_size (mkMem i scores) | _ => eret tt end) w1 = (Ok tt, w2) /\ Inv w2 /\ popok w2 /\ fits w2 /\ v_jobs w2 = v_jobs w1 /\
     length (v_pop w2) = (if succeeded e then (if pop_size <? S (length (v_pop w)) then length (v_pop w) else S (length (v_pop w))) else length (v_pop w))).
  { unfold succeeded. unfold calm in CA. rewrite <- Eo in *. rewrite <- Ep. destruct o as [|sc []]; try (exists w1; split; [reflexivity|auto]; fail).
    destruct (add_live (mkMem i sc) w1 I1 F1 CA) as (w2 & E2 & F2 & J2 & L2). exists w2. split; auto.
    destruct (add_inv _ ps n pop_size restart HN (fits_in ps mx) start (mkMem i sc) w1 w2 (Ok tt) I1 P1 HS E2) as (I2 & P2 & _). auto. }
  destruct H2 as (w2 & E2 & I2 & P2 & F2 & J2 & L2). rewrite E2 in H.
  unfold ebind at 1 in H. destruct (refill ps mx n workers w2) as [z w3] eqn:E3.
  destruct (refill_inv _ ps mx n workers restart T HN (fits_in ps mx) (fits_mut ps mx T) (fits_cross ps mx T R) start w2 w3 z I2 P2 E3) as (I3 & P3 & Ep3 & _).
  destruct (refill_live w2 w3 z I2 P2 F2 E3) as [(-> & J3)|(-> & LP & LE & J3)].
  2:{ right. injection H as <- <-. rewrite Ep3, J3, J2, LJ, L2. rewrite J2 in LE. rewrite L2 in LP. auto 8. }
  left. unfold ebind at 1 in H. assert (F3 : fits w3) by (intros m Hm; rewrite Ep3 in Hm; auto).
  assert (NJ3 : v_jobs w3 <> []).
  { intros H0. rewrite H0 in J3. simpl in J3. destruct (Nat.leb_spec (length (v_jobs w2)) (workers + 1)); lia. }
  assert (J3' : length (v_jobs w3) = Nat.max (length (v_jobs w) - 1) (workers + 2) \/ (length (v_jobs w3) = length (v_jobs w) /\ length (v_jobs w) <= workers + 2)).
  { rewrite J2 in J3. destruct (Nat.leb_spec (length (v_jobs w1)) (workers + 1)); lia. }
  assert (HB : exists b w4, (if restart then gp (mrandom (fun r => let (b, r') := rcoin r in (Ok b, r'))) else eret false) w3 = (Ok b, w4) /\ Inv w4 /\ popok w4 /\
     v_jobs w4 = v_jobs w3 /\ v_pop w4 = v_pop w3 /\ (restart = false -> b = false) /\ v_trace w4 = v_trace w3).
  { destruct restart; [|exists false, w3; split; [reflexivity|auto 8]]. unfold gp, mrandom. destruct (rcoin (s_rng (v_st w3))) as [b r'].
    exists b. eexists. split; [reflexivity|]. split; [|split; auto]. apply (inv_extends _ ps n true HN (fits_in ps mx) start w3); auto. apply rng_extends, I3. repeat split; auto. discriminate. }
  destruct HB as (b & w4 & E4 & I4 & P4 & J4 & Ep4 & B4 & T4). rewrite E4 in H.
  destruct b.
  2:{ injection H as <- <-. split; auto. split; auto. split; auto. rewrite J4. split; [intros m Hm; rewrite Ep4 in Hm; auto|]. split; auto. split; auto. intros _. rewrite Ep4, Ep3. auto. }
  assert (NR : restart = true) by (destruct restart; auto; discriminate (B4 eq_refl)).
  unfold ebind at 1 in H. unfold note in H. set (w5 := mkEvo (v_st w4) (v_pop w4) (v_jobs w4) (v_saved w4) (v_trace w4 ++ [Restarted])) in *.
  assert (I5 : Inv w5).
  { destruct I4 as [A1 B1 B1' C1' D1 E1' F1']. constructor; simpl; auto.
    - rewrite submitted_app, collected_app, !map_app. simpl. rewrite !app_nil_r. exact B1.
    - intros j Hj. apply in_or_app. auto.
    - intros z. rewrite C1'. symmetry. apply already_snoc. discriminate.
    - apply known_snoc; auto. intros j M. apply mentioned_one in M as [].
    - apply items_snoc; auto.
    - rewrite submitted_app, app_nil_r. exact F1'. }
  unfold ebind at 1 in H. destruct (individuals ps mx pop_size w5) as [z w6] eqn:E6.
  destruct (individuals_inv _ ps mx n restart HN (fits_in ps mx) (fits_new ps mx R) start _ _ _ _ I5 E6) as (I6 & W6 & U6 & X6 & H6).
  destruct z as [l|ex]; [|exfalso; eapply no_creation_error; eauto].
  destruct (begin_live l w6) as (w7 & E7 & P7 & J7). rewrite E7 in H. injection H as <- <-.
  split; auto. split; auto. split; [apply PO' with tt; auto|]. split; [intros m Hm; rewrite P7 in Hm; destruct Hm|].
  split; [|split; intros Hr; congruence]. rewrite J7, W6. simpl. rewrite J4. intros H0. apply app_eq_nil in H0 as [H0 _]. auto.
Qed.

(** with restarts: the only exception is that of selecting from fewer than three *)
Lemma turns_raise es : forall c w w' x, Inv w -> popok w -> fits w -> v_jobs w <> [] -> Forall (calm k) es ->
  turns ps mx n workers pop_size max_n restart c es w = (x, w') ->
  x = Ok tt \/ x = Err Diverges \/ (x = Err ValueError /\ length (v_pop w') < 3 /\ length (v_jobs w') <= workers + 1).
Proof.
  induction es as [|e es IH]; intros c w w' x I PO F NJ CA H; cbn [turns] in H; destruct (below max_n c); try (injection H as <- <-; auto; fail).
  - destruct (v_jobs w); [congruence|]. injection H as <- <-. auto.
  - unfold ebind in H. destruct (turn ps mx n workers pop_size restart e w) as [y w1] eqn:E1. inversion CA as [|? ? C1 C2]; subst.
    destruct (turn_facts e w w1 y I PO F C1 NJ E1) as [(-> & I1 & P1 & F1 & N1 & _)|(-> & A & B & _)].
    + exact (IH (S c) w1 w' x I1 P1 F1 N1 C2 H).
    + injection H as <- <-. auto.
Qed.
Lemma begin_start (s : setting) : seen_before s = seen -> wf_heap (s_heap s) -> Forall (good_new (fits_in ps mx) s) start ->
  exists w, begin start (fresh_search s) = (Ok tt, w) /\ Inv w /\ popok w /\ fits w /\ v_pop w = [] /\ v_jobs w = start.
Proof.
  intros SB W G. destruct (begin_live start (fresh_search s)) as (w & E & P & J). exists w. split; auto.
  destruct (begin_inv _ ps n restart (fits_in ps mx) start start (fresh_search s) w (Ok tt) (fresh_inv ps n restart (fits_in ps mx) start s W)) as (I1 & P1 & _); auto; try (rewrite SB in I1).
  - right. split; auto. split; [apply incl_refl|auto].
  - simpl. intros [].
  - split; auto. split; auto. split; [intros m Hm; rewrite P in Hm; destruct Hm|auto].
Qed.
Lemma ea_raise (s : setting) es w' x : seen_before s = seen -> wf_heap (s_heap s) -> Forall (good_new (fits_in ps mx) s) start -> start <> [] -> Forall (calm k) es ->
  (match max_n with Some m => (0 < m)%Z | None => True end) ->
  async_ea ps mx n workers pop_size max_n restart start es (fresh_search s) = (x, w') ->
  x = Ok tt \/ x = Err Diverges \/ (x = Err ValueError /\ length (v_pop w') < 3 /\ length (v_jobs w') <= workers + 1).
Proof.
  intros SB W G NE CA HM H. unfold async_ea in H.
  replace (match max_n with Some m => (m <=? 0)%Z | None => false end) with false in H.
  2:{ destruct max_n as [m|]; auto. symmetry. apply Z.leb_gt. auto. }
  destruct (begin_start s SB W G) as (w1 & E1 & I1 & P1 & F1 & _ & J1). unfold ebind in H. rewrite E1 in H.
  eapply turns_raise; eauto. rewrite J1. auto.
Qed.

(** without restarts: enough candidates and successes keep it going *)
Hypothesis NR : restart = false.
Hypothesis P3 : 3 <= pop_size.
Hypothesis S4 : workers + 4 <= length start.
Definition going (past : list event) (w : evo) : Prop :=
  Inv w /\ popok w /\ fits w /\ length (v_jobs w) = Nat.max (length start - length past) (workers + 2) /\
  length (v_pop w) = Nat.min pop_size (n_succeeded past) /\ n_coll w = length past.
Lemma succeeded_snoc past e : n_succeeded (past ++ [e]) = n_succeeded past + (if succeeded e then 1 else 0).
Proof. unfold n_succeeded. rewrite filter_app, app_length. simpl. destruct (succeeded e); auto. Qed.
Lemma going_turn past e w : going past w -> calm k e -> (length start - workers - 1 <= length past + 1 -> 3 <= n_succeeded (past ++ [e])) ->
  exists w', turn ps mx n workers pop_size restart e w = (Ok tt, w') /\ going (past ++ [e]) w'.
Proof.
  intros (I & PO & F & J & L & LC) CA H3. destruct (turn ps mx n workers pop_size restart e w) as [x w'] eqn:E.
  assert (NJ : v_jobs w <> []) by (intros H0; rewrite H0 in J; simpl in J; lia).
  assert (LP : forall z, z = (if succeeded e then (if pop_size <? S (length (v_pop w)) then length (v_pop w) else S (length (v_pop w))) else length (v_pop w)) ->
    z = Nat.min pop_size (n_succeeded (past ++ [e]))).
  { intros z ->. rewrite succeeded_snoc, L. destruct (succeeded e); [|f_equal; lia].
    destruct (Nat.ltb_spec pop_size (S (Nat.min pop_size (n_succeeded past)))); lia. }
  destruct (turn_facts e w w' x I PO F CA NJ E) as [(-> & I1 & P1 & F1 & N1 & J1 & L1)|(-> & A & B & C & D)].
  - exists w'. split; auto. split; auto. split; auto. split; auto. split; [|split; [apply LP; auto|rewrite app_length, (turn_count _ _ _ _ _ _ _ _ _ E), LC; simpl; lia]]. rewrite app_length. simpl. specialize (J1 NR). lia.
  - exfalso. apply LP in D. rewrite D in A. specialize (H3 ltac:(lia)). lia.
Qed.
Lemma going_turns es : forall past w, going past w -> Forall (calm k) es ->
  (forall l1 l2, es = l1 ++ l2 -> length start - workers - 1 <= length (past ++ l1) -> l1 <> [] -> 3 <= n_succeeded (past ++ l1)) ->
  match max_n with
  | Some m => (Z.of_nat (length past) <= m <= Z.of_nat (length past + length es))%Z ->
     exists w', turns ps mx n workers pop_size max_n restart (length past) es w = (Ok tt, w')
  | None => exists w', turns ps mx n workers pop_size max_n restart (length past) es w = (Err Diverges, w') /\ going (past ++ es) w'
  end.
Proof.
  induction es as [|e es IH]; intros past w G CA H3.
  - cbn [turns]. unfold below. destruct max_n as [m|].
    + intros HM. simpl in HM. destruct (Z.ltb_spec (Z.of_nat (length past)) m); [lia|]. eauto.
    + destruct (v_jobs w) eqn:EJ; [destruct G as (_ & _ & _ & J & _); rewrite EJ in J; simpl in J; lia|]. exists w. rewrite app_nil_r. auto.
  - inversion CA as [|? ? C1 C2]; subst. destruct (going_turn past e w G C1) as (w1 & E1 & G1).
    { intros HX. apply (H3 [e] es); auto; [rewrite app_length; simpl; lia|discriminate]. }
    specialize (IH (past ++ [e]) w1 G1 C2).
    assert (H3' : forall l1 l2, es = l1 ++ l2 -> length start - workers - 1 <= length ((past ++ [e]) ++ l1) -> l1 <> [] -> 3 <= n_succeeded ((past ++ [e]) ++ l1)).
    { intros l1 l2 El Hl Nl. rewrite <- app_assoc in *. apply (H3 ([e] ++ l1) l2); auto; [rewrite El; auto|discriminate]. }
    specialize (IH H3'). rewrite app_length in IH. simpl length in IH. rewrite Nat.add_1_r in IH.
    cbn [turns]. unfold below at 1. destruct max_n as [m|].
    + intros HM. destruct (Z.ltb_spec (Z.of_nat (length past)) m); [|eauto]. unfold ebind. rewrite E1. apply IH. simpl in HM. lia.
    + unfold ebind. rewrite E1. rewrite <- app_assoc in IH. exact IH.
Qed.
Lemma ea_live (s : setting) es : seen_before s = seen -> wf_heap (s_heap s) -> Forall (good_new (fits_in ps mx) s) start -> Forall (calm k) es ->
  (forall l1 l2, es = l1 ++ l2 -> length start - workers - 1 <= length l1 -> 3 <= n_succeeded l1) ->
  match max_n with
  | Some m => (0 < m <= Z.of_nat (length es))%Z ->
     exists w', async_ea ps mx n workers pop_size max_n restart start es (fresh_search s) = (Ok tt, w')
  | None => exists w', async_ea ps mx n workers pop_size max_n restart start es (fresh_search s) = (Err Diverges, w') /\ going es w'
  end.
Proof.
  intros SB W G CA H3. destruct (begin_start s SB W G) as (w1 & E1 & I1 & P1 & F1 & L1 & J1).
  assert (G1 : going [] w1). { split; auto. split; auto. split; auto. rewrite J1, L1. simpl. split; [lia|]. split; [unfold n_succeeded; simpl; lia|]. apply (quiet_begin _ _ _ _ E1). }
  assert (H3' : forall l1 l2, es = l1 ++ l2 -> length start - workers - 1 <= length ([] ++ l1) -> l1 <> [] -> 3 <= n_succeeded ([] ++ l1)) by (simpl; intros; eapply H3; eauto).
  pose proof (going_turns es [] w1 G1 CA H3') as L. simpl length in L. simpl app in L. unfold async_ea. destruct max_n as [m|].
  - intros HM. destruct (Z.leb_spec m 0); [lia|]. unfold ebind. rewrite E1. apply L. simpl. lia.
  - unfold ebind. rewrite E1. exact L.
Qed.
End Live.

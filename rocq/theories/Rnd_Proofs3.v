(** C149: ASHA. *)
Require Import Permutation.
From Verif Require Import Base Num Nsga_Model Gp_Model Gp_Spec Gp_Proofs Gp_Proofs2 Gp_Proofs3 Gp_Proofs4 Gp_Main
  Evo_Model Evo_Spec Evo_Proofs Evo_Proofs2 Rnd_Model Rnd_Spec Rnd_Proofs Rnd_Proofs2.
From Verif Require Search_Proofs3 Search_Model.
From Verif Require Import Num_Proofs.
Open Scope nat_scope.
Open Scope list_scope.

Lemma same_entry_refl x : same_entry x x = true.
Proof.
  unfold same_entry. rewrite Nat.eqb_refl, andb_true_r. destruct (fst x); simpl; auto. apply Qeq_bool_iff. reflexivity.
Qed.
Lemma dedup_incl l : incl (dedup l) l.
Proof.
  induction l as [|x l IH]; simpl; [apply incl_refl|]. intros y [<-|Hy]; simpl; auto. apply filter_In in Hy as [Hy _]. right. auto.
Qed.
Lemma largest_in : forall l best, In (largest best l) (best :: l).
Proof.
  induction l as [|x l IH]; intros best; simpl; auto. destruct (IH (if nltb (fst best) (fst x) then x else best)) as [H|H]; auto.
  rewrite <- H. destruct (nltb _ _); auto.
Qed.
Lemma largest_best : forall l best, (forall x, In x (best :: l) -> fst x <> NaN) -> forall x, In x (best :: l) -> nle (fst x) (fst (largest best l)).
Proof.
  induction l as [|y l IH]; intros best HN x Hx.
  - destruct Hx as [<-|[]]. simpl. apply nle_refl. apply HN. simpl; auto.
  - simpl. set (b := if nltb (fst best) (fst y) then y else best).
    assert (HB : nle (fst best) (fst b) /\ nle (fst y) (fst b)).
    { unfold b. destruct (nltb (fst best) (fst y)) eqn:E.
      - split; [apply nlt_nle; auto|apply nle_refl, HN; simpl; auto].
      - split; [apply nle_refl, HN; simpl; auto|]. apply not_lt_nle; try (apply HN; simpl; auto). intros X. unfold nlt in X. congruence. }
    assert (HN' : forall z, In z (b :: l) -> fst z <> NaN).
    { intros z [<-|Hz]; [unfold b; destruct (nltb _ _); apply HN; simpl; auto|apply HN; simpl; auto]. }
    pose proof (IH b HN' b (or_introl eq_refl)) as Hb.
    destruct Hx as [<-|[<-|Hx]]; [eapply nle_trans; [apply HB|auto]|eapply nle_trans; [apply HB|auto]|]. apply IH; auto. right; auto.
Qed.
Lemma set_max_in s r : s <> [] -> exists x r', set_max s r = (Ok x, r') /\ In x s /\
  ((forall y, In y s -> fst y <> NaN) -> forall y, In y s -> nle (fst y) (fst x)).
Proof.
  intros NE. unfold set_max. destruct (Search_Proofs3.rsample_all (length s) s r eq_refl) as (xs & r' & E & P). rewrite E. simpl.
  destruct xs as [|x xs]; [apply Permutation_sym, Permutation_nil in P; congruence|].
  exists (largest x xs), r'. split; auto. split.
  - eapply Permutation_in; [symmetry; exact P|]. apply largest_in.
  - intros HN y Hy. apply largest_best; [|eapply Permutation_in; eauto]. intros z Hz. apply HN. eapply Permutation_in; [symmetry; exact P|]; auto.
Qed.
Lemma same_entry_iff x y : same_entry x y = true <-> Search_Model.same_num (fst x) (fst y) = true /\ i_id (m_ind (snd x)) = i_id (m_ind (snd y)).
Proof. unfold same_entry. rewrite andb_true_iff, Nat.eqb_eq. destruct (fst x), (fst y); simpl; tauto. Qed.
Lemma same_entry_trans x y z : same_entry x y = true -> same_entry y z = true -> same_entry x z = true.
Proof.
  rewrite !same_entry_iff. intros (A & B) (C & D). split; [|congruence]. clear B D. destruct (fst x), (fst y), (fst z); simpl in *; try discriminate; auto.
  apply Qeq_bool_iff in A, C. apply Qeq_bool_iff. rewrite A. auto.
Qed.
Lemma dedup_all l y : In y l -> exists x, In x (dedup l) /\ same_entry x y = true.
Proof.
  induction l as [|a l IH]; simpl; [tauto|]. intros [<-|Hy]; [exists a; split; auto; apply same_entry_refl|].
  destruct (IH Hy) as (x & H1 & H2). destruct (same_entry a x) eqn:E.
  - exists a. split; auto. eapply same_entry_trans; eauto.
  - exists x. split; auto. right. apply filter_In. rewrite E. auto.
Qed.
Lemma not_promoted_in y x : In x (not_promoted y) -> In x (g_inds y) /\ forall p, In p (g_prom y) -> same_entry x p = false.
Proof.
  intros H. apply dedup_incl, filter_In in H as [H1 H2]. split; auto. intros p Hp. apply negb_true_iff in H2.
  destruct (same_entry x p) eqn:E; auto. rewrite <- H2. symmetry. apply existsb_exists. eauto.
Qed.
Lemma not_promoted_all y x : In x (g_inds y) -> (forall p, In p (g_prom y) -> same_entry x p = false) -> exists x', In x' (not_promoted y) /\ same_entry x' x = true.
Proof.
  intros H1 H2. apply dedup_all, filter_In. split; auto. apply negb_true_iff. destruct (existsb _ _) eqn:E; auto.
  apply existsb_exists in E as (p & Hp & E). rewrite (H2 p Hp) in E. discriminate.
Qed.

Lemma scored_app r t u : scored r (t ++ u) = scored r t ++ scored r u.
Proof. apply flat_map_app. Qed.
Lemma in_scored r t sc i : In (sc, i) (scored r t) -> exists rest b, In (Finished (m_ind i) r (Evaluated (sc :: rest) b)) t.
Proof.
  intros H. apply in_flat_map in H as ([j r'|j r' [|[|sc' l] b]] & H & Hin); try (destruct Hin; fail).
  destruct (r' =? r) eqn:E; [|destruct Hin]. apply Nat.eqb_eq in E as ->. destruct Hin as [Hin|[]]. injection Hin as -> <-. simpl. eauto.
Qed.
(** results have different ids if all keys are different *)
Lemma scored_unique r t : NoDup (map key (finished t)) -> forall x y, In x (scored r t) -> In y (scored r t) -> i_id (m_ind (snd x)) = i_id (m_ind (snd y)) -> x = y.
Proof.
  induction t as [|a t IH]; intros ND x y Hx Hy E; [destruct Hx|].
  assert (K : forall sc i, In (sc, i) (scored r t) -> In (i_id (m_ind i), r) (map key (finished t))).
  { intros sc i H. apply in_scored in H as (rest & b & H). apply in_map_iff. exists (m_ind i, r). split; auto. apply in_finished. eauto. }
  destruct a as [i r'|i r' o]; [exact (IH ND x y Hx Hy E)|].
  cbn [finished map] in ND. inversion ND as [|? ? N1 N2]; subst.
  assert (S1 : scored r (Finished i r' o :: t) = scored r t \/ (exists sc m, m_ind m = i /\ r' = r /\ scored r (Finished i r' o :: t) = (sc, m) :: scored r t)).
  { unfold scored. cbn [flat_map]. destruct o as [|[|sc l] b]; auto. destruct (r' =? r) eqn:E'; auto. apply Nat.eqb_eq in E'. right. exists sc, (mkMem i (sc :: l)). auto. }
  destruct S1 as [S1|(sc & m & Em & -> & S1)]; rewrite S1 in Hx, Hy; [exact (IH N2 x y Hx Hy E)|].
  destruct Hx as [<-|Hx], Hy as [<-|Hy]; auto.
  - exfalso. apply N1. unfold key; simpl. simpl in E. rewrite <- Em, E. destruct y as [sy iy]. eapply K; eauto.
  - exfalso. apply N1. unfold key; simpl. simpl in E. rewrite <- Em, <- E. destruct x as [sx ix]. eapply K; eauto.
Qed.
Lemma set_rung_nos y l : map g_no (set_rung y l) = map g_no l.
Proof. unfold set_rung. rewrite map_map. apply map_ext. intros a. destruct (g_no a =? g_no y) eqn:E; auto. apply Nat.eqb_eq in E. auto. Qed.
Lemma set_rung_in y l z : In z (set_rung y l) -> (z = y /\ In (g_no y) (map g_no l)) \/ (g_no z <> g_no y /\ In z l).
Proof.
  intros H. apply in_map_iff in H as (a & H & Ha). destruct (g_no a =? g_no y) eqn:E.
  - apply Nat.eqb_eq in E. left. subst. split; auto. rewrite <- E. apply in_map. auto.
  - apply Nat.eqb_neq in E. subst. auto.
Qed.

Lemma scored_ids r t : NoDup (map key (finished t)) -> NoDup (map (fun e => i_id (m_ind (snd e))) (scored r t)).
Proof.
  induction t as [|a t IH]; intros ND; [constructor|].
  destruct a as [i r'|i r' o]; [exact (IH ND)|]. cbn [finished map] in ND. inversion ND as [|? ? N1 N2]; subst.
  assert (S1 : scored r (Finished i r' o :: t) = scored r t \/ (exists sc m, m_ind m = i /\ r' = r /\ scored r (Finished i r' o :: t) = (sc, m) :: scored r t)).
  { unfold scored. cbn [flat_map]. destruct o as [|[|sc l] b]; auto. destruct (r' =? r) eqn:E'; auto. apply Nat.eqb_eq in E'. right. exists sc, (mkMem i (sc :: l)). auto. }
  destruct S1 as [S1|(sc & m & Em & -> & S1)]; rewrite S1; auto. simpl. constructor; auto. intros H. apply N1.
  apply in_map_iff in H as ([sy y] & E & H). apply in_scored in H as (rest & b & H). apply in_map_iff. exists (m_ind y, r). split; [unfold key; simpl in *; congruence|].
  apply in_finished. eauto.
Qed.
Lemma below_part e a b : b < a / e -> b < a.
Proof. destruct e as [|n]; [simpl; lia|]. intros L. assert (a / S n <= a); [|lia]. apply Nat.div_le_upper_bound; [lia|]. simpl. lia. Qed.
Lemma in_or_all {A} (g : A -> nat) (l : list A) (p : list nat) : (exists e, In e l /\ ~ In (g e) p) \/ incl (map g l) p.
Proof.
  induction l as [|a l IH]; [right; intros x []|]. destruct (in_dec Nat.eq_dec (g a) p) as [H|H]; [|left; exists a; simpl; auto].
  destruct IH as [(e & E1 & E2)|IH]; [left; exists e; simpl; auto|]. right. intros x [<-|Hx]; auto.
Qed.
Section Asha.
Context (ps : pset) (mx : option Z) (eta f : nat) (R : Z) (start : list individual).
Definition asha_allowed (t : list hitem) (i : individual) (r : nat) : Prop :=
  (r = f /\ (In i start \/ (is_new i /\ forall j, seen t j -> i_id j < i_id i)) /\
    (NoDup (map i_id start) -> forall r', f <= r' -> (Z.of_nat r' < R)%Z -> ~ promotable eta r' t)) \/
  (exists r', r = S r' /\ f <= r' /\ In i (scored_inds r' t) /\ eta * S (length (started_on r t)) <= length (scored r' t) /\
    (exists sc m, In (sc, m) (scored r' t) /\ m_ind m = i /\
      ((forall e, In e (scored r' t) -> fst e <> NaN) ->
       forall sc' m', In (sc', m') (scored r' t) -> ~ In (i_id (m_ind m')) (map i_id (started_on r t)) -> nle sc' sc)) /\
    (NoDup (map i_id start) -> forall r'', r' < r'' -> (Z.of_nat r'' < R)%Z -> ~ promotable eta r'' t)).
Notation AInv := (Inv ps mx asha_allowed).
Notation nums := (rung_numbers f R).
(** the rungs, with the jobs that have been chosen but not yet submitted *)
Record RI (pend : list (individual * nat)) (w : hst) : Prop := {
  ri_nos : map g_no (q_rungs w) = rev nums;
  ri_all : forall y, In y (q_rungs w) -> g_inds y = scored (g_no y) (q_trace w) /\ incl (g_prom y) (g_inds y) /\
    map (fun e => m_ind (snd e)) (g_prom y) = map fst (filter (fun p => snd p =? S (g_no y)) (started (q_trace w) ++ pend));
  ri_order : exists l, rev start ++ l = map fst (filter (fun p => snd p =? f) (started (q_trace w) ++ pend)) ++ rev (q_start w) /\ Forall is_new l /\ (q_start w <> [] -> l = []) }.
Record OI (w : hst) : Prop := {
  oi_start : incl (q_start w) start;
  oi_rungs : forall i r, In (Started i r) (q_trace w) -> In r nums;
  oi_once : NoDup (map i_id start) -> NoDup (map key (started (q_trace w))) /\ NoDup (map i_id (q_start w)) /\
    forall i j, In i (q_start w) -> seen (q_trace w) j -> i_id i <> i_id j;
  oi_order : exists rest l, rev start ++ l = started_on f (q_trace w) ++ rest /\ Forall is_new l }.
Lemma started_on_snoc r t i r' : started_on r (t ++ [Started i r']) = started_on r t ++ if r' =? r then [i] else [].
Proof. unfold started_on. rewrite started_app, filter_app, map_app. simpl. destruct (r' =? r); auto. Qed.
Lemma started_on_wait r t i r' o : started_on r (t ++ [Finished i r' o]) = started_on r t.
Proof. unfold started_on. rewrite started_app, app_nil_r. auto. Qed.

Lemma nums_in r : In r nums <-> f <= r /\ (Z.of_nat r <= R)%Z.
Proof. unfold rung_numbers. rewrite in_seq. lia. Qed.
Lemma rung_unique w pend y z : RI pend w -> In y (q_rungs w) -> In z (q_rungs w) -> g_no y = g_no z -> y = z.
Proof.
  intros [A _ _]. assert (ND : NoDup (map g_no (q_rungs w))) by (rewrite A; apply NoDup_rev, seq_NoDup).
  revert ND. clear A. generalize (q_rungs w). induction l as [|a l IH]; intros ND Hy Hz E; [destruct Hy|].
  inversion ND as [|? ? N1 N2]; subst. destruct Hy as [<-|Hy], Hz as [<-|Hz]; auto.
  - exfalso. apply N1. rewrite E. apply in_map. auto.
  - exfalso. apply N1. rewrite <- E. apply in_map. auto.
Qed.
Definition unready (y : rung) : Prop := length (g_inds y) / eta <= length (g_prom y) \/ not_promoted y = [].
Lemma promote_spec : forall l w x w', promote_from eta l w = (x, w') ->
  (x = Ok None /\ w' = w /\ Forall unready l) \/
  exists y e s l1 l2, l = l1 ++ y :: l2 /\ Forall unready l1 /\ In e (g_inds y) /\ (forall p, In p (g_prom y) -> same_entry e p = false) /\
    ((forall z, In z (g_inds y) -> fst z <> NaN) -> forall z, In z (g_inds y) -> (forall p, In p (g_prom y) -> same_entry z p = false) -> nle (fst z) (fst e)) /\
    length (g_prom y) < length (g_inds y) / eta /\
    x = Ok (Some (m_ind (snd e), S (g_no y))) /\ s_heap s = s_heap (q_st w) /\ s_uid s = s_uid (q_st w) /\
    w' = mkH s (q_jobs w) (q_start w) (set_rung (mkRung (g_no y) (g_inds y) (g_prom y ++ [e])) (q_rungs w)) (q_out w) (q_trace w).
Proof.
  induction l as [|y l IH]; intros w x w' H; cbn [promote_from] in H.
  { injection H as <- <-. auto. }
  assert (K : unready y -> promote_from eta l w = (x, w') -> (x = Ok None /\ w' = w /\ Forall unready (y :: l)) \/
    exists y0 e s l1 l2, y :: l = l1 ++ y0 :: l2 /\ Forall unready l1 /\ In e (g_inds y0) /\ (forall p, In p (g_prom y0) -> same_entry e p = false) /\
    ((forall z, In z (g_inds y0) -> fst z <> NaN) -> forall z, In z (g_inds y0) -> (forall p, In p (g_prom y0) -> same_entry z p = false) -> nle (fst z) (fst e)) /\
    length (g_prom y0) < length (g_inds y0) / eta /\
    x = Ok (Some (m_ind (snd e), S (g_no y0))) /\ s_heap s = s_heap (q_st w) /\ s_uid s = s_uid (q_st w) /\
    w' = mkH s (q_jobs w) (q_start w) (set_rung (mkRung (g_no y0) (g_inds y0) (g_prom y0 ++ [e])) (q_rungs w)) (q_out w) (q_trace w)).
  { intros U H1. apply IH in H1 as [(H1 & H2 & H3)|(y0 & e & s & l1 & l2 & -> & H1 & H2)]; [auto|]. right. exists y0, e, s, (y :: l1), l2. split; auto. }
  destruct (length (g_prom y) <? length (g_inds y) / eta) eqn:EL; [|apply K; auto; left; apply Nat.ltb_ge; auto].
  apply Nat.ltb_lt in EL. destruct (not_promoted y) as [|e0 s0] eqn:EN; [apply K; auto; right; auto|]. rewrite <- EN in H.
  destruct (set_max_in (not_promoted y) (s_rng (q_st w))) as (e & r' & EM & He & HB); [congruence|].
  unfold hbind at 1, hgp, mrandom in H. rewrite EM in H. unfold hbind, get_rungs, set_rungs, hret in H. cbn [q_st q_jobs q_start q_rungs q_out q_trace] in H.
  injection H as <- <-. right. apply not_promoted_in in He as [He1 He2]. exists y, e, (mkSt (s_heap (q_st w)) r' (s_uid (q_st w))), [], l. simpl.
  split; auto. split; auto. split; auto. split; auto. split; [|auto 12].
  intros HN z Hz1 Hz2. destruct (not_promoted_all y z Hz1 Hz2) as (z' & Z1 & Z2). apply same_entry_iff in Z2 as (Z2 & _).
  apply Search_Proofs3.same_num_fst in Z2 as (_ & Z2). unfold nle. rewrite <- Z2. apply HB; auto. intros q Hq. apply HN. apply not_promoted_in in Hq. tauto.
Qed.

Lemma nodup_app_l {A} (a b : list A) : NoDup (a ++ b) -> NoDup a.
Proof. induction a as [|x a IH]; intros H; [constructor|]. inversion H as [|? ? N1 N2]; subst. constructor; auto. intros Hx. apply N1, in_or_app. auto. Qed.
Lemma finished_once w : AInv w -> NoDup (map key (started (q_trace w))) -> NoDup (map key (finished (q_trace w))).
Proof. intros I ND. apply (Permutation_NoDup (h_perm _ _ _ w I)) in ND. eapply nodup_app_l; eauto. Qed.
Lemma inv_draw w s : AInv w -> s_heap s = s_heap (q_st w) -> s_uid s = s_uid (q_st w) -> AInv (with_state s w).
Proof.
  intros [A B C D E F G] H1 H2. assert (K : forall i, good ps mx (q_st w) i -> good ps mx s i).
  { unfold good. rewrite H1, H2. auto. }
  constructor; simpl; unfold h_objects in *; simpl; rewrite ?H1; auto.
  eapply Forall_impl; [|exact E]. auto.
Qed.
Lemma inv_start w l : AInv w -> incl l (q_start w) -> AInv (mkH (q_st w) (q_jobs w) l (q_rungs w) (q_out w) (q_trace w)).
Proof. intros [A B C D E F G] H. constructor; simpl; auto. rewrite Forall_forall in *. auto. Qed.
Lemma answer_seen w t i r o : AInv w -> In (Finished i r o) (q_trace w) -> t = q_trace w -> exists j, In (Started j r) t /\ i_id i = i_id j.
Proof.
  intros I H ->. apply in_split in H as (t1 & t2 & E). destruct (h_answers _ _ _ w I _ _ _ _ _ E) as (j & ss & Hj & _ & _ & Hid & _).
  exists j. split; auto. rewrite E. apply in_or_app. auto.
Qed.

Lemma seq_decreasing k0 k : forall l1 a l2 b, rev (seq k0 k) = l1 ++ a :: l2 -> In b l2 -> b < a.
Proof.
  induction k as [|k IH]; intros l1 a l2 b H Hb; [destruct l1; discriminate|]. rewrite seq_S, rev_app_distr in H. simpl in H. destruct l1 as [|c l1].
  - injection H as <- <-. apply in_rev, in_seq in Hb. lia.
  - injection H as _ H. eapply IH; eauto.
Qed.
Lemma below_top w r : RI [] w -> f <= r -> (Z.of_nat r < R)%Z -> exists y, In y (tl (q_rungs w)) /\ g_no y = r.
Proof.
  intros [A _ _] L1 L2. assert (H : In r (tl (rev nums))).
  { unfold rung_numbers. destruct (Z.to_nat (R + 1 - Z.of_nat f)) as [|n] eqn:E; [lia|]. rewrite seq_S, rev_app_distr. simpl. apply in_rev. rewrite rev_involutive. apply in_seq. lia. }
  rewrite <- A in H. destruct (q_rungs w); [destruct H|]. simpl in *. apply in_map_iff in H as (y & H1 & H2). eauto.
Qed.
Lemma unready_not w y : AInv w -> RI [] w -> NoDup (map key (started (q_trace w))) -> In y (q_rungs w) -> unready y -> ~ promotable eta (g_no y) (q_trace w).
Proof.
  intros I [_ ALL _] ND Hy U L. destruct (ALL y Hy) as (A1 & A2 & A3). rewrite app_nil_r in A3. unfold promotable in L. unfold started_on in L. rewrite <- A3, map_length, <- A1 in L.
  destruct U as [U|U]; [exact (Nat.lt_irrefl _ (Nat.lt_le_trans _ _ _ L U))|].
  pose proof (finished_once w I ND) as NF.
  assert (NI : NoDup (map (fun e => i_id (m_ind (snd e))) (g_inds y))) by (rewrite A1; apply scored_ids; auto).
  assert (LT : length (g_prom y) < length (g_inds y)).
  { exact (below_part _ _ _ L). }
  assert (EX : exists e, In e (g_inds y) /\ ~ In (i_id (m_ind (snd e))) (map (fun e => i_id (m_ind (snd e))) (g_prom y))).
  { clear - NI LT. destruct (in_or_all (fun e => i_id (m_ind (snd e))) (g_inds y) (map (fun e => i_id (m_ind (snd e))) (g_prom y))) as [H|H]; auto. exfalso.
    apply (NoDup_incl_length NI) in H. rewrite !map_length in H. exact (Nat.lt_irrefl _ (Nat.lt_le_trans _ _ _ LT H)). }
  destruct EX as (e & E1 & E2). destruct (not_promoted_all y e E1) as (x' & X & _); [|rewrite U in X; destruct X].
  intros p Hp. destruct (same_entry e p) eqn:EQ; auto. exfalso. apply E2. apply same_entry_iff in EQ as (_ & ->). apply in_map_iff. eauto.
Qed.

Lemma get_job_ok w x w' : AInv w -> RI [] w -> OI w -> get_job ps mx eta f w = (x, w') ->
  AInv w' /\ q_trace w' = q_trace w /\ q_jobs w' = q_jobs w /\ q_out w' = q_out w /\ incl (q_start w') start /\
  match x with
  | Ok (i, r) => RI [(i, r)] w' /\ good ps mx (q_st w') i /\ asha_allowed (q_trace w') i r /\ ((Z.of_nat f <= R)%Z -> In r nums) /\
     (NoDup (map i_id start) -> ~ In (i_id i, r) (map key (started (q_trace w'))) /\ NoDup (map i_id (q_start w')) /\
        (forall j k, In j (q_start w') -> seen (q_trace w') k -> i_id j <> i_id k) /\ (forall j, In j (q_start w') -> i_id j <> i_id i))
  | Err ex => RI [] w' /\ OI w' /\ creation_error ps mx ex
  end.
Proof.
  intros I RR [OS OR OO OW] H. pose proof RR as [NOS ALL OD]. unfold get_job in H. unfold hbind at 1, get_rungs at 1 in H. unfold hbind at 1 in H.
  destruct (promote_from eta (tl (q_rungs w)) w) as [p w1] eqn:EP. apply promote_spec in EP as [(-> & -> & UR)|(y & e & s & l1 & l2 & ETL & UR & He & Hp & HB & HL & -> & H1 & H2 & ->)].
  - (* from the candidates or new *)
    assert (RF : forall i w', q_rungs w' = q_rungs w -> q_trace w' = q_trace w ->
      (exists l, rev start ++ l = (map fst (filter (fun p => snd p =? f) (started (q_trace w))) ++ [i]) ++ rev (q_start w') /\ Forall is_new l /\ (q_start w' <> [] -> l = [])) -> RI [(i, f)] w').
    { intros i w0 E1 E2 E3. constructor; rewrite ?E1; auto. 2:{ rewrite E2, filter_app, map_app. simpl. rewrite Nat.eqb_refl. exact E3. } intros y Hy. rewrite E2. destruct (ALL y Hy) as (A1 & A2 & A3). split; auto. split; auto.
      rewrite A3, app_nil_r, filter_app. cbn [filter snd]. replace (f =? S (g_no y)) with false; [rewrite app_nil_r; auto|].
      symmetry. apply Nat.eqb_neq. assert (Hn : In (g_no y) nums). { apply in_rev. rewrite <- NOS. apply in_map. auto. } apply nums_in in Hn. lia. }
    assert (FN : (Z.of_nat f <= R)%Z -> In f nums) by (intros; apply nums_in; lia).
    assert (NP : NoDup (map i_id start) -> forall r', f <= r' -> (Z.of_nat r' < R)%Z -> ~ promotable eta r' (q_trace w)).
    { intros ND r' L1 L2. destruct (below_top w r' RR L1 L2) as (y & Hy & Ey). rewrite <- Ey. apply (unready_not w y); auto.
      - apply OO; auto.
      - destruct (q_rungs w); [destruct Hy|right; auto].
      - rewrite Forall_forall in UR. auto. }
    unfold hbind at 1, pop_candidate in H. destruct (rev (q_start w)) as [|i l] eqn:ER.
    + unfold hbind in H. destruct (hgp (op_individual ps mx) w) as [z w2] eqn:E2.
      destruct (new_inv ps mx asha_allowed w z w2 I E2) as (I2 & J2 & S2 & R2 & O2 & T2 & U2 & Hz).
      assert (QS : q_start w = []) by (destruct (q_start w) as [|a b]; auto; simpl in ER; destruct (rev b); discriminate).
      destruct z as [i|ex]; injection H as <- <-; (split; [auto|split; [auto|split; [auto|split; [auto|split; [rewrite S2; auto|]]]]]).
      * destruct Hz as (G & IN & UI). 
        assert (LT : forall j, seen (q_trace w) j -> i_id j < i_id i).
        { intros j Hj. pose proof (h_seen _ _ _ w I j Hj) as (Lt & _). lia. }
        split.
        { apply RF; auto. destruct OD as (l & L1 & L2 & L3). exists (l ++ [i]). rewrite S2. rewrite QS in *. simpl in *. rewrite !app_nil_r in *. rewrite app_assoc, L1.
          split; auto. split; [|congruence]. apply Forall_app. auto. } split; auto. split; [left; split; auto; split; [right; split; auto; rewrite T2; auto|rewrite T2; exact NP]|]. split; auto.
        intros _. rewrite S2, QS, T2. split; [|split; [constructor|split; [intros j k []|intros j []]]].
        intros Hin. apply in_map_iff in Hin as ([j r] & Ek & Hin). unfold key in Ek. simpl in Ek. injection Ek as Ek _. apply in_started in Hin.
        specialize (LT j). rewrite Ek in LT. assert (i_id i < i_id i); [|lia]. apply LT. exists r. auto.
      * split; [|split; [|exact Hz]]; constructor; rewrite ?R2, ?T2, ?S2; auto. rewrite ER. exact OD.
    + injection H as <- <-. assert (QS : q_start w = rev l ++ [i]) by (rewrite <- (rev_involutive (q_start w)), ER; auto).
      assert (IL : incl (rev l) (q_start w)) by (rewrite QS; apply incl_appl, incl_refl).
      assert (HI : In i (q_start w)) by (rewrite QS; apply in_or_app; simpl; auto).
      split; [apply inv_start; auto|]. simpl. do 3 (split; auto). split; [eapply incl_tran; eauto|].
      split.
      { apply RF; auto. destruct OD as (l' & L1 & L2 & L3). assert (l' = []) as -> by (apply L3; rewrite QS; destruct (rev l); discriminate).
        exists []. cbn [q_start]. rewrite rev_involutive, L1, app_nil_r, <- app_assoc. simpl. auto. } split; [exact (proj1 (Forall_forall _ _) (h_start _ _ _ w I) i HI)|]. split; [left; split; auto|]. split; auto.
      intros ND. destruct (OO ND) as (O1 & O2 & O3). rewrite QS, map_app in O2. simpl in O2.
      split; [|split; [eapply nodup_app_l; eauto|split]].
      * intros Hin. apply in_map_iff in Hin as ([j r] & Ek & Hin). unfold key in Ek. simpl in Ek. injection Ek as Ek _. apply in_started in Hin.
        apply (O3 i j HI); [exists r; auto|auto].
      * intros j k Hj Hk. apply O3; auto.
      * intros j Hj E. apply NoDup_remove_2 in O2. apply O2. rewrite app_nil_r, <- E. apply in_map. auto.
  - (* a promotion *)
    unfold hret in H. injection H as <- <-.
    assert (Hy : In y (tl (q_rungs w))) by (rewrite ETL; apply in_or_app; simpl; auto).
    assert (Hy' : In y (q_rungs w)) by (destruct (q_rungs w); [destruct Hy|right; auto]).
    destruct (ALL y Hy') as (A1 & A2 & A3). rewrite app_nil_r in A3.
    assert (Hn : In (g_no y) nums). { apply in_rev. rewrite <- NOS. apply in_map. auto. }
    assert (HN : In (S (g_no y)) nums).
    { assert (Hy2 : In (g_no y) (tl (rev nums))) by (rewrite <- NOS; destruct (q_rungs w); [destruct Hy|simpl; apply in_map; auto]).
      unfold rung_numbers in *. set (n := Z.to_nat (R + 1 - Z.of_nat f)) in *. destruct n as [|n]; [destruct Hy2|].
      rewrite seq_S, rev_app_distr in Hy2. simpl in Hy2. apply in_rev, in_seq in Hy2. apply in_seq. lia. }
    destruct e as [sc i]. rewrite A1 in He. destruct (in_scored _ _ _ _ He) as (rest & b & HF). cbn [snd] in *.
    assert (SI : seen (q_trace w) (m_ind i)) by (exists (g_no y); right; eauto).
    split; [apply (inv_rungs ps mx asha_allowed (with_state s w)); apply inv_draw; auto|]. simpl. do 3 (split; auto). split; auto. split; [|split; [|split; [|split]]].
    + constructor; simpl; [rewrite set_rung_nos; auto| |].
      2:{ destruct OD as (l' & L1 & L2). exists l'. rewrite app_nil_r in L1. rewrite filter_app. cbn [filter snd]. replace (S (g_no y) =? f) with false; [rewrite app_nil_r; auto|].
          symmetry. apply Nat.eqb_neq. apply nums_in in Hn. lia. }
      intros z Hz. apply set_rung_in in Hz as [(-> & _)|(Hz1 & Hz2)]; simpl in *.
      * split; auto. split; [intros q Hq; apply in_app_or in Hq as [Hq|[<-|[]]]; auto; rewrite A1; auto|].
        transitivity (map (fun e => m_ind (snd e)) (g_prom y) ++ [m_ind i]); [apply map_app|]. rewrite A3, filter_app. cbn [filter snd]. rewrite Nat.eqb_refl, map_app. auto.
      * destruct (ALL z Hz2) as (B1 & B2 & B3). split; auto. split; auto. rewrite B3, app_nil_r, filter_app. cbn [filter snd].
        replace (S (g_no y) =? S (g_no z)) with false; [rewrite app_nil_r; auto|]. symmetry. apply Nat.eqb_neq. lia.
    + destruct (h_seen _ _ _ w I (m_ind i) SI) as (G1 & ss & G2). split; [rewrite H2; auto|]. exists ss. rewrite H1. auto.
    + right. exists (g_no y). split; auto. split; [apply nums_in in Hn; lia|]. split; [apply in_map_iff; exists (sc, i); auto|].
      split; [|split].
      * unfold started_on. rewrite <- A3, map_length, <- A1. clear HB UR. destruct eta as [|n]; [simpl; lia|].
        eapply Nat.le_trans; [apply Nat.mul_le_mono_l; exact HL|apply Nat.mul_div_le; lia].
      * exists sc, i. split; auto. split; auto. intros NN sc' m' Hm' Hs'. rewrite <- A1 in NN, Hm'. apply (HB NN (sc', m')); auto.
        intros q Hq. destruct (same_entry (sc', m') q) eqn:EQ; auto. exfalso. apply Hs'. apply same_entry_iff in EQ as (_ & EQ). cbn [snd] in EQ. rewrite EQ.
        apply in_map. unfold started_on. rewrite <- A3. apply (in_map (fun e => m_ind (snd e))). auto.
      * intros ND r'' L1 L2. apply nums_in in Hn. destruct (below_top w r'' RR) as (z & Hz & Ez); [lia|lia|]. rewrite <- Ez. apply (unready_not w z); auto.
        { apply OO; auto. }
        { destruct (q_rungs w); [destruct Hz|right; auto]. }
        rewrite ETL in Hz. apply in_app_or in Hz as [Hz|[->|Hz]]; [rewrite Forall_forall in UR; auto|lia|]. exfalso.
        assert (DE : g_no z < g_no y); [|lia]. apply (seq_decreasing f (Z.to_nat (R + 1 - Z.of_nat f))) with (l1 := map g_no (firstn 1 (q_rungs w) ++ l1)) (l2 := map g_no l2); [|apply in_map; auto].
        change (rev nums = map g_no (firstn 1 (q_rungs w) ++ l1) ++ g_no y :: map g_no l2). rewrite <- NOS.
        change (g_no y :: map g_no l2) with (map g_no (y :: l2)). rewrite <- map_app, <- app_assoc, <- ETL. destruct (q_rungs w); auto.
    + auto.
    + intros ND. destruct (OO ND) as (O1 & O2 & O3). split; [|split; [auto|split; [auto|]]].
      * intros Hin. apply in_map_iff in Hin as ([j r] & Ek & Hin). unfold key in Ek. simpl in Ek. injection Ek as Ek ->.
        assert (Hj : In j (map (fun e => m_ind (snd e)) (g_prom y))).
        { rewrite A3. apply in_map_iff. exists (j, S (g_no y)). split; auto. apply filter_In. split; auto. simpl. apply Nat.eqb_refl. }
        apply in_map_iff in Hj as (q & <- & Hq). pose proof (A2 q Hq) as Hq2. rewrite A1 in Hq2.
        assert (EQ : q = (sc, i)) by (apply (scored_unique (g_no y) (q_trace w)); auto; apply finished_once; auto).
        specialize (Hp q Hq). rewrite EQ, same_entry_refl in Hp. discriminate.
      * intros j Hj. apply O3; auto.
Qed.

Definition bad_rungs : Prop := (R < Z.of_nat f)%Z.
Lemma start_job_ok w x w' : AInv w -> RI [] w -> OI w -> start_new_job ps mx eta f R w = (x, w') ->
  AInv w' /\ OI w' /\ q_out w' = q_out w /\ finished (q_trace w') = finished (q_trace w) /\
  match x with
  | Ok _ => RI [] w' /\ length (q_jobs w') = S (length (q_jobs w))
  | Err ex => creation_error ps mx ex \/ (ex = KeyError /\ bad_rungs)
  end.
Proof.
  intros I RR O H. unfold start_new_job, hbind in H. destruct (get_job ps mx eta f w) as [y w1] eqn:E1.
  destruct (get_job_ok w y w1 I RR O E1) as (I1 & T1 & J1 & O1 & S1 & Hy).
  destruct y as [[i r]|ex].
  2:{ injection H as <- <-. destruct Hy as (_ & Hy & CE). rewrite T1. auto 10. }
  destruct Hy as (RI1 & G & AL & NU & ON). cbn [fst snd] in H. destruct (existsb (Nat.eqb r) nums) eqn:EX.
  - destruct (submit_inv ps mx asha_allowed w1 i r I1 G AL x w' H) as (I2 & -> & T2 & J2 & Q2 & S2 & R2 & O2).
    assert (HN : In r nums). { apply existsb_exists in EX as (r2 & EX & E). apply Nat.eqb_eq in E. subst. auto. }
    split; auto. split; [|split; [congruence|split; [rewrite T2, finished_app, T1, app_nil_r; auto|split]]].
    + destruct O as [OS OR OO OD]. constructor; rewrite ?S2, ?T2; auto.
      * intros j r' Hj. apply in_app_or in Hj as [Hj|[Hj|[]]]; [rewrite T1 in Hj; eauto|]. injection Hj as -> ->. auto.
      * intros ND. destruct (ON ND) as (N1 & N2 & N3 & N4). destruct (OO ND) as (M1 & _). split; [|split; auto].
        -- rewrite started_app, map_app. simpl. apply Permutation_NoDup with (l := key (i, r) :: map key (started (q_trace w1))); [apply Permutation_cons_append|].
           constructor; auto. rewrite T1. auto.
        -- intros j k Hj Hk. apply seen_app in Hk as [Hk|Hk]; auto. apply seen_one in Hk as ->. auto.
      * destruct RI1 as [_ _ (l & L1 & L2 & _)]. exists (rev (q_start w1)), l. split; auto. unfold started_on. rewrite started_app. exact L1.
    + destruct RI1 as [A B C]. constructor; rewrite ?R2; auto; [|rewrite T2, S2, started_app, app_nil_r; exact C]. intros y Hy. rewrite T2, scored_app, started_app, app_nil_r. simpl. rewrite app_nil_r. auto.
    + rewrite J2, app_length, J1. simpl. lia.
  - injection H as <- <-. split; auto. split.
    { destruct O as [OS OR OO OD]. constructor; rewrite ?T1; auto. intros ND. destruct (ON ND) as (N1 & N2 & N3 & N4). destruct (OO ND) as (M1 & _). rewrite T1 in N3. auto. }
    split; auto. split; [rewrite T1; auto|]. right. split; auto. unfold bad_rungs. destruct (Z_lt_le_dec R (Z.of_nat f)) as [L|L]; auto.
    apply NU in L. exfalso. assert (existsb (Nat.eqb r) nums = true); [|congruence]. apply existsb_exists. exists r. split; auto. apply Nat.eqb_refl.
Qed.
Lemma start_jobs_ok n : forall w x w', AInv w -> RI [] w -> OI w -> start_jobs ps mx eta f R n w = (x, w') ->
  AInv w' /\ OI w' /\ q_out w' = q_out w /\ finished (q_trace w') = finished (q_trace w) /\
  match x with
  | Ok _ => RI [] w' /\ length (q_jobs w') = n + length (q_jobs w)
  | Err ex => creation_error ps mx ex \/ (ex = KeyError /\ bad_rungs)
  end.
Proof.
  induction n as [|n IH]; intros w x w' I RR O H.
  { injection H as <- <-. auto 10. }
  cbn [start_jobs] in H. unfold hbind in H. destruct (start_new_job ps mx eta f R w) as [y w1] eqn:E1.
  destruct (start_job_ok w y w1 I RR O E1) as (I1 & O1 & Q1 & F1 & Hy). destruct y as [[]|ex].
  - destruct Hy as (R1 & J1). destruct (IH w1 x w' I1 R1 O1 H) as (I2 & O2 & Q2 & F2 & Hx). split; auto. split; auto. split; [congruence|]. split; [congruence|].
    destruct x; auto. destruct Hx as (R2 & J2). split; auto. lia.
  - injection H as <- <-. auto 10.
Qed.
Lemma wait_record w e x w' : AInv w -> RI [] w -> OI w -> hbind (hwait e) (record_result) w = (x, w') ->
  AInv w' /\ OI w' /\
  match x with
  | Ok _ => RI [] w' /\ length (q_jobs w) = S (length (q_jobs w')) /\ length (finished (q_trace w')) = S (length (finished (q_trace w)))
  | Err ex => (ex = RuntimeError /\ q_jobs w = []) \/ (ex = IndexError /\ ~ has_score e)
  end.
Proof.
  intros I RR O H. unfold hbind in H. destruct (hwait e w) as [y w1] eqn:E1.
  destruct (wait_inv_h ps mx asha_allowed w e y w1 I E1) as (I1 & S1 & R1 & O1 & U1 & Hy).
  destruct y as [[[i r] o]|ex].
  2:{ injection H as <- <-. destruct Hy as (-> & J & ->). auto 10. }
  destruct Hy as (Ho & T1 & J1 & KJ).
  assert (HS : exists j, In (Started j r) (q_trace w) /\ i_id i = i_id j).
  { destruct (answer_seen w1 (q_trace w1) i r o I1) as (j & HS & Ej); [rewrite T1; apply in_or_app; simpl; auto|auto|]. rewrite T1 in HS.
    apply in_app_or in HS as [HS|[HS|[]]]; [eauto|discriminate]. }
  destruct O as [OS OR OO OD].
  assert (O2 : OI w1).
  { constructor; rewrite ?S1, ?T1; auto.
    - intros j r' Hj. apply in_app_or in Hj as [Hj|[Hj|[]]]; [eauto|discriminate].
    - intros ND. destruct (OO ND) as (N1 & N2 & N3). rewrite started_app, app_nil_r. split; auto. split; auto. intros j k Hj Hk.
      apply seen_app in Hk as [Hk|Hk]; auto. apply seen_one in Hk as ->. destruct HS as (j' & HS & ->). apply N3; auto. exists r. auto.
    - rewrite started_on_wait. auto. }
  assert (FL : length (finished (q_trace w1)) = S (length (finished (q_trace w)))) by (rewrite T1, finished_app, app_length; simpl; lia).
  destruct RR as [A B C].
  assert (KEEP : scored r [Finished i r o] = [] -> RI [] w1).
  { intros SE. constructor; rewrite ?R1; auto; [|rewrite T1, S1, started_app, app_nil_r; exact C]. intros y Hy. destruct (B y Hy) as (B1 & B2 & B3). rewrite T1, scored_app, started_app, !app_nil_r in *.
    split; auto. rewrite B1. symmetry. destruct (Nat.eq_dec (g_no y) r) as [->|NE]; [rewrite SE; apply app_nil_r|].
    replace (scored (g_no y) [Finished i r o]) with (@nil entry); [apply app_nil_r|]. simpl. destruct o as [|[|sc l] b]; auto.
    replace (r =? g_no y) with false; auto. symmetry. apply Nat.eqb_neq. auto. }
  destruct o as [|[|sc l] b]; cbn [record_result] in H.
  - injection H as <- <-. auto 10.
  - injection H as <- <-. split; auto. split; auto. right. split; auto. unfold has_score. rewrite <- Ho. auto.
  - unfold hbind, get_rungs in H. destruct (find (fun y => g_no y =? r) (q_rungs w1)) as [y|] eqn:EF.
    + injection H as <- <-. apply find_some in EF as (Hy & Er). apply Nat.eqb_eq in Er. rewrite R1 in Hy. split; [apply inv_rungs; auto|].
      split; [destruct O2; constructor; auto|]. simpl. split; auto. constructor; simpl; [rewrite set_rung_nos, R1; auto| |rewrite T1, S1, started_app, !app_nil_r; rewrite app_nil_r in C; exact C].
      intros z Hz. rewrite R1 in Hz. rewrite T1, scored_app, started_app, !app_nil_r. apply set_rung_in in Hz as [(-> & _)|(Hz1 & Hz2)]; simpl in *.
      * destruct (B y Hy) as (B1 & B2 & B3). rewrite app_nil_r in B3. rewrite Nat.eqb_refl, B1, Er. split; auto. split; [|rewrite B3, Er; auto].
        intros q Hq. apply in_or_app. left. rewrite <- Er, <- B1. auto.
      * destruct (B z Hz2) as (B1 & B2 & B3). rewrite app_nil_r in B3. replace (r =? g_no z) with false; [rewrite app_nil_r; auto|].
        symmetry. apply Nat.eqb_neq. auto.
    + exfalso. destruct HS as (j & HS & _). apply OR in HS. assert (HM : In r (map g_no (q_rungs w1))) by (rewrite R1, A; apply in_rev; rewrite rev_involutive; auto).
      apply in_map_iff in HM as (y & Ey & Hy). apply (find_none _ _ EF) in Hy. apply Nat.eqb_neq in Hy. auto.
Qed.
Lemma top_ok max_full w : RI [] w -> match top_below R max_full (q_rungs w) with
  | Err ex => ex = KeyError /\ bad_rungs
  | Ok b => match max_full with None => b = true | Some m => (0 <= R)%Z /\ (b = true <-> (Z.of_nat (length (scored (Z.to_nat R) (q_trace w))) < m)%Z) end
  end.
Proof.
  intros [A B _]. unfold top_below. destruct max_full as [m|]; auto.
  destruct (find (fun y => (Z.of_nat (g_no y) =? R)%Z) (q_rungs w)) as [y|] eqn:EF.
  - apply find_some in EF as (Hy & Er). apply Z.eqb_eq in Er. split; [lia|]. destruct (B y Hy) as (B1 & _). rewrite B1. replace (g_no y) with (Z.to_nat R) by lia. apply Z.ltb_lt.
  - split; auto. unfold bad_rungs. destruct (Z_lt_le_dec R (Z.of_nat f)) as [L|L]; auto. exfalso.
    assert (HM : In (Z.to_nat R) (map g_no (q_rungs w))) by (rewrite A; apply in_rev; rewrite rev_involutive; apply nums_in; lia).
    apply in_map_iff in HM as (y & Ey & Hy). apply (find_none _ _ EF) in Hy. simpl in Hy. apply Z.eqb_neq in Hy. lia.
Qed.
Lemma asha_turns_step max_full e es w : asha_turns ps mx eta f R max_full (e :: es) w =
  match top_below R max_full (q_rungs w) with
  | Err ex => (Err ex, w)
  | Ok false => (Ok tt, w)
  | Ok true => hbind (hbind (hwait e) record_result) (fun _ => hbind (start_new_job ps mx eta f R) (fun _ => asha_turns ps mx eta f R max_full es)) w
  end.
Proof.
  cbn [asha_turns]. destruct (top_below R max_full (q_rungs w)) as [[|]|]; auto. unfold hbind. destruct (hwait e w) as [[x|] w1]; auto.
Qed.
Definition calm_world (es : list event) : Prop := pset_rich ps /\ allows_one mx /\ (Z.of_nat f <= R)%Z /\ Forall has_score es.
Definition full (max_full : option Z) (w : hst) : Prop :=
  match max_full with None => False | Some m => (m <= Z.of_nat (length (scored (Z.to_nat R) (q_trace w))))%Z end.
Lemma asha_turns_ok max_full es : forall w x w', AInv w -> RI [] w -> OI w -> asha_turns ps mx eta f R max_full es w = (x, w') ->
  AInv w' /\ OI w' /\
  (calm_world es -> q_jobs w <> [] -> RI [] w' /\ length (q_jobs w') = length (q_jobs w) /\
     ((x = Ok tt /\ full max_full w') \/
      (x = Err Diverges /\ ~ full max_full w' /\ length (finished (q_trace w')) = length (finished (q_trace w)) + length es))).
Proof.
  induction es as [|e es IH]; intros w x w' I RR O H.
  - cbn [asha_turns] in H. pose proof (top_ok max_full w RR) as TO. unfold full. destruct (top_below R max_full (q_rungs w)) as [[|]|ex].
    + destruct (q_jobs w) eqn:EJ; injection H as <- <-; (split; [auto|split; [auto|]]); intros _ NJ; [congruence|]. rewrite EJ. split; auto. split; auto. right. split; auto.
      split; [|simpl; lia]. destruct max_full as [m|]; auto. destruct TO as (_ & TO). apply proj1 in TO. specialize (TO eq_refl). lia.
    + injection H as <- <-. split; auto. split; auto. intros _ NJ. split; auto. split; auto. left. split; auto. destruct max_full as [m|]; [|discriminate].
      destruct TO as (_ & TO). destruct (Z_lt_le_dec (Z.of_nat (length (scored (Z.to_nat R) (q_trace w)))) m) as [L|L]; auto. apply TO in L. discriminate.
    + injection H as <- <-. split; auto. split; auto. intros (_ & _ & BR & _). destruct TO as (_ & TO). unfold bad_rungs in TO. lia.
  - rewrite asha_turns_step in H. pose proof (top_ok max_full w RR) as TO. destruct (top_below R max_full (q_rungs w)) as [[|]|ex].
    + unfold hbind at 1 in H. destruct (hbind (hwait e) record_result w) as [y w1] eqn:E1.
      destruct (wait_record w e y w1 I RR O E1) as (I1 & O1 & Hy). destruct y as [[]|ex].
      2:{ injection H as <- <-. split; auto. split; auto. intros (_ & _ & _ & HS) NJ. exfalso. inversion HS; subst. destruct Hy as [(_ & Hy)|(_ & Hy)]; auto. }
      destruct Hy as (R1 & J1 & F1). unfold hbind in H. destruct (start_new_job ps mx eta f R w1) as [z w2] eqn:E2.
      destruct (start_job_ok w1 z w2 I1 R1 O1 E2) as (I2 & O2 & Q2 & F2 & Hz). destruct z as [[]|ex].
      2:{ injection H as <- <-. split; auto. split; auto. intros (C1 & C2 & C3 & _) NJ. exfalso. destruct Hz as [Hz|(_ & Hz)]; [eapply no_creation; eauto|unfold bad_rungs in Hz; lia]. }
      destruct Hz as (R2 & J2). destruct (IH w2 x w' I2 R2 O2 H) as (I3 & O3 & Hx). split; auto. split; auto.
      intros (C1 & C2 & C3 & HS) NJ. inversion HS; subst. destruct Hx as (R3 & J3 & Hx); [split; auto; split; auto|intros E; rewrite E in J2; discriminate|].
      split; auto. split; [lia|]. destruct Hx as [Hx|(Hx1 & Hx2 & Hx3)]; [auto|]. right. split; auto. split; auto. simpl. rewrite Hx3, F2, F1. lia.
    + injection H as <- <-. split; auto. split; auto. intros _ NJ. split; auto. split; auto. left. split; auto. unfold full. destruct max_full as [m|]; [|discriminate].
      destruct TO as (_ & TO). destruct (Z_lt_le_dec (Z.of_nat (length (scored (Z.to_nat R) (q_trace w)))) m) as [L|L]; auto. apply TO in L. discriminate.
    + injection H as <- <-. split; auto. split; auto. intros (_ & _ & BR & _). destruct TO as (_ & TO). unfold bad_rungs in TO. lia.
Qed.
Lemma asha_ok max_full es s x w' : wf_heap (s_heap s) -> Forall (good ps mx s) start ->
  asha ps mx eta f R max_full es (mkH s [] start [] [] []) = (x, w') ->
  AInv w' /\ OI w' /\
  (calm_world es -> RI [] w' /\ length (q_jobs w') = 8 /\
     ((x = Ok tt /\ full max_full w') \/
      (x = Err Diverges /\ ~ full max_full w' /\ length (finished (q_trace w')) = length es))).
Proof.
  intros W G H. unfold asha in H. unfold hbind at 1, set_rungs in H. cbn [q_st q_jobs q_start q_out q_trace] in H.
  set (w0 := mkH s [] start (empty_rungs f R) [] []) in *.
  assert (I0 : AInv w0).
  { constructor; simpl; auto.
    - intros i (r & [[]|(o & [])]).
    - intros t1 i r t2 H0. destruct t1; discriminate.
    - intros t1 i r o t2 H0. destruct t1; discriminate. }
  assert (R0 : RI [] w0).
  { constructor; simpl; unfold empty_rungs; [rewrite map_map; apply map_id| |exists []; rewrite app_nil_r; auto]. intros y Hy. apply in_map_iff in Hy as (n & <- & _). simpl. split; auto. split; auto. intros q []. }
  assert (O0 : OI w0).
  { constructor; simpl; [apply incl_refl|intros i r []| |].
    - intros ND. split; [constructor|]. split; auto. intros i j _ (r & [[]|(o & [])]).
    - exists (rev start), []. rewrite app_nil_r. auto. }
  unfold hbind in H. destruct (start_jobs ps mx eta f R 8 w0) as [y w1] eqn:E1. destruct (start_jobs_ok 8 w0 y w1 I0 R0 O0 E1) as (I1 & O1 & Q1 & F1 & Hy).
  destruct y as [[]|ex].
  2:{ injection H as <- <-. split; auto. split; auto. intros (C1 & C2 & C3 & _). exfalso. destruct Hy as [Hy|(_ & Hy)]; [eapply no_creation; eauto|unfold bad_rungs in Hy; lia]. }
  destruct Hy as (R1 & J1). destruct (asha_turns_ok max_full es w1 x w' I1 R1 O1 H) as (I2 & O2 & Hx). split; auto. split; auto.
  intros C. destruct (Hx C) as (R2 & J2 & M). { intros E. rewrite E in J1. discriminate. }
  split; auto. split; [rewrite J2, J1; reflexivity|]. rewrite F1 in M. exact M.
Qed.
End Asha.

(** Building the ensemble. *)
From Verif Require Import Base Num Num_Proofs Nsga_Model Lib_Model Ens_Model Ens_Spec Ens_Proofs.
Require Import Permutation.
Open Scope nat_scope.

Definition dict := list (nat * (mdl * nat)).
Lemma pop_spec k : forall (d : dict),
  match pop k d with
  | (Some x, r) => exists d1 d2, d = d1 ++ (k, x) :: d2 /\ r = d1 ++ d2
  | (None, r) => r = d /\ ~ In k (map fst d)
  end.
Proof.
  induction d as [|[i x] d IH]; simpl; auto. destruct (Nat.eqb_spec i k) as [-> |N].
  - exists [], d. auto.
  - destruct (pop k d) as [[y|] r].
    + destruct IH as (d1 & d2 & -> & ->). exists ((i, x) :: d1), d2. auto.
    + destruct IH as [-> H]. split; auto. intros [K|K]; auto.
Qed.
Lemma wsum_app a b : wsum (a ++ b) = wsum a + wsum b.
Proof. induction a; simpl; auto. unfold wsum in *. simpl. lia. Qed.
Lemma qsum_app a b : qsum (a ++ b) = (qsum a + qsum b)%Qc.
Proof. induction a as [|x a IH]; simpl; [ring|]. fold (qsum (a ++ b)). rewrite IH. fold (qsum a). ring. Qed.

(** The invariant of the dictionary of models. *)
Record dok (lib : list mdl) (d : dict) : Prop := mkDok {
  d_nodup : NoDup (map fst d);
  d_each : forall k m w, In (k, (m, w)) d -> k = m_id m /\ In m lib /\ 1 <= w }.
Lemma dok_nil lib : dok lib []. Proof. constructor; [constructor|intros ? ? ? []]. Qed.

(** Weighted sums over the members. *)
Definition dsum (f : mdl -> Qc) (d : dict) : Qc := qsum (map (fun x => (f (fst (snd x)) * qn (snd (snd x)))%Qc) d).
Lemma add_model_weight (lib : list mdl) m d : wsum (weights (add_model m d)) = wsum (weights d) + 1.
Proof.
  unfold add_model. pose proof (pop_spec (m_id m) d) as P. destruct (pop (m_id m) d) as [[[m0 w]|] r].
  - destruct P as (d1 & d2 & -> & ->). unfold weights. rewrite !map_app, !wsum_app. unfold wsum. simpl. lia.
  - destruct P as [-> P]. unfold weights. rewrite map_app, wsum_app. simpl. lia.
Qed.
Lemma add_model_dok lib m d : dok lib d -> In m lib -> dok lib (add_model m d).
Proof.
  intros [N E] Hm. unfold add_model. pose proof (pop_spec (m_id m) d) as P. destruct (pop (m_id m) d) as [[[m0 w]|] r].
  - destruct P as (d1 & d2 & -> & ->). destruct (E (m_id m) m0 w) as (K & L & W); [apply in_or_app; simpl; auto|].
    rewrite <- K. constructor.
    + rewrite map_app in N. simpl in N. rewrite !map_app. simpl. apply NoDup_remove in N as [N1 N2].
      apply (Permutation_NoDup (l := m_id m :: map fst d1 ++ map fst d2)).
      * apply Permutation_cons_append.
      * constructor; auto.
    + intros k m' w' H. apply in_app_or in H as [H|[H|[]]].
      * apply E. apply in_or_app. apply in_app_or in H as [H|H]; simpl; auto.
      * injection H as <- <- <-. repeat split; auto. lia.
  - destruct P as [-> P]. constructor.
    + rewrite map_app. simpl. apply (Permutation_NoDup (l := m_id m :: map fst d)).
      * apply Permutation_cons_append.
      * constructor; auto.
    + intros k m' w' H. apply in_app_or in H as [H|[H|[]]]; [apply E; auto|]. injection H as <- <- <-. repeat split; auto.
Qed.
Lemma nodup_id lib a b : NoDup (map m_id lib) -> In a lib -> In b lib -> m_id a = m_id b -> a = b.
Proof.
  induction lib as [|x lib IH]; simpl; intros N Ha Hb E; [destruct Ha|]. inversion N; subst.
  destruct Ha as [-> |Ha], Hb as [-> |Hb]; auto.
  - destruct H1. rewrite E. apply in_map; auto.
  - destruct H1. rewrite <- E. apply in_map; auto.
Qed.
Lemma qn1 : qn 1 = 1%Qc. Proof. apply Qc_is_canon. reflexivity. Qed.
Lemma add_model_dsum lib m d f : dok lib d -> In m lib -> NoDup (map m_id lib) ->
  dsum f (add_model m d) = (f m + dsum f d)%Qc.
Proof.
  intros [N E] Hm U. unfold add_model. pose proof (pop_spec (m_id m) d) as P. destruct (pop (m_id m) d) as [[[m0 w]|] r].
  - destruct P as (d1 & d2 & -> & ->). destruct (E (m_id m) m0 w) as (K & L & W); [apply in_or_app; simpl; auto|].
    assert (m0 = m) by (apply (nodup_id lib); auto). subst m0.
    unfold dsum. rewrite !map_app, !qsum_app. cbn [map qsum fold_right fst snd].
    fold (qsum (map (fun x : nat * (mdl * nat) => (f (fst (snd x)) * qn (snd (snd x)))%Qc) d2)).
    rewrite qn_add, qn1, ?map_app, ?qsum_app. ring.
  - destruct P as [-> P]. unfold dsum. rewrite map_app, qsum_app. cbn [map qsum fold_right fst snd]. rewrite qn_add, qn1, qn_0.
    ring.
Qed.
Lemma weight_of_perm k a b : Permutation a b -> weight_of k a = weight_of k b.
Proof.
  intros P. unfold weight_of. induction P; simpl; auto.
  - destruct (_ =? k); simpl; unfold wsum in *; simpl; auto.
  - destruct (m_id (fst y) =? k), (m_id (fst x) =? k); unfold wsum; simpl; lia.
  - congruence.
Qed.
Lemma weight_of_cons k m w a : weight_of k ((m, w) :: a) = (if k =? m_id m then w else 0) + weight_of k a.
Proof. unfold weight_of. simpl. rewrite (Nat.eqb_sym k). destruct (m_id m =? k); simpl; auto. Qed.
Lemma add_model_weight_of lib m d k : dok lib d ->
  weight_of k (map snd (add_model m d)) = weight_of k (map snd d) + (if k =? m_id m then 1 else 0).
Proof.
  intros [N E]. unfold add_model. pose proof (pop_spec (m_id m) d) as P. destruct (pop (m_id m) d) as [[[m0 w]|] r].
  - destruct P as (d1 & d2 & -> & ->). destruct (E (m_id m) m0 w) as (K & L & W); [apply in_or_app; simpl; auto|].
    rewrite (weight_of_perm k _ ((m0, w + 1) :: map snd (d1 ++ d2))).
    2:{ rewrite map_app. simpl. apply Permutation_sym, Permutation_cons_append. }
    rewrite (weight_of_perm k (map snd (d1 ++ (m_id m, (m0, w)) :: d2)) ((m0, w) :: map snd (d1 ++ d2))).
    2:{ rewrite !map_app. simpl. apply Permutation_sym, Permutation_middle. }
    rewrite !weight_of_cons, <- K. destruct (k =? m_id m); lia.
  - destruct P as [-> P]. rewrite (weight_of_perm k _ ((m, 0 + 1) :: map snd d)).
    2:{ rewrite map_app. simpl. apply Permutation_sym, Permutation_cons_append. }
    rewrite weight_of_cons. destruct (k =? m_id m); lia.
Qed.

(** The average of the members. *)
Definition pairs (d : dict) : list (mat * nat) := tables (map snd d).
Lemma pairs_weights d : map snd (pairs d) = weights d.
Proof. unfold pairs, tables, weights. rewrite !map_map. reflexivity. Qed.
Lemma pairs_sum d i j : qsum (map (fun pw => (at_ (fst pw) i j * qn (snd pw))%Qc) (pairs d)) = dsum (fun m => at_ (table m) i j) d.
Proof. unfold pairs, tables, dsum. rewrite !map_map. reflexivity. Qed.
Lemma pred_pairs_ok r c lib d : dok lib d -> Forall (usable r c) lib ->
  pred_pairs d = Ok (pairs d) /\ Forall (fun pw => shape r c (fst pw)) (pairs d).
Proof.
  intros [_ E] U. rewrite Forall_forall in U. induction d as [|[k [m w]] d IH]; [split; [reflexivity|constructor]|].
  destruct IH as [I1 I2]; [intros; apply E; simpl; auto|].
  destruct (E k m w) as (_ & Hm & _); [simpl; auto|]. destruct (U m Hm) as (p & Ep & Sp).
  unfold pred_pairs in *. cbn [rmap fst snd]. rewrite Ep. cbn [rbind]. rewrite I1. cbn [rbind]. unfold pairs, tables. cbn [map fst snd]. rewrite Ep.
  split; [reflexivity|]. constructor; auto.
Qed.
Lemma average_ok r c lib d : dok lib d -> Forall (usable r c) lib -> d <> [] ->
  exists a, average d = Ok a /\ is_mean r c (pairs d) a.
Proof.
  intros D U N. destruct (pred_pairs_ok r c lib d D U) as [E F].
  destruct (mean_ok r c (pairs d)) as (a & Ea & Ma); auto.
  { unfold pairs, tables. destruct d; simpl; congruence. }
  exists a. split; auto. unfold average. rewrite E. exact Ea.
Qed.
Lemma add_model_mean r c lib m d a : dok lib d -> In m lib -> NoDup (map m_id lib) ->
  is_mean r c (pairs (add_model m d)) a <-> is_mean r c ((table m, 1) :: pairs d) a.
Proof.
  intros D Hm U.
  assert (W : wsum (map snd (pairs (add_model m d))) = wsum (map snd ((table m, 1) :: pairs d))).
  { rewrite pairs_weights, (add_model_weight lib). cbn [map snd]. rewrite pairs_weights. unfold wsum. simpl. lia. }
  unfold is_mean. rewrite W.
  assert (S : forall i j, qsum (map (fun pw => (at_ (fst pw) i j * qn (snd pw))%Qc) (pairs (add_model m d))) =
    qsum (map (fun pw => (at_ (fst pw) i j * qn (snd pw))%Qc) ((table m, 1) :: pairs d))).
  { intros i j. rewrite pairs_sum, (add_model_dsum lib) by auto. cbn [map fst snd qsum fold_right].
    fold (qsum (map (fun pw => (at_ (fst pw) i j * qn (snd pw))%Qc) (pairs d))). rewrite pairs_sum, qn1. ring. }
  split; intros [A B]; split; auto; intros i j Hi Hj; rewrite B by auto; rewrite S; reflexivity.
Qed.
Lemma wsum_pos lib d : dok lib d -> d <> [] -> 0 < wsum (weights d).
Proof.
  intros [_ E] N. destruct d as [|[k [m w]] d]; [congruence|]. destruct (E k m w) as (_ & _ & W); [simpl; auto|].
  unfold weights, wsum. simpl. lia.
Qed.

(** The scan over the library finds a best addition. *)
Lemma nlt_nle a b : nltb a b = true -> nle a b.
Proof. unfold nle. destruct a, b; simpl; auto. unfold qltb. intros H. apply negb_true_iff in H.
  destruct (Qle_bool q q0) eqn:E; auto. exfalso. assert (~ (q <= q0)%Q) by (intros K; apply Qle_bool_iff in K; congruence).
  assert (~ (q0 <= q)%Q) by (intros K; apply Qle_bool_iff in K; congruence). destruct (Qlt_le_dec q q0) as [L|L]; auto.
  apply Qlt_le_weak in L. auto. Qed.
Lemma nle_of_not_lt a b : b <> NaN -> a <> NaN -> nltb a b = false -> nle b a.
Proof. unfold nle. destruct a, b; simpl; try congruence; auto. unfold qltb. intros _ _ H. apply negb_false_iff in H. auto. Qed.
Lemma nle_trans a b c : nle a b -> nle b c -> nle a c.
Proof. unfold nle. destruct a, b, c; simpl; try congruence; auto. rewrite !Qle_bool_iff. apply Qle_trans. Qed.
Lemma nle_refl a : a <> NaN -> nle a a.
Proof. unfold nle. destruct a; simpl; try congruence; auto. rewrite Qle_bool_iff. intros; apply Qle_refl. Qed.
Lemma nlt_nnan x : nlt NInf x -> x <> NaN. Proof. intros H ->. discriminate. Qed.

Section Scan.
Context (r c : nat) (score : mat -> res num) (l : list (mat * nat)) (avg : mat).
Hypothesis HW : 0 < wsum (map snd l).
Hypothesis HM : is_mean r c l avg.
Hypothesis HS : scores r c score.

(** [x] is the score of the mean with [m] added. *)
Definition gives (m : mdl) (x : num) : Prop := exists a, is_mean r c ((table m, 1) :: l) a /\ score a = Ok x.
Lemma gives_fun m x y : gives m x -> gives m y -> x = y.
Proof. intros (a & A & Ea) (b & B & Eb). assert (a = b) by (apply (mean_unique r c _ _ _ A B)). congruence. Qed.
Lemma scan_ok : forall lib best bs, Forall (usable r c) lib -> bs <> NaN ->
  exists best' bs', scan score lib avg (wsum (map snd l)) best bs = Ok (best', bs') /\ bs' <> NaN /\ nle bs bs' /\
    (best' = best /\ bs' = bs \/ exists m, In m lib /\ best' = Some m /\ gives m bs') /\
    (forall m, In m lib -> exists x, gives m x /\ nle x bs') /\
    (lib <> [] -> bs = NInf -> exists m, In m lib /\ best' = Some m /\ gives m bs').
Proof.
  induction lib as [|m lib IH]; intros best bs U NN; cbn [scan].
  - exists best, bs. repeat split; auto; [apply nle_refl; auto|intros ? []|congruence].
  - inversion U as [|? ? (p & Ep & Sp) U']; subst. rewrite Ep.
    destruct HM as [Sa Na]. destruct (mzip_ok Qcminus p avg r c Sp Sa) as (d & Ed & Sd & Nd). rewrite Ed. cbn [rbind].
    destruct (mzip_ok Qcplus avg (mmap (fun x => (x / qn (wsum (map snd l) + 1))%Qc) d) r c Sa (shape_mmap _ _ _ _ Sd)) as (q & Eq & Sq & Nq).
    rewrite Eq. cbn [rbind]. destruct (HS q Sq) as (x & Ex & Lx). rewrite Ex. cbn [rbind].
    assert (G : gives m x).
    { exists q. split; auto. unfold table. rewrite Ep. apply (mean_incr r c l avg p d); auto. }
    pose proof (nlt_nnan _ Lx) as Nx.
    destruct (nltb bs x) eqn:E.
    + destruct (IH (Some m) x U' Nx) as (b' & s' & Es & N1 & N2 & N3 & N4 & N5). exists b', s'.
      assert (Q : exists m0, In m0 (m :: lib) /\ b' = Some m0 /\ gives m0 s').
      { destruct N3 as [[-> ->]|(m0 & A & B & C)]; [exists m|exists m0]; simpl; auto. }
      repeat split; auto.
      * apply nle_trans with x; auto. apply nlt_nle; auto.
      * intros m0 [<- |H0]; auto. exists x; auto.
    + destruct (IH best bs U' NN) as (b' & s' & Es & N1 & N2 & N3 & N4 & N5). exists b', s'. repeat split; auto.
      * destruct N3 as [N3|(m0 & A & B & C)]; auto. right. exists m0. simpl; auto.
      * intros m0 [<- |H0]; auto. exists x. split; auto. apply nle_trans with bs; auto. apply nle_of_not_lt; auto.
      * intros _ ->. rewrite Lx in E. discriminate.
Qed.
End Scan.

(** expand_ensemble. *)
Section Expand.
Context (raw : list entry) (tr : option (mat -> res mat)) (smp : option (list nat)) (score : mat -> res num).
Context (r c : nat) (lib : list mdl).
Hypothesis HF : fill tr smp raw [] = (lib, Ok tt).
Hypothesis HN : lib <> [].
Hypothesis HU : Forall (usable r c) lib.
Hypothesis HS : scores r c score.

(** The cached library is empty or complete. *)
Definition cached (s : ens) : Prop := e_lib s = [] \/ e_lib s = lib.
Lemma model_library_ok s : cached s -> model_library raw tr smp s = (set_lib lib s, Ok lib).
Proof.
  intros [E|E]; unfold model_library.
  - rewrite E, HF. reflexivity.
  - rewrite E. destruct lib; [congruence|]. f_equal. destruct s. unfold set_lib. simpl in *. subst. auto.
Qed.
Lemma expand_loop_ok : forall n best s d,
  cached s -> e_models s = Some d -> dok lib d -> d <> [] ->
  exists s' d', expand_loop raw tr smp score n best s = (s', Ok tt) /\ cached s' /\ e_models s' = Some d' /\ dok lib d' /\ d' <> [] /\
    e_fit s' = e_fit s /\ wsum (weights d') = wsum (weights d) + n /\
    (NoDup (map m_id lib) -> greedy_run r c score lib n (map snd d) (e_score s) (map snd d') (e_score s')).
Proof.
  induction n as [|n IH]; intros best s d C E D N; cbn [expand_loop].
  - exists s, d. do 6 (split; [auto|]). split; [lia|]. intros _. constructor.
  - rewrite E. destruct (average_ok r c lib d D HU N) as (avg & Ea & Ma). rewrite Ea, (model_library_ok s C).
    rewrite total_wsum. pose proof (wsum_pos lib d D N) as WP. rewrite <- pairs_weights in WP.
    destruct (scan_ok r c score (pairs d) avg WP Ma HS lib best NInf HU) as (b' & x & Es & N1 & N2 & N3 & N4 & N5); [congruence|].
    rewrite pairs_weights in Es. rewrite Es. destruct (N5 HN eq_refl) as (m & Hm & -> & G).
    set (s1 := set_score x (set_models (add_model m d) (set_lib lib s))).
    destruct (IH (Some m) s1 (add_model m d)) as (s' & d' & A1 & A2 & A3 & A4 & A5 & A6 & A7 & A8).
    { right. reflexivity. } { reflexivity. } { apply add_model_dok; auto. }
    { unfold add_model. destruct (pop (m_id m) d) as [[[? ?]|] ?]; destruct l; discriminate. }
    exists s', d'. do 6 (split; [auto|]). split.
    { rewrite A7, (add_model_weight lib). lia. }
    intros U. apply greedy_cons with (map snd (add_model m d)) x; [|exact (A8 U)].
    exists m. split; auto. split; [intros k; apply (add_model_weight_of lib); auto|]. split.
    + intros a Ha. destruct G as (a' & Ma' & Sa'). assert (a = a'); [|congruence].
      apply (add_model_mean r c lib m d a D Hm U) in Ha. apply (mean_unique r c _ _ _ Ha Ma').
    + intros m' a y Hm' Ha Sy. destruct (N4 m' Hm') as (z & Gz & Lz). replace y with z; auto.
      apply (gives_fun r c score (pairs d) m'); auto. exists a. auto.
Qed.
Lemma fold_add_ok : forall ms d, dok lib d -> incl ms lib ->
  dok lib (fold_left (fun d m => add_model m d) ms d) /\
  wsum (weights (fold_left (fun d m => add_model m d) ms d)) = wsum (weights d) + length ms /\
  forall k, weight_of k (map snd (fold_left (fun d m => add_model m d) ms d)) =
    weight_of k (map snd d) + count_occ Nat.eq_dec (map m_id ms) k.
Proof.
  induction ms as [|m ms IH]; intros d D I; simpl; [split; [exact D|]; split; intros; lia|].
  destruct (IH (add_model m d)) as (A & B & C); [apply add_model_dok; auto; apply I; simpl; auto|intros x Hx; apply I; simpl; auto|].
  split; auto. split; [rewrite B, (add_model_weight lib); lia|]. intros k. rewrite C, (add_model_weight_of lib) by auto.
  destruct (Nat.eq_dec (m_id m) k) as [E|E].
  - rewrite E, Nat.eqb_refl. lia.
  - destruct (Nat.eqb_spec k (m_id m)); [congruence|]. lia.
Qed.
Lemma build_initial_ok n : (0 < n)%Z ->
  exists s d, build_initial raw tr smp score n new_ens = (s, Ok tt) /\ cached s /\ e_models s = Some d /\ dok lib d /\ d <> [] /\
    wsum (weights d) = Nat.min (Z.to_nat n) (length lib) /\ initial (Z.to_nat n) lib (map snd d) /\
    e_score s = NInf /\ e_fit s = None.
Proof.
  intros P. unfold build_initial. destruct (Z.leb_spec n 0); [lia|]. cbn [new_ens e_models].
  rewrite (model_library_ok new_ens (or_introl eq_refl)).
  destruct (fold_add_ok (firstn (Z.to_nat n) lib) [] (dok_nil lib)) as (A & B & CO).
  { intros x Hx. rewrite <- (firstn_skipn (Z.to_nat n)). apply in_or_app; auto. }
  rewrite firstn_length in B. change (wsum (weights [])) with 0 in B.
  set (d := fold_left (fun d m => add_model m d) (firstn (Z.to_nat n) lib) []) in *.
  assert (ND : d <> []).
  { intros K. rewrite K in B. change (wsum (weights [])) with 0 in B. destruct lib; [congruence|]. simpl in B. lia. }
  destruct (average_ok r c lib d A HU ND) as (avg & Ea & Ma). destruct Ma as [Sa _]. destruct (HS avg Sa) as (x & Ex & _).
  set (s := set_models d (set_lib lib new_ens)).
  exists s, d. split.
  - assert (Q : (s, do a <- average d; do _ <- score a; Ok tt) = (s, Ok tt)) by (rewrite Ea; cbn [rbind]; rewrite Ex; reflexivity).
    destruct (firstn (Z.to_nat n) lib) eqn:F; exact Q.
  - split; [right; reflexivity|]. split; [reflexivity|]. split; [auto|]. split; [auto|]. split; [auto|].
    split; [intros i; rewrite CO; reflexivity|]. auto.
Qed.
Lemma expand_ok n s d : (0 < n)%Z -> cached s -> e_models s = Some d -> dok lib d -> d <> [] ->
  exists s' d', expand raw tr smp score n s = (s', Ok tt) /\ cached s' /\ e_models s' = Some d' /\ dok lib d' /\ d' <> [] /\
    e_fit s' = e_fit s /\ wsum (weights d') = wsum (weights d) + Z.to_nat n /\
    (NoDup (map m_id lib) -> greedy_run r c score lib (Z.to_nat n) (map snd d) (e_score s) (map snd d') (e_score s')).
Proof. intros P. unfold expand. destruct (Z.leb_spec n 0); [lia|]. apply expand_loop_ok. Qed.
(** Everything before fitting. *)
Lemma build_ok size left :
  exists s d, build_fit raw tr smp score size left new_ens = fit left s /\ cached s /\ e_models s = Some d /\ dok lib d /\ d <> [] /\
    wsum (weights d) = Z.to_nat (Z.max size 1) /\ e_fit s = None /\
    (NoDup (map m_id lib) -> exists ms0, initial (if (size <=? 10)%Z then 1 else 10) lib ms0 /\
       greedy_run r c score lib (Z.to_nat (size - Z.of_nat (total_weight ms0))) ms0 NInf (map snd d) (e_score s)).
Proof.
  set (k := (if (size <=? 10)%Z then 1 else 10)%Z). assert (KP : (0 < k)%Z) by (unfold k; destruct (size <=? 10)%Z; lia).
  destruct (build_initial_ok k KP) as (s1 & d1 & E1 & C1 & M1 & D1 & N1 & W1 & I1 & S1 & F1).
  assert (KE : Z.to_nat k = if (size <=? 10)%Z then 1 else 10) by (unfold k; destruct (size <=? 10)%Z; auto). rewrite KE in I1.
  assert (TW : total_weight (map snd d1) = Nat.min (Z.to_nat k) (length lib)).
  { rewrite <- W1. unfold total_weight, weights. rewrite map_map. reflexivity. }
  unfold build_fit. fold k. rewrite E1, M1, total_wsum, W1.
  assert (LP : length lib <> 0) by (destruct lib; simpl; congruence).
  destruct (Z.ltb_spec 0 (size - Z.of_nat (Nat.min (Z.to_nat k) (length lib)))) as [L|L].
  - destruct (expand_ok _ s1 d1 L C1 M1 D1 N1) as (s2 & d2 & E2 & C2 & M2 & D2 & N2 & F2 & W2 & G).
    rewrite E2. exists s2, d2. do 5 (split; [auto|]). split; [|split; [congruence|]].
    + rewrite W2, W1. unfold k in *. destruct (Z.leb_spec size 10); lia.
    + intros U. exists (map snd d1). split; auto. rewrite TW, <- S1. auto.
  - exists s1, d1. do 5 (split; [auto|]). split; [|split; [auto|]].
    + rewrite W1. unfold k in *. destruct (Z.leb_spec size 10); lia.
    + intros U. exists (map snd d1). split; auto. rewrite TW, S1.
      replace (Z.to_nat _) with 0 by lia. constructor.
Qed.
End Expand.

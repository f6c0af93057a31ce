From Verif Require Import Base Num Num_Proofs Nsga_Model Nsga_Spec Nsga_Proofs Nsga_Proofs2 Nsga_Proofs3.
Require Import Permutation Sorting Lqa.
Open Scope nat_scope.

Definition good (d : num) : Prop := d = PInf \/ exists q, d = Fin q /\ (0 <= q)%Q.
Lemma good_nadd d e : good d -> good e -> good (nadd d e).
Proof.
  intros [->|(q & -> & Hq)] [->|(r & -> & Hr)]; simpl; unfold good; auto.
  right. exists (q + r)%Q. split; auto. lra.
Qed.

Section Crowd.
Variable I : list nat.
Hypothesis ND : NoDup I.
Hypothesis NE : I <> [].

Lemma crowd_fold : forall l I0 ms,
  Permutation I I0 -> (forall p, In p I -> p < length ms) ->
  (forall m p, In m l -> In p I -> value_at ms m p <> NaN) ->
  (forall p, In p I -> good (m_dist (get ms p))) ->
  exists I1 ms1, fold_left crowd_metric l (I0, ms) = (I1, ms1) /\
    same_but_dist ms ms1 /\ (forall p, ~ In p I -> get ms1 p = get ms p) /\
    (forall p, In p I -> good (m_dist (get ms1 p))) /\
    (forall p, In p I -> m_dist (get ms p) = PInf -> m_dist (get ms1 p) = PInf) /\
    (forall m, In m l -> exists lo hi, smallest ms I m lo /\ largest ms I m hi /\
       m_dist (get ms1 lo) = PInf /\ m_dist (get ms1 hi) = PInf) /\
    (forall p, In p I -> m_dist (get ms1 p) = PInf ->
       m_dist (get ms p) = PInf \/ exists m, In m l /\ (smallest ms I m p \/ largest ms I m p)) /\
    ((forall m p, In m l -> In p I -> exists q, value_at ms m p = Fin q) ->
     forall p d0, In p I -> m_dist (get ms p) = Fin d0 -> m_dist (get ms1 p) <> PInf ->
       exists ds t, Forall2 (fun m d => relative_gap (value_at ms m) I p d) l ds /\
         m_dist (get ms1 p) = Fin t /\ (t == d0 + qsum ds)%Q).
Proof.
  induction l as [|m l IH]; intros I0 ms PM HL HV HG.
  - exists I0, ms. simpl. repeat split; auto.
    + intros m [].
    + intros _ p d0 Hp Hd _. exists [], d0. repeat split; auto. simpl. lra.
  - cbn [fold_left].
    destruct (crowd_metric_ok m I ms I0) as (I1 & ms1 & E1 & PM1 & SB & OUT & lo & hi & SM & LG & Plo & Phi & REST);
      auto; [intros; apply HV; simpl; auto|].
    rewrite E1.
    assert (VE : forall m' p, value_at ms1 m' p = value_at ms m' p) by (intros; apply sbd_value; auto).
    assert (ORD : forall a, In a I -> nle (value_at ms m lo) (value_at ms m a) /\ nle (value_at ms m a) (value_at ms m hi)).
    { intros a Ha. split; [apply SM; auto|apply LG; auto]. }
    assert (G1 : forall p, In p I -> good (m_dist (get ms1 p))).
    { intros p Hp. destruct (Nat.eq_dec p lo) as [->|]; [left; auto|]. destruct (Nat.eq_dec p hi) as [->|]; [left; auto|].
      destruct (REST p Hp) as [[H _]|(Hg & a & c & Ia & Ic & La & Lc & Na & Nc & _ & H)]; auto.
      - rewrite H. auto.
      - rewrite H. apply good_nadd; auto.
        apply orb_false_iff in Hg as [Hg H3]. apply orb_false_iff in Hg as [H1 H2].
        destruct (delta_nonneg ms m lo hi c a) as (d & Ed & Hd); auto; [apply ORD; auto|eapply nle_trans; eauto|apply ORD; auto|].
        right. eauto. }
    destruct (IH I1 ms1) as (I2 & ms2 & E2 & SB2 & OUT2 & G2 & P2 & EX2 & INF2 & GAP2); auto.
    { destruct SB as [SB0 _]. rewrite SB0. auto. }
    { intros. rewrite VE. apply HV; simpl; auto. }
    assert (SMe : forall m' p, smallest ms1 I m' p <-> smallest ms I m' p).
    { intros m' p. unfold smallest. split; intros [H1 H2]; split; auto; intros q Hq; specialize (H2 q Hq); rewrite !VE in *; auto. }
    assert (LGe : forall m' p, largest ms1 I m' p <-> largest ms I m' p).
    { intros m' p. unfold largest. split; intros [H1 H2]; split; auto; intros q Hq; specialize (H2 q Hq); rewrite !VE in *; auto. }
    assert (PP : forall p, In p I -> m_dist (get ms p) = PInf -> m_dist (get ms1 p) = PInf).
    { intros p Hp Hd. destruct (Nat.eq_dec p lo) as [->|]; [auto|]. destruct (Nat.eq_dec p hi) as [->|]; [auto|].
      destruct (REST p Hp) as [[H _]|(Hg & a & c & Ia & Ic & La & Lc & Na & Nc & _ & H)]; auto; [congruence|].
      rewrite H, Hd.
      apply orb_false_iff in Hg as [Hg H3]. apply orb_false_iff in Hg as [H1 H2].
      destruct (delta_nonneg ms m lo hi c a) as (d & Ed & Hd'); auto; [apply ORD; auto|eapply nle_trans; eauto|apply ORD; auto|].
      rewrite Ed. auto. }
    exists I2, ms2. split; auto. split; [|split; [|split; [|split; [|split; [|split]]]]]; auto.
    + destruct SB as [A1 A2], SB2 as [B1 B2]. split; [congruence|]. intros p. destruct (A2 p), (B2 p). split; congruence.
    + intros p Hp. rewrite OUT2, OUT; auto.
    + intros m' [<-|Hm'].
      * exists lo, hi. split; auto. split; auto. split; apply P2; auto; [apply SM|apply LG].
      * destruct (EX2 m' Hm') as (lo' & hi' & H1 & H2 & H3 & H4). exists lo', hi'. rewrite <- SMe, <- LGe. auto.
    + intros p Hp Hd. destruct (INF2 p Hp Hd) as [H|(m' & Hm & H)].
      * destruct (Nat.eq_dec p lo) as [->|Nlo]; [right; exists m; simpl; auto|].
        destruct (Nat.eq_dec p hi) as [->|Nhi]; [right; exists m; simpl; auto|].
        left. destruct (REST p Hp) as [[H' _]|(Hg & a & c & Ia & Ic & La & Lc & Na & Nc & _ & H')]; auto; [congruence|].
        rewrite H' in H.
        apply orb_false_iff in Hg as [Hg H3]. apply orb_false_iff in Hg as [H1 H2].
        destruct (delta_nonneg ms m lo hi c a) as (d & Ed & Hd'); auto; [apply ORD; auto|eapply nle_trans; eauto|apply ORD; auto|].
        rewrite Ed in H. destruct (HG p Hp) as [->|(q & Eq & _)]; auto. rewrite Eq in H. discriminate.
      * right. exists m'. rewrite <- SMe, <- LGe. simpl; auto.
    + intros FIN p d0 Hp Hd Hinf.
      assert (N1 : m_dist (get ms1 p) <> PInf) by (intros H; apply Hinf, P2; auto).
      assert (Nlo : p <> lo) by (intros ->; auto). assert (Nhi : p <> hi) by (intros ->; auto).
      assert (FV : forall x, In x I -> exists q, value_at ms m x = Fin q) by (intros; apply FIN; simpl; auto).
      destruct (FV lo) as [vlo Elo]; [apply SM|]. destruct (FV hi) as [vhi Ehi]; [apply LG|].
      assert (HX : exists d d1, relative_gap (value_at ms m) I p d /\ m_dist (get ms1 p) = Fin d1 /\ (d1 == d0 + d)%Q).
      { destruct (REST p Hp) as [[H Hg]|(Hg & a & c & Ia & Ic & La & Lc & Na & Nc & NB & H)]; auto.
        - exists 0%Q, d0. split; [|split; [congruence|lra]].
          rewrite Elo, Ehi in Hg. simpl in Hg. rewrite !orb_false_r in Hg. apply Qeq_bool_iff in Hg.
          exists lo, hi, vlo, vhi. repeat split; auto; try apply SM; try apply LG. left. split; auto. lra.
        - destruct (FV a Ia) as [va Ea]. destruct (FV c Ic) as [vc Ec].
          unfold delta in H. rewrite Elo, Ehi, Ea, Ec, Hd in H. simpl in H.
          exists ((vc - va) / (vhi - vlo))%Q. eexists. split; [|split; [exact H|reflexivity]].
          exists lo, hi, vlo, vhi. repeat split; auto; try apply SM; try apply LG. right.
          assert (Hlh : nle (value_at ms m lo) (value_at ms m hi)) by exact (proj1 (ORD hi (proj1 LG))).
          rewrite Elo, Ehi in Hg, Hlh. simpl in Hg. rewrite !orb_false_r in Hg. unfold nle in Hlh. simpl in Hlh.
          apply Qle_bool_iff in Hlh.
          assert (~ (vhi == vlo)%Q) by (intros E; apply Qeq_bool_iff in E; congruence).
          split; [lra|]. exists a, c, va, vc. repeat split; auto.
          intros q Hq Hqp. destruct (NB q Hq) as [?|[?|?]]; auto. congruence. }
      destruct HX as (d & d1 & HR & Ed1 & Hs).
      destruct (GAP2 ltac:(intros; rewrite VE; apply FIN; simpl; auto) p d1 Hp Ed1 Hinf) as (ds & t & F2 & Et & Ht).
      exists (d :: ds), t. split; [|split; auto].
      * constructor; auto.
        assert (forall l' ds', Forall2 (fun m d => relative_gap (value_at ms1 m) I p d) l' ds' -> Forall2 (fun m d => relative_gap (value_at ms m) I p d) l' ds') as HH.
        { induction 1 as [|m' d' l' ds' Hr _ IHF]; constructor; auto.
          unfold relative_gap, smallest_in, largest_in in *.
          destruct Hr as (lo' & hi' & vl & vh & H). exists lo', hi', vl, vh.
          setoid_rewrite VE in H. exact H. }
        auto.
      * simpl. rewrite Ht, Hs. lra.
Qed.
End Crowd.

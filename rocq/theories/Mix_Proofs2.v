(** Proofs for C153-C155: reports and what happened. *)
Require Import Permutation.
From Verif Require Import Base Num Gp_Model Gp_Spec Evo_Model Evo_Spec Rnd_Model Rnd_Spec End_Model End_Spec Mix_Model Mix_Spec Mix_Proofs.
Open Scope nat_scope.
Open Scope list_scope.

Lemma asha_length R t : length (asha_reports R t) = length (results t).
Proof. induction t as [|[i r|i r [|sc b]] t IH]; simpl; auto. Qed.
Lemma result_at_cons x t k i r sc b : result_at (x :: t) k i r sc b <->
  (x = Finished i r (Evaluated sc b) /\ k = 0) \/ (exists k', result_at t k' i r sc b /\ k = length (results [x]) + k').
Proof.
  split.
  - intros (t1 & t2 & E & K). destruct t1 as [|x' t1]; [injection E as -> ->; auto|]. injection E as <- ->. right. exists (length (results t1)). split; [exists t1, t2; auto|].
    rewrite K. destruct x as [|? ? []]; reflexivity.
  - intros [(-> & ->)|(k' & (t1 & t2 & -> & ->) & ->)]; [exists [], t; auto|]. exists (x :: t1), t2. split; auto. destruct x as [|? ? []]; reflexivity.
Qed.
Lemma asha_good R t : forall k i sc, good_at (asha_reports R t) k i sc <-> exists r, Z.of_nat r = R /\ result_at t k i r sc false.
Proof.
  induction t as [|x t IH]; intros k i sc.
  - unfold good_at. simpl. split; [destruct k; discriminate|]. intros (r & _ & t1 & t2 & E & _). destruct t1; discriminate.
  - assert (SK : results [x] = [] -> (asha_reports R (x :: t) = asha_reports R t)) by (destruct x as [|? ? []]; simpl; auto; discriminate).
    destruct x as [j q|j q [|sc' b]].
    + unfold good_at in *. rewrite SK, IH by auto. split; intros (r & HR & H); exists r; split; auto; [apply result_at_cons; right; exists k; auto|].
      apply result_at_cons in H as [(H & _)|(k' & H & ->)]; [discriminate|auto].
    + unfold good_at in *. rewrite SK, IH by auto. split; intros (r & HR & H); exists r; split; auto; [apply result_at_cons; right; exists k; auto|].
      apply result_at_cons in H as [(H & _)|(k' & H & ->)]; [discriminate|auto].
    + unfold good_at in *. cbn [asha_reports flat_map app]. fold (asha_reports R t). destruct k as [|k]; cbn [nth_error].
      * split.
        -- unfold evaluate_on_rung, reported. cbn [p_error p_ind p_scores]. destruct b; [discriminate|]. destruct (Z.eqb_spec (Z.of_nat q) R); [|discriminate].
           intros [= <- <-]. exists q. split; auto. apply result_at_cons. auto.
        -- intros (r & HR & H). apply result_at_cons in H as [(H & _)|(k' & _ & E)]; [|discriminate]. injection H as -> -> -> ->.
           unfold evaluate_on_rung, reported. cbn [p_error]. rewrite HR, Z.eqb_refl. reflexivity.
      * rewrite IH. split; intros (r & HR & H); exists r; split; auto; [apply result_at_cons; right; exists k; auto|].
        apply result_at_cons in H as [(_ & E)|(k' & H & E)]; [discriminate|]. injection E as ->. auto.
Qed.
Lemma rs_asha t : (forall i r o, In (Finished i r o) t -> r = 0) -> rs_reports t = asha_reports 0 t.
Proof.
  intros H. unfold rs_reports, asha_reports. rewrite !flat_map_concat_map. f_equal. apply map_ext_in. intros [i r|i r [|sc b]] Hx; auto.
  rewrite (H i r _ Hx). unfold evaluate_on_rung, reported. cbn [p_error]. destruct b; reflexivity.
Qed.
Lemma rs_good t k i sc : (forall i r o, In (Finished i r o) t -> r = 0) -> good_at (rs_reports t) k i sc <-> exists r, result_at t k i r sc false.
Proof.
  intros H. rewrite rs_asha, asha_good by auto. split; intros (r & Hr); exists r; [tauto|]. split; auto.
  destruct Hr as (t1 & t2 & -> & _). rewrite (H i r (Evaluated sc false)); auto. apply in_or_app. right. left. auto.
Qed.
Lemma asha_nodup R t : NoDup (map key (finished t)) -> NoDup (map (fun p => i_id (p_ind p)) (filter fine (asha_reports R t))).
Proof.
  assert (IN : forall t n, In n (map (fun p => i_id (p_ind p)) (filter fine (asha_reports R t))) -> In (n, Z.to_nat R) (map key (finished t))).
  { clear. induction t as [|[i r|i r [|sc b]] t IH]; intros n H; simpl in *; auto.
    unfold evaluate_on_rung, reported, fine in H. cbn [p_error] in H. destruct b; cbn [p_error] in H; auto.
    destruct (Z.eqb_spec (Z.of_nat r) R) as [<-|N]; cbn [p_error p_ind map] in H; auto. destruct H as [<-|H]; auto. left. unfold key. rewrite Nat2Z.id. reflexivity. }
  induction t as [|[i r|i r [|sc b]] t IH]; simpl; intros H; auto; try constructor.
  - apply NoDup_cons_iff in H. tauto.
  - apply NoDup_cons_iff in H as [NI H]. unfold evaluate_on_rung, reported, fine at 1. cbn [p_error]. destruct b; cbn [p_error]; auto.
    destruct (Z.eqb_spec (Z.of_nat r) R) as [E|N]; cbn [p_error p_ind map]; auto. constructor; auto. intros K. apply IN in K. apply NI. unfold key at 1. cbn [fst snd].
    rewrite <- (Nat2Z.id r), E. auto.
Qed.
Lemma asha_numeric R t : Forall numeric (results t) -> Forall (fun p => Forall (fun x => x <> NaN) (p_scores p)) (asha_reports R t).
Proof.
  induction t as [|[i r|i r [|sc b]] t IH]; simpl; intros H; auto. inversion H as [|? ? H1 H2]; subst. constructor; auto.
  unfold evaluate_on_rung, reported. cbn [p_error]. destruct b; cbn [p_scores]; auto. destruct (Z.eqb _ _); auto.
Qed.

(** * The evolutionary search *)
Lemma collected_at_cons x t k i sc b : collected_at (x :: t) k i sc b <->
  (x = Collected i (Evaluated sc b) /\ k = 0) \/ (exists k', collected_at t k' i sc b /\ k = n_completed [x] + k').
Proof.
  split.
  - intros (t1 & t2 & E & K). destruct t1 as [|x' t1]; [injection E as -> ->; auto|]. injection E as <- ->. right. exists (n_completed t1). split; [exists t1, t2; auto|].
    rewrite K. destruct x as [| |? []|]; reflexivity.
  - intros [(-> & ->)|(k' & (t1 & t2 & -> & ->) & ->)]; [exists [], t; auto|]. exists (x :: t1), t2. split; auto. destruct x as [| |? []|]; reflexivity.
Qed.
Lemma ea_good t : forall k i sc, good_at (ea_reports t) k i sc <-> collected_at t k i sc false.
Proof.
  induction t as [|x t IH]; intros k i sc.
  - unfold good_at. simpl. split; [destruct k; discriminate|]. intros (t1 & t2 & E & _). destruct t1; discriminate.
  - rewrite collected_at_cons.
    assert (SK : n_completed [x] = 0 -> good_at (ea_reports (x :: t)) k i sc <-> (x = Collected i (Evaluated sc false) /\ k = 0) \/ (exists k', collected_at t k' i sc false /\ k = n_completed [x] + k')).
    { intros E. replace (ea_reports (x :: t)) with (ea_reports t) by (destruct x as [| |? []|]; simpl in *; auto; discriminate). rewrite IH, E. split; [right; exists k; auto|].
      intros [(-> & _)|(k' & H & ->)]; [discriminate|auto]. }
    destruct x as [| |j [|sc' b]|]; auto. unfold good_at in *. cbn [ea_reports flat_map app]. fold (ea_reports t). destruct k as [|k]; cbn [nth_error].
    + split.
      * unfold reported. destruct b; [discriminate|]. intros [= -> ->]. auto.
      * intros [(H & _)|(k' & _ & E)]; [|discriminate]. injection H as -> -> ->. reflexivity.
    + rewrite IH. split; [right; exists k; auto|]. intros [(_ & E)|(k' & H & E)]; [discriminate|]. injection E as ->. auto.
Qed.
Lemma ea_nodup t : NoDup (map i_id (collected t)) -> NoDup (map (fun p => i_id (p_ind p)) (filter fine (ea_reports t))).
Proof.
  assert (IN : forall t n, In n (map (fun p => i_id (p_ind p)) (filter fine (ea_reports t))) -> In n (map i_id (collected t))).
  { clear. induction t as [|[| |i [|sc b]|] t IH]; intros n H; simpl in *; auto. unfold reported, fine in H. cbn [p_error] in H. destruct b; cbn [map p_ind] in H; auto.
    destruct H as [<-|H]; auto. }
  induction t as [|[| |i [|sc b]|] t IH]; simpl; intros H; auto; try constructor.
  - apply NoDup_cons_iff in H. tauto.
  - apply NoDup_cons_iff in H as [NI H]. unfold reported, fine at 1. cbn [p_error]. destruct b; cbn [map p_ind]; auto. constructor; auto.
Qed.
(** No score of a completed evaluation is NaN. *)
Lemma ea_numeric t : (forall k i sc b, collected_at t k i sc b -> Forall (fun x => x <> NaN) sc) -> Forall (fun p => Forall (fun x => x <> NaN) (p_scores p)) (ea_reports t).
Proof.
  intros H. apply Forall_forall. intros p Hp. unfold ea_reports in Hp. apply in_flat_map in Hp as (x & Hx & Hp). destruct x as [| |i [|sc b]|]; simpl in Hp; try contradiction.
  destruct Hp as [<-|[]]. simpl. apply in_split in Hx as (t1 & t2 & ->). apply (H (n_completed t1) i sc b). exists t1, t2. auto.
Qed.

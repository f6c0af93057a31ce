(** ASHA reaches its top rung. *)
Require Import ZArith Lia Permutation.
From Verif Require Import Base Num Gp_Model Gp_Spec Evo_Model Evo_Spec Rnd_Model Rnd_Spec Rnd_Proofs Rnd_Proofs2 Rnd_Proofs3 Top_Spec.
Open Scope nat_scope.
Open Scope list_scope.

(** * Counting in traces *)
Definition finished_on (r : nat) (t : list hitem) : nat := length (filter (fun p => snd p =? r) (finished t)).
Lemma lost_app t1 t2 : lost (t1 ++ t2) = lost t1 + lost t2.
Proof. induction t1 as [|[i r|i r [|[|z sc] b]] t IH]; cbn; auto; rewrite IH; auto. Qed.
Lemma finished_scored r t : finished_on r t <= length (scored r t) + lost t.
Proof.
  unfold finished_on. induction t as [|[i r'|i r' o] t IH]; [auto|exact IH|].
  assert (S1 : scored r (Finished i r' o :: t) = scored r [Finished i r' o] ++ scored r t) by (unfold scored; cbn; rewrite app_nil_r; auto).
  rewrite S1, app_length. cbn [finished filter snd]. destruct o as [|[|z sc] b]; cbn; destruct (r' =? r); cbn in *; lia.
Qed.
Lemma keyed_on r (l : list (individual * nat)) : length (filter (fun p => snd p =? r) l) = length (filter (fun p => snd p =? r) (map key l)).
Proof. induction l as [|[i r'] l IH]; cbn; auto. destruct (r' =? r); cbn; auto. Qed.
Lemma perm_filter {A} (g : A -> bool) l l' : Permutation l l' -> length (filter g l) = length (filter g l').
Proof. induction 1; cbn; auto; [destruct (g x); cbn; auto|destruct (g x), (g y); cbn; auto|congruence]. Qed.
Lemma filter_le {A} (g : A -> bool) l : length (filter g l) <= length l.
Proof. induction l as [|a l IH]; cbn; auto. destruct (g a); cbn; lia. Qed.
(** A sum over rungs. *)
Fixpoint total (g : nat -> nat) (k a : nat) : nat := match k with O => 0 | S k' => g a + total g k' (S a) end.
Lemma total_ext g h : forall k a, (forall r, g r = h r) -> total g k a = total h k a.
Proof. induction k as [|k IH]; intros a H; cbn; auto. Qed.
Lemma total_add g h : forall k a, total (fun r => g r + h r) k a = total g k a + total h k a.
Proof. induction k as [|k IH]; intros a; cbn; auto. rewrite IH. lia. Qed.
Lemma total_zero : forall k a, total (fun _ => 0) k a = 0.
Proof. induction k as [|k IH]; intros a; cbn; auto. Qed.
Lemma total_one x : forall k a, In x (seq a k) -> total (fun r => if x =? r then 1 else 0) k a = 1.
Proof.
  induction k as [|k IH]; intros a [].
  - subst a. cbn. rewrite Nat.eqb_refl. assert (Z : forall n b, x < b -> total (fun r => if x =? r then 1 else 0) n b = 0).
    { induction n as [|n IHn]; intros b L; cbn; auto. rewrite IHn by lia. destruct (Nat.eqb_spec x b); lia. } rewrite Z; auto.
  - cbn. rewrite IH; auto. apply in_seq in H. destruct (Nat.eqb_spec x a); lia.
Qed.
Lemma total_scored k a t : (forall i r o, In (Finished i r o) t -> In r (seq a k)) -> total (fun r => length (scored r t)) k a + lost t = length (finished t).
Proof.
  induction t as [|[i r'|i r' o] t IH]; intros H; [cbn; rewrite total_zero; auto| |].
  - apply IH. intros. eapply H. right. eauto.
  - assert (IH' := IH ltac:(intros; eapply H; right; eauto)). clear IH.
    rewrite (total_ext _ (fun r => length (scored r [Finished i r' o]) + length (scored r t))) by (intros r; rewrite <- app_length; unfold scored; cbn; rewrite app_nil_r; auto).
    rewrite total_add. change (finished (Finished i r' o :: t)) with ((i, r') :: finished t). cbn [length].
    destruct o as [|[|z sc] b]; cbn [lost]; try (rewrite (total_ext _ (fun _ => 0)) by auto; rewrite total_zero; lia).
    rewrite (total_ext _ (fun r => if r' =? r then 1 else 0)) by (intros r; cbn; destruct (r' =? r); auto). rewrite total_one by (eapply H; left; auto). lia.
Qed.
(** The same from the top rung downwards. *)
Fixpoint total_down (g : nat -> nat) (k top : nat) : nat := g (top - k) + match k with O => 0 | S k' => total_down g k' top end.
Lemma total_down_eq g : forall k top, k <= top -> total g (S k) (top - k) = total_down g k top.
Proof.
  induction k as [|k IH]; intros top L; [cbn; auto|]. change (total g (S (S k)) (top - S k)) with (g (top - S k) + total g (S k) (S (top - S k))).
  replace (S (top - S k)) with (top - k) by lia. rewrite IH by lia. auto.
Qed.
(** * Nothing may be promoted, whenever a job has been started *)
Section Asha.
Context (ps : pset) (mx : option Z) (eta f : nat) (R : Z) (start : list individual).
Notation AInv := (Inv ps mx (asha_allowed eta f R start)).
Notation RI := (RI f R start).
Notation OI := (OI f R start).
Hypothesis ETA : 0 < eta.
Hypothesis ND : NoDup (map i_id start).
Definition settled (t : list hitem) : Prop := forall r, f <= r -> (Z.of_nat r < R)%Z -> length (scored r t) / eta <= length (started_on (S r) t).
Lemma div_more a : S a / eta <= S (a / eta).
Proof.
  destruct (Nat.eq_dec eta 1) as [->|N]; [rewrite !Nat.div_1_r; auto|]. replace (S a) with (a + 1) by lia.
  assert (a + 1 <= a + 1 * eta) by nia. pose proof (Nat.div_le_mono (a + 1) (a + 1 * eta) eta ltac:(lia) H) as K. rewrite Nat.div_add in K by lia. lia.
Qed.
Lemma scored_fin r t i r' o : length (scored r (t ++ [Finished i r' o])) = length (scored r t) \/ (r' = r /\ length (scored r (t ++ [Finished i r' o])) = S (length (scored r t))).
Proof.
  rewrite scored_app, app_length. cbn. destruct o as [|[|z sc] b]; cbn; auto. destruct (Nat.eqb_spec r' r); cbn; auto. right. split; auto. lia.
Qed.
Lemma settled_next t i r o j q : settled t -> asha_allowed eta f R start (t ++ [Finished i r o]) j q -> (Z.of_nat q <= R)%Z -> settled (t ++ [Finished i r o; Started j q]).
Proof.
  intros ST A LQ r0 L1 L2. pose proof (ST r0 L1 L2) as S0. change [Finished i r o; Started j q] with ([Finished i r o] ++ [Started j q]). rewrite app_assoc, scored_app, app_nil_r, started_on_snoc, app_length.
  destruct A as [(-> & _ & NP)|(r' & -> & L3 & _ & L4 & _)].
  - specialize (NP ND r0 L1 L2). unfold promotable in NP. lia.
  - rewrite !started_on_wait in *. destruct (scored_fin r0 t i r o) as [->|[-> E]]; [lia|]. rewrite E in *. pose proof (div_more (length (scored r0 t))) as D.
    destruct (Nat.eqb_spec (S r') (S r0)) as [EQ|NE]; [cbn; lia|]. exfalso.
    destruct (scored_fin r' t i r0 o) as [E'|[-> E']]; [|congruence]. rewrite E' in L4.
    specialize (ST r' L3 ltac:(lia)). assert (K : S (length (started_on (S r') t)) <= length (scored r' t) / eta) by (apply Nat.div_le_lower_bound; lia). lia.
Qed.
Lemma settled_empty t : finished t = [] -> settled t.
Proof.
  intros E r _ _. assert (Z : scored r t = []).
  { clear - E. induction t as [|[i q|i q o] t IH]; [auto|exact (IH E)|discriminate]. }
  rewrite Z. cbn. rewrite Nat.div_0_l by lia. lia.
Qed.
Lemma record_trace w e w1 : AInv w -> hbind (hwait e) record_result w = (Ok tt, w1) -> exists i r o, q_trace w1 = q_trace w ++ [Finished i r o].
Proof.
  intros I H. unfold hbind in H. destruct (hwait e w) as [y w0] eqn:E1. destruct (wait_inv_h ps mx _ w e y w0 I E1) as (_ & _ & _ & _ & _ & Hy).
  destruct y as [[[i r] o]|ex]; [|discriminate]. destruct Hy as (_ & T1 & _). exists i, r, o. rewrite <- T1. clear - H.
  destruct o as [|[|z sc] b]; cbn [record_result] in H; [injection H as <-; auto|discriminate|]. unfold hbind, get_rungs in H. destruct (find _ _); [|discriminate]. injection H as <-. auto.
Qed.
Lemma start_trace w w2 : AInv w -> RI [] w -> OI w -> start_new_job ps mx eta f R w = (Ok tt, w2) -> exists i r, q_trace w2 = q_trace w ++ [Started i r].
Proof.
  intros I RR O H. unfold start_new_job, hbind in H. destruct (get_job ps mx eta f w) as [y w1] eqn:E1. destruct (get_job_ok ps mx eta f R start w y w1 I RR O E1) as (_ & T1 & _).
  destruct y as [[i r]|ex]; [|discriminate]. cbn [fst snd] in H. destruct (existsb (Nat.eqb r) (rung_numbers f R)); [|discriminate]. exists i, r. rewrite <- T1. unfold hsubmit in H. injection H as <-. auto.
Qed.
(** The results so far are not too many, as long as the top rung has fewer than [m] scores. *)
Lemma settled_bound w m : AInv w -> OI w -> settled (q_trace w) -> length (q_jobs w) <= 8 -> (Z.of_nat f <= R)%Z ->
  (Z.of_nat (length (scored (Z.to_nat R) (q_trace w))) < m)%Z ->
  length (finished (q_trace w)) < results_needed eta (lost (q_trace w)) (Z.to_nat m) (Z.to_nat R - f).
Proof.
  intros I O ST J8 LR LM. set (t := q_trace w) in *. set (top := Z.to_nat R) in *.
  assert (FIN : forall r, length (started_on r t) <= finished_on r t + 8).
  { intros r. unfold started_on, finished_on. rewrite map_length, !keyed_on, (perm_filter _ _ _ (h_perm _ _ _ w I)), filter_app, app_length. fold t.
    apply Nat.add_le_mono_l. eapply Nat.le_trans; [apply filter_le|]. rewrite map_length. auto. }
  assert (SC : forall k, k <= top - f -> length (scored (top - k) t) < scores_needed eta (lost t) (Z.to_nat m) k).
  { induction k as [|k IH]; intros L; cbn [scores_needed]; [rewrite Nat.sub_0_r; lia|]. specialize (IH ltac:(lia)).
    pose proof (ST (top - S k) ltac:(lia) ltac:(lia)) as K. replace (S (top - S k)) with (top - k) in K by lia. pose proof (FIN (top - k)) as K1. pose proof (finished_scored (top - k) t) as K2.
    set (a := length (scored (top - S k) t)) in *. set (b := scores_needed eta (lost t) (Z.to_nat m) k) in *. assert (K3 : a / eta < b + 8 + lost t) by lia.
    eapply Nat.lt_le_trans; [apply (Nat.mul_succ_div_gt a eta); lia|]. apply Nat.mul_le_mono_l. lia. }
  assert (NUM : forall i r o, In (Finished i r o) t -> In r (seq f (S (top - f)))).
  { intros i r o H. apply in_split in H as (t1 & t2 & E). destruct (h_answers _ _ _ w I _ _ _ _ _ E) as (j & ss & Hj & _). assert (IJ : In (Started j r) (q_trace w)) by (fold t; rewrite E; apply in_or_app; auto).
    apply (oi_rungs _ _ _ w O), (nums_in f R) in IJ. apply in_seq. lia. }
  pose proof (total_scored _ _ _ NUM) as TS. assert (ET : f = top - (top - f)) by lia. rewrite ET in TS at 2. rewrite total_down_eq in TS by lia.
  assert (BB : forall k, k <= top - f -> total_down (fun r => length (scored r t)) k top + lost t < results_needed eta (lost t) (Z.to_nat m) k).
  { induction k as [|k IH]; intros L; pose proof (SC _ L) as K; cbn [total_down results_needed]; [lia|]. specialize (IH ltac:(lia)). lia. }
  specialize (BB (top - f) ltac:(lia)). lia.
Qed.
Lemma needed_mono m : forall k a b, a <= b -> results_needed eta a m k <= results_needed eta b m k.
Proof.
  assert (SM : forall k a b, a <= b -> scores_needed eta a m k <= scores_needed eta b m k).
  { induction k as [|k IH]; intros a b L; cbn [scores_needed]; auto. apply Nat.mul_le_mono_l. specialize (IH a b L). lia. }
  induction k as [|k IH]; intros a b L; cbn [results_needed]; pose proof (SM 0 a b L); [cbn in *; lia|]. specialize (IH a b L). pose proof (SM (S k) a b L). lia.
Qed.
Lemma asha_turns_bound m es : forall w x w', AInv w -> RI [] w -> OI w -> settled (q_trace w) -> length (q_jobs w) = 8 -> calm_world ps mx f R es ->
  length (finished (q_trace w)) <= results_needed eta (lost (q_trace w)) (Z.to_nat m) (Z.to_nat R - f) ->
  asha_turns ps mx eta f R (Some m) es w = (x, w') ->
  length (finished (q_trace w')) <= results_needed eta (lost (q_trace w')) (Z.to_nat m) (Z.to_nat R - f) /\
  (x <> Ok tt -> length (finished (q_trace w')) < results_needed eta (lost (q_trace w')) (Z.to_nat m) (Z.to_nat R - f)).
Proof.
  induction es as [|e es IH]; intros w x w' I RR O ST J C B H; pose proof C as (C1 & C2 & C3 & C4); pose proof (top_ok f R start (Some m) w RR) as TO.
  - cbn [asha_turns] in H. destruct (top_below R (Some m) (q_rungs w)) as [[|]|ex].
    + destruct TO as (_ & TO). pose proof (settled_bound w m I O ST ltac:(lia) C3 (proj1 TO eq_refl)). destruct (q_jobs w); injection H as <- <-; split; auto.
    + injection H as <- <-. split; auto. congruence.
    + exfalso. destruct TO as (_ & TO). unfold bad_rungs in TO. lia.
  - rewrite asha_turns_step in H. destruct (top_below R (Some m) (q_rungs w)) as [[|]|ex].
    + destruct TO as (_ & TO). pose proof (settled_bound w m I O ST ltac:(lia) C3 (proj1 TO eq_refl)) as LT. clear TO.
      unfold hbind at 1 in H. destruct (hbind (hwait e) record_result w) as [y w1] eqn:E1. destruct (wait_record ps mx eta f R start w e y w1 I RR O E1) as (I1 & O1 & Hy). destruct y as [[]|ex].
      2:{ exfalso. inversion C4; subst. destruct Hy as [(_ & Hy)|(_ & Hy)]; auto. rewrite Hy in J. discriminate. }
      destruct Hy as (R1 & J1 & F1). destruct (record_trace w e w1 I E1) as (i & r & o & T1).
      unfold hbind in H. destruct (start_new_job ps mx eta f R w1) as [z w2] eqn:E2. destruct (start_job_ok ps mx eta f R start w1 z w2 I1 R1 O1 E2) as (I2 & O2 & Q2 & F2 & Hz). destruct z as [[]|ex].
      2:{ exfalso. destruct Hz as [Hz|(_ & Hz)]; [eapply no_creation; eauto|unfold bad_rungs in Hz; lia]. }
      destruct Hz as (R2 & J2). destruct (start_trace w1 w2 I1 R1 O1 E2) as (j & q & T2). assert (T3 : q_trace w2 = q_trace w ++ [Finished i r o; Started j q]) by (rewrite T2, T1, <- app_assoc; auto).
      assert (ST2 : settled (q_trace w2)).
      { rewrite T3. apply settled_next; auto.
        - rewrite <- T1. apply (h_items _ _ _ w2 I2 (q_trace w1) j q []). auto.
        - assert (In q (rung_numbers f R)) by (apply (oi_rungs _ _ _ w2 O2 j); rewrite T2; apply in_or_app; right; left; auto). apply nums_in in H0. lia. }
      apply (IH w2 x w' I2 R2 O2 ST2); auto; [lia|split; auto; split; auto; split; auto; inversion C4; auto|].
      rewrite F2, F1. assert (LO : lost (q_trace w) <= lost (q_trace w2)) by (rewrite T3, lost_app; lia). pose proof (needed_mono (Z.to_nat m) (Z.to_nat R - f) _ _ LO). lia.
    + injection H as <- <-. split; auto. congruence.
    + exfalso. destruct TO as (_ & TO). unfold bad_rungs in TO. lia.
Qed.
(** Whatever [max_full] is, when the loop is left nothing may be promoted. *)
Lemma asha_turns_settled mf es : forall w x w', AInv w -> RI [] w -> OI w -> settled (q_trace w) -> length (q_jobs w) = 8 -> calm_world ps mx f R es ->
  asha_turns ps mx eta f R mf es w = (x, w') -> AInv w' /\ OI w' /\ settled (q_trace w') /\ length (q_jobs w') = 8.
Proof.
  induction es as [|e es IH]; intros w x w' I RR O ST J C H; pose proof C as (C1 & C2 & C3 & C4).
  - cbn [asha_turns] in H. assert (EW : w' = w) by (destruct (top_below R mf (q_rungs w)) as [[|]|ex]; [destruct (q_jobs w)| |]; injection H as _ <-; auto). subst w'. auto.
  - rewrite asha_turns_step in H. destruct (top_below R mf (q_rungs w)) as [[|]|ex]; [|injection H as <- <-; auto..].
    unfold hbind at 1 in H. destruct (hbind (hwait e) record_result w) as [y w1] eqn:E1. destruct (wait_record ps mx eta f R start w e y w1 I RR O E1) as (I1 & O1 & Hy). destruct y as [[]|ex].
    2:{ exfalso. inversion C4; subst. destruct Hy as [(_ & Hy)|(_ & Hy)]; auto. rewrite Hy in J. discriminate. }
    destruct Hy as (R1 & J1 & F1). destruct (record_trace w e w1 I E1) as (i & r & o & T1).
    unfold hbind in H. destruct (start_new_job ps mx eta f R w1) as [z w2] eqn:E2. destruct (start_job_ok ps mx eta f R start w1 z w2 I1 R1 O1 E2) as (I2 & O2 & Q2 & F2 & Hz). destruct z as [[]|ex].
    2:{ exfalso. destruct Hz as [Hz|(_ & Hz)]; [eapply no_creation; eauto|unfold bad_rungs in Hz; lia]. }
    destruct Hz as (R2 & J2). destruct (start_trace w1 w2 I1 R1 O1 E2) as (j & q & T2). assert (T3 : q_trace w2 = q_trace w ++ [Finished i r o; Started j q]) by (rewrite T2, T1, <- app_assoc; auto).
    assert (ST2 : settled (q_trace w2)).
    { rewrite T3. apply settled_next; auto.
      - rewrite <- T1. apply (h_items _ _ _ w2 I2 (q_trace w1) j q []). auto.
      - assert (In q (rung_numbers f R)) by (apply (oi_rungs _ _ _ w2 O2 j); rewrite T2; apply in_or_app; right; left; auto). apply nums_in in H0. lia. }
    apply (IH w2 x w' I2 R2 O2 ST2); auto; [lia|split; auto; split; auto; split; auto; inversion C4; auto].
Qed.
End Asha.
Lemma asha_first ps mx eta f R start s : wf_heap (s_heap s) -> Forall (good ps mx s) start ->
  Inv ps mx (asha_allowed eta f R start) (mkH s [] start (empty_rungs f R) [] []) /\ RI f R start [] (mkH s [] start (empty_rungs f R) [] []) /\ OI f R start (mkH s [] start (empty_rungs f R) [] []).
Proof.
  intros W G. split; [|split].
  - constructor; simpl; auto.
    + intros i (r & [[]|(o & [])]).
    + intros t1 i r t2 H0. destruct t1; discriminate.
    + intros t1 i r o t2 H0. destruct t1; discriminate.
  - constructor; simpl; unfold empty_rungs; [rewrite map_map; apply map_id| |exists []; rewrite app_nil_r; auto]. intros y Hy. apply in_map_iff in Hy as (n & <- & _). simpl. split; auto. split; auto. intros q [].
  - constructor; simpl; [apply incl_refl|intros i r []| |].
    + intros ND. split; [constructor|]. split; auto. intros i j _ (r & [[]|(o & [])]).
    + exists (rev start), []. rewrite app_nil_r. auto.
Qed.
Section Whole.
Context (ps : pset) (mx : option Z) (eta f : nat) (R : Z).
Hypothesis ETA : 0 < eta.
Lemma asha_bound m start es s x w : NoDup (map i_id start) -> wf_heap (s_heap s) -> Forall (good ps mx s) start -> calm_world ps mx f R es ->
  asha ps mx eta f R (Some m) es (mkH s [] start [] [] []) = (x, w) ->
  length (finished (q_trace w)) <= results_needed eta (lost (q_trace w)) (Z.to_nat m) (Z.to_nat R - f) /\
  (x <> Ok tt -> length (finished (q_trace w)) < results_needed eta (lost (q_trace w)) (Z.to_nat m) (Z.to_nat R - f)).
Proof.
  intros ND W G C H. unfold asha in H. unfold hbind at 1, set_rungs in H. cbn [q_st q_jobs q_start q_out q_trace] in H.
  destruct (asha_first ps mx eta f R start s W G) as (I0 & R0 & O0).
  set (w0 := mkH s [] start (empty_rungs f R) [] []) in *.
  unfold hbind in H. destruct (start_jobs ps mx eta f R 8 w0) as [y w1] eqn:E1. destruct (start_jobs_ok ps mx eta f R start 8 w0 y w1 I0 R0 O0 E1) as (I1 & O1 & Q1 & F1 & Hy).
  destruct y as [[]|ex].
  - destruct Hy as (R1 & J1). apply (asha_turns_bound ps mx eta f R start ETA ND m es w1 x w I1 R1 O1); auto.
    + apply settled_empty; auto.
    + rewrite F1. cbn. lia.
  - exfalso. destruct C as (C1 & C2 & C3 & _). destruct Hy as [Hy|(_ & Hy)]; [eapply no_creation; eauto|unfold bad_rungs in Hy; lia].
Qed.
Lemma asha_reaches mf m start es s x w : NoDup (map i_id start) -> wf_heap (s_heap s) -> Forall (good ps mx s) start -> calm_world ps mx f R es ->
  asha ps mx eta f R mf es (mkH s [] start [] [] []) = (x, w) ->
  (Z.of_nat (length (scored (Z.to_nat R) (q_trace w))) < m)%Z -> length (finished (q_trace w)) < results_needed eta (lost (q_trace w)) (Z.to_nat m) (Z.to_nat R - f).
Proof.
  intros ND W G C H. unfold asha in H. unfold hbind at 1, set_rungs in H. cbn [q_st q_jobs q_start q_out q_trace] in H.
  destruct (asha_first ps mx eta f R start s W G) as (I0 & R0 & O0).
  set (w0 := mkH s [] start (empty_rungs f R) [] []) in *.
  unfold hbind in H. destruct (start_jobs ps mx eta f R 8 w0) as [y w1] eqn:E1. destruct (start_jobs_ok ps mx eta f R start 8 w0 y w1 I0 R0 O0 E1) as (I1 & O1 & Q1 & F1 & Hy).
  destruct y as [[]|ex].
  - destruct Hy as (R1 & J1). destruct (asha_turns_settled ps mx eta f R start ETA ND mf es w1 x w I1 R1 O1) as (I2 & O2 & ST & J); auto; [apply settled_empty; auto|].
    intros LM. eapply settled_bound; eauto; [lia|apply C].
  - exfalso. destruct C as (C1 & C2 & C3 & _). destruct Hy as [Hy|(_ & Hy)]; [eapply no_creation; eauto|unfold bad_rungs in Hy; lia].
Qed.
End Whole.

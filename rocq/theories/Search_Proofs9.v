(** ASHA with a number of full evaluations ends after exactly so many. *)
From Verif Require Import Base Num Nsga_Model Search_Model Search_Spec Search_Proofs Search_Proofs3 Search_Proofs4 Search_Proofs6.
Open Scope nat_scope.
Lemma t_conj {A} P P' (m : M A) Q Q' E E' : triple P m Q E -> triple P' m Q' E' ->
  triple (fun w => P w /\ P' w) m (fun a w => Q a w /\ Q' a w) (fun e w => E e w /\ E' e w).
Proof. intros H1 H2 w [A1 A2]. specialize (H1 w A1). specialize (H2 w A2). destruct (m w) as [[a|e] w']; auto. Qed.

Section Full.
Context (o : ops) (eta : nat) (min_res max_res : Q) (first_rung : nat) (max_rung : Z) (start : nat).
Notation I := (I eta min_res max_res first_rung max_rung).
Notation EI := (EI eta min_res max_res first_rung max_rung).
Definition cnt (T : list item) : nat := length (results_on (Z.to_nat max_rung) T).
Definition Kc (c : nat) (R : list rung) (J : list job) (T : list item) : Prop := cnt T <= c.
Definition ET (_ : exn) (_ : world) : Prop := True.
Lemma ET_any {P : world -> Prop} : forall e w, P w -> ET e w. Proof. intros; exact Logic.I. Qed.
Lemma Kc_quiet c R J T x : (match x with TDone _ _ _ => False | _ => True end) -> Kc c R J T -> forall R' J', Kc c R' J' (T ++ [x]).
Proof. unfold Kc, cnt. intros Q H R' J'. rewrite results_app, app_length. destruct x; try contradiction; simpl; lia. Qed.
Lemma c_promote c : forall l, triple (ona (Kc c)) (promote_from eta l) (fun _ => ona (Kc c)) ET.
Proof.
  induction l as [|r l IH]; cbn [promote_from]; [apply t_ret; auto|]. destruct (_ <? _); [|exact IH]. destruct (not_promoted r) as [|y s]; [exact IH|].
  eapply t_bind; [apply a_random, ET_any|]. intros x. eapply t_bind; [apply a_get|]. intros all.
  eapply t_bind; [eapply a_note with (K' := Kc c); intros R J T [H _]; eapply Kc_quiet; eauto; exact Logic.I|]. intros ?.
  eapply t_bind; [eapply a_put with (K' := Kc c); intros R J T H; exact H|]. intros ?. eapply t_bind; [apply a_tick, ET_any|]. intros ?. apply t_ret; auto.
Qed.
Lemma c_start c : triple (ona (Kc c)) (start_new_job o eta min_res max_res first_rung max_rung start) (fun _ => ona (Kc c)) ET.
Proof.
  unfold start_new_job. eapply t_bind; [apply a_tick, ET_any|]. intros ?. eapply t_bind with (R := fun _ => ona (Kc c)).
  { unfold get_job. eapply t_bind; [apply a_get|]. intros all. eapply t_bind with (R := fun _ => ona (Kc c)).
    { eapply t_pre; [|apply c_promote]. intros w [H _]. exact H. }
    intros [j|]; [apply t_ret; auto|]. eapply t_bind; [apply a_read|]. intros l. destruct (rev l) as [|i l'].
    - eapply t_bind with (R := fun _ => ona (Kc c)); [|intros i; apply t_ret; auto].
      unfold new_individual. eapply t_bind; [apply a_random, ET_any|]. intros ?. apply a_fresh.
    - eapply t_bind; [apply a_write|]. intros ?. eapply t_bind; [apply a_tick, ET_any|]. intros ?. apply t_ret; auto. }
  intros j. destruct (existsb _ _); [|apply t_fail, ET_any]. eapply t_bind; [apply a_tick, ET_any|]. intros ?.
  apply a_submit. intros R J T H. eapply Kc_quiet; eauto; exact Logic.I.
Qed.
Lemma c_starts c n : triple (ona (Kc c)) (start_jobs o eta min_res max_res first_rung max_rung start n) (fun _ => ona (Kc c)) ET.
Proof. induction n; cbn [start_jobs]; [apply t_ret; auto|]. eapply t_bind; [apply c_start|auto]. Qed.
Lemma c_wait c : triple (ona (Kc c)) wait_next (fun _ => ona (Kc (S c))) ET.
Proof.
  apply (a_wait _ _ (fun _ => Kc (S c))).
  - apply ET_any.
  - unfold Kc, cnt. intros j J1 J2 R T oc H. rewrite results_app, app_length. simpl. destruct (j_rung j) as [n|]; simpl; [|lia].
    destruct oc as [|[|x l] f]; simpl; try lia. destruct (n =? _); simpl; lia.
  - intros ? ? ? ?; exact Logic.I.
Qed.
Lemma c_record c x : triple (ona (Kc c)) (record_result x) (fun _ => ona (Kc c)) ET.
Proof.
  destruct x as [[i [r|]] [|[|loss s] f]]; cbn [record_result]; try (apply t_ret; auto); try (apply t_fail, ET_any).
  eapply t_bind; [apply a_tick, ET_any|]. intros ?. eapply t_bind; [apply a_get|]. intros all. destruct (find _ all); [|apply t_fail, ET_any].
  apply a_put. intros R J T [H _]. exact H.
Qed.
Lemma not_full R T m : exact first_rung max_rung R T -> top_full max_rung (Some m) R = Ok false -> (Z.of_nat (cnt T) < m)%Z.
Proof.
  intros [_ HX] H. unfold top_full in H. destruct (find _ R) as [y|] eqn:EF; [|discriminate]. injection H as H. apply negb_false_iff, Z.ltb_lt in H.
  apply find_some in EF as [F1 F2]. apply Z.eqb_eq in F2. rewrite Forall_forall in HX. destruct (HX y F1) as [E1 _]. unfold cnt.
  replace (Z.to_nat max_rung) with (r_no y) by lia. rewrite <- E1. exact H.
Qed.
Lemma full R T m : exact first_rung max_rung R T -> top_full max_rung (Some m) R = Ok true -> (m <= Z.of_nat (cnt T))%Z.
Proof.
  intros [_ HX] H. unfold top_full in H. destruct (find _ R) as [y|] eqn:EF; [|discriminate]. injection H as H. apply negb_true_iff, Z.ltb_ge in H.
  apply find_some in EF as [F1 F2]. apply Z.eqb_eq in F2. rewrite Forall_forall in HX. destruct (HX y F1) as [E1 _]. unfold cnt.
  replace (Z.to_nat max_rung) with (r_no y) by lia. rewrite <- E1. exact H.
Qed.
Lemma c_loop m fuel : (0 < m)%Z -> triple (fun w => ona I w /\ ona (Kc (Z.to_nat m)) w)
  (asha_loop o eta min_res max_res first_rung max_rung start (Some m) fuel) (fun _ w => ona I w /\ ona (Kc (Z.to_nat m)) w) ET.
Proof.
  intros Hm. induction fuel as [|fuel IH]; cbn [asha_loop]; [apply t_fail, ET_any|].
  eapply t_bind with (R := fun all w => (ona I w /\ ona (Kc (Z.to_nat m)) w) /\ w_rungs w = all); [intros w Hw; simpl; auto|]. intros all.
  destruct (top_full max_rung (Some m) all) as [[|]|e] eqn:TF.
  - apply t_ret. intros w [H _]. exact H.
  - eapply t_pre with (P' := fun w => ona I w /\ ona (Kc (pred (Z.to_nat m))) w).
    { intros w [[H1 H2] <-]. split; auto. destruct H1 as [H1 _]. pose proof (not_full _ _ _ H1 TF). unfold ona, Kc in *. lia. }
    assert (AP : forall A (n : M A) Q Q' c, triple (ona I) n Q EI -> triple (ona (Kc c)) n Q' ET ->
      triple (fun w => ona I w /\ ona (Kc c) w) n (fun a w => Q a w /\ Q' a w) ET).
    { intros A n Q Q' c T1 T2. eapply t_weak; [| | |apply (t_conj _ _ _ _ _ _ _ T1 T2)]; auto. intros; exact Logic.I. }
    eapply t_bind; [apply AP; [apply a_tick, I_EI|apply a_tick, ET_any]|]. intros ?.
    eapply t_bind; [apply AP; [apply wait_asha|apply c_wait]|]. intros x.
    eapply t_bind.
    { eapply t_weak; [| | |apply (t_conj _ _ _ _ _ _ _ (record_ok eta min_res max_res first_rung max_rung x) (c_record (S (pred (Z.to_nat m))) x))]; [auto|intros u w H; exact H|intros; exact Logic.I]. }
    intros ?. eapply t_bind; [apply AP; [apply start_job_ok|apply c_start]|]. intros ?. eapply t_pre; [|exact IH].
    intros w [H1 H2]. split; auto. unfold ona, Kc in *.
    replace (Z.to_nat m) with (S (pred (Z.to_nat m))) by lia. auto.
  - apply t_fail, ET_any.
Qed.
Lemma asha_run_full m lists nw events r uid stop w : (0 < m)%Z ->
  asha_run o eta min_res max_res first_rung max_rung start (Some m) (start_world lists nw events r uid stop) = (Ok tt, w) ->
  Z.of_nat (cnt (w_trace w)) = m.
Proof.
  intros Hm E. pose proof (asha_run_ok o eta min_res max_res first_rung max_rung start (Some m) lists nw events r uid stop) as G. rewrite E in G.
  destruct G as (G1 & _ & G3). pose proof (full _ _ _ G1 G3).
  unfold asha_run, leave in E. cbn [w_lists w_jobs w_n w_events w_rng w_uid w_stop w_trace start_world] in E.
  set (w0 := mkW lists [] nw events r uid stop (empty_rungs first_rung max_rung) []) in *.
  assert (T : triple (fun w => ona I w /\ ona (Kc 0) w) (start_jobs o eta min_res max_res first_rung max_rung start 8 ;; tick ;; asha_loop o eta min_res max_res first_rung max_rung start (Some m) (length events + 1))
     (fun _ w => ona I w /\ ona (Kc (Z.to_nat m)) w) ET).
  { assert (AP : forall A (n : M A) Q Q' c, triple (ona I) n Q EI -> triple (ona (Kc c)) n Q' ET ->
      triple (fun w => ona I w /\ ona (Kc c) w) n (fun a w => Q a w /\ Q' a w) ET).
    { intros A n Q Q' c T1 T2. eapply t_weak; [| | |apply (t_conj _ _ _ _ _ _ _ T1 T2)]; auto. intros; exact Logic.I. }
    eapply t_bind; [apply AP; [apply start_jobs_ok|apply c_starts]|]. intros ?. eapply t_bind; [apply AP; [apply a_tick, I_EI|apply a_tick, ET_any]|].
    intros ?. eapply t_pre; [|apply c_loop; auto]. intros w1 [H1 H2]. split; auto. unfold ona, Kc in *. lia. }
  specialize (T w0). assert (I0 : ona I w0 /\ ona (Kc 0) w0).
  { split; [split; [apply exact_empty|]; split; [intros j []|]; split; [apply each_nil|]; intros t0 k e a b Et; destruct t0; discriminate|].
    unfold ona, Kc, cnt. simpl. lia. }
  specialize (T I0). destruct ((start_jobs o eta min_res max_res first_rung max_rung start 8 ;; tick ;; asha_loop o eta min_res max_res first_rung max_rung start (Some m) (length events + 1)) w0) as [[[]|e] w1]; [|discriminate].
  injection E as <-. destruct T as [_ T]. unfold ona, Kc in T. cbn [w_trace] in *. lia.
Qed.
End Full.

From Verif Require Import Base Async_Model Async_Spec Async_Proofs Async_Proofs2 Async_Proofs3.
Require Import Permutation ZArith.
Open Scope nat_scope.

Section More.
Context (call : nat -> list nat -> kwargs -> nat -> outcome).
Notation stp := (step call).
Notation All := (fun _ : kwargs => True).
Notation inv := (inv call All).

Lemma on_worker_pids p f l : (forall w, w_pid w = p -> exists w', f w = Some w' /\ w_pid w' = p) -> map w_pid (on_worker p f l) = map w_pid l.
Proof.
  intros H. induction l as [|w l IH]; simpl; auto. destruct (Nat.eqb_spec (w_pid w) p) as [E|E]; simpl; [|rewrite IH; auto].
  destruct (H w E) as (w' & -> & E'). simpl. rewrite IH. congruence.
Qed.
Lemma accepted_deliver j d c : accepted call -> exists o, deliver (execute call j d c) = Some o.
Proof.
  intros A. specialize (A (j_fn j) (j_args j) (kw_merge (j_kwargs j) d) c). unfold execute.
  destruct (call _ _ _ _) as [v|e|]; simpl in *; try tauto; eauto.
  destruct v as [n|n|n|n e|[|[n|n|n|n e|l'] l]]; simpl in *; try tauto; eauto; destruct e; simpl; eauto.
Qed.
Lemma get_pids p s : pids (worker_get p s) = pids s.
Proof.
  unfold worker_get. destruct (find_worker _ _) as [w|]; auto. destruct (a_input s); auto. destruct (w_run w); auto.
  apply on_worker_pids. intros v E. eexists. split; [reflexivity|auto].
Qed.
Lemma flush_pids p s : pids (worker_flush p s) = pids s.
Proof.
  unfold worker_flush. destruct (find_worker _ _) as [w|]; auto. destruct (w_out w); auto.
  apply on_worker_pids. intros v E. eexists. split; [reflexivity|auto].
Qed.
Lemma exec_pids p c s : accepted call -> pids (worker_exec call p c s) = pids s.
Proof.
  intros A. unfold worker_exec. destruct (find_worker _ _) as [w|]; auto. destruct (w_run w) as [[id j]|]; auto.
  apply on_worker_pids. intros v E. destruct (accepted_deliver j (w_defaults v) c A) as [o ->]. eexists. split; [reflexivity|auto].
Qed.
Lemma worker_same a s : is_worker_step a -> a_futures (stp s a) = a_futures s /\ a_procs (stp s a) = a_procs s /\
  a_submitted (stp s a) = a_submitted s /\ a_returned (stp s a) = a_returned s /\ a_waiting (stp s a) = a_waiting s.
Proof.
  destruct a; simpl; try tauto; intros _.
  - unfold worker_get. destruct (find_worker _ _) as [w|]; auto 10. destruct (a_input s); auto 10. destruct (w_run w); auto 10.
  - unfold worker_exec. destruct (find_worker _ _) as [w|]; auto 10. destruct (w_run w) as [[]|]; auto 10.
  - unfold worker_flush. destruct (find_worker _ _) as [w|]; auto 10. destruct (w_out w); auto 10.
Qed.
Lemma worker_pend a s : inv s -> accepted call -> is_worker_step a -> Permutation (pend (stp s a)) (pend s) /\ pids (stp s a) = pids s.
Proof.
  intros I A. destruct a; simpl; try tauto; intros _.
  - split; [apply (inv_get call All p s I)|apply get_pids].
  - split; [apply (inv_exec call All p choice s I); auto|apply exec_pids; auto].
  - split; [apply (inv_flush call All p s I)|apply flush_pids].
Qed.

Record full (s : st) : Prop := {
  f_entered : a_entered s = true; f_limit : a_limit s = None;
  f_live : a_closed s = false -> incl (a_procs s) (pids s);
  f_pend : a_closed s = false -> Permutation (map fst (a_futures s)) (pend s) }.
Lemma full_enter n log d : full (stp (new_evaluator n None log d) Enter).
Proof.
  simpl. unfold enter. simpl. match goal with |- full (Nat.iter _ _ ?X) => set (s0 := X) end.
  assert (O : opened All s0 0).
  { split; simpl; auto; try (intros; tauto); try constructor; simpl; auto. }
  destruct (iter_opened All n s0 0 O) as (O1 & FR & SZ). rewrite Nat.add_0_r in O1.
  set (s' := Nat.iter n start_worker s0) in *. destruct O1 as [X1 X2 X3 X4 X5 X6 X7].
  destruct FR as (pr & lv & sz & v & b & pid & EF).
  assert (FI : a_input s' = [] /\ a_output s' = [] /\ a_futures s' = [] /\ a_limit s' = None /\ a_entered s' = true) by (rewrite EF; unfold s0; cbn; repeat split).
  destruct FI as (F1 & F2 & F3 & F4 & F5). split; auto.
  - intros _. rewrite X4. apply incl_refl.
  - intros _. unfold pend, queued, in_workers, finished. rewrite F1, F2, F3, (idle_held _ X6). auto.
Qed.
Lemma full_step a s : accepted call -> ~ is_crash a -> inv s -> full s -> full (stp s a).
Proof.
  intros A NC I [V1 V2 V3 V4]. destruct a; simpl; try (split; auto; fail).
  - destruct (a_waiting s); [split; auto|]. unfold enter. rewrite V1. split; auto.
  - destruct (a_waiting s); [split; auto|]. rewrite V1. split; auto; cbn; discriminate.
  - destruct (a_waiting s); [split; auto|]. unfold submit. destruct (a_closed s) eqn:EC; [split; cbn; auto; try rewrite EC; discriminate|].
    split; cbn; auto. intros _. unfold pend, queued in *. cbn. rewrite !map_app. simpl. rewrite <- app_assoc. simpl.
    eapply perm_trans; [|apply Permutation_middle]. eapply perm_trans; [apply Permutation_sym, Permutation_cons_append|]. constructor. auto.
  - destruct (a_waiting s); [split; auto|]. unfold wait_start. destruct (a_futures s) eqn:EF; split; cbn; auto; rewrite EF; auto.
  - destruct (a_waiting s); [|split; auto].
    destruct (turn_nolimit call mem mem2 mem3 ready s I V2) as (s2 & R & I2 & H).
    pose proof (repl_fields _ _ R) as (R1 & R2 & R3 & R4 & R5 & R6 & R7 & R8 & R9 & R10 & R11).
    destruct (a_closed s) eqn:EC.
    { rewrite R4 in H. rewrite H. split; cbn; rewrite ?R2, ?R3, ?R4; auto; discriminate. }
    assert (s2 = s) as -> by (apply (repl_alive s s2 R (i_pool _ _ _ I)); auto).
    rewrite EC in H. destruct (a_output s) as [|[i o] out] eqn:EO; [rewrite H; split; auto|]. destruct ready; rewrite H; [|split; auto].
    assert (FN : NoDup (map fst (a_futures s))) by (eapply futures_nodup; eauto).
    assert (PE : Permutation (pend s) (i :: queued s ++ in_workers s ++ map fst out)).
    { unfold pend, finished. rewrite EO. simpl. rewrite !app_assoc. apply Permutation_sym, Permutation_middle. }
    assert (HI : In i (map fst (a_futures s))).
    { eapply Permutation_in; [apply Permutation_sym, V4; auto|]. eapply Permutation_in; [apply Permutation_sym, PE|simpl; auto]. }
    split; cbn; auto. intros _. apply (Permutation_cons_inv (a := i)).
    eapply perm_trans; [apply Permutation_sym, remove_id; auto|]. eapply perm_trans; [apply V4; auto|]. exact PE.
  - destruct (a_waiting s); split; auto.
  - destruct (worker_same (Get p) s) as (W1 & W2 & W3 & W4 & _); [exact Logic.I|].
    destruct (worker_pend (Get p) s I A) as [P1 P2]; [exact Logic.I|].
    destruct (flags_step call (Get p) s I) as [F1 F2]; try discriminate. destruct (step_limit call (Get p) s I) as [L1 _].
    simpl in *. split; rewrite ?W1, ?W2, ?P2, ?F1, ?F2, ?L1; auto. intros C. eapply perm_trans; [apply V4; auto|apply Permutation_sym; auto].
  - destruct (worker_same (Exec p choice) s) as (W1 & W2 & W3 & W4 & _); [exact Logic.I|].
    destruct (worker_pend (Exec p choice) s I A) as [P1 P2]; [exact Logic.I|].
    destruct (flags_step call (Exec p choice) s I) as [F1 F2]; try discriminate. destruct (step_limit call (Exec p choice) s I) as [L1 _].
    simpl in *. split; rewrite ?W1, ?W2, ?P2, ?F1, ?F2, ?L1; auto. intros C. eapply perm_trans; [apply V4; auto|apply Permutation_sym; auto].
  - destruct (worker_same (Flush p) s) as (W1 & W2 & W3 & W4 & _); [exact Logic.I|].
    destruct (worker_pend (Flush p) s I A) as [P1 P2]; [exact Logic.I|].
    destruct (flags_step call (Flush p) s I) as [F1 F2]; try discriminate. destruct (step_limit call (Flush p) s I) as [L1 _].
    simpl in *. split; rewrite ?W1, ?W2, ?P2, ?F1, ?F2, ?L1; auto. intros C. eapply perm_trans; [apply V4; auto|apply Permutation_sym; auto].
  - exfalso. apply NC. exact Logic.I.
Qed.
Lemma full_run l : forall s, accepted call -> Forall (fun a => ~ is_crash a) l -> inv s -> full s -> full (run call s l).
Proof.
  induction l as [|a l IH]; intros s A F I H; simpl; auto. inversion F; subst. apply IH; auto.
  - apply inv_step; auto.
  - apply full_step; auto.
Qed.

(** * Progress *)
Definition wwork (w : worker) : nat := (match w_run w with Some _ => 2 | None => 0 end) + length (w_out w).
Definition work (s : st) : nat := 3 * length (a_input s) + list_sum (map wwork (a_live s)).
Lemma list_sum_app_wwork l1 l2 : list_sum (map wwork (l1 ++ l2)) = list_sum (map wwork l1) + list_sum (map wwork l2).
Proof. rewrite map_app, list_sum_app. auto. Qed.
Lemma list_sum_cons_wwork w l : list_sum (map wwork (w :: l)) = wwork w + list_sum (map wwork l).
Proof. auto. Qed.
Lemma wwork_mk p d r o : wwork (mkWorker p d r o) = (match r with Some _ => 2 | None => 0 end) + length o.
Proof. auto. Qed.
Lemma wwork_of w : wwork w = (match w_run w with Some _ => 2 | None => 0 end) + length (w_out w).
Proof. auto. Qed.
Lemma work_step a s : inv s -> accepted call -> is_worker_step a -> stp s a = s \/ work (stp s a) < work s.
Proof.
  intros I A. destruct a; simpl; try tauto; intros _.
  - unfold worker_get. destruct (find_worker p (a_live s)) as [w|] eqn:F; auto. destruct (a_input s) as [|x inp] eqn:EI; auto.
    destruct (w_run w) as [y|] eqn:ER; auto. right.
    destruct (on_worker_split p _ w F (p_lnodup _ (i_pool _ _ _ I))) as (l1 & l2 & EL & Ep & FW). rewrite FW.
    unfold work. cbn [set_queues a_input a_live]. rewrite EI, EL, !list_sum_app_wwork, !list_sum_cons_wwork, wwork_mk, (wwork_of w), ER. 
    change (list_sum (map wwork [])) with 0. simpl length. lia.
  - unfold worker_exec. destruct (find_worker p (a_live s)) as [w|] eqn:F; auto. destruct (w_run w) as [[id j]|] eqn:ER; auto. right.
    destruct (on_worker_split p _ w F (p_lnodup _ (i_pool _ _ _ I))) as (l1 & l2 & EL & Ep & FW). rewrite FW.
    destruct (accepted_deliver j (w_defaults w) choice A) as [o ->].
    unfold work. cbn [set_queues a_input a_live]. rewrite EL, !list_sum_app_wwork, !list_sum_cons_wwork, wwork_mk, (wwork_of w), ER, app_length.
    change (list_sum (map wwork [])) with 0. simpl length. lia.
  - unfold worker_flush. destruct (find_worker p (a_live s)) as [w|] eqn:F; auto. destruct (w_out w) as [|x out] eqn:EO; auto. right.
    destruct (on_worker_split p _ w F (p_lnodup _ (i_pool _ _ _ I))) as (l1 & l2 & EL & Ep & FW). rewrite FW.
    unfold work. cbn [set_queues a_input a_live]. rewrite EL, !list_sum_app_wwork, !list_sum_cons_wwork, wwork_mk, (wwork_of w), EO.
    change (list_sum (map wwork [])) with 0. simpl length. lia.
Qed.
End More.

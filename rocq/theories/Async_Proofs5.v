From Verif Require Import Base Async_Model Async_Spec Async_Proofs Async_Proofs2 Async_Proofs3 Async_Proofs4.
Require Import Permutation ZArith.
Open Scope nat_scope.

Section More.
Context (call : nat -> list nat -> kwargs -> nat -> outcome).
Notation stp := (step call).
Notation All := (fun _ : kwargs => True).
Notation inv := (inv call All).

Definition enabled (a : act) (s : st) : Prop :=
  match a with
  | Get p => exists w, find_worker p (a_live s) = Some w /\ w_run w = None /\ a_input s <> []
  | Exec p _ => exists w, find_worker p (a_live s) = Some w /\ w_run w <> None
  | Flush p => exists w, find_worker p (a_live s) = Some w /\ w_out w <> []
  | _ => False
  end.
Lemma enabled_changes a s : inv s -> accepted call -> enabled a s -> stp s a <> s.
Proof.
  intros I A E K. apply (f_equal work) in K. destruct a; try (destruct E; fail); destruct E as (w & F & E); simpl in K;
  destruct (on_worker_split p _ w F (p_lnodup _ (i_pool _ _ _ I))) as (l1 & l2 & EL & Ep & FW).
  - destruct E as [ER EI]. unfold worker_get in K. rewrite F in K. destruct (a_input s) as [|x inp] eqn:EA; [tauto|]. rewrite ER, FW in K.
    unfold work in K. cbn [set_queues a_input a_live] in K. rewrite EA, EL, !list_sum_app_wwork, !list_sum_cons_wwork, wwork_mk, (wwork_of w), ER in K.
    change (list_sum (map wwork [])) with 0 in K. simpl length in K. lia.
  - unfold worker_exec in K. rewrite F in K. destruct (w_run w) as [[id j]|] eqn:ER; [|tauto]. rewrite FW in K.
    destruct (accepted_deliver call j (w_defaults w) choice A) as [o ED]. rewrite ED in K.
    unfold work in K. cbn [set_queues a_input a_live] in K. rewrite EL, !list_sum_app_wwork, !list_sum_cons_wwork, wwork_mk, (wwork_of w), ER, app_length in K.
    change (list_sum (map wwork [])) with 0 in K. simpl length in K. lia.
  - unfold worker_flush in K. rewrite F in K. destruct (w_out w) as [|x out] eqn:EO; [tauto|]. rewrite FW in K.
    unfold work in K. cbn [set_queues a_input a_live] in K. rewrite EL, !list_sum_app_wwork, !list_sum_cons_wwork, wwork_mk, (wwork_of w), EO in K.
    change (list_sum (map wwork [])) with 0 in K. simpl length in K. lia.
Qed.
Lemma find_worker_in w s : pool s -> In w (a_live s) -> find_worker (w_pid w) (a_live s) = Some w.
Proof.
  intros P. pose proof (p_lnodup _ P) as N. unfold pids in N. unfold find_worker. induction (a_live s) as [|v l IH]; simpl; [tauto|].
  simpl in N. apply NoDup_cons_iff in N as [N1 N2]. intros [->|H]; [rewrite Nat.eqb_refl; auto|].
  destruct (Nat.eqb_spec (w_pid v) (w_pid w)) as [E|E]; auto. exfalso. apply N1. rewrite E. apply in_map. auto.
Qed.
Lemma stuck_done s : inv s -> accepted call -> a_live s <> [] -> (forall a, is_worker_step a -> stp s a = s) -> queued s = [] /\ in_workers s = [].
Proof.
  intros I A N H.
  assert (W : forall w, In w (a_live s) -> w_run w = None /\ w_out w = []).
  { intros w Hw. pose proof (find_worker_in w s (i_pool _ _ _ I) Hw) as F. split.
    - destruct (w_run w) eqn:E; auto. exfalso. apply (enabled_changes (Exec (w_pid w) 0) s I A); [|apply H; exact Logic.I].
      exists w. split; auto. rewrite E. discriminate.
    - destruct (w_out w) eqn:E; auto. exfalso. apply (enabled_changes (Flush (w_pid w)) s I A); [|apply H; exact Logic.I].
      exists w. split; auto. rewrite E. discriminate. }
  split; [|apply idle_held; auto].
  unfold queued. destruct (a_input s) eqn:EI; auto. exfalso. destruct (a_live s) as [|w l0] eqn:EL; [tauto|].
  assert (Hw : In w (a_live s)) by (rewrite EL; simpl; auto). pose proof (find_worker_in w s (i_pool _ _ _ I) Hw) as F.
  apply (enabled_changes (Get (w_pid w)) s I A); [|apply H; exact Logic.I]. exists w. split; auto. split; [apply (W w); simpl; auto|]. rewrite EI. discriminate.
Qed.
(** Every worker step that does something reduces the work. *)
Lemma busy_work s l : busy call s l -> inv s -> accepted call -> length l <= work s.
Proof.
  induction 1 as [|s a l W N B IH]; intros I A; simpl; [lia|].
  destruct (work_step call a s I A W) as [K|K]; [tauto|]. assert (inv (stp s a)) by (apply inv_step; auto). specialize (IH H A). lia.
Qed.
Lemma work_pend s : inv s -> work s <= 3 * length (pend s).
Proof.
  intros I. unfold work, pend. rewrite !app_length. unfold queued, finished, in_workers. rewrite !map_length.
  assert (list_sum (map wwork (a_live s)) <= 3 * length (flat_map held_by (a_live s))).
  { clear. induction (a_live s) as [|w l IH]; auto. simpl map. simpl flat_map. rewrite app_length.
    change (list_sum (wwork w :: map wwork l)) with (wwork w + list_sum (map wwork l)).
    unfold wwork at 1, held_by at 1. rewrite app_length, map_length. destruct (w_run w); simpl length; lia. }
  lia.
Qed.

(** Some schedule of the workers finishes what is outstanding. *)
Lemma all_idle_or s : inv s -> accepted call -> a_live s <> [] -> (queued s = [] /\ in_workers s = []) \/ exists a, is_worker_step a /\ stp s a <> s.
Proof.
  intros I A N.
  destruct (in_workers s) eqn:EW; [|].
  - destruct (a_input s) eqn:EI; [left; split; auto; unfold queued; rewrite EI; auto|].
    right. destruct (a_live s) as [|w l'] eqn:EL; [tauto|].
    assert (Hw : In w (a_live s)) by (rewrite EL; simpl; auto).
    exists (Get (w_pid w)). split; [exact Logic.I|]. apply enabled_changes; auto. exists w. split; [apply find_worker_in; auto; apply I|].
    split; [|rewrite EI; discriminate]. unfold in_workers in EW. rewrite EL in EW. simpl in EW. apply app_eq_nil in EW as [EW _].
    unfold held_by in EW. destruct (w_run w); auto. discriminate.
  - right. assert (K : In n (in_workers s)) by (rewrite EW; simpl; auto). unfold in_workers in K. apply in_flat_map in K as (w & Hw & K).
    pose proof (find_worker_in w s (i_pool _ _ _ I) Hw) as F. unfold held_by in K. destruct (w_run w) eqn:ER.
    + exists (Exec (w_pid w) 0). split; [exact Logic.I|]. apply enabled_changes; auto. exists w. rewrite ER. split; auto. discriminate.
    + exists (Flush (w_pid w)). split; [exact Logic.I|]. apply enabled_changes; auto. exists w. split; auto. intros E. rewrite E in K. destruct K.
Qed.
Lemma worker_not_crash a : is_worker_step a -> ~ is_crash a.
Proof. destruct a; simpl; tauto. Qed.
Lemma drain k : forall s, work s <= k -> inv s -> accepted call -> a_live s <> [] -> exists l, Forall is_worker_step l /\
  queued (run call s l) = [] /\ in_workers (run call s l) = [].
Proof.
  induction k as [|k IH]; intros s HK I A N.
  all: destruct (all_idle_or s I A N) as [[Q W]|(a & Wa & Na)]; [exists []; simpl; auto|].
  all: destruct (work_step call a s I A Wa) as [K|K]; [tauto|]; [try lia ..].
  destruct (IH (stp s a)) as (l & F & Q & W); try lia; auto.
  - apply inv_step; auto.
  - intros E. destruct (worker_pend call a s I A Wa) as [_ P]. unfold pids in P. rewrite E in P. simpl in P. destruct (a_live s); [tauto|discriminate].
  - exists (a :: l). split; auto.
Qed.
Lemma worker_run_same l : forall s, Forall is_worker_step l -> a_futures (run call s l) = a_futures s /\ a_procs (run call s l) = a_procs s /\
  a_submitted (run call s l) = a_submitted s /\ a_returned (run call s l) = a_returned s /\ a_waiting (run call s l) = a_waiting s.
Proof.
  induction l as [|a l IH]; intros s F; simpl; auto 10. inversion F; subst.
  destruct (IH (stp s a)) as (E1 & E2 & E3 & E4 & E5); auto. destruct (worker_same call a s H1) as (W1 & W2 & W3 & W4 & W5).
  rewrite E1, E2, E3, E4, E5. auto.
Qed.
Lemma worker_run_flags l : forall s, inv s -> Forall is_worker_step l -> a_closed (run call s l) = a_closed s /\ a_entered (run call s l) = a_entered s.
Proof.
  induction l as [|a l IH]; intros s I F; simpl; auto. inversion F; subst.
  destruct (IH (stp s a)) as (E1 & E2); auto; [apply inv_step; auto|].
  destruct (flags_step call a s I) as [E E']; [destruct a; simpl in *; try tauto; discriminate ..|]. rewrite E1, E2. auto.
Qed.
Lemma delivered_next s : inv s -> full s -> accepted call -> 1 <= a_n s -> a_closed s = false -> a_waiting s = true -> a_futures s <> [] ->
  exists l, Forall is_worker_step l /\ forall mem mem2 mem3, exists id o, In id (map fst (a_futures s)) /\
    let s' := stp (run call s l) (Turn mem mem2 mem3 true) in a_returned s' = a_returned s ++ [(id, o)] /\ a_waiting s' = false.
Proof.
  intros I FU A N C W NE.
  assert (LV : a_live s <> []).
  { intros E. pose proof (f_live _ FU C) as FL. pose proof (p_size _ (i_pool _ _ _ I) (f_entered _ FU) C N) as PS.
    unfold pids in FL. rewrite E in FL. destruct (a_procs s) as [|p ps]; simpl in *; [lia|]. destruct (FL p). simpl; auto. }
  destruct (drain (work s) s (le_n _) I A LV) as (l & F & Q & WK). exists l. split; auto. intros mem mem2 mem3.
  destruct (worker_run_same l s F) as (W1 & W2 & W3 & W4 & W5). destruct (worker_run_flags l s I F) as [C1 C2].
  assert (I1 : inv (run call s l)) by (apply inv_run; auto).
  assert (FU1 : full (run call s l)).
  { apply full_run; auto. eapply Forall_impl; [|exact F]. intros a. apply worker_not_crash. }
  set (s1 := run call s l) in *. rewrite C in C1. pose proof (f_pend _ FU1 C1) as P.
  unfold pend in P. rewrite Q, WK, W1 in P. simpl in P.
  destruct (turn_nolimit call mem mem2 mem3 true s1 I1 (f_limit _ FU1)) as (s2 & R & I2 & H).
  assert (s2 = s1) as -> by (apply (repl_alive s1 s2 R (i_pool _ _ _ I1)); auto; apply FU1; auto).
  rewrite C1 in H. unfold finished in P. destruct (a_output s1) as [|[id o] out] eqn:EO.
  { simpl in P. apply Permutation_sym, Permutation_nil in P. destruct (a_futures s); [tauto|discriminate]. }
  exists id, o. split; [eapply Permutation_in; [apply Permutation_sym, P|simpl; auto]|]. cbv zeta. simpl. rewrite W5, W, H. cbn. rewrite W4. auto.
Qed.

(** * Jobs that are nowhere are never delivered *)
Lemma pend_input s s' : a_input s' = a_input s -> a_output s' = a_output s -> a_live s' = a_live s -> pend s' = pend s.
Proof. intros A B C. unfold pend, queued, in_workers, finished. rewrite A, B, C. auto. Qed.
Lemma step_pend a s : inv s ->
  incl (pend (stp s a)) (pend s ++ [length (a_submitted s)]) /\ incl (returned (stp s a)) (returned s ++ pend s) /\
  incl (submitted s) (submitted (stp s a)).
Proof.
  intros I. destruct a; simpl.
  - destruct (a_waiting s); [repeat split; auto using incl_appl, incl_refl|]. unfold enter. destruct (a_entered s) eqn:EE; [repeat split; auto using incl_appl, incl_refl|].
    match goal with |- context [Nat.iter _ _ ?X] => set (s0 := X) end.
    assert (O : opened All s0 0).
    { destruct (i_pool _ _ _ I) as [X1 X2 X3 X4 X5 X6 X7 X8]. unfold s0. assert (EP : a_procs s = []) by auto.
      assert (EL : a_live s = []). { unfold pids in X4. rewrite EP in X4. destruct (a_live s) as [|w l]; auto. destruct (X4 (w_pid w)). simpl; auto. }
      split; unfold pids; cbn; rewrite ?EP, ?EL; auto; try (intros ? []; fail); try (constructor; fail).
      split; cbn; auto. }
    destruct (iter_opened All (a_n s) s0 0 O) as (O1 & FR & _). set (s' := Nat.iter (a_n s) start_worker s0) in *.
    destruct FR as (pr & lv & sz & v & b & pid & EF).
    assert (FI : a_input s' = [] /\ a_output s' = [] /\ a_returned s' = a_returned s /\ a_submitted s' = a_submitted s) by (rewrite EF; unfold s0; cbn; auto).
    destruct FI as (F1 & F2 & F3 & F4). unfold pend, queued, in_workers, finished, returned, submitted. rewrite F1, F2, F3, F4, idle_held by apply O1.
    repeat split; auto using incl_appl, incl_refl; [intros x []].
  - destruct (a_waiting s); [repeat split; auto using incl_appl, incl_refl|]. destruct (a_entered s); [|repeat split; auto using incl_appl, incl_refl].
    repeat split; auto using incl_appl, incl_refl. intros x Hx. apply in_or_app. left. unfold pend, queued, in_workers, finished in *. cbn in Hx.
    rewrite app_nil_r in Hx. apply in_or_app. right. apply in_or_app. left. apply (sub_incl _ _ (sub_filter _ _)) in Hx. auto.
  - destruct (a_waiting s); [repeat split; auto using incl_appl, incl_refl|]. unfold submit. destruct (a_closed s); cbn.
    + repeat split; auto using incl_appl, incl_refl. unfold submitted. cbn. rewrite map_app. auto using incl_appl, incl_refl.
    + repeat split; auto using incl_appl, incl_refl.
      * unfold pend, queued, in_workers, finished. cbn. rewrite map_app. intros x Hx. repeat (rewrite in_app_iff in *; simpl in * ). tauto.
      * unfold submitted. cbn. rewrite map_app. auto using incl_appl, incl_refl.
  - destruct (a_waiting s); [repeat split; auto using incl_appl, incl_refl|]. unfold wait_start. destruct (a_futures s); repeat split; auto using incl_appl, incl_refl.
  - destruct (a_waiting s); [|repeat split; auto using incl_appl, incl_refl]. destruct (wait_turn_cases call All mem mem2 mem3 ready s I) as (x & s1 & C & H).
    pose proof (sub_incl _ _ (controlled_pend _ _ _ C)) as SI. pose proof (controlled_frame _ _ _ C) as (pr & lv & sz & v & b & pid & EF).
    assert (EFR : returned s1 = returned s) by (rewrite EF; auto). assert (EFS : submitted s1 = submitted s) by (rewrite EF; auto).
    destruct x as [[]|e].
    + destruct H as (s2 & R & I2 & H). pose proof (repl_pend _ _ R) as PE. rewrite <- PE in SI. apply repl_fields in R. destruct R as (_ & _ & _ & _ & R5 & R6 & _).
      assert (ER : returned s2 = returned s) by (unfold returned; rewrite R6; auto). assert (ES : submitted s2 = submitted s) by (unfold submitted; rewrite R5; auto).
      assert (OK : incl (pend s2) (pend s ++ [length (a_submitted s)]) /\ incl (returned s2) (returned s ++ pend s) /\ incl (submitted s) (submitted s2)).
      { rewrite ER, ES. repeat split; auto using incl_appl, incl_refl. }
      destruct (a_closed s2); [rewrite H; auto|]. destruct (a_output s2) as [|[id o] out] eqn:EO; [rewrite H; auto|]. destruct ready; rewrite H; auto.
      assert (HP : forall x, x = id \/ In x (map fst out) -> In x (finished s2)) by (intros x [->|K]; unfold finished; rewrite EO; simpl; auto).
      repeat split; auto.
      * intros x Hx. apply in_or_app. left. apply SI. unfold pend, queued, in_workers, finished in *. cbn in Hx. repeat rewrite in_app_iff in *. intuition.
      * intros x Hx. unfold returned in Hx. cbn in Hx. rewrite map_app in Hx. apply in_app_or in Hx as [Hx|[<-|[]]]; apply in_or_app.
        -- left. rewrite <- ER. auto.
        -- right. apply SI. unfold pend. rewrite !in_app_iff. auto.
      * rewrite <- ES. apply incl_refl.
    + destruct H as [-> _]. repeat split; unfold returned, submitted in *; cbn; rewrite ?EFR, ?EFS; auto using incl_appl, incl_refl.
  - repeat split; auto using incl_appl, incl_refl.
  - destruct (a_waiting s); repeat split; auto using incl_appl, incl_refl.
  - destruct (worker_same call (Get p) s) as (_ & _ & W3 & W4 & _); [exact Logic.I|]. simpl in *. unfold returned, submitted. rewrite W3, W4.
    repeat split; auto using incl_appl, incl_refl. apply incl_appl. intros x. apply Permutation_in. apply (inv_get call All p s I).
  - destruct (worker_same call (Exec p choice) s) as (_ & _ & W3 & W4 & _); [exact Logic.I|]. simpl in *. unfold returned, submitted. rewrite W3, W4.
    repeat split; auto using incl_appl, incl_refl. apply incl_appl. unfold worker_exec. destruct (find_worker p (a_live s)) as [w|] eqn:F; [|auto using incl_refl].
    destruct (w_run w) as [[id j]|] eqn:ER; [|auto using incl_refl].
    destruct (on_worker_split p _ w F (p_lnodup _ (i_pool _ _ _ I))) as (l1 & l2 & EL & Ep & FW). rewrite FW.
    unfold pend, queued, in_workers, finished. cbn. rewrite EL, !flat_map_app. destruct (deliver _) as [o|].
    + assert (HW : held_by w = id :: map fst (w_out w)) by (unfold held_by; rewrite ER; auto).
      assert (HW' : held_by (mkWorker (w_pid w) (w_defaults w) None (w_out w ++ [(id, o)])) = map fst (w_out w) ++ [id]) by (unfold held_by; cbn; rewrite map_app; auto).
      intros x. cbn [flat_map app]. rewrite HW, HW'. repeat (rewrite in_app_iff; cbn [In]). tauto.
    + intros x. simpl. rewrite !in_app_iff. tauto.
  - destruct (worker_same call (Flush p) s) as (_ & _ & W3 & W4 & _); [exact Logic.I|]. simpl in *. unfold returned, submitted. rewrite W3, W4.
    repeat split; auto using incl_appl, incl_refl. apply incl_appl. intros x. apply Permutation_in. apply (inv_flush call All p s I).
  - repeat split; auto using incl_appl, incl_refl. apply incl_appl. unfold pend, queued, in_workers, finished. cbn.
    destruct (find_worker p (a_live s)) as [w|] eqn:F; [|rewrite on_worker_none; auto using incl_refl].
    destruct (on_worker_split p _ w F (p_lnodup _ (i_pool _ _ _ I))) as (l1 & l2 & EL & Ep & FW). rewrite FW, EL, !flat_map_app.
    intros x. simpl. rewrite !in_app_iff. tauto.
Qed.
Lemma lost_forever l : forall s i, inv s -> In i (submitted s) -> ~ In i (pend s) -> ~ In i (returned s) -> ~ In i (returned (run call s l)).
Proof.
  induction l as [|a l IH]; intros s i I S P R; simpl; auto. destruct (step_pend a s I) as (A & B & C).
  apply IH; auto; [apply inv_step; auto| |].
  - intros K. apply A in K. apply in_app_or in K as [K|[<-|[]]]; auto. rewrite (i_ids _ _ _ I) in S. apply in_seq in S. lia.
  - intros K. apply B in K. apply in_app_or in K as [K|K]; auto.
Qed.
End More.

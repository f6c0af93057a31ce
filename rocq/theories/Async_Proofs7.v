(** The memory policy of the pool. *)
From Verif Require Import Base Async_Model Async_Spec Async_Proofs Async_Proofs2 Async_Proofs3 Async_Proofs4 Async_Proofs5 Async_Proofs6.
Require Import Permutation ZArith.
Open Scope nat_scope.

Section More.
Context (call : nat -> list nat -> kwargs -> nat -> outcome).
Notation stp := (step call).
Notation All := (fun _ : kwargs => True).
Notation inv := (inv call All).

Lemma repl_counts s s' : repl s s' -> a_viol s' = a_viol s /\ a_behaved s' = a_behaved s /\ a_size s' = a_size s.
Proof. induction 1 as [|s p s' H H0 H1 (A & B & C)]; auto. Qed.
Lemma memory_pool mem s l s' : pool s -> memory mem (0 :: a_procs s) s = (l, s') -> repl s s' /\ pool s' /\ length (a_procs s') = length (a_procs s).
Proof.
  intros P E. apply memory_repl in E.
  - destruct E as [R _]. split; auto. apply repl_pool; auto.
  - intros p [<-|Hp]; auto.
  - constructor; [|apply P]. intros K. apply P in K. lia.
Qed.
Lemma exceeds_total mem s l s' : memory mem (0 :: a_procs s) s = (l, s') ->
  exceeds mem s = match a_limit s with None => false | Some L => L <? total l end.
Proof. intros E. apply memory_read in E as (T & _). unfold exceeds. rewrite T. reflexivity. Qed.

Definition shrinks (s : st) : bool := negb (20 * S (a_viol s) <? S (a_viol s) + a_behaved s) && negb (length (a_procs s) =? 1).
Lemma control_counts mem mem2 s s' : pool s -> control mem mem2 s = (Ok tt, s') -> pool s' /\
  if exceeds mem s then
    length (a_procs s') = length (a_procs s) - (if shrinks s then 1 else 0) /\ 1 <= length (a_procs s) /\
    a_viol s' = (if shrinks s then 0 else S (a_viol s)) /\ a_behaved s' = (if shrinks s then 0 else a_behaved s) /\
    a_size s' = (a_size s - 1)%Z
  else length (a_procs s') = length (a_procs s) /\ a_viol s' = a_viol s /\ a_behaved s' = a_behaved s /\ a_size s' = a_size s.
Proof.
  intros P E. split; [apply control_ok in E; [|exact P]; eapply controlled_pool; eauto|].
  unfold control in E. destruct (memory mem (0 :: a_procs s) s) as [usage s1] eqn:EM. rewrite (exceeds_total _ _ _ _ EM).
  destruct (a_limit s) as [limit|]; [|injection E as <-; auto]. destruct (memory_pool _ _ _ _ P EM) as (R1 & P1 & L1).
  destruct (limit <? total usage).
  2:{ injection E as <-. destruct (repl_counts _ _ R1) as (A & B & C). auto. }
  pose proof (log_repl mem2 s1 P1) as R2. destruct (repl_pool _ _ R2 P1) as [P2 L2]. remember (log_memory mem2 s1) as s2 eqn:E2. clear E2.
  assert (R : repl s s2) by (eapply repl_trans; eauto). destruct (repl_counts _ _ R) as (A & B & C).
  destruct (max_by (tl usage)) as [[p m]|]; [|discriminate]. cbv zeta in E. cbn [set_pool a_viol a_behaved a_procs] in E. rewrite A, B, L2, L1 in E. unfold shrinks.
  assert (EXI : existsb (Nat.eqb p) (a_procs s2) = true -> In p (a_procs s2)).
  { intros K. apply existsb_exists in K as (q & Hq & K). apply Nat.eqb_eq in K. congruence. }
  assert (LEN : forall q, In q (a_procs s2) -> length (filter (fun q0 => negb (q0 =? q)) (a_procs s2)) = length (a_procs s) - 1 /\ 1 <= length (a_procs s)).
  { intros q Hq. rewrite filter_pid_len by (auto; apply P2). rewrite L2, L1. split; auto. rewrite <- L1, <- L2. destruct (a_procs s2); [destruct Hq|simpl; lia]. }
  destruct ((20 * S (a_viol s) <? S (a_viol s) + a_behaved s) || (length (a_procs s) =? 1)) eqn:EC.
  - assert (SH : negb (20 * S (a_viol s) <? S (a_viol s) + a_behaved s) && negb (length (a_procs s) =? 1) = false) by (rewrite <- negb_orb, EC; reflexivity).
    rewrite SH. unfold stop_worker in E. cbn [set_pool a_procs a_live a_viol a_behaved a_size a_pid] in E.
    destruct (existsb (Nat.eqb p) (a_procs s2)) eqn:EE; [|discriminate]. destruct (LEN p (EXI eq_refl)) as [L0 L1']. injection E as <-. cbn. rewrite app_length, L0, C. simpl. repeat split; auto; lia.
  - assert (SH : negb (20 * S (a_viol s) <? S (a_viol s) + a_behaved s) && negb (length (a_procs s) =? 1) = true) by (rewrite <- negb_orb, EC; reflexivity).
    rewrite SH. unfold stop_worker in E. cbn [set_pool a_procs a_live a_viol a_behaved a_size a_pid] in E.
    destruct (existsb (Nat.eqb p) (a_procs s2)) eqn:EE; [|discriminate]. destruct (LEN p (EXI eq_refl)) as [L0 L1']. injection E as <-. cbn. rewrite L0, C. repeat split; auto; lia.
Qed.
Lemma turn_counts mem mem2 mem3 ready s : inv s -> a_waiting s = true -> ~ In ValueError (a_raised (stp s (Turn mem mem2 mem3 ready))) ->
  let s' := stp s (Turn mem mem2 mem3 ready) in
  let k := length (returned s') - length (returned s) in
  let sh := exceeds mem s && shrinks s in
  length (a_procs s') = length (a_procs s) - (if sh then 1 else 0) /\ (exceeds mem s = true -> 1 <= length (a_procs s)) /\
  a_viol s' = (if exceeds mem s then if sh then 0 else S (a_viol s) else a_viol s) /\
  a_behaved s' = (if sh then 0 else a_behaved s) + k /\
  a_size s' = (a_size s - (if exceeds mem s then 1 else 0) - Z.of_nat k)%Z /\
  length (returned s') = length (returned s) + k /\ submitted s' = submitted s /\ a_raised s' = a_raised s.
Proof.
  intros I W NV. cbn [step] in *. rewrite W in *. cbv zeta. unfold wait_turn in *. destruct (control mem mem2 s) as [x s1] eqn:EC.
  pose proof (control_ok _ _ _ _ _ (i_pool _ _ _ I) EC) as CO. pose proof (inv_controlled _ _ _ _ _ I CO) as I1.
  pose proof (controlled_frame _ _ _ CO) as (f1 & f2 & f3 & f4 & f5 & f6 & FR).
  destruct x as [[]|e].
  2:{ exfalso. apply NV. assert (e = ValueError) by (inversion CO; auto). subst e. cbn. apply in_or_app. simpl. auto. }
  destruct (control_counts _ _ _ _ (i_pool _ _ _ I) EC) as [P1 N].
  pose proof (log_repl mem3 s1 P1) as R. destruct (repl_pool _ _ R P1) as [P2 L2]. destruct (repl_counts _ _ R) as (N1 & N2 & N3).
  pose proof (repl_frame _ _ R) as (g1 & g2 & g3 & g4 & g5 & g6 & GR). remember (log_memory mem3 s1) as s2 eqn:E2. clear E2.
  assert (I2 : inv s2) by (eapply inv_repl; eauto).
  destruct (a_closed s2) eqn:CL. { exfalso. apply NV. cbn. apply in_or_app. simpl. auto. }
  assert (RS : a_returned s2 = a_returned s /\ a_submitted s2 = a_submitted s /\ a_raised s2 = a_raised s) by (rewrite GR, FR; auto).
  destruct RS as (RS1 & RS2 & RS3).
  assert (M : forall st, (length (a_procs st) = length (a_procs s2) -> a_viol st = a_viol s2 -> forall k, a_behaved st = a_behaved s2 + k -> a_size st = (a_size s2 - Z.of_nat k)%Z ->
    length (returned st) = length (returned s) + k -> submitted st = submitted s2 -> a_raised st = a_raised s2 ->
    let k := length (returned st) - length (returned s) in
  let sh := exceeds mem s && shrinks s in
  length (a_procs st) = length (a_procs s) - (if sh then 1 else 0) /\ (exceeds mem s = true -> 1 <= length (a_procs s)) /\
  a_viol st = (if exceeds mem s then if sh then 0 else S (a_viol s) else a_viol s) /\
  a_behaved st = (if sh then 0 else a_behaved s) + k /\
  a_size st = (a_size s - (if exceeds mem s then 1 else 0) - Z.of_nat k)%Z /\
  length (returned st) = length (returned s) + k /\ submitted st = submitted s /\ a_raised st = a_raised s)).
  { intros st H1 H2 k H3 H4 H5 H6 H7. cbv zeta. rewrite H1, H2, H3, H4, H5, H6, H7. replace (length (returned s) + k - length (returned s)) with k by lia.
    rewrite L2, N1, N2, N3. unfold submitted. rewrite RS2, RS3. destruct (exceeds mem s); cbn [andb].
    - destruct N as (N4 & N5 & N6 & N7 & N8). rewrite N4, N6, N7, N8. repeat split; auto; lia.
    - destruct N as (N4 & N6 & N7 & N8). rewrite N4, N6, N7, N8. repeat split; auto; lia || discriminate. }
  destruct (a_output s2) as [|[i o] out] eqn:EO; [|destruct ready].
  - apply (M s2 eq_refl eq_refl 0); auto; try lia. unfold returned. rewrite RS1. lia.
  - destruct (inv_collect _ _ _ _ _ _ I2 EO) as [[j F] _]. rewrite F. match goal with |- length (a_procs ?x) = _ /\ _ => apply (M x eq_refl eq_refl 1) end; auto; try (cbn; lia).
    unfold returned. cbn. rewrite RS1, map_app, app_length. simpl. auto.
  - apply (M s2 eq_refl eq_refl 0); auto; try lia. unfold returned. rewrite RS1. lia.
Qed.
(** actions other than a turn *)
Lemma other_counts a s : inv s -> ce s -> a <> Exit -> (forall mem mem2 mem3 ready, a <> Turn mem mem2 mem3 ready) ->
  let s' := stp s a in a_viol s' = a_viol s /\ a_behaved s' = a_behaved s /\ returned s' = returned s /\ (a <> Enter -> length (a_procs s') = length (a_procs s)) /\
  (a_closed s' = false -> (a_size s' - Z.of_nat (length (submitted s')) = a_size s - Z.of_nat (length (submitted s)))%Z) /\ a_closed s = a_closed s'.
Proof.
  intros I CE NX NT. cbv zeta. destruct a; cbn [step].
  - destruct (a_waiting s); [repeat split; auto; congruence|]. unfold enter. destruct (a_entered s) eqn:EE; [repeat split; auto; congruence|].
    match goal with |- context [Nat.iter _ _ ?X] => set (s0 := X) end.
    assert (IT : forall k x, a_viol (Nat.iter k start_worker x) = a_viol x /\ a_behaved (Nat.iter k start_worker x) = a_behaved x /\ a_returned (Nat.iter k start_worker x) = a_returned x /\
       a_size (Nat.iter k start_worker x) = a_size x /\ a_submitted (Nat.iter k start_worker x) = a_submitted x /\ a_closed (Nat.iter k start_worker x) = a_closed x).
    { induction k as [|k IH]; intros x; [repeat split; auto|]. cbn [Nat.iter nat_rect]. destruct (IH x) as (A & B & C & D & E & F). repeat split; cbn; auto. }
    destruct (IT (a_n s) s0) as (A & B & C & D & E & F). unfold returned, submitted. rewrite A, B, C, D, E, F. unfold s0. cbn. repeat split; auto; try congruence.
    destruct (a_closed s) eqn:K; auto. apply CE in K. congruence.
  - congruence.
  - destruct (a_waiting s); [repeat split; auto|]. unfold submit. destruct (a_closed s) eqn:EC; unfold returned, submitted; cbn; repeat split; auto.
    + discriminate.
    + intros _. rewrite !map_length, app_length. simpl. lia.
  - destruct (a_waiting s); [repeat split; auto|]. unfold wait_start. destruct (a_futures s); repeat split; auto.
  - exfalso. eapply NT. reflexivity.
  - repeat split; auto.
  - destruct (a_waiting s); repeat split; auto.
  - unfold worker_get. destruct (find_worker _ _) as [w|]; [|repeat split; auto]. destruct (a_input s); [repeat split; auto|]. destruct (w_run w); repeat split; auto.
  - unfold worker_exec. destruct (find_worker _ _) as [w|]; [|repeat split; auto]. destruct (w_run w) as [[]|]; repeat split; auto.
  - unfold worker_flush. destruct (find_worker _ _) as [w|]; [|repeat split; auto]. destruct (w_out w); repeat split; auto.
  - repeat split; auto.
Qed.
Lemma raised_grows a s : exists l, a_raised (stp s a) = a_raised s ++ l.
Proof.
  assert (Z : forall t : st, a_raised t = a_raised s -> exists l, a_raised t = a_raised s ++ l) by (intros t H; exists []; rewrite app_nil_r; auto).
  assert (Y : forall e (t : st), a_raised t = a_raised s -> exists l, a_raised (raise e t) = a_raised s ++ l) by (intros e t H; exists [e]; cbn; rewrite H; auto).
  destruct a; cbn [step].
  - destruct (a_waiting s); auto. unfold enter. destruct (a_entered s); auto. apply Z. generalize (a_n s) at 1. intros k. induction k as [|k IH]; auto.
  - destruct (a_waiting s); auto. destruct (a_entered s); auto.
  - destruct (a_waiting s); auto. unfold submit. destruct (a_closed s); auto.
  - destruct (a_waiting s); auto. unfold wait_start. destruct (a_futures s); auto.
  - destruct (a_waiting s); auto. unfold wait_turn.
    assert (MR : forall m ps t l t', memory m ps t = (l, t') -> a_raised t' = a_raised t).
    { intros m ps. induction ps as [|p ps IH]; intros t l t' E; cbn [memory] in E; [congruence|]. destruct (m p), (alive p t).
      all: try (destruct (memory m ps t) as [l1 t1] eqn:E1; injection E as _ <-; eapply IH; eauto). apply IH in E. exact E. }
    assert (LR : forall m t, a_raised (log_memory m t) = a_raised t).
    { intros m t. unfold log_memory. destruct (a_log t); auto. destruct (memory m (0 :: a_procs t) t) as [l t'] eqn:E. apply MR in E. exact E. }
    assert (CR : a_raised (snd (control mem mem2 s)) = a_raised s).
    { unfold control. destruct (a_limit s); auto. destruct (memory mem (0 :: a_procs s) s) as [u s1] eqn:E. apply MR in E. destruct (n <? total u); [|exact E].
      cbv zeta. assert (LE : a_raised (log_memory mem2 s1) = a_raised s) by (rewrite LR; exact E). destruct (max_by (tl u)) as [[p m]|]; [|exact LE].
      unfold stop_worker. cbn [set_pool a_procs]. destruct (_ || _); destruct (existsb _ _); exact LE. }
    destruct (control mem mem2 s) as [[x|e] s1]; cbn [snd] in CR; [|auto]. pose proof (LR mem3 s1) as LE. rewrite CR in LE. remember (log_memory mem3 s1) as s2 eqn:E2. clear E2.
    destruct (a_closed s2); auto. destruct (a_output s2) as [|[i o] out]; auto. destruct ready; auto. destruct (find_id i (a_futures s2)); auto.
  - auto.
  - destruct (a_waiting s); auto.
  - unfold worker_get. destruct (find_worker _ _) as [w|]; auto. destruct (a_input s); auto. destruct (w_run w); auto.
  - unfold worker_exec. destruct (find_worker _ _) as [w|]; auto. destruct (w_run w) as [[]|]; auto.
  - unfold worker_flush. destruct (find_worker _ _) as [w|]; auto. destruct (w_out w); auto.
  - auto.
Qed.
Lemma raised_run l : forall s, exists k, a_raised (run call s l) = a_raised s ++ k.
Proof.
  induction l as [|a l IH]; intros s; [exists []; rewrite app_nil_r; auto|]. cbn [run fold_left]. destruct (IH (stp s a)) as [k K]. destruct (raised_grows a s) as [j J].
  exists (j ++ k). unfold run in K. rewrite K, J, app_assoc. auto.
Qed.
Lemma no_raise_before a s : ~ In ValueError (a_raised (stp s a)) -> ~ In ValueError (a_raised s).
Proof. intros H K. apply H. destruct (raised_grows a s) as [l ->]. apply in_or_app. auto. Qed.
(** The counters of the evaluator are what was counted. *)
Definition counts (s : st) (t : tally) : Prop :=
  a_viol s = t_over t /\ a_behaved s = t_done t /\
  (a_closed s = false -> a_size s = (Z.of_nat (length (submitted s)) - Z.of_nat (length (returned s)) - Z.of_nat (a_n s) - Z.of_nat (t_all t))%Z).
Lemma shrunk_iff s n : 1 <= length (a_procs s) -> (n = length (a_procs s) - 1 -> (n <? length (a_procs s)) = true).
Proof. intros H ->. apply Nat.ltb_lt. lia. Qed.
Lemma counts_step a s t : inv s -> ce s -> ~ In ValueError (a_raised (stp s a)) -> counts s t -> counts (stp s a) (count call s a t).
Proof.
  intros I CE NV (C1 & C2 & C3).
  assert (T : (exists mem mem2 mem3 ready, a = Turn mem mem2 mem3 ready) \/ (forall mem mem2 mem3 ready, a <> Turn mem mem2 mem3 ready)).
  { destruct a; try (right; intros; discriminate). left. eauto. }
  destruct T as [(mem & mem2 & mem3 & ready & ->)|NT].
  - destruct (a_waiting s) eqn:W.
    2:{ unfold count. cbn [step]. rewrite W. cbn [andb]. rewrite Nat.sub_diag, Nat.add_0_r. split; [|split]; auto. }
    pose proof (turn_counts mem mem2 mem3 ready s I W NV) as TC. cbv zeta in TC. destruct TC as (T1 & T2 & T3 & T4 & T5 & T6 & T7 & T8).
    unfold count. rewrite W. cbn [andb].
    pose proof (step_limit call (Turn mem mem2 mem3 ready) s I) as SL.
    destruct (flags_step call (Turn mem mem2 mem3 ready) s I ltac:(discriminate) ltac:(discriminate)) as [_ FL].
    remember (stp s (Turn mem mem2 mem3 ready)) as s' eqn:ES. clear ES.
    assert (AN : a_n s' = a_n s) by apply SL.
    unfold counts. rewrite FL, AN, T3, T4, T5, T6, T7. destruct (exceeds mem s) eqn:EX; cbn [andb] in *.
    + specialize (T2 eq_refl). destruct (shrinks s).
      * rewrite T1. replace (length (a_procs s) - 1 <? length (a_procs s)) with true by (symmetry; apply Nat.ltb_lt; lia). cbn [t_over t_done t_all].
        split; [auto|]. split; [lia|]. intros CL. rewrite (C3 CL). lia.
      * rewrite T1, Nat.sub_0_r, Nat.ltb_irrefl. cbn [t_over t_done t_all]. split; [congruence|]. split; [lia|]. intros CL. rewrite (C3 CL). lia.
    + cbn [t_over t_done t_all]. split; [congruence|]. split; [lia|]. intros CL. rewrite (C3 CL). lia.
  - pose proof (step_limit call a s I) as SL.
    assert (AN : a_n (stp s a) = a_n s) by apply SL.
    assert (CN : count call s a t = mkTally (t_over t) (t_done t + (length (returned (stp s a)) - length (returned s))) (t_all t)).
    { unfold count. destruct a; try reflexivity. exfalso. eapply NT. reflexivity. }
    rewrite CN. unfold counts. cbn [t_over t_done t_all].
    assert (X : a = Exit \/ a <> Exit) by (destruct a; auto; right; discriminate). destruct X as [->|NX].
    + cbn [step]. destruct (a_waiting s); [rewrite Nat.sub_diag, Nat.add_0_r; auto|]. destruct (a_entered s); [|rewrite Nat.sub_diag, Nat.add_0_r; auto].
      unfold returned. cbn. rewrite Nat.sub_diag, Nat.add_0_r. split; auto. split; auto. discriminate.
    + pose proof (other_counts a s I CE NX NT) as OC. cbv zeta in OC. destruct OC as (O1 & O2 & O3 & O4 & O5 & O6). rewrite O1, O2, O3, Nat.sub_diag, Nat.add_0_r, AN. split; auto. split; auto.
      intros CL. specialize (O5 CL). rewrite <- O6 in CL. specialize (C3 CL). lia.
Qed.
Lemma counts_run l : forall s t, inv s -> ce s -> counts s t -> ~ In ValueError (a_raised (run call s l)) -> counts (run call s l) (counted_over call s l t).
Proof.
  induction l as [|a l IH]; intros s t I CE C NV; [exact C|]. cbn [run fold_left counted_over]. apply IH.
  - apply inv_step; auto.
  - apply ce_step; auto.
  - apply counts_step; auto. intros K. apply NV. cbn [run fold_left]. destruct (raised_run l (stp s a)) as [k E]. unfold run in E. rewrite E. apply in_or_app. auto.
  - exact NV.
Qed.
Lemma counts_reach n limit log d l : ~ In ValueError (a_raised (run call (new_evaluator n limit log d) l)) ->
  counts (run call (new_evaluator n limit log d) l) (tallied call n limit log d l).
Proof.
  intros NV. apply counts_run; auto; [apply inv_new; auto|unfold ce; simpl; discriminate|].
  split; [auto|split; auto]. intros _. cbn. lia.
Qed.
End More.

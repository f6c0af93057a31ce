(** Theorems about async_evaluator.py; restated in [Async_Props.v]. *)
(*IMPORTS*)
From Verif Require Import Base Async_Model Async_Spec.
Require Import Permutation ZArith.
Open Scope nat_scope.
(*END*)
From Verif Require Import Async_Proofs Async_Proofs2 Async_Proofs3 Async_Proofs4 Async_Proofs5 Async_Proofs6 Async_Proofs7.

(** Jobs and calls of the examples: function 0 returns an evaluation that
    depends on its keyword "k", function 1 raises, function 2 runs out of memory. *)
Definition ex_call (fn : nat) (args : list nat) (kw : kwargs) (choice : nat) : outcome :=
  match fn with
  | 0 => Ret (VEval (match kw_get "k" kw with Some v => v | None => 0 end) NoError)
  | 1 => Exc 7
  | _ => Ret (VTuple [VEval 3 MemErr; VPlain 1])
  end.
Definition ex_job (fn : nat) : job := mkJob fn [1] [("k"%string, 5)].
Definition ex_mem (m : nat) (_ : nat) : option nat := Some m.
(** Two workers; three jobs; worker 2 is faster than worker 1. *)
Definition ex_sched : list act :=
  [Submit (ex_job 0); Submit (ex_job 1); Wait; Get 1; Get 2; Exec 2 0; Turn (ex_mem 1) (ex_mem 1) (ex_mem 1) true; Flush 2;
   Turn (ex_mem 1) (ex_mem 1) (ex_mem 1) true; Submit (ex_job 2); Get 2; Exec 2 0; Exec 1 0; Wait; Flush 1].
Lemma ex_accepted : accepted ex_call.
Proof. intros [|[|fn]] args kw c; simpl; auto. Qed.
Lemma ex_no_crash : Forall (fun a => ~ is_crash a) ex_sched.
Proof. repeat constructor; simpl; tauto. Qed.

Lemma enter_inv call n limit log d l : inv call (fun _ => True) (run call (new_evaluator n limit log d) (Enter :: l)).
Proof. apply reach_inv. Qed.
Lemma reach_full call n log d l : accepted call -> Forall (fun a => ~ is_crash a) l -> full (run call (new_evaluator n None log d) (Enter :: l)).
Proof.
  intros A F. simpl. apply full_run; auto.
  - apply (inv_step call (fun _ => True) Enter (new_evaluator n None log d)); auto. apply inv_new; auto.
  - apply (full_enter call).
Qed.
Lemma run_n call l : forall s, inv call (fun _ => True) s -> a_n (run call s l) = a_n s /\ a_limit (run call s l) = a_limit s.
Proof.
  induction l as [|a l IH]; intros s I; simpl; auto. destruct (IH (step call s a)) as [-> ->]; [apply inv_step; auto|].
  destruct (step_limit call a s I) as [-> ->]. auto.
Qed.
Lemma reach_n call n limit log d l : a_n (run call (new_evaluator n limit log d) l) = n /\ a_limit (run call (new_evaluator n limit log d) l) = limit.
Proof. apply run_n. apply inv_new; auto. Qed.

(** C38. Without a memory limit and with results the worker accepts, inside the context, whatever the
    order in which the processes run: no future is returned twice, only submitted
    futures are returned, and the submitted futures are exactly the returned ones, those in
    the queue, those in a worker and those finished but not collected. *)
Lemma C38_exactly_once_main : forall call n log d l,
  accepted call -> Forall (fun a => ~ is_crash a) l ->
  let s := run call (new_evaluator n None log d) (Enter :: l) in
  a_closed s = false ->
  NoDup (submitted s) /\ Permutation (submitted s) (returned s ++ queued s ++ in_workers s ++ finished s).
Proof.
  intros call n log d l A F s C. pose proof (enter_inv call n None log d l) as I. fold s in I.
  pose proof (reach_full call n log d l A F) as FU. fold s in FU. split.
  - rewrite (i_ids _ _ _ I). apply seq_NoDup.
  - change (queued s ++ in_workers s ++ finished s) with (pend s).
    eapply perm_trans; [apply Permutation_sym, (i_perm _ _ _ I)|]. eapply perm_trans; [apply Permutation_app_comm|].
    apply Permutation_app_head. apply FU. auto.
Qed.
Example C38_ex_main :
  let s := run ex_call (new_evaluator 2 None true []) (Enter :: ex_sched) in
  accepted ex_call /\ Forall (fun a => ~ is_crash a) ex_sched /\ a_closed s = false /\
  submitted s = [0; 1; 2] /\ returned s = [1] /\ queued s = [] /\ in_workers s = [2] /\ finished s = [0].
Proof. split; [apply ex_accepted|]. split; [apply ex_no_crash|]. vm_compute. auto 10. Qed.

(** C38. Delivery cannot be put off for ever: from any such state the workers can do only
    boundedly many steps that change anything, and when none of their steps does
    anything, every future that was not returned is finished. *)
Lemma C38_progress_main : forall call n log d l,
  accepted call -> Forall (fun a => ~ is_crash a) l -> 1 <= n ->
  let s := run call (new_evaluator n None log d) (Enter :: l) in
  a_closed s = false ->
  (forall ws, busy call s ws -> length ws <= 3 * (length (submitted s) - length (returned s))) /\
  ((forall a, is_worker_step a -> step call s a = s) -> Permutation (submitted s) (returned s ++ finished s)).
Proof.
  intros call n log d l A F N s C. pose proof (enter_inv call n None log d l) as I. fold s in I.
  pose proof (reach_full call n log d l A F) as FU. fold s in FU.
  destruct (C38_exactly_once_main call n log d l A F C) as [_ P]. fold s in P. split.
  - intros ws B. pose proof (busy_work call _ _ B I A) as K. pose proof (work_pend call s I) as K'.
    pose proof (Permutation_length P) as PL. rewrite app_length in PL. unfold pend in K'. lia.
  - intros H. assert (LV : a_live s <> []).
    { intros E. pose proof (f_live _ FU C) as FL.
      destruct (reach_n call n None log d (Enter :: l)) as [RN _]. fold s in RN.
      pose proof (p_size _ (i_pool _ _ _ I) (f_entered _ FU) C ltac:(rewrite RN; auto)) as PS.
      unfold pids in FL. rewrite E in FL. destruct (a_procs s) as [|p ps]; simpl in *; [lia|]. destruct (FL p). simpl; auto. }
    destruct (stuck_done call s I A LV H) as [Q W]. rewrite Q, W in P. exact P.
Qed.
Example C38_progress_ex_main :
  let s := run ex_call (new_evaluator 2 None true []) (Enter :: ex_sched) in
  busy ex_call s [Flush 2] /\ step ex_call s (Flush 2) <> s.
Proof.
  intros s. split; [apply b_cons; [exact Logic.I| |apply b_nil]|]; (intros E; apply (f_equal a_output) in E; vm_compute in E; discriminate).
Qed.

(** C38. A pending wait_next returns: in every such state in which it waits, the workers can run so that its
    next turn returns one of the futures it waits for. *)
Lemma C38_delivery_main : forall call n log d l,
  accepted call -> Forall (fun a => ~ is_crash a) l -> 1 <= n ->
  let s := run call (new_evaluator n None log d) (Enter :: l) in
  a_closed s = false -> a_waiting s = true -> ~ incl (submitted s) (returned s) ->
  exists ws, Forall is_worker_step ws /\ forall mem mem2 mem3, exists id o,
    In id (submitted s) /\ ~ In id (returned s) /\
    let s' := run call s (ws ++ [Turn mem mem2 mem3 true]) in
    a_returned s' = a_returned s ++ [(id, o)] /\ a_waiting s' = false.
Proof.
  intros call n log d l A F N s C W NE. pose proof (enter_inv call n None log d l) as I. fold s in I.
  pose proof (reach_full call n log d l A F) as FU. fold s in FU.
  destruct (reach_n call n None log d (Enter :: l)) as [RN _]. fold s in RN.
  destruct (delivered_next call s I FU A) as (ws & FW & H); auto; try lia.
  { intros E. apply NE. intros i K. apply (Permutation_in _ (Permutation_sym (i_perm _ _ _ I))) in K. rewrite E in K. auto. }
  exists ws. split; auto. intros mem mem2 mem3. destruct (H mem mem2 mem3) as (id & o & HI & H1 & H2). exists id, o.
  assert (ND : NoDup (map fst (a_futures s) ++ returned s)).
  { eapply Permutation_NoDup; [apply Permutation_sym, (i_perm _ _ _ I)|]. rewrite (i_ids _ _ _ I). apply seq_NoDup. }
  split; [apply (Permutation_in _ (i_perm _ _ _ I)); apply in_or_app; auto|]. split.
  - intros K. clear - ND HI K. induction (map fst (a_futures s)) as [|x f IH]; [destruct HI|]. simpl in ND. apply NoDup_cons_iff in ND as [N1 N2].
    destruct HI as [->|HI]; auto. apply N1, in_or_app; auto.
  - cbv zeta. rewrite run_app. simpl run. auto.
Qed.
Example C38_delivery_ex_main :
  let s := run ex_call (new_evaluator 2 None true []) (Enter :: ex_sched) in
  a_waiting s = true /\ ~ incl (submitted s) (returned s).
Proof. vm_compute. split; auto. intros H. destruct (H 0) as [E|[]]; auto. discriminate. Qed.

(** C39, where it fails: keyword arguments given to submit are overridden by the defaults of
    the evaluator. *)
Lemma C39_own_call_refuted_main : exists call d l i o j choice,
  let s := run call (new_evaluator 1 None false d) l in
  accepted call /\ In (i, o) (a_returned s) /\ In (i, j) (a_submitted s) /\
  (forall choice', ~ reported o (call (j_fn j) (j_args j) (j_kwargs j) choice')) /\
  o = call (j_fn j) (j_args j) d choice.
Proof.
  exists ex_call, [("k"%string, 9)], [Enter; Submit (ex_job 0); Wait; Get 1; Exec 1 0; Flush 1; Turn (ex_mem 1) (ex_mem 1) (ex_mem 1) true],
    0, (Ret (VEval 9 NoError)), (ex_job 0), 0.
  split; [apply ex_accepted|]. split; [vm_compute; auto|]. split; [vm_compute; auto|]. split; [|reflexivity].
  intros c' E. vm_compute in E. discriminate.
Qed.

Lemma kw_get_app k a b : kw_get k (a ++ b) = match kw_get k a with Some v => Some v | None => kw_get k b end.
Proof. induction a as [|[k' v] a IH]; simpl; auto. destruct (String.eqb k' k); auto. Qed.
Lemma kw_get_merge k a b : kw_get k (kw_merge a b) = match kw_get k b with Some v => Some v | None => kw_get k a end.
Proof.
  unfold kw_merge. rewrite kw_get_app.
  assert (H1 : forall a', kw_get k (map (fun x => (fst x, match kw_get (fst x) b with Some v => v | None => snd x end)) a') =
    match kw_get k a' with None => None | Some v => Some (match kw_get k b with Some w => w | None => v end) end).
  { induction a' as [|[k' v] a' IH]; simpl; auto. destruct (String.eqb_spec k' k) as [->|]; auto. }
  rewrite H1. destruct (kw_get k a) as [v|] eqn:E; [destruct (kw_get k b); auto|].
  assert (H2 : forall b', kw_get k (filter (fun x => match kw_get (fst x) a with None => true | Some _ => false end) b') = kw_get k b').
  { induction b' as [|[k' v] b' IH]; simpl; auto. destruct (kw_get k' a) eqn:E'; simpl; rewrite IH; auto.
    destruct (String.eqb_spec k' k) as [->|]; auto. congruence. }
  rewrite H2. destruct (kw_get k b); auto.
Qed.
Lemma kw_merge_nil a : kw_merge a [] = a.
Proof. unfold kw_merge. simpl. rewrite app_nil_r. induction a as [|[k v] a IH]; simpl; auto. f_equal; auto. Qed.
Lemma deliver_reported o o' : deliver o' = Some o -> reported o o'.
Proof.
  unfold reported. destruct o' as [v|e|]; simpl; intros E; [|inversion E; auto|discriminate].
  destruct v as [n|n|n|n e|[|x l]]; simpl in E; try discriminate; try (inversion E; subst; auto; fail).
  - destruct e; inversion E; subst; auto.
  - destruct x as [n|n|n|n e|l']; simpl in E; try discriminate. destruct e; inversion E; subst; auto.
Qed.
Lemma deliver_good o : good o <-> deliver o <> None.
Proof.
  destruct o as [v|e|]; simpl; [|split; auto; discriminate|split; [tauto|congruence]].
  destruct v as [n|n|n|n e|[|x l]]; simpl; try (split; [tauto|congruence]); try (split; auto; discriminate).
  - destruct e; simpl; split; auto; discriminate.
  - destruct x as [n|n|n|n e|l']; simpl; try (split; [tauto|congruence]). destruct e; simpl; split; auto; discriminate.
Qed.

(** C39. Under every schedule, with or without memory limits and crashes: a returned
    future carries the outcome of calling its own function with its own positional
    arguments and its own keywords, extended by defaults that were in
    force at some moment. A keyword has the submitted value unless these defaults have it too. *)
Lemma C39_own_call_partial_main : forall call n limit log d0 l i o,
  let s := run call (new_evaluator n limit log d0) l in
  In (i, o) (a_returned s) ->
  exists j d kw choice, In (i, j) (a_submitted s) /\ (d = d0 \/ In (Defaults d) l) /\
    reported o (call (j_fn j) (j_args j) kw choice) /\
    (forall k, kw_get k kw = match kw_get k d with Some v => Some v | None => kw_get k (j_kwargs j) end).
Proof.
  intros call n limit log d0 l i o s H.
  assert (I : inv call (fun d => d = d0 \/ In (Defaults d) l) s).
  { apply inv_run; auto. apply inv_new; auto. }
  pose proof (i_ret _ _ _ I) as R. rewrite Forall_forall in R. destruct (R _ H) as (j & d & c & A & B & C).
  exists j, d, (kw_merge (j_kwargs j) d), c. split; auto. split; auto. split; [apply deliver_reported; auto|]. intros k. apply kw_get_merge.
Qed.
(** C39, without defaults: the outcome of exactly its own call. *)
Lemma C39_own_call_no_defaults_main : forall call n limit log l i o,
  (forall d, In (Defaults d) l -> d = []) ->
  let s := run call (new_evaluator n limit log []) l in
  In (i, o) (a_returned s) ->
  exists j choice, In (i, j) (a_submitted s) /\ (forall j', In (i, j') (a_submitted s) -> j' = j) /\
    reported o (call (j_fn j) (j_args j) (j_kwargs j) choice).
Proof.
  intros call n limit log l i o HD s H.
  assert (I : inv call (fun d => d = []) s).
  { apply inv_run; auto. apply inv_new; auto. }
  pose proof (i_ret _ _ _ I) as R. rewrite Forall_forall in R. destruct (R _ H) as (j & d & c & A & B & C).
  exists j, c. split; auto. split.
  - intros j' A'. assert (ND : NoDup (map fst (a_submitted s))) by (pose proof (i_ids _ _ _ I) as E; unfold submitted in E; rewrite E; apply seq_NoDup).
    cbn [fst] in A. clear - A A' ND. induction (a_submitted s) as [|x f IH]; [destruct A|]. simpl in ND. apply NoDup_cons_iff in ND as [N1 N2].
    destruct A as [->|A], A' as [E|A'].
    + injection E as ->. auto.
    + exfalso. apply N1. apply (in_map fst) in A'. auto.
    + subst x. exfalso. apply N1. apply (in_map fst) in A. auto.
    + auto.
  - subst d. unfold execute in C. rewrite kw_merge_nil in C. apply deliver_reported; auto.
Qed.
Example C39_ex_main :
  let s := run ex_call (new_evaluator 2 (Some 50) true []) (Enter :: ex_sched ++ [Flush 2; Turn (ex_mem 1) (ex_mem 1) (ex_mem 1) true; Wait; Turn (ex_mem 1) (ex_mem 1) (ex_mem 1) true]) in
  a_returned s = [(1, Exc 7); (0, Ret (VEval 5 NoError)); (2, Ret (VTuple [VEval 3 MemStr; VPlain 1]))] /\ a_raised s = [].
Proof. vm_compute. auto. Qed.

(** C40. In every reachable state, whatever happened before: wait_next raises RuntimeError
    at once exactly when every submitted future was returned; otherwise it starts
    to wait, and while it waits it raises at most ValueError. *)
Lemma C40_wait_error_main : forall call n limit log d l,
  let s := run call (new_evaluator n limit log d) l in
  a_waiting s = false ->
  let s' := step call s Wait in
  (incl (submitted s) (returned s) -> a_raised s' = a_raised s ++ [RuntimeError] /\ a_waiting s' = false) /\
  (~ incl (submitted s) (returned s) -> a_raised s' = a_raised s /\ a_waiting s' = true).
Proof.
  intros call n limit log d l s W s'. pose proof (reach_inv call n limit log d l) as I. fold s in I.
  subst s'. simpl. rewrite W. unfold wait_start. pose proof (i_perm _ _ _ I) as P.
  assert (K : incl (submitted s) (returned s) <-> a_futures s = []).
  { split.
    - intros H. destruct (a_futures s) as [|[i j] f] eqn:E; auto. exfalso.
      assert (ND : NoDup (map fst (a_futures s) ++ returned s)).
      { rewrite E. eapply Permutation_NoDup; [apply Permutation_sym, P|]. rewrite (i_ids _ _ _ I). apply seq_NoDup. }
      rewrite E in ND. simpl in ND. apply NoDup_cons_iff in ND as [N1 _]. apply N1. apply in_or_app. right. apply H.
      eapply Permutation_in; [exact P|]. simpl. auto.
    - intros E i K. apply (Permutation_in _ (Permutation_sym P)) in K. rewrite E in K. auto. }
  destruct (a_futures s) as [|x f] eqn:E.
  - split; [auto|]. intros H. exfalso. apply H, K. auto.
  - split; [|auto]. intros H. apply K in H. discriminate.
Qed.
Lemma C40_waiting_main : forall call n limit log d l mem mem2 mem3 ready,
  let s := run call (new_evaluator n limit log d) l in
  let s' := step call s (Turn mem mem2 mem3 ready) in
  (a_raised s' = a_raised s \/ a_raised s' = a_raised s ++ [ValueError]) /\
  (inside s -> limit = None -> a_raised s' = a_raised s).
Proof.
  intros call n limit log d l mem mem2 mem3 ready s s'. pose proof (reach_inv call n limit log d l) as I. fold s in I.
  subst s'. simpl. destruct (a_waiting s); [|auto]. split.
  - destruct (wait_turn_cases call _ mem mem2 mem3 ready s I) as (x & s1 & C & H).
    pose proof (controlled_frame _ _ _ C) as (pr & lv & sz & v & b & pid & EF). assert (ER : a_raised s1 = a_raised s) by (rewrite EF; auto).
    destruct x as [[]|e].
    + destruct H as (s2 & R & I2 & H). apply repl_fields in R. destruct R as (R1 & R2 & R3 & R4 & R5 & R6 & R7 & R8 & R9 & R10 & R11).
      destruct (a_closed s2); [rewrite H; cbn; rewrite R11, ER; auto|].
      destruct (a_output s2) as [|[id o] out]; [rewrite H, R11; auto|]. destruct ready; rewrite H; cbn; rewrite R11; auto.
    + destruct H as [-> _]. cbn. rewrite ER. right. inversion C; auto.
  - intros [_ C] L. destruct (turn_nolimit call mem mem2 mem3 ready s I) as (s2 & R & I2 & H).
    { unfold s. rewrite (proj2 (reach_n call n limit log d l)). auto. }
    apply repl_fields in R. destruct R as (R1 & R2 & R3 & R4 & R5 & R6 & R7 & R8 & R9 & R10 & R11).
    rewrite R4, C in H. destruct (a_output s2) as [|[id o] out]; [rewrite H, R11; auto|]. destruct ready; rewrite H; cbn; rewrite R11; auto.
Qed.
Example C40_ex_main :
  let s := run ex_call (new_evaluator 1 None false []) [Enter; Submit (ex_job 0); Wait; Get 1; Exec 1 0; Flush 1; Turn (ex_mem 1) (ex_mem 1) (ex_mem 1) true] in
  a_waiting s = false /\ submitted s = [0] /\ returned s = [0] /\
  a_raised (step ex_call s Wait) = [RuntimeError] /\ a_waiting (run ex_call s [Submit (ex_job 1); Wait]) = true.
Proof. vm_compute. auto 10. Qed.

(** C41, where it fails: when the memory limit is exceeded the worker that uses the most is
    stopped, and the future it was executing is never delivered, whatever happens
    afterwards, although a new worker runs in its place. *)
Lemma C41_no_loss_refuted_main : exists call n limit d l i,
  accepted call /\ Forall (fun a => ~ is_crash a) l /\ 1 <= n /\
  let s := run call (new_evaluator n (Some limit) false d) l in
  inside s /\ In i (submitted s) /\ a_live s <> [] /\ a_waiting s = true /\
  (forall l', ~ In i (returned (run call s l'))).
Proof.
  exists ex_call, 1, 10, [], [Enter; Submit (ex_job 0); Wait; Get 1; Turn (ex_mem 100) (ex_mem 100) (ex_mem 100) true], 0.
  split; [apply ex_accepted|]. split; [repeat constructor; simpl; tauto|]. split; auto. cbv zeta.
  split; [vm_compute; auto|]. split; [vm_compute; auto|]. split; [vm_compute; discriminate|]. split; [vm_compute; auto|].
  intros l'. apply lost_forever; [apply reach_inv|vm_compute; auto|vm_compute; tauto|vm_compute; tauto].
Qed.
(** C41, the part that holds: inside the context, every step of every process keeps each outstanding future outstanding or
    returns it, except those in a worker whose process ends in that step. *)
Lemma C41_no_loss_partial_main : forall call n limit log d l a i,
  let s := run call (new_evaluator n limit log d) l in
  let s' := step call s a in
  inside s -> a <> Exit -> In i (queued s ++ in_workers s ++ finished s) ->
  In i (queued s' ++ in_workers s' ++ finished s') \/ In i (returned s') \/
  exists w, In w (a_live s) /\ In i (held_by w) /\ ~ In (w_pid w) (map w_pid (a_live s')).
Proof.
  intros call n limit log d l a i s s' [E C] NX H. apply (step_keeps call a s i); auto. apply reach_inv.
Qed.
(** C41, which worker is stopped: while wait_next waits, a worker process ends only when the memory limit is exceeded, it uses the most, and
    it is the only one; *)
Lemma C41_only_largest_main : forall call n limit log d l mem mem2 mem3 ready w,
  let s := run call (new_evaluator n limit log d) l in
  let s' := step call s (Turn mem mem2 mem3 ready) in
  In w (a_live s) -> ~ In (w_pid w) (map w_pid (a_live s')) ->
  (exists L, limit = Some L /\ L < reading mem 0 + list_sum (map (reading mem) (a_procs s))) /\
  (forall p, In p (a_procs s) -> reading mem p <= reading mem (w_pid w)) /\
  (forall w', In w' (a_live s) -> ~ In (w_pid w') (map w_pid (a_live s')) -> w_pid w' = w_pid w).
Proof.
  intros call n limit log d l mem mem2 mem3 ready w s s' Hw N. pose proof (reach_inv call n limit log d l) as I. fold s in I.
  destruct (a_waiting s) eqn:W.
  2:{ exfalso. apply N. unfold s'. simpl. rewrite W. apply in_map. auto. }
  destruct (turn_stops call mem mem2 mem3 ready s I W) as [A _]. fold s' in A.
  assert (PK : forall v, In v (a_live s) -> ~ In (w_pid v) (map w_pid (a_live s')) -> pick mem s = Some (w_pid v)).
  { intros v Hv Nv. destruct (option_map (Nat.eqb (w_pid v)) (pick mem s)) as [[|]|] eqn:E.
    - destruct (pick mem s) as [q|]; [|discriminate]. inversion E as [E']. apply Nat.eqb_eq in E'. congruence.
    - exfalso. apply Nv. apply in_map. apply A; auto. intros K. rewrite K in E. simpl in E. rewrite Nat.eqb_refl in E. discriminate.
    - exfalso. apply Nv. apply in_map. apply A; auto. intros K. rewrite K in E. discriminate. }
  destruct (reach_n call n limit log d l) as [_ RL]. fold s in RL.
  destruct (pick_chosen _ _ _ (PK w Hw N)) as (L & E1 & E2 & E3).
  split; [exists L; split; auto; congruence|]. split; auto.
  intros w' Hw' N'. pose proof (PK w Hw N). pose proof (PK w' Hw' N'). congruence.
Qed.
(** and when the limit is exceeded and all workers run, one is stopped. *)
Lemma C41_exceeded_main : forall call n L log d l mem mem2 mem3 ready,
  let s := run call (new_evaluator n (Some L) log d) l in
  let s' := step call s (Turn mem mem2 mem3 ready) in
  1 <= n -> inside s -> a_waiting s = true -> incl (a_procs s) (map w_pid (a_live s)) ->
  L < reading mem 0 + list_sum (map (reading mem) (a_procs s)) ->
  exists w, In w (a_live s) /\ ~ In (w_pid w) (map w_pid (a_live s')).
Proof.
  intros call n L log d l mem mem2 mem3 ready s s' N IN W A HL. pose proof (reach_inv call n (Some L) log d l) as I. fold s in I.
  pose proof (i_pool _ _ _ I) as P. destruct (reach_n call n (Some L) log d l) as [RN RL]. fold s in RN, RL.
  destruct (alive_all_pick mem s L P A) as (p & E & Hp); auto.
  { destruct IN as [I1 I2]. pose proof (p_size _ P I1 I2) as PS. rewrite RN in PS. intros K. rewrite K in PS. specialize (PS N). simpl in PS. lia. }
  apply A in Hp. apply in_map_iff in Hp as (w & Ew & Hw). exists w. split; auto.
  destruct (turn_stops call mem mem2 mem3 ready s I W) as [_ B]. apply B; auto. congruence.
Qed.
Example C41_exceeded_ex_main :
  let s := run ex_call (new_evaluator 2 (Some 10) true []) (Enter :: [Submit (ex_job 0); Submit (ex_job 1); Submit (ex_job 1); Wait; Get 1; Get 2; Exec 2 0; Flush 2]) in
  let mem := fun p => Some (10 * (2 - p)) in
  let s' := step ex_call s (Turn mem (ex_mem 1) (ex_mem 1) false) in
  inside s /\ a_waiting s = true /\ a_procs s = [1; 2] /\ map w_pid (a_live s) = [1; 2] /\
  reading mem 0 + list_sum (map (reading mem) (a_procs s)) = 30 /\ map w_pid (a_live s') = [2].
Proof. vm_compute. auto 10. Qed.
Example C41_ex_main :
  let s := run ex_call (new_evaluator 2 (Some 10) true []) (Enter :: [Submit (ex_job 0); Submit (ex_job 1); Submit (ex_job 1); Wait; Get 1; Get 2; Exec 2 0; Flush 2]) in
  let s' := step ex_call s (Turn (fun p => Some (10 * (2 - p))) (ex_mem 1) (ex_mem 1) false) in
  inside s /\ queued s = [2] /\ in_workers s = [0] /\ finished s = [1] /\
  queued s' = [2] /\ in_workers s' = [] /\ finished s' = [1] /\ map w_pid (a_live s') = [2].
Proof. vm_compute. auto 10. Qed.

(** C42, where it fails: a result that is true but has no field [error] (or whose truth value cannot be
    determined, like an array) ends the worker; its future is never delivered. *)
Lemma C42_any_result_refuted_main : forall v, (exists m, v = VPlain m \/ v = VAmbiguous m) ->
  exists call l i,
  let s := run call (new_evaluator 1 None false []) l in
  (forall fn args kw choice, call fn args kw choice = Ret v) /\ Forall (fun a => ~ is_crash a) l /\
  inside s /\ In i (submitted s) /\ a_live s = [] /\
  (forall l', ~ In i (returned (run call s l'))).
Proof.
  intros v [m [-> | ->]].
  - exists (fun _ _ _ _ => Ret (VPlain m)), [Enter; Submit (ex_job 0); Wait; Get 1; Exec 1 0], 0. cbv zeta.
    split; auto. split; [repeat constructor; simpl; tauto|].
    split; [vm_compute; auto|]. split; [vm_compute; auto|]. split; [vm_compute; auto|].
    intros l'. apply lost_forever; [apply reach_inv|vm_compute; auto|vm_compute; tauto|vm_compute; tauto].
  - exists (fun _ _ _ _ => Ret (VAmbiguous m)), [Enter; Submit (ex_job 0); Wait; Get 1; Exec 1 0], 0. cbv zeta.
    split; auto. split; [repeat constructor; simpl; tauto|].
    split; [vm_compute; auto|]. split; [vm_compute; auto|]. split; [vm_compute; auto|].
    intros l'. apply lost_forever; [apply reach_inv|vm_compute; auto|vm_compute; tauto|vm_compute; tauto].
Qed.
(** C42, the results that are delivered: when a worker executes a job, its outcome is on its way to the user exactly
    when it is of the accepted kinds; any other outcome is never delivered. *)
Lemma C42_any_result_partial_main : forall call n limit log d l w i j choice,
  let s := run call (new_evaluator n limit log d) l in
  In w (a_live s) -> w_run w = Some (i, j) ->
  let o := call (j_fn j) (j_args j) (kw_merge (j_kwargs j) (w_defaults w)) choice in
  let s' := step call s (Exec (w_pid w) choice) in
  (good o -> exists w' o', In w' (a_live s') /\ w_pid w' = w_pid w /\ In (i, o') (w_out w') /\ reported o' o) /\
  (~ good o -> ~ In (w_pid w) (map w_pid (a_live s')) /\ forall l', ~ In i (returned (run call s' l'))).
Proof.
  intros call n limit log d l w i j choice s Hw HR o s'. pose proof (reach_inv call n limit log d l) as I. fold s in I.
  pose proof (find_worker_in w s (i_pool _ _ _ I) Hw) as F.
  destruct (on_worker_split (w_pid w) _ w F (p_lnodup _ (i_pool _ _ _ I))) as (l1 & l2 & EL & Ep & FW).
  assert (I' : inv call (fun _ => True) s') by (apply inv_step; auto).
  assert (ES : s' = set_queues (a_input s) (a_output s) (l1 ++ (match deliver o with Some o0 => [mkWorker (w_pid w) (w_defaults w) None (w_out w ++ [(i, o0)])] | None => [] end) ++ l2) s).
  { unfold s'. simpl. unfold worker_exec. rewrite F, HR, FW. unfold execute. fold o. destruct (deliver o); auto. }
  pose proof (deliver_good o) as DG. pose proof (fun o' => deliver_reported o' o) as DR.
  destruct (deliver o) as [o'|].
  - split; [|intros H; exfalso; apply H, DG; discriminate]. intros _.
    exists (mkWorker (w_pid w) (w_defaults w) None (w_out w ++ [(i, o')])), o'. rewrite ES. cbn. split; [apply in_or_app; simpl; auto|].
    split; auto. split; [apply in_or_app; simpl; auto|]. apply DR. auto.
  - split; [intros H; apply DG in H; tauto|]. intros _. cbn [app] in ES.
    assert (HI : In i (pend s)).
    { unfold pend, in_workers. rewrite !in_app_iff. right. left. apply in_flat_map. exists w. split; auto. unfold held_by. rewrite HR. simpl. auto. }
    split.
    + rewrite ES. cbn. pose proof (p_lnodup _ (i_pool _ _ _ I)) as N. unfold pids in N. rewrite EL, map_app in N. simpl in N. apply NoDup_remove_2 in N. rewrite map_app. auto.
    + intros l'. apply lost_forever; auto.
      * rewrite ES. apply (Permutation_in _ (i_perm _ _ _ I)). apply in_or_app. left. apply (i_pend _ _ _ I). auto.
      * pose proof (i_nodup _ _ _ I) as N. rewrite ES. unfold pend, queued, in_workers, finished in *. cbn. rewrite EL in N. rewrite !flat_map_app in *.
        simpl in N. assert (HW : held_by w = i :: map fst (w_out w)) by (unfold held_by; rewrite HR; auto). rewrite HW in N.
        intros K. clear - N K.
        assert (N2 : NoDup (i :: map fst (a_input s) ++ (flat_map held_by l1 ++ map fst (w_out w) ++ flat_map held_by l2) ++ map fst (a_output s))).
        { eapply Permutation_NoDup; [|exact N]. apply Permutation_sym.
          change ((i :: map fst (w_out w)) ++ flat_map held_by l2) with (i :: (map fst (w_out w) ++ flat_map held_by l2)).
          eapply perm_trans; [apply (Permutation_middle (map fst (a_input s)))|]. apply Permutation_app_head.
          eapply perm_trans; [|apply Permutation_app_tail, (Permutation_middle (flat_map held_by l1))]. simpl. auto. }
        apply NoDup_cons_iff in N2 as [N2 _]. apply N2. repeat rewrite in_app_iff in *. tauto.
      * rewrite ES. intros K. assert (ND : NoDup (map fst (a_futures s) ++ returned s)).
        { eapply Permutation_NoDup; [apply Permutation_sym, (i_perm _ _ _ I)|]. rewrite (i_ids _ _ _ I). apply seq_NoDup. }
        apply (i_pend _ _ _ I) in HI. change (In i (returned s)) in K. clear - ND HI K.
        induction (map fst (a_futures s)) as [|x f IH]; [destruct HI|]. simpl in ND. apply NoDup_cons_iff in ND as [N1 N2].
        destruct HI as [->|HI]; auto. apply N1, in_or_app; auto.
Qed.
Example C42_ex_main :
  let s := run ex_call (new_evaluator 2 None true []) (Enter :: [Submit (ex_job 2); Get 1]) in
  exists w, In w (a_live s) /\ w_run w = Some (0, ex_job 2) /\ good (ex_call 2 [1] [("k"%string, 5)] 0) /\ ~ good (Ret (VPlain 4)).
Proof. eexists. vm_compute. split; [left; reflexivity|]. auto. Qed.

(** C43. The number of worker processes: inside the context between 1 and the number the evaluator was made for,
    outside 0, under every schedule and all memory readings. *)
Lemma C43_pool_size_main : forall call n limit log d l,
  let s := run call (new_evaluator n limit log d) l in
  1 <= n ->
  (inside s -> 1 <= length (a_procs s) <= n) /\ (~ inside s -> a_procs s = []) /\
  incl (map w_pid (a_live s)) (a_procs s) /\ NoDup (a_procs s).
Proof.
  intros call n limit log d l s N. pose proof (reach_inv call n limit log d l) as I. fold s in I.
  destruct (i_pool _ _ _ I) as [P1 P2 P3 P4 P5 P6 P7 P8]. destruct (reach_n call n limit log d l) as [RN _]. fold s in RN. rewrite RN in *.
  split; [|split; [|split; auto]].
  - intros [A B]. auto.
  - intros H. apply P6. unfold inside in H. destruct (a_entered s); auto. destruct (a_closed s); auto.
Qed.
(** C43. Entering a second time raises RuntimeError and changes nothing else, also after the evaluator was closed. *)
Lemma C43_enter_twice_main : forall call n limit log d l1,
  let s := run call (new_evaluator n limit log d) (Enter :: l1) in
  a_waiting s = false ->
  let s' := step call s Enter in
  a_raised s' = a_raised s ++ [RuntimeError] /\ a_procs s' = a_procs s /\ a_live s' = a_live s /\
  a_input s' = a_input s /\ a_output s' = a_output s /\ a_futures s' = a_futures s.
Proof.
  intros call n limit log d l1 s W s'. unfold s'.
  assert (E : a_entered s = true).
  { unfold s. clear. simpl. set (s0 := enter (new_evaluator n limit log d)).
    assert (I : inv call (fun _ => True) s0) by (apply (inv_step call (fun _ => True) Enter (new_evaluator n limit log d)); auto; apply inv_new; auto).
    assert (E0 : a_entered s0 = true).
    { unfold s0, enter. cbn [new_evaluator a_entered]. match goal with |- a_entered (Nat.iter ?k _ ?x) = _ => destruct (iter_flags k x) as (H & _); cbv zeta in H; rewrite H end. auto. }
    revert I E0. generalize s0. clear s0. induction l1 as [|a l IH]; intros s I E; simpl; auto. apply IH; [apply inv_step; auto|].
    destruct a; try (match goal with |- a_entered (step _ s ?a) = true => destruct (flags_step call a s I ltac:(discriminate) ltac:(discriminate)) as [-> _]; auto end; fail).
    - simpl. destruct (a_waiting s); auto. unfold enter. rewrite E. auto.
    - simpl. destruct (a_waiting s); auto. rewrite E. auto. }
  simpl. rewrite W. unfold enter. rewrite E. auto 10.
Qed.
(** C43. After it was closed: no worker runs, nothing is returned any more, submit raises ValueError, and wait_next, if it waits
    for anything, raises ValueError instead of waiting for ever. *)
Lemma C43_closed_main : forall call n limit log d l l',
  let s := run call (new_evaluator n limit log d) l in
  let s' := run call s l' in
  a_closed s = true ->
  a_closed s' = true /\ a_live s' = [] /\ a_returned s' = a_returned s /\
  (forall j, a_waiting s' = false -> a_raised (step call s' (Submit j)) = a_raised s' ++ [ValueError]) /\
  (forall mem mem2 mem3 ready, a_waiting s' = true ->
     a_raised (step call s' (Turn mem mem2 mem3 ready)) = a_raised s' ++ [ValueError] /\
     a_waiting (step call s' (Turn mem mem2 mem3 ready)) = false).
Proof.
  intros call n limit log d l l' s s' C. pose proof (reach_inv call n limit log d l) as I. fold s in I.
  assert (CE : ce s).
  { unfold s. clear. assert (G : forall l s0, inv call (fun _ => True) s0 -> ce s0 -> ce (run call s0 l)).
    { clear. induction l as [|a l IH]; intros s0 I H; simpl; auto. apply IH; [apply inv_step; auto|apply ce_step; auto]. }
    apply G; [apply inv_new; auto|unfold ce; simpl; discriminate]. }
  assert (TURN : forall mem mem2 mem3 ready t, inv call (fun _ => True) t -> a_closed t = true -> a_waiting t = true ->
    a_raised (step call t (Turn mem mem2 mem3 ready)) = a_raised t ++ [ValueError] /\
    a_waiting (step call t (Turn mem mem2 mem3 ready)) = false /\ a_returned (step call t (Turn mem mem2 mem3 ready)) = a_returned t).
  { clear. intros mem mem2 mem3 ready t I C W. simpl. rewrite W.
    pose proof (p_out _ (i_pool _ _ _ I) (or_intror C)) as P0.
    unfold wait_turn. destruct (control mem mem2 t) as [x s1] eqn:EC.
    pose proof (control_ok _ _ _ _ _ (i_pool _ _ _ I) EC) as CO. pose proof (inv_controlled _ _ _ _ _ I CO) as I1.
    pose proof (controlled_frame _ _ _ CO) as (f1 & f2 & f3 & f4 & f5 & f6 & FR).
    assert (XE : forall e, x = Err e -> e = ValueError).
    { intros e ->. inversion CO; auto. }
    destruct x as [[]|e].
    - pose proof (log_repl mem3 s1 (i_pool _ _ _ I1)) as R.
      pose proof (repl_frame _ _ R) as (g1 & g2 & g3 & g4 & g5 & g6 & GR). rewrite GR, FR. cbn. rewrite C. cbn. auto.
    - rewrite (XE e eq_refl). rewrite FR. cbn. auto. }
  assert (G : forall l t, inv call (fun _ => True) t -> ce t -> a_closed t = true ->
     inv call (fun _ => True) (run call t l) /\ a_closed (run call t l) = true /\ a_returned (run call t l) = a_returned t).
  { clear - TURN. induction l as [|a l IH]; intros t I CE C; simpl; auto.
    assert (S : a_closed (step call t a) = true /\ a_returned (step call t a) = a_returned t).
    { destruct a; try (split; [match goal with |- a_closed (step _ t ?a) = true => destruct (flags_step call a t I ltac:(discriminate) ltac:(discriminate)) as [_ ->]; exact C end|]).
      - simpl. destruct (a_waiting t); auto. unfold enter. rewrite (CE C). auto.
      - simpl. destruct (a_waiting t); auto. rewrite (CE C). auto.
      - simpl. destruct (a_waiting t); auto. unfold submit. rewrite C. auto.
      - simpl. destruct (a_waiting t); auto. unfold wait_start. destruct (a_futures t); auto.
      - destruct (a_waiting t) eqn:W; [apply TURN; auto|simpl; rewrite W; auto].
      - auto.
      - simpl. destruct (a_waiting t); auto.
      - simpl. unfold worker_get. destruct (find_worker p (a_live t)); auto. destruct (a_input t); auto. destruct (w_run w); auto.
      - simpl. unfold worker_exec. destruct (find_worker p (a_live t)); auto. destruct (w_run w) as [[i j]|]; auto.
      - simpl. unfold worker_flush. destruct (find_worker p (a_live t)); auto. destruct (w_out w); auto.
      - auto. }
    destruct S as [S1 S2]. destruct (IH (step call t a)) as (A & B & D); auto.
    - apply inv_step; auto.
    - apply ce_step; auto.
    - rewrite D. auto. }
  destruct (G l' s I CE C) as (I' & C' & R'). fold s' in I', C', R'.
  split; auto. split.
  { pose proof (p_out _ (i_pool _ _ _ I') (or_intror C')) as P0. pose proof (p_live _ (i_pool _ _ _ I')) as P1. rewrite P0 in P1. unfold pids in P1.
    destruct (a_live s') as [|w q]; auto. exfalso. apply (P1 (w_pid w)). simpl. auto. }
  split; auto. split.
  - intros j W. simpl. rewrite W. unfold submit. rewrite C'. auto.
  - intros mem mem2 mem3 ready W. destruct (TURN mem mem2 mem3 ready s' I' C' W) as (T1 & T2 & _). auto.
Qed.
Example C43_closed_ex_main :
  let s := run ex_call (new_evaluator 2 (Some 10) true []) (Enter :: ex_sched ++ [Interrupt; Exit]) in
  let s' := run ex_call s [Submit (ex_job 0); Wait] in
  a_closed s = true /\ returned s = [1] /\ a_raised s' = [ValueError] /\ a_waiting s' = true /\ length (submitted s') = 4.
Proof. vm_compute. auto 10. Qed.
Example C43_ex_main :
  let s := run ex_call (new_evaluator 3 (Some 10) false []) [Enter; Submit (ex_job 0); Wait; Turn (ex_mem 100) (ex_mem 1) (ex_mem 1) true; Turn (ex_mem 100) (ex_mem 1) (ex_mem 1) true;
    Turn (ex_mem 100) (ex_mem 1) (ex_mem 1) true; Interrupt] in
  inside s /\ a_waiting s = false /\ a_procs s = [4] /\ a_procs (step ex_call s Exit) = [] /\
  a_raised (run ex_call s [Exit; Enter]) = [RuntimeError].
Proof. vm_compute. auto 10. Qed.

(** C44. Without memory limit (so that no worker is stopped), job_queue_size is the number of outstanding futures minus the number of workers, at every
    moment before the evaluator is closed. *)
Lemma C44_queue_size_main : forall call n log d l,
  let s := run call (new_evaluator n None log d) l in
  a_closed s = false ->
  a_size s = (Z.of_nat (length (submitted s)) - Z.of_nat (length (returned s)) - Z.of_nat n)%Z.
Proof.
  intros call n log d l s C.
  assert (H : forall l s0, inv call (fun _ => True) s0 -> ce s0 -> a_limit s0 = None -> counted s0 -> counted (run call s0 l)).
  { clear. induction l as [|a l IH]; intros s0 I CE L K; simpl; auto. apply IH.
    - apply inv_step; auto.
    - apply ce_step; auto.
    - rewrite (proj1 (step_limit call a s0 I)). auto.
    - apply counted_step; auto. }
  assert (K : counted s).
  { apply H; [apply inv_new; auto|unfold ce; simpl; discriminate|auto|]. intros _. simpl. lia. }
  specialize (K C). rewrite K. pose proof (proj1 (reach_n call n None log d l)) as RN. fold s in RN. rewrite RN. unfold submitted, returned. rewrite !map_length. auto.
Qed.
Example C44_ex_main :
  let s := run ex_call (new_evaluator 2 None true []) (Enter :: ex_sched) in a_closed s = false /\ a_size s = 0%Z /\ length (submitted s) = 3.
Proof. vm_compute. auto. Qed.

(** C44, with a memory limit: every time the limit is exceeded job_queue_size is lowered
    by one more, for the evaluation that was stopped. *)
Lemma C44_stopped_main : forall call n limit log d l,
  let s := run call (new_evaluator n limit log d) l in
  let t := tallied call n limit log d l in
  a_closed s = false -> ~ In ValueError (a_raised s) ->
  a_size s = (Z.of_nat (length (submitted s)) - Z.of_nat (length (returned s)) - Z.of_nat n - Z.of_nat (t_all t))%Z.
Proof.
  intros call n limit log d l s t C NV. destruct (counts_reach call n limit log d l NV) as (_ & _ & K). rewrite (proj1 (reach_n call n limit log d l)) in K. apply K. exact C.
Qed.
Example C44_stopped_ex_main :
  let l := [Enter; Submit (ex_job 0); Submit (ex_job 1); Wait; Get 1; Turn (ex_mem 100) (ex_mem 1) (ex_mem 1) true] in
  let s := run ex_call (new_evaluator 3 (Some 10) true []) l in
  a_closed s = false /\ a_raised s = [] /\ t_all (tallied ex_call 3 (Some 10) true [] l) = 1 /\ a_size s = (-2)%Z.
Proof. vm_compute. auto. Qed.

(** C130. What happens when the memory limit is exceeded while wait_next waits: if the
    limit was exceeded in at least one of twenty evaluations since the pool last became
    smaller (those returned and those stopped), and there is more than one worker,
    the pool becomes smaller by one; otherwise the worker is replaced. While the limit
    is not exceeded the pool keeps its size. *)
Lemma C130_policy_main : forall call n limit log d l mem mem2 mem3 ready,
  let s := run call (new_evaluator n limit log d) l in
  let t := tallied call n limit log d l in
  let s' := step call s (Turn mem mem2 mem3 ready) in
  let exceeded := S (t_over t) in
  a_waiting s = true -> ~ In ValueError (a_raised s') ->
  (exceeds mem s = false -> length (a_procs s') = length (a_procs s)) /\
  (exceeds mem s = true -> 1 < length (a_procs s) -> exceeded + t_done t <= 20 * exceeded -> S (length (a_procs s')) = length (a_procs s)) /\
  (exceeds mem s = true -> (length (a_procs s) = 1 \/ 20 * exceeded < exceeded + t_done t) -> length (a_procs s') = length (a_procs s)).
Proof.
  intros call n limit log d l mem mem2 mem3 ready s t s' exceeded W NV. pose proof (reach_inv call n limit log d l) as I. fold s in I.
  assert (NV0 : ~ In ValueError (a_raised s)) by (eapply no_raise_before; exact NV).
  destruct (counts_reach call n limit log d l NV0) as (C1 & C2 & _). fold s t in C1, C2.
  destruct (turn_counts call mem mem2 mem3 ready s I W NV) as (T1 & T2 & _). fold s' in T1. unfold shrinks in T1. rewrite C1, C2 in T1. fold exceeded in T1.
  split; [|split].
  - intros E. rewrite E in T1. cbn [andb] in T1. rewrite T1. lia.
  - intros E L H. rewrite E in T1. replace (20 * exceeded <? exceeded + t_done t) with false in T1 by (symmetry; apply Nat.ltb_ge; lia).
    replace (length (a_procs s) =? 1) with false in T1 by (symmetry; apply Nat.eqb_neq; lia). cbn [andb negb] in T1. lia.
  - intros E [L|H]; rewrite E in T1; cbn [andb] in T1.
    + rewrite L in T1 at 2. rewrite Nat.eqb_refl, andb_false_r in T1. lia.
    + replace (20 * exceeded <? exceeded + t_done t) with true in T1 by (symmetry; apply Nat.ltb_lt; lia). cbn [andb negb] in T1. lia.
Qed.
(** Nothing else changes the size of the pool between entering and leaving: not
    submitting, and not the ends of workers. *)
Lemma C130_only_then_main : forall call n limit log d l a,
  let s := run call (new_evaluator n limit log d) l in
  a <> Enter -> a <> Exit -> (forall mem mem2 mem3 ready, a <> Turn mem mem2 mem3 ready) ->
  length (a_procs (step call s a)) = length (a_procs s).
Proof.
  intros call n limit log d l a s NE NX NT. pose proof (reach_inv call n limit log d l) as I. fold s in I.
  assert (CE : ce s).
  { unfold s. clear. assert (G : forall l s0, inv call (fun _ => True) s0 -> ce s0 -> ce (run call s0 l)).
    { clear. induction l as [|a l IH]; intros s0 I H; simpl; auto. apply IH; [apply inv_step; auto|apply ce_step; auto]. }
    apply G; [apply inv_new; auto|unfold ce; simpl; discriminate]. }
  apply (other_counts call a s I CE NX NT); auto.
Qed.
Definition ex_rounds (k : nat) : list act :=
  concat (repeat [Submit (ex_job 0); Get 1; Exec 1 0; Flush 1; Wait; Turn (ex_mem 1) (ex_mem 1) (ex_mem 1) true] k).
Example C130_ex_main :
  let over := Turn (ex_mem 100) (ex_mem 1) (ex_mem 1) false in
  let l k := Enter :: ex_rounds k ++ [Submit (ex_job 0); Wait] in
  let s k := run ex_call (new_evaluator 2 (Some 10) true []) (l k) in
  let t k := tallied ex_call 2 (Some 10) true [] (l k) in
  a_waiting (s 20) = true /\ t (20) = mkTally 0 20 0 /\ exceeds (ex_mem 100) (s 20) = true /\
  a_procs (step ex_call (s 20) over) = [2; 3] /\ a_procs (run ex_call (s 20) [over; over]) = [3] /\
  a_raised (run ex_call (s 20) [over; over]) = [] /\
  t 19 = mkTally 0 19 0 /\ a_procs (step ex_call (s 19) over) = [2].
Proof. vm_compute. auto 10. Qed.

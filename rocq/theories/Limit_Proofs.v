(** The evaluator with a memory limit, as it is used inside a search: lemmas. *)
Require Import Permutation ZArith QArith.
From Verif Require Import Base Num Async_Model Async_Spec Async_Proofs Async_Proofs2 Async_Proofs3.
From Verif Require Import Sys_Model.
From Verif Require Sys_Proofs.
Open Scope nat_scope.
Import Async_Model.

Section Ev.
Context (call : nat -> list nat -> kwargs -> nat -> outcome) (d : kwargs).
Notation All := (fun _ : kwargs => True).
Notation stp := (step call).
Notation like := Sys_Proofs.like.
Notation got := Sys_Proofs.got.
(** job_queue_size is at most the number of outstanding jobs. *)
Definition small (s : st) : Prop :=
  a_closed s = false -> (a_size s <= Z.of_nat (length (a_submitted s)) - Z.of_nat (length (a_returned s)))%Z.
Lemma controlled_size s x s' : controlled s x s' -> (a_size s' <= a_size s)%Z.
Proof.
  intros C. destruct C as [s' R|s' v b R|s' p v b R Hp|s' p v b R Hp|s' p v b R Hp]; apply repl_fields in R; destruct R as (R1 & _); cbn; try rewrite R1; lia.
Qed.
Lemma small_step a s : inv call All s -> ce s -> small s -> small (stp s a).
Proof.
  intros I CE C. unfold small in *. destruct a; simpl.
  - destruct (a_waiting s); auto. unfold enter. destruct (a_entered s) eqn:EE; auto.
    match goal with |- context [Nat.iter _ _ ?X] => set (s0 := X) end.
    destruct (iter_flags (a_n s) s0) as (_ & _ & H1 & H2 & H3 & H4 & _). cbv zeta in *. rewrite H1, H2, H3. unfold s0. cbn [a_size a_submitted a_returned a_n].
    intros _. destruct (a_closed s) eqn:EC; auto. apply CE in EC. congruence.
  - destruct (a_waiting s); auto. destruct (a_entered s); auto. cbn. discriminate.
  - destruct (a_waiting s); auto. unfold submit. destruct (a_closed s) eqn:EC; cbn; [try rewrite EC; discriminate|].
    intros _. specialize (C eq_refl). rewrite app_length. simpl. lia.
  - destruct (a_waiting s); auto. unfold wait_start. destruct (a_futures s); auto.
  - destruct (a_waiting s); auto. destruct (wait_turn_cases call All mem mem2 mem3 ready s I) as (x & s1 & K & H).
    pose proof (controlled_size _ _ _ K) as SZ. pose proof (controlled_frame _ _ _ K) as (pr & lv & sz & v & b & pid & EF).
    assert (F : a_closed s1 = a_closed s /\ a_submitted s1 = a_submitted s /\ a_returned s1 = a_returned s) by (rewrite EF; auto). destruct F as (F1 & F2 & F3).
    destruct x as [[]|e].
    + destruct H as (s2 & R & I2 & H). apply repl_fields in R. destruct R as (R1 & R2 & R3 & R4 & R5 & R6 & R7 & _).
      assert (C2 : a_closed s2 = false -> (a_size s2 <= Z.of_nat (length (a_submitted s2)) - Z.of_nat (length (a_returned s2)))%Z)
        by (rewrite R1, R4, R5, R6, F1, F2, F3; intros HC; specialize (C HC); lia).
      destruct (a_closed s2) eqn:EC; [rewrite H; cbn; try rewrite EC; discriminate|].
      destruct (a_output s2) as [|[i o] out]; [rewrite H; auto|]. destruct ready; rewrite H; auto.
      cbn. intros _. specialize (C2 eq_refl). rewrite app_length. simpl. lia.
    + destruct H as [-> _]. cbn. rewrite F1, F2, F3. intros HC. specialize (C HC). lia.
  - auto.
  - destruct (a_waiting s); auto.
  - unfold worker_get. destruct (find_worker _ _) as [w|]; auto. destruct (a_input s); auto. destruct (w_run w); auto.
  - unfold worker_exec. destruct (find_worker _ _) as [w|]; auto. destruct (w_run w) as [[]|]; auto.
  - unfold worker_flush. destruct (find_worker _ _) as [w|]; auto. destruct (w_out w); auto.
  - auto.
Qed.
Record good (s : st) : Prop := {
  g_all : inv call All s; g_d : inv call (fun k => k = d) s; g_ce : ce s; g_small : small s; g_in : inside s }.
Lemma good_step a s : good s -> a <> Enter -> a <> Exit -> (forall k, a <> Defaults k) -> good (stp s a).
Proof.
  intros [G1 G2 G3 G4 G6] N1 N2 N3. destruct (flags_step call a s G1 N1 N2) as [F1 F2]. split.
  - apply inv_step; auto.
  - apply inv_step; auto. intros k E. destruct (N3 k E).
  - apply ce_step; auto.
  - apply small_step; auto.
  - unfold inside in *. destruct G6. split; congruence.
Qed.
Lemma workers_good l : forall s, good s -> good (workers_do call l s) /\ like s (workers_do call l s).
Proof.
  unfold workers_do, run. induction l as [|a l IH]; intros s G; simpl; [split; auto; apply Sys_Proofs.like_refl|].
  destruct (by_worker a) eqn:E; auto. simpl. destruct (IH (stp s a)) as [H1 H2].
  - apply good_step; auto; intros; intros ->; discriminate.
  - split; auto. eapply Sys_Proofs.like_trans; [|exact H2]. apply Sys_Proofs.worker_like. auto.
Qed.
(** Every process was found when its memory use was read. *)
Lemma memory_found (mem : nat -> option nat) ps : (forall p, mem p <> None) -> forall s,
  memory mem ps s = (map (fun p => (p, match mem p with Some m => m | None => 0 end)) ps, s).
Proof.
  intros H. induction ps as [|p ps IH]; intros s; cbn [memory]; auto. specialize (H p). destruct (mem p) as [m|] eqn:E; [|congruence].
  rewrite IH. cbn [map]. rewrite E. auto.
Qed.
Lemma control_found mem mem2 s : pool s -> (forall p, mem p <> None) -> (forall p, mem2 p <> None) -> 1 <= length (a_procs s) -> fst (control mem mem2 s) = Ok tt.
Proof.
  intros P H1 H2 L. unfold control. destruct (a_limit s) as [limit|]; auto. rewrite memory_found by auto. destruct (limit <? _); auto.
  assert (E2 : log_memory mem2 s = s). { unfold log_memory. destruct (a_log s); auto. rewrite memory_found by auto. auto. }
  rewrite E2. cbn [map tl]. destruct (max_by _) as [[p m]|] eqn:EX.
  2: { exfalso. destruct (a_procs s) as [|q l]; [simpl in L; lia|]. cbn [map max_by] in EX. destruct (max_by _); [destruct (_ <? _)|]; discriminate. }
  assert (IN : In p (a_procs s)). { apply max_by_in in EX. apply in_map_iff in EX as (q & [= <- _] & Hq). auto. }
  assert (EE : existsb (Nat.eqb p) (a_procs s) = true). { apply existsb_exists. exists p. split; auto. apply Nat.eqb_refl. }
  unfold stop_worker. cbn [set_pool a_procs a_viol a_behaved]. rewrite EE. destruct (_ || _); auto.
Qed.
(** wait_next raised ValueError. *)
Definition failed (s s' : st) : Prop :=
  a_futures s' = a_futures s /\ a_submitted s' = a_submitted s /\ a_returned s' = a_returned s /\ a_raised s' = a_raised s ++ [ValueError] /\
  a_n s' = a_n s /\ a_waiting s' = false.
Lemma turn_good mem mem2 mem3 ready s : good s -> a_waiting s = true ->
  let s' := stp s (Turn mem mem2 mem3 ready) in good s' /\ (like s s' \/ got s s' \/ (failed s s' /\ (1 <= a_n s -> ~ ((forall p, mem p <> None) /\ (forall p, mem2 p <> None))))).
Proof.
  intros G W s'. split; [apply good_step; auto; discriminate|]. unfold s'. simpl. rewrite W.
  destruct (wait_turn_cases call All mem mem2 mem3 ready s (g_all _ G)) as (x & s1 & K & H).
  pose proof (controlled_frame _ _ _ K) as (pr & lv & sz & v & b & pid & EF).
  assert (F : like s s1) by (rewrite EF; unfold Sys_Proofs.like; auto 10). destruct F as (F1 & F2 & F3 & F4 & F5 & F6).
  assert (FC : a_closed s1 = a_closed s) by (rewrite EF; auto). destruct (g_in _ G) as [_ C].
  destruct x as [[]|e].
  - destruct H as (s2 & R & I2 & H). pose proof (Sys_Proofs.repl_waiting _ _ R) as RW. apply repl_fields in R. destruct R as (R1 & R2 & R3 & R4 & R5 & R6 & R7 & R8 & R9 & R10 & R11).
    rewrite R4, FC, C in H.
    assert (L : like s s2) by (unfold Sys_Proofs.like; repeat split; congruence).
    destruct (a_output s2) as [|[i o] out] eqn:EO; [left; rewrite H; auto|]. destruct ready; [|left; rewrite H; auto].
    right. left. rewrite H. exists i, o. cbn [a_futures a_submitted a_returned a_raised a_n a_waiting]. rewrite R10, R5, R6, R7, R11, F1, F2, F3, F4, F5. split; [|auto 10].
    destruct (inv_collect _ _ _ _ _ _ I2 EO) as [[j Fj] _]. rewrite R10, F1 in Fj. apply find_id_in in Fj. apply (in_map fst) in Fj. exact Fj.
  - right. right. destruct H as [H _]. split.
    + rewrite H. assert (e = ValueError) as -> by (inversion K; auto). unfold failed. cbn. rewrite F1, F2, F3, F4, F5. auto 10.
    + intros N [M1 M2]. destruct (g_in _ G) as [IE _].
      assert (OKC : fst (control mem mem2 s) = Ok tt) by (pose proof (i_pool _ _ _ (g_all _ G)) as PP; apply control_found; auto; apply (Async_Proofs.p_size _ PP); auto).
      pose proof (f_equal (@a_raised) H) as HR. unfold wait_turn in HR. destruct (control mem mem2 s) as [x0 s0] eqn:EC. cbn [fst] in OKC. subst x0.
      pose proof (control_ok _ _ _ _ _ (i_pool _ _ _ (g_all _ G)) EC) as K0. pose proof (inv_controlled _ _ _ _ _ (g_all _ G) K0) as I0.
      apply controlled_frame in K0 as (pr0 & lv0 & sz0 & v0 & b0 & pid0 & EF0).
      pose proof (log_repl mem3 s0 (i_pool _ _ _ I0)) as R. set (s2 := log_memory mem3 s0) in *. clearbody s2.
      apply repl_fields in R. destruct R as (R1 & R2 & R3 & R4 & R5 & R6 & R7 & R8 & R9 & R10 & R11).
      assert (C2 : a_closed s2 = false) by (rewrite R4, EF0; auto). assert (RS2 : a_raised s2 = a_raised s) by (rewrite R11, EF0; auto).
      rewrite C2 in HR. assert (e = ValueError) as -> by (inversion K; auto). cbn [raise a_raised] in HR. rewrite F4 in HR.
      assert (NE : forall l : list exn, l <> l ++ [ValueError]) by (intros l HL; apply (f_equal (@length _)) in HL; rewrite app_length in HL; simpl in HL; lia).
      destruct (a_output s2) as [|[i o] out]; [rewrite RS2 in HR; exact (NE _ HR)|]. destruct ready; [|rewrite RS2 in HR; exact (NE _ HR)].
      destruct (find_id i (a_futures s2)); cbn [raise a_raised] in HR; rewrite RS2 in HR; [exact (NE _ HR)|].
      apply app_inj_tail in HR as [_ HR]. discriminate.
Qed.
(** Every process was found in this turn. *)
Definition found (t : Sys_Model.turn) : Prop := (forall p, t_mem t p <> None) /\ (forall p, t_mem2 t p <> None).
Lemma turns_good plan : forall s s' plan', good s -> a_waiting s = true -> turns call plan s = (s', plan') ->
  good s' /\ length plan' <= length plan /\ incl plan' plan /\ (like s s' \/ got s s' /\ length plan' < length plan \/ (failed s s' /\ (1 <= a_n s -> exists t, In t plan /\ ~ found t))).
Proof.
  induction plan as [|t plan IH]; intros s s' plan' G W E; cbn [turns] in E.
  - injection E as <- <-. split; auto. split; auto. split; [apply incl_refl|]. left. apply Sys_Proofs.like_refl.
  - destruct (workers_good (t_acts t) s G) as [G1 L1]. set (s1 := workers_do call (t_acts t) s) in *. clearbody s1.
    assert (W1 : a_waiting s1 = true) by (destruct L1 as (_ & _ & _ & _ & _ & L1); congruence).
    destruct (turn_good (t_mem t) (t_mem2 t) (t_mem3 t) (t_ready t) s1 G1 W1) as [G2 H2]. set (s2 := stp s1 _) in *. clearbody s2.
    destruct H2 as [L2|[X|X]].
    + assert (W2 : a_waiting s2 = true) by (destruct L2 as (_ & _ & _ & _ & _ & L2); congruence). rewrite W2 in E.
      destruct (IH _ _ _ G2 W2 E) as (A & B & B' & C). split; auto. cbn [length]. split; [lia|]. split; [apply incl_tl; auto|].
      pose proof (Sys_Proofs.like_trans _ _ _ L1 L2) as L. destruct C as [C|[[C C']|C]]; [left; eapply Sys_Proofs.like_trans; eauto|right; left|right; right].
      * split; [|lia]. destruct C as (id & o & C1 & C2 & C3 & C4 & C5 & C6 & C7). destruct L as (M1 & M2 & M3 & M4 & M5 & M6).
        exists id, o. rewrite M1 in *. rewrite M2 in *. rewrite M3 in *. rewrite M4 in *. rewrite M5 in *. auto 10.
      * destruct C as [(C1 & C2 & C3 & C4 & C5 & C6) CF]. destruct L as (M1 & M2 & M3 & M4 & M5 & M6). split; [unfold failed; repeat split; congruence|].
        rewrite <- M5. intros N. destruct (CF N) as (t9 & T1 & T2). exists t9. simpl. auto.
    + assert (W2 : a_waiting s2 = false) by (destruct X as (? & ? & _ & _ & _ & _ & _ & _ & X); auto). rewrite W2 in E. injection E as <- <-.
      cbn [length]. split; auto. split; [lia|]. split; [apply incl_tl, incl_refl|]. right. left. split; [|lia].
      destruct X as (id & o & C1 & C2 & C3 & C4 & C5 & C6 & C7). destruct L1 as (M1 & M2 & M3 & M4 & M5 & M6).
      exists id, o. rewrite M1 in *. rewrite M2 in *. rewrite M3 in *. rewrite M4 in *. rewrite M5 in *. auto 10.
    + destruct X as [X XF]. assert (W2 : a_waiting s2 = false) by (destruct X as (_ & _ & _ & _ & _ & X); auto). rewrite W2 in E. injection E as <- <-.
      cbn [length]. split; auto. split; [lia|]. split; [apply incl_tl, incl_refl|]. right. right.
      destruct X as (C1 & C2 & C3 & C4 & C5 & C6). destruct L1 as (M1 & M2 & M3 & M4 & M5 & M6). split; [unfold failed; repeat split; congruence|].
      rewrite <- M5. intros N. exists t. split; [simpl; auto|]. exact (XF N).
Qed.
Lemma good_enter n limit log : good (stp (new_evaluator n limit log d) Enter) /\
  let s := stp (new_evaluator n limit log d) Enter in
  a_futures s = [] /\ a_submitted s = [] /\ a_returned s = [] /\ a_raised s = [] /\ a_n s = n /\ a_waiting s = false.
Proof.
  assert (C0 : ce (new_evaluator n limit log d)) by (unfold ce; discriminate).
  assert (I1 : inv call All (new_evaluator n limit log d)) by (apply inv_new; auto).
  assert (I2 : inv call (fun k => k = d) (new_evaluator n limit log d)) by (apply inv_new; auto).
  assert (K : small (new_evaluator n limit log d)) by (unfold small; cbn; intros _; lia).
  split.
  - split.
    + apply inv_step; auto.
    + apply inv_step; auto. intros k; discriminate.
    + apply ce_step; auto.
    + apply small_step; auto.
    + unfold inside. cbn [step a_waiting new_evaluator enter a_entered]. 
      match goal with |- context [Nat.iter ?k _ ?X] => destruct (iter_flags k X) as (H1 & H2 & _) end. cbv zeta in *. split; auto.
  - cbn [step a_waiting new_evaluator enter a_entered].
    match goal with |- context [Nat.iter ?k _ ?X] => destruct (iter_flags k X) as (H1 & H2 & H3 & H4 & H5 & H6 & H7 & H8); set (s := X) in *;
      assert (W : a_waiting (Nat.iter k start_worker s) = false) by (generalize k; intros kk; induction kk as [|kk IH]; [reflexivity|exact IH]) end.
    cbv zeta in *. rewrite H4, H5, H6, H7, H8. auto 10.
Qed.
Lemma size_ok s : good s -> (a_size s <= Z.of_nat (length (a_futures s)))%Z.
Proof.
  intros G. pose proof (g_small _ G (proj2 (g_in _ G))) as H. pose proof (Permutation_length (i_perm _ _ _ (g_all _ G))) as P.
  unfold submitted, returned in P. rewrite app_length, !map_length in P. lia.
Qed.
Lemma ids_ok s : good s -> NoDup (map fst (a_futures s)) /\ NoDup (map fst (a_returned s)) /\
  (forall id, In id (map fst (a_futures s)) -> id < length (a_submitted s)).
Proof.
  intros G. split; [eapply futures_nodup; apply (g_all _ G)|].
  pose proof (i_perm _ _ _ (g_all _ G)) as P. unfold submitted, returned in P.
  pose proof (i_ids _ _ _ (g_all _ G)) as E. unfold submitted in E. rewrite E in P. split.
  - assert (ND : NoDup (map fst (a_futures s) ++ map fst (a_returned s))) by (eapply Permutation_NoDup; [apply Permutation_sym, P|apply seq_NoDup]).
    clear - ND. induction (map fst (a_futures s)) as [|x l IH]; auto. apply IH. simpl in ND. apply NoDup_cons_iff in ND. tauto.
  - intros id H. assert (K : In id (seq 0 (length (a_submitted s)))) by (eapply Permutation_in; [exact P|apply in_or_app; auto]).
    apply in_seq in K. lia.
Qed.
Lemma origin_ok s : good s -> (forall k j, In (k, j) (a_submitted s) -> j = future k) ->
  forall k o, In (k, o) (a_returned s) -> k < length (a_submitted s) /\ exists choice, call 0 [k] d choice <> Die /\ reported o (call 0 [k] d choice).
Proof.
  intros G F k o H. pose proof (i_ret _ _ _ (g_d _ G)) as R. rewrite Forall_forall in R. destruct (R _ H) as (j & d' & c & A & B & C). cbn [fst snd] in *.
  split.
  - pose proof (i_ids _ _ _ (g_all _ G)) as E. unfold submitted in E. apply (in_map fst) in A. rewrite E in A. apply in_seq in A. cbn in A. lia.
  - rewrite (F _ _ A) in C. subst d'. exists c. unfold execute in C. cbn [future j_fn j_args j_kwargs] in C.
    replace (kw_merge [] d) with d in C; [split; [intros H0; rewrite H0 in C; discriminate|apply Sys_Proofs.deliver_reported; auto]|]. unfold kw_merge. simpl. clear. induction d; simpl; auto. f_equal. auto.
Qed.
End Ev.

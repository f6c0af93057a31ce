(** The evaluator as it is used inside a search: lemmas. *)
Require Import Permutation ZArith QArith.
From Verif Require Import Base Num Async_Model Async_Spec Async_Proofs Async_Proofs2 Async_Proofs3.
From Verif Require Import Sys_Model.
Open Scope nat_scope.
Import Async_Model.

Section Ev.
Context (call : nat -> list nat -> kwargs -> nat -> outcome) (d : kwargs).
Notation All := (fun _ : kwargs => True).
Notation stp := (step call).
Record good (s : st) : Prop := {
  g_all : inv call All s; g_d : inv call (fun k => k = d) s; g_ce : ce s; g_count : counted s;
  g_limit : a_limit s = None; g_in : inside s }.
Definition like (s s' : st) : Prop :=
  a_futures s' = a_futures s /\ a_submitted s' = a_submitted s /\ a_returned s' = a_returned s /\ a_raised s' = a_raised s /\
  a_n s' = a_n s /\ a_waiting s' = a_waiting s.
Lemma like_refl s : like s s. Proof. unfold like. auto 10. Qed.
Lemma like_trans a b c : like a b -> like b c -> like a c.
Proof. unfold like. intros (A1 & A2 & A3 & A4 & A5 & A6) (B1 & B2 & B3 & B4 & B5 & B6). repeat split; congruence. Qed.
Lemma good_step a s : good s -> a <> Enter -> a <> Exit -> (forall k, a <> Defaults k) -> good (stp s a).
Proof.
  intros [G1 G2 G3 G4 G5 G6] N1 N2 N3. destruct (step_limit call a s G1) as [L _]. destruct (flags_step call a s G1 N1 N2) as [F1 F2]. split.
  - apply inv_step; auto.
  - apply inv_step; auto. intros k E. destruct (N3 k E).
  - apply ce_step; auto.
  - apply counted_step; auto.
  - congruence.
  - unfold inside in *. destruct G6. split; congruence.
Qed.
Lemma worker_like a s : by_worker a = true -> like s (stp s a).
Proof.
  unfold like. destruct a; simpl; try discriminate; intros _.
  - unfold worker_get. destruct (find_worker _ _) as [w|]; auto 10. destruct (a_input s); auto 10. destruct (w_run w); auto 10.
  - unfold worker_exec. destruct (find_worker _ _) as [w|]; auto 10. destruct (w_run w) as [[]|]; auto 10.
  - unfold worker_flush. destruct (find_worker _ _) as [w|]; auto 10. destruct (w_out w); auto 10.
  - auto 10.
Qed.
Lemma workers_good l : forall s, good s -> good (workers_do call l s) /\ like s (workers_do call l s).
Proof.
  unfold workers_do, run. induction l as [|a l IH]; intros s G; simpl; [split; auto; apply like_refl|].
  destruct (by_worker a) eqn:E; auto. simpl. destruct (IH (stp s a)) as [H1 H2].
  - apply good_step; auto; intros; intros ->; discriminate.
  - split; auto. eapply like_trans; [|exact H2]. apply worker_like. auto.
Qed.

(** Inside the loop of wait_next. *)
Definition got (s s' : st) : Prop :=
  exists id o, In id (map fst (a_futures s)) /\ a_futures s' = filter (fun x => negb (fst x =? id)) (a_futures s) /\
    a_submitted s' = a_submitted s /\ a_returned s' = a_returned s ++ [(id, o)] /\ a_raised s' = a_raised s /\ a_n s' = a_n s /\ a_waiting s' = false.
Lemma repl_waiting s s' : repl s s' -> a_waiting s' = a_waiting s.
Proof. induction 1; auto. Qed.
Lemma turn_good mem mem2 mem3 ready s : good s -> a_waiting s = true ->
  let s' := stp s (Turn mem mem2 mem3 ready) in good s' /\ (like s s' \/ got s s').
Proof.
  intros G W s'. split; [apply good_step; auto; discriminate|]. unfold s'. simpl. rewrite W.
  destruct (turn_nolimit call mem mem2 mem3 ready s (g_all _ G) (g_limit _ G)) as (s2 & R & I2 & H).
  pose proof (repl_waiting _ _ R) as RW. apply repl_fields in R. destruct R as (R1 & R2 & R3 & R4 & R5 & R6 & R7 & R8 & R9 & R10 & R11).
  destruct (g_in _ G) as [_ C]. rewrite R4, C in H.
  assert (L : like s s2) by (unfold like; auto 10).
  destruct (a_output s2) as [|[i o] out] eqn:EO; [left; rewrite H; auto|]. destruct ready; [|left; rewrite H; auto].
  right. rewrite H. exists i, o. cbn [a_futures a_submitted a_returned a_raised a_n a_waiting]. rewrite R10, R5, R6, R7, R11. split; [|auto 10].
  destruct (inv_collect _ _ _ _ _ _ I2 EO) as [[j F] _]. rewrite R10 in F. apply find_id_in in F. apply (in_map fst) in F. exact F.
Qed.
Lemma turns_good plan : forall s s' plan', good s -> a_waiting s = true -> turns call plan s = (s', plan') ->
  good s' /\ length plan' <= length plan /\ (like s s' \/ got s s' /\ length plan' < length plan).
Proof.
  induction plan as [|t plan IH]; intros s s' plan' G W E; cbn [turns] in E.
  - injection E as <- <-. split; auto. split; auto. left. apply like_refl.
  - destruct (workers_good (t_acts t) s G) as [G1 L1]. set (s1 := workers_do call (t_acts t) s) in *. clearbody s1.
    assert (W1 : a_waiting s1 = true) by (destruct L1 as (_ & _ & _ & _ & _ & L1); congruence).
    destruct (turn_good (t_mem t) (t_mem2 t) (t_mem3 t) (t_ready t) s1 G1 W1) as [G2 H2]. set (s2 := stp s1 _) in *. clearbody s2.
    destruct H2 as [L2|X].
    + assert (W2 : a_waiting s2 = true) by (destruct L2 as (_ & _ & _ & _ & _ & L2); congruence). rewrite W2 in E.
      destruct (IH _ _ _ G2 W2 E) as (A & B & C). split; auto. cbn [length]. split; [lia|].
      pose proof (like_trans _ _ _ L1 L2) as L. destruct C as [C|[C C']]; [left; eapply like_trans; eauto|right].
      split; [|lia]. destruct C as (id & o & C1 & C2 & C3 & C4 & C5 & C6 & C7). destruct L as (M1 & M2 & M3 & M4 & M5 & M6).
      exists id, o. rewrite M1 in *. rewrite M2 in *. rewrite M3 in *. rewrite M4 in *. rewrite M5 in *. auto 10.
    + assert (W2 : a_waiting s2 = false) by (destruct X as (? & ? & _ & _ & _ & _ & _ & _ & X); auto). rewrite W2 in E. injection E as <- <-.
      cbn [length]. split; auto. split; [lia|]. right. split; [|lia].
      destruct X as (id & o & C1 & C2 & C3 & C4 & C5 & C6 & C7). destruct L1 as (M1 & M2 & M3 & M4 & M5 & M6).
      exists id, o. rewrite M1 in *. rewrite M2 in *. rewrite M3 in *. rewrite M4 in *. rewrite M5 in *. auto 10.
Qed.
Lemma good_enter n log : good (stp (new_evaluator n None log d) Enter) /\
  let s := stp (new_evaluator n None log d) Enter in
  a_futures s = [] /\ a_submitted s = [] /\ a_returned s = [] /\ a_raised s = [] /\ a_n s = n /\ a_waiting s = false.
Proof.
  assert (C0 : ce (new_evaluator n None log d)) by (unfold ce; discriminate).
  assert (I1 : inv call All (new_evaluator n None log d)) by (apply inv_new; auto).
  assert (I2 : inv call (fun k => k = d) (new_evaluator n None log d)) by (apply inv_new; auto).
  assert (K : counted (new_evaluator n None log d)) by (unfold counted; cbn; intros _; lia).
  split.
  - split.
    + apply inv_step; auto.
    + apply inv_step; auto. intros k; discriminate.
    + apply ce_step; auto.
    + apply counted_step; auto.
    + destruct (step_limit call Enter _ I1) as [-> _]. auto.
    + unfold inside. cbn [step a_waiting new_evaluator enter a_entered]. 
      match goal with |- context [Nat.iter ?k _ ?X] => destruct (iter_flags k X) as (H1 & H2 & _) end. cbv zeta in *. split; auto.
  - cbn [step a_waiting new_evaluator enter a_entered].
    match goal with |- context [Nat.iter ?k _ ?X] => destruct (iter_flags k X) as (H1 & H2 & H3 & H4 & H5 & H6 & H7 & H8); set (s := X) in *;
      assert (W : a_waiting (Nat.iter k start_worker s) = false) by (generalize k; intros kk; induction kk as [|kk IH]; [reflexivity|exact IH]) end.
    cbv zeta in *. rewrite H4, H5, H6, H7, H8. auto 10.
Qed.
Lemma size_ok s : good s -> a_size s = (Z.of_nat (length (a_futures s)) - Z.of_nat (a_n s))%Z.
Proof.
  intros G. rewrite (g_count _ G) by (apply (g_in _ G)). pose proof (Permutation_length (i_perm _ _ _ (g_all _ G))) as P.
  unfold submitted, returned in P. rewrite app_length, !map_length in P. lia.
Qed.
Lemma ids_ok s : good s -> NoDup (map fst (a_futures s)) /\ NoDup (map fst (a_returned s)) /\
  (forall id, In id (map fst (a_futures s)) -> id < length (a_submitted s)).
Proof.
  intros G. split; [eapply futures_nodup; apply (g_all _ G)|].
  pose proof (i_perm _ _ _ (g_all _ G)) as P. unfold submitted, returned in P.
  pose proof (i_ids _ _ _ (g_all _ G)) as E. unfold submitted in E. rewrite E in P. split.
  - assert (ND : NoDup (map fst (a_futures s) ++ map fst (a_returned s))) by (eapply Permutation_NoDup; [apply Permutation_sym, P|apply seq_NoDup]).
    clear - ND. induction (map fst (a_futures s)) as [|x l IH]; auto. apply IH. simpl in ND. apply NoDup_cons_iff in ND. tauto.
  - intros id H. assert (K : In id (seq 0 (length (a_submitted s)))) by (eapply Permutation_in; [exact P|apply in_or_app; auto]).
    apply in_seq in K. lia.
Qed.
Lemma deliver_reported o o' : deliver o = Some o' -> reported o' o.
Proof.
  destruct o as [v|e|]; simpl; [|intros E; injection E as <-; auto|discriminate].
  destruct v as [n|n|n|n e|[|x l]]; simpl; try discriminate; try (intros E; injection E as <-; auto; fail).
  - destruct e; simpl; intros E; injection E as <-; auto.
  - destruct x as [n|n|n|n e|l']; simpl; try discriminate. destruct e; simpl; intros E; injection E as <-; auto.
Qed.
Lemma origin_ok s : good s -> (forall k j, In (k, j) (a_submitted s) -> j = future k) ->
  forall k o, In (k, o) (a_returned s) -> k < length (a_submitted s) /\ exists choice, call 0 [k] d choice <> Die /\ reported o (call 0 [k] d choice).
Proof.
  intros G F k o H. pose proof (i_ret _ _ _ (g_d _ G)) as R. rewrite Forall_forall in R. destruct (R _ H) as (j & d' & c & A & B & C). cbn [fst snd] in *.
  split.
  - pose proof (i_ids _ _ _ (g_all _ G)) as E. unfold submitted in E. apply (in_map fst) in A. rewrite E in A. apply in_seq in A. cbn in A. lia.
  - rewrite (F _ _ A) in C. subst d'. exists c. unfold execute in C. cbn [future j_fn j_args j_kwargs] in C.
    replace (kw_merge [] d) with d in C; [split; [intros H0; rewrite H0 in C; discriminate|apply deliver_reported; auto]|]. unfold kw_merge. simpl. clear. induction d; simpl; auto. f_equal. auto.
Qed.
End Ev.

From Verif Require Import Base Async_Model Async_Spec Async_Proofs Async_Proofs2.
Require Import Permutation ZArith.
Open Scope nat_scope.

Section More.
Context (call : nat -> list nat -> kwargs -> nat -> outcome).
Notation stp := (step call).
Notation All := (fun _ : kwargs => True).
Notation inv := (inv call All).

Lemma reach_inv n limit log d l : inv (run call (new_evaluator n limit log d) l).
Proof. apply inv_run; auto. apply inv_new; auto. Qed.
Lemma run_app s l1 l2 : run call s (l1 ++ l2) = run call (run call s l1) l2.
Proof. unfold run. apply fold_left_app. Qed.

(** * Fields that steps do not change *)
Lemma repl_fields s s' : repl s s' -> a_size s' = a_size s /\ a_limit s' = a_limit s /\ a_entered s' = a_entered s /\ a_closed s' = a_closed s
  /\ a_submitted s' = a_submitted s /\ a_returned s' = a_returned s /\ a_n s' = a_n s /\ a_output s' = a_output s /\ a_input s' = a_input s
  /\ a_futures s' = a_futures s /\ a_raised s' = a_raised s.
Proof. induction 1; auto 20. Qed.
Lemma log_fields mem s : pool s -> let s' := log_memory mem s in a_size s' = a_size s /\ a_limit s' = a_limit s /\ a_entered s' = a_entered s /\ a_closed s' = a_closed s
  /\ a_submitted s' = a_submitted s /\ a_returned s' = a_returned s /\ a_n s' = a_n s /\ a_output s' = a_output s /\ a_input s' = a_input s
  /\ a_futures s' = a_futures s /\ a_raised s' = a_raised s.
Proof. intros P. apply repl_fields. apply log_repl. auto. Qed.
Lemma step_limit a s : inv s -> a_limit (stp s a) = a_limit s /\ a_n (stp s a) = a_n s.
Proof.
  intros I. destruct a; simpl.
  - destruct (a_waiting s); auto. unfold enter. destruct (a_entered s); auto.
    match goal with |- context [Nat.iter _ _ ?X] => set (s0 := X) end. change (a_limit s) with (a_limit s0). change (a_n s) with (a_n s0).
    assert (H : forall k, a_limit (Nat.iter k start_worker s0) = a_limit s0 /\ a_n (Nat.iter k start_worker s0) = a_n s0) by (induction k; simpl; auto). auto.
  - destruct (a_waiting s), (a_entered s); auto.
  - destruct (a_waiting s); auto. unfold submit. destruct (a_closed s); auto.
  - destruct (a_waiting s); auto. unfold wait_start. destruct (a_futures s); auto.
  - destruct (a_waiting s); auto. destruct (wait_turn_cases call All mem mem2 mem3 ready s I) as (x & s1 & C & H).
    destruct (controlled_frame _ _ _ C) as (pr & lv & sz & v & b & pid & EF).
    destruct x as [[]|e].
    + destruct H as (s2 & R & I2 & H). apply repl_fields in R. destruct R as (R1 & R2 & R3 & R4 & R5 & R6 & R7 & _).
      assert (K : a_limit s2 = a_limit s /\ a_n s2 = a_n s) by (rewrite R2, R7, EF; auto).
      destruct (a_closed s2); [rewrite H; auto|]. destruct (a_output s2) as [|[i o] out]; [rewrite H; auto|]. destruct ready; rewrite H; auto.
    + destruct H as [-> _]. rewrite EF. auto.
  - auto.
  - destruct (a_waiting s); auto.
  - unfold worker_get. destruct (find_worker _ _) as [w|]; auto. destruct (a_input s); auto. destruct (w_run w); auto.
  - unfold worker_exec. destruct (find_worker _ _) as [w|]; auto. destruct (w_run w) as [[]|]; auto.
  - unfold worker_flush. destruct (find_worker _ _) as [w|]; auto. destruct (w_out w); auto.
  - auto.
Qed.

(** Closed only after having been entered. *)
Lemma iter_flags k s : let s' := Nat.iter k start_worker s in a_entered s' = a_entered s /\ a_closed s' = a_closed s /\ a_size s' = a_size s
  /\ a_submitted s' = a_submitted s /\ a_returned s' = a_returned s /\ a_n s' = a_n s /\ a_futures s' = a_futures s /\ a_raised s' = a_raised s.
Proof. induction k; simpl; auto 10. Qed.
Lemma flags_step a s : inv s -> a <> Enter -> a <> Exit -> a_entered (stp s a) = a_entered s /\ a_closed (stp s a) = a_closed s.
Proof.
  intros I N1 N2. destruct a; simpl; try congruence.
  - destruct (a_waiting s); auto. unfold submit. destruct (a_closed s) eqn:E; auto.
  - destruct (a_waiting s); auto. unfold wait_start. destruct (a_futures s); auto.
  - destruct (a_waiting s); auto. destruct (wait_turn_cases call All mem mem2 mem3 ready s I) as (x & s1 & C & H).
    destruct (controlled_frame _ _ _ C) as (pr & lv & sz & v & b & pid & EF).
    destruct x as [[]|e].
    + destruct H as (s2 & R & I2 & H). apply repl_fields in R. destruct R as (R1 & R2 & R3 & R4 & R5 & R6 & R7 & _).
      assert (K : a_entered s2 = a_entered s /\ a_closed s2 = a_closed s) by (rewrite R3, R4, EF; auto).
      destruct (a_closed s2) eqn:EC; [rewrite H; cbn; rewrite EC; auto|]. destruct (a_output s2) as [|[i o] out]; [rewrite H, EC; auto|]. destruct ready; rewrite H; cbn; rewrite ?EC; auto.
    + destruct H as [-> _]. rewrite EF. auto.
  - auto.
  - destruct (a_waiting s); auto.
  - unfold worker_get. destruct (find_worker _ _) as [w|]; auto. destruct (a_input s); auto. destruct (w_run w); auto.
  - unfold worker_exec. destruct (find_worker _ _) as [w|]; auto. destruct (w_run w) as [[]|]; auto.
  - unfold worker_flush. destruct (find_worker _ _) as [w|]; auto. destruct (w_out w); auto.
  - auto.
Qed.
Definition ce (s : st) : Prop := a_closed s = true -> a_entered s = true.
Lemma ce_step a s : inv s -> ce s -> ce (stp s a).
Proof.
  intros I C. unfold ce in *. destruct a;
  try (match goal with |- a_closed (stp s ?a) = true -> _ => destruct (flags_step a s I ltac:(discriminate) ltac:(discriminate)) as [-> ->]; auto end; fail).
  - simpl. destruct (a_waiting s); auto. unfold enter. destruct (a_entered s) eqn:E; [cbn; auto|].
    match goal with |- context [Nat.iter _ _ ?X] => set (s0 := X) end. destruct (iter_flags (a_n s) s0) as (H1 & H2 & _). cbv zeta in *. rewrite H1. auto.
  - simpl. destruct (a_waiting s); auto. destruct (a_entered s) eqn:E; [intros _; exact E|rewrite E; auto].
Qed.

(** * Without a memory limit *)
Lemma turn_nolimit mem mem2 mem3 ready s : inv s -> a_limit s = None ->
  exists s2, repl s s2 /\ inv s2 /\
    (if a_closed s2 then wait_turn mem mem2 mem3 ready s = raise ValueError s2
     else match a_output s2, ready with
          | (id, o) :: out, true =>
            wait_turn mem mem2 mem3 ready s =
            mkSt (a_n s2) (a_limit s2) (a_log s2) (a_entered s2) (a_closed s2) false
            (filter (fun x => negb (fst x =? id)) (a_futures s2)) (a_procs s2) (a_live s2)
            (a_input s2) out (a_size s2 - 1)%Z (a_viol s2) (S (a_behaved s2)) (a_defaults s2) (a_pid s2)
            (a_submitted s2) (a_returned s2 ++ [(id, o)]) (a_raised s2)
          | _, _ => wait_turn mem mem2 mem3 ready s = s2
          end).
Proof.
  intros I L. unfold wait_turn, control. rewrite L. pose proof (log_repl mem3 s (i_pool _ _ _ I)) as R.
  exists (log_memory mem3 s). split; auto. pose proof (inv_repl _ _ _ _ I R) as I2. split; auto.
  set (s2 := log_memory mem3 s) in *. destruct (a_closed s2); auto.
  destruct (a_output s2) as [|[id o] out] eqn:EO; auto. destruct ready; auto.
  destruct (inv_collect _ _ _ _ _ _ I2 EO) as [[j F] _]. rewrite F. auto.
Qed.

(** The number of jobs. *)
Definition counted (s : st) : Prop :=
  a_closed s = false -> a_size s = (Z.of_nat (length (a_submitted s)) - Z.of_nat (length (a_returned s)) - Z.of_nat (a_n s))%Z.
Lemma counted_step a s : inv s -> ce s -> a_limit s = None -> counted s -> counted (stp s a).
Proof.
  intros I CE L C. unfold counted in *. destruct a; simpl.
  - destruct (a_waiting s); auto. unfold enter. destruct (a_entered s) eqn:EE; auto.
    match goal with |- context [Nat.iter _ _ ?X] => set (s0 := X) end. 
    destruct (iter_flags (a_n s) s0) as (_ & _ & H1 & H2 & H3 & H4 & _). cbv zeta in *. rewrite H1, H2, H3, H4. unfold s0. cbn [a_size a_submitted a_returned a_n].
    intros _. destruct (a_closed s) eqn:EC; auto.
    (* never closed before entering: closed implies entered *)
    apply CE in EC. congruence.
  - destruct (a_waiting s); auto. destruct (a_entered s); auto. cbn. discriminate.
  - destruct (a_waiting s); auto. unfold submit. destruct (a_closed s) eqn:EC; cbn; [try rewrite EC; discriminate|].
    intros _. rewrite C by auto. rewrite app_length. simpl. lia.
  - destruct (a_waiting s); auto. unfold wait_start. destruct (a_futures s); auto.
  - destruct (a_waiting s); auto. destruct (turn_nolimit mem mem2 mem3 ready s I L) as (s2 & R & I2 & H).
    apply repl_fields in R. destruct R as (R1 & R2 & R3 & R4 & R5 & R6 & R7 & _).
    assert (C2 : a_closed s2 = false -> a_size s2 = (Z.of_nat (length (a_submitted s2)) - Z.of_nat (length (a_returned s2)) - Z.of_nat (a_n s2))%Z)
      by (rewrite R1, R4, R5, R6, R7; auto).
    destruct (a_closed s2) eqn:EC; [rewrite H; cbn; try rewrite EC; discriminate|].
    destruct (a_output s2) as [|[i o] out]; [rewrite H; auto|]. destruct ready; rewrite H; auto.
    cbn. intros _. rewrite C2 by auto. rewrite app_length. simpl. lia.
  - auto.
  - destruct (a_waiting s); auto.
  - unfold worker_get. destruct (find_worker _ _) as [w|]; auto. destruct (a_input s); auto. destruct (w_run w); auto.
  - unfold worker_exec. destruct (find_worker _ _) as [w|]; auto. destruct (w_run w) as [[]|]; auto.
  - unfold worker_flush. destruct (find_worker _ _) as [w|]; auto. destruct (w_out w); auto.
  - auto.
Qed.
End More.

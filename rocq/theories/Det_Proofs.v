(** With one worker process the results arrive in the order of the submissions. *)
Require Import ZArith QArith Lia.
From Verif Require Import Base Num.
From Verif Require Import Search_Model Search_Spec.
From Verif Require Import Async_Model.
From Verif Require Import Sys_Model Sys_Spec Det_Model Det_Spec.
Open Scope nat_scope.

Lemma merge_nil d : kw_merge [] d = d.
Proof. unfold kw_merge. cbn [map kw_get app]. induction d; cbn [filter]; congruence. Qed.

Section Fifo.
Context (call : nat -> list nat -> kwargs -> nat -> outcome) (d : kwargs) (H : steady call d).
Notation stp := (Async_Model.step call).
Definition out_of (k : nat) : outcome := match deliver (call 0 [k] d 0) with Some o => o | None => Die end.
Lemma out_ok k c : deliver (execute call (future k) d c) = Some (out_of k).
Proof.
  unfold execute, future, out_of. cbn [j_fn j_args j_kwargs]. rewrite merge_nil.
  destruct (H k) as [(v & e & E)|(e & E)]; rewrite !E; [|reflexivity].
  cbn [deliver truth]. destruct e; reflexivity.
Qed.
Definition fut (k : nat) := (k, future k).
Definition res_of (k : nat) := (k, out_of k).

(** [r] results were returned, [c] calls were made, [n] jobs were submitted. *)
Record fifo (r c n : nat) (s : st) : Prop := {
  ff_n : a_n s = 1; ff_limit : a_limit s = None; ff_closed : a_closed s = false;
  ff_w : exists p run outp, a_procs s = [p] /\ a_live s = [mkWorker p d run outp] /\
    a_returned s ++ a_output s ++ outp = map res_of (seq 0 c) /\
    (match run with Some x => [x] | None => [] end) ++ a_input s = map fut (seq c (n - c));
  ff_le : r <= c <= n;
  ff_ret : length (a_returned s) = r;
  ff_sub : length (a_submitted s) = n;
  ff_fut : a_futures s = map fut (seq r (n - r));
  ff_size : a_size s = (Z.of_nat n - Z.of_nat r - 1)%Z }.

Lemma seq_head c m x l : x :: l = map fut (seq c m) -> m <> 0 /\ x = fut c /\ l = map fut (seq (S c) (m - 1)).
Proof. destruct m; cbn; [discriminate|]. intros E. injection E as -> ->. rewrite Nat.sub_0_r. auto. Qed.

Lemma fifo_worker a s r c n : fifo r c n s -> by_worker a = true -> (forall p, a <> Crash p) ->
  exists c', fifo r c' n (stp s a) /\ a_waiting (stp s a) = a_waiting s /\ a_raised (stp s a) = a_raised s.
Proof.
  intros [H1 H2 H3 (p & run & outp & P1 & P2 & P3 & P4) H5 H6 H7 H8 H9] B NC.
  destruct a as [| | | | | | |q|q ch|q|q]; try discriminate B; [| | |destruct (NC q); auto]; cbn [stp Async_Model.step].
  - unfold worker_get. rewrite P2. cbn [find_worker find w_pid]. destruct (p =? q) eqn:Q; [|exists c; split; [|auto]; split; auto; exists p, run, outp; auto].
    destruct (a_input s) as [|x inp] eqn:EI; [exists c; split; [|auto]; split; auto; exists p, run, outp; rewrite EI; auto|].
    cbn [w_run]. destruct run as [y|]; [exists c; split; [|auto]; split; auto; exists p, (Some y), outp; rewrite EI; auto|].
    exists c. split; [|auto]. split; cbn; auto. exists p, (Some x), outp. cbn [on_worker flat_map w_pid]. rewrite Q. cbn. auto.
  - unfold worker_exec. rewrite P2. cbn [find_worker find w_pid]. destruct (p =? q) eqn:Q; [|exists c; split; [|auto]; split; auto; exists p, run, outp; auto].
    cbn [w_run]. destruct run as [[id j]|]; [|exists c; split; [|auto]; split; auto; exists p, None, outp; auto].
    cbn [app] in P4. apply seq_head in P4. destruct P4 as (N0 & E1 & E2). unfold fut in E1. injection E1 as -> ->.
    exists (S c). split; [|auto]. split; cbn [set_queues a_n a_limit a_closed a_procs a_live a_returned a_output a_input a_submitted a_futures a_size]; auto; [|lia].
    exists p, None, (outp ++ [res_of c]). cbn [on_worker flat_map w_pid w_defaults w_out w_run]. rewrite Q, out_ok. cbn [app]. repeat split; auto.
    + rewrite !app_assoc. rewrite <- (app_assoc (a_returned s)), P3, seq_S, map_app. reflexivity.
    + rewrite E2. f_equal. f_equal. lia.
  - unfold worker_flush. rewrite P2. cbn [find_worker find w_pid]. destruct (p =? q) eqn:Q; [|exists c; split; [|auto]; split; auto; exists p, run, outp; auto].
    cbn [w_out]. destruct outp as [|x outp]; [exists c; split; [|auto]; split; auto; exists p, run, []; auto|].
    exists c. split; [|auto]. split; cbn [set_queues a_n a_limit a_closed a_procs a_live a_returned a_output a_input a_submitted a_futures a_size]; auto.
    exists p, run, outp. cbn [on_worker flat_map w_pid w_defaults w_out w_run]. rewrite Q. cbn [app]. repeat split; auto.
    rewrite <- P3, <- !app_assoc. reflexivity.
Qed.
Lemma fifo_workers l : forall s r c n, fifo r c n s -> (forall p, ~ In (Crash p) l) ->
  exists c', fifo r c' n (workers_do call l s) /\ a_waiting (workers_do call l s) = a_waiting s /\ a_raised (workers_do call l s) = a_raised s.
Proof.
  unfold workers_do. induction l as [|a l IH]; intros s r c n F NC; [exists c; auto|].
  cbn [filter]. destruct (by_worker a) eqn:B; [|apply (IH _ _ _ _ F); intros p Hp; apply (NC p); right; auto].
  cbn [run fold_left]. destruct (fifo_worker a s r c n F B) as (c1 & F1 & W1 & R1); [intros p ->; apply (NC p); left; auto|].
  destruct (IH _ _ _ _ F1) as (c2 & F2 & W2 & R2); [intros p Hp; apply (NC p); right; auto|].
  exists c2. unfold run in *. rewrite W2, R2. auto.
Qed.

Lemma memory_alive mem p x y out s : a_live s = [mkWorker p x y out] -> snd (memory mem [0; p] s) = s.
Proof.
  intros L. cbn [memory]. unfold alive. rewrite L. cbn [existsb w_pid]. rewrite Nat.eqb_refl, orb_true_r.
  destruct (mem 0), (mem p); cbn; rewrite ?orb_true_r; reflexivity.
Qed.
Lemma log_same mem r c n s : fifo r c n s -> log_memory mem s = s.
Proof.
  intros [H1 H2 H3 (p & run & outp & P1 & P2 & P3 & P4) H5 H6 H7 H8 H9]. unfold log_memory.
  destruct (a_log s); auto. rewrite P1. eapply memory_alive; eauto.
Qed.
Lemma fifo_waiting b r c n s : fifo r c n s -> fifo r c n (set_waiting b s).
Proof. intros []. split; auto. Qed.
Lemma fifo_raise e r c n s : fifo r c n s -> fifo r c n (raise e s).
Proof. intros []. split; auto. Qed.

(** A turn of the loop: nothing, or the result of the next job. *)
Lemma fifo_turn m1 m2 m3 b s r c n : fifo r c n s -> a_waiting s = true ->
  let s' := stp s (Turn m1 m2 m3 b) in
  s' = s \/ (fifo (S r) c n s' /\ a_waiting s' = false /\ a_raised s' = a_raised s /\ rev (a_returned s') = res_of r :: rev (a_returned s)).
Proof.
  intros F W. assert (F0 := F). destruct F as [H1 H2 H3 (p & run & outp & P1 & P2 & P3 & P4) H5 H6 H7 H8 H9].
  cbn [stp Async_Model.step]. rewrite W. unfold wait_turn, control. rewrite H2. cbv beta iota.
  rewrite (log_same m3 r c n s F0). rewrite H3. destruct (a_output s) as [|[id o] out] eqn:EO; [auto|]. destruct b; [|auto].
  right. assert (K : (id, o) = res_of r /\ r < c).
  { assert (L : length (a_returned s ++ ((id, o) :: out) ++ outp) = c) by (rewrite P3, map_length, seq_length; auto).
    rewrite !app_length in L. cbn [length] in L. assert (r < c) by lia. split; auto.
    assert (E := f_equal (fun l => nth_error l r) P3). cbv beta in E.
    rewrite nth_error_app2 in E by lia. rewrite H6, Nat.sub_diag in E. cbn [app nth_error] in E.
    rewrite (nth_error_nth' _ (res_of 0)) in E by (rewrite map_length, seq_length; lia).
    rewrite map_nth, seq_nth in E by lia. injection E as -> ->. reflexivity. }
  destruct K as (K & Hr). unfold res_of in K. injection K as -> ->.
  assert (EF : a_futures s = fut r :: map fut (seq (S r) (n - S r))).
  { rewrite H8. replace (n - r) with (S (n - S r)) by lia. reflexivity. }
  rewrite EF. cbn [find_id fut]. unfold fut at 1. cbn [find_id]. rewrite Nat.eqb_refl.
  split; [|split; [reflexivity|split; [reflexivity|]]].
  - split; cbn [a_n a_limit a_closed a_procs a_live a_returned a_output a_input a_submitted a_futures a_size]; auto.
    + exists p, run, outp. repeat split; auto. rewrite <- P3, <- !app_assoc. reflexivity.
    + lia.
    + rewrite app_length. cbn. lia.
    + cbn [filter]. unfold fut at 1. cbn [fst]. rewrite Nat.eqb_refl. cbn [negb].
      rewrite <- (map_id (map fut (seq (S r) (n - S r)))) at 2. rewrite map_id.
      assert (G : forall m b, r < b -> filter (fun x => negb (fst x =? r)) (map fut (seq b m)) = map fut (seq b m)).
      { induction m; intros b Hb; cbn; auto. replace (b =? r) with false by (symmetry; apply Nat.eqb_neq; lia). cbn. rewrite IHm by lia. auto. }
      apply G. lia.
    + lia.
  - cbn [a_returned]. rewrite rev_app_distr. reflexivity.
Qed.

(** The loop of wait_next: it goes on for ever, or the next job's result is returned. *)
Lemma fifo_turns plan : undisturbed plan -> forall s r c n s' plan', fifo r c n s -> a_waiting s = true -> turns call plan s = (s', plan') ->
  undisturbed plan' /\
  (a_waiting s' = true \/
   a_waiting s' = false /\ a_raised s' = a_raised s /\ (exists rest, rev (a_returned s') = res_of r :: rest) /\ exists c', fifo (S r) c' n s').
Proof.
  induction plan as [|t plan IH]; intros U s r c n s' plan' F W E.
  - cbn in E. injection E as <- <-. auto.
  - cbn [turns] in E.
    destruct (fifo_workers (t_acts t) s r c n F) as (c1 & F1 & W1 & R1); [intros p; apply U; left; auto|].
    assert (U' : undisturbed plan) by (intros t' p Ht'; apply U; right; auto).
    set (s1 := workers_do call (t_acts t) s) in *. rewrite W in W1.
    destruct (fifo_turn (t_mem t) (t_mem2 t) (t_mem3 t) (t_ready t) s1 r c1 n F1 W1) as [E2|(F2 & W2 & R2 & E2)].
    + rewrite E2, W1 in E. destruct (IH U' _ _ _ _ _ _ F1 W1 E) as (V & [K|(K1 & K2 & K3 & K4)]); split; auto.
      right. rewrite K2, R1. auto.
    + rewrite W2 in E. pose proof (f_equal fst E) as Es. pose proof (f_equal snd E) as Ep. cbn [fst snd] in Es, Ep. subst plan' s'.
      split; auto. right. rewrite R2, R1. repeat split; eauto.
Qed.
Lemma fifo_submit r c n s : fifo r c n s -> a_waiting s = false ->
  fifo r c (S n) (stp s (Submit (future n))) /\ a_waiting (stp s (Submit (future n))) = false.
Proof.
  intros [H1 H2 H3 (p & run & outp & P1 & P2 & P3 & P4) H5 H6 H7 H8 H9] W.
  cbn [stp Async_Model.step]. rewrite W. unfold submit. rewrite H3, H7. split; auto.
  split; cbn [a_n a_limit a_closed a_procs a_live a_returned a_output a_input a_submitted a_futures a_size]; auto; try lia.
  - exists p, run, outp. repeat split; auto. rewrite app_assoc, P4. replace (S n - c) with (S (n - c)) by lia. rewrite seq_S, map_app.
    cbn [map]. replace (c + (n - c)) with n by lia. reflexivity.
  - rewrite app_length. cbn. lia.
  - rewrite H8. replace (S n - r) with (S (n - r)) by lia. rewrite seq_S, map_app. cbn [map]. replace (r + (n - r)) with n by lia. reflexivity.
Qed.
Lemma fifo_start log : fifo 0 0 0 (stp (new_evaluator 1 None log d) Enter) /\ a_waiting (stp (new_evaluator 1 None log d) Enter) = false.
Proof. split; [|reflexivity]. split; try reflexivity; [|lia]. exists 1, None, []. repeat split; reflexivity. Qed.
Lemma fifo_wait r c n s : fifo r c n s -> a_waiting s = false ->
  (r = n /\ a_raised (stp s Wait) = a_raised s ++ [RuntimeError] /\ fifo r c n (stp s Wait) /\ a_waiting (stp s Wait) = false) \/
  (r < n /\ a_raised (stp s Wait) = a_raised s /\ fifo r c n (stp s Wait) /\ a_waiting (stp s Wait) = true).
Proof.
  intros F W. assert (L := ff_le _ _ _ _ F). assert (Q := ff_fut _ _ _ _ F). cbn [stp Async_Model.step]. rewrite W. unfold wait_start. rewrite Q.
  destruct (n - r) eqn:E; cbn [map seq].
  - left. split; [lia|]. split; [reflexivity|]. split; [apply fifo_raise; auto|reflexivity].
  - right. split; [lia|]. split; [reflexivity|]. split; [apply fifo_waiting; auto|reflexivity].
Qed.
End Fifo.

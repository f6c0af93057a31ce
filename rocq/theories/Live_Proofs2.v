(** Progress of the searches: the evaluator's interface. *)
Require Import ZArith Lia.
From Verif Require Import Base Num Proc_Model Live_Spec Live_Proofs.
From Verif Require Import Proc_Proofs.
From Verif Require Async_Model Sys_Model Sys_Proofs.
Open Scope nat_scope.
Open Scope list_scope.

Section Pool.
Context (call : nat -> list nat -> Async_Model.kwargs -> nat -> Async_Model.outcome) (d : Async_Model.kwargs) (n : nat).
Hypothesis ANS : answers call d.
Hypothesis POS : 0 < n.
Notation ok := (pool_ok d n).

Lemma late_is_round l : late_round n l -> round n l.
Proof.
  intros (t & rest & -> & R & before & t' & -> & E). split.
  - intros p Hp. destruct (R p Hp) as (c & H). exists c. cbn [flat_map]. induction (Sys_Model.t_acts t) as [|a l IH]; auto. cbn [app]. apply in_order_drop. auto.
  - exists (t :: before), t'. auto.
Qed.
(** [k] more rounds without a killed worker are to come; after a result, and after a submission. *)
Definition after_result (k : nat) (plan : list Sys_Model.turn) : Prop :=
  exists junk rounds rest, plan = junk ++ concat rounds ++ rest /\ nobody_killed (junk ++ concat rounds) /\ length rounds = k /\ Forall (late_round n) rounds.
Definition to_come (k : nat) (plan : list Sys_Model.turn) : Prop :=
  exists junk rounds rest, plan = junk ++ concat rounds ++ rest /\ nobody_killed (junk ++ concat rounds) /\ length rounds = k /\
    match rounds with [] => True | r :: rs => round n r /\ Forall (late_round n) rs end.
Lemma after_to_come k plan : after_result k plan -> to_come k plan.
Proof. intros (j & r & t & A & N & B & C). exists j, r, t. split; auto. split; auto. split; auto. destruct r; auto. inversion C; subst. split; auto. apply late_is_round. auto. Qed.
Lemma killed_app l1 l2 : nobody_killed (l1 ++ l2) -> nobody_killed l1 /\ nobody_killed l2.
Proof. intros H. split; intros t p I; apply H; apply in_or_app; auto. Qed.
Lemma killed_tl l : nobody_killed l -> nobody_killed (tl l).
Proof. intros H t p I. apply H. destruct l; auto. right. auto. Qed.
Lemma after_tl k plan : 0 < k -> after_result k plan -> to_come k (tl plan) /\ forall q, ~ In (Async_Model.Crash q) (match plan with [] => [] | t :: _ => Sys_Model.t_acts t end).
Proof.
  intros K (j & r & rest & -> & N & B & C). destruct j as [|t j].
  - destruct r as [|r rs]; [cbn in B; lia|]. inversion C as [|r0 rs0 (t & r1 & -> & R) C']; subst. cbn in *. split.
    + exists [], (r1 :: rs), rest. cbn. split; [rewrite <- app_assoc; auto|]. split; auto. apply (killed_tl _ N).
    + intros q. apply N. left. auto.
  - cbn in *. split; [|intros q; apply N; left; auto]. apply after_to_come. exists j, r, rest. split; auto. split; auto. apply (killed_tl _ N).
Qed.

Lemma waiting_ok b s : ok s -> ok (Async_Model.set_waiting b s).
Proof. intros []. constructor; auto. Qed.
Lemma raised_more s s' e : Async_Model.a_raised s' = Async_Model.a_raised s ++ [e] -> Sys_Model.raised_by s s' = Some e.
Proof. intros H. unfold Sys_Model.raised_by. rewrite H, app_length. cbn [length]. replace (_ <? _) with true by (symmetry; apply Nat.ltb_lt; lia). rewrite last_last. auto. Qed.
(** wait_next *)
Lemma wait_live {J} (p : pool J) x p' k : wfp call d p -> pool_ok d n (p_s p) -> to_come k (p_plan p) -> 0 < k -> pool_wait call p = (x, p') ->
  x <> Err Diverges /\ (forall a, x = Ok a -> ok (p_s p') /\ after_result (pred k) (p_plan p')).
Proof.
  intros [_ W] G (junk & rounds & tail & EP & NK & LK & R) KP E. unfold pool_wait in E. cbn [Async_Model.step] in E. rewrite W in E. unfold Async_Model.wait_start in E.
  destruct (Async_Model.a_futures (p_s p)) as [|fu fus] eqn:EF.
  { rewrite (raised_more (p_s p) _ RuntimeError) in E by reflexivity. injection E as <- <-. split; discriminate. }
  set (s0 := Async_Model.set_waiting true (p_s p)) in *.
  assert (R0 : Sys_Model.raised_by (p_s p) s0 = None) by (unfold Sys_Model.raised_by, s0; cbn [Async_Model.set_waiting Async_Model.a_raised]; rewrite Nat.ltb_irrefl; auto). rewrite R0 in E.
  assert (G0 : ok s0) by (apply waiting_ok; auto). rewrite EP in E. destruct (killed_app _ _ NK) as [NK1 NK2].
  assert (K : exists s' rest, Sys_Model.turns call (junk ++ concat rounds ++ tail) s0 = (s', rest) /\ Async_Model.a_waiting s' = false /\ ended_well d n s0 s' /\ after_result (pred k) rest).
  { destruct rounds as [|r rs]; [cbn in LK; lia|]. cbn [concat] in *. destruct R as [R RS]. destruct (killed_app _ _ NK2) as [NK3 NK4]. rewrite <- app_assoc.
    destruct (turns_piece call d n ANS junk (r ++ concat rs ++ tail) s0 NK1 G0 eq_refl) as [(s' & A1 & A2 & A3 & A4 & A5 & _)|(l1 & l2 & s' & A1 & A2 & A3 & A4 & A5)].
    - rewrite A1. destruct (turns_round call d n ANS r (concat rs ++ tail) s' NK3 A2 A3) as (l1 & l2 & s2 & B1 & B2 & B3 & B4 & B5); auto; [rewrite A4; cbn; congruence|].
      exists s2, (l2 ++ concat rs ++ tail). split; auto. split; auto. split; [eapply ended_eq; eauto|]. exists l2, rs, tail. split; auto. split; [|cbn in LK; subst k; auto].
      subst r. intros t q I. apply in_app_or in I as [I|I]; [apply NK3; apply in_or_app|apply NK4]; auto.
    - exists s', (l2 ++ r ++ concat rs ++ tail). split; auto. split; auto. split; auto. exists (l2 ++ r), rs, tail. split; [rewrite <- app_assoc; auto|]. split; [|cbn in LK; subst k; auto].
      subst junk. intros t q I. apply in_app_or in I as [I|I]; [apply in_app_or in I as [I|I]; [apply NK1; apply in_or_app|apply NK3]|apply NK4]; auto. }
  destruct K as (s' & rest & K1 & K2 & K3 & K5). rewrite K1 in E; cbv zeta in E; rewrite K2 in E.
  destruct K3 as [[K3 K6]|K3].
  + unfold Sys_Model.raised_by in E. rewrite K3, Nat.ltb_irrefl in E. destruct (rev (Async_Model.a_returned s')); injection E as <- <-; (split; [discriminate|]); [discriminate|]. intros a _. auto.
  + rewrite (raised_more s0 s' KeyError K3) in E. injection E as <- <-. split; discriminate.
Qed.
(** submit *)
Lemma submit_live {J} (j : J) (p : pool J) : wfp call d p -> ok (p_s p) -> (forall q, ~ In (Async_Model.Crash q) (match p_plan p with [] => [] | t :: _ => Sys_Model.t_acts t end)) ->
  ok (p_s (pool_submit call j p)).
Proof.
  intros [_ W] G NK. unfold pool_submit. cbn [p_s p_plan]. set (acts := match p_plan p with [] => [] | t :: _ => Sys_Model.t_acts t end).
  destruct (workers_ok call d n ANS acts [] (p_s p)) as [G1 _]; auto.
  destruct (workers_keep call acts (p_s p)) as (K1 & _). set (s1 := Sys_Model.workers_do call acts (p_s p)) in *. cbn [Async_Model.step]. rewrite K1, W. unfold Async_Model.submit. destruct G1 as [G1 G2 G0 G3 G4 G5 G6 G7]. rewrite G2.
  constructor; cbn [Async_Model.a_limit Async_Model.a_closed Async_Model.a_defaults Async_Model.a_live Async_Model.a_procs Async_Model.a_input]; auto.
  - apply Forall_app. split; auto. constructor; auto. eexists. reflexivity.
  - unfold places in *. cbn [Async_Model.a_futures Async_Model.a_live Async_Model.a_output Async_Model.a_input]. rewrite !app_length. cbn [length]. lia.
Qed.
(** entering *)
Lemma start_all : forall m s, let s' := Nat.iter m Async_Model.start_worker s in
  Async_Model.a_limit s' = Async_Model.a_limit s /\ Async_Model.a_closed s' = Async_Model.a_closed s /\ Async_Model.a_defaults s' = Async_Model.a_defaults s /\
  Async_Model.a_input s' = Async_Model.a_input s /\ Async_Model.a_futures s' = Async_Model.a_futures s /\ Async_Model.a_pid s' = Async_Model.a_pid s + m /\
  Async_Model.a_procs s' = Async_Model.a_procs s ++ seq (Async_Model.a_pid s) m /\
  Async_Model.a_live s' = Async_Model.a_live s ++ map (fun q => Async_Model.mkWorker q (Async_Model.a_defaults s) None []) (seq (Async_Model.a_pid s) m).
Proof.
  induction m as [|m IH]; intros s; cbn zeta in *.
  - cbn. rewrite !app_nil_r, Nat.add_0_r. auto 10.
  - destruct (IH s) as (A1 & A2 & A3 & A4 & A5 & A6 & A7 & A8). cbn [Nat.iter nat_rect]. fold (Nat.iter m Async_Model.start_worker s). set (s1 := Nat.iter m Async_Model.start_worker s) in *.
    unfold Async_Model.start_worker, Async_Model.set_pool. cbn [Async_Model.a_limit Async_Model.a_closed Async_Model.a_defaults Async_Model.a_input Async_Model.a_futures Async_Model.a_pid Async_Model.a_procs Async_Model.a_live].
    split; auto. split; auto. split; auto. split; auto. split; auto. split; [lia|]. rewrite seq_S, A7, A8, A6, A3. rewrite map_app, !app_assoc. auto.
Qed.
Lemma enter_live log : ok (Async_Model.step call (Async_Model.new_evaluator n None log d) Async_Model.Enter).
Proof.
  set (s0 := Async_Model.mkSt n None log true false false [] [] [] [] [] (- Z.of_nat n)%Z 0 0 d 1 [] [] []). change (ok (Nat.iter n Async_Model.start_worker s0)).
  destruct (start_all n s0) as (A1 & A2 & A3 & A4 & A5 & A6 & A7 & A8). cbn [s0 Async_Model.a_limit Async_Model.a_closed Async_Model.a_defaults Async_Model.a_live Async_Model.a_procs Async_Model.a_input Async_Model.a_futures Async_Model.a_pid app] in *.
  constructor; auto.
  - rewrite A8, map_map. cbn. apply map_id.
  - rewrite A4. constructor.
  - rewrite A8. apply Forall_forall. intros w H. apply in_map_iff in H as (q & <- & _). split; auto. cbn. discriminate.
  - rewrite A5. cbn. lia.
Qed.
End Pool.

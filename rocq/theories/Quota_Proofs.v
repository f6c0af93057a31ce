(** The evaluator with a limit on memory use that is never exceeded does what it does without one. *)
Require Import ZArith Lia.
From Verif Require Import Base Num Gp_Model Evo_Model Rnd_Model Proc_Model Limit_Model Quota_Spec.
From Verif Require Import Async_Model.
From Verif Require Async_Spec Async_Proofs Async_Proofs2 Sys_Model.
Open Scope nat_scope.
Open Scope list_scope.

(** The same evaluator without its limit. *)
Definition unl (s : st) : st :=
  mkSt (a_n s) None (a_log s) (a_entered s) (a_closed s) (a_waiting s) (a_futures s) (a_procs s) (a_live s)
    (a_input s) (a_output s) (a_size s) (a_viol s) (a_behaved s) (a_defaults s) (a_pid s)
    (a_submitted s) (a_returned s) (a_raised s).
Definition same_kind (s s' : st) : Prop := a_n s' = a_n s /\ a_limit s' = a_limit s.
Lemma kind_trans s1 s2 s3 : same_kind s1 s2 -> same_kind s2 s3 -> same_kind s1 s3.
Proof. unfold same_kind. intuition congruence. Qed.
Lemma start_unl s : start_worker (unl s) = unl (start_worker s) /\ same_kind s (start_worker s).
Proof. destruct s. cbv. auto. Qed.
Lemma start_iter k s : Nat.iter k start_worker (unl s) = unl (Nat.iter k start_worker s) /\ same_kind s (Nat.iter k start_worker s).
Proof.
  induction k as [|k [IH1 IH2]]; [cbn; split; [auto|split; auto]|].
  change (Nat.iter (S k) start_worker (unl s)) with (start_worker (Nat.iter k start_worker (unl s))). change (Nat.iter (S k) start_worker s) with (start_worker (Nat.iter k start_worker s)).
  rewrite IH1. destruct (start_unl (Nat.iter k start_worker s)) as [-> K]. split; [auto|exact (kind_trans _ _ _ IH2 K)].
Qed.
Lemma memory_unl mem ps : forall s, memory mem ps (unl s) = (let (l, s') := memory mem ps s in (l, unl s')) /\ same_kind s (snd (memory mem ps s)).
Proof.
  induction ps as [|p ps IH]; intros s; cbn [memory]; [split; [auto|split; auto]|].
  change (alive p (unl s)) with (alive p s). 
  destruct (mem p) as [m|].
  - destruct (IH s) as [-> K]. destruct (memory mem ps s) as [l s']. auto.
  - destruct (alive p s).
    + destruct (IH s) as [-> K]. destruct (memory mem ps s) as [l s']. auto.
    + set (s1 := set_pool (filter (fun q => negb (q =? p)) (a_procs s)) (a_live s) (a_size s) (a_viol s) (a_behaved s) (a_pid s) s).
      change (set_pool (filter (fun q => negb (q =? p)) (a_procs (unl s))) (a_live (unl s)) (a_size (unl s)) (a_viol (unl s)) (a_behaved (unl s)) (a_pid (unl s)) (unl s)) with (unl s1).
      destruct (start_unl s1) as [-> K1]. destruct (IH (start_worker s1)) as [-> K]. split; [auto|]. eapply kind_trans; [|exact K]. exact K1.
Qed.
Lemma log_unl mem s : log_memory mem (unl s) = unl (log_memory mem s) /\ same_kind s (log_memory mem s).
Proof.
  unfold log_memory. change (a_log (unl s)) with (a_log s). change (a_procs (unl s)) with (a_procs s). destruct (a_log s); [|split; [auto|split; auto]].
  destruct (memory_unl mem (0 :: a_procs s) s) as [-> K]. destruct (memory mem (0 :: a_procs s) s) as [l s']. auto.
Qed.
(** Readings that can be taken and stay within the limit leave everything as it is. *)
Lemma memory_read mem ps : (forall p, mem p <> None) -> forall s, memory mem ps s = (map (fun p => (p, match mem p with Some m => m | None => 0 end)) ps, s).
Proof.
  intros R. induction ps as [|p ps IH]; intros s; cbn [memory map]; auto.
  rewrite IH. specialize (R p). destruct (mem p); [auto|congruence].
Qed.
Lemma total_map f ps : total (map (fun p => (p, f p)) ps) = list_sum (map f ps).
Proof. induction ps as [|p ps IH]; auto. change (f p + total (map (fun p => (p, f p)) ps) = f p + list_sum (map f ps)). lia. Qed.
Section Quota.
Context (call : nat -> list nat -> kwargs -> nat -> outcome) (limit : option nat) (n : nat).
Notation inv := (Async_Proofs2.inv call (fun _ => True)).
Definition ok (s : st) : Prop := inv s /\ a_n s = n /\ a_limit s = limit.
Lemma control_within t s : ok s -> keeps_within limit n t -> control (Sys_Model.t_mem t) (Sys_Model.t_mem2 t) s = (Ok tt, s).
Proof.
  intros (I & N & L) W. unfold control, keeps_within in *. rewrite L. destruct limit as [m|]; auto. destruct W as [R W].
  rewrite memory_read by exact R. change (map (fun p => (p, match Sys_Model.t_mem t p with Some m0 => m0 | None => 0 end))) with (map (fun p => (p, usage t p))).
  rewrite total_map. pose proof (Async_Proofs2.i_pool _ _ _ I) as P.
  assert (LE : list_sum (map (usage t) (0 :: a_procs s)) <= m).
  { apply (W (a_procs s)); [apply P| |rewrite <- N; apply P]. intros K. apply (Async_Proofs.p_procs _ P) in K. lia. }
  destruct (Nat.ltb_spec m (list_sum (map (usage t) (0 :: a_procs s)))) as [LT|_]; auto. lia.
Qed.
Lemma ok_step a s : ok s -> same_kind s (step call s a) -> ok (step call s a).
Proof. intros (I & N & L) [K1 K2]. split; [|split; congruence]. apply Async_Proofs2.inv_step; auto. Qed.
Definition no_turn (a : act) : Prop := match a with Turn _ _ _ _ => False | _ => True end.
Lemma step_unl a s : no_turn a -> step call (unl s) a = unl (step call s a) /\ same_kind s (step call s a).
Proof.
  intros NT. destruct a; cbn [step]; try (destruct NT).
  - change (a_waiting (unl s)) with (a_waiting s). destruct (a_waiting s); [split; [auto|split; auto]|]. unfold enter. change (a_entered (unl s)) with (a_entered s).
    destruct (a_entered s); [split; [auto|split; auto]|].
    match goal with |- context [Nat.iter (a_n s) start_worker ?z] => destruct (start_iter (a_n s) z) as [K1 K2]; split; [exact K1|exact K2] end.
  - change (a_waiting (unl s)) with (a_waiting s). destruct (a_waiting s); [split; [auto|split; auto]|]. change (a_entered (unl s)) with (a_entered s). destruct (a_entered s); split; auto; split; auto.
  - change (a_waiting (unl s)) with (a_waiting s). destruct (a_waiting s); [split; [auto|split; auto]|]. unfold submit. change (a_closed (unl s)) with (a_closed s). destruct (a_closed s); split; auto; split; auto.
  - change (a_waiting (unl s)) with (a_waiting s). destruct (a_waiting s); [split; [auto|split; auto]|]. unfold wait_start. change (a_futures (unl s)) with (a_futures s). destruct (a_futures s); split; auto; split; auto.
  - split; auto. split; auto.
  - change (a_waiting (unl s)) with (a_waiting s). destruct (a_waiting s); split; auto; split; auto.
  - unfold worker_get. change (a_live (unl s)) with (a_live s). change (a_input (unl s)) with (a_input s).
    destruct (find_worker p (a_live s)) as [w|]; [|split; auto; split; auto]. destruct (a_input s); [split; auto; split; auto|]. destruct (w_run w); split; auto; split; auto.
  - unfold worker_exec. change (a_live (unl s)) with (a_live s). destruct (find_worker p (a_live s)) as [w|]; [|split; auto; split; auto].
    destruct (w_run w) as [[id j]|]; split; auto; split; auto.
  - unfold worker_flush. change (a_live (unl s)) with (a_live s). destruct (find_worker p (a_live s)) as [w|]; [|split; auto; split; auto]. destruct (w_out w); split; auto; split; auto.
  - split; auto. split; auto.
Qed.
Lemma turn_unl t s : ok s -> keeps_within limit n t -> let a := Turn (Sys_Model.t_mem t) (Sys_Model.t_mem2 t) (Sys_Model.t_mem3 t) (Sys_Model.t_ready t) in
  step call (unl s) a = unl (step call s a) /\ same_kind s (step call s a).
Proof.
  intros O W a. unfold a. cbn [step]. change (a_waiting (unl s)) with (a_waiting s). destruct (a_waiting s); [|split; auto; split; auto]. unfold wait_turn.
  rewrite (control_within t s O W). change (control (Sys_Model.t_mem t) (Sys_Model.t_mem2 t) (unl s)) with (@Ok unit tt, unl s).
  destruct (log_unl (Sys_Model.t_mem3 t) s) as [-> K]. set (s1 := log_memory (Sys_Model.t_mem3 t) s) in *. clearbody s1.
  change (a_closed (unl s1)) with (a_closed s1). destruct (a_closed s1); [split; [auto|exact K]|].
  change (a_output (unl s1)) with (a_output s1). destruct (a_output s1) as [|[id o] out]; [auto|]. destruct (Sys_Model.t_ready t); [|auto].
  change (a_futures (unl s1)) with (a_futures s1). destruct (find_id id (a_futures s1)); split; auto; exact K.
Qed.
Lemma workers_unl l : forall s, ok s -> Sys_Model.workers_do call l (unl s) = unl (Sys_Model.workers_do call l s) /\ ok (Sys_Model.workers_do call l s).
Proof.
  unfold Sys_Model.workers_do, run. induction l as [|a l IH]; intros s O; [split; auto|]. cbn [filter]. destruct (Sys_Model.by_worker a) eqn:B; [|apply IH; auto]. cbn [fold_left].
  assert (NT : no_turn a) by (destruct a; try discriminate; exact Logic.I).
  destruct (step_unl a s NT) as [-> K]. apply IH. apply ok_step; auto.
Qed.
Lemma turns_unl plan : forall s, ok s -> Forall (keeps_within limit n) plan ->
  Sys_Model.turns call plan (unl s) = (let (s', plan') := Sys_Model.turns call plan s in (unl s', plan')) /\ ok (fst (Sys_Model.turns call plan s)) /\ Forall (keeps_within limit n) (snd (Sys_Model.turns call plan s)).
Proof.
  induction plan as [|t plan IH]; intros s O F; cbn [Sys_Model.turns]; [auto|]. inversion F as [|? ? F1 F2]; subst.
  destruct (workers_unl (Sys_Model.t_acts t) s O) as [-> O1]. destruct (turn_unl t _ O1 F1) as [E K]. rewrite E. pose proof (ok_step _ _ O1 K) as O2.
  match goal with |- context [a_waiting (unl ?z)] => change (a_waiting (unl z)) with (a_waiting z); destruct (a_waiting z) end; [apply IH; auto|cbn [fst snd]; auto].
Qed.

(** * Programs *)
Definition unp {J} (p : pool J) : pool J := mkPool (unl (p_s p)) (p_jobs p) (p_plan p).
Definition okp {J} (p : pool J) : Prop := ok (p_s p) /\ Forall (keeps_within limit n) (p_plan p).
Definition alike {T J A} (m : MP T J A) : Prop := forall w p, okp p ->
  m (w, unp p) = (fst (m (w, p)), (fst (snd (m (w, p))), unp (snd (snd (m (w, p)))))) /\ okp (snd (snd (m (w, p)))).
Lemma alike_ret {T J A} (a : A) : @alike T J A (pret a).
Proof. intros w p O. auto. Qed.
Lemma alike_raise {T J A} e : @alike T J A (praise e).
Proof. intros w p O. auto. Qed.
Lemma alike_own {T J A} (m : T -> res A * T) : @alike T J A (own m).
Proof. intros w p O. unfold own. cbn [fst snd]. destruct (m w) as [x w']. auto. Qed.
Lemma alike_size {T J} : @alike T J Z p_size.
Proof. intros w p O. auto. Qed.
Lemma alike_bind {T J A B} (m : MP T J A) (f : A -> MP T J B) : alike m -> (forall a, alike (f a)) -> alike (pbind m f).
Proof.
  intros M F w p O. unfold pbind. destruct (M w p O) as [E O1]. rewrite E. destruct (m (w, p)) as [[a|e] [w1 p1]]; cbn [fst snd] in *; [|auto]. apply F. exact O1.
Qed.
Lemma submit_unp {J} (j : J) p : okp p -> pool_submit call j (unp p) = unp (pool_submit call j p) /\ okp (pool_submit call j p).
Proof.
  intros [O F]. unfold pool_submit. cbn [unp p_s p_jobs p_plan].
  destruct (workers_unl (match p_plan p with [] => [] | t :: _ => Sys_Model.t_acts t end) (p_s p) O) as [-> O1].
  match goal with |- context [step call (unl ?z) ?a] => destruct (step_unl a z Logic.I) as [-> K] end. split; auto. split; [apply ok_step; auto|]. cbn [p_plan]. destruct (p_plan p); [auto|]. inversion F; auto.
Qed.
Lemma wait_unp {J} (p : pool J) : okp p -> pool_wait call (unp p) = (fst (pool_wait call p), unp (snd (pool_wait call p))) /\ okp (snd (pool_wait call p)).
Proof.
  intros [O F]. unfold pool_wait. cbn [unp p_s p_jobs p_plan]. destruct (step_unl Wait (p_s p) Logic.I) as [E K]. rewrite E. pose proof (ok_step Wait _ O K) as O1.
  set (s0 := step call (p_s p) Wait) in *. clearbody s0.
  change (Sys_Model.raised_by (unl (p_s p)) (unl s0)) with (Sys_Model.raised_by (p_s p) s0). destruct (Sys_Model.raised_by (p_s p) s0); [split; [auto|split; auto]|].
  destruct (turns_unl (p_plan p) s0 O1 F) as (E1 & O2 & F2). rewrite E1. destruct (Sys_Model.turns call (p_plan p) s0) as [s1 plan]. cbn [fst snd] in *.
  change (a_waiting (unl s1)) with (a_waiting s1). change (Sys_Model.raised_by (unl s0) (unl s1)) with (Sys_Model.raised_by s0 s1). change (a_returned (unl s1)) with (a_returned s1).
  destruct (a_waiting s1); [split; [auto|split; auto]|]. destruct (Sys_Model.raised_by s0 s1); [split; [auto|split; auto]|]. destruct (rev (a_returned s1)); (split; [auto|split; auto]).
Qed.
Context (scores : nat -> list num).
Lemma alike_psubmit i : alike (p_submit call i).
Proof. intros w p O. unfold p_submit. destruct (submit_unp i p O) as [-> O1]. auto. Qed.
Lemma alike_qsubmit i r : alike (q_submit call i r).
Proof. intros w p O. unfold q_submit. destruct (submit_unp (i, r) p O) as [-> O1]. auto. Qed.
Lemma alike_pwait : alike (p_wait_next call scores).
Proof.
  intros w p O. unfold p_wait_next. destruct (wait_unp p O) as [-> O1]. destruct (pool_wait call p) as [[[k r]|e] p1]; cbn [fst snd] in *; [|auto].
  change (p_jobs (unp p1)) with (p_jobs p1). destruct (nth_error (p_jobs p1) k) as [j|]; [|auto]. apply alike_own. auto.
Qed.
Lemma alike_qwait : alike (q_wait_next call scores).
Proof.
  intros w p O. unfold q_wait_next. destruct (wait_unp p O) as [-> O1]. destruct (pool_wait call p) as [[[k r]|e] p1]; cbn [fst snd] in *; [|auto].
  change (p_jobs (unp p1)) with (p_jobs p1). destruct (nth_error (p_jobs p1) k) as [j|]; [|auto]. apply alike_own. auto.
Qed.
Ltac al := repeat first [apply alike_ret | apply alike_raise | apply alike_size | apply alike_psubmit | apply alike_qsubmit | apply alike_pwait | apply alike_qwait
  | apply alike_own | match goal with |- alike (pbind _ _) => apply alike_bind; [|intros ?] end | match goal with |- alike (if ?b then _ else _) => destruct b end].
Section EA.
Context (ps : pset) (mx : option Z) (mr pz : nat) (mn : option Z) (restart : bool).
Lemma alike_all l : alike (p_submit_all call l).
Proof. induction l; cbn [p_submit_all]; al; auto. Qed.
Lemma alike_begin l : alike (p_begin call l).
Proof. unfold p_begin. al. apply alike_all. Qed.
Lemma alike_turn : alike (p_turn call scores ps mx mr pz restart).
Proof.
  unfold p_turn, p_refill. apply alike_bind; [al|]. intros [i o]. apply alike_bind; [destruct o as [|sc []]; al|]. intros. al. apply alike_begin.
Qed.
Lemma alike_turns f : forall k, alike (p_turns call scores ps mx mr pz mn restart f k).
Proof. induction f as [|f IH]; intros k; cbn [p_turns]; al. apply alike_turn. apply IH. Qed.
End EA.
Section RS.
Context (ps : pset) (mx : option Z).
Lemma alike_each l : alike (q_submit_each call l).
Proof. induction l; cbn [q_submit_each]; al; auto. Qed.
Lemma alike_rs mn f : alike (q_rs_turns call scores ps mx mn f).
Proof.
  induction f as [|f IH]; cbn [q_rs_turns]; al. { destruct a0 as [[i r] o]. destruct o; al. } apply IH.
Qed.
Context (eta fr : nat) (R : Z).
Lemma alike_new : alike (q_start_new_job call ps mx eta fr R).
Proof. unfold q_start_new_job. al. Qed.
Lemma alike_jobs k : alike (q_start_jobs call ps mx eta fr R k).
Proof. induction k; cbn [q_start_jobs]; al; auto using alike_new. Qed.
Lemma alike_asha mf f : alike (q_asha_turns call scores ps mx eta fr R mf f).
Proof.
  induction f as [|f IH]; cbn [q_asha_turns]; al; destruct (top_below R mf a) as [[]|e]; al; auto using alike_new.
Qed.
End RS.
(** * Inside the context manager *)
Context (log : bool) (d : kwargs).
Lemma with_alike {T J A} (m : MP T J A) w p : alike m -> Forall (keeps_within limit n) (p_plan p) ->
  with_evaluator call n log d m (w, p) = (fst (with_limit call limit n log d m (w, p)), (fst (snd (with_limit call limit n log d m (w, p))), unp (snd (snd (with_limit call limit n log d m (w, p)))))).
Proof.
  intros M F. unfold with_evaluator, with_limit. cbn [fst snd].
  set (s0 := new_evaluator n limit log d). change (new_evaluator n None log d) with (unl s0).
  destruct (step_unl Enter s0 Logic.I) as [E K]. rewrite E.
  assert (O0 : ok s0) by (split; [apply Async_Proofs2.inv_new; auto|auto]). pose proof (ok_step Enter s0 O0 K) as O1.
  destruct (M w (mkPool (step call s0 Enter) [] (p_plan p)) (conj O1 F)) as [E1 O2].
  change (@mkPool J (unl (step call s0 Enter)) [] (p_plan p)) with (unp (@mkPool J (step call s0 Enter) [] (p_plan p))). rewrite E1.
  destruct (m (w, mkPool (step call s0 Enter) [] (p_plan p))) as [x [w1 p1]]. cbn [fst snd unp p_s p_jobs p_plan]. destruct (step_unl Exit (p_s p1) Logic.I) as [-> _]. auto.
Qed.
Definition agree {T J A} (m1 m2 : MP T J A) : Prop := forall w p, Forall (keeps_within limit n) (p_plan p) ->
  exists p', m2 (w, p) = (fst (m1 (w, p)), (fst (snd (m1 (w, p))), p')).
Lemma agree_with {T J A} (m : MP T J A) : alike m -> agree (with_limit call limit n log d m) (with_evaluator call n log d m).
Proof. intros M w p F. eexists. apply with_alike; auto. Qed.
Lemma agree_own {T J A B} (m : T -> res A * T) (f1 f2 : A -> MP T J B) : (forall a, agree (f1 a) (f2 a)) -> agree (pbind (own m) f1) (pbind (own m) f2).
Proof.
  intros H w p F. unfold pbind, own. cbn [fst snd]. destruct (m w) as [[a|e] w1]; [apply (H a w1 p F)|]. eexists. reflexivity.
Qed.
Lemma agree_search ps mx mr pz mn rs warm : agree (l_search call scores limit ps mx mr pz mn rs n log d warm) (p_search call scores ps mx mr pz mn rs n log d warm).
Proof.
  assert (H : forall l, agree (l_async_ea call scores limit ps mx mr pz mn rs n log d l) (p_async_ea call scores ps mx mr pz mn rs n log d l)).
  { intros l w p F. unfold l_async_ea, p_async_ea. cbn [fst snd]. destruct (match mn with Some m => (m <=? 0)%Z | None => false end); [eexists; reflexivity|].
    eapply agree_with; auto. apply alike_bind; [apply alike_begin|intros; apply alike_turns]. }
  unfold l_search, p_search. destruct warm as [|i l]; [apply agree_own; auto|auto].
Qed.
Lemma agree_rs ps mx mn warm : agree (l_rs_phase call scores limit ps mx mn n log d warm) (q_rs_phase call scores ps mx mn n log d warm).
Proof.
  apply agree_own. intros l w p F. unfold l_random_search, q_random_search. eapply agree_with; auto. apply alike_bind; [apply alike_each|intros; apply alike_rs].
Qed.
Lemma agree_asha0 ps mx eta fr R mf : agree (l_asha call scores limit ps mx eta fr R mf n log d) (q_asha call scores ps mx eta fr R mf n log d).
Proof.
  intros w p F. unfold l_asha, q_asha. cbn [fst snd].
  eapply (agree_own (set_rungs (empty_rungs fr R)) (fun _ => with_limit call limit n log d _) (fun _ => with_evaluator call n log d _)); auto.
  intros _. apply agree_with. apply alike_bind; [apply alike_jobs|intros; apply alike_asha].
Qed.
Lemma agree_asha ps mx eta fr R mf warm : agree (l_asha_phase call scores limit ps mx eta fr R mf n log d warm) (q_asha_phase call scores ps mx eta fr R mf n log d warm).
Proof. apply agree_own. intros l. apply agree_own. intros _. apply agree_asha0. Qed.
End Quota.

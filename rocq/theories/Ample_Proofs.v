(** A limit on memory use that is not reached changes nothing: lemmas. *)
Require Import ZArith Lia.
From Verif Require Import Base Num Gp_Model Evo_Model Rnd_Model End_Model Proc_Model Limit_Model Live_Spec Ample_Spec.
From Verif Require Import Proc_Proofs Live_Proofs Live_Proofs2.
From Verif Require Async_Model Sys_Model.
Open Scope nat_scope.
Open Scope list_scope.

(** The same evaluator with another limit. *)
Definition lim (l : option nat) (s : Async_Model.st) : Async_Model.st :=
  Async_Model.mkSt (Async_Model.a_n s) l (Async_Model.a_log s) (Async_Model.a_entered s) (Async_Model.a_closed s) (Async_Model.a_waiting s)
    (Async_Model.a_futures s) (Async_Model.a_procs s) (Async_Model.a_live s) (Async_Model.a_input s) (Async_Model.a_output s)
    (Async_Model.a_size s) (Async_Model.a_viol s) (Async_Model.a_behaved s) (Async_Model.a_defaults s) (Async_Model.a_pid s)
    (Async_Model.a_submitted s) (Async_Model.a_returned s) (Async_Model.a_raised s).
Definition limp {J} (l : option nat) (p : pool J) : pool J := mkPool (lim l (p_s p)) (p_jobs p) (p_plan p).

Section Ample.
Context (call : nat -> list nat -> Async_Model.kwargs -> nat -> Async_Model.outcome) (scores : nat -> list num) (d : Async_Model.kwargs) (n limit : nat).
Hypothesis ANS : answers call d.
Hypothesis POS : 0 < n.
Notation L := (lim (Some limit)).
Notation LP := (limp (Some limit)).

Lemma lim_worker a s : Sys_Model.by_worker a = true -> Async_Model.step call (L s) a = L (Async_Model.step call s a).
Proof.
  intros B. destruct a; try discriminate; cbn [Async_Model.step].
  - unfold Async_Model.worker_get. cbn [lim Async_Model.a_live Async_Model.a_input]. destruct (Async_Model.find_worker p (Async_Model.a_live s)) as [w|]; auto.
    destruct (Async_Model.a_input s); auto. destruct (Async_Model.w_run w); auto.
  - unfold Async_Model.worker_exec. cbn [lim Async_Model.a_live]. destruct (Async_Model.find_worker p (Async_Model.a_live s)) as [w|]; auto. destruct (Async_Model.w_run w) as [[]|]; auto.
  - unfold Async_Model.worker_flush. cbn [lim Async_Model.a_live]. destruct (Async_Model.find_worker p (Async_Model.a_live s)) as [w|]; auto. destruct (Async_Model.w_out w); auto.
  - reflexivity.
Qed.
Lemma lim_workers acts : forall s, Sys_Model.workers_do call acts (L s) = L (Sys_Model.workers_do call acts s).
Proof.
  unfold Sys_Model.workers_do, Async_Model.run. induction acts as [|a acts IH]; intros s; auto. cbn [filter]. destruct (Sys_Model.by_worker a) eqn:B; auto.
  cbn [fold_left]. rewrite lim_worker by auto. apply IH.
Qed.
Lemma lim_submit j s : Async_Model.step call (L s) (Async_Model.Submit j) = L (Async_Model.step call s (Async_Model.Submit j)).
Proof.
  cbn [Async_Model.step]. cbn [lim Async_Model.a_waiting]. destruct (Async_Model.a_waiting s); auto. unfold Async_Model.submit. cbn [lim Async_Model.a_closed]. destruct (Async_Model.a_closed s); auto.
Qed.
Lemma lim_wait s : Async_Model.step call (L s) Async_Model.Wait = L (Async_Model.step call s Async_Model.Wait).
Proof.
  cbn [Async_Model.step]. cbn [lim Async_Model.a_waiting]. destruct (Async_Model.a_waiting s); auto. unfold Async_Model.wait_start. cbn [lim Async_Model.a_futures]. destruct (Async_Model.a_futures s); auto.
Qed.
Lemma lim_exit s : Async_Model.step call (L s) Async_Model.Exit = L (Async_Model.step call s Async_Model.Exit).
Proof. cbn [Async_Model.step]. cbn [lim Async_Model.a_waiting Async_Model.a_entered]. destruct (Async_Model.a_waiting s), (Async_Model.a_entered s); auto. Qed.
Lemma lim_enter log : Async_Model.step call (Async_Model.new_evaluator n (Some limit) log d) Async_Model.Enter = L (Async_Model.step call (Async_Model.new_evaluator n None log d) Async_Model.Enter).
Proof.
  cbn [Async_Model.step Async_Model.new_evaluator Async_Model.a_waiting]. unfold Async_Model.enter. cbn [Async_Model.new_evaluator Async_Model.a_entered Async_Model.a_n].
  match goal with |- Nat.iter n _ ?a = L (Nat.iter n _ ?b) => change a with (L b); generalize b end. intros s.
  generalize n as m. induction m as [|m IH]; auto. cbn [Nat.iter nat_rect]. fold (Nat.iter m Async_Model.start_worker (L s)). fold (Nat.iter m Async_Model.start_worker s). rewrite IH. reflexivity.
Qed.
(** All workers live: reading the memory changes nothing. *)
Lemma read_all mem s : forall ps, (forall p, In p ps -> Async_Model.alive p s = true) ->
  Async_Model.memory mem ps s = (map (fun p => (p, match mem p with Some m => m | None => 0 end)) ps, s).
Proof.
  induction ps as [|p ps IH]; intros H; auto. cbn [Async_Model.memory]. rewrite (H p) by (left; auto). rewrite IH by (intros q Hq; apply H; right; auto).
  cbn [map]. destruct (mem p); auto.
Qed.
Lemma all_live s : pool_ok d n s -> forall p, In p (0 :: Async_Model.a_procs s) -> Async_Model.alive p s = true.
Proof.
  intros G p [<- |H]; [reflexivity|]. unfold Async_Model.alive. apply orb_true_iff. right. apply existsb_exists.
  rewrite (l_procs _ _ _ G), <- (l_pids _ _ _ G) in H. apply in_map_iff in H as (w & <- & H). exists w. split; auto. apply Nat.eqb_refl.
Qed.
Lemma total_sum {A} (f : A -> nat * nat) l : Async_Model.total (map f l) = list_sum (map (fun a => snd (f a)) l).
Proof. induction l as [|a l IH]; auto. change (snd (f a) + Async_Model.total (map f l) = snd (f a) + list_sum (map (fun a => snd (f a)) l)). rewrite IH. auto. Qed.
Lemma lim_log mem s : pool_ok d n s -> Async_Model.log_memory mem (L s) = L s.
Proof.
  intros G. unfold Async_Model.log_memory. cbn [lim Async_Model.a_log]. destruct (Async_Model.a_log s); auto. rewrite read_all; auto. exact (all_live s G).
Qed.
Lemma lim_turn t s : pool_ok d n s -> in_use n t <= limit ->
  Async_Model.wait_turn (Sys_Model.t_mem t) (Sys_Model.t_mem2 t) (Sys_Model.t_mem3 t) (Sys_Model.t_ready t) (L s) =
  L (Async_Model.wait_turn (Sys_Model.t_mem t) (Sys_Model.t_mem2 t) (Sys_Model.t_mem3 t) (Sys_Model.t_ready t) s).
Proof.
  intros G U. unfold Async_Model.wait_turn, Async_Model.control. rewrite (l_limit _ _ _ G). cbn [lim Async_Model.a_limit]. fold (L s).
  rewrite read_all by exact (all_live s G). rewrite total_sum. cbn [snd]. change (Async_Model.a_procs (L s)) with (Async_Model.a_procs s). rewrite (l_procs _ _ _ G).
  change (0 :: seq 1 n) with (seq 0 (S n)). fold (in_use n t). destruct (limit <? in_use n t) eqn:E; [apply Nat.ltb_lt in E; lia|].
  rewrite (lim_log _ s G), (log_same d n _ s G). cbn [lim Async_Model.a_closed Async_Model.a_output Async_Model.a_futures]. fold (L s).
  destruct (Async_Model.a_closed s); auto. destruct (Async_Model.a_output s) as [|[id o] out]; auto. destruct (Sys_Model.t_ready t); auto. destruct (Async_Model.find_id id (Async_Model.a_futures s)); auto.
Qed.
Lemma lim_turns : forall plan s, pool_ok d n s -> Async_Model.a_waiting s = true -> nobody_killed plan -> within limit n plan ->
  Sys_Model.turns call plan (L s) = (L (fst (Sys_Model.turns call plan s)), snd (Sys_Model.turns call plan s)) /\
  (exists l, plan = l ++ snd (Sys_Model.turns call plan s)) /\
  (Async_Model.a_waiting (fst (Sys_Model.turns call plan s)) = false -> pool_ok d n (fst (Sys_Model.turns call plan s)) \/ Async_Model.a_raised (fst (Sys_Model.turns call plan s)) = Async_Model.a_raised s ++ [KeyError]).
Proof.
  induction plan as [|t plan IH]; intros s G W NK WI; [cbn [Sys_Model.turns fst snd]; split; auto; split; [exists []; auto|congruence]|]. cbn [Sys_Model.turns]. rewrite lim_workers.
  assert (NK1 : forall p, ~ In (Async_Model.Crash p) (Sys_Model.t_acts t)) by (intros p; apply NK; left; auto).
  destruct (workers_ok call d n ANS (Sys_Model.t_acts t) [] s NK1 G) as [G1 _]. destruct (workers_keep call (Sys_Model.t_acts t) s) as (K1 & _ & K3). rewrite W in K1.
  set (s1 := Sys_Model.workers_do call (Sys_Model.t_acts t) s) in *. cbn [Async_Model.step]. change (Async_Model.a_waiting (L s1)) with (Async_Model.a_waiting s1). rewrite K1.
  inversion WI as [|t0 plan0 U WI']; subst. rewrite (lim_turn t s1 G1 U).
  assert (NK2 : nobody_killed plan) by (intros t0 p H; apply NK; right; auto).
  destruct (turn_ok d n (Sys_Model.t_mem t) (Sys_Model.t_mem2 t) (Sys_Model.t_mem3 t) (Sys_Model.t_ready t) s1 G1 K1) as [(E & _)|(E & EW)].
  - rewrite E. change (Async_Model.a_waiting (L s1)) with (Async_Model.a_waiting s1). rewrite K1. destruct (IH s1 G1 K1 NK2 WI') as (A & (l & B) & C). split; auto. split; [exists (t :: l); cbn; congruence|]. rewrite <- K3. auto.
  - set (s2 := Async_Model.wait_turn _ _ _ _ s1) in *. change (Async_Model.a_waiting (L s2)) with (Async_Model.a_waiting s2). rewrite E. cbn [fst snd]. split; auto. split; [exists [t]; auto|].
    intros _. destruct EW as [[_ EW]|EW]; auto. right. rewrite EW, K3. auto.
Qed.

Section Prog.
Context {T J : Type} (dj : J).
Definition calm (p : pool J) : Prop := wfp call d p /\ pool_ok d n (p_s p) /\ nobody_killed (p_plan p) /\ within limit n (p_plan p).
(** A program that does not notice the limit. *)
Definition blind {A} (m : MP T J A) : Prop := forall w q x w' q', calm q -> m (w, q) = (x, (w', q')) ->
  m (w, LP q) = (x, (w', LP q')) /\ forall a, x = Ok a -> calm q'.
Lemma blind_ret {A} (a : A) : blind (pret a).
Proof. intros w q x w' q' C E. injection E as <- <- <-. auto. Qed.
Lemma blind_raise {A} e : blind (praise (A := A) e).
Proof. intros w q x w' q' C E. injection E as <- <- <-. split; auto. Qed.
Lemma blind_own {A} (m : T -> res A * T) : blind (own m).
Proof. intros w q x w' q' C E. unfold own in *. cbn [fst snd] in *. destruct (m w) as [y v]. injection E as <- <- <-. auto. Qed.
Lemma blind_bind {A B} (m : MP T J A) (f : A -> MP T J B) : blind m -> (forall a, blind (f a)) -> blind (pbind m f).
Proof.
  intros M F w q x w' q' C E. unfold pbind in *. destruct (m (w, q)) as [y [w1 q1]] eqn:EM. destruct (M _ _ _ _ _ C EM) as [-> K]. destruct y as [a|e].
  - exact (F a w1 q1 x w' q' (K a eq_refl) E).
  - injection E as <- <- <-. split; auto. discriminate.
Qed.
Lemma blind_size : blind p_size.
Proof. intros w q x w' q' C E. unfold p_size in *. cbn [snd limp p_s lim Async_Model.a_size] in *. injection E as <- <- <-. auto. Qed.
Lemma calm_submit (j : J) q : calm q -> calm (pool_submit call j q) /\ pool_submit call j (LP q) = LP (pool_submit call j q).
Proof.
  intros (W & G & NK & WI). split.
  - destruct (submit_ok call d j j q W) as (W' & _). split; auto. split; [apply (submit_live call d n ANS POS j q W G)|].
    + intros p. destruct (p_plan q) as [|t plan] eqn:EP; [auto|]. apply NK. left. auto.
    + cbn [pool_submit p_plan]. split; [apply killed_tl; auto|]. destruct (p_plan q); auto. inversion WI; auto.
  - unfold pool_submit, limp. cbn [p_s p_plan p_jobs]. rewrite lim_workers, lim_submit. auto.
Qed.
Lemma calm_wait (q : pool J) x q' : calm q -> pool_wait call q = (x, q') -> pool_wait call (LP q) = (x, LP q') /\ forall a, x = Ok a -> calm q'.
Proof.
  intros (W & G & NK & WI) E. pose proof (wait_ok call d dj q x q' W E) as WO. unfold pool_wait in *. cbn [limp p_s p_plan p_jobs]. fold (L (p_s q)). rewrite lim_wait. set (s0 := Async_Model.step call (p_s q) Async_Model.Wait) in *.
  assert (R1 : forall s s', Sys_Model.raised_by (L s) (L s') = Sys_Model.raised_by s s') by reflexivity. rewrite R1.
  destruct (Sys_Model.raised_by (p_s q) s0) as [e|] eqn:ER; [injection E as <- <-; split; auto; discriminate|].
  assert (G0 : pool_ok d n s0 /\ Async_Model.a_waiting s0 = true).
  { unfold s0 in *. cbn [Async_Model.step] in *. destruct W as [_ W]. rewrite W in *. unfold Async_Model.wait_start in *. destruct (Async_Model.a_futures (p_s q)); [rewrite (raised_more n POS (p_s q) (Async_Model.raise RuntimeError (p_s q)) RuntimeError eq_refl) in ER; discriminate|].
    split; auto. apply waiting_ok; auto. }
  destruct G0 as [G0 W0]. destruct (lim_turns (p_plan q) s0 G0 W0 NK WI) as (A & (l & B) & C). rewrite A. destruct (Sys_Model.turns call (p_plan q) s0) as [s1 plan] eqn:ET. cbn [fst snd] in *.
  change (Async_Model.a_waiting (L s1)) with (Async_Model.a_waiting s1). rewrite R1. change (Async_Model.a_returned (L s1)) with (Async_Model.a_returned s1).
  destruct (Async_Model.a_waiting s1) eqn:W1; [injection E as <- <-; split; auto; discriminate|].
  destruct (Sys_Model.raised_by s0 s1) as [e|] eqn:R2; [injection E as <- <-; split; auto; discriminate|].
  destruct (rev (Async_Model.a_returned s1)) as [|y r] eqn:EY; injection E as <- <-; (split; [auto|]); [discriminate|]. intros a _.
  destruct WO as (_ & _ & _ & _ & [(_ & X & _)|[(_ & X & _)|(kk & id & rr & j & X & _ & _ & _ & _ & _ & W2 & _)]]); try discriminate.
  split; auto. split.
  - cbn [p_s]. destruct (C eq_refl) as [C'|C']; auto. rewrite (raised_more n POS s0 s1 KeyError C') in R2. discriminate.
  - cbn [p_plan]. rewrite B in NK, WI. split; [exact (proj2 (killed_app _ _ NK))|]. apply Forall_app in WI. tauto.
Qed.
End Prog.

(** * The programs *)
Definition di : individual := mkInd 0 0 [] EmptyString.
Notation bl := (blind (T := evo) (J := individual)).
Lemma bl_submit i : bl (p_submit call i).
Proof. intros w q x w' q' C E. unfold p_submit in *. destruct (calm_submit i q C) as [C' ->]. injection E as <- <- <-. auto. Qed.
Lemma bl_submit_all l : bl (p_submit_all call l).
Proof. induction l as [|i l IH]; cbn [p_submit_all]; [apply blind_ret|]. apply blind_bind; [apply bl_submit|]. auto. Qed.
Lemma bl_wait : bl (p_wait_next call scores).
Proof.
  intros w q x w' q' C E. unfold p_wait_next in *. destruct (pool_wait call q) as [y q1] eqn:EW. destruct (calm_wait di q y q1 C EW) as [-> K]. destruct y as [[k r]|e].
  - change (p_jobs (LP q1)) with (p_jobs q1). destruct (nth_error (p_jobs q1) k) as [j|]; [|injection E as <- <- <-; split; auto; discriminate].
    exact (blind_own _ w q1 x w' q' (K _ eq_refl) E).
  - injection E as <- <- <-. split; auto. discriminate.
Qed.
Section EA.
Context (ps : pset) (ml : option Z) (mr pz : nat) (mn : option Z) (rst : bool).
Lemma bl_begin l : bl (p_begin call l).
Proof. unfold p_begin. apply blind_bind; [apply blind_own|]. intros _. apply bl_submit_all. Qed.
Lemma bl_refill : bl (p_refill call ps ml mr).
Proof.
  unfold p_refill. apply blind_bind; [apply blind_size|]. intros z. destruct (z <=? 1)%Z; [|apply blind_ret].
  apply blind_bind; [apply blind_own|]. intros a. apply blind_bind; [apply blind_own|]. intros b. apply blind_bind; [apply blind_own|]. intros i. apply blind_bind; [apply blind_own|]. intros _. apply bl_submit.
Qed.
Lemma bl_turn : bl (p_turn call scores ps ml mr pz rst).
Proof.
  unfold p_turn. apply blind_bind; [apply bl_wait|]. intros [i o]. apply blind_bind; [destruct o as [|sc []]; first [apply blind_own|apply blind_ret]|]. intros _.
  apply blind_bind; [apply bl_refill|]. intros _. apply blind_bind; [destruct rst; [apply blind_own|apply blind_ret]|]. intros [|]; [|apply blind_ret].
  apply blind_bind; [apply blind_own|]. intros _. apply blind_bind; [apply blind_own|]. intros l. apply bl_begin.
Qed.
Lemma bl_turns : forall f k, bl (p_turns call scores ps ml mr pz mn rst f k).
Proof.
  induction f as [|f IH]; intros k; cbn [p_turns]; (destruct (below mn k); [|apply blind_ret]); [apply blind_raise|]. apply blind_bind; [apply bl_turn|]. auto.
Qed.
End EA.
Notation bq := (blind (T := hst) (J := individual * nat)).
Lemma bq_submit i r : bq (q_submit call i r).
Proof. intros w q x w' q' C E. unfold q_submit in *. destruct (calm_submit (i, r) q C) as [C' ->]. injection E as <- <- <-. auto. Qed.
Lemma bq_each l : bq (q_submit_each call l).
Proof. induction l as [|i l IH]; cbn [q_submit_each]; [apply blind_ret|]. apply blind_bind; [apply bq_submit|]. auto. Qed.
Lemma bq_wait : bq (q_wait_next call scores).
Proof.
  intros w q x w' q' C E. unfold q_wait_next in *. destruct (pool_wait call q) as [y q1] eqn:EW. destruct (calm_wait (di, 0) q y q1 C EW) as [-> K]. destruct y as [[k r]|e].
  - change (p_jobs (LP q1)) with (p_jobs q1). destruct (nth_error (p_jobs q1) k) as [j|]; [|injection E as <- <- <-; split; auto; discriminate].
    exact (blind_own _ w q1 x w' q' (K _ eq_refl) E).
  - injection E as <- <- <-. split; auto. discriminate.
Qed.
Section RS.
Context (ps : pset) (ml : option Z) (mn : option Z) (eta fr : nat) (mx : Z) (mf : option Z).
Lemma bq_rs : forall f, bq (q_rs_turns call scores ps ml mn f).
Proof.
  induction f as [|f IH]; cbn [q_rs_turns]; (apply blind_bind; [apply blind_own|]; intros l; destruct (below mn (length l)); [|apply blind_ret]); [apply blind_raise|].
  apply blind_bind; [apply bq_wait|]. intros [[i r] o]. apply blind_bind; [destruct o; first [apply blind_own|apply blind_ret]|]. intros _.
  apply blind_bind; [apply blind_own|]. intros j. apply blind_bind; [apply bq_submit|]. auto.
Qed.
Lemma bq_start : bq (q_start_new_job call ps ml eta fr mx).
Proof. unfold q_start_new_job. apply blind_bind; [apply blind_own|]. intros j. destruct (existsb _ _); [apply bq_submit|apply blind_raise]. Qed.
Lemma bq_starts k : bq (q_start_jobs call ps ml eta fr mx k).
Proof. induction k as [|k IH]; cbn [q_start_jobs]; [apply blind_ret|]. apply blind_bind; [apply bq_start|]. auto. Qed.
Lemma bq_asha : forall f, bq (q_asha_turns call scores ps ml eta fr mx mf f).
Proof.
  induction f as [|f IH]; cbn [q_asha_turns]; (apply blind_bind; [apply blind_own|]; intros l; destruct (top_below mx mf l) as [[|]|e]; [|apply blind_ret|apply blind_raise]); [apply blind_raise|].
  apply blind_bind; [apply bq_wait|]. intros y. apply blind_bind; [apply blind_own|]. intros _. apply blind_bind; [apply bq_start|]. auto.
Qed.
End RS.
(** With and without the limit. *)
Lemma with_same {T J A} (dj : J) log (m : MP T J A) w p : blind m -> nobody_killed (p_plan p) -> within limit n (p_plan p) ->
  let y := with_evaluator call n log d m (w, p) in with_limit call (Some limit) n log d m (w, p) = (fst y, (fst (snd y), LP (snd (snd y)))).
Proof.
  intros B NK WI y. unfold y, with_evaluator, with_limit. cbn [fst snd]. rewrite lim_enter.
  set (p1 := mkPool (Async_Model.step call (Async_Model.new_evaluator n None log d) Async_Model.Enter) ([] : list J) (p_plan p)).
  assert (C : calm p1). { destruct (enter_ok call d dj n log (p_plan p)) as (W & _). split; [exact W|]. split; [apply (enter_live call d n POS)|]. auto. }
  destruct (m (w, p1)) as [x [w' q']] eqn:E. destruct (B w p1 x w' q' C E) as [K _].
  change (mkPool (L (Async_Model.step call (Async_Model.new_evaluator n None log d) Async_Model.Enter)) [] (p_plan p)) with (LP p1). rewrite K.
  cbn [fst snd limp p_s p_jobs p_plan]. fold (L (p_s q')). rewrite lim_exit. reflexivity.
Qed.
End Ample.

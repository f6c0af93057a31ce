(*IMPORTS*)
From Verif Require Import Base Stop_Model Stop_Spec.
Open Scope nat_scope.
(*END*)
From Verif Require Import Stop_Proofs.
Require Import Lia.

(** C141.  Leaving the context takes a bounded number of steps, not counting those at
    which it finds a queue locked by somebody else: three per worker, one per second of
    the time given to the workers, two per job, and seven. *)
Lemma C141_bounded_main :
  forall n limit before after k,
    let s := run before (entered n limit) in
    s_main s = Inside -> exit_steps after (step Leave s) k ->
    k > 3 * n + limit + 2 * outstanding s + 7 ->
    s_main (run (before ++ Leave :: after) (entered n limit)) = Left.
Proof.
  intros n limit before after k s M E G. rewrite run_app. fold s. change (s_main (run after (step Leave s)) = Left).
  pose proof (inv_reach n limit before : Inv s) as V. pose proof (inv2_reach n limit before : Inv2 n limit s) as W.
  apply (exit_bounded _ _ _ E).
  - apply inv_step. exact V.
  - cbn [step]. rewrite M. discriminate.
  - cbn [step]. rewrite M. unfold rank, set_main, outstanding in *. fields. rewrite (k_limit _ _ _ W), (k_inside _ _ _ W M). pose proof (k_procs _ _ _ W). lia.
Qed.
(** A queue is locked by a running worker only until its next step. *)
Lemma C141_released_main :
  forall n limit l p, let s := run l (entered n limit) in lives p s ->
    (s_ilock s = Some p -> s_ilock (step (Worker p) s) = None) /\
    (s_clock s = Some p -> s_clock (step (Worker p) s) = None).
Proof.
  intros n limit l p s L. pose proof (inv_reach n limit l : Inv s) as V. split; intros E; [apply release_input|apply release_command]; auto.
Qed.
(** When it is left, no worker is running, no process and no job is left, and it slept
    at most one second more than the time given to the workers. *)
Lemma C141_left_main :
  forall n limit l, let s := run l (entered n limit) in s_main s = Left ->
    s_live s = [] /\ s_procs s = [] /\ s_input s = [] /\ s_slept s <= limit + 1.
Proof.
  intros n limit l s M. pose proof (inv_reach n limit l : Inv s) as V. pose proof (inv2_reach n limit l : Inv2 n limit s) as W.
  destruct V as [ND PR NX A1 A2 A3 B1 B2 B3 CL SL LE]. rewrite M in *. specialize (LE eq_refl). repeat split; auto.
  - destruct (s_live s) as [|w r] eqn:EL; [reflexivity|]. exfalso. specialize (PR (fst w)). rewrite LE in PR. apply PR. unfold lives. rewrite EL. left. reflexivity.
  - rewrite <- (k_limit _ _ _ W). exact SL.
Qed.
(** As long as nobody who is gone has left a queue locked, __exit__ can go on to its
    end, with nothing but steps of its own and of the workers. *)
Lemma C141_returns_partial_main :
  forall n limit l, let s := run l (entered n limit) in
    s_main s <> Inside -> ~ abandoned (s_ilock s) s -> ~ abandoned (s_clock s) s ->
    exists l', ordinary l' /\ s_main (run l' s) = Left.
Proof.
  intros n limit l s NI NA NB. apply (exit_can_end (rank s)); auto. apply inv_reach.
Qed.
(** In particular when no worker was stopped for its memory use and none crashed. *)
Lemma C141_calm_main :
  forall n limit before after, calm before -> ordinary after ->
    s_main (run before (entered n limit)) = Inside ->
    exists l', ordinary l' /\ s_main (run (before ++ Leave :: after ++ l') (entered n limit)) = Left.
Proof.
  intros n limit before after CA OR M0.
  assert (SOUND : forall l, (forall a, In a l -> (forall p g, a <> Stop p g) /\ (forall p, a <> Ends p)) -> forall s, Inv s ->
     ~ abandoned (s_ilock s) s /\ ~ abandoned (s_clock s) s -> s_main s <> Reap -> s_main s <> Left ->
     (s_main (run l s) = Reap \/ s_main (run l s) = Left) \/ (~ abandoned (s_ilock (run l s)) (run l s) /\ ~ abandoned (s_clock (run l s)) (run l s))).
  { induction l as [|a l IH]; intros H s V [NA NB] NR NL; [right; auto|]. change (run (a :: l) s) with (run l (step a s)).
    assert (NEXT : (s_main (step a s) = Reap \/ s_main (step a s) = Left) \/ (s_main (step a s) <> Reap /\ s_main (step a s) <> Left)).
    { destruct (s_main (step a s)); auto; right; split; discriminate. }
    assert (GO : ~ abandoned (s_ilock (step a s)) (step a s) /\ ~ abandoned (s_clock (step a s)) (step a s)).
    { destruct (H a (or_introl eq_refl)) as [H1 H2]. destruct a; cbn [step].
      - destruct (s_main s); auto.
      - destruct (s_main s); auto.
      - exfalso. eapply H1. reflexivity.
      - destruct (s_main s); auto.
      - destruct (main_sound s NR) as (K1 & K2 & K3). unfold abandoned, lives. rewrite K1, K2, K3. auto.
      - apply sound_worker; auto.
      - exfalso. eapply H2. reflexivity. }
    destruct NEXT as [N|[N1 N2]].
    - left. clear - N. revert N. generalize (step a s) as s0. clear. induction l as [|a l IH]; intros s N; [exact N|].
      apply IH. destruct N as [N|N]; [|right; apply step_left; exact N]. destruct a; cbn [step]; rewrite ?N; auto.
      + unfold main_step. rewrite N. destruct (s_procs s); [right; reflexivity|left; exact N].
      + destruct (worker_kept p s) as (_ & E & _). rewrite E. auto.
    - apply IH; auto; [intros b Hb; apply H; right; exact Hb|apply inv_step; exact V]. }
  assert (OUT : forall l s, Inv s -> s_main s <> Inside -> s_main (run l s) <> Inside).
  { induction l as [|a l IH]; intros s V NI; [exact NI|]. apply IH; [apply inv_step; exact V|apply outside_step; auto]. }
  set (s := run (before ++ Leave :: after) (entered n limit)).
  assert (V : Inv s) by apply inv_reach.
  assert (NI : s_main s <> Inside).
  { unfold s. rewrite run_app. change (s_main (run after (step Leave (run before (entered n limit)))) <> Inside). apply OUT; [apply inv_step, inv_reach|].
    cbn [step]. rewrite M0. discriminate. }
  assert (X : exists l', ordinary l' /\ s_main (run l' s) = Left).
  { destruct (SOUND (before ++ Leave :: after)) with (s := entered n limit) as [[R|R]|[NA NB]].
    - intros a H. apply in_app_iff in H as [H|[<-|H]]; [apply CA; exact H|split; discriminate|].
      destruct (OR a H) as [->|(p & ->)]; split; discriminate.
    - apply inv_entered.
    - split; intros (p & E & _); discriminate.
    - discriminate.
    - discriminate.
    - eapply reap_ends; eauto.
    - exists []. split; [intros a []|exact R].
    - apply (exit_can_end (rank s)); auto. }
  destruct X as (l' & O & L). exists l'. split; [exact O|]. rewrite app_comm_cons, app_assoc, run_app. exact L.
Qed.
(** Without terminations a stop command ends one worker: until the queues are emptied,
    every worker that runs has one stop command waiting, put already or still to be put,
    and there are no others.  So if __exit__ goes on before the time given to the
    workers is over, all of them have stopped by themselves. *)
Lemma C141_one_each_main :
  forall n limit before after, calm before -> ordinary after ->
    s_main (run before (entered n limit)) = Inside ->
    let s := run (before ++ Leave :: after) (entered n limit) in
    match s_main s with
    | Inside => False
    | Stops k => length (s_live s) = s_commands s + k
    | Waiting _ => length (s_live s) = s_commands s
    | _ => s_slept s <= limit -> s_live s = []
    end.
Proof.
  intros n limit before after CA OR M0 s. subst s. rewrite run_app.
  assert (A : calm_inv limit (run before (entered n limit))).
  { clear M0 OR. assert (G : forall l s, calm l -> Inv s -> calm_inv limit s -> calm_inv limit (run l s)).
    { induction l as [|a l IH]; intros s C V H; [exact H|]. apply IH; [intros b Hb; apply C; right; exact Hb|apply inv_step; exact V|].
      apply calm_step; auto; apply (C a (or_introl eq_refl)). }
    apply G; [exact CA|apply inv_entered|]. split; [reflexivity|]. cbn. rewrite map_length, seq_length. auto. }
  change (run (Leave :: after) (run before (entered n limit))) with (run after (step Leave (run before (entered n limit)))).
  pose proof (inv_reach n limit before) as V. revert A M0 V. generalize (run before (entered n limit)) as s. intros s A M0 V.
  assert (B : calm_inv limit (step Leave s)) by (apply calm_step; auto; discriminate).
  assert (W : s_main (step Leave s) <> Inside) by (cbn [step]; rewrite M0; discriminate).
  apply (inv_step Leave) in V. revert B W V. generalize (step Leave s). clear A M0 s. intros s B W V.
  assert (R : forall l s, ordinary l -> Inv s -> s_main s <> Inside -> calm_inv limit s -> calm_inv limit (run l s) /\ s_main (run l s) <> Inside).
  { clear. induction l as [|a l IH]; intros s C V W H; [auto|]. apply IH; [intros b Hb; apply C; right; exact Hb|apply inv_step; exact V|apply outside_step; auto|].
    destruct (C a (or_introl eq_refl)) as [->|(p & ->)]; apply calm_step; auto; discriminate. }
  destruct (R after s OR V W B) as [[_ K] NI]. destruct (s_main (run after s)); auto.
Qed.
(** C141 is false otherwise.  Once the queue of jobs is left locked with a job in it,
    the context is never left, whatever happens ... *)
Lemma C141_hangs_main :
  forall n limit l, let s := run l (entered n limit) in
    s_main s = Inside -> n > 0 ->
    abandoned (s_clock s) s \/ (abandoned (s_ilock s) s /\ s_input s <> []) ->
    forall l', s_main (run l' s) <> Left.
Proof.
  intros n limit l s M N A. pose proof (inv_reach n limit l : Inv s) as V. pose proof (inv2_reach n limit l : Inv2 n limit s) as W. destruct A as [(p & E & NL)|((p & E & NL) & NE)].
  - assert (PN : p < s_next s) by (apply (i_c3 s V); exact E).
    assert (J : forall l' s, Inv s -> Inv2 n limit s -> s_clock s = Some p -> p < s_next s -> ~ lives p s ->
      (match s_main s with Inside => True | Stops k => s_commands s + k > 0 | Waiting _ | ClearInput | ClearOutput | ClearCommand => s_commands s > 0 | _ => False end) -> s_main (run l' s) <> Left).
    { clear - N. induction l' as [|a l' IH]; intros s V W E PN NL J; [cbn; intros K; rewrite K in J; exact J|].
      destruct (keeps_clock p s a V E NL) as [E' CC]. destruct (lives_old p s a V PN NL) as [NL' PN'].
      apply IH; auto; [apply inv_step; auto|apply inv2_step; auto|]. clear E' NL' PN' IH.
      destruct a; cbn [step] in *.
      - destruct (s_main s) eqn:M; cbn; rewrite ?M; auto.
      - destruct (s_main s) eqn:M; cbn; rewrite ?M; auto.
      - destruct (s_main s) eqn:M; cbn; rewrite ?M; auto. destruct (existsb _ _); cbn; rewrite ?M; auto. destruct (again || _); cbn; rewrite ?M; auto.
      - destruct (s_main s) eqn:M; cbn; rewrite ?M; auto. pose proof (k_some _ _ _ W) as KS. rewrite M in KS.
        destruct (s_procs s) eqn:PS; [|cbn; lia]. exfalso. apply KS; [exact N|reflexivity].
      - unfold main_step in *. destruct (s_main s) eqn:M; cbn; rewrite ?M; auto; try contradiction.
        + destruct k; cbn; lia.
        + destruct (_ <=? _); [cbn; auto|]. destruct (_ =? _); cbn; auto.
        + destruct (s_input s); cbn; auto. destruct (s_ilock s); cbn; rewrite M; auto.
        + destruct (s_output s); cbn; rewrite ?M; auto.
        + destruct (s_commands s) eqn:C; [lia|]. rewrite E in *. rewrite M. lia.
      - destruct (worker_kept p0 s) as (_ & -> & _). destruct (s_main s); auto; lia.
      - cbn. destruct (s_main s); auto. }
    intros l'. apply J; auto. rewrite M. exact Logic.I.
  - assert (PN : p < s_next s) by (apply (i_in3 s V); exact E).
    assert (J : forall l' s, Inv s -> s_ilock s = Some p -> p < s_next s -> ~ lives p s -> s_input s <> [] ->
      (match s_main s with Inside | Stops _ | Waiting _ | ClearInput => True | _ => False end) -> s_main (run l' s) <> Left).
    { clear. induction l' as [|a l' IH]; intros s V E PN NL NE J; [cbn; intros K; rewrite K in J; exact J|].
      destruct (keeps_ilock p s a V E NL) as [E' _]. destruct (lives_old p s a V PN NL) as [NL' PN'].
      assert (K : s_input (step a s) <> [] /\ match s_main (step a s) with Inside | Stops _ | Waiting _ | ClearInput => True | _ => False end).
      { clear IH E' NL' PN'. destruct a; cbn [step].
        - destruct (s_main s) eqn:M; cbn; rewrite ?M; auto. split; auto. intros K. apply app_eq_nil in K as [_ K]. discriminate.
        - destruct (s_main s) eqn:M; cbn; rewrite ?M; auto.
        - destruct (s_main s) eqn:M; cbn; rewrite ?M; auto. destruct (existsb _ _); cbn; rewrite ?M; auto. destruct (again || _); cbn; rewrite ?M; auto.
        - destruct (s_main s) eqn:M; cbn; rewrite ?M; auto.
        - unfold main_step. destruct (s_main s) eqn:M; cbn; rewrite ?M; auto; try contradiction.
          + destruct k; cbn; auto.
          + destruct (_ <=? _); [cbn; auto|]. destruct (_ =? _); cbn; auto.
          + destruct (s_input s) eqn:IQ; [congruence|]. rewrite E. rewrite M, IQ. split; [discriminate|exact Logic.I].
        - destruct (worker_kept p0 s) as (_ & -> & _). split; [|exact J]. unfold worker_step. destruct (phase_of p0 s) as [[]|] eqn:P; auto.
          + destruct (s_clock s); auto.
          + destruct (s_commands s); auto.
          + destruct (s_ilock s); auto.
          + exfalso. apply phase_in in P. pose proof (i_in1 s V _ P) as K. rewrite E in K. injection K as <-. apply NL. apply in_map_iff. exists (p, HoldInput). auto.
        - cbn. auto. }
      destruct K as [K1 K2]. apply IH; auto. apply inv_step. exact V. }
    intros l'. apply J; auto. rewrite M. exact Logic.I.
Qed.
(** ... and this happens: with a memory limit, a worker can be stopped in the moment in
    which it takes a job. *)
Definition wrong_moment : list action := [Submit 7; Worker 1; Worker 1; Worker 1; Stop 1 true].
Lemma C141_returns_refuted_main :
  exists n limit l, n > 0 /\ s_main (run l (entered n limit)) = Inside /\
    forall l', s_main (run l' (run l (entered n limit))) <> Left.
Proof.
  exists 2, 10, wrong_moment. split; [lia|]. split; [reflexivity|]. apply C141_hangs_main; [reflexivity|lia|].
  right. split; [|discriminate]. exists 1. split; [reflexivity|]. cbn. intros [K|[K|[]]]; discriminate.
Qed.
(** Two workers, a job each; the context is left while one is still executing. *)
Definition ex_day : list action :=
  [Submit 5; Submit 6; Worker 1; Worker 1; Worker 1; Worker 2; Worker 1; Worker 2; Worker 2; Worker 2; Worker 1; Collect].
Example C141_ex_main :
  let s := run ex_day (entered 2 10) in
  s_main s = Inside /\ outstanding s = 1 /\ calm ex_day /\
  s_main (run (Leave :: repeat Main 3 ++ [Worker 1; Worker 1] ++ repeat Main 20) s) = Left /\
  exists k, exit_steps (repeat Main 41) (step Leave s) k /\ k = 41.
Proof.
  split; [reflexivity|]. split; [reflexivity|]. split.
  { intros a H. cbn in H. repeat (destruct H as [<-|H]; [split; discriminate|]). destruct H. }
  split; [reflexivity|]. eexists. split; [|reflexivity].
  repeat first [apply es_nil|apply es_main; [intros [(M & I & L)|(M & I & L)]; vm_compute in M, I, L; congruence|]|apply es_other; [discriminate|]].
Qed.

(** C142.  Stopping a worker that is not about to take something from a queue has no
    effect on the jobs and on the other workers, and leaves no queue locked. *)
Lemma C142_others_partial_main :
  forall n limit l p again, let s := run l (entered n limit) in
    s_main s = Inside -> In p (s_procs s) ->
    ~ In (p, HoldInput) (s_live s) -> ~ In (p, HoldCommand) (s_live s) ->
    ~ abandoned (s_ilock s) s -> ~ abandoned (s_clock s) s ->
    let s' := step (Stop p again) s in
    ~ abandoned (s_ilock s') s' /\ ~ abandoned (s_clock s') s' /\
    s_input s' = s_input s /\ s_output s' = s_output s /\ s_started s' = s_started s /\
    ~ lives p s' /\ (forall q x, q <> p -> In (q, x) (s_live s) -> In (q, x) (s_live s')).
Proof.
  intros n limit l p again s M HP N1 N2 NA NB s'. pose proof (inv_reach n limit l : Inv s) as V.
  assert (PN : p < s_next s) by (apply (i_next s V); exact HP).
  assert (E : s' = if again || (length (s_procs s) =? 1) then start (stop p s) else stop p s).
  { unfold s'. cbn [step]. rewrite M. assert (X : existsb (Nat.eqb p) (s_procs s) = true) by (apply existsb_exists; exists p; split; [exact HP|apply Nat.eqb_refl]).
    rewrite X. reflexivity. }
  assert (IL : s_ilock s' = s_ilock s /\ s_clock s' = s_clock s /\ s_input s' = s_input s /\ s_output s' = s_output s /\ s_started s' = s_started s).
  { rewrite E. destruct (again || _); repeat split. }
  assert (LIVE : forall q x, q <> p -> In (q, x) (s_live s) -> In (q, x) (s_live s')).
  { intros q x NQ H. rewrite E. destruct (again || _); unfold start, stop, set_procs, gone; fields; [apply in_app_iff; left|]; apply in_without; auto. }
  destruct IL as (I1 & I2 & I3 & I4 & I5). repeat split; auto.
  - rewrite I1. intros (q & EQ & NL). destruct (lock_holder _ _ NA) as [X|(r & X & L)]; [congruence|]. assert (r = q) by congruence. subst r.
    pose proof (i_in2 s V q X L) as H. destruct (Nat.eq_dec q p); [subst; auto|]. apply NL. apply (LIVE q _ n0) in H. apply in_map_iff. exists (q, HoldInput). auto.
  - rewrite I2. intros (q & EQ & NL). destruct (lock_holder _ _ NB) as [X|(r & X & L)]; [congruence|]. assert (r = q) by congruence. subst r.
    pose proof (i_c2 s V q X L) as H. destruct (Nat.eq_dec q p); [subst; auto|]. apply NL. apply (LIVE q _ n0) in H. apply in_map_iff. exists (q, HoldCommand). auto.
  - rewrite E. unfold lives. destruct (again || _); unfold start, stop, set_procs, gone; fields; rewrite ?map_app, ?in_app_iff; cbn.
    + intros [K|[K|[]]]; [apply without_fst in K as [K _]; auto|lia].
    + intros K. apply without_fst in K as [K _]. auto.
Qed.
Lemma moved w x y s s' : Inv s -> phase_of w s = Some x -> s_live s' = set_phase w y (s_live s) -> phase_of w s' = Some y.
Proof.
  intros V P E. apply in_phase; rewrite E; [rewrite set_phase_fst; apply V|]. apply in_set_phase. right. repeat split.
  apply phase_in in P. apply in_map_iff. exists (w, x). auto.
Qed.
(** worker [w] reaches the queue of jobs *)
Definition kept (s s' : st) : Prop :=
  Inv s' /\ s_input s' = s_input s /\ s_started s' = s_started s /\ s_ilock s' = None /\ s_commands s' = 0.
Lemma from_running w j s : Inv s -> s_commands s = 0 -> s_ilock s = None -> phase_of w s = Some (Running j) -> phase_of w (worker_step w s) = Some Top /\ kept s (worker_step w s).
Proof.
  intros V C F P. pose proof (inv_worker w s V) as V1. unfold kept. split; [|split; [exact V1|]].
  - apply (moved w _ _ s _ V P). unfold worker_step. rewrite P. reflexivity.
  - clear V1. unfold worker_step. rewrite P. auto.
Qed.
Lemma from_top w s : Inv s -> s_commands s = 0 -> s_ilock s = None -> phase_of w s = Some Top ->
  (phase_of w (worker_step w s) = Some Between \/ phase_of w (worker_step w s) = Some HoldCommand) /\ kept s (worker_step w s).
Proof.
  intros V C F P. pose proof (inv_worker w s V) as V1. unfold kept. split; [|split; [exact V1|]].
  - destruct (s_clock s) eqn:CK; [left|right]; (apply (moved w _ _ s _ V P); unfold worker_step; rewrite P, CK; reflexivity).
  - clear V1. unfold worker_step. rewrite P. destruct (s_clock s); auto.
Qed.
Lemma from_command w s : Inv s -> s_commands s = 0 -> s_ilock s = None -> phase_of w s = Some HoldCommand -> phase_of w (worker_step w s) = Some Between /\ kept s (worker_step w s).
Proof.
  intros V C F P. pose proof (inv_worker w s V) as V1. unfold kept. split; [|split; [exact V1|]].
  - apply (moved w _ _ s _ V P). unfold worker_step. rewrite P, C. reflexivity.
  - clear V1. unfold worker_step. rewrite P, C. auto.
Qed.
Lemma from_between w s : Inv s -> s_ilock s = None -> phase_of w s = Some Between ->
  phase_of w (worker_step w s) = Some HoldInput /\ Inv (worker_step w s) /\ s_input (worker_step w s) = s_input s /\ s_started (worker_step w s) = s_started s.
Proof.
  intros V F P. pose proof (inv_worker w s V) as V1. split; [|split; [exact V1|]].
  - apply (moved w _ _ s _ V P). unfold worker_step. rewrite P, F. reflexivity.
  - clear V1. unfold worker_step. rewrite P, F. auto.
Qed.
Lemma from_input w j q s : phase_of w s = Some HoldInput -> s_input s = j :: q -> s_started (worker_step w s) = s_started s ++ [j].
Proof. intros P E. unfold worker_step. rewrite P, E. reflexivity. Qed.
Definition can_start (j : nat) (s : st) : Prop := exists l, ordinary l /\ s_started (run l s) = s_started s ++ [j].
Lemma one_more w j s : can_start j (worker_step w s) -> s_started (worker_step w s) = s_started s -> can_start j s.
Proof.
  intros (l & O & R) E. exists (Worker w :: l). split; [intros a [<-|H]; [right; exists w; reflexivity|apply O; exact H]|].
  rewrite <- E. exact R.
Qed.
Lemma start_input w j q s : phase_of w s = Some HoldInput -> s_input s = j :: q -> can_start j s.
Proof. intros P E. exists [Worker w]. split; [intros a [<-|[]]; right; exists w; reflexivity|]. exact (from_input w j q s P E). Qed.
Lemma start_between w j q s : Inv s -> s_ilock s = None -> phase_of w s = Some Between -> s_input s = j :: q -> can_start j s.
Proof.
  intros V F P E. destruct (from_between w s V F P) as (P1 & V1 & I1 & S1). apply (one_more w); [|exact S1]. apply (start_input w j q); auto. congruence.
Qed.
Lemma start_command w j q s : Inv s -> s_commands s = 0 -> s_ilock s = None -> phase_of w s = Some HoldCommand -> s_input s = j :: q -> can_start j s.
Proof.
  intros V C F P E. destruct (from_command w s V C F P) as (P1 & V1 & I1 & S1 & F1 & C1). apply (one_more w); [|exact S1]. apply (start_between w j q); auto. congruence.
Qed.
Lemma start_top w j q s : Inv s -> s_commands s = 0 -> s_ilock s = None -> phase_of w s = Some Top -> s_input s = j :: q -> can_start j s.
Proof.
  intros V C F P E. destruct (from_top w s V C F P) as ([P1|P1] & V1 & I1 & S1 & F1 & C1); (apply (one_more w); [|exact S1]).
  - apply (start_between w j q); auto. congruence.
  - apply (start_command w j q); auto. congruence.
Qed.
(** With no queue left locked, the first job in the queue can be started by the workers
    that run. *)
Lemma C142_served_main :
  forall n limit l j q w, let s := run l (entered n limit) in
    s_main s = Inside -> s_input s = j :: q -> lives w s -> ~ abandoned (s_ilock s) s ->
    exists l', ordinary l' /\ s_started (run l' s) = s_started s ++ [j].
Proof.
  intros n limit l j q w s M IQ L NA. pose proof (inv_reach n limit l : Inv s) as V. pose proof (inv2_reach n limit l : Inv2 n limit s) as W.
  pose proof (k_inside _ _ _ W M) as C0. clearbody s. change (can_start j s).
  destruct (lock_holder _ _ NA) as [FREE|(p & E & LP)].
  - destruct (phase_live w s L) as (x & P). destruct x.
    + apply (start_top w j q); auto.
    + apply (start_command w j q); auto.
    + apply (start_between w j q); auto.
    + apply (start_input w j q); auto.
    + destruct (from_running w _ s V C0 FREE P) as (P1 & V1 & I1 & S1 & F1 & C1). apply (one_more w); [|exact S1]. apply (start_top w j q); auto. congruence.
  - pose proof (i_in2 s V p E LP) as H. apply in_phase in H; [|apply V]. apply (start_input p j q); auto.
Qed.
(** Once the queue of jobs is left locked no job is ever started again, whatever
    happens, however many workers are started. *)
Lemma C142_starved_main :
  forall n limit l, let s := run l (entered n limit) in
    abandoned (s_ilock s) s -> forall l', s_started (run l' s) = s_started s.
Proof.
  intros n limit l s (p & E & NL) l'. pose proof (inv_reach n limit l : Inv s) as V. assert (PN : p < s_next s) by (apply (i_in3 s V); exact E).
  revert V E NL PN. generalize s. clear. induction l' as [|a l' IH]; intros s V E NL PN; [reflexivity|].
  change (run (a :: l') s) with (run l' (step a s)). destruct (keeps_ilock p s a V E NL) as [E' K]. destruct (lives_old p s a V PN NL) as [NL' PN'].
  rewrite IH; auto. apply inv_step. exact V.
Qed.
(** C142 is false: stopping one worker for its memory use can end all work, although
    other workers run and jobs wait. *)
Lemma C142_restart_refuted_main :
  exists n limit l p, let s := run l (entered n limit) in
    In p (s_procs s) /\ s_input s <> [] /\ length (s_live (step (Stop p true) s)) = n /\
    forall l', s_started (run (Stop p true :: l') s) = s_started s.
Proof.
  exists 2, 10, (removelast wrong_moment), 1. split; [left; reflexivity|]. split; [discriminate|]. split; [reflexivity|]. intros l'.
  change (run (Stop 1 true :: l') (run (removelast wrong_moment) (entered 2 10))) with (run l' (run wrong_moment (entered 2 10))).
  rewrite C142_starved_main; [reflexivity|]. exists 1. split; [reflexivity|]. cbn. intros [K|[K|[]]]; discriminate.
Qed.
Example C142_ex_main :
  let s := run [Submit 7; Worker 1; Worker 1; Worker 1; Worker 1; Submit 8; Stop 1 true] (entered 2 10) in
  s_main s = Inside /\ s_input s = [8] /\ lives 2 s /\ lives 3 s /\ s_ilock s = None /\
  s_started (run [Worker 3; Worker 3; Worker 3; Worker 3] s) = [7; 8].
Proof. vm_compute. repeat split; auto. Qed.

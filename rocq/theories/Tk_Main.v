(*IMPORTS*)
From Verif Require Import Base Tk_Model Tk_Spec.
Open Scope string_scope.
Open Scope list_scope.
Open Scope Z_scope.
(*END*)
From Verif Require Import Tk_Proofs.

(** C78: the time remaining is the total minus the time spent in all started
    activities, whether they ended normally, raised, or still run. *)
Lemma C78_time_remaining_main :
  forall total done running now,
    total_time_remaining now (run (Some total) (consecutive done running)) = Ok (total - spent_in done - spent_now running now).
Proof. exact remaining_eq. Qed.
(** On a clock that does not go backwards it lies between the total and the
    total minus the wall time since the start. *)
Lemma C78_wall_clock_main :
  forall total t0 done running now r,
    in_order t0 done running now -> total_time_remaining now (run (Some total) (consecutive done running)) = Ok r ->
    total - (now - t0) <= r <= total.
Proof. intros total t0 done r now x H E. rewrite remaining_eq in E. injection E as <-. apply spent_bounds in H. lia. Qed.
(** Without a total, for every history, a RuntimeError. *)
Lemma C78_no_total_main :
  forall es now, total_time_remaining now (run None es) = Err RuntimeError.
Proof. intros es now. unfold total_time_remaining. rewrite run_total. reflexivity. Qed.
(** While an activity runs, its elapsed time and the time left count from its
    start; [exceeded_limit] tells whether the limit is overrun by the margin. *)
Lemma C78_current_activity_main :
  forall total done n limit t now margin,
    let k := run total (consecutive done (Some (n, limit, t))) in
    current_activity_time_elapsed now k = Ok (now - t) /\
    current_activity_time_left now k = match limit with Some l => Ok (l - (now - t)) | None => Err RuntimeError end /\
    exists a, tk_current_act k = Some a /\
      time_left now a = match limit with Some l => Ok (l - (now - t)) | None => Err TypeError end /\
      (exceeded_limit now margin a = true <-> exists l, limit = Some l /\ t + l + margin < now).
Proof.
  intros total done n limit t now margin k. unfold k. rewrite run_consecutive. unfold current_activity_time_elapsed, current_activity_time_left, tk_current_act. cbn [tk_current tk_acts].
  assert (E : nth_error (map act_of done ++ [act_open (n, limit, t)]) (length done) = Some (act_open (n, limit, t))).
  { rewrite <- (map_length act_of done). apply nth_last. }
  rewrite E. cbn [act_open a_sw a_limit]. split; [reflexivity|]. split; [destruct limit; reflexivity|]. eexists. split; [reflexivity|]. split; [destruct limit; reflexivity|].
  unfold exceeded_limit. cbn [a_limit a_sw]. unfold sw_elapsed. cbn [sw_running sw_start]. destruct limit as [l|].
  - rewrite Z.ltb_lt. split; [intros H; exists l; split; auto; lia|]. intros (l' & E' & H). injection E' as <-. lia.
  - split; [discriminate|]. intros (l & E' & _). discriminate.
Qed.
Example C78_ex_main :
  in_order 0 [mkSpan "preprocessing" None 1 3 false; mkSpan "search" (Some 5) 4 9 true] (Some ("postprocess", Some 2, 9)) 10 /\
  total_time_remaining 10 (run (Some 20) (consecutive [mkSpan "preprocessing" None 1 3 false; mkSpan "search" (Some 5) 4 9 true] (Some ("postprocess", Some 2, 9)))) = Ok 12.
Proof. split; [simpl; lia|reflexivity]. Qed.
(** For every history of entering and leaving, nested or not, the time each
    activity was running is subtracted. *)
Lemma C78_all_histories_main :
  forall total es now, total_time_remaining now (run (Some total) es) = Ok (total - running_time [] es now).
Proof. exact remaining_any. Qed.
(** So nested activities, which the class does not claim to support, count
    twice: the wall clock bound needs consecutive activities. *)
Lemma C78_nested_count_twice_main :
  exists es total now r, total_time_remaining now (run (Some total) es) = Ok r /\ r < total - now.
Proof. exists [Begin 0 "outer" None; Begin 0 "inner" None; End 5 false; End 5 false], 10, 5, 0. split; [reflexivity|]. lia. Qed.

(** C79 is false: when the body raises, the ended activity stays current. *)
Lemma C79_raised_refuted_main :
  forall total done s now, s_raised s = true ->
    let k := run total (consecutive (done ++ [s]) None) in
    tk_current_act k <> None /\ current_activity_time_elapsed now k = Ok (s_to s - s_from s).
Proof.
  intros total done s now H k. unfold k. rewrite run_consecutive. rewrite stale_last, H. unfold current_activity_time_elapsed, tk_current_act. cbn [tk_current tk_acts].
  assert (E : nth_error (map act_of (done ++ [s])) (0 + length done) = Some (act_of s)).
  { rewrite map_app. simpl. rewrite <- (map_length act_of done). apply nth_last. }
  rewrite E. split; [discriminate|]. reflexivity.
Qed.
(** It holds for bodies that end normally. *)
Lemma C79_ended_partial_main :
  forall total done s now, s_raised s = false ->
    let k := run total (consecutive (done ++ [s]) None) in
    tk_current_act k = None /\ current_activity_time_elapsed now k = Err RuntimeError /\ current_activity_time_left now k = Err RuntimeError.
Proof.
  intros total done s now H k. unfold k. rewrite run_consecutive. rewrite stale_last, H. repeat split.
Qed.
Example C79_ex_main : exists s s', s_raised s = true /\ s_raised s' = false /\
  current_activity_time_elapsed 9 (run None (consecutive [s; s'] None)) = Err RuntimeError /\
  current_activity_time_elapsed 9 (run None (consecutive [s'; s] None)) = Ok 4.
Proof. exists (mkSpan "a" None 1 5 true), (mkSpan "b" None 6 7 false). repeat split. Qed.

(** C131. A stopwatch shows 0 before it is used; afterwards, at any time, the time spent
    in the block it was last used for, so far if that block is still running. *)
Lemma C131_stopwatch_main : forall blocks running now,
  sw_elapsed now (use_watch blocks running) = last_block blocks running now.
Proof.
  intros blocks [t|] now; unfold use_watch, last_block; [reflexivity|].
  destruct blocks as [|b blocks _] using rev_ind; [reflexivity|]. rewrite fold_left_app, rev_app_distr. destruct b as [t0 t1]. reflexivity.
Qed.
(** On a clock that does not go backwards it is never negative, and never decreases
    while a block runs. *)
Lemma C131_monotone_main : forall blocks running now later,
  Forall (fun b => fst b <= snd b) blocks -> (forall t, running = Some t -> t <= now) -> now <= later ->
  0 <= sw_elapsed now (use_watch blocks running) <= sw_elapsed later (use_watch blocks running).
Proof.
  intros blocks running now later F R L. rewrite !C131_stopwatch_main. unfold last_block. destruct running as [t|]; [specialize (R t eq_refl); lia|].
  destruct (rev blocks) as [|[t0 t1] r] eqn:E; [lia|]. assert (H : In (t0, t1) blocks) by (apply in_rev; rewrite E; left; auto).
  rewrite Forall_forall in F. specialize (F _ H). cbn [fst snd] in F. lia.
Qed.
Example C131_ex_main :
  Forall (fun b => fst b <= snd b) [(1, 4); (6, 8)] /\ sw_elapsed 9 (use_watch [(1, 4); (6, 8)] None) = 2 /\
  sw_elapsed 15 (use_watch [(1, 4); (6, 8)] (Some 10)) = 5 /\ sw_elapsed 15 (use_watch [] None) = 0.
Proof. split; [repeat constructor; simpl; lia|]. repeat split. Qed.

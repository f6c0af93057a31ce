(** Property theorems; proofs in Tk_Main.v. *)
From Verif Require Import Base Tk_Model Tk_Spec.
Open Scope string_scope.
Open Scope list_scope.
Open Scope Z_scope.
From Verif Require Import Tk_Main.

(** C78: the time remaining is the total minus the time spent in all started
    activities, whether they ended normally, raised, or still run. *)
Theorem C78_time_remaining :
  forall total done running now,
    total_time_remaining now (run (Some total) (consecutive done running)) = Ok (total - spent_in done - spent_now running now).
Proof. exact C78_time_remaining_main. Qed.
Print Assumptions C78_time_remaining.

(** On a clock that does not go backwards it lies between the total and the
    total minus the wall time since the start. *)
Theorem C78_wall_clock :
  forall total t0 done running now r,
    in_order t0 done running now -> total_time_remaining now (run (Some total) (consecutive done running)) = Ok r ->
    total - (now - t0) <= r <= total.
Proof. exact C78_wall_clock_main. Qed.
Print Assumptions C78_wall_clock.

(** Without a total, for every history, a RuntimeError. *)
Theorem C78_no_total :
  forall es now, total_time_remaining now (run None es) = Err RuntimeError.
Proof. exact C78_no_total_main. Qed.
Print Assumptions C78_no_total.

(** While an activity runs, its elapsed time and the time left count from its
    start; [exceeded_limit] tells whether the limit is overrun by the margin. *)
Theorem C78_current_activity :
  forall total done n limit t now margin,
    let k := run total (consecutive done (Some (n, limit, t))) in
    current_activity_time_elapsed now k = Ok (now - t) /\
    current_activity_time_left now k = match limit with Some l => Ok (l - (now - t)) | None => Err RuntimeError end /\
    exists a, tk_current_act k = Some a /\
      time_left now a = match limit with Some l => Ok (l - (now - t)) | None => Err TypeError end /\
      (exceeded_limit now margin a = true <-> exists l, limit = Some l /\ t + l + margin < now).
Proof. exact C78_current_activity_main. Qed.
Print Assumptions C78_current_activity.

Example C78_ex :
  in_order 0 [mkSpan "preprocessing" None 1 3 false; mkSpan "search" (Some 5) 4 9 true] (Some ("postprocess", Some 2, 9)) 10 /\
  total_time_remaining 10 (run (Some 20) (consecutive [mkSpan "preprocessing" None 1 3 false; mkSpan "search" (Some 5) 4 9 true] (Some ("postprocess", Some 2, 9)))) = Ok 12.
Proof. exact C78_ex_main. Qed.

(** For every history of entering and leaving, nested or not, the time each
    activity was running is subtracted. *)
Theorem C78_all_histories :
  forall total es now, total_time_remaining now (run (Some total) es) = Ok (total - running_time [] es now).
Proof. exact C78_all_histories_main. Qed.
Print Assumptions C78_all_histories.

(** So nested activities, which the class does not claim to support, count
    twice: the wall clock bound needs consecutive activities. *)
Theorem C78_nested_count_twice :
  exists es total now r, total_time_remaining now (run (Some total) es) = Ok r /\ r < total - now.
Proof. exact C78_nested_count_twice_main. Qed.
Print Assumptions C78_nested_count_twice.

(** C79 is false: when the body raises, the ended activity stays current. *)
Theorem C79_raised_refuted :
  forall total done s now, s_raised s = true ->
    let k := run total (consecutive (done ++ [s]) None) in
    tk_current_act k <> None /\ current_activity_time_elapsed now k = Ok (s_to s - s_from s).
Proof. exact C79_raised_refuted_main. Qed.
Print Assumptions C79_raised_refuted.

(** It holds for bodies that end normally. *)
Theorem C79_ended_partial :
  forall total done s now, s_raised s = false ->
    let k := run total (consecutive (done ++ [s]) None) in
    tk_current_act k = None /\ current_activity_time_elapsed now k = Err RuntimeError /\ current_activity_time_left now k = Err RuntimeError.
Proof. exact C79_ended_partial_main. Qed.
Print Assumptions C79_ended_partial.

Example C79_ex : exists s s', s_raised s = true /\ s_raised s' = false /\
  current_activity_time_elapsed 9 (run None (consecutive [s; s'] None)) = Err RuntimeError /\
  current_activity_time_elapsed 9 (run None (consecutive [s'; s] None)) = Ok 4.
Proof. exact C79_ex_main. Qed.

(** C131. A stopwatch shows 0 before it is used; afterwards, at any time, the time spent
    in the block it was last used for, so far if that block is still running. *)
Theorem C131_stopwatch : forall blocks running now,
  sw_elapsed now (use_watch blocks running) = last_block blocks running now.
Proof. exact C131_stopwatch_main. Qed.
Print Assumptions C131_stopwatch.

(** On a clock that does not go backwards it is never negative, and never decreases
    while a block runs. *)
Theorem C131_monotone : forall blocks running now later,
  Forall (fun b => fst b <= snd b) blocks -> (forall t, running = Some t -> t <= now) -> now <= later ->
  0 <= sw_elapsed now (use_watch blocks running) <= sw_elapsed later (use_watch blocks running).
Proof. exact C131_monotone_main. Qed.
Print Assumptions C131_monotone.

Example C131_ex :
  Forall (fun b => fst b <= snd b) [(1, 4); (6, 8)] /\ sw_elapsed 9 (use_watch [(1, 4); (6, 8)] None) = 2 /\
  sw_elapsed 15 (use_watch [(1, 4); (6, 8)] (Some 10)) = 5 /\ sw_elapsed 15 (use_watch [] None) = 0.
Proof. exact C131_ex_main. Qed.

(** Theorems about the search methods; restated in [Search_Props.v]. *)
(*IMPORTS*)
From Verif Require Import Base Num Nsga_Model Par_Model Par_Spec Search_Model Search_Spec.
Require Import Permutation ZArith QArith Qminmax.
Open Scope nat_scope.
(*END*)
From Verif Require Import Search_Proofs Search_Proofs2 Search_Proofs3 Search_Proofs4 Search_Proofs5 Search_Proofs6 Search_Proofs7 Search_Proofs8 Search_Proofs9.

(** Operators for the examples: everything works. *)
Definition ex_ops : ops := gama_ops (fun _ _ => true) (fun _ _ r => (Ok tt, r)) (fun _ r => (Ok tt, r)) (fun r => (Ok tt, r)).
Definition cand (n : nat) : ind := mkI n None None.
Definition win (q : Z) : event := mkEv 0 (Evaluated [Fin (inject_Z q); Fin 0] false) None.
Definition lose : event := mkEv 0 (Evaluated [NInf; Fin 0] true) None.
Definition broken : event := mkEv 0 Raised None.

(** C45.  During the search (whenever it waits for a result) and in the population
    returned. *)
Lemma C45_population_partial_main :
  forall o out restart max_n pop_size start lists nw events r uid stop x w, out < length lists ->
  async_ea o out restart max_n pop_size start (start_world lists nw events r uid stop) = (x, w) ->
  (forall t1 pop t2, w_trace w = t1 ++ TWait pop :: t2 -> length pop <= pop_size /\ incl pop (successes (since_restart t1))) /\
  match x with
  | Ok a => a = out /\ length (list_at out w) <= pop_size /\ incl (list_at out w) (successes (since_restart (w_trace w)))
  | Err _ => Nat.min pop_size (length (successes (since_restart (w_trace w))) - 1) <= length (list_at out w) <= S pop_size /\
             incl (list_at out w) (successes (w_trace w)) \/
             w_trace w = [] /\ list_at out w = nth out lists []
  end.
Proof.
  intros o out restart max_n pop_size start lists nw events r uid stop x w HO E. apply ea_ok in E; auto. unfold list_at.
  assert (W : forall t, waits_ok (pop_ok pop_size) t -> forall t1 pop t2, t = t1 ++ TWait pop :: t2 -> length pop <= pop_size /\ incl pop (successes (since_restart t1))).
  { intros t H t1 pop t2 Et. destruct (H t1 t2 pop Et) as [H1 H2]. split; auto. rewrite H1. lia. }
  destruct x as [a|e].
  - destruct E as [-> (k & (H1 & (H2 & H3) & H4 & H5 & H6) & H7)]. split; [apply W; auto|]. split; auto. split; auto. rewrite H2. lia.
  - destruct E as [(H1 & H2 & H3 & H4 & H5 & H6)|[H1 H2]]; [split; [apply W; auto|left; auto]|]. split; [|right; auto].
    intros t1 pop t2 Et. rewrite H2 in Et. destruct t1; discriminate.
Qed.
(** C45: the time limit may arrive between the two statements that add a member and
    remove another; the population kept for the following steps is too large. *)
Definition ex_stop (k : nat) : world := start_world [[]; [cand 1; cand 2; cand 3]] 0 [win 1; win 2; win 3] [] 9 (Some (k, TimeoutException)).
Lemma C45_population_refuted_main :
  ~ (forall o restart max_n pop_size lists nw events r uid stop out final warm a w, out < length lists ->
     search_phase o (EA restart max_n pop_size) out final warm (start_world lists nw events r uid stop) = (Ok a, w) ->
     length (list_at a w) <= pop_size).
Proof.
  intros H. assert (X : exists w, search_phase ex_ops (EA false None 1) 0 0 (Some 1) (ex_stop 10) = (Ok 0, w) /\ length (list_at 0 w) = 2).
  { eexists. split; [vm_compute; reflexivity|reflexivity]. }
  destruct X as (w & E & L). apply H in E; [lia|simpl; lia].
Qed.
Definition ex_run (restart : bool) (max_n : option Z) (pop_size : nat) (events : list event) (r : rng) : res nat * world :=
  async_ea ex_ops 0 restart max_n pop_size 1 (start_world [[]; [cand 1; cand 2; cand 3; cand 4; cand 5; cand 6]] 1 events r 9 None).
Example C45_population_ex_main :
  exists w, ex_run false (Some 5%Z) 3 [win 1; win 5; lose; win 4; win 3] [] = (Ok 0, w) /\ map i_id (list_at 0 w) = [2; 4; 5] /\
    length (successes (w_trace w)) = 4.
Proof. eexists. split; [vm_compute; reflexivity|]. split; reflexivity. Qed.

(** C46 *)
Lemma C46_exact_main :
  forall o out restart max_n pop_size start lists nw events r uid stop a w, out < length lists ->
  async_ea o out restart max_n pop_size start (start_world lists nw events r uid stop) = (Ok a, w) ->
  exists n, max_n = Some n /\ Z.of_nat (length (collected (w_trace w))) = n.
Proof.
  intros o out restart max_n pop_size start lists nw events r uid stop a w HO E. apply ea_ok in E; auto.
  destruct E as [-> (k & (H1 & H2 & H4 & H5 & H6) & H7)]. unfold below in H7. unfold within in H6. destruct max_n as [m|]; [|discriminate].
  exists m. split; auto. rewrite H5. apply Z.ltb_ge in H7. lia.
Qed.
Lemma C46_at_most_main :
  forall o out restart n pop_size start lists nw events r uid stop x w, out < length lists -> (0 <= n)%Z ->
  async_ea o out restart (Some n) pop_size start (start_world lists nw events r uid stop) = (x, w) ->
  (Z.of_nat (length (collected (w_trace w))) <= n)%Z.
Proof.
  intros o out restart n pop_size start lists nw events r uid stop x w HO HN E. apply ea_ok in E; auto.
  destruct x as [a|e]; [destruct E as [-> (k & (H1 & H2 & H4 & H5 & H6) & H7)]; rewrite H5; exact H6|].
  destruct E as [(H1 & H2 & H3 & H4 & H5)|[H1 H2]]; [exact (proj1 H5)|]. rewrite H2. simpl. lia.
Qed.
Lemma C46_rejects_main :
  forall o out restart n pop_size start w, (n <= 0)%Z -> async_ea o out restart (Some n) pop_size start w = (Err ValueError, w).
Proof. intros. unfold async_ea. destruct (Z.leb_spec n 0); auto. lia. Qed.
(** The loops of the model never end because the fuel is used up. *)
Lemma C46_fuel_main :
  forall o out restart max_n pop_size phase n w d,
  ea_loop o out restart max_n pop_size (2 * length (w_events w) + 3 + d) phase n w =
  ea_loop o out restart max_n pop_size (2 * length (w_events w) + 3) phase n w.
Proof. intros. apply ea_fuel. Qed.
Example C46_exact_ex_main :
  exists w, ex_run true (Some 4%Z) 3 [win 1; broken; lose; win 4; win 3] [0; 1] = (Ok 0, w) /\ length (collected (w_trace w)) = 4 /\
    In TRestart (w_trace w).
Proof. eexists. split; [vm_compute; reflexivity|]. split; [reflexivity|]. vm_compute. intuition. Qed.

(** C47: the size of the population returned *)
Lemma C47_result_partial_main :
  forall o out restart max_n pop_size start lists nw events r uid stop a w, out < length lists ->
  async_ea o out restart max_n pop_size start (start_world lists nw events r uid stop) = (Ok a, w) ->
  a = out /\ length (list_at out w) = Nat.min pop_size (length (successes (since_restart (w_trace w)))) /\
  (1 <= pop_size -> successes (since_restart (w_trace w)) <> [] -> list_at out w <> []).
Proof.
  intros o out restart max_n pop_size start lists nw events r uid stop a w HO E. apply ea_ok in E; auto. unfold list_at.
  destruct E as [-> (k & (H1 & (H2 & H3) & H4 & H5 & H6) & H7)]. split; auto. split; auto. intros HP HS HE. rewrite HE in H2. simpl in H2.
  destruct (successes (since_restart (w_trace w))); [congruence|]. simpl in H2. lia.
Qed.
Lemma C47_without_restart_main :
  forall o out max_n pop_size start lists nw events r uid stop a w, out < length lists ->
  async_ea o out false max_n pop_size start (start_world lists nw events r uid stop) = (Ok a, w) -> 1 <= pop_size ->
  successes (w_trace w) <> [] -> list_at a w <> [].
Proof.
  intros o out max_n pop_size start lists nw events r uid stop a w HO E HP HS.
  destruct (C47_result_partial_main _ _ _ _ _ _ _ _ _ _ _ _ _ _ HO E) as (-> & _ & H). apply H; auto.
  rewrite (ea_no_restart _ _ _ _ _ _ _ _ _ _ _ _ _ E). auto.
Qed.
(** C47: a restart together with the last evaluation leaves nothing. *)
Lemma C47_result_refuted_main :
  ~ (forall o out restart max_n pop_size start lists nw events r uid stop a w, out < length lists -> 1 <= pop_size ->
     async_ea o out restart max_n pop_size start (start_world lists nw events r uid stop) = (Ok a, w) ->
     successes (w_trace w) <> [] -> list_at a w <> []).
Proof.
  intros H. assert (X : exists w, async_ea ex_ops 0 true (Some 2%Z) 3 1 (start_world [[]; [cand 1; cand 2; cand 3; cand 4; cand 5; cand 6]] 1 [win 1; win 2] [0; 1] 9 None) = (Ok 0, w) /\ successes (w_trace w) <> [] /\ list_at 0 w = []).
  { eexists. split; [vm_compute; reflexivity|]. split; [discriminate|reflexivity]. }
  destruct X as (w & E & S1 & L). refine (H _ _ _ _ _ _ _ _ _ _ _ _ _ _ _ _ E S1 L); simpl; lia.
Qed.
Example C47_result_ex_main :
  exists w, ex_run true (Some 3%Z) 3 [win 1; win 2; win 3] [0; 1; 0] = (Ok 0, w) /\ length (list_at 0 w) = 1 /\ length (successes (w_trace w)) = 3.
Proof. eexists. split; [vm_compute; reflexivity|]. split; reflexivity. Qed.

(** C48.  The start candidates are enough: after the first |start| - n - 1 evaluations
    at least 3 succeeded; the new individuals can be made.  The search returns
    after max_n evaluations, or goes on for ever. *)
Lemma C48_keeps_running_partial_main :
  forall can_cross mate mutate create_new out pop_size nw k max_n start lists events r uid,
  (forall a b r, exists r', mate a b r = (Ok tt, r')) -> (forall a r, exists r', mutate a r = (Ok tt, r')) ->
  2 <= k -> 3 <= pop_size -> out < length lists -> start <> out -> nw + 4 <= length (nth start lists []) ->
  Forall (calm k) events ->
  (forall l1 l2, events = l1 ++ l2 -> length (nth start lists []) - nw - 1 <= length l1 -> 3 <= n_succeeded l1) ->
  let run := async_ea (gama_ops can_cross mate mutate create_new) out false max_n pop_size start (start_world lists nw events r uid None) in
  match max_n with
  | Some m => (0 < m <= Z.of_nat (length events))%Z -> exists w, run = (Ok out, w)
  | None => exists w, run = (Err Diverges, w) /\ w_events w = []
  end.
Proof.
  intros cc mate mutate cn out pop_size nw k max_n start lists events r uid H1 H2 H3 H4 H5 H6 H7 H8 H9. cbv zeta.
  apply (ea_live cc mate mutate cn H1 H2 out pop_size nw k (length (nth start lists [])) max_n); auto.
Qed.
(** C48: with at most two candidates more than there are workers, the first evaluation
    already ends the search with an exception. *)
Lemma C48_starved_main :
  forall can_cross mate mutate create_new out restart max_n pop_size start lists nw e events r uid,
  out < length lists -> start <> out -> nth start lists [] <> [] -> length (nth start lists []) <= nw + 2 ->
  e_callback e = None -> (match max_n with None => True | Some m => (0 < m)%Z end) ->
  exists w, async_ea (gama_ops can_cross mate mutate create_new) out restart max_n pop_size start
              (start_world lists nw (e :: events) r uid None) = (Err ValueError, w) /\ w_events w = events.
Proof.
  intros. destruct (starved can_cross mate mutate create_new out restart max_n pop_size start lists nw e events r uid) as (w & E & W & _); eauto.
Qed.
Lemma C48_keeps_running_refuted_main :
  ~ (forall can_cross mate mutate create_new out pop_size nw max_n start lists events r uid x w,
     (forall a b r, exists r', mate a b r = (Ok tt, r')) -> (forall a r, exists r', mutate a r = (Ok tt, r')) -> (forall r, exists r', create_new r = (Ok tt, r')) ->
     3 <= pop_size -> out < length lists -> start <> out -> nth start lists [] <> [] -> Forall (calm 2) events -> Forall (fun e => succeeded e = true) events ->
     async_ea (gama_ops can_cross mate mutate create_new) out false max_n pop_size start (start_world lists nw events r uid None) = (x, w) ->
     x = Ok out \/ w_events w = []).
Proof.
  intros H. destruct (C48_starved_main (fun _ _ => true) (fun _ _ r => (Ok tt, r)) (fun _ r => (Ok tt, r)) (fun r => (Ok tt, r)) 0 false None 50 1 [[]; [cand 1]] 1 (win 1) [win 2] [] 5)
    as (w & E & W); simpl; auto; try lia; try discriminate.
  apply H in E; simpl; eauto; try lia; try discriminate.
  - destruct E as [E|E]; [discriminate|]. rewrite W in E. discriminate.
  - repeat constructor.
Qed.
Example C48_keeps_running_ex_main :
  exists w, ex_run false (Some 7%Z) 3 [win 1; win 5; lose; win 4; win 3; broken; win 9] [] = (Ok 0, w) /\ length (submissions (w_trace w)) = 10.
Proof. eexists. split; [vm_compute; reflexivity|]. reflexivity. Qed.
Example C48_starved_ex_main :
  exists w, async_ea ex_ops 0 false None 50 1 (start_world [[]; map cand (seq 0 50)] 64 [win 1; win 2] [] 60 None) = (Err ValueError, w).
Proof. eexists. vm_compute. reflexivity. Qed.

Lemma phase_final o m out final w : nth final (w_lists w) [] <> [] ->
  search_phase o m out final None w = match search o m out final w with
    | (Ok out', w2) => (Ok out', w2)
    | (Err TimeoutException, w2) | (Err KeyboardInterrupt, w2) => (Ok out, w2)
    | (Err e, w2) => (Err e, w2) end.
Proof. intros H. unfold search_phase, bind, read. destruct (nth final (w_lists w) []) eqn:E; [congruence|]. reflexivity. Qed.
Lemma phase_warm o m out final a w : nth a (w_lists w) [] <> [] ->
  search_phase o m out final (Some a) w = match search o m out a w with
    | (Ok out', w2) => (Ok out', w2)
    | (Err TimeoutException, w2) | (Err KeyboardInterrupt, w2) => (Ok out, w2)
    | (Err e, w2) => (Err e, w2) end.
Proof. intros H. unfold search_phase, bind, read. destruct (nth a (w_lists w) []) eqn:E; [congruence|]. reflexivity. Qed.
Lemma ea_eq o out restart max_n pop_size start w : (match max_n with None => True | Some m => (0 < m)%Z end) ->
  async_ea o out restart max_n pop_size start w = leave (ea_loop o out restart max_n pop_size (2 * length (w_events w) + 3) (Some (Given start)) 0 ;; ret out) w.
Proof. intros HM. unfold async_ea. destruct max_n as [m|]; auto. destruct (Z.leb_spec m 0); auto. lia. Qed.

(** C49: the next call of fit.  async_ea empties the list that it is to start from. *)
Lemma C49_second_fit_fails_main :
  forall o restart max_n pop_size out lists nw events r uid, out < length lists -> nth out lists [] <> [] ->
  (match max_n with None => True | Some m => (0 < m)%Z end) ->
  exists w, search_phase o (EA restart max_n pop_size) out out None (start_world lists nw events r uid None) = (Err RuntimeError, w) /\ submissions (w_trace w) = [].
Proof.
  intros o restart max_n pop_size out lists nw events r uid HO NE HM. rewrite phase_final by exact NE. unfold search. rewrite ea_eq by auto. set (w0 := start_world lists nw events r uid None).
  assert (Q : exists w, leave (ea_loop o out restart max_n pop_size (2 * length (w_events w0) + 3) (Some (Given out)) 0 ;; ret out) w0 = (Err RuntimeError, w) /\ submissions (w_trace w) = []).
  { replace (2 * length (w_events w0) + 3) with (S (S (2 * length events + 1))) by (simpl; lia). unfold leave.
    change (ea_loop o out restart max_n pop_size (S (S (2 * length events + 1))) (Some (Given out)) 0) with
      (tick ;; write out [] ;; l <- read out ;; submit_all l ;; ea_loop o out restart max_n pop_size (S (2 * length events + 1)) None 0).
    set (w1 := mkW (set_nth out [] lists) [] nw events r uid None [] []).
    set (m := ea_loop o out restart max_n pop_size (S (2 * length events + 1)) None 0).
    assert (E1 : (tick ;; write out [] ;; l <- read out ;; submit_all l ;; m) w0 = m w1).
    { rewrite (bind_ok tick _ w0 tt w0 eq_refl), (bind_ok (write out []) _ w0 tt w1 eq_refl), (bind_ok (read out) _ w1 [] w1); [reflexivity|].
      unfold read. simpl. rewrite nth_set_nth; auto. }
    unfold bind at 1. rewrite E1. unfold m. cbn [ea_loop].
    assert (B : below max_n 0 = true) by (unfold below; destruct max_n; auto; apply Z.ltb_lt; lia). rewrite B. simpl. eexists. split; reflexivity. }
  destruct Q as (w & E & S1). exists w. rewrite E. auto.
Qed.
Lemma C49_second_fit_refuted_main :
  ~ (forall o m out lists nw events r uid a w, out < length lists -> nth out lists [] <> [] ->
     search_phase o m out out None (start_world lists nw events r uid None) = (a, w) ->
     exists rest, submissions (w_trace w) = nth out lists [] ++ rest).
Proof.
  intros H. destruct (C49_second_fit_fails_main ex_ops false None 50 0 [[cand 1]] 1 [] [] 5) as (w & E & S1); simpl; auto; try discriminate.
  apply H in E; simpl; auto; try discriminate. destruct E as [rest E]. rewrite S1 in E. discriminate.
Qed.
(** A warm_start list of its own is used, all of it and first. *)
Lemma C49_warm_start_partial_main :
  forall o restart max_n pop_size out final a lists nw events r uid x w, out < length lists -> a <> out -> nth a lists [] <> [] ->
  (match max_n with None => True | Some m => (0 < m)%Z end) ->
  search_phase o (EA restart max_n pop_size) out final (Some a) (start_world lists nw events r uid None) = (x, w) ->
  exists rest, submissions (w_trace w) = nth a lists [] ++ rest.
Proof.
  intros o restart max_n pop_size out final a lists nw events r uid x w HO NA NE HM E. rewrite phase_warm in E by exact NE. unfold search in E. rewrite ea_eq in E by auto. set (w0 := start_world lists nw events r uid None) in *.
  set (W := leave (ea_loop o out restart max_n pop_size (2 * length (w_events w0) + 3) (Some (Given a)) 0 ;; ret out) w0) in *.
  assert (Q : exists rest, submissions (w_trace (snd W)) = nth a lists [] ++ rest).
  { unfold W, leave. replace (2 * length (w_events w0) + 3) with (S (S (2 * length events + 1))) by (simpl; lia).
    change (ea_loop o out restart max_n pop_size (S (S (2 * length events + 1))) (Some (Given a)) 0) with
      (tick ;; write out [] ;; l <- read a ;; submit_all l ;; ea_loop o out restart max_n pop_size (S (2 * length events + 1)) None 0).
    set (w1 := mkW (set_nth out [] lists) [] nw events r uid None [] []). set (m := ea_loop o out restart max_n pop_size (S (2 * length events + 1)) None 0).
    destruct (submit_all_calm (nth a lists []) w1 eq_refl) as (w2 & E2 & _ & _ & _ & _ & _ & A6).
    assert (E1 : (tick ;; write out [] ;; l <- read a ;; submit_all l ;; m) w0 = m w2).
    { rewrite (bind_ok tick _ w0 tt w0 eq_refl), (bind_ok (write out []) _ w0 tt w1 eq_refl), (bind_ok (read a) _ w1 (nth a lists []) w1), (bind_ok _ _ w1 tt w2 E2); [reflexivity|].
      unfold read. simpl. rewrite nth_set_nth_ne; auto. }
    unfold bind at 1. rewrite E1. pose proof (p_ea o out restart max_n pop_size (w_trace w2) (S (2 * length events + 1)) None 0 w2 (ex_intro _ [] (eq_sym (app_nil_r _)))) as P.
    fold m in P. destruct (m w2) as [[[]|e] w3]; destruct P as [t Et]; simpl; rewrite Et, submissions_app, A6; eauto. }
  assert (WX : w = snd W).
  { destruct W as [[out'|e] w2]; simpl; [injection E as _ <-; auto|]; destruct e; injection E as _ <-; auto. }
  rewrite WX. exact Q.
Qed.
(** Random search goes on from its own result. *)
Lemma C49_random_search_partial_main :
  forall o max_n out lists nw events r uid x w, out < length lists -> nth out lists [] <> [] ->
  search_phase o (RS max_n) out out None (start_world lists nw events r uid None) = (x, w) ->
  exists rest, submissions (w_trace w) = nth out lists [] ++ rest.
Proof.
  intros o max_n out lists nw events r uid x w HO NE E. rewrite phase_final in E by exact NE. unfold search in E. set (w0 := start_world lists nw events r uid None) in *.
  set (W := random_search o out max_n out w0) in *.
  assert (Q : exists rest, submissions (w_trace (snd W)) = nth out lists [] ++ rest).
  { unfold W, random_search, leave. set (m := rs_loop o out max_n (length (w_events w0) + 1)).
    destruct (submit_all_calm (nth out lists []) w0 eq_refl) as (w2 & E2 & _ & _ & _ & _ & _ & A6).
    assert (E1 : (l <- read out ;; submit_all l ;; m ;; ret out) w0 = (m ;; ret out) w2).
    { rewrite (bind_ok (read out) _ w0 (nth out lists []) w0 eq_refl), (bind_ok _ _ w0 tt w2 E2). reflexivity. }
    rewrite E1. unfold bind. pose proof (p_rs o out max_n (w_trace w2) (length (w_events w0) + 1) w2 (ex_intro _ [] (eq_sym (app_nil_r _)))) as P.
    fold m in P. destruct (m w2) as [[[]|e] w3]; destruct P as [t Et]; simpl; rewrite Et, submissions_app, A6; eauto. }
  assert (WX : w = snd W).
  { destruct W as [[out'|e] w2]; simpl; [injection E as _ <-; auto|]; destruct e; injection E as _ <-; auto. }
  rewrite WX. exact Q.
Qed.
(** ASHA starts the given candidates on its lowest rung, the last one first, then new ones. *)
Lemma C49_asha_partial_main :
  forall o eta min_res max_res first_rung max_rung start max_full lists nw events r uid stop x w, start < length lists ->
  asha o eta min_res max_res first_rung max_rung start true max_full (start_world lists nw events r uid stop) = (x, w) ->
  (exists k, started_on first_rung (w_trace w) = firstn k (rev (nth start lists []))) \/
  (exists rest, started_on first_rung (w_trace w) = rev (nth start lists []) ++ rest).
Proof.
  intros o eta min_res max_res first_rung max_rung start max_full lists nw events r uid stop x w HS E.
  destruct (asha_run o eta min_res max_res first_rung max_rung start max_full (start_world lists nw events r uid stop)) as [y w1] eqn:ER.
  assert (w = w1).
  { unfold asha in E. change (negb true) with false in E. cbv iota in E. unfold asha_run in ER. cbv zeta in E.
    cbn [w_lists w_jobs w_n w_events w_rng w_uid w_stop w_trace start_world] in *. rewrite ER in E.
    destruct y as [[]|e]; [destruct (w_rungs w1); injection E as _ <-; auto|]. destruct e; try (injection E as _ <-; auto; fail).
    destruct (reached (w_rungs w1)); injection E as _ <-; auto. }
  subst w1. exact (asha_order o eta min_res max_res first_rung max_rung start (nth start lists []) max_full lists nw events r uid stop y w HS eq_refl ER).
Qed.
Example C49_warm_start_ex_main :
  exists w, search_phase ex_ops (EA false (Some 2%Z) 50) 0 0 (Some 1) (start_world [[cand 7]; map cand (seq 0 6)] 1 [win 1; win 2] [] 60 None) = (Ok 0, w) /\
    map i_id (submissions (w_trace w)) = seq 0 6.
Proof. eexists. split; [vm_compute; reflexivity|reflexivity]. Qed.
Example C49_random_search_ex_main :
  exists w, search_phase ex_ops (RS (Some 4%Z)) 0 0 None (start_world [[cand 7; cand 8]] 1 [win 1; win 2] [] 60 None) = (Ok 0, w) /\
    map i_id (submissions (w_trace w)) = [7; 8; 60; 61].
Proof. eexists. split; [vm_compute; reflexivity|reflexivity]. Qed.

(** C50.  [l0]: what the list contained before the search (nothing in the first fit).
    When the search is stopped the result collected last may be missing. *)
Lemma C50_every_result_main :
  forall o out max_n start lists nw events r uid stop x w, out < length lists ->
  random_search o out max_n start (start_world lists nw events r uid stop) = (x, w) ->
  match x with
  | Ok a => a = out /\ list_at out w = nth out lists [] ++ with_result (w_trace w) /\
      exists n, max_n = Some n /\ (Z.of_nat (length (list_at out w)) = Z.max n (Z.of_nat (length (nth out lists []))))%Z
  | Err _ => exists missing, length missing <= 1 /\ list_at out w ++ missing = nth out lists [] ++ with_result (w_trace w) /\
      (forall n, max_n = Some n -> Z.of_nat (length (list_at out w)) <= Z.max n (Z.of_nat (length (nth out lists []))))%Z /\
      firstn (length (nth out lists [])) (list_at out w) = nth out lists []
  end.
Proof.
  intros o out max_n start lists nw events r uid stop x w HO E. apply (rs_ok o out max_n (nth out lists [])) in E; auto. unfold list_at.
  destruct x as [a|e].
  - destruct E as [-> [(H1 & H2 & H3) H4]]. split; auto. split; auto. unfold below in H4. unfold room in H3. destruct max_n as [n|]; [|discriminate].
    exists n. split; auto. apply Z.ltb_ge in H4. lia.
  - destruct E as [(H1 & H2 & H3)|[i (H1 & H2 & H3 & H4)]].
    + exists []. rewrite app_nil_r. simpl. split; auto. split; auto. split; [intros n ->; unfold room in H3; lia|].
      rewrite H2, firstn_app, Nat.sub_diag, firstn_all, app_nil_r. reflexivity.
    + exists [i]. simpl. split; auto. split; [|split; [|exact H3]].
      * rewrite H2, app_assoc. f_equal. etransitivity; [symmetry; apply (firstn_skipn (length (nth out lists [])))|]. rewrite H3. auto.
      * intros n ->. unfold room in H4. rewrite app_length in H4. simpl in H4. lia.
Qed.
(** C50: random search does not end by itself before it has what was asked for. *)
Lemma C50_keeps_running_main :
  forall o out max_n start lists nw events r uid x w,
  (forall r, exists r', o_individual o r = (Ok tt, r')) -> nth start lists [] <> [] -> Forall (fun e => e_callback e = None) events ->
  random_search o out max_n start (start_world lists nw events r uid None) = (x, w) ->
  x = Ok out \/ x = Err Diverges /\ w_events w = [].
Proof.
  intros o out max_n start lists nw events r uid x w HN NE HF E.
  destruct (rs_live o out max_n (fun _ => False) HN start lists nw events r uid None x w Logic.I NE HF E) as [H|[H|(e & _ & [])]]; auto.
Qed.
Lemma C50_fuel_main :
  forall o out max_n w d, rs_loop o out max_n (length (w_events w) + 1 + d) w = rs_loop o out max_n (length (w_events w) + 1) w.
Proof. intros. apply rs_fuel. Qed.
Example C50_every_result_ex_main :
  exists w, random_search ex_ops 0 (Some 3%Z) 1 (start_world [[]; [cand 1; cand 2]] 1 [win 1; broken; lose; mkEv 1 (Evaluated [Fin 5] false) None; win 7] [] 60 None) = (Ok 0, w) /\
    map i_id (list_at 0 w) = [1; 60; 62].
Proof. eexists. split; [vm_compute; reflexivity|reflexivity]. Qed.

(** * ASHA *)
Lemma asha_trace o eta min_res max_res first_rung max_rung start same max_full lists nw events r uid stop x w :
  asha o eta min_res max_res first_rung max_rung start same max_full (start_world lists nw events r uid stop) = (x, w) ->
  each (asha_step eta min_res max_res first_rung max_rung) (w_trace w).
Proof.
  unfold asha. destruct same; [|intros E; injection E as _ <-; apply each_nil]. change (negb true) with false. cbv iota zeta.
  pose proof (asha_run_ok o eta min_res max_res first_rung max_rung start max_full lists nw events r uid stop) as G. unfold asha_run in G.
  cbn [w_lists w_jobs w_n w_events w_rng w_uid w_stop w_trace start_world] in *. destruct (leave _ _) as [y w1]. intros E.
  assert (w = w1).
  { destruct y as [[]|e]; [destruct (w_rungs w1); injection E as _ <-; auto|]. destruct e; try (injection E as _ <-; auto; fail).
    destruct (reached (w_rungs w1)); injection E as _ <-; auto. }
  subst w1. destruct y; [tauto|]. destruct G as [[_ G]|(T' & i & q & oc & _ & _ & G)]; auto.
Qed.

(** C51: at every promotion, with [t1] what happened before. *)
Lemma C51_promotion_main :
  forall o eta min_res max_res first_rung max_rung start same max_full lists nw events r uid stop x w,
  asha o eta min_res max_res first_rung max_rung start same max_full (start_world lists nw events r uid stop) = (x, w) ->
  forall t1 n e inds prom t2, w_trace w = t1 ++ TPromote n e inds prom :: t2 ->
  In e (results_on n t1) /\ (forall y, In y (promoted_from n t1) -> ~ same_entry e y) /\
  length (promoted_from n t1) < length (results_on n t1) / eta /\
  ((forall y, In y (results_on n t1) -> fst y <> NaN) ->
   forall y, In y (results_on n t1) -> (forall z, In z (promoted_from n t1) -> ~ same_entry y z) -> nle (fst y) (fst e)).
Proof.
  intros o eta min_res max_res first_rung max_rung start same max_full lists nw events r uid stop x w E t1 n e inds prom t2 ET.
  apply asha_trace in E. destruct (E _ _ _ ET) as (_ & _ & -> & -> & H1 & H2 & H3 & H4 & _).
  split; auto. split; [intros y Hy; apply entry_other; auto|]. split; auto. intros HN y Hy Hz. apply H4; auto. intros z Hz'. apply entry_other. auto.
Qed.
(** C51: at any time and for every rung. *)
Lemma C51_at_most_main :
  forall o eta min_res max_res first_rung max_rung start same max_full lists nw events r uid stop x w,
  asha o eta min_res max_res first_rung max_rung start same max_full (start_world lists nw events r uid stop) = (x, w) ->
  forall n t1 t2, w_trace w = t1 ++ t2 ->
  length (promoted_from n t1) <= length (results_on n t1) / eta /\ incl (promoted_from n t1) (results_on n t1) /\
  ForallOrdPairs (fun a b => ~ same_entry b a) (promoted_from n t1).
Proof.
  intros o eta min_res max_res first_rung max_rung start same max_full lists nw events r uid stop x w E n t1. apply asha_trace in E.
  induction t1 as [|z t1 IH] using rev_ind; intros t2 ET; [simpl; split; [lia|]; split; [intros z []|constructor]|].
  rewrite <- app_assoc in ET. simpl in ET. destruct (IH (z :: t2) ET) as (H1 & H2 & H3). rewrite results_app, promoted_app.
  assert (MON : length (results_on n t1) / eta <= length (results_on n t1 ++ results_on n [z]) / eta).
  { destruct eta as [|eta']; [auto|]. apply Nat.div_le_mono; [lia|]. rewrite app_length. lia. }
  assert (INC : incl (results_on n t1) (results_on n t1 ++ results_on n [z])) by (apply incl_appl, incl_refl).
  assert (QUIET : promoted_from n [z] = [] -> length (promoted_from n t1 ++ promoted_from n [z]) <= length (results_on n t1 ++ results_on n [z]) / eta /\
     incl (promoted_from n t1 ++ promoted_from n [z]) (results_on n t1 ++ results_on n [z]) /\ ForallOrdPairs (fun a b => ~ same_entry b a) (promoted_from n t1 ++ promoted_from n [z])).
  { intros ->. rewrite app_nil_r. split; [lia|]. split; [eapply incl_tran; eauto|auto]. }
  destruct z as [i rr q|pop|i rr oc| |m e inds prom]; try (apply QUIET; reflexivity).
  destruct (Nat.eqb_spec m n) as [->|NE]; [|apply QUIET; simpl; apply Nat.eqb_neq in NE; rewrite NE; auto].
  destruct (E _ _ _ ET) as (_ & _ & -> & -> & G1 & G2 & G3 & _).
  assert (P1 : promoted_from n [TPromote n e (results_on n t1) (promoted_from n t1)] = [e]) by (simpl; rewrite Nat.eqb_refl; auto). rewrite P1.
  split; [rewrite app_length; simpl length at 2; lia|]. split.
  - apply incl_app; [eapply incl_tran; eauto|]. intros y [<-|[]]. apply in_or_app; auto.
  - clear - H3 G2. induction H3 as [|a l HA HF IH]; simpl; [repeat constructor|]. constructor.
    + apply Forall_app. split; auto. constructor; auto. apply entry_other, G2. simpl; auto.
    + apply IH. intros y Hy. apply G2. simpl; auto.
Qed.
(** C51: nothing that may be promoted is left waiting: a job is started on the lowest
    rung only when no rung has anything to promote, and a promotion is from the
    highest rung that has. *)
Lemma C51_eager_main :
  forall o eta min_res max_res first_rung max_rung start same max_full lists nw events r uid stop x w,
  asha o eta min_res max_res first_rung max_rung start same max_full (start_world lists nw events r uid stop) = (x, w) ->
  (forall t1 i q t2, w_trace w = t1 ++ TSubmit i (Some first_rung) q :: t2 ->
   forall m, first_rung <= m -> (Z.of_nat m < max_rung)%Z -> ~ promotable eta m t1) /\
  (forall t1 n e inds prom t2, w_trace w = t1 ++ TPromote n e inds prom :: t2 ->
   promotable eta n t1 /\ forall m, n < m -> (Z.of_nat m < max_rung)%Z -> ~ promotable eta m t1).
Proof.
  intros o eta min_res max_res first_rung max_rung start same max_full lists nw events r uid stop x w E. pose proof (asha_steps _ _ _ _ _ _ _ _ _ _ _ _ _ _ _ _ _ E) as H. split.
  - intros t1 i q t2 Et. exact (H t1 _ t2 Et eq_refl).
  - intros t1 n e inds prom t2 Et. split; [|exact (H t1 _ t2 Et)]. destruct (C51_promotion_main _ _ _ _ _ _ _ _ _ _ _ _ _ _ _ _ _ E _ _ _ _ _ _ Et) as (P1 & P2 & P3 & _).
    split; auto. exists e. auto.
Qed.
(** C52 *)
Lemma C52_jobs_main :
  forall o eta min_res max_res first_rung max_rung start same max_full lists nw events r uid stop x w,
  asha o eta min_res max_res first_rung max_rung start same max_full (start_world lists nw events r uid stop) = (x, w) ->
  forall t1 i rung q t2, w_trace w = t1 ++ TSubmit i rung q :: t2 ->
  exists n, rung = Some n /\ (Z.of_nat first_rung <= Z.of_nat n <= max_rung)%Z /\
    (exists v, q = Some v /\ (v == Qmin (min_res * inject_Z (Z.of_nat eta ^ Z.of_nat n)) max_res)%Q) /\
    (first_rung < n -> exists loss i' oc, In (TDone i' (Some (n - 1)) oc) t1 /\ i_id i' = i_id i /\ In (loss, i) (results_on (n - 1) t1) /\ In (loss, i) (promoted_from (n - 1) t1)).
Proof.
  intros o eta min_res max_res first_rung max_rung start same max_full lists nw events r uid stop x w E t1 i rung q t2 ET.
  apply asha_trace in E. destruct (E _ _ _ ET) as (n & -> & -> & HN & HP). exists n. split; auto.
  apply in_seq in HN. split; [lia|]. split.
  - eexists. split; [reflexivity|]. unfold resource. rewrite Nat2Z.inj_pow. set (a := (min_res * inject_Z (Z.of_nat eta ^ Z.of_nat n))%Q).
    destruct (Qle_bool a max_res) eqn:Q1; [apply Qle_bool_iff in Q1; symmetry; apply Q.min_l; auto|].
    symmetry. apply Q.min_r. destruct (Qlt_le_dec a max_res) as [L|L]; auto. apply Qlt_le_weak in L. apply Qle_bool_iff in L. congruence.
  - intros HL. destruct HP as [[-> _]|(m & t0 & e & a & b & -> & -> & <-)]; [lia|]. rewrite Nat.sub_1_r. simpl.
    assert (ET' : w_trace w = t0 ++ TPromote m e a b :: TSubmit (snd e) (Some (S m)) (Some (resource eta min_res max_res (S m))) :: t2).
    { rewrite ET, <- app_assoc. reflexivity. }
    destruct (E _ _ _ ET') as (_ & _ & -> & -> & G1 & _). destruct e as [loss ie]. simpl.
    assert (D : exists oc, In (TDone ie (Some m) oc) t0).
    { unfold results_on in G1. apply in_flat_map in G1 as (y & Y1 & Y2). destruct y as [| |i' [m'|] [|[|s ss] f]| |]; try destruct Y2.
      destruct (Nat.eqb_spec m' m); [|destruct Y2]. subst m'. destruct Y2 as [Y2|[]]. injection Y2 as -> ->. eauto. }
    destruct D as [oc D]. exists loss, ie, oc. split; [apply in_or_app; auto|]. split; auto. rewrite results_app, promoted_app. split; [apply in_or_app; auto|].
    apply in_or_app. right. simpl. rewrite Nat.eqb_refl. simpl. auto.
Qed.
(** C52: every promotion is from a rung below the top and followed by a job on the next one. *)
Lemma C52_top_main :
  forall o eta min_res max_res first_rung max_rung start same max_full lists nw events r uid stop x w,
  asha o eta min_res max_res first_rung max_rung start same max_full (start_world lists nw events r uid stop) = (x, w) ->
  forall t1 n e inds prom t2, w_trace w = t1 ++ TPromote n e inds prom :: t2 ->
  (Z.of_nat first_rung <= Z.of_nat n < max_rung)%Z /\ (t2 = [] \/ exists q t3, t2 = TSubmit (snd e) (Some (S n)) q :: t3).
Proof.
  intros o eta min_res max_res first_rung max_rung start same max_full lists nw events r uid stop x w E t1 n e inds prom t2 ET.
  apply asha_trace in E. destruct (E _ _ _ ET) as (G1 & G2 & _). apply in_seq in G1. apply in_seq in G2. split; [lia|].
  destruct t2 as [|z t2]; auto. right.
  assert (ET' : w_trace w = (t1 ++ [TPromote n e inds prom]) ++ z :: t2) by (rewrite ET, <- app_assoc; reflexivity).
  specialize (E _ _ _ ET'). destruct z as [i rr q|pop|i rr oc| |m e' a b].
  - destruct E as (k & -> & -> & _ & [[-> H]|(m & t0 & e' & a & b & -> & H & <-)]); [exfalso; eapply H; reflexivity|].
    apply app_inj_tail in H as [_ H]. injection H as -> -> -> ->. eauto.
  - destruct E.
  - destruct E as [_ E]. exfalso. eapply E. reflexivity.
  - destruct E.
  - destruct E as (_ & _ & _ & _ & _ & _ & _ & _ & E). exfalso. eapply E. reflexivity.
Qed.
(** C52: without any rung (the stopping rate is above the number of the top rung)
    the search evaluates nothing and raises UnboundLocalError, whatever the operators do. *)
Lemma C52_no_rungs_main :
  forall o eta min_res max_res first_rung max_rung start max_full lists nw events r uid stop x w,
  (max_rung < Z.of_nat first_rung)%Z ->
  (forall r1 r2, o_individual o r1 <> (Err Diverges, r2)) -> (forall k, stop <> Some (k, Diverges)) ->
  asha o eta min_res max_res first_rung max_rung start true max_full (start_world lists nw events r uid stop) = (x, w) ->
  x = Err UnboundLocalError /\ w_trace w = [].
Proof.
  intros o eta min_res max_res first_rung max_rung start max_full lists nw events r uid stop x w L OD SD H.
  assert (RN : rung_numbers first_rung max_rung = []).
  { unfold rung_numbers. replace (Z.to_nat (max_rung + 1 - Z.of_nat first_rung)) with 0 by lia. reflexivity. }
  unfold asha in H. cbn [negb] in H. unfold empty_rungs in H. rewrite RN in H. cbn [rev map] in H.
  match type of H with context [leave ?m ?v] => set (w1 := v) in *; assert (K : exists e w2, m w1 = (Err e, w2) /\ e <> Diverges /\ w_rungs w2 = [] /\ w_trace w2 = []) end.
  { cut (exists e w2, start_new_job o eta min_res max_res first_rung max_rung start w1 = (Err e, w2) /\ e <> Diverges /\ w_rungs w2 = [] /\ w_trace w2 = []).
    { intros (e & w2 & E1 & E2). exists e, w2. split; [|exact E2]. cbn [start_jobs]. unfold bind at 1. unfold bind at 1. rewrite E1. reflexivity. }
    assert (T : forall v, w_rungs v = [] -> w_trace v = [] -> (forall k, w_stop v <> Some (k, Diverges)) ->
              match tick v with
              | (Ok _, v') => w_rungs v' = [] /\ w_trace v' = [] /\ (forall k, w_stop v' <> Some (k, Diverges))
              | (Err e, v') => e <> Diverges /\ w_rungs v' = [] /\ w_trace v' = [] end).
    { intros v A B C. unfold tick. destruct (w_stop v) as [[[|k] e]|] eqn:ST; cbn.
      - split; [|auto]. intros ->. apply (C 0). reflexivity.
      - split; [auto|]. split; [auto|]. intros k' K. injection K as _ ->. apply (C (S k)). reflexivity.
      - rewrite ST. split; [auto|]. split; [auto|]. intros k' K. discriminate. }
    unfold start_new_job, bind at 1. pose proof (T w1 eq_refl eq_refl SD) as T1. destruct (tick w1) as [[[]|e] v]; [|exists e, v; tauto].
    destruct T1 as (A & B & C). unfold bind at 1. unfold get_job, bind at 1, get_rungs. rewrite A. cbn [tl promote_from].
    unfold bind at 1, ret. unfold bind at 1, read.
    destruct (rev (nth start (w_lists v) [])) as [|i l'].
    - unfold new_individual. unfold bind at 1 2, random. destruct (o_individual o (w_rng v)) as [[[]|e] r'] eqn:EO.
      + unfold fresh. cbn [bind ret]. unfold bind. cbn. rewrite RN. cbn. eexists _, _. split; [reflexivity|]. cbn. split; [discriminate|auto].
      + eexists _, _. split; [reflexivity|]. cbn. split; [|auto]. intros ->. apply (OD (w_rng v) r'). exact EO.
    - unfold bind, write.
      match goal with |- context [tick ?z] => pose proof (T z A B C) as T2; destruct (tick z) as [[[]|e] v2] end.
      + cbn. rewrite RN. cbn. eexists _, _. split; [reflexivity|]. destruct T2 as (? & ? & _). split; [discriminate|auto].
      + eexists _, _. split; [reflexivity|]. tauto. }
  destruct K as (e & w2 & EK & D & R & T). unfold leave in H. rewrite EK in H. cbn [w_rungs w_trace] in H. rewrite R in H.
  destruct e; cbn in H; try (injection H as <- <-; auto); congruence.
Qed.
Lemma C52_fuel_main :
  forall o eta min_res max_res first_rung max_rung start max_full w d,
  asha_loop o eta min_res max_res first_rung max_rung start max_full (length (w_events w) + 1 + d) w =
  asha_loop o eta min_res max_res first_rung max_rung start max_full (length (w_events w) + 1) w.
Proof. intros. apply asha_fuel. Qed.

(** Three rungs with factor 2; the jobs finish in the order in which they started. *)
Definition ex_asha (events : list event) (stop : option (nat * exn)) : res (list ind) * world :=
  asha ex_ops 2 (1 # 4) 1 0 2 0 true None (start_world [[]] 1 events [] 1 stop).
Example C52_no_rungs_ex_main : exists w,
  asha ex_ops 2 (1 # 4) 1 3 2 0 true None (start_world [[]] 1 [win 3] [] 1 None) = (Err UnboundLocalError, w).
Proof. eexists. vm_compute. reflexivity. Qed.
Example C51_promotion_ex_main :
  exists w, ex_asha [win 3; win 5; win 4; lose; win 9; win 1] None = (Err Diverges, w) /\
    map (fun e => i_id (snd e)) (promoted_from 0 (w_trace w)) = [2; 3; 5] /\
    map (fun e => i_id (snd e)) (results_on 0 (w_trace w)) = [1; 2; 3; 4; 5; 6].
Proof. eexists. split; [vm_compute; reflexivity|]. split; reflexivity. Qed.
Example C52_jobs_ex_main :
  exists w, ex_asha [win 3; win 5; mkEv 7 (Evaluated [Fin 7] false) None; win 6] None = (Err Diverges, w) /\
    exists t1 i t2, w_trace w = t1 ++ TSubmit i (Some 1) (Some ((1 # 4) * inject_Z 2)%Q) :: t2.
Proof.
  eexists. split; [vm_compute; reflexivity|]. unfold w_trace.
  match goal with |- exists t1 i t2, ?l = _ => exists (firstn 12 l), (mkI 2 (Some [Fin 5; Fin 0]) (Some 0)), (skipn 13 l) end. vm_compute. reflexivity.
Qed.

(** C53: what is returned.  The result collected last may be missing when
    the time limit arrives before it was recorded. *)
Lemma C53_highest_partial_main :
  forall o eta min_res max_res first_rung max_rung start max_full lists nw events r uid stop l w,
  (match max_full with None => True | Some m => (0 < m)%Z end) ->
  asha o eta min_res max_res first_rung max_rung start true max_full (start_world lists nw events r uid stop) = (Ok l, w) ->
  exists t n, (t = w_trace w \/ exists i q oc, w_trace w = t ++ [TDone i q oc]) /\
    l = map snd (results_on n t) /\ l <> [] /\ forall m, n < m -> results_on m t = [].
Proof.
  intros o eta min_res max_res first_rung max_rung start max_full lists nw events r uid stop l w HM E.
  pose proof (asha_run_ok o eta min_res max_res first_rung max_rung start max_full lists nw events r uid stop) as G.
  unfold asha in E. change (negb true) with false in E. cbv iota in E. unfold asha_run in G. cbv zeta in E.
  cbn [w_lists w_jobs w_n w_events w_rng w_uid w_stop w_trace start_world] in *. destruct (leave _ _) as [y w1].
  assert (FIN : forall T top, r_inds top = results_on (r_no top) T -> r_inds top <> [] -> (forall m, r_no top < m -> results_on m T = []) ->
    exists n, map snd (r_inds top) = map snd (results_on n T) /\ map snd (r_inds top) <> [] /\ forall m, n < m -> results_on m T = []).
  { intros T top H1 H2 H3. exists (r_no top). rewrite <- H1. split; auto. split; auto. destruct (r_inds top); [congruence|discriminate]. }
  destruct y as [[]|e].
  - destruct (w_rungs w1) as [|top rest] eqn:ER; [discriminate|]. injection E as <- <-. destruct G as (G1 & G2 & G3). unfold done in G3.
    destruct max_full as [m|]; [|discriminate]. destruct (top_highest eta min_res max_res first_rung max_rung (top :: rest) (w_trace w1) top rest m) as (H1 & H2 & H3); auto.
    exists (w_trace w1). destruct (FIN (w_trace w1) top H1 H2 H3) as (n & A). exists n. split; auto.
  - destruct e; try discriminate. destruct (reached (w_rungs w1)) as [|top rest] eqn:ER; [discriminate|]. injection E as <- <-.
    destruct G as [[G1 G2]|(T' & i & q & oc & G0 & G1 & G2)].
    + destruct (highest eta min_res max_res first_rung max_rung _ (w_trace w1) top rest G1 G2 ER) as (H1 & H2 & H3).
      destruct (FIN _ _ H1 H2 H3) as (n & A). exists (w_trace w1), n. split; auto.
    + assert (G2' : each (asha_step eta min_res max_res first_rung max_rung) T').
      { intros t1 x t2 Et. eapply G2. rewrite G0, Et, <- app_assoc. reflexivity. }
      destruct (highest eta min_res max_res first_rung max_rung _ T' top rest G1 G2' ER) as (H1 & H2 & H3).
      destruct (FIN _ _ H1 H2 H3) as (n & A). exists T', n. split; [right; exists i, q, oc; auto|exact A].
Qed.
(** C53: stopped by its time limit (or never), and if nothing else goes wrong, ASHA
    fails only when no result was recorded. *)
Lemma C53_timeout_partial_main :
  forall o eta min_res max_res first_rung max_rung start max_full lists nw events r uid stop e w,
  (forall r, exists r', o_individual o r = (Ok tt, r')) -> (Z.of_nat first_rung <= max_rung)%Z ->
  Forall (fun e => e_callback e = None /\ e_out e <> Evaluated [] true /\ e_out e <> Evaluated [] false) events ->
  (match stop with None => True | Some (_, e) => e = TimeoutException end) ->
  asha o eta min_res max_res first_rung max_rung start true max_full (start_world lists nw events r uid stop) = (Err e, w) ->
  e = Diverges /\ w_events w = [] \/
  stop <> None /\ e = UnboundLocalError /\ exists t, (t = w_trace w \/ exists i q oc, w_trace w = t ++ [TDone i q oc]) /\ forall n, results_on n t = [].
Proof.
  intros o eta min_res max_res first_rung max_rung start max_full lists nw events r uid stop e w HN HR HF HS E.
  pose proof (asha_run_ok o eta min_res max_res first_rung max_rung start max_full lists nw events r uid stop) as G.
  assert (HS' : match stop with None => True | Some (_, e) => e = TimeoutException /\ stop <> None end) by (destruct stop as [[k e0]|]; [split; [auto|discriminate]|auto]).
  pose proof (fun e w => asha_run_live o eta min_res max_res first_rung max_rung start (stop <> None) HN HR max_full lists nw events r uid stop e w HF HS') as V.
  unfold asha in E. change (negb true) with false in E. cbv iota in E. unfold asha_run in G, V. cbv zeta in E.
  cbn [w_lists w_jobs w_n w_events w_rng w_uid w_stop w_trace start_world] in *. destruct (leave _ _) as [y w1].
  destruct y as [[]|e1].
  - destruct G as ((N1 & _) & _). destruct (w_rungs w1) as [|top rest]; [|discriminate]. exfalso. simpl in N1.
    assert (X : In first_rung (rev (rung_numbers first_rung max_rung))) by (apply in_rev; rewrite rev_involutive; apply in_seq; lia). rewrite <- N1 in X. destruct X.
  - destruct (V e1 w1 eq_refl) as [[-> V3]|[-> V2]].
    + right. destruct (reached (w_rungs w1)) as [|top rest] eqn:ER; [|discriminate]. injection E as <- <-. split; auto. split; auto.
      destruct G as [[G1 G2]|(T' & i & q & oc & G0 & G1 & G2)].
      * exists (w_trace w1). split; auto. eapply nothing_reached; eauto.
      * exists T'. split; [right; exists i, q, oc; auto|]. eapply nothing_reached; eauto. intros t1 x t2 Et. eapply G2. rewrite G0, Et, <- app_assoc. reflexivity.
    + left. injection E as <- <-. auto.
Qed.
(** C53: left to itself, ASHA ends only when a number of evaluations on the top rung was
    asked for, and returns exactly so many. *)
Lemma C53_full_main :
  forall o eta min_res max_res first_rung max_rung start max_full lists nw events r uid l w,
  (forall r, exists r', o_individual o r = (Ok tt, r')) -> (Z.of_nat first_rung <= max_rung)%Z ->
  Forall (fun e => e_callback e = None /\ e_out e <> Evaluated [] true /\ e_out e <> Evaluated [] false) events ->
  asha o eta min_res max_res first_rung max_rung start true max_full (start_world lists nw events r uid None) = (Ok l, w) ->
  exists m, max_full = Some m /\ ((0 < m)%Z -> Z.of_nat (length l) = m /\ l = map snd (results_on (Z.to_nat max_rung) (w_trace w))).
Proof.
  intros o eta min_res max_res first_rung max_rung start max_full lists nw events r uid l w HN HR HF E.
  pose proof (asha_run_ok o eta min_res max_res first_rung max_rung start max_full lists nw events r uid None) as G.
  pose proof (fun e w => asha_run_live o eta min_res max_res first_rung max_rung start False HN HR max_full lists nw events r uid None e w HF Logic.I) as V.
  pose proof (fun m w H => asha_run_full o eta min_res max_res first_rung max_rung start m lists nw events r uid None w H) as U.
  unfold asha in E. change (negb true) with false in E. cbv iota in E. unfold asha_run in G, V, U. cbv zeta in E.
  cbn [w_lists w_jobs w_n w_events w_rng w_uid w_stop w_trace start_world] in *.
  destruct (leave _ _) as [y w1] eqn:EL. destruct y as [[]|e1].
  - destruct G as (G1 & G2 & G3). destruct max_full as [m|]; [|discriminate G3]. exists m. split; auto. intros Hm.
    specialize (U m w1 Hm EL). destruct (w_rungs w1) as [|top rest] eqn:ER; [discriminate|]. injection E as <- <-.
    assert (TN : r_no top = Z.to_nat max_rung).
    { destruct G1 as [N1 _]. simpl in N1. unfold rung_numbers in N1.
      replace (Z.to_nat (max_rung + 1 - Z.of_nat first_rung)) with (S (Z.to_nat (max_rung - Z.of_nat first_rung))) in N1 by lia.
      rewrite seq_S, rev_app_distr in N1. simpl in N1. injection N1 as N1 _. lia. }
    destruct G1 as [_ G1]. pose proof (Forall_inv G1) as [E1 _]. rewrite TN in E1. rewrite E1. split; auto. rewrite map_length. exact U.
  - exfalso. destruct (V e1 w1 eq_refl) as [[-> V3]|[-> V2]]; [exact V3|discriminate].
Qed.
Example C53_full_ex_main :
  exists l w, asha ex_ops 2 (1 # 4) 1 0 1 0 true (Some 1%Z) (start_world [[]] 1 [win 3; win 5; mkEv 7 (Evaluated [Fin 7] false) None; win 6; win 2] [] 1 None) = (Ok l, w) /\ length l = 1.
Proof. eexists _, _. split; [vm_compute; reflexivity|]. reflexivity. Qed.
(** C53: stopped by Ctrl-C, ASHA raises UnboundLocalError and its results are lost. *)
Lemma C53_highest_refuted_main :
  ~ (forall o eta min_res max_res first_rung max_rung start max_full lists nw events r uid stop x w,
     (forall r, exists r', o_individual o r = (Ok tt, r')) -> (Z.of_nat first_rung <= max_rung)%Z ->
     Forall (fun e => e_callback e = None /\ e_out e <> Evaluated [] true /\ e_out e <> Evaluated [] false) events ->
     asha o eta min_res max_res first_rung max_rung start true max_full (start_world lists nw events r uid stop) = (x, w) ->
     x = Err Diverges \/ (forall n, results_on n (w_trace w) = []) \/ exists l, x = Ok l).
Proof.
  intros H. assert (X : exists w, asha ex_ops 2 (1 # 4) 1 0 2 0 true None (start_world [[]] 1 [win 3; win 5; win 4] [] 1 (Some (26, KeyboardInterrupt))) = (Err UnboundLocalError, w) /\ results_on 0 (w_trace w) <> []).
  { eexists. split; [vm_compute; reflexivity|discriminate]. }
  destruct X as (w & E & N). apply H in E.
  - destruct E as [E|[E|[l E]]]; [discriminate|apply N; apply E|discriminate].
  - intros r. exists r. reflexivity.
  - lia.
  - repeat constructor; discriminate.
Qed.
Example C53_highest_ex_main :
  exists w, ex_asha [win 3; win 5; mkEv 7 (Evaluated [Fin 7] false) None; win 6; win 2] (Some (37, TimeoutException)) = (Ok [mkI 2 (Some [Fin 7]) (Some 1)], w).
Proof. eexists. vm_compute. reflexivity. Qed.

(** C105: the evolutionary search; [start] is the list it was given. *)
Lemma C105_ea_partial_main :
  forall o out restart max_n pop_size start lists nw events r uid stop x w, out < length lists -> start <> out ->
  async_ea o out restart max_n pop_size start (start_world lists nw events r uid stop) = (x, w) ->
  forall t1 pop t2, w_trace w = t1 ++ TWait pop :: t2 -> Nat.min (length (nth start lists [])) (nw + 2) <= running t1.
Proof.
  intros o out restart max_n pop_size start lists nw events r uid stop x w HO NS E t1 pop t2 Et.
  assert (ES : nth start (set_nth out [] lists) [] = nth start lists []) by (apply nth_set_nth_ne; auto).
  destruct (ea_turns o out restart max_n pop_size start lists nw events r uid stop x w False (Nat.min (length (nth start lists [])) (nw + 2)) HO) as [H _]; auto; [lia|rewrite ES; lia|tauto|].
  exact (proj1 (H t1 _ t2 Et)).
Qed.
(** C105: random search has as many evaluations outstanding as it was given candidates. *)
Lemma C105_random_search_partial_main :
  forall o out max_n start lists nw events r uid stop x w,
  random_search o out max_n start (start_world lists nw events r uid stop) = (x, w) ->
  forall t1 pop t2, w_trace w = t1 ++ TWait pop :: t2 -> running t1 = length (nth start lists []).
Proof. intros o out max_n start lists nw events r uid stop x w E t1 pop t2 Et. exact (rs_supply _ _ _ _ _ _ _ _ _ _ _ _ E t1 _ t2 Et). Qed.
(** C105: ASHA has 8, however many workers there are. *)
Lemma C105_asha_partial_main :
  forall o eta min_res max_res first_rung max_rung start same max_full lists nw events r uid stop x w,
  asha o eta min_res max_res first_rung max_rung start same max_full (start_world lists nw events r uid stop) = (x, w) ->
  forall t1 i q oc t2, w_trace w = t1 ++ TDone i q oc :: t2 -> running t1 = 8.
Proof.
  intros o eta min_res max_res first_rung max_rung start same max_full lists nw events r uid stop x w E t1 i q oc t2 Et.
  exact (asha_steps _ _ _ _ _ _ _ _ _ _ _ _ _ _ _ _ _ E t1 _ t2 Et).
Qed.
Lemma C105_supplied_refuted_main :
  ~ (forall o m out a lists nw events r uid stop x w, out < length lists -> a <> out -> nw <= length (nth a lists []) ->
     search_phase o m out out (Some a) (start_world lists nw events r uid stop) = (x, w) ->
     forall t1 i q oc t2, w_trace w = t1 ++ TDone i q oc :: t2 -> nw <= running t1).
Proof.
  intros H. set (m := ASHA 3 (1 # 10) 1 0 2 true (Some 1%Z)).
  assert (X : exists x w t1 i q oc t2, search_phase ex_ops m 0 0 (Some 1) (start_world [[]; map cand (seq 0 12)] 12 [win 3; win 5] [] 20 None) = (x, w) /\ w_trace w = t1 ++ TDone i q oc :: t2 /\ running t1 = 8).
  { eexists. eexists. exists (map (fun n => TSubmit (cand (11 - n)) (Some 0) (Some ((1 # 10) * inject_Z 1)%Q)) (seq 0 8)). do 4 eexists. split; [vm_compute; reflexivity|]. split; [reflexivity|reflexivity]. }
  destruct X as (x & w & t1 & i & q & oc & t2 & E & Et & R).
  assert (12 <= running t1); [|lia]. eapply H; [| | |exact E|exact Et]; simpl; lia.
Qed.
Example C105_ea_ex_main :
  exists x w t1 pop t2, async_ea ex_ops 0 false None 3 1 (start_world [[]; map cand (seq 0 7)] 2 [win 1; win 2; win 3; win 4; win 5] [] 60 None) = (x, w) /\
    w_trace w = t1 ++ TWait pop :: t2 /\ length (collected t1) = 5 /\ running t1 = 4.
Proof.
  remember (async_ea ex_ops 0 false None 3 1 (start_world [[]; map cand (seq 0 7)] 2 [win 1; win 2; win 3; win 4; win 5] [] 60 None)) as y eqn:E. vm_compute in E. subst y.
  eexists. eexists. exists (firstn 19 (w_trace (snd (async_ea ex_ops 0 false None 3 1 (start_world [[]; map cand (seq 0 7)] 2 [win 1; win 2; win 3; win 4; win 5] [] 60 None))))). eexists. eexists. split; [reflexivity|].
  vm_compute. split; [reflexivity|]. split; reflexivity.
Qed.

(** C106: the evolutionary search and random search, started from a list of candidates. *)
Lemma C106_stopped_partial_main :
  forall o m out final a lists nw events r uid k e x w, out < length lists -> nth a lists [] <> [] -> e = TimeoutException \/ e = KeyboardInterrupt ->
  match m with ASHA _ _ _ _ _ _ _ => False | _ => True end ->
  search_phase o m out final (Some a) (start_world lists nw events r uid (Some (k, e))) = (x, w) ->
  x <> Err TimeoutException /\ x <> Err KeyboardInterrupt /\
  forall b, x = Ok b -> b = out /\ (w_trace w = [] \/
    match m with
    | RS _ => exists missing, length missing <= 1 /\ list_at out w ++ missing = nth out lists [] ++ with_result (w_trace w)
    | _ => incl (list_at out w) (successes (w_trace w)) /\
           forall n _restart _max, m = EA _restart _max n -> Nat.min n (length (successes (since_restart (w_trace w))) - 1) <= length (list_at out w)
    end).
Proof.
  intros o m out final a lists nw events r uid k e x w HO NE HE HM E. unfold search_phase in E.
  assert (ES : (l <- read a ;; match l with [] => l' <- individuals o 50 ;; new_list l' | _ => ret a end) (start_world lists nw events r uid (Some (k, e))) = (Ok a, start_world lists nw events r uid (Some (k, e)))).
  { unfold bind, read. cbn [w_lists start_world]. destruct (nth a lists []); [congruence|reflexivity]. }
  rewrite ES in E. clear ES. destruct (search o m out a (start_world lists nw events r uid (Some (k, e)))) as [y w2] eqn:EQ.
  assert (X : w = w2 /\ (x = Ok out \/ exists e', x = Err e' /\ e' <> TimeoutException /\ e' <> KeyboardInterrupt)).
  { destruct y as [b|e'].
    - inversion E; subst. split; auto. left. destruct m; [| |destruct HM]; simpl in EQ.
      + apply ea_ok in EQ; auto. destruct EQ as [-> _]. auto.
      + destruct (C50_every_result_main _ _ _ _ _ _ _ _ _ _ _ _ HO EQ) as [-> _]. auto.
    - destruct e'; inversion E; subst; split; auto; right; eexists; split; try reflexivity; split; discriminate. }
  destruct X as [-> X]. split; [destruct X as [->|(e' & -> & X1 & X2)]; congruence|]. split; [destruct X as [->|(e' & -> & X1 & X2)]; congruence|].
  intros b Hb. destruct X as [->|(e' & -> & _)]; [|discriminate]. injection Hb as <-. split; auto. destruct m as [restart max_n pop_size|max_n|]; [| |destruct HM]; simpl in EQ.
  - destruct (C45_population_partial_main _ _ _ _ _ _ _ _ _ _ _ _ _ _ HO EQ) as [_ H]. destruct y as [b|e'].
    + destruct H as (_ & _ & H). right. split; [eapply incl_tran; [exact H|apply successes_since]|]. intros n r1 m1 Em. injection Em as _ _ <-.
      destruct (C47_result_partial_main _ _ _ _ _ _ _ _ _ _ _ _ _ _ HO EQ) as (_ & L & _). lia.
    + destruct H as [[H1 H2]|[H1 H2]]; [right|left; auto]. split; auto. intros n r1 m1 Em. injection Em as _ _ <-. lia.
  - right. pose proof (C50_every_result_main _ _ _ _ _ _ _ _ _ _ _ _ HO EQ) as H. destruct y as [b|e'].
    + destruct H as (_ & H & _). exists []. rewrite app_nil_r. auto.
    + destruct H as (mi & H1 & H2 & _). eauto.
Qed.
(** C106: with nothing else going wrong random search always ends in order. *)
Lemma C106_random_search_main :
  forall o max_n out final a lists nw events r uid stop x w,
  (forall r, exists r', o_individual o r = (Ok tt, r')) -> nth a lists [] <> [] -> Forall (fun e => e_callback e = None) events ->
  (match stop with None => True | Some (_, e) => e = TimeoutException \/ e = KeyboardInterrupt end) ->
  search_phase o (RS max_n) out final (Some a) (start_world lists nw events r uid stop) = (x, w) ->
  x = Ok out \/ x = Err Diverges /\ w_events w = [].
Proof.
  intros o max_n out final a lists nw events r uid stop x w HN NE HF HS E. unfold search_phase in E.
  assert (ES : (l <- read a ;; match l with [] => l' <- individuals o 50 ;; new_list l' | _ => ret a end) (start_world lists nw events r uid stop) = (Ok a, start_world lists nw events r uid stop)).
  { unfold bind, read. cbn [w_lists start_world]. destruct (nth a lists []); [congruence|reflexivity]. }
  rewrite ES in E. clear ES. cbn [search] in E. destruct (random_search o out max_n a (start_world lists nw events r uid stop)) as [y w2] eqn:EQ.
  destruct (rs_live o out max_n (fun e => e = TimeoutException \/ e = KeyboardInterrupt) HN a lists nw events r uid stop y w2 HS NE HF EQ) as [->|[[-> H]|(e & -> & [->| ->])]]; inversion E; subst; auto.
Qed.
Lemma C106_stopped_refuted_main :
  ~ (forall o m out final a lists nw events r uid k e x w, out < length lists -> nth a lists [] <> [] -> (forall r, exists r', o_individual o r = (Ok tt, r')) ->
     Forall (fun e => e_callback e = None) events -> e = TimeoutException \/ e = KeyboardInterrupt ->
     search_phase o m out final (Some a) (start_world lists nw events r uid (Some (k, e))) = (x, w) -> x = Err Diverges \/ exists b, x = Ok b).
Proof.
  intros H. set (m := ASHA 3 (1 # 10) 1 0 2 true None).
  assert (X : exists w, search_phase ex_ops m 0 0 (Some 1) (start_world [[]; map cand (seq 0 12)] 2 [win 3; win 5] [] 20 (Some (27, KeyboardInterrupt))) = (Err UnboundLocalError, w)) by (eexists; vm_compute; reflexivity).
  destruct X as [w E]. assert (Y : @Err nat UnboundLocalError = Err Diverges \/ exists b, @Err nat UnboundLocalError = Ok b).
  { eapply H; [| | | | |exact E]; [simpl; lia|discriminate|intros r; exists r; reflexivity|repeat constructor|right; reflexivity]. }
  destruct Y as [Y|[b Y]]; discriminate.
Qed.
Example C106_stopped_ex_main :
  exists w, search_phase ex_ops (EA false None 3) 0 0 (Some 1) (start_world [[]; map cand (seq 0 6)] 1 [win 1; win 2; win 3; win 4] [] 60 (Some (16, KeyboardInterrupt))) = (Ok 0, w) /\
    map i_id (list_at 0 w) = [0; 1] /\ length (successes (w_trace w)) = 3.
Proof. eexists. split; [vm_compute; reflexivity|]. split; reflexivity. Qed.

(** C107: between two waits, and at the end. *)
Lemma C107_turn_main :
  forall o out restart max_n pop_size start lists nw events r uid stop x w, out < length lists ->
  async_ea o out restart max_n pop_size start (start_world lists nw events r uid stop) = (x, w) ->
  forall t1 pop i q oc t2, submits t2 ->
  let change := population_turn pop_size (fun l x => exists r r' rest, o_eliminate o l 1 r = (Ok (x :: rest), r')) pop i oc in
  (forall pop' t3, w_trace w = t1 ++ TWait pop :: TDone i q oc :: t2 ++ TWait pop' :: t3 -> change pop') /\
  (forall a, x = Ok a -> w_trace w = t1 ++ TWait pop :: TDone i q oc :: t2 -> change (list_at a w)).
Proof.
  intros o out restart max_n pop_size start lists nw events r uid stop x w HO E t1 pop i q oc t2 HS.
  destruct (ea_turns o out restart max_n pop_size start lists nw events r uid stop x w False 0 HO) as [H H2]; auto; [lia|lia|tauto|]. cbv zeta. split.
  - intros pop' t3 Et. assert (Et' : w_trace w = (t1 ++ TWait pop :: TDone i q oc :: t2) ++ TWait pop' :: t3) by (rewrite Et, <- app_assoc; auto).
    destruct (H _ _ _ Et') as [_ HL]. exact (HL t1 pop i q oc t2 eq_refl HS).
  - intros a -> Et. destruct H2 as [-> HL]. exact (HL t1 pop i q oc t2 Et HS).
Qed.
(** C107: nobody is in the population twice. *)
Lemma C107_distinct_main :
  forall o out restart max_n pop_size start lists nw events r uid stop x w, out < length lists -> start <> out ->
  NoDup (map i_id (nth start lists [])) -> Forall (fun i => i_id i < uid) (nth start lists []) ->
  async_ea o out restart max_n pop_size start (start_world lists nw events r uid stop) = (x, w) ->
  forall t1 pop i q oc t2, w_trace w = t1 ++ TWait pop :: TDone i q oc :: t2 -> NoDup (map i_id (pop ++ [i])).
Proof.
  intros o out restart max_n pop_size start lists nw events r uid stop x w HO NS HN HU E t1 pop i q oc t2 Et.
  assert (ES : nth start (set_nth out [] lists) [] = nth start lists []) by (apply nth_set_nth_ne; auto).
  destruct (ea_turns o out restart max_n pop_size start lists nw events r uid stop x w True 0 HO) as [H _]; auto; [lia|lia| |].
  { intros _. rewrite ES. split; auto. intros n Hn. apply in_map_iff in Hn as (y & <- & Hy). rewrite Forall_forall in HU. auto. }
  assert (Et' : w_trace w = (t1 ++ [TWait pop]) ++ TDone i q oc :: t2) by (rewrite Et, <- app_assoc; auto).
  exact (H _ _ _ Et' t1 pop eq_refl Logic.I).
Qed.
(** C107: with the operators of GAMA, the one that leaves is not better than any other in every respect. *)
Lemma C107_worst_leaves_main :
  forall can_cross mate mutate create_new out restart max_n pop_size start lists nw events r uid stop x w k, out < length lists -> start <> out ->
  NoDup (map i_id (nth start lists [])) -> Forall (fun i => i_id i < uid) (nth start lists []) ->
  async_ea (gama_ops can_cross mate mutate create_new) out restart max_n pop_size start (start_world lists nw events r uid stop) = (x, w) ->
  forall t1 pop i q s t2 pop' t3, w_trace w = t1 ++ TWait pop :: TDone i q (Evaluated s false) :: t2 ++ TWait pop' :: t3 -> submits t2 ->
  (forall y, In y (pop ++ [i]) -> length (fitness y) = k) -> pop_size <= length pop ->
  exists l1 y l2, pop ++ [i] = l1 ++ y :: l2 /\ pop' = l1 ++ l2 /\ forall z, In z (pop ++ [i]) -> ~ pareto_dominates (fitness y) (fitness z).
Proof.
  intros can_cross mate mutate create_new out restart max_n pop_size start lists nw events r uid stop x w k HO NS HN HU E t1 pop i q s t2 pop' t3 Et HS HK HP.
  pose proof (C107_distinct_main _ _ _ _ _ _ _ _ _ _ _ _ _ _ HO NS HN HU E _ _ _ _ _ _ Et) as ND.
  destruct (C107_turn_main _ _ _ _ _ _ _ _ _ _ _ _ _ _ HO E t1 pop i q (Evaluated s false) t2 HS) as [H _]. specialize (H pop' t3 Et).
  destruct H as [[H _]|[_ (z & l1 & y & l2 & (r0 & r1 & rest & EL) & E1 & E2 & E3 & E4)]]; [lia|].
  exists l1, y, l2. split; auto. split; auto. destruct (eliminate_worst (pop ++ [i]) k r0 z rest r1) as [HI HW]; auto; [destruct pop; discriminate|].
  assert (y = z); [|subst z; auto]. assert (HY : In y (pop ++ [i])) by (rewrite E1; apply in_or_app; simpl; auto).
  clear - ND HI HY E3. induction (pop ++ [i]) as [|b l IH]; [destruct HI|]. simpl in ND. inversion ND; subst. destruct HI as [->|HI], HY as [->|HY]; auto.
  - exfalso. apply H1. rewrite <- E3. apply in_map; auto.
  - exfalso. apply H1. rewrite E3. apply in_map; auto.
Qed.
Example C107_turn_ex_main :
  exists w t1 t3, ex_run false (Some 5%Z) 3 [win 1; win 5; lose; win 4; win 3] [] = (Ok 0, w) /\
    exists pop i q s, w_trace w = t1 ++ TWait pop :: TDone i q (Evaluated s false) :: t3 /\ map i_id pop = [1; 2; 4] /\ i_id i = 5 /\ map i_id (list_at 0 w) = [2; 4; 5].
Proof.
  remember (ex_run false (Some 5%Z) 3 [win 1; win 5; lose; win 4; win 3] []) as y eqn:E. vm_compute in E.
  eexists. exists (firstn 15 (w_trace (snd y))). eexists. subst y. split; [reflexivity|]. do 4 eexists. split; [vm_compute; reflexivity|]. repeat split.
Qed.

Lemma individuals_start o n : forall lists nw events r uid stop x w, individuals o n (start_world lists nw events r uid stop) = (x, w) ->
  exists r' uid' stop', w = start_world lists nw events r' uid' stop'.
Proof.
  induction n as [|n IH]; intros lists nw events r uid stop x w E; [injection E as _ <-; eauto|].
  cbn [individuals] in E. unfold bind at 1 in E. unfold tick, start_world in E. cbn [w_lists w_jobs w_n w_events w_rng w_uid w_stop w_rungs w_trace] in E.
  assert (G : forall s, (i <- new_individual o ;; l <- individuals o n ;; ret (i :: l)) (start_world lists nw events r uid s) = (x, w) -> exists r' uid' stop', w = start_world lists nw events r' uid' stop').
  { intros s G. unfold bind, new_individual, bind, random, fresh in G.
    destruct (o_individual o (w_rng (start_world lists nw events r uid s))) as [[u|e] r1]; [|injection G as _ <-; unfold start_world; cbn; eauto].
    cbn [w_lists w_jobs w_n w_events w_rng w_uid w_stop w_rungs w_trace start_world] in G.
    match type of G with context[individuals o n ?w0] => change w0 with (start_world lists nw events r1 (S uid) s) in G; destruct (individuals o n (start_world lists nw events r1 (S uid) s)) as [y w1] eqn:F end.
    apply IH in F as (r2 & u2 & s2 & ->). destruct y; injection G as _ <-; eauto. }
  destruct stop as [[[|k] e]|]; [injection E as _ <-; unfold start_world; eauto| |]; exact (G _ E).
Qed.
Lemma results_with n t : incl (map snd (results_on n t)) (with_result t).
Proof.
  intros i Hi. apply in_map_iff in Hi as ((s & i') & <- & Hi). cbn. unfold results_on in Hi. apply in_flat_map in Hi as (x & H1 & H2).
  unfold with_result. apply in_flat_map. exists x. split; auto. destruct x as [| |j q oc| |]; try destruct H2. destruct q as [q|]; [|destruct H2]. destruct oc as [|[|s' l] b]; try destruct H2. destruct (q =? n); [|destruct H2]. destruct H2 as [[= _ ->]|[]]. left. reflexivity.
Qed.
Lemma with_app t1 t2 : with_result (t1 ++ t2) = with_result t1 ++ with_result t2.
Proof. apply flat_map_app. Qed.
Lemma successes_with t : incl (successes t) (with_result t).
Proof.
  intros i Hi. apply in_flat_map in Hi as (x & H1 & H2). apply in_flat_map. exists x. split; auto. destruct x as [| |j q oc| |]; try destruct H2. destruct oc as [|s [|]]; try destruct H2; subst; try contradiction; left; reflexivity.
Qed.

(** C121, when the search method has no list of an earlier fit: whatever it
    is started from, only individuals evaluated during this search are considered. *)
Lemma C121_first_fit_partial_main :
  forall o m out final warm lists nw events r uid stop b w, out < length lists -> nth out lists [] = [] ->
  (match m with ASHA _ _ _ _ _ _ (Some n) => (0 < n)%Z | _ => True end) ->
  search_phase o m out final warm (start_world lists nw events r uid stop) = (Ok b, w) ->
  incl (list_at b w) (with_result (w_trace w)).
Proof.
  intros o m out final warm lists nw events r uid stop b w HO NE HM E. unfold search_phase in E.
  set (S0 := match warm with Some a => _ | None => _ end) in E. destruct (S0 (start_world lists nw events r uid stop)) as [[a|e] w1] eqn:ES; [|discriminate].
  assert (W : exists lists' r' uid' stop', w1 = start_world lists' nw events r' uid' stop' /\ out < length lists' /\ nth out lists' [] = []).
  { assert (G : forall c, (l <- read c ;; match l with [] => l' <- individuals o 50 ;; new_list l' | _ => ret c end) (start_world lists nw events r uid stop) = (Ok a, w1) ->
      exists lists' r' uid' stop', w1 = start_world lists' nw events r' uid' stop' /\ out < length lists' /\ nth out lists' [] = []).
    { intros c G. unfold bind at 1 in G. unfold read in G. cbn [w_lists start_world] in G. destruct (nth c lists []); [|injection G as _ <-; exists lists, r, uid, stop; repeat split; auto].
      unfold bind in G. destruct (individuals o 50 (start_world lists nw events r uid stop)) as [[l|e] w2] eqn:F; [|discriminate]. apply individuals_start in F as (r' & u' & s' & ->).
      unfold new_list in G. injection G as _ <-. exists (lists ++ [l]), r', u', s'. split; [reflexivity|]. rewrite app_length, app_nth1 by auto. cbn. split; [lia|auto]. }
    unfold S0 in ES. destruct warm; eapply G; exact ES. }
  clearbody S0. clear ES. destruct W as (ls & r' & u' & s' & -> & HO' & NE'). destruct (search o m out a (start_world ls nw events r' u' s')) as [y w2] eqn:EQ.
  assert (X : w = w2 /\ (y = Ok b \/ b = out /\ exists e, y = Err e)).
  { destruct y as [b'|e]; [injection E as <- <-; auto|]. destruct e; inversion E; subst; eauto. }
  destruct X as [-> X]. destruct m as [restart max_n pop_size|max_n|eta mi ma fr mr same mf]; cbn [search] in EQ.
  - destruct (C45_population_partial_main _ _ _ _ _ _ _ _ _ _ _ _ _ _ HO' EQ) as [_ H].
    destruct X as [->|[-> [e ->]]]; [destruct H as (-> & _ & H)|destruct H as [[_ H]|[_ H]]].
    + eapply incl_tran; [exact H|]. eapply incl_tran; [apply successes_since|]. apply successes_with.
    + eapply incl_tran; [exact H|]. apply successes_with.
    + rewrite H, NE'. intros i [].
  - pose proof (C50_every_result_main _ _ _ _ _ _ _ _ _ _ _ _ HO' EQ) as H. rewrite NE' in H. destruct X as [->|[-> [e ->]]].
    + destruct H as (-> & -> & _). apply incl_refl.
    + destruct H as (mi & _ & H & _). cbn in H. rewrite <- H. apply incl_appl, incl_refl.
  - unfold bind in EQ. destruct (asha o eta mi ma fr mr a same mf (start_world ls nw events r' u' s')) as [[l|e] w3] eqn:EA.
    + injection EQ as <- <-. destruct X as [[= <-]|[_ [e X]]]; [|discriminate]. unfold list_at. cbn [w_lists w_trace]. rewrite app_nth2, Nat.sub_diag by auto. cbn.
      destruct same; [|discriminate]. apply C53_highest_partial_main in EA; [|destruct mf; auto]. destruct EA as (t & n & T & -> & _).
      eapply incl_tran; [apply results_with|]. destruct T as [->|(i & q & oc & ->)]; [apply incl_refl|]. rewrite with_app. apply incl_appl, incl_refl.
    + injection EQ as <- <-. destruct X as [X|[-> _]]; [discriminate|]. exfalso.
      assert (K : forall e', e = e' -> e' <> TimeoutException /\ e' <> KeyboardInterrupt); [|destruct (K e eq_refl) as (K1 & K2); destruct e; congruence].
      intros e' <-. unfold asha in EA. destruct same; [|injection EA as <- _; split; discriminate]. change (negb true) with false in EA. cbv iota zeta in EA.
      destruct (leave _ _) as [z w4]. destruct z as [[]|ez]; [destruct (w_rungs w4); [injection EA as <- _; split; discriminate|discriminate]|].
      destruct ez; try (injection EA as <- _; split; discriminate). destruct (reached (w_rungs w4)); [injection EA as <- _; split; discriminate|discriminate].
Qed.
(** Random search keeps in later fits every individual of the earlier ones, with the scores it had then. *)
Lemma C121_random_search_main :
  forall o max_n out final warm lists nw events r uid stop b w, out < length lists ->
  search_phase o (RS max_n) out final warm (start_world lists nw events r uid stop) = (Ok b, w) ->
  b = out /\ firstn (length (nth out lists [])) (list_at b w) = nth out lists [].
Proof.
  intros o max_n out final warm lists nw events r uid stop b w HO E. unfold search_phase in E.
  set (S0 := match warm with Some a => _ | None => _ end) in E. destruct (S0 (start_world lists nw events r uid stop)) as [[a|e] w1] eqn:ES; [|discriminate].
  assert (W : exists lists' r' uid' stop', w1 = start_world lists' nw events r' uid' stop' /\ out < length lists' /\ nth out lists' [] = nth out lists []).
  { assert (G : forall c, (l <- read c ;; match l with [] => l' <- individuals o 50 ;; new_list l' | _ => ret c end) (start_world lists nw events r uid stop) = (Ok a, w1) ->
      exists lists' r' uid' stop', w1 = start_world lists' nw events r' uid' stop' /\ out < length lists' /\ nth out lists' [] = nth out lists []).
    { intros c G. unfold bind at 1 in G. unfold read in G. cbn [w_lists start_world] in G. destruct (nth c lists []); [|injection G as _ <-; exists lists, r, uid, stop; repeat split; auto].
      unfold bind in G. destruct (individuals o 50 (start_world lists nw events r uid stop)) as [[l|e] w2] eqn:F; [|discriminate]. apply individuals_start in F as (r' & u' & s' & ->).
      unfold new_list in G. injection G as _ <-. exists (lists ++ [l]), r', u', s'. split; [reflexivity|]. rewrite app_length, app_nth1 by auto. cbn. split; [lia|auto]. }
    unfold S0 in ES. destruct warm; eapply G; exact ES. }
  clearbody S0. clear ES. destruct W as (ls & r' & u' & s' & -> & HO' & NE'). cbn [search] in E. destruct (random_search o out max_n a (start_world ls nw events r' u' s')) as [y w2] eqn:EQ.
  pose proof (C50_every_result_main _ _ _ _ _ _ _ _ _ _ _ _ HO' EQ) as H. rewrite NE' in H.
  destruct y as [b'|e].
  - injection E as <- <-. destruct H as (-> & -> & _). split; auto. rewrite firstn_app, Nat.sub_diag, firstn_all, app_nil_r. reflexivity.
  - destruct H as (mi & _ & _ & _ & H). assert (X : w = w2 /\ b = out) by (destruct e; inversion E; auto). destruct X as [-> ->]. auto.
Qed.

(** C121 is false of a second fit with random search: the old scores, of other data, decide. *)
Lemma C121_again_refuted_main :
  ~ (forall o m out final warm lists nw events r uid stop b w, out < length lists ->
     search_phase o m out final warm (start_world lists nw events r uid stop) = (Ok b, w) ->
     incl (list_at b w) (with_result (w_trace w))).
Proof.
  intros H. set (old := mkI 3 (Some [Fin 9; Fin 0]) None).
  assert (X : exists w, search_phase ex_ops (RS (Some 3%Z)) 0 0 (Some 1) (start_world [[old]; [cand 7; cand 8]] 1 [win 1; win 2] [] 20 None) = (Ok 0, w) /\ list_at 0 w = old :: with_result (w_trace w) /\ ~ In old (with_result (w_trace w))).
  { eexists. split; [vm_compute; reflexivity|]. split; [reflexivity|]. vm_compute. intuition discriminate. }
  destruct X as (w & E & L & N). apply H in E; [|cbn; lia]. apply N, E. rewrite L. left. reflexivity.
Qed.
Example C121_first_fit_ex_main :
  exists w, search_phase ex_ops (RS (Some 2%Z)) 0 0 (Some 1) (start_world [[]; [cand 7; cand 8]] 1 [win 1; lose; win 2] [] 20 None) = (Ok 0, w) /\
    map i_id (list_at 0 w) = [7; 8] /\ length (submissions (w_trace w)) = 4.
Proof. eexists. split; [vm_compute; reflexivity|split; reflexivity]. Qed.

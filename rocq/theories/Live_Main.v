(** C172: with workers that get their turns, a search gets its results and comes to its end. *)
(*IMPORTS*)
Require Import ZArith QArith.
From Verif Require Import Base Num Gp_Model Gp_Spec Gp_Examples Lib_Spec Evo_Model Evo_Spec Evo_Main Rnd_Model Rnd_Spec Proc_Model Proc_Spec Live_Spec.
From Verif Require Async_Model Sys_Model Sys_Main.
Open Scope nat_scope.
Open Scope list_scope.
(*END*)
Require Import Lia.
From Verif Require Import Proc_Proofs Rnd_Main Evo_Proofs3 Evo_Proofs4 Live_Proofs2.
From Verif Require Proc_Proofs2 Proc_Proofs3 Proc_Main Again_Main Evo_Proofs Evo_Proofs2 Live_Proofs3 Live_Proofs4.

Lemma candidates_number ps mx warm w l w' : candidates ps mx warm w = (Ok l, w') -> length l = match warm with [] => 50 | _ => length warm end.
Proof.
  unfold candidates. destruct warm as [|i warm]; [|intros E; injection E as <- <-; auto]. remember 50 as fifty. clear Heqfifty. revert w l w'.
  induction fifty as [|k IH]; intros w l w' E; cbn [random_individuals] in E; [injection E as <- <-; auto|]. unfold hbind in E.
  destruct (hgp (op_individual ps mx) w) as [[i|e] w1]; [|discriminate]. destruct (random_individuals ps mx k w1) as [[l'|e] w2] eqn:E2; [|discriminate]. injection E as <- <-. cbn. f_equal. eauto.
Qed.
Lemma candidates_no_results ps mx warm s x w : candidates ps mx warm (fresh_h s) = (x, w) -> Proc_Proofs3.dones w = [].
Proof. intros E. exact (proj2 (proj2 (Proc_Proofs3.frame_nil _ _ _ _ (Proc_Proofs3.f_candidates ps mx warm) E eq_refl eq_refl eq_refl))). Qed.

(** C172: random search.  There are at least as many results as rounds, or the search has
    reached max_evaluations, whatever happens after the rounds. *)
Lemma C172_random_main :
  forall call scores n log defaults ps max_length max_n warm_start s first_turns rounds rest x w p,
  0 < n -> answers call defaults -> nobody_killed (first_turns ++ concat rounds) -> Forall (late_round n) rounds ->
  match warm_start with [] => 50 | _ => length warm_start end <= length first_turns ->
  wf_heap (s_heap s) -> start_ok ps max_length s warm_start -> pset_rich ps -> allows_one max_length ->
  q_rs_phase call scores ps max_length max_n n log defaults warm_start (before_h s (first_turns ++ concat rounds ++ rest)) = (x, (w, p)) ->
  match max_n with
  | None => x = Err Diverges /\ length rounds <= length (arrivals (q_trace w))
  | Some m => (x = Ok tt /\ (m <= Z.of_nat (length (results (q_trace w))))%Z) \/
      (x = Err Diverges /\ length rounds <= length (arrivals (q_trace w)) /\ (Z.of_nat (length (results (q_trace w))) < m)%Z)
  end.
Proof.
  intros call scores n log d ps ml mn warm s init rounds rest x w p N A NK FR LI H1 H2 H3 H4 E.
  destruct (Proc_Proofs3.rs_top _ _ _ _ _ _ _ _ _ _ _ _ _ _ E) as (_ & _ & es & _ & _ & D).
  destruct (C148_keeps_running_main _ _ _ _ _ _ _ _ H1 H2 H3 H4 D) as (K1 & K2). destruct (C148_once_main _ _ _ _ _ _ _ _ H1 H2 D) as (_ & O & _).
  cbn [Proc_Proofs3.setq q_jobs q_out q_trace] in K1, K2, O.
  assert (L : x = Err Diverges -> length rounds <= length (arrivals (q_trace w))).
  { intros X. unfold q_rs_phase, pbind, before_h in E. unfold own in E. cbn [fst snd] in E. destruct (candidates ps ml warm (fresh_h s)) as [y w1] eqn:EC.
    pose proof (candidates_no_results _ _ _ _ _ _ EC) as ND. destruct y as [l|e].
    - pose proof (candidates_number _ _ _ _ _ _ EC) as NL.
      destruct (Live_Proofs3.rs_live call scores d n A N ps ml mn log l w1 (init ++ concat rounds ++ rest) x w p init rounds rest eq_refl NK) with (p0 := idle (J := individual * nat) (init ++ concat rounds ++ rest)) as [K|K]; auto; [congruence|].
      rewrite K1, NL in K. lia.
    - exfalso. injection E as Ee Ew Ep. subst. unfold idle in K1. cbn in K1. destruct warm; discriminate. }
  rewrite O in K2. destruct mn as [m|].
  - destruct K2 as [(-> & B & _)|(-> & B & _)]; auto.
  - destruct K2 as [-> _]. auto.
Qed.
(** C172: if all evaluations yield scores, so many rounds as max_evaluations are enough: the
    search comes to its end. *)
Lemma C172_random_ends_main :
  forall call scores n log defaults ps max_length m warm_start s first_turns rounds rest x w p,
  0 < n -> (forall k choice, exists v e, call 0 [k] defaults choice = Async_Model.Ret (Async_Model.VEval v e)) ->
  nobody_killed (first_turns ++ concat rounds) -> Forall (late_round n) rounds ->
  match warm_start with [] => 50 | _ => length warm_start end <= length first_turns -> (m <= Z.of_nat (length rounds))%Z ->
  wf_heap (s_heap s) -> start_ok ps max_length s warm_start -> pset_rich ps -> allows_one max_length ->
  q_rs_phase call scores ps max_length (Some m) n log defaults warm_start (before_h s (first_turns ++ concat rounds ++ rest)) = (x, (w, p)) ->
  x = Ok tt /\ ((0 <= m)%Z -> Z.of_nat (length (results (q_trace w))) = m).
Proof.
  intros call scores n log d ps ml m warm s init rounds rest x w p N A NK FR LI LM H1 H2 H3 H4 E.
  destruct (Proc_Proofs3.rs_top _ _ _ _ _ _ _ _ _ _ _ _ _ _ E) as (_ & LK & es & _ & _ & D).
  destruct (C148_keeps_running_main _ _ _ _ _ _ _ _ H1 H2 H3 H4 D) as (_ & K2). destruct (C148_once_main _ _ _ _ _ _ _ _ H1 H2 D) as (_ & O & _).
  cbn [Proc_Proofs3.setq q_jobs q_out q_trace] in K2, O. rewrite O in K2.
  assert (X : x = Ok tt).
  { assert (A' : answers call d) by (intros k c; left; auto).
    destruct (C172_random_main _ _ _ _ _ _ _ _ _ _ _ _ _ _ _ _ N A' NK FR LI H1 H2 H3 H4 E) as [[X _]|(_ & L & B)]; auto. exfalso.
    assert (R : length (results (q_trace w)) = length (arrivals (q_trace w))); [|lia].
    destruct LK as (ks & _ & F). assert (EV : Forall (fun y => snd y <> Raised) (arrivals (q_trace w))).
    { clear - F A. induction F as [|k [[i r] o] ks l (j & _ & _ & c & _ & LE) _ IH]; constructor; auto. cbn [snd] in *. destruct (A k c) as (v & e & EC). rewrite EC in LE. destruct LE as (f & -> & _). discriminate. }
    clear - EV. induction (q_trace w) as [|[i r|i r [|sc f]] t IH]; cbn in *; auto.
    - inversion EV; subst. cbn in *. congruence.
    - inversion EV; subst. f_equal. auto. }
  split; auto. destruct K2 as [(_ & _ & K)|(K & _)]; auto. congruence.
Qed.

(** C172: ASHA. *)
Lemma C172_asha_main :
  forall call scores n log defaults ps max_length eta first_rung max_rung max_full warm_start s first_turns rounds rest x w p,
  0 < n -> answers call defaults -> nobody_killed (first_turns ++ concat rounds) -> Forall (late_round n) rounds -> 8 <= length first_turns ->
  (forall k, scores k <> []) ->
  wf_heap (s_heap s) -> start_ok ps max_length s warm_start -> pset_rich ps -> allows_one max_length -> (Z.of_nat first_rung <= max_rung)%Z ->
  q_asha_phase call scores ps max_length eta first_rung max_rung max_full n log defaults warm_start (before_h s (first_turns ++ concat rounds ++ rest)) = (x, (w, p)) ->
  match max_full with
  | None => x = Err Diverges /\ length rounds <= length (arrivals (q_trace w))
  | Some m => (x = Ok tt /\ (m <= Z.of_nat (length (scored (Z.to_nat max_rung) (q_trace w))))%Z) \/
      (x = Err Diverges /\ length rounds <= length (arrivals (q_trace w)) /\ (Z.of_nat (length (scored (Z.to_nat max_rung) (q_trace w))) < m)%Z)
  end.
Proof.
  intros call scores n log d ps ml eta fr mr mf warm s init rounds rest x w p N A NK FR LI SC H1 H2 H3 H4 H5 E.
  destruct (Proc_Proofs3.asha_top _ _ _ _ _ _ _ _ _ _ _ _ _ _ _ _ _ E) as (_ & _ & es & C & _ & D).
  assert (HS : Forall has_score es). { eapply Forall_impl; [|exact C]. intros e. unfold scored_by, has_score. destruct (e_out e) as [|[|z sc] b]; auto. intros (k & Ek). apply (SC k). auto. }
  destruct (C149_keeps_running_main _ _ _ _ _ _ _ _ _ _ _ H1 H2 H3 H4 H5 HS D) as (K1 & K2). cbn [Proc_Proofs3.setq q_jobs q_trace] in K1, K2. cbv zeta in K2.
  assert (L : x = Err Diverges -> length rounds <= length (arrivals (q_trace w))).
  { intros X. unfold q_asha_phase in E. unfold pbind at 1, before_h in E. unfold own at 1 in E. cbn [fst snd] in E. destruct (candidates ps ml warm (fresh_h s)) as [y w1] eqn:EC.
    pose proof (candidates_no_results _ _ _ _ _ _ EC) as ND. destruct y as [l|e].
    - unfold pbind in E. unfold own, set_start in E. cbn [fst snd] in E.
      destruct (Live_Proofs3.asha_live call scores d n A N ps ml eta fr mr mf log (mkH (q_st w1) (q_jobs w1) l (q_rungs w1) (q_out w1) (q_trace w1))
        (init ++ concat rounds ++ rest) x w p init rounds rest eq_refl NK LI FR ND (idle (init ++ concat rounds ++ rest)) eq_refl E X) as [K|K]; auto.
      rewrite K1 in K. lia.
    - exfalso. injection E as Ee Ew Ep. subst. discriminate K1. }
  destruct mf as [m|].
  - destruct K2 as [(-> & B)|(-> & B & _)]; auto. right. split; auto. split; auto. lia.
  - destruct K2 as [(_ & [])|(-> & _)]. auto.
Qed.

(** C172: the evolutionary search, with any limit on the length of pipelines (from 1 on) and any number
    of scores.  A restart submits a whole population before it waits for the next result, which may take
    up the turns of a round for each member; so with restarts one result in every S pop_size rounds.  It
    can also end by the exceptions of C147, C160, for which see there. *)
Lemma C172_evolutionary_main :
  forall call scores n log defaults ps max_length max_retry pop_size max_n restart warm_start (s : setting) first_turns rounds rest x w p k,
  0 < n -> answers call defaults -> nobody_killed (first_turns ++ concat rounds) -> Forall (late_round n) rounds ->
  match warm_start with [] => 50 | _ => length warm_start end <= length first_turns ->
  pset_typed ps -> pset_rich ps -> match max_length with None => True | Some m => (1 <= m)%Z end -> 0 < max_retry -> (forall e, length (scores e) = k) ->
  wf_heap (s_heap s) -> start_ok ps max_length s warm_start -> (match max_n with Some m => (0 < m)%Z | None => True end) ->
  p_search call scores ps max_length max_retry pop_size max_n restart n log defaults warm_start (before_search s (first_turns ++ concat rounds ++ rest)) = (x, (w, p)) ->
  (x = Ok tt /\ match max_n with None => False | Some m => Z.of_nat (length (collections (v_trace w))) = m end) \/
  (x = Err ValueError /\ length (v_pop w) < 3) \/
  breakdown ps max_length k w x \/
  (x = Err Diverges /\ length rounds <= (if restart then S pop_size else 1) * length (collections (v_trace w)) /\
   match max_n with None => True | Some m => (Z.of_nat (length (collections (v_trace w))) < m)%Z end).
Proof.
  intros call scores n log d ps ml mr pz mn rst warm s init rounds rest x w p k N A NK FR LI H1 H2 H3 H4 H6 H7 H8 H9 E.
  destruct (Proc_Main.C160_breakdown_main _ _ _ _ _ _ _ _ _ _ _ _ _ _ _ _ _ _ H1 H2 H3 H4 H6 H7 H8 H9 E) as [X|[X|[X|X]]]; auto.
  { left. split; auto. subst x. destruct (Proc_Proofs2.search_top _ _ _ _ _ _ _ _ _ _ _ _ _ _ _ _ _ E) as (_ & _ & es & _ & _ & D).
    apply Live_Proofs4.search_end in D. destruct mn; auto. rewrite Again_Main.n_collections. exact D. }
  right. right. right. split; auto.
  assert (G : Forall (Evo_Proofs2.good_new (fine ps ml) s) warm).
  { eapply Forall_impl; [|exact H8]. simpl. intros j (L & ss & C & O & Wi). split; auto. exists ss. split; auto. split; auto using within_bounded. }
  assert (K : forall (s' : setting) start, wf_heap (s_heap s') -> Forall (Evo_Proofs2.good_new (fine ps ml) s') start -> start <> [] -> length start <= length init ->
    p_async_ea call scores ps ml mr pz mn rst n log d start (before_search s' (init ++ concat rounds ++ rest)) = (x, (w, p)) ->
    length rounds <= (if rst then S pz else 1) * length (collections (v_trace w)) /\ match mn with None => True | Some m => (Z.of_nat (length (collections (v_trace w))) < m)%Z end).
  { intros s' start W' G' NE' L' E'.
    destruct (Live_Proofs4.ea_quiet call scores d n A N ps ml mr pz k mn rst H1 H4 H3 H2 H6 _ start log s' (init ++ concat rounds ++ rest) x w p init rounds rest eq_refl W' G' NE' eq_refl NK L' FR (idle (init ++ concat rounds ++ rest)) eq_refl E' X) as [B1 B2].
    split; auto. destruct mn as [m|]; auto. apply Z.ltb_lt. exact B2. }
  unfold p_search in E. destruct warm as [|i l]; [|eapply K; eauto; discriminate].
  unfold pbind, own, before_search in E. cbn [fst snd] in E. remember 50 as fifty eqn:E50. destruct (individuals ps ml fifty (fresh_search s)) as [y w1] eqn:E1.
  destruct (Evo_Proofs2.individuals_inv _ ps ml mr rst H4 (fine ps ml) (fine_new ps ml) [] fifty (fresh_search s) w1 y (Evo_Proofs2.fresh_inv ps mr rst (fine ps ml) [] s H7) E1) as (I1 & W1 & U1 & X1 & Hy).
  destruct y as [l|ex]; [|exfalso; eapply no_new_error; eauto].
  destruct Hy as (L & ND & FA). assert (EW : w1 = fresh_search (mkSetting (v_st w1) (seen_before s))) by (rewrite W1 at 1; reflexivity). rewrite EW in E.
  eapply (K (mkSetting (v_st w1) (seen_before s)) l); auto.
  - exact (proj1 X1).
  - eapply Forall_impl; [|exact FA]. simpl. intros j Hj. apply Hj.
  - intros ->. rewrite E50 in L. discriminate.
  - rewrite L. auto.
Qed.
(** C172: so many rounds as max_n_evaluations are enough (with restarts: S pop_size times as many). *)
Lemma C172_evolutionary_ends_main :
  forall call scores n log defaults ps max_length max_retry pop_size m (restart : bool) warm_start (s : setting) first_turns rounds rest x w p k,
  0 < n -> answers call defaults -> nobody_killed (first_turns ++ concat rounds) -> Forall (late_round n) rounds ->
  match warm_start with [] => 50 | _ => length warm_start end <= length first_turns -> (0 < m)%Z -> (m * Z.of_nat (if restart then S pop_size else 1) <= Z.of_nat (length rounds))%Z ->
  pset_typed ps -> pset_rich ps -> match max_length with None => True | Some l => (1 <= l)%Z end -> 0 < max_retry -> (forall e, length (scores e) = k) ->
  wf_heap (s_heap s) -> start_ok ps max_length s warm_start ->
  p_search call scores ps max_length max_retry pop_size (Some m) restart n log defaults warm_start (before_search s (first_turns ++ concat rounds ++ rest)) = (x, (w, p)) ->
  (x = Ok tt /\ Z.of_nat (length (collections (v_trace w))) = m) \/ (x = Err ValueError /\ length (v_pop w) < 3) \/ breakdown ps max_length k w x.
Proof.
  intros call scores n log d ps ml mr pz m rst warm s init rounds rest x w p k N A NK FR LI MP LM H1 H2 H3 H4 H6 H7 H8 E.
  destruct (C172_evolutionary_main call scores n log d ps ml mr pz (Some m) rst warm s init rounds rest x w p k N A NK FR LI H1 H2 H3 H4 H6 H7 H8 MP E) as [X|[X|[X|(_ & L & B)]]]; auto. exfalso. destruct rst; nia.
Qed.
(** * Example: two workers; in every round one of them is slower *)
Definition ex_round : list Sys_Model.turn :=
  [Sys_Main.at_work []; Sys_Main.at_work [Sys_Main.get 2; Sys_Main.get 1; Sys_Main.exec 2]; Sys_Main.at_work [Sys_Main.flush 2; Sys_Main.exec 1]; Sys_Main.at_work [Sys_Main.flush 1]].
Definition ex_evaluation (fn : nat) (args : list nat) (kw : Async_Model.kwargs) (choice : nat) : Async_Model.outcome :=
  match args with
  | [k] => Async_Model.Ret (Async_Model.VEval k (if k =? 5 then Async_Model.MemErr else Async_Model.NoError))
  | _ => Async_Model.Exc 0
  end.
Notation ex_turns k := (repeat (Sys_Main.at_work []) 50 ++ concat (repeat ex_round k)).
Lemma ex_late : late_round 2 ex_round.
Proof.
  eexists _, _. split; [reflexivity|]. split; [|eexists [_; _], _; split; reflexivity].
  intros p [P1 P2]. exists 0. assert (p = 1 \/ p = 2) as [-> | ->] by lia; cbn [flat_map Sys_Model.t_acts Sys_Main.at_work app in_order].
  - eexists [_], _. split; [reflexivity|]. eexists [_; _], _. split; [reflexivity|]. eexists [], _. split; [reflexivity|exact Logic.I].
  - eexists [], _. split; [reflexivity|]. eexists [_], _. split; [reflexivity|]. eexists [], _. split; [reflexivity|exact Logic.I].
Qed.
Example C172_ex_main :
  answers ex_evaluation [] /\ (forall k, nobody_killed (ex_turns k)) /\ (forall k, Forall (late_round 2) (repeat ex_round k)) /\
  fst (q_rs_phase ex_evaluation Sys_Main.ex_scores ex_ps (Some 3%Z) (Some 4%Z) 2 true [] ex_start (before_h (ex_begin []) (ex_turns 4))) = Ok tt /\
  fst (q_rs_phase ex_evaluation Sys_Main.ex_scores ex_ps (Some 3%Z) (Some 9%Z) 2 true [] ex_start (before_h (ex_begin []) (ex_turns 1))) = Err Diverges /\
  fst (q_asha_phase ex_evaluation Sys_Main.ex_scores ex_ps (Some 3%Z) 2 0 1%Z (Some 1%Z) 2 true [] ex_start (before_h (ex_begin []) (ex_turns 9))) = Ok tt /\
  fst (p_search ex_evaluation Sys_Main.ex_scores ex_ps None 50 5 (Some 4%Z) false 2 true [] [] (before_search (first_fit (ex_begin [])) (ex_turns 4))) = Ok tt /\
  fst (p_search ex_evaluation Sys_Main.ex_scores ex_ps None 50 5 (Some 4%Z) true 2 true [] [] (before_search (first_fit (ex_begin (repeat 1 300))) (ex_turns 24))) = Ok tt.
Proof.
  split; [intros k c; left; eexists _, _; reflexivity|]. split.
  { intros k t p I. assert (H : forall t, In t (ex_turns k) -> Forall (fun a => match a with Async_Model.Crash _ => False | _ => True end) (Sys_Model.t_acts t)).
    { clear t I. intros t I. apply in_app_or in I as [I|I]; [apply repeat_spec in I; subst; constructor|]. apply in_concat in I as (r & R & I). apply repeat_spec in R. subst r.
      cbn [ex_round In] in I. destruct I as [<-|[<-|[<-|[<-|[]]]]]; cbn; repeat constructor. }
    specialize (H t I). rewrite Forall_forall in H. intros C. exact (H _ C). }
  split; [intros k; apply Forall_forall; intros r R; apply repeat_spec in R; subst; apply ex_late|].
  split; [vm_compute; reflexivity|]. repeat (split; [vm_compute; reflexivity|]). vm_compute. reflexivity.
Qed.

Lemma three {A B C} (y : A * (B * C)) : y = (fst y, (fst (snd y), snd (snd y))).
Proof. destruct y as [a [b c]]. reflexivity. Qed.
(** C172: that no worker is killed is needed: a killed worker is not replaced as long as the memory
    use of its process can still be read (it has not been waited for), and a search whose only worker
    was killed never gets a result. *)
Notation one_round := [Sys_Main.at_work []; Sys_Main.at_work [Sys_Main.get 1; Sys_Main.exec 1; Sys_Main.flush 1]].
Notation ex_killed := (q_rs_phase ex_evaluation Sys_Main.ex_scores ex_ps (Some 3%Z) None 1 true [] ex_start
  (before_h (ex_begin []) ((Sys_Main.at_work [Async_Model.Crash 1] :: repeat (Sys_Main.at_work []) 4) ++ concat [one_round]))).
Lemma C172_killed_refuted_main :
  ~ (forall call scores n log defaults ps max_length warm_start s first_turns rounds x w p,
     0 < n -> answers call defaults -> Forall (late_round n) rounds ->
     match warm_start with [] => 50 | _ => length warm_start end <= length first_turns ->
     wf_heap (s_heap s) -> start_ok ps max_length s warm_start -> pset_rich ps -> allows_one max_length ->
     q_rs_phase call scores ps max_length None n log defaults warm_start (before_h s (first_turns ++ concat rounds)) = (x, (w, p)) ->
     length rounds <= length (arrivals (q_trace w))).
Proof.
  intros H.
  assert (E : ex_killed = (fst ex_killed, (fst (snd ex_killed), snd (snd ex_killed)))) by (apply three).
  assert (Z : length (arrivals (q_trace (fst (snd ex_killed)))) = 0) by (vm_compute; reflexivity).
  apply H in E; [rewrite Z in E; cbn in E; lia|lia| | |cbn; lia|apply (ex_begin_wf ex_p1 _ eq_refl)|apply ex_start_ok; apply Z.le_refl|apply ex_rich|cbn; lia].
  - intros k c. left. eexists _, _. reflexivity.
  - constructor; [|constructor]. eexists _, _. split; [reflexivity|]. split; [|eexists [], _; split; reflexivity].
    intros p P. exists 0. assert (p = 1) as -> by lia. cbn [flat_map Sys_Model.t_acts Sys_Main.at_work app in_order].
    eexists [], _. split; [reflexivity|]. eexists [], _. split; [reflexivity|]. eexists [], _. split; [reflexivity|exact Logic.I].
Qed.
(** C172: with restarts the factor is needed: there is not one result in every round, since the
    submissions of the new population take up rounds (here three rounds and one result). *)
Notation ex_restarts := (p_search ex_evaluation Sys_Main.ex_scores ex_ps None 50 5 None true 1 true [] ex_start
  (before_search (first_fit (ex_begin (repeat 1 300))) (repeat (Sys_Main.at_work []) 5 ++ concat (repeat one_round 3) ++ []))).
Lemma one_late : late_round 1 one_round.
Proof.
  eexists _, _. split; [reflexivity|]. split; [|eexists [], _; split; reflexivity].
  intros p P. exists 0. assert (p = 1) as -> by lia. cbn [flat_map Sys_Model.t_acts Sys_Main.at_work app in_order].
  eexists [], _. split; [reflexivity|]. eexists [], _. split; [reflexivity|]. eexists [], _. split; [reflexivity|exact Logic.I].
Qed.
Lemma C172_restart_refuted_main :
  ~ (forall call scores n log defaults ps max_length max_retry pop_size warm_start (s : setting) first_turns rounds rest x w p k,
     0 < n -> answers call defaults -> nobody_killed (first_turns ++ concat rounds) -> Forall (late_round n) rounds ->
     match warm_start with [] => 50 | _ => length warm_start end <= length first_turns ->
     pset_typed ps -> pset_rich ps -> roomy ps max_length -> 0 < max_retry -> 2 <= k -> (forall e, length (scores e) = k) ->
     wf_heap (s_heap s) -> start_ok ps max_length s warm_start ->
     p_search call scores ps max_length max_retry pop_size None true n log defaults warm_start (before_search s (first_turns ++ concat rounds ++ rest)) = (x, (w, p)) ->
     x <> Err ValueError -> length rounds <= length (collections (v_trace w))).
Proof.
  intros H.
  assert (E : ex_restarts = (fst ex_restarts, (fst (snd ex_restarts), snd (snd ex_restarts)))) by (apply three).
  assert (Z : length (collections (v_trace (fst (snd ex_restarts)))) = 1) by (vm_compute; reflexivity).
  assert (X : fst ex_restarts = Err Diverges) by (vm_compute; reflexivity).
  eapply (H _ _ _ _ _ _ _ _ _ _ _ _ _ _ _ _ _ 2) in E; [rewrite Z, repeat_length in E; lia|lia| | | |cbn; lia|apply ex_typed|apply ex_rich|left; auto|lia|lia|intros e; reflexivity|apply (ex_begin_wf ex_p1 _ eq_refl)| |rewrite X; discriminate].
  - intros k c. left. eexists _, _. reflexivity.
  - assert (F : Forall (fun t => Forall (fun a => match a with Async_Model.Crash _ => False | _ => True end) (Sys_Model.t_acts t)) (repeat (Sys_Main.at_work []) 5 ++ concat (repeat one_round 3))) by (cbn; repeat constructor).
    intros t p I. rewrite Forall_forall in F. specialize (F t I). rewrite Forall_forall in F. intros C. exact (F _ C).
  - cbn. repeat constructor; apply one_late.
  - eapply start_none, (ex_start_ok 3); lia.
Qed.

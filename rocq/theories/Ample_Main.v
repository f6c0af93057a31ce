(** C175: a limit on memory use that is never exceeded changes nothing. *)
(*IMPORTS*)
Require Import ZArith QArith.
From Verif Require Import Base Num Gp_Model Gp_Spec Gp_Examples Lib_Spec Eval_Model Evo_Model Evo_Spec Evo_Main Rnd_Model Rnd_Spec End_Model Proc_Model Proc_Spec Limit_Model Live_Spec Ample_Spec.
From Verif Require Async_Model Sys_Model Sys_Main Live_Main.
Open Scope nat_scope.
Open Scope list_scope.
(*END*)
Require Import Lia.
From Verif Require Import Ample_Proofs.
From Verif Require Proc_Main.

Lemma three {A B C} (y : A * (B * C)) : y = (fst y, (fst (snd y), snd (snd y))).
Proof. destruct y as [a [b c]]. reflexivity. Qed.
(** Runs with equal results and states of the search, and pools that differ in the limit only. *)
Definition alike {A T J} (y y' : res A * (T * pool J)) : Prop :=
  fst y = fst y' /\ fst (snd y) = fst (snd y') /\ p_plan (snd (snd y)) = p_plan (snd (snd y')) /\ p_jobs (snd (snd y)) = p_jobs (snd (snd y')).
Lemma alike_refl {A T J} (y : res A * (T * pool J)) : alike y y.
Proof. repeat split. Qed.
Lemma alike_out {A T J} (y y' : res A * (T * pool J)) x w p : alike y y' -> y = (x, (w, p)) ->
  exists p', y' = (x, (w, p')) /\ p_plan p' = p_plan p /\ p_jobs p' = p_jobs p.
Proof. intros (A1 & A2 & A3 & A4) ->. cbn in *. exists (snd (snd y')). rewrite A1, A2. split; [apply three|auto]. Qed.
Lemma with_alike {T J A} call d n limit (dj : J) log (m : MP T J A) w p : answers call d -> 0 < n -> blind call d n limit m -> nobody_killed (p_plan p) -> within limit n (p_plan p) ->
  alike (with_limit call (Some limit) n log d m (w, p)) (with_evaluator call n log d m (w, p)).
Proof. intros N P B NK WI. rewrite (with_same call d n limit P dj log m w p B NK WI). repeat split. Qed.

Section Top.
Context (call : nat -> list nat -> Async_Model.kwargs -> nat -> Async_Model.outcome) (scores : nat -> list num) (d : Async_Model.kwargs) (n limit : nat) (log : bool).
Hypothesis ANS : answers call d.
Hypothesis POS : 0 < n.
Context (ps : pset) (ml : option Z).
Lemma ea_alike mr pz mn rst start (y : evo * pool individual) : nobody_killed (p_plan (snd y)) -> within limit n (p_plan (snd y)) ->
  alike (l_async_ea call scores (Some limit) ps ml mr pz mn rst n log d start y) (p_async_ea call scores ps ml mr pz mn rst n log d start y).
Proof.
  intros NK WI. unfold l_async_ea, p_async_ea. destruct (match mn with Some m => (m <=? 0)%Z | None => false end); [apply alike_refl|]. destruct y as [w p]. apply (with_alike call d n limit di); auto.
  apply blind_bind; [apply bl_begin; auto|]. intros _. apply bl_turns; auto.
Qed.
Lemma own_alike {A B T J} (m : T -> res A * T) (f g : A -> MP T J B) (y : T * pool J) : (forall a w, alike (f a (w, snd y)) (g a (w, snd y))) -> alike (pbind (own m) f y) (pbind (own m) g y).
Proof. intros H. unfold pbind, own. destruct (m (fst y)) as [[a|e] w]; [apply H|apply alike_refl]. Qed.
Lemma search_alike mr pz mn rst warm (y : evo * pool individual) : nobody_killed (p_plan (snd y)) -> within limit n (p_plan (snd y)) ->
  alike (l_search call scores (Some limit) ps ml mr pz mn rst n log d warm y) (p_search call scores ps ml mr pz mn rst n log d warm y).
Proof.
  intros NK WI. unfold l_search, p_search. destruct warm as [|i warm]; [|apply ea_alike; auto]. apply own_alike. intros l w. apply ea_alike; auto.
Qed.
Lemma rs_alike mn warm (y : hst * pool (individual * nat)) : nobody_killed (p_plan (snd y)) -> within limit n (p_plan (snd y)) ->
  alike (l_rs_phase call scores (Some limit) ps ml mn n log d warm y) (q_rs_phase call scores ps ml mn n log d warm y).
Proof.
  intros NK WI. unfold l_rs_phase, q_rs_phase. apply own_alike. intros l w. unfold l_random_search, q_random_search. cbn [snd]. apply (with_alike call d n limit (di, 0)); auto.
  apply blind_bind; [apply bq_each; auto|]. intros _. apply bq_rs; auto.
Qed.
Lemma asha_alike eta fr mx mf (y : hst * pool (individual * nat)) : nobody_killed (p_plan (snd y)) -> within limit n (p_plan (snd y)) ->
  alike (l_asha call scores (Some limit) ps ml eta fr mx mf n log d y) (q_asha call scores ps ml eta fr mx mf n log d y).
Proof.
  intros NK WI. unfold l_asha, q_asha. apply own_alike. intros l w. apply (with_alike call d n limit (di, 0)); auto.
  apply blind_bind; [apply bq_starts; auto|]. intros _. apply bq_asha; auto.
Qed.
Lemma phase_alike eta fr mx mf warm (y : hst * pool (individual * nat)) : nobody_killed (p_plan (snd y)) -> within limit n (p_plan (snd y)) ->
  alike (l_asha_phase call scores (Some limit) ps ml eta fr mx mf n log d warm y) (q_asha_phase call scores ps ml eta fr mx mf n log d warm y).
Proof. intros NK WI. unfold l_asha_phase, q_asha_phase. apply own_alike. intros l w. apply own_alike. intros u v. apply asha_alike; auto. Qed.
End Top.

(** C175: the searches. *)
Lemma C175_evolutionary_main :
  forall call scores limit n log defaults ps max_length max_retry pop_size max_n restart warm_start (s : setting) plan x w p,
  0 < n -> answers call defaults -> nobody_killed plan -> within limit n plan ->
  l_search call scores (Some limit) ps max_length max_retry pop_size max_n restart n log defaults warm_start (before_search s plan) = (x, (w, p)) ->
  exists p', p_search call scores ps max_length max_retry pop_size max_n restart n log defaults warm_start (before_search s plan) = (x, (w, p')) /\
             p_plan p' = p_plan p /\ p_jobs p' = p_jobs p.
Proof. intros. eapply alike_out; [|eassumption]. apply search_alike; auto. Qed.
(** C175: the searches. *)
Lemma C175_random_main :
  forall call scores limit n log defaults ps max_length max_n warm_start s plan x w p,
  0 < n -> answers call defaults -> nobody_killed plan -> within limit n plan ->
  l_rs_phase call scores (Some limit) ps max_length max_n n log defaults warm_start (before_h s plan) = (x, (w, p)) ->
  exists p', q_rs_phase call scores ps max_length max_n n log defaults warm_start (before_h s plan) = (x, (w, p')) /\
             p_plan p' = p_plan p /\ p_jobs p' = p_jobs p.
Proof. intros. eapply alike_out; [|eassumption]. apply rs_alike; auto. Qed.
(** C175: the searches. *)
Lemma C175_asha_main :
  forall call scores limit n log defaults ps max_length eta first_rung max_rung max_full warm_start s plan x w p,
  0 < n -> answers call defaults -> nobody_killed plan -> within limit n plan ->
  l_asha_phase call scores (Some limit) ps max_length eta first_rung max_rung max_full n log defaults warm_start (before_h s plan) = (x, (w, p)) ->
  exists p', q_asha_phase call scores ps max_length eta first_rung max_rung max_full n log defaults warm_start (before_h s plan) = (x, (w, p')) /\
             p_plan p' = p_plan p /\ p_jobs p' = p_jobs p.
Proof. intros. eapply alike_out; [|eassumption]. apply phase_alike; auto. Qed.
(** C175: fit: the same model or the same exception. *)
Lemma C175_fit_main :
  forall E (build : nat -> list (string * value) -> res E) fixed call scores limit n log defaults ps max_length warm_start (s : setting) plan,
  0 < n -> answers call defaults -> nobody_killed plan -> within limit n plan ->
  (forall max_n, fst (fit_random_l call scores (Some limit) build fixed ps max_length n log defaults max_n warm_start (before_h s plan)) =
                 fst (fit_random_p call scores build fixed ps max_length n log defaults max_n warm_start (before_h s plan))) /\
  (forall max_retry pop_size max_n restart,
     fst (fit_evo_l call scores (Some limit) build fixed ps max_length n log defaults max_retry pop_size max_n restart warm_start (before_search s plan)) =
     fst (fit_evo_p call scores build fixed ps max_length n log defaults max_retry pop_size max_n restart warm_start (before_search s plan))) /\
  (forall eta first_rung max_rung max_full,
     fst (fit_asha_l call scores (Some limit) build fixed ps max_length n log defaults eta first_rung max_rung max_full warm_start (before_h s plan)) =
     fst (fit_asha_p call scores build fixed ps max_length n log defaults eta first_rung max_rung max_full warm_start (before_h s plan))).
Proof.
  intros E build fixed call scores limit n log d ps ml warm s plan N A NK WI. split; [|split].
  - intros mn. unfold fit_random_l, fit_random_p. destruct (rs_alike call scores d n limit log A N ps ml mn warm (before_h s plan) NK WI) as (A1 & A2 & _).
    destruct (l_rs_phase _ _ _ _ _ _ _ _ _ _ _) as [x [w p]], (q_rs_phase _ _ _ _ _ _ _ _ _ _) as [x' [w' p']]. cbn [fst snd] in *. subst. destruct (search_over x'); auto. unfold own. cbn [fst snd].
    destruct (hgp _ w'). auto.
  - intros mr pz mn rst. unfold fit_evo_l, fit_evo_p. destruct (search_alike call scores d n limit log A N ps ml mr pz mn rst warm (before_search s plan) NK WI) as (A1 & A2 & _).
    destruct (l_search _ _ _ _ _ _ _ _ _ _ _ _ _ _) as [x [w p]], (p_search _ _ _ _ _ _ _ _ _ _ _ _ _) as [x' [w' p']]. cbn [fst snd] in *. subst. destruct (search_over x'); auto. unfold own. cbn [fst snd].
    destruct (gp _ w'). auto.
  - intros eta fr mx mf. unfold fit_asha_l, fit_asha_p.
    match goal with |- fst ?a = fst ?b => assert (K : alike a b); [|exact (proj1 K)] end. apply own_alike. intros l w. apply own_alike. intros u v.
    destruct (asha_alike call scores d n limit log A N ps ml eta fr mx mf (v, snd (before_h s plan)) NK WI) as (A1 & A2 & A3 & A4).
    destruct (l_asha _ _ _ _ _ _ _ _ _ _ _ _ _) as [x [w1 p1]], (q_asha _ _ _ _ _ _ _ _ _ _ _ _) as [x' [w' p']]. cbn [fst snd] in *. subst. destruct (asha_output x' (q_rungs w')); [|repeat split; auto].
    unfold own. cbn [fst snd]. destruct (hgp _ w'). repeat split; auto.
Qed.
(** C175: so a search with such a limit goes on (compare C167, C172). *)
Lemma C175_goes_on_main :
  forall call scores limit n log defaults ps max_length max_n warm_start s first_turns rounds rest x w p,
  0 < n -> answers call defaults -> nobody_killed (first_turns ++ concat rounds ++ rest) -> within limit n (first_turns ++ concat rounds ++ rest) ->
  Forall (late_round n) rounds -> match warm_start with [] => 50 | _ => length warm_start end <= length first_turns ->
  wf_heap (s_heap s) -> start_ok ps max_length s warm_start -> pset_rich ps -> allows_one max_length ->
  l_rs_phase call scores (Some limit) ps max_length max_n n log defaults warm_start (before_h s (first_turns ++ concat rounds ++ rest)) = (x, (w, p)) ->
  match max_n with
  | None => x = Err Diverges /\ length rounds <= length (arrivals (q_trace w))
  | Some m => (x = Ok tt /\ (m <= Z.of_nat (length (results (q_trace w))))%Z) \/
      (x = Err Diverges /\ length rounds <= length (arrivals (q_trace w)) /\ (Z.of_nat (length (results (q_trace w))) < m)%Z)
  end.
Proof.
  intros call scores limit n log d ps ml mn warm s init rounds rest x w p N A NK WI FR LI H1 H2 H3 H4 E.
  destruct (C175_random_main _ _ _ _ _ _ _ _ _ _ _ _ _ _ _ N A NK WI E) as (p' & E' & _).
  refine (Live_Main.C172_random_main _ _ _ _ _ _ _ _ _ _ _ _ _ _ _ _ N A _ FR LI H1 H2 H3 H4 E').
  intros t q I. apply NK. rewrite app_assoc. apply in_or_app. auto.
Qed.

(** * Example: 3 MB in use; limits of 3 and of 2 MB; four rounds *)
Notation ex_plan := (repeat (Sys_Main.at_work []) 50 ++ concat (repeat Live_Main.ex_round 4)).
Notation ex_run limit := (l_rs_phase Live_Main.ex_evaluation Sys_Main.ex_scores (Some limit) ex_ps (Some 3%Z) None 2 true [] ex_start (before_h (ex_begin []) ex_plan)).
Example C175_ex_main :
  answers Live_Main.ex_evaluation [] /\ nobody_killed ex_plan /\ within 3 2 ex_plan /\ ~ within 2 2 ex_plan /\
  length (arrivals (q_trace (fst (snd (ex_run 3))))) = 7 /\
  length (arrivals (q_trace (fst (snd (ex_run 2))))) = 4.
Proof.
  destruct Live_Main.C172_ex_main as (A & N & _). split; [exact A|]. split; [exact (N 4)|]. split; [unfold within; repeat constructor|].
  split. { intros H. inversion H as [|t l H1 H2]. vm_compute in H1. lia. }
  split; vm_compute; reflexivity.
Qed.

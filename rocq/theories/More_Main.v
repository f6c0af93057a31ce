(** C180: a search with a higher limit on the number of evaluations goes on from where the one
    with the lower limit ended. *)
(*IMPORTS*)
Require Import ZArith QArith.
From Verif Require Import Base Num Gp_Model Gp_Spec Gp_Examples Lib_Spec Eval_Model Evo_Model Evo_Spec Evo_Main Rnd_Model Rnd_Spec End_Model End_Spec Proc_Model Proc_Spec Limit_Model Limit_Spec Later_Spec.
From Verif Require Async_Model Sys_Model Sys_Main.
From Verif Require Import End_Main.
From Verif Require Limit_Main Live_Main.
Open Scope nat_scope.
Open Scope list_scope.
(*END*)
Require Import Lia.
From Verif Require Later_Proofs Later_Proofs2 Later_Main.
Import Later_Proofs Later_Proofs2.

(** C180: random search. *)
Lemma C180_random_main :
  forall call scores limit n log defaults ps max_length max_n max_n' warm_start s plan x w p x' w' p',
  no_lower max_n max_n' ->
  l_rs_phase call scores limit ps max_length max_n n log defaults warm_start (before_h s plan) = (x, (w, p)) ->
  l_rs_phase call scores limit ps max_length max_n' n log defaults warm_start (before_h s plan) = (x', (w', p')) ->
  (x = Ok tt /\ prefix (q_trace w) (q_trace w') /\ prefix (q_out w) (q_out w')) \/ (x' = x /\ w' = w).
Proof.
  intros call scores limit n log d ps ml mn mn' warm s plan x w p x' w' p' N E E'. unfold l_rs_phase, before_h, pbind in E, E'. unfold own in E, E'. cbn [fst snd] in E, E'.
  destruct (candidates ps ml warm (fresh_h s)) as [[l|e] w0]; [|right; split; congruence].
  unfold l_random_search, with_limit in E, E'. cbn [fst snd p_plan idle] in E, E'.
  set (s0 := Async_Model.step call (Async_Model.new_evaluator n limit log d) Async_Model.Enter) in *.
  assert (F : onward hext ended (q_submit_each call l ;;# q_rs_turns call scores ps ml mn (S (length plan))) (q_submit_each call l ;;# q_rs_turns call scores ps ml mn' (S (length plan)))).
  { apply onward_bind. intros _. apply rs_onward. exact N. }
  specialize (F (w0, mkPool s0 [] plan)).
  match type of E with (let (x, y') := ?z in _) = _ => destruct z as [x1 [w1 p1]] end.
  match type of E' with (let (x, y') := ?z in _) = _ => destruct z as [x2 [w2 p2]] end.
  cbn [fst snd] in *. injection E as <- <- _. injection E' as <- <- _. destruct F as [F|(-> & H1 & H2)]; [right; injection F as -> -> _|left]; auto.
Qed.
(** C180: ASHA (the limit is on the number of evaluations on the top rung). *)
Lemma C180_asha_main :
  forall call scores limit n log defaults ps max_length eta first_rung max_rung max_full max_full' warm_start s plan x w p x' w' p',
  no_lower max_full max_full' ->
  l_asha_phase call scores limit ps max_length eta first_rung max_rung max_full n log defaults warm_start (before_h s plan) = (x, (w, p)) ->
  l_asha_phase call scores limit ps max_length eta first_rung max_rung max_full' n log defaults warm_start (before_h s plan) = (x', (w', p')) ->
  (x = Ok tt /\ prefix (q_trace w) (q_trace w')) \/ (x' = x /\ w' = w).
Proof.
  intros call scores limit n log d ps ml eta fr mr mf mf' warm s plan x w p x' w' p' N E E'. unfold l_asha_phase, before_h, pbind in E, E'. unfold own in E, E'. cbn [fst snd] in E, E'.
  destruct (candidates ps ml warm (fresh_h s)) as [[l|e] w0]; [|right; split; congruence]. cbn [set_start] in E, E'.
  unfold l_asha, pbind, own in E, E'. cbn [fst snd set_rungs] in E, E'.
  unfold with_limit in E, E'. cbn [fst snd p_plan idle] in E, E'.
  match type of E with context [(?z, mkPool _ [] plan)] => set (w3 := z) in * end.
  set (s0 := Async_Model.step call (Async_Model.new_evaluator n limit log d) Async_Model.Enter) in *.
  assert (F : let run m := q_start_jobs call ps ml eta fr mr 8 ;;# q_asha_turns call scores ps ml eta fr mr m (S (length plan)) in
    run mf' (w3, mkPool s0 [] plan) = run mf (w3, mkPool s0 [] plan) \/
    (fst (run mf (w3, mkPool s0 [] plan)) = Ok tt /\ hext (fst (snd (run mf (w3, mkPool s0 [] plan)))) (fst (snd (run mf' (w3, mkPool s0 [] plan)))))).
  { cbv zeta. destruct (jobs_topped call ps ml eta fr mr 7 (w3, mkPool s0 [] plan) (nos_empty fr mr)) as [[e K]|K].
    - left. unfold pbind. destruct (q_start_jobs call ps ml eta fr mr 8 (w3, mkPool s0 [] plan)) as [z y1]. cbn [fst] in K. rewrite K. reflexivity.
    - apply (onward_a_bind mr); [apply no_start_jobs|intros _; apply asha_onward; exact N|exact K]. }
  cbv zeta in F. unfold pbind in F.
  match type of E with (let (x, y') := ?z in _) = _ => destruct z as [x1 [w1 p1]] end.
  match type of E' with (let (x, y') := ?z in _) = _ => destruct z as [x2 [w2 p2]] end.
  cbn [fst snd] in *. injection E as <- <- _. injection E' as <- <- _. destruct F as [F|(-> & H1 & H2)]; [right; injection F as -> -> _|left]; auto.
Qed.
(** C180: the evolutionary search (a limit that is not positive is refused). *)
Lemma C180_evolutionary_main :
  forall call scores limit n log defaults ps max_length max_retry pop_size max_n max_n' restart warm_start (s : setting) plan x w p x' w' p',
  no_lower max_n max_n' -> (match max_n with Some m => (0 < m)%Z | None => True end) ->
  l_search call scores limit ps max_length max_retry pop_size max_n restart n log defaults warm_start (before_search s plan) = (x, (w, p)) ->
  l_search call scores limit ps max_length max_retry pop_size max_n' restart n log defaults warm_start (before_search s plan) = (x', (w', p')) ->
  (x = Ok tt /\ prefix (v_trace w) (v_trace w')) \/ (x' = x /\ w' = w).
Proof.
  intros call scores limit n log d ps ml mr pz mn mn' rst warm s plan x w p x' w' p' N PN.
  assert (R : match mn with Some m => (m <=? 0)%Z | None => false end = false). { destruct mn; auto. apply Z.leb_gt. exact PN. }
  assert (R' : match mn' with Some m => (m <=? 0)%Z | None => false end = false). { destruct mn'; auto. apply Z.leb_gt. destruct mn; cbn in N; [lia|contradiction]. }
  assert (K : forall l w0 x w p x' w' p', l_async_ea call scores limit ps ml mr pz mn rst n log d l (w0, idle plan) = (x, (w, p)) ->
    l_async_ea call scores limit ps ml mr pz mn' rst n log d l (w0, idle plan) = (x', (w', p')) ->
    (x = Ok tt /\ prefix (v_trace w) (v_trace w')) \/ (x' = x /\ w' = w)).
  { clear x w p x' w' p'. intros l w0 x w p x' w' p' E E'. unfold l_async_ea in E, E'. rewrite R in E. rewrite R' in E'.
    unfold with_limit in E, E'. cbn [fst snd p_plan idle] in E, E'.
    set (s0 := Async_Model.step call (Async_Model.new_evaluator n limit log d) Async_Model.Enter) in *.
    assert (F : onward vext ended (p_begin call l ;;# p_turns call scores ps ml mr pz mn rst (S (length plan)) 0) (p_begin call l ;;# p_turns call scores ps ml mr pz mn' rst (S (length plan)) 0)).
    { apply onward_bind. intros _. apply turns_onward. exact N. }
    specialize (F (w0, mkPool s0 [] plan)).
    match type of E with (let (x, y') := ?z in _) = _ => destruct z as [x1 [w1 p1]] end.
    match type of E' with (let (x, y') := ?z in _) = _ => destruct z as [x2 [w2 p2]] end.
    cbn [fst snd] in *. injection E as <- <- _. injection E' as <- <- _. destruct F as [F|(-> & H1)]; [right; injection F as -> -> _|left]; auto. }
  unfold l_search, before_search. destruct warm as [|i warm]; [|apply K].
  unfold pbind, own. cbn [fst snd]. destruct (individuals ps ml 50 (fresh_search s)) as [[l|e] w0]; [apply K|]. intros E E'. right. split; congruence.
Qed.
(** C180: with random search and a higher limit the model is not worse. *)
Lemma C180_fit_main :
  forall E (build : nat -> list (string * value) -> res E) fixed call scores limit n log defaults ps max_length max_n max_n' warm_start s plan steps w p steps' w' p',
  no_lower max_n max_n' ->
  wf_heap (s_heap s) -> start_ok ps max_length s warm_start -> NoDup (map i_id warm_start) -> clear_names ps ->
  (forall k, Forall (fun x => x <> NaN) (scores k)) ->
  fit_random_l call scores limit build fixed ps max_length n log defaults max_n warm_start (before_h s plan) = (Ok steps, (w, p)) ->
  fit_random_l call scores limit build fixed ps max_length n log defaults max_n' warm_start (before_h s plan) = (Ok steps', (w', p')) ->
  exists m ss m' ss',
    In m (results (q_trace w)) /\ is_pipeline (h_objects w) (m_ind m) ss /\ made_from build fixed ss steps /\
    In m' (results (q_trace w')) /\ is_pipeline (h_objects w') (m_ind m') ss' /\ made_from build fixed ss' steps' /\
    ~ lex_lt (m_fit m') (m_fit m).
Proof.
  intros E build fixed call scores limit n log d ps ml mn mn' warm s plan steps w p steps' w' p' N H1 H2 H3 H4 H5 E1 E2.
  destruct (Limit_Main.C166_random_main _ _ _ _ _ _ _ _ _ _ _ _ _ _ _ _ _ _ H1 H2 H3 H4 H5 E1) as (_ & m & ss & A1 & _ & A2 & _ & _ & A3).
  destruct (Limit_Main.C166_random_main _ _ _ _ _ _ _ _ _ _ _ _ _ _ _ _ _ _ H1 H2 H3 H4 H5 E2) as (_ & m' & ss' & B1 & B0 & B2 & _ & _ & B3).
  destruct (Limit_Main.fit_random_top _ _ _ _ _ _ _ _ _ _ _ _ _ _ _ _ _ _ E1) as (x1 & p1 & F1 & _). destruct (Limit_Main.fit_random_top _ _ _ _ _ _ _ _ _ _ _ _ _ _ _ _ _ _ E2) as (x2 & p2 & F2 & _).
  assert (IN : incl (results (q_trace w)) (results (q_trace w'))).
  { destruct (C180_random_main _ _ _ _ _ _ _ _ _ _ _ _ _ _ _ _ _ _ _ N F1 F2) as [(_ & P & _)|[_ ->]]; [apply Later_Main.results_prefix; exact P|apply incl_refl]. }
  exists m, ss, m', ss'. repeat (split; [assumption|]). apply B0. apply IN. exact A1.
Qed.

(** * Examples: two workers *)
Definition ex_plan (k : nat) : list Sys_Model.turn := repeat (Limit_Main.modest []) k ++ repeat (Limit_Main.modest [Sys_Main.get 1; Sys_Main.get 2; Sys_Main.exec 2; Sys_Main.exec 1; Sys_Main.flush 2; Sys_Main.flush 1]) 9.
Notation ids_q t := (map (fun x => i_id (fst (fst x))) (arrivals (q_trace (fst (snd t))))).
Notation ids_v t := (map (fun x => i_id (fst x)) (collections (v_trace (fst (snd t))))).
Notation ex_rs mn := (l_rs_phase Limit_Main.fine_call Sys_Main.ex_scores (Some 100) ex_ps (Some 3%Z) mn 2 true [] ex_start (before_h (ex_begin []) (ex_plan 5))).
Notation ex_asha mf := (l_asha_phase Limit_Main.fine_call Sys_Main.ex_scores (Some 100) ex_ps (Some 3%Z) 3 0 0%Z mf 2 true [] ex_start (before_h (ex_begin []) (ex_plan 8))).
Notation ex_evo mn := (l_search Limit_Main.fine_call Sys_Main.ex_scores (Some 100) ex_ps None 50 5 mn false 2 true [] [] (before_search (first_fit (ex_begin [])) (ex_plan 50))).
Notation ex_fit mn := (fit_random_l Limit_Main.fine_call Sys_Main.ex_scores (Some 100) ex_class [("imp"%string, 9)] ex_ps (Some 3%Z) 2 true [] mn ex_start (before_h (ex_begin []) (ex_plan 5))).
Example C180_ex_main :
  no_lower (Some 2%Z) (Some 4%Z) /\ no_lower (Some 2%Z) None /\
  fst (ex_rs (Some 2%Z)) = Ok tt /\ ids_q (ex_rs (Some 2%Z)) = [1; 0] /\ ids_q (ex_rs (Some 4%Z)) = [1; 0; 3; 2] /\
  fst (ex_asha (Some 2%Z)) = Ok tt /\ ids_q (ex_asha (Some 2%Z)) = [3; 4] /\ ids_q (ex_asha (Some 4%Z)) = [3; 4; 1; 2] /\
  fst (ex_evo (Some 2%Z)) = Ok tt /\ ids_v (ex_evo (Some 2%Z)) = [6; 5] /\ ids_v (ex_evo None) = [6; 5; 8; 7; 10; 9; 12; 11; 14] /\
  (* the limit was not reached: the same with any higher one *)
  fst (ex_evo (Some 12%Z)) = Err Diverges /\ ids_v (ex_evo (Some 12%Z)) = [6; 5; 8; 7; 10; 9; 12; 11; 14].
Proof. split; [cbn; lia|]. repeat (split; [first [exact Logic.I|vm_compute; reflexivity]|]). vm_compute. reflexivity. Qed.
Example C180_fit_ex_main :
  wf_heap (s_heap (ex_begin [])) /\ start_ok ex_ps (Some 3%Z) (ex_begin []) ex_start /\ NoDup (map i_id ex_start) /\ clear_names ex_ps /\
  (forall k, Forall (fun x => x <> NaN) (Sys_Main.ex_scores k)) /\
  fst (ex_fit (Some 1%Z)) = Ok [("imp", 9); ("2", 3); ("1", 2); ("0", 0)]%string /\ fst (ex_fit (Some 4%Z)) = Ok [("imp", 9); ("0", 0)]%string.
Proof.
  split; [apply (ex_begin_wf ex_p1 _ eq_refl)|]. split; [apply ex_start_ok; apply Z.le_refl|]. split; [vm_compute; repeat constructor; simpl; intuition discriminate|].
  split; [apply ex_clear|]. split; [intros k; repeat constructor; discriminate|]. split; vm_compute; reflexivity.
Qed.

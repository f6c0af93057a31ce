(** C178: a search that is stopped has done what it would have done with more time.  C179:
    more time does not give a worse model (random search; false for the others). *)
(*IMPORTS*)
Require Import ZArith QArith.
From Verif Require Import Base Num Gp_Model Gp_Spec Gp_Examples Lib_Spec Eval_Model Evo_Model Evo_Spec Evo_Main Rnd_Model Rnd_Spec End_Model End_Spec Proc_Model Proc_Spec Limit_Model Limit_Spec Later_Spec.
From Verif Require Async_Model Sys_Model Sys_Main.
From Verif Require Import End_Main.
From Verif Require Limit_Main Live_Main.
Open Scope nat_scope.
Open Scope list_scope.
(*END*)
Require Import Lia.
From Verif Require Later_Proofs.
Import Later_Proofs.

(** C178: random search: stopped when [plan] was over, or as it ends with [later] too. *)
Lemma C178_random_main :
  forall call scores limit n log defaults ps max_length max_n warm_start s plan later x w p x' w' p',
  l_rs_phase call scores limit ps max_length max_n n log defaults warm_start (before_h s plan) = (x, (w, p)) ->
  l_rs_phase call scores limit ps max_length max_n n log defaults warm_start (before_h s (plan ++ later)) = (x', (w', p')) ->
  (x = Err Diverges /\ prefix (q_trace w) (q_trace w') /\ prefix (q_out w) (q_out w')) \/ (x' = x /\ w' = w).
Proof.
  intros call scores limit n log d ps ml mn warm s plan later x w p x' w' p' E E'. unfold l_rs_phase, before_h, pbind in E, E'. unfold own in E, E'. cbn [fst snd] in E, E'.
  destruct (candidates ps ml warm (fresh_h s)) as [[l|e] w0]; [|right; split; congruence].
  unfold l_random_search, with_limit in E, E'. cbn [fst snd p_plan idle] in E, E'.
  set (s0 := Async_Model.step call (Async_Model.new_evaluator n limit log d) Async_Model.Enter) in *.
  assert (F : fuelled later hext (S (length plan)) (S (length (plan ++ later)))
    (q_submit_each call l ;;# q_rs_turns call scores ps ml mn (S (length plan))) (q_submit_each call l ;;# q_rs_turns call scores ps ml mn (S (length (plan ++ later))))).
  { apply (fuelled_bind later hext hext_trans 0 (S (length plan)) (S (length (plan ++ later)))); [apply hs_submit_each|intros _; apply rs_fuelled|intros _; apply (grows_rs call later)]. }
  specialize (F w0 (mkPool s0 [] plan) (mkPool s0 [] (plan ++ later)) (or_introl eq_refl) (le_n _) (le_n _)).
  destruct ((q_submit_each call l ;;# q_rs_turns call scores ps ml mn (S (length plan))) (w0, mkPool s0 [] plan)) as [x1 [w1 p1]].
  destruct ((q_submit_each call l ;;# q_rs_turns call scores ps ml mn (S (length (plan ++ later)))) (w0, mkPool s0 [] (plan ++ later))) as [x2 [w2 p2]].
  cbn [fst snd] in *. injection E as <- <- _. injection E' as <- <- _. destruct F as [[-> ->]|(-> & H1 & H2)]; [right|left]; auto.
Qed.
(** C178: ASHA. *)
Lemma C178_asha_main :
  forall call scores limit n log defaults ps max_length eta first_rung max_rung max_full warm_start s plan later x w p x' w' p',
  l_asha_phase call scores limit ps max_length eta first_rung max_rung max_full n log defaults warm_start (before_h s plan) = (x, (w, p)) ->
  l_asha_phase call scores limit ps max_length eta first_rung max_rung max_full n log defaults warm_start (before_h s (plan ++ later)) = (x', (w', p')) ->
  (x = Err Diverges /\ prefix (q_trace w) (q_trace w')) \/ (x' = x /\ w' = w).
Proof.
  intros call scores limit n log d ps ml eta fr mr mf warm s plan later x w p x' w' p' E E'. unfold l_asha_phase, before_h, pbind in E, E'. unfold own in E, E'. cbn [fst snd] in E, E'.
  destruct (candidates ps ml warm (fresh_h s)) as [[l|e] w0]; [|right; split; congruence]. cbn [set_start] in E, E'.
  unfold l_asha, pbind, own in E, E'. cbn [fst snd set_rungs] in E, E'.
  unfold with_limit in E, E'. cbn [fst snd p_plan idle] in E, E'.
  match type of E with context [(?z, mkPool _ [] plan)] => set (w3 := z) in * end.
  set (s0 := Async_Model.step call (Async_Model.new_evaluator n limit log d) Async_Model.Enter) in *.
  assert (F : fuelled later hext (S (length plan)) (S (length (plan ++ later)))
    (q_start_jobs call ps ml eta fr mr 8 ;;# q_asha_turns call scores ps ml eta fr mr mf (S (length plan))) (q_start_jobs call ps ml eta fr mr 8 ;;# q_asha_turns call scores ps ml eta fr mr mf (S (length (plan ++ later))))).
  { apply (fuelled_bind later hext hext_trans 0 (S (length plan)) (S (length (plan ++ later)))); [apply hs_start_jobs|intros _; apply asha_fuelled|intros _; apply (grows_asha call later)]. }
  specialize (F w3 (mkPool s0 [] plan) (mkPool s0 [] (plan ++ later)) (or_introl eq_refl) (le_n _) (le_n _)). unfold pbind in F.
  match type of E with (let (x, y') := ?z in _) = _ => destruct z as [x1 [w1 p1]] end.
  match type of E' with (let (x, y') := ?z in _) = _ => destruct z as [x2 [w2 p2]] end.
  cbn [fst snd] in *. injection E as <- <- _. injection E' as <- <- _. destruct F as [[-> ->]|(-> & H1 & H2)]; [right|left]; auto.
Qed.
(** C178: the evolutionary search. *)
Lemma C178_evolutionary_main :
  forall call scores limit n log defaults ps max_length max_retry pop_size max_n restart warm_start (s : setting) plan later x w p x' w' p',
  l_search call scores limit ps max_length max_retry pop_size max_n restart n log defaults warm_start (before_search s plan) = (x, (w, p)) ->
  l_search call scores limit ps max_length max_retry pop_size max_n restart n log defaults warm_start (before_search s (plan ++ later)) = (x', (w', p')) ->
  (x = Err Diverges /\ prefix (v_trace w) (v_trace w')) \/ (x' = x /\ w' = w).
Proof.
  intros call scores limit n log d ps ml mr pz mn rst warm s plan later.
  assert (K : forall l w0 x w p x' w' p', l_async_ea call scores limit ps ml mr pz mn rst n log d l (w0, idle plan) = (x, (w, p)) ->
    l_async_ea call scores limit ps ml mr pz mn rst n log d l (w0, idle (plan ++ later)) = (x', (w', p')) ->
    (x = Err Diverges /\ prefix (v_trace w) (v_trace w')) \/ (x' = x /\ w' = w)).
  { intros l w0 x w p x' w' p' E E'. unfold l_async_ea in E, E'. destruct (match mn with Some m => (m <=? 0)%Z | None => false end); [right; split; congruence|].
    unfold with_limit in E, E'. cbn [fst snd p_plan idle] in E, E'.
    set (s0 := Async_Model.step call (Async_Model.new_evaluator n limit log d) Async_Model.Enter) in *.
    assert (F : fuelled later vext (S (length plan)) (S (length (plan ++ later)))
      (p_begin call l ;;# p_turns call scores ps ml mr pz mn rst (S (length plan)) 0) (p_begin call l ;;# p_turns call scores ps ml mr pz mn rst (S (length (plan ++ later))) 0)).
    { apply (fuelled_bind later vext vext_trans 0 (S (length plan)) (S (length (plan ++ later)))); [apply vs_begin|intros _; apply turns_fuelled|intros _; apply (grows_turns call later)]. }
    specialize (F w0 (mkPool s0 [] plan) (mkPool s0 [] (plan ++ later)) (or_introl eq_refl) (le_n _) (le_n _)).
    match type of E with (let (x, y') := ?z in _) = _ => destruct z as [x1 [w1 p1]] end.
    match type of E' with (let (x, y') := ?z in _) = _ => destruct z as [x2 [w2 p2]] end.
    cbn [fst snd] in *. injection E as <- <- _. injection E' as <- <- _. destruct F as [[-> ->]|(-> & H1)]; [right|left]; auto. }
  intros x w p x' w' p'. unfold l_search, before_search. destruct warm as [|i warm]; [|apply K].
  unfold pbind, own. cbn [fst snd]. destruct (individuals ps ml 50 (fresh_search s)) as [[l|e] w0]; [apply K|]. intros E E'. right. split; congruence.
Qed.

Lemma results_app t1 t2 : results (t1 ++ t2) = results t1 ++ results t2.
Proof.
  induction t1 as [|a t1 IH]; auto. cbn [app]. destruct a as [i r|i r [|sc b]]; cbn [results]; rewrite ?IH; auto.
Qed.
Lemma results_prefix (t t' : list hitem) : prefix t t' -> incl (results t) (results t').
Proof. intros [u ->] m Hm. rewrite results_app. apply in_or_app. auto. Qed.
(** C179: more time for random search does not give a worse model.  Missing: the other two
    searches, for which this is false. *)
Lemma C179_random_partial_main :
  forall E (build : nat -> list (string * value) -> res E) fixed call scores limit n log defaults ps max_length max_n warm_start s plan later steps w p steps' w' p',
  wf_heap (s_heap s) -> start_ok ps max_length s warm_start -> NoDup (map i_id warm_start) -> clear_names ps ->
  (forall k, Forall (fun x => x <> NaN) (scores k)) ->
  fit_random_l call scores limit build fixed ps max_length n log defaults max_n warm_start (before_h s plan) = (Ok steps, (w, p)) ->
  fit_random_l call scores limit build fixed ps max_length n log defaults max_n warm_start (before_h s (plan ++ later)) = (Ok steps', (w', p')) ->
  exists m ss m' ss',
    In m (results (q_trace w)) /\ is_pipeline (h_objects w) (m_ind m) ss /\ made_from build fixed ss steps /\
    In m' (results (q_trace w')) /\ is_pipeline (h_objects w') (m_ind m') ss' /\ made_from build fixed ss' steps' /\
    ~ lex_lt (m_fit m') (m_fit m).
Proof.
  intros E build fixed call scores limit n log d ps ml mn warm s plan later steps w p steps' w' p' H1 H2 H3 H4 H5 E1 E2.
  destruct (Limit_Main.C166_random_main _ _ _ _ _ _ _ _ _ _ _ _ _ _ _ _ _ _ H1 H2 H3 H4 H5 E1) as (_ & m & ss & A1 & _ & A2 & _ & _ & A3).
  destruct (Limit_Main.C166_random_main _ _ _ _ _ _ _ _ _ _ _ _ _ _ _ _ _ _ H1 H2 H3 H4 H5 E2) as (_ & m' & ss' & B1 & B0 & B2 & _ & _ & B3).
  destruct (Limit_Main.fit_random_top _ _ _ _ _ _ _ _ _ _ _ _ _ _ _ _ _ _ E1) as (x1 & p1 & F1 & _). destruct (Limit_Main.fit_random_top _ _ _ _ _ _ _ _ _ _ _ _ _ _ _ _ _ _ E2) as (x2 & p2 & F2 & _).
  assert (IN : incl (results (q_trace w)) (results (q_trace w'))).
  { destruct (C178_random_main _ _ _ _ _ _ _ _ _ _ _ _ _ _ _ _ _ _ _ F1 F2) as [(_ & P & _)|[_ ->]]; [apply results_prefix; exact P|apply incl_refl]. }
  exists m, ss, m', ss'. repeat (split; [assumption|]). apply B0. apply IN. exact A1.
Qed.
(** C179: and where fit returned a model, it returns one with more time: unless the memory
    use of the processes cannot be read any more. *)
Lemma C179_random_still_main :
  forall E (build : nat -> list (string * value) -> res E) fixed call scores limit n log defaults ps max_length max_n warm_start s plan later steps w p x' w' p',
  wf_heap (s_heap s) -> start_ok ps max_length s warm_start -> pset_rich ps -> allows_one max_length ->
  (forall c kwargs, exists e, build c kwargs = Ok e) ->
  fit_random_l call scores limit build fixed ps max_length n log defaults max_n warm_start (before_h s plan) = (Ok steps, (w, p)) ->
  fit_random_l call scores limit build fixed ps max_length n log defaults max_n warm_start (before_h s (plan ++ later)) = (x', (w', p')) ->
  (exists steps', x' = Ok steps') \/ (x' = Err ValueError /\ unreadable n (plan ++ later)).
Proof.
  intros E build fixed call scores limit n log d ps ml mn warm s plan later steps w p x' w' p' H1 H2 H3 H4 H5 E1 E2.
  destruct (Limit_Main.C166_random_always_main _ _ _ _ _ _ _ _ _ _ _ _ _ _ _ _ _ _ H1 H2 H3 H4 H5 E1) as [(_ & K)|[(K & _)|(K & _)]]; try discriminate.
  destruct (Limit_Main.C166_random_always_main _ _ _ _ _ _ _ _ _ _ _ _ _ _ _ _ _ _ H1 H2 H3 H4 H5 E2) as [(R & _)|[(_ & R)|R]]; auto.
  destruct (Limit_Main.fit_random_top _ _ _ _ _ _ _ _ _ _ _ _ _ _ _ _ _ _ E1) as (x1 & p1 & F1 & _). destruct (Limit_Main.fit_random_top _ _ _ _ _ _ _ _ _ _ _ _ _ _ _ _ _ _ E2) as (x2 & p2 & F2 & _).
  assert (IN : incl (results (q_trace w)) (results (q_trace w'))).
  { destruct (C178_random_main _ _ _ _ _ _ _ _ _ _ _ _ _ _ _ _ _ _ _ F1 F2) as [(_ & P & _)|[_ ->]]; [apply results_prefix; exact P|apply incl_refl]. }
  rewrite R in IN. destruct K. destruct (results (q_trace w)) as [|m l]; auto. destruct (IN m (or_introl eq_refl)).
Qed.

(** * Examples: two workers, a limit of 100 *)
Definition ex_hard : Sys_Model.turn := Limit_Main.modest [Sys_Main.get 1; Sys_Main.get 2; Sys_Main.exec 2; Sys_Main.exec 1; Sys_Main.flush 2; Sys_Main.flush 1].
Definition ex_short (k : nat) : list Sys_Model.turn := repeat (Limit_Main.modest []) k ++ repeat ex_hard 2.
Definition ex_more : list Sys_Model.turn := repeat ex_hard 5.
Notation ids_q t := (map (fun x => i_id (fst (fst x))) (arrivals (q_trace (fst (snd t))))).
Notation ids_v t := (map (fun x => i_id (fst x)) (collections (v_trace (fst (snd t))))).
Notation ex_rs mn plan := (l_rs_phase Limit_Main.fine_call Sys_Main.ex_scores (Some 100) ex_ps (Some 3%Z) mn 2 true [] ex_start (before_h (ex_begin []) plan)).
Notation ex_asha plan := (l_asha_phase Limit_Main.fine_call Sys_Main.ex_scores (Some 100) ex_ps (Some 3%Z) 3 0 2%Z (Some 1%Z) 2 true [] ex_start (before_h (ex_begin []) plan)).
Notation ex_evo plan := (l_search Limit_Main.fine_call Sys_Main.ex_scores (Some 100) ex_ps None 50 5 None false 2 true [] [] (before_search (first_fit (ex_begin [])) plan)).
Notation ex_fit plan := (fit_random_l Limit_Main.fine_call Sys_Main.ex_scores (Some 100) ex_class [("imp"%string, 9)] ex_ps (Some 3%Z) 2 true [] None ex_start (before_h (ex_begin []) plan)).
Example C178_ex_main :
  fst (ex_rs None (ex_short 5)) = Err Diverges /\ ids_q (ex_rs None (ex_short 5)) = [1] /\ ids_q (ex_rs None (ex_short 5 ++ ex_more)) = [1; 0; 3; 2] /\
  (* an end is the same end *)
  fst (ex_rs (Some 1%Z) (ex_short 5)) = Ok tt /\ ids_q (ex_rs (Some 1%Z) (ex_short 5)) = [1] /\ ids_q (ex_rs (Some 1%Z) (ex_short 5 ++ ex_more)) = [1] /\
  ids_q (ex_asha (ex_short 8)) = [3] /\ ids_q (ex_asha (ex_short 8 ++ ex_more)) = [3; 4; 1; 2] /\
  ids_v (ex_evo (ex_short 50)) = [6; 5] /\ ids_v (ex_evo (ex_short 50 ++ ex_more)) = [6; 5; 8; 7; 10; 9; 12].
Proof. repeat split; vm_compute; reflexivity. Qed.
Example C179_ex_main :
  wf_heap (s_heap (ex_begin [])) /\ start_ok ex_ps (Some 3%Z) (ex_begin []) ex_start /\ NoDup (map i_id ex_start) /\ clear_names ex_ps /\ pset_rich ex_ps /\ allows_one (Some 3%Z) /\
  (forall k, Forall (fun x => x <> NaN) (Sys_Main.ex_scores k)) /\ (forall c kwargs, exists e, ex_class c kwargs = Ok e) /\
  fst (ex_fit (ex_short 5)) = Ok [("imp", 9); ("2", 3); ("1", 2); ("0", 0)]%string /\
  fst (ex_fit (ex_short 5 ++ ex_more)) = Ok [("imp", 9); ("0", 0)]%string.
Proof.
  split; [apply (ex_begin_wf ex_p1 _ eq_refl)|]. split; [apply ex_start_ok; apply Z.le_refl|]. split; [vm_compute; repeat constructor; simpl; intuition discriminate|].
  split; [apply ex_clear|]. split; [apply ex_rich|]. split; [cbn; lia|]. split; [intros k; repeat constructor; discriminate|]. split; [intros c kw; eexists; reflexivity|].
  split; vm_compute; reflexivity.
Qed.

(** C179: with ASHA more time can give a worse model: one with a worse score in each of its
    evaluations.  (A pipeline is promoted, and while it waits for its evaluation on the next
    rung a better one is found; when it was evaluated there, it is the only one on the
    highest rung reached.) *)
Definition ex_rise (k : nat) : list num := [Fin (nth k [0; 1; 2; 5; 0; 0; 0; 0; 0; 0; 1]%Z 0%Z # 1); Fin 0].
Definition ex_work : Sys_Model.turn := Limit_Main.modest [Sys_Main.get 1; Sys_Main.exec 1; Sys_Main.flush 1].
Notation ex_fit_a plan := (fit_asha_l Limit_Main.fine_call ex_rise None ex_class [("imp"%string, 9)] ex_ps (Some 3%Z) 1 true [] 3 0 2%Z (Some 1%Z) ex_start (before_h (ex_begin []) plan)).
Lemma first_less x y l l' : nltb x y = true -> lex_lt (x :: l) (y :: l').
Proof. intros H. exists 0. split; [intros j Hj; lia|]. left. cbn [length nth]. split; [lia|]. split; [lia|]. exact H. Qed.
Lemma C179_asha_refuted_main :
  exists (build : nat -> list (string * value) -> res nat) fixed call scores limit n log defaults ps max_length eta first_rung max_rung max_full warm_start s
    plan later steps w p steps' w' p' m ss m' ss',
  wf_heap (s_heap s) /\ start_ok ps max_length s warm_start /\ NoDup (map i_id warm_start) /\ clear_names ps /\ pset_rich ps /\ allows_one max_length /\
  (Z.of_nat first_rung <= max_rung)%Z /\ (forall k, scores k <> []) /\ (forall k, Forall (fun x => x <> NaN) (scores k)) /\
  fit_asha_l call scores limit build fixed ps max_length n log defaults eta first_rung max_rung max_full warm_start (before_h s plan) = (Ok steps, (w, p)) /\
  fit_asha_l call scores limit build fixed ps max_length n log defaults eta first_rung max_rung max_full warm_start (before_h s (plan ++ later)) = (Ok steps', (w', p')) /\
  In m (results (q_trace w)) /\ is_pipeline (h_objects w) (m_ind m) ss /\ made_from build fixed ss steps /\
  In m' (results (q_trace w')) /\ is_pipeline (h_objects w') (m_ind m') ss' /\ made_from build fixed ss' steps' /\
  (forall m2, In m2 (results (q_trace w')) -> i_id (m_ind m2) = i_id (m_ind m') -> lex_lt (m_fit m2) (m_fit m)).
Proof.
  exists ex_class, [("imp"%string, 9)], Limit_Main.fine_call, ex_rise, None, 1, true, [], ex_ps, (Some 3%Z), 3, 0, 2%Z, (Some 1%Z), ex_start, (ex_begin []), (repeat ex_work 16), (repeat ex_work 14).
  assert (A1 : wf_heap (s_heap (ex_begin []))) by apply (ex_begin_wf ex_p1 _ eq_refl).
  assert (A2 : start_ok ex_ps (Some 3%Z) (ex_begin []) ex_start) by (apply ex_start_ok; apply Z.le_refl).
  assert (A3 : NoDup (map i_id ex_start)) by (vm_compute; repeat constructor; simpl; intuition discriminate).
  assert (A4 : allows_one (Some 3%Z)) by (cbn; lia).
  assert (A5 : forall k, ex_rise k <> []) by discriminate.
  assert (A6 : forall k, Forall (fun x => x <> NaN) (ex_rise k)) by (intros k; repeat constructor; discriminate).
  assert (A7 : (Z.of_nat 0 <= 2)%Z) by (cbn; lia).
  assert (E1 := surjective_pairing (ex_fit_a (repeat ex_work 16))). rewrite (surjective_pairing (snd (ex_fit_a (repeat ex_work 16)))) in E1.
  assert (E2 := surjective_pairing (ex_fit_a (repeat ex_work 16 ++ repeat ex_work 14))). rewrite (surjective_pairing (snd (ex_fit_a (repeat ex_work 16 ++ repeat ex_work 14)))) in E2.
  assert (F1 : exists st, fst (ex_fit_a (repeat ex_work 16)) = Ok st) by (eexists; vm_compute; reflexivity). destruct F1 as [steps F1].
  assert (F2 : exists st, fst (ex_fit_a (repeat ex_work 16 ++ repeat ex_work 14)) = Ok st) by (eexists; vm_compute; reflexivity). destruct F2 as [steps' F2].
  rewrite F1 in E1. rewrite F2 in E2. clear F1 F2.
  set (w1 := fst (snd (ex_fit_a (repeat ex_work 16)))) in *. set (w2 := fst (snd (ex_fit_a (repeat ex_work 16 ++ repeat ex_work 14)))) in *.
  assert (S1 : exists i1 i2 i3 i4, map snd (scored 0 (q_trace w1)) = [mkMem i1 (ex_rise 0); mkMem i2 (ex_rise 1); mkMem i3 (ex_rise 2); mkMem i4 (ex_rise 3)] /\
    results (q_trace w1) = [mkMem i1 (ex_rise 0); mkMem i2 (ex_rise 1); mkMem i3 (ex_rise 2); mkMem i4 (ex_rise 3)])
    by (eexists _, _, _, _; split; vm_compute; reflexivity).
  assert (S1' : forall r, scored (S r) (q_trace w1) = []) by (intros r; vm_compute; reflexivity).
  assert (S2 : exists i, map snd (scored 1 (q_trace w2)) = [mkMem i (ex_rise 10)] /\ In (mkMem i (ex_rise 10)) (results (q_trace w2)) /\ i_id i = 2)
    by (eexists; split; [vm_compute; reflexivity|split; [vm_compute; repeat (first [left; reflexivity|right])|reflexivity]]).
  assert (S2' : forall r, scored (S (S r)) (q_trace w2) = []) by (intros r; vm_compute; reflexivity).
  assert (K : map m_fit (filter (fun m2 => i_id (m_ind m2) =? 2) (results (q_trace w2))) = [ex_rise 2; ex_rise 10]) by (vm_compute; reflexivity).
  clearbody w1 w2.
  assert (S3 : forall m2, In m2 (results (q_trace w2)) -> i_id (m_ind m2) = 2 -> m_fit m2 = ex_rise 2 \/ m_fit m2 = ex_rise 10).
  { intros m2 Hm Hi. assert (H : In (m_fit m2) [ex_rise 2; ex_rise 10]); [|destruct H as [H|[H|[]]]; auto].
    rewrite <- K. apply in_map, filter_In. split; [exact Hm|]. rewrite Hi. reflexivity. }
  destruct (Limit_Main.C166_asha_main _ _ _ _ _ _ _ _ _ _ _ _ _ _ _ _ _ _ _ _ _ A1 A2 A3 ex_rich A4 ex_clear A7 A5 A6 E1) as (_ & r & m & ss & B1 & B2 & B3 & B4 & _ & _ & B5).
  destruct (Limit_Main.C166_asha_main _ _ _ _ _ _ _ _ _ _ _ _ _ _ _ _ _ _ _ _ _ A1 A2 A3 ex_rich A4 ex_clear A7 A5 A6 E2) as (_ & r' & m' & ss' & D1 & D2 & D3 & D4 & _ & _ & D5).
  destruct S1 as (i1 & i2 & i3 & i4 & S1 & S4). destruct S2 as (i & S2 & S5 & S6).
  assert (Em : m = mkMem i4 (ex_rise 3)).
  { destruct r as [|r]; [|rewrite S1' in B1; destruct B1]. rewrite S1 in B1, B3.
    assert (B6 := B3 (mkMem i4 (ex_rise 3)) (or_intror (or_intror (or_intror (or_introl eq_refl))))). cbn [m_fit] in B6.
    destruct B1 as [<-|[<-|[<-|[<-|[]]]]]; auto; destruct B6; apply first_less; reflexivity. }
  assert (Em' : m' = mkMem i (ex_rise 10)).
  { destruct r' as [|[|r']]; [|rewrite S2 in D1; destruct D1 as [<-|[]]; auto|rewrite S2' in D1; destruct D1].
    specialize (D2 1 (Nat.lt_0_succ 0)). rewrite D2 in S2. discriminate. }
  subst m m'. exists steps, w1, (snd (snd (ex_fit_a (repeat ex_work 16)))), steps', w2, (snd (snd (ex_fit_a (repeat ex_work 16 ++ repeat ex_work 14)))), (mkMem i4 (ex_rise 3)), ss, (mkMem i (ex_rise 10)), ss'.
  repeat (split; [first [assumption|exact ex_rich|exact ex_clear]|]). split; [rewrite S4; right; right; right; left; reflexivity|].
  repeat (split; [assumption|]). intros m2 Hm Hi. cbn [m_ind] in Hi. rewrite S6 in Hi. cbn [m_fit]. destruct (S3 m2 Hm Hi) as [-> | ->]; apply first_less; reflexivity.
Qed.

(** C179: with the evolutionary search too, without restarts: the population forgets the best
    pipeline (C26, C151). *)
Definition ex_fall (k : nat) : list num := match k with 0 => [Fin (9 # 1); Fin ((-3) # 1)] | _ => [Fin (1 # 1); Fin ((-2) # 1)] end.
Notation ex_fit_e plan := (fit_evo_l Limit_Main.fine_call ex_fall None ex_class [("imp"%string, 9)] ex_ps None 1 true [] 50 5 None false ex_start (before_search (first_fit (ex_begin [])) plan)).
Lemma C179_evolutionary_refuted_main :
  exists (build : nat -> list (string * value) -> res nat) fixed call scores limit n log defaults ps max_length max_retry pop_size max_n warm_start (s : setting)
    plan later steps w p steps' w' p' m ss m' ss',
  pset_typed ps /\ pset_rich ps /\ 0 < max_retry /\ 3 <= pop_size /\ wf_heap (s_heap s) /\ start_ok ps None s warm_start /\ NoDup (map i_id warm_start) /\ clear_names ps /\
  (forall k, Forall (fun x => x <> NaN) (scores k)) /\
  fit_evo_l call scores limit build fixed ps max_length n log defaults max_retry pop_size max_n false warm_start (before_search s plan) = (Ok steps, (w, p)) /\
  fit_evo_l call scores limit build fixed ps max_length n log defaults max_retry pop_size max_n false warm_start (before_search s (plan ++ later)) = (Ok steps', (w', p')) /\
  In m (successes (v_trace w)) /\ is_pipeline (objects w) (m_ind m) ss /\ made_from build fixed ss steps /\
  In m' (successes (v_trace w')) /\ is_pipeline (objects w') (m_ind m') ss' /\ made_from build fixed ss' steps' /\
  (forall m2, In m2 (successes (v_trace w')) -> i_id (m_ind m2) = i_id (m_ind m') -> lex_lt (m_fit m2) (m_fit m)).
Proof.
  exists ex_class, [("imp"%string, 9)], Limit_Main.fine_call, ex_fall, None, 1, true, [], ex_ps, None, 50, 5, None, ex_start, (first_fit (ex_begin [])), (repeat ex_work 6), (repeat ex_work 9).
  assert (A1 : wf_heap (s_heap (first_fit (ex_begin [])))) by apply (ex_begin_wf ex_p1 _ eq_refl).
  assert (A2 : start_ok ex_ps None (first_fit (ex_begin [])) ex_start) by exact (start_none _ _ _ _ (ex_start_ok 3 _ (Z.le_refl 3))).
  assert (A3 : NoDup (map i_id ex_start)) by (vm_compute; repeat constructor; simpl; intuition discriminate).
  assert (A4 : 0 < 50) by lia. assert (A5 : 3 <= 5) by lia.
  assert (A6 : forall k, Forall (fun x => x <> NaN) (ex_fall k)) by (intros [|k]; repeat constructor; discriminate).
  assert (E1 := surjective_pairing (ex_fit_e (repeat ex_work 6))). rewrite (surjective_pairing (snd (ex_fit_e (repeat ex_work 6)))) in E1.
  assert (E2 := surjective_pairing (ex_fit_e (repeat ex_work 6 ++ repeat ex_work 9))). rewrite (surjective_pairing (snd (ex_fit_e (repeat ex_work 6 ++ repeat ex_work 9)))) in E2.
  assert (F1 : exists st, fst (ex_fit_e (repeat ex_work 6)) = Ok st) by (eexists; vm_compute; reflexivity). destruct F1 as [steps F1].
  assert (F2 : exists st, fst (ex_fit_e (repeat ex_work 6 ++ repeat ex_work 9)) = Ok st) by (eexists; vm_compute; reflexivity). destruct F2 as [steps' F2].
  rewrite F1 in E1. rewrite F2 in E2. clear F1 F2.
  set (w1 := fst (snd (ex_fit_e (repeat ex_work 6)))) in *. set (w2 := fst (snd (ex_fit_e (repeat ex_work 6 ++ repeat ex_work 9)))) in *.
  assert (S1 : exists i, v_pop w1 = [mkMem i (ex_fall 0)] /\ successes (v_trace w1) = [mkMem i (ex_fall 0)]) by (eexists; split; vm_compute; reflexivity).
  assert (K0 : forallb (fun m => negb (i_id (m_ind m) =? 0)) (v_pop w2) = true) by (vm_compute; reflexivity).
  assert (K1 : since_restart (v_trace w2) = v_trace w2) by (vm_compute; reflexivity).
  assert (K2 : exists i l, successes (v_trace w2) = mkMem i (ex_fall 0) :: map (fun i => mkMem i (ex_fall 1)) l /\ i_id i = 0).
  { exists (m_ind (hd (mkMem (mkInd 0 0 [] "") []) (successes (v_trace w2)))), (map m_ind (tl (successes (v_trace w2)))). split; vm_compute; reflexivity. }
  clearbody w1 w2. destruct S1 as (i & S1 & S1'). destruct K2 as (i0 & l & K2 & K3).
  destruct (Limit_Main.C166_evolutionary_partial_main _ _ _ _ _ _ _ _ _ _ _ _ _ _ _ _ (first_fit (ex_begin [])) _ _ _ _ ex_typed A4 A1 A2 A3 ex_clear A6 E1) as (_ & _ & m & ss & B1 & _ & _ & B4 & _ & B5).
  destruct (Limit_Main.C166_evolutionary_partial_main _ _ _ _ _ _ _ _ _ _ _ _ _ _ _ _ (first_fit (ex_begin [])) _ _ _ _ ex_typed A4 A1 A2 A3 ex_clear A6 E2) as (_ & D0 & m' & ss' & D1 & _ & _ & D4 & _ & D5).
  rewrite S1 in B1. destruct B1 as [<-|[]].
  assert (N : i_id (m_ind m') <> 0). { rewrite forallb_forall in K0. specialize (K0 m' D1). destruct (Nat.eqb_spec (i_id (m_ind m')) 0); [discriminate|auto]. }
  exists steps, w1, (snd (snd (ex_fit_e (repeat ex_work 6)))), steps', w2, (snd (snd (ex_fit_e (repeat ex_work 6 ++ repeat ex_work 9)))), (mkMem i (ex_fall 0)), ss, m', ss'.
  repeat (split; [first [assumption|exact ex_typed|exact ex_rich|exact ex_clear]|]). split; [rewrite S1'; left; reflexivity|].
  split; [assumption|]. split; [assumption|]. split; [rewrite <- K1; apply D0; exact D1|]. split; [assumption|]. split; [assumption|].
  intros m2 Hm Hi. rewrite K2 in Hm. destruct Hm as [<-|Hm]; [cbn [m_ind] in Hi; congruence|]. apply in_map_iff in Hm as (j & <- & _). apply first_less. reflexivity.
Qed.

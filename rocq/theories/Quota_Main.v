(** C177: a limit on memory use that is never exceeded changes nothing. *)
(*IMPORTS*)
Require Import ZArith QArith.
From Verif Require Import Base Num Gp_Model Gp_Spec Gp_Examples Lib_Spec Eval_Model Evo_Model Evo_Spec Evo_Main Rnd_Model Rnd_Spec End_Model End_Spec Proc_Model Proc_Spec Limit_Model Live_Spec Quota_Spec.
From Verif Require Async_Model Sys_Model Sys_Main.
From Verif Require Import End_Main.
From Verif Require Limit_Main Live_Main.
Open Scope nat_scope.
Open Scope list_scope.
(*END*)
Require Import Lia.
From Verif Require Quota_Proofs.

(** C177: the searches.  With readings within the limit they end in the same way, with the same
    objects, results and order of events as without a limit. *)
Lemma C177_random_main :
  forall call scores limit n log defaults ps max_length max_n warm_start s plan x w p,
  Forall (keeps_within limit n) plan ->
  l_rs_phase call scores limit ps max_length max_n n log defaults warm_start (before_h s plan) = (x, (w, p)) ->
  exists p', q_rs_phase call scores ps max_length max_n n log defaults warm_start (before_h s plan) = (x, (w, p')).
Proof.
  intros call scores limit n log d ps ml mn warm s plan x w p F E. destruct (Quota_Proofs.agree_rs call limit n scores log d ps ml mn warm (fresh_h s) (idle plan) F) as (p' & H). unfold before_h in *. rewrite E in H. eauto.
Qed.
Lemma C177_asha_main :
  forall call scores limit n log defaults ps max_length eta first_rung max_rung max_full warm_start s plan x w p,
  Forall (keeps_within limit n) plan ->
  l_asha_phase call scores limit ps max_length eta first_rung max_rung max_full n log defaults warm_start (before_h s plan) = (x, (w, p)) ->
  exists p', q_asha_phase call scores ps max_length eta first_rung max_rung max_full n log defaults warm_start (before_h s plan) = (x, (w, p')).
Proof.
  intros call scores limit n log d ps ml eta fr mr mf warm s plan x w p F E. destruct (Quota_Proofs.agree_asha call limit n scores log d ps ml eta fr mr mf warm (fresh_h s) (idle plan) F) as (p' & H). unfold before_h in *. rewrite E in H. eauto.
Qed.
Lemma C177_evolutionary_main :
  forall call scores limit n log defaults ps max_length max_retry pop_size max_n restart warm_start (s : setting) plan x w p,
  Forall (keeps_within limit n) plan ->
  l_search call scores limit ps max_length max_retry pop_size max_n restart n log defaults warm_start (before_search s plan) = (x, (w, p)) ->
  exists p', p_search call scores ps max_length max_retry pop_size max_n restart n log defaults warm_start (before_search s plan) = (x, (w, p')).
Proof.
  intros call scores limit n log d ps ml mr pz mn rs warm s plan x w p F E. destruct (Quota_Proofs.agree_search call limit n scores log d ps ml mr pz mn rs warm (fresh_search s) (idle plan) F) as (p' & H). unfold before_search in *. rewrite E in H. eauto.
Qed.
(** C177: fit with the best pipeline gives the same model, or raises the same exception. *)
Lemma C177_fit_random_main :
  forall E call scores limit (build : nat -> list (string * value) -> res E) fixed ps max_length n log defaults max_n warm_start s plan,
  Forall (keeps_within limit n) plan ->
  fst (fit_random_l call scores limit build fixed ps max_length n log defaults max_n warm_start (before_h s plan)) =
  fst (fit_random_p call scores build fixed ps max_length n log defaults max_n warm_start (before_h s plan)).
Proof.
  intros E call scores limit build fixed ps ml n log d mn warm s plan F. unfold fit_random_l, fit_random_p.
  destruct (l_rs_phase call scores limit ps ml mn n log d warm (before_h s plan)) as [x [w p]] eqn:E1.
  destruct (C177_random_main _ _ _ _ _ _ _ _ _ _ _ _ _ _ _ F E1) as (p' & ->). destruct (search_over x); auto.
  unfold own. cbn [fst snd]. destruct (hgp (best_model build fixed (q_out w)) w). auto.
Qed.
Lemma C177_fit_evolutionary_main :
  forall E call scores limit (build : nat -> list (string * value) -> res E) fixed ps max_length n log defaults max_retry pop_size max_n restart warm_start (s : setting) plan,
  Forall (keeps_within limit n) plan ->
  fst (fit_evo_l call scores limit build fixed ps max_length n log defaults max_retry pop_size max_n restart warm_start (before_search s plan)) =
  fst (fit_evo_p call scores build fixed ps max_length n log defaults max_retry pop_size max_n restart warm_start (before_search s plan)).
Proof.
  intros E call scores limit build fixed ps ml n log d mr pz mn rs warm s plan F. unfold fit_evo_l, fit_evo_p.
  destruct (l_search call scores limit ps ml mr pz mn rs n log d warm (before_search s plan)) as [x [w p]] eqn:E1.
  destruct (C177_evolutionary_main _ _ _ _ _ _ _ _ _ _ _ _ _ _ _ _ _ _ F E1) as (p' & ->). destruct (search_over x); auto.
  unfold own. cbn [fst snd]. destruct (gp (best_model build fixed (v_pop w)) w). auto.
Qed.
Lemma C177_fit_asha_main :
  forall E call scores limit (build : nat -> list (string * value) -> res E) fixed ps max_length n log defaults eta first_rung max_rung max_full warm_start s plan,
  Forall (keeps_within limit n) plan ->
  fst (fit_asha_l call scores limit build fixed ps max_length n log defaults eta first_rung max_rung max_full warm_start (before_h s plan)) =
  fst (fit_asha_p call scores build fixed ps max_length n log defaults eta first_rung max_rung max_full warm_start (before_h s plan)).
Proof.
  intros E call scores limit build fixed ps ml n log d eta fr mr mf warm s plan F.
  assert (R : Quota_Proofs.agree limit n (fit_asha_l call scores limit build fixed ps ml n log d eta fr mr mf warm) (fit_asha_p call scores build fixed ps ml n log d eta fr mr mf warm)).
  { apply Quota_Proofs.agree_own. intros l. apply Quota_Proofs.agree_own. intros _ w0 p0 F0.
    destruct (Quota_Proofs.agree_asha0 call limit n scores log d ps ml eta fr mr mf w0 p0 F0) as (p' & H). rewrite H. clear H.
    destruct (l_asha call scores limit ps ml eta fr mr mf n log d (w0, p0)) as [x [w p]]. cbn [fst snd].
    destruct (asha_output x (q_rungs w)) as [a|e]; [|eexists; reflexivity]. unfold own. cbn [fst snd]. destruct (hgp (best_model build fixed a) w). eexists. reflexivity. }
  destruct (R (fresh_h s) (idle plan) F) as (p' & H). unfold before_h. rewrite H. reflexivity.
Qed.
(** C177, with C172: then the searches go on, which is not so when the limit is exceeded (C167): so
    many results as there are rounds in which the workers get their turns. *)
Lemma C177_random_goes_on_main :
  forall call scores limit n log defaults ps max_length max_n warm_start s first_turns rounds rest x w p,
  Forall (keeps_within limit n) (first_turns ++ concat rounds ++ rest) ->
  0 < n -> answers call defaults -> nobody_killed (first_turns ++ concat rounds) -> Forall (late_round n) rounds ->
  match warm_start with [] => 50 | _ => length warm_start end <= length first_turns ->
  wf_heap (s_heap s) -> start_ok ps max_length s warm_start -> pset_rich ps -> allows_one max_length ->
  l_rs_phase call scores limit ps max_length max_n n log defaults warm_start (before_h s (first_turns ++ concat rounds ++ rest)) = (x, (w, p)) ->
  match max_n with
  | None => x = Err Diverges /\ length rounds <= length (arrivals (q_trace w))
  | Some m => (x = Ok tt /\ (m <= Z.of_nat (length (results (q_trace w))))%Z) \/
      (x = Err Diverges /\ length rounds <= length (arrivals (q_trace w)) /\ (Z.of_nat (length (results (q_trace w))) < m)%Z)
  end.
Proof.
  intros call scores limit n log d ps ml mn warm s init rounds rest x w p F N A NK FR LI H1 H2 H3 H4 E.
  destruct (C177_random_main _ _ _ _ _ _ _ _ _ _ _ _ _ _ _ F E) as (p' & E').
  exact (Live_Main.C172_random_main _ _ _ _ _ _ _ _ _ _ _ _ _ _ _ _ N A NK FR LI H1 H2 H3 H4 E').
Qed.
Lemma C177_asha_goes_on_main :
  forall call scores limit n log defaults ps max_length eta first_rung max_rung max_full warm_start s first_turns rounds rest x w p,
  Forall (keeps_within limit n) (first_turns ++ concat rounds ++ rest) ->
  0 < n -> answers call defaults -> nobody_killed (first_turns ++ concat rounds) -> Forall (late_round n) rounds -> 8 <= length first_turns ->
  (forall k, scores k <> []) ->
  wf_heap (s_heap s) -> start_ok ps max_length s warm_start -> pset_rich ps -> allows_one max_length -> (Z.of_nat first_rung <= max_rung)%Z ->
  l_asha_phase call scores limit ps max_length eta first_rung max_rung max_full n log defaults warm_start (before_h s (first_turns ++ concat rounds ++ rest)) = (x, (w, p)) ->
  match max_full with
  | None => x = Err Diverges /\ length rounds <= length (arrivals (q_trace w))
  | Some m => (x = Ok tt /\ (m <= Z.of_nat (length (scored (Z.to_nat max_rung) (q_trace w))))%Z) \/
      (x = Err Diverges /\ length rounds <= length (arrivals (q_trace w)) /\ (Z.of_nat (length (scored (Z.to_nat max_rung) (q_trace w))) < m)%Z)
  end.
Proof.
  intros call scores limit n log d ps ml eta fr mr mf warm s init rounds rest x w p F N A NK FR LI SC H1 H2 H3 H4 H5 E.
  destruct (C177_asha_main _ _ _ _ _ _ _ _ _ _ _ _ _ _ _ _ _ _ F E) as (p' & E').
  exact (Live_Main.C172_asha_main _ _ _ _ _ _ _ _ _ _ _ _ _ _ _ _ _ _ _ N A NK FR LI SC H1 H2 H3 H4 H5 E').
Qed.
Lemma C177_evolutionary_goes_on_main :
  forall call scores limit n log defaults ps max_length max_retry pop_size max_n restart warm_start (s : setting) first_turns rounds rest x w p k,
  Forall (keeps_within limit n) (first_turns ++ concat rounds ++ rest) ->
  0 < n -> answers call defaults -> nobody_killed (first_turns ++ concat rounds) -> Forall (late_round n) rounds ->
  match warm_start with [] => 50 | _ => length warm_start end <= length first_turns ->
  pset_typed ps -> pset_rich ps -> match max_length with None => True | Some m => (1 <= m)%Z end -> 0 < max_retry -> (forall e, length (scores e) = k) ->
  wf_heap (s_heap s) -> start_ok ps max_length s warm_start -> (match max_n with Some m => (0 < m)%Z | None => True end) ->
  l_search call scores limit ps max_length max_retry pop_size max_n restart n log defaults warm_start (before_search s (first_turns ++ concat rounds ++ rest)) = (x, (w, p)) ->
  (x = Ok tt /\ match max_n with None => False | Some m => Z.of_nat (length (collections (v_trace w))) = m end) \/
  (x = Err ValueError /\ length (v_pop w) < 3) \/
  breakdown ps max_length k w x \/
  (x = Err Diverges /\ length rounds <= (if restart then S pop_size else 1) * length (collections (v_trace w)) /\
   match max_n with None => True | Some m => (Z.of_nat (length (collections (v_trace w))) < m)%Z end).
Proof.
  intros call scores limit n log d ps ml mr pz mn rst warm s init rounds rest x w p k F N A NK FR LI H1 H2 H3 H4 H6 H7 H8 H9 E.
  destruct (C177_evolutionary_main _ _ _ _ _ _ _ _ _ _ _ _ _ _ _ _ _ _ F E) as (p' & E').
  exact (Live_Main.C172_evolutionary_main _ _ _ _ _ _ _ _ _ _ _ _ _ _ _ _ _ _ _ k N A NK FR LI H1 H2 H3 H4 H6 H7 H8 H9 E').
Qed.

(** * Examples: two workers and a limit of 100; in the other plan a worker uses 500 in one turn *)
Lemma modest_within acts : keeps_within (Some 100) 2 (Limit_Main.modest acts).
Proof.
  split; [discriminate|]. intros l _ _ L. change (1 + list_sum (map (fun _ => 1) l) <= 100).
  assert (K : list_sum (map (fun _ : nat => 1) l) = length l) by (induction l as [|a l IH]; auto; cbn [map length]; change (1 + list_sum (map (fun _ : nat => 1) l) = S (length l)); rewrite IH; [reflexivity|cbn in L; lia]). lia.
Qed.
Definition ex_busy : Sys_Model.turn := Limit_Main.modest [Sys_Main.get 1; Sys_Main.get 2; Sys_Main.exec 2; Sys_Main.exec 1; Sys_Main.flush 2; Sys_Main.flush 1].
Definition ex_beyond : list Sys_Model.turn := repeat (Limit_Main.modest []) 5 ++ [Limit_Main.modest [Sys_Main.get 1]; Limit_Main.too_big 1 []; Limit_Main.modest [Sys_Main.exec 1; Sys_Main.flush 1]].
Definition ex_within (k : nat) : list Sys_Model.turn := repeat (Limit_Main.modest []) k ++ repeat ex_busy 6.
Notation ids_of t := (map (fun x => i_id (fst (fst x))) (arrivals (q_trace (fst (snd t))))).
Notation ex_qrs plan := (q_rs_phase Limit_Main.fine_call Sys_Main.ex_scores ex_ps (Some 3%Z) None 2 true [] ex_start (before_h (ex_begin []) plan)).
Example C177_ex_main :
  Forall (keeps_within (Some 100) 2) (ex_within 5) /\
  ids_of (l_rs_phase Limit_Main.fine_call Sys_Main.ex_scores (Some 100) ex_ps (Some 3%Z) None 2 true [] ex_start (before_h (ex_begin []) (ex_within 5))) = [1; 0; 3] /\
  ids_of (ex_qrs (ex_within 5)) = [1; 0; 3] /\
  (* with a limit that is exceeded the results differ *)
  ~ Forall (keeps_within (Some 100) 2) ex_beyond /\
  ids_of (l_rs_phase Limit_Main.fine_call Sys_Main.ex_scores (Some 100) ex_ps (Some 3%Z) None 2 true [] ex_start (before_h (ex_begin []) ex_beyond)) = [] /\
  ids_of (ex_qrs ex_beyond) = [0].
Proof.
  split; [apply Forall_app; split; apply Forall_forall; intros t Ht; apply repeat_spec in Ht; subst t; apply modest_within|].
  split; [vm_compute; reflexivity|]. split; [vm_compute; reflexivity|].
  split; [|split; vm_compute; reflexivity].
  intros F. rewrite Forall_forall in F. destruct (F (Limit_Main.too_big 1 [])) as [_ K]; [unfold ex_beyond; apply in_or_app; right; right; left; reflexivity|].
  specialize (K [1]). cbn in K. assert (501 <= 100); [|lia]. apply K; [repeat constructor; auto|intuition discriminate|lia].
Qed.
Example C177_goes_on_ex_main :
  let plan := repeat (Sys_Main.at_work []) 5 ++ concat (repeat Live_Main.ex_round 3) ++ [] in
  Forall (keeps_within (Some 100) 2) plan /\ answers Live_Main.ex_evaluation [] /\ nobody_killed (repeat (Sys_Main.at_work []) 5 ++ concat (repeat Live_Main.ex_round 3)) /\
  Forall (late_round 2) (repeat Live_Main.ex_round 3) /\ wf_heap (s_heap (ex_begin [])) /\ start_ok ex_ps (Some 3%Z) (ex_begin []) ex_start /\ pset_rich ex_ps /\ allows_one (Some 3%Z) /\
  length (arrivals (q_trace (fst (snd (l_rs_phase Live_Main.ex_evaluation Sys_Main.ex_scores (Some 100) ex_ps (Some 3%Z) None 2 true [] ex_start (before_h (ex_begin []) plan)))))) = 5.
Proof.
  assert (W : forall acts, keeps_within (Some 100) 2 (Sys_Main.at_work acts)) by (intros acts; exact (modest_within acts)).
  assert (FW : Forall (keeps_within (Some 100) 2) (repeat (Sys_Main.at_work []) 5 ++ concat (repeat Live_Main.ex_round 3) ++ [])).
  { repeat (apply Forall_cons; [apply W|]). apply Forall_nil. }
  split; [exact FW|]. split; [intros k c; left; eexists _, _; reflexivity|].
  split; [intros t p Ht Hc; cbn in Ht; repeat (destruct Ht as [<-|Ht]; [cbn in Hc; intuition discriminate|]); destruct Ht|].
  split; [repeat (apply Forall_cons; [apply Live_Main.ex_late|]); apply Forall_nil|].
  split; [apply (ex_begin_wf ex_p1 _ eq_refl)|]. split; [apply ex_start_ok; apply Z.le_refl|]. split; [apply ex_rich|]. split; [cbn; lia|]. vm_compute. reflexivity.
Qed.

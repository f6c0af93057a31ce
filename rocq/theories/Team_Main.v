(** C163: ensembles, on worker processes. *)
(*IMPORTS*)
Require Import Permutation QArith Qcanon.
From Verif Require Import Base Num Gp_Model Gp_Spec Gp_Examples Misc_Model Lib_Model Lib_Spec Evo_Model Evo_Spec Evo_Main Rnd_Model Rnd_Spec End_Model End_Spec Mix_Model Mix_Spec Mix_Main Proc_Model Proc_Spec Team_Model Team_Spec.
From Verif Require Ens_Model Ens_Spec Ens_Main Async_Model Sys_Model Sys_Main Proc_Main.
Open Scope nat_scope.
Open Scope list_scope.
(*END*)
From Verif Require Import Rnd_Main End_Main Proc_Proofs Proc_Proofs2 Proc_Main.
From Verif Require Proc_Proofs3.
Require Import Lia.

Section Top.
Context (call : nat -> list nat -> Async_Model.kwargs -> nat -> Async_Model.outcome) (scores : nat -> list num).
Context {A : Type} (l0 : Lib_Model.lib) (rr : rng) (data : nat -> list nat * option (list nat))
  (row : nat -> list Qcanon.Qc) (tr : option (Ens_Model.mat -> res Ens_Model.mat))
  (metric : list A -> Ens_Model.mat -> res num) (task : option bool)
  (options : Misc_Model.hps) (y : list A) (left : num) (r : rng).
Lemma random_ens_top ps ml n log d mn warm s plan x w p :
  fit_random_ens_p call scores l0 rr data row tr metric task options y left r ps ml n log d mn warm (before_h s plan) = (x, (w, p)) ->
  exists es x1 p1 l, Forall (scored_by scores) es /\ q_rs_phase call scores ps ml mn n log d warm (before_h s plan) = (x1, (w, p1)) /\
    fit_random_ens l0 rr data row tr metric task options y left r ps ml mn warm es (fresh_h s) = (x, Proc_Proofs3.setq l w).
Proof.
  unfold fit_random_ens_p. destruct (q_rs_phase call scores ps ml mn n log d warm (before_h s plan)) as [x1 [w1 p1]] eqn:E1. intros E0.
  destruct (Proc_Proofs3.rs_top _ _ _ _ _ _ _ _ _ _ _ _ _ _ E1) as (B1 & B & es & C & _ & D).
  exists es, x1, p1, (outstanding Proc_Proofs3.dj p1). unfold fit_random_ens. rewrite D. destruct (search_over x1) as [u|e]; injection E0 as <- <- <-; auto.
Qed.
Lemma evo_ens_top ps ml n log d mr pz mn rs warm (s : setting) plan x w p :
  fit_evo_ens_p call scores l0 rr data row tr metric task options y left r ps ml n log d mr pz mn rs warm (before_search s plan) = (x, (w, p)) ->
  exists es x1 p1 l, Forall (scored_by scores) es /\ p_search call scores ps ml mr pz mn rs n log d warm (before_search s plan) = (x1, (w, p1)) /\
    fst (search ps ml mr n pz mn rs warm es (fresh_search s)) = x1 /\
    fit_evo_ens l0 rr data row tr metric task options y left r ps ml mr n pz mn rs warm es (fresh_search s) = (x, setj l w).
Proof.
  unfold fit_evo_ens_p. destruct (p_search call scores ps ml mr pz mn rs n log d warm (before_search s plan)) as [x1 [w1 p1]] eqn:E1. intros E0.
  destruct (search_top _ _ _ _ _ _ _ _ _ _ _ _ _ _ _ _ _ E1) as (B1 & B & es & C & _ & D).
  exists es, x1, p1, (outstanding di p1). unfold fit_evo_ens. rewrite D. destruct (search_over x1) as [u|e]; injection E0 as <- <- <-; auto.
Qed.
Lemma asha_ens_top ps ml n log d eta fr mr mf warm s plan x w p :
  fit_asha_ens_p call scores l0 rr data row tr metric task options y left r ps ml n log d eta fr mr mf warm (before_h s plan) = (x, (w, p)) ->
  exists es x1 p1 l, Forall (scored_by scores) es /\ q_asha_phase call scores ps ml eta fr mr mf n log d warm (before_h s plan) = (x1, (w, p1)) /\
    fit_asha_ens l0 rr data row tr metric task options y left r ps ml eta fr mr mf warm es (fresh_h s) = (x, Proc_Proofs3.setq l w).
Proof.
  unfold fit_asha_ens_p. intros E0. destruct (q_asha_phase call scores ps ml eta fr mr mf n log d warm (before_h s plan)) as [x1 [w1 p1]] eqn:E1.
  destruct (Proc_Proofs3.asha_top _ _ _ _ _ _ _ _ _ _ _ _ _ _ _ _ _ E1) as (B1 & B & es & C & _ & D).
  unfold q_asha_phase in E1. unfold asha_phase in D. unfold fit_asha_ens. unfold pbind, own, hbind, before_h in *. cbn [fst snd] in *.
  destruct (Rnd_Model.candidates ps ml warm (fresh_h s)) as [[cs|e] wc] eqn:EC.
  - cbn [fst snd set_start] in *.
    match type of E1 with q_asha _ _ _ _ _ _ _ _ _ _ _ ?y = _ => change y with (mkH (q_st wc) (q_jobs wc) cs (q_rungs wc) (q_out wc) (q_trace wc), @idle (individual * nat) plan) in * end.
    rewrite E1 in E0. cbn [fst snd] in E0.
    exists es, x1, p1, (outstanding Proc_Proofs3.dj p1). rewrite D. change (q_rungs (Proc_Proofs3.setq (outstanding Proc_Proofs3.dj p1) w1)) with (q_rungs w1).
    destruct (asha_output x1 (q_rungs w1)) as [pop|e]; injection E0 as <- <- <-; auto.
  - injection E0 as <- <- <-. injection E1 as <- <- <-. injection D as D1. exists es, (Err e), (idle plan), (outstanding Proc_Proofs3.dj (@idle (individual * nat) plan)). rewrite <- D1. auto.
Qed.
End Top.
Lemma ea_numeric call scores d w : (forall k, Forall (fun x => x <> NaN) (scores k)) -> from_workers call scores d w ->
  forall k i l b, collected_at (v_trace w) k i l b -> Forall (fun x => x <> NaN) l.
Proof.
  intros N (ks & _ & F) k i l b (t1 & t2 & E & _).
  assert (HA : In (i, Evaluated l b) (collections (v_trace w))).
  { rewrite E. clear. induction t1 as [|[] t IH]; simpl; auto. }
  destruct (F2_exists _ _ _ F _ HA) as (k0 & _ & j & _ & _ & L). eapply ended_numeric; eauto.
Qed.

(** C163.  fit with random search and an ensemble, on worker processes.  Whatever they do
    and whenever the search is stopped: what was collected are results of calls that ended
    in a worker; the evaluations that succeeded are of pipelines of the search space within
    the limit; if there is one, the model is an ensemble of the requested size of the best of
    them; if there is none, predict raises TypeError. *)
Lemma C163_random_main :
  forall A call scores n log defaults l0 rr data row tr (metric : list A -> Ens_Model.mat -> res num) task size hillclimb models y left r c
    ps max_length max_n warm_start s plan x w p,
  wf_heap (s_heap s) -> start_ok ps max_length s warm_start -> NoDup (map i_id warm_start) -> pset_rich ps -> allows_one max_length ->
  (forall k, Forall (fun x => x <> NaN) (scores k)) ->
  new_library (length y) l0 -> (forall n, Ens_Spec.readable row tr n c) -> (forall y1, Ens_Spec.scores (length y1) c (metric y1)) -> nlt (Fin 0) left ->
  fit_random_ens_p call scores l0 rr data row tr metric task (ensemble_hps (VNum (Zpos size # 1)) hillclimb models) y left r
    ps max_length n log defaults max_n warm_start (before_h s plan) = (x, (w, p)) ->
  let good := succeeded (q_trace w) in
  delivers (length y) good data ->
  h_from_workers call scores defaults w /\
  (forall k i l, good k i l -> exists ss, is_pipeline (h_objects w) i ss /\ pipeline_ok ps ss /\ within max_length ss) /\
  ((exists k i l, good k i l) -> exists e, x = Ok (e, Ok tt) /\ ensemble_of good data (l_m l0) (Pos.to_nat size) e) /\
  ((forall k i l, ~ good k i l) -> forall e z, x = Ok (e, z) -> useless tr e).
Proof.
  intros A call scores n log d l0 rr data row tr metric task size hc models y left r c ps ml mn warm s plan x w p H1 H2 H3 H4 H5 H6 H7 H8 H9 H10 E0 good DE.
  pose proof E0 as E9. apply random_ens_top in E9 as (es & x1 & p1 & l & _ & R & B).
  destruct (C161_random_results_main _ _ _ _ _ _ _ _ _ _ _ _ _ _ H1 H2 H3 R) as [F _]. pose proof (h_results_numeric _ _ _ _ H6 F) as N.
  assert (K : (exists k i l, good k i l) -> (exists e, x = Ok (e, Ok tt) /\ ensemble_of good data (l_m l0) (Pos.to_nat size) e) /\
     (forall k i l, good k i l -> exists ss, is_pipeline (h_objects w) i ss /\ pipeline_ok ps ss /\ within ml ss)).
  { exact (C153_ensemble_main _ _ _ _ _ _ _ _ _ _ _ _ _ _ _ _ _ _ _ _ _ _ _ H1 H2 H3 H4 H5 H7 H8 H9 H10 B N DE). }
  split; [exact F|]. split; [intros k i l' G; exact (proj2 (K (ex_intro _ k (ex_intro _ i (ex_intro _ l' G)))) k i l' G)|].
  split; [intros G; exact (proj1 (K G))|]. intros G e z ->.
  exact (C153_nothing_main _ _ _ _ _ _ _ _ _ _ _ _ _ _ _ _ _ _ _ _ _ _ _ H1 H2 H3 H7 B N DE G).
Qed.

(** C163: with the evolutionary search, unless the search itself fails (see C160). *)
Lemma C163_evolutionary_main :
  forall A call scores n log defaults l0 rr data row tr (metric : list A -> Ens_Model.mat -> res num) task size hillclimb models y left r c
    ps max_length max_retry pop_size max_n restart warm_start (s : setting) plan x w p,
  pset_typed ps -> 0 < max_retry -> wf_heap (s_heap s) -> start_ok ps None s warm_start -> NoDup (map i_id warm_start) ->
  (forall k, Forall (fun x => x <> NaN) (scores k)) ->
  new_library (length y) l0 -> (forall n, Ens_Spec.readable row tr n c) -> (forall y1, Ens_Spec.scores (length y1) c (metric y1)) -> nlt (Fin 0) left ->
  fit_evo_ens_p call scores l0 rr data row tr metric task (ensemble_hps (VNum (Zpos size # 1)) hillclimb models) y left r
    ps max_length n log defaults max_retry pop_size max_n restart warm_start (before_search s plan) = (x, (w, p)) ->
  let good := succeeded_ea (v_trace w) in
  delivers (length y) good data ->
  from_workers call scores defaults w /\
  (forall k i l, good k i l -> exists ss, is_pipeline (objects w) i ss /\ pipeline_ok ps ss) /\
  ((exists k i l, good k i l) ->
   (exists e, x = Ok (e, Ok tt) /\ ensemble_of good data (l_m l0) (Pos.to_nat size) e) \/
   (exists ex, x = Err ex /\ ex <> Diverges /\
      fst (p_search call scores ps max_length max_retry pop_size max_n restart n log defaults warm_start (before_search s plan)) = Err ex)) /\
  ((forall k i l, ~ good k i l) -> forall e z, x = Ok (e, z) -> useless tr e).
Proof.
  intros A call scores n log d l0 rr data row tr metric task size hc models y left r c ps ml mr pz mn rs warm s plan x w p H1 H1' H2 H3 H4 H6 H7 H8 H9 H10 E0 good DE.
  pose proof E0 as E9. apply evo_ens_top in E9 as (es & x1 & p1 & l & _ & R & RS & B).
  pose proof (C160_results_main _ _ _ _ _ _ _ _ _ _ _ _ _ _ _ _ _ H1 H1' H2 H3 H4 R) as F. pose proof (ea_numeric _ _ _ _ H6 F) as N.
  assert (K : (exists k i l, good k i l) -> ((exists e, x = Ok (e, Ok tt) /\ ensemble_of good data (l_m l0) (Pos.to_nat size) e) \/
   (exists ex, x = Err ex /\ ex <> Diverges /\ fst (search ps ml mr n pz mn rs warm es (fresh_search s)) = Err ex)) /\
     (forall k i l, good k i l -> exists ss, is_pipeline (objects w) i ss /\ pipeline_ok ps ss)).
  { exact (C154_ensemble_main _ _ _ _ _ _ _ _ _ _ _ _ _ _ _ _ _ _ _ _ _ _ _ _ _ _ _ H1 H1' H2 H3 H4 H7 H8 H9 H10 B N DE). }
  split; [exact F|]. split; [intros k i l' G; exact (proj2 (K (ex_intro _ k (ex_intro _ i (ex_intro _ l' G)))) k i l' G)|].
  split.
  - intros G. destruct (proj1 (K G)) as [L|(ex & E1 & E2 & E3)]; [left; exact L|right; exists ex]. split; auto. split; auto. rewrite R. rewrite RS in E3. exact E3.
  - intros G e z ->. exact (C154_nothing_main _ _ _ _ _ _ _ _ _ _ _ _ _ _ _ _ _ _ _ _ _ _ _ _ _ _ _ H1 H1' H2 H3 H4 H7 B N DE G).
Qed.

(** C163: with ASHA, the ensemble is made of the best evaluations on the top rung, if one
    of them succeeded; missing: that evaluations on lower rungs are enough for a model, which
    is false (C155). *)
Lemma C163_asha_partial_main :
  forall A call scores n log defaults l0 rr data row tr (metric : list A -> Ens_Model.mat -> res num) task size hillclimb models y left r c
    ps max_length eta first_rung max_rung max_full warm_start s plan x w p,
  wf_heap (s_heap s) -> start_ok ps max_length s warm_start -> NoDup (map i_id warm_start) -> pset_rich ps -> allows_one max_length ->
  (Z.of_nat first_rung <= max_rung)%Z -> (forall k, scores k <> []) -> (forall k, Forall (fun x => x <> NaN) (scores k)) ->
  new_library (length y) l0 -> (forall n, Ens_Spec.readable row tr n c) -> (forall y1, Ens_Spec.scores (length y1) c (metric y1)) -> nlt (Fin 0) left ->
  fit_asha_ens_p call scores l0 rr data row tr metric task (ensemble_hps (VNum (Zpos size # 1)) hillclimb models) y left r
    ps max_length n log defaults eta first_rung max_rung max_full warm_start (before_h s plan) = (x, (w, p)) ->
  let good := succeeded_on_top max_rung (q_trace w) in
  delivers (length y) good data ->
  h_from_workers call scores defaults w /\
  (forall k i l, good k i l -> exists ss, is_pipeline (h_objects w) i ss /\ pipeline_ok ps ss /\ within max_length ss) /\
  ((exists k i l, good k i l) -> exists e, x = Ok (e, Ok tt) /\ ensemble_of good data (l_m l0) (Pos.to_nat size) e) /\
  ((forall k i l, ~ good k i l) -> forall e z, x = Ok (e, z) -> useless tr e).
Proof.
  intros A call scores n log d l0 rr data row tr metric task size hc models y left r c ps ml eta fr mr mf warm s plan x w p H1 H2 H3 H4 H5 H5' H6' H6 H7 H8 H9 H10 E0 good DE.
  pose proof E0 as E9. apply asha_ens_top in E9 as (es & x1 & p1 & l & SC & R & B).
  pose proof (C161_asha_results_main _ _ _ _ _ _ _ _ _ _ _ _ _ _ _ _ _ H1 H2 H3 R) as F. pose proof (h_results_numeric _ _ _ _ H6 F) as N.
  assert (HS : Forall has_score es) by (eapply Forall_impl; [|exact SC]; intros e; unfold scored_by, has_score; destruct (e_out e) as [|[|z sc] b]; auto; intros (k & Ek); apply (H6' k); auto).
  assert (K : (exists k i l, good k i l) -> (exists e, x = Ok (e, Ok tt) /\ ensemble_of good data (l_m l0) (Pos.to_nat size) e) /\
     (forall k i l, good k i l -> exists ss, is_pipeline (h_objects w) i ss /\ pipeline_ok ps ss /\ within ml ss)).
  { exact (C155_ensemble_partial_main _ _ _ _ _ _ _ _ _ _ _ _ _ _ _ _ _ _ _ _ _ _ _ _ _ _ H1 H2 H3 H4 H5 H5' HS H7 H8 H9 H10 B N DE). }
  split; [exact F|]. split; [intros k i l' G; exact (proj2 (K (ex_intro _ k (ex_intro _ i (ex_intro _ l' G)))) k i l' G)|].
  split; [intros G; exact (proj1 (K G))|]. intros G e z ->.
  exact (C155_nothing_main _ _ _ _ _ _ _ _ _ _ _ _ _ _ _ _ _ _ _ _ _ _ _ _ _ _ H1 H2 H3 H7 B N DE G).
Qed.

(** Examples: those of C153-C155, on the worker processes of C160-C162. *)
Notation ex_rs_team := (fit_random_ens_p Sys_Main.ex_call Sys_Main.ex_scores ex_lib2 [] ex_data Ens_Main.ex_row None Ens_Main.sq_err None ex_options ex_y (Fin (1 # 1)) []
  ex_ps (Some 3%Z) 2 true [] None ex_start (before_h (ex_begin ex_rand) Sys_Main.ex_plan)).
Notation ex_ea_team := (fit_evo_ens_p Sys_Main.ex_call Sys_Main.ex_scores ex_lib2 [] ex_data Ens_Main.ex_row None Ens_Main.sq_err None ex_options ex_y (Fin (1 # 1)) []
  ex_ps None 2 true [] 50 5 None false [] (before_search (first_fit (ex_begin [])) (repeat (Sys_Main.at_work []) 45 ++ Sys_Main.ex_plan))).
Notation ex_asha_team plan := (fit_asha_ens_p Sys_Main.ex_call Sys_Main.ex_scores ex_lib2 [] ex_data Ens_Main.ex_row None Ens_Main.sq_err None ex_options ex_y (Fin (1 # 1)) []
  ex_ps (Some 3%Z) 2 true [] 2 0 1%Z (Some 1%Z) ex_start (before_h (ex_begin ex_rand) plan)).
Example C163_ex_main :
  wf_heap (s_heap (ex_begin ex_rand)) /\ start_ok ex_ps (Some 3%Z) (ex_begin ex_rand) ex_start /\ NoDup (map i_id ex_start) /\
  pset_rich ex_ps /\ pset_typed ex_ps /\ allows_one (Some 3%Z) /\ new_library (length ex_y) ex_lib2 /\
  (forall n, Ens_Spec.readable Ens_Main.ex_row None n 1) /\ (forall y1, Ens_Spec.scores (length y1) 1 (Ens_Main.sq_err y1)) /\
  (forall good, delivers (length ex_y) good ex_data) /\
  (forall k, Sys_Main.ex_scores k <> []) /\ (forall k, Forall (fun x => x <> NaN) (Sys_Main.ex_scores k)) /\
  ex_show (fst ex_rs_team) = ([(4, 1); (3, 2)], Some [(103, 1); (102, 2)], Ok tt) /\
  ex_show (fst ex_ea_team) = ([(9, 1); (8, 2)], Some [(104, 1); (102, 2)], Ok tt) /\
  ex_show (fst (ex_asha_team (Sys_Main.ex_plan ++ Sys_Main.ex_plan ++ Sys_Main.ex_plan))) = ([(3, 3)], Some [(108, 3)], Ok tt) /\
  (* stopped before anything is complete *)
  ex_show (fst (ex_asha_team Sys_Main.ex_plan)) = ([], None, Err ZeroDivisionError).
Proof.
  split; [apply (ex_begin_wf ex_p1); auto|]. split; [apply ex_start_ok; lia|]. split; [apply ex_ids|]. split; [apply ex_rich|]. split; [apply ex_typed|]. split; [simpl; lia|].
  split; [apply ex_lib_new|]. split; [apply ex_read|]. split; [intros; apply Ens_Main.ex_scores|]. split; [apply ex_delivers|].
  split; [discriminate|]. split; [intros k; repeat (constructor; try discriminate)|].
  split; [vm_compute; reflexivity|]. split; [vm_compute; reflexivity|]. split; vm_compute; reflexivity.
Qed.

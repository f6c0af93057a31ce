(** Reproducibility: random_state and one worker process. *)
(*IMPORTS*)
Require Import ZArith QArith.
From Verif Require Import Base Num Search_Model Search_Spec.
From Verif Require Async_Model.
From Verif Require Import Sys_Model Sys_Spec Det_Model Det_Spec.
Open Scope nat_scope.
(*END*)
From Verif Require Import Det_Proofs2.
From Verif Require Sys_Main.

(** Examples: the evaluations of the jobs succeed, and none is better than another in both
    respects; the worker [p] takes a job, executes it and hands over the result. *)
Definition det_call (fn : nat) (args : list nat) (kw : Async_Model.kwargs) (choice : nat) : Async_Model.outcome :=
  Async_Model.Ret (Async_Model.VEval (nth 0 args 0) Async_Model.NoError).
Definition det_scores (k : nat) : list num := [Fin (inject_Z (Z.of_nat k)); Fin (inject_Z (- Z.of_nat k))].
Definition det_ops : ops := gama_ops (fun _ _ => true) (fun _ _ r => (Ok tt, r)) (fun _ r => (Ok tt, r)) (fun r => (Ok tt, r)).
Definition working (p : nat) : turn :=
  mkTurn [Async_Model.Get p; Async_Model.Exec p 0; Async_Model.Flush p] (fun _ => Some 1) (fun _ => Some 1) (fun _ => Some 1) true.
Definition det_lists : list (list ind) := [[]; map (fun k => mkI k None None) (seq 10 6)].
Definition det_seeded (s : nat) : rng := seq s 40.

Lemma comparable_of w1 w2 : (calm_w w1 = calm_w w2 \/ pre w1 w2 \/ pre w2 w1) -> comparable (w_trace w1) (w_trace w2).
Proof.
  intros [C|[(t & E)|(t & E)]]; [exists []; left; rewrite app_nil_r; symmetry; apply calm_trace; auto|exists t; auto|exists t; auto].
Qed.
Definition EX (stop1 stop2 : option (nat * exn)) (e : exn) : Prop := exists k, In (Some (k, e)) [stop1; stop2].
Lemma bad_cut {A} stop1 stop2 (x : res A) : bad (EX stop1 stop2) x -> cut_short [stop1; stop2] x.
Proof. intros (e & -> & [->|(k & K)]); [left; auto|right; eauto]. Qed.
Lemma start_agree lists n r uid stop1 stop2 : agree (EX stop1 stop2) (start_world lists n [] r uid stop1) (start_world lists n [] r uid stop2).
Proof.
  split; [reflexivity|]. unfold limits, start_world, EX. cbn [w_stop In].
  split; [destruct stop1 as [[k e]|]|destruct stop2 as [[k e]|]]; try exact Logic.I; exists k; auto.
Qed.
Lemma seed_last seeded g h s : generator seeded g (h ++ [Construct (Some s)]) = seeded s.
Proof. unfold generator. rewrite fold_left_app. reflexivity. Qed.
Lemma from_context {A} call d (m1 m2 : MS A) log1 log2 lists r uid stop1 stop2 calls p1 p2 x1 x2 y1 y2 : steady call d ->
  dets call d (EX stop1 stop2) m1 m2 -> undisturbed p1 -> undisturbed p2 ->
  within_context call 1 None log1 d m1 (before lists 1 r uid stop1 p1 calls) = (x1, y1) ->
  within_context call 1 None log2 d m2 (before lists 1 r uid stop2 p2 calls) = (x2, y2) ->
  comparable (w_trace (y_w y1)) (w_trace (y_w y2)) /\
  (~ cut_short [stop1; stop2] x1 -> ~ cut_short [stop1; stop2] x2 ->
   x1 = x2 /\ w_trace (y_w y1) = w_trace (y_w y2) /\ w_lists (y_w y1) = w_lists (y_w y2)).
Proof.
  intros H D U1 U2 E1 E2. unfold before in *.
  destruct (in_context call d (EX stop1 stop2) m1 m2 log1 log2 _ _ calls p1 p2 _ _ _ _ _ _ _ _ D (start_agree lists 1 r uid stop1 stop2) U1 U2 E1 E2)
    as [(-> & C & _)|[(B & P)|(B & P)]].
  - split; [apply comparable_of; auto|]. intros _ _. split; auto.
    split; [apply calm_trace; auto|]. apply (f_equal w_lists) in C. exact C.
  - split; [apply comparable_of; auto|]. intros N _. destruct N. apply bad_cut. auto.
  - split; [apply comparable_of; auto|]. intros _ N. destruct N. apply bad_cut. auto.
Qed.

(** C143: the evolutionary search with one worker process: when fit is the first thing after
    the instance was made with this random_state, then, whatever happened before in the two processes, whatever
    the timing of the worker, and whenever the time limit arrives, one of the two searches
    continues the other: the same candidates, results and populations in the same order; and if neither
    is cut short they end in the same way. *)
Lemma C143_async_ea_partial_main :
  forall call scores defaults, steady call defaults ->
  forall seeded s g1 g2 h1 h2 log1 log2 o out restart max_n pop_size start lists uid stop1 stop2 plan1 plan2 calls x1 x2 y1 y2,
  undisturbed plan1 -> undisturbed plan2 ->
  s_async_ea call scores 1 None log1 defaults o out restart max_n pop_size start
    (before lists 1 (generator seeded g1 (h1 ++ [Construct (Some s)])) uid stop1 plan1 calls) = (x1, y1) ->
  s_async_ea call scores 1 None log2 defaults o out restart max_n pop_size start
    (before lists 1 (generator seeded g2 (h2 ++ [Construct (Some s)])) uid stop2 plan2 calls) = (x2, y2) ->
  comparable (w_trace (y_w y1)) (w_trace (y_w y2)) /\
  (~ cut_short [stop1; stop2] x1 -> ~ cut_short [stop1; stop2] x2 ->
   x1 = x2 /\ w_trace (y_w y1) = w_trace (y_w y2) /\ w_lists (y_w y1) = w_lists (y_w y2)).
Proof.
  intros call scores d H seeded s g1 g2 h1 h2 log1 log2 o out restart max_n pop_size start lists uid stop1 stop2 plan1 plan2 calls x1 x2 y1 y2 U1 U2 E1 E2.
  rewrite seed_last in E1, E2. unfold s_async_ea in *.
  assert (G : forall x1 x2 y1 y2, within_context call 1 None log1 d
       (sbind (s_ea_loop call scores o out restart max_n pop_size (2 * length (y_plan (before lists 1 (seeded s) uid stop1 plan1 calls)) + 3) (Some (Given start)) 0) (fun _ => sret out))
       (before lists 1 (seeded s) uid stop1 plan1 calls) = (x1, y1) ->
     within_context call 1 None log2 d
       (sbind (s_ea_loop call scores o out restart max_n pop_size (2 * length (y_plan (before lists 1 (seeded s) uid stop2 plan2 calls)) + 3) (Some (Given start)) 0) (fun _ => sret out))
       (before lists 1 (seeded s) uid stop2 plan2 calls) = (x2, y2) ->
     comparable (w_trace (y_w y1)) (w_trace (y_w y2)) /\
     (~ cut_short [stop1; stop2] x1 -> ~ cut_short [stop1; stop2] x2 ->
   x1 = x2 /\ w_trace (y_w y1) = w_trace (y_w y2) /\ w_lists (y_w y1) = w_lists (y_w y2))).
  { intros z1 z2 v1 v2 K1 K2. refine (from_context call d _ _ _ _ _ _ _ _ _ _ _ _ _ _ _ _ H _ U1 U2 K1 K2). apply dets_bind; [apply dets_ea; auto|intros ?; apply dets_ret]. }
  destruct max_n as [m|]; [destruct (m <=? 0)%Z|]; eauto.
  injection E1 as <- <-. injection E2 as <- <-. cbn [before y_w start_world w_trace w_lists]. split; [exists []; auto|auto].
Qed.
(** C143: the same for random search. *)
Lemma C143_random_search_partial_main :
  forall call scores defaults, steady call defaults ->
  forall seeded s g1 g2 h1 h2 log1 log2 o out max_n start lists uid stop1 stop2 plan1 plan2 calls x1 x2 y1 y2,
  undisturbed plan1 -> undisturbed plan2 ->
  s_random_search call scores 1 None log1 defaults o out max_n start
    (before lists 1 (generator seeded g1 (h1 ++ [Construct (Some s)])) uid stop1 plan1 calls) = (x1, y1) ->
  s_random_search call scores 1 None log2 defaults o out max_n start
    (before lists 1 (generator seeded g2 (h2 ++ [Construct (Some s)])) uid stop2 plan2 calls) = (x2, y2) ->
  comparable (w_trace (y_w y1)) (w_trace (y_w y2)) /\
  (~ cut_short [stop1; stop2] x1 -> ~ cut_short [stop1; stop2] x2 ->
   x1 = x2 /\ w_trace (y_w y1) = w_trace (y_w y2) /\ w_lists (y_w y1) = w_lists (y_w y2)).
Proof.
  intros call scores d H seeded s g1 g2 h1 h2 log1 log2 o out max_n start lists uid stop1 stop2 plan1 plan2 calls x1 x2 y1 y2 U1 U2 E1 E2.
  rewrite seed_last in E1, E2. unfold s_random_search in *.
  refine (from_context call d _ _ _ _ _ _ _ _ _ _ _ _ _ _ _ _ H _ U1 U2 E1 E2).
  apply dets_bind; [apply dets_own; auto with dt|intros l]. apply dets_bind; [apply dets_submit_all; auto|intros ?].
  apply dets_bind; [apply dets_rs; auto|intros ?; apply dets_ret].
Qed.
(** C143: and for ASHA, if whenever candidates have equal losses the same one is picked (here
    the random numbers decide; see C143_asha_refuted). *)
Lemma C143_asha_partial_main :
  forall call scores defaults, steady call defaults ->
  forall seeded s g1 g2 h1 h2 log1 log2 o eta min_res max_res first_rung max_rung start same max_full lists uid stop1 stop2 plan1 plan2 calls x1 x2 y1 y2,
  undisturbed plan1 -> undisturbed plan2 ->
  s_asha call scores 1 None log1 defaults o eta min_res max_res first_rung max_rung start same max_full
    (before lists 1 (generator seeded g1 (h1 ++ [Construct (Some s)])) uid stop1 plan1 calls) = (x1, y1) ->
  s_asha call scores 1 None log2 defaults o eta min_res max_res first_rung max_rung start same max_full
    (before lists 1 (generator seeded g2 (h2 ++ [Construct (Some s)])) uid stop2 plan2 calls) = (x2, y2) ->
  comparable (w_trace (y_w y1)) (w_trace (y_w y2)) /\
  (stop1 = None -> stop2 = None -> x1 <> Err Diverges -> x2 <> Err Diverges -> x1 = x2 /\ w_trace (y_w y1) = w_trace (y_w y2)).
Proof.
  intros call scores d H seeded s g1 g2 h1 h2 log1 log2 o eta a b fr mr start same mf lists uid stop1 stop2 plan1 plan2 calls x1 x2 y1 y2 U1 U2 E1 E2.
  rewrite seed_last in E1, E2. unfold s_asha in *. destruct (negb same).
  { injection E1 as <- <-. injection E2 as <- <-. cbn [before y_w start_world w_trace w_lists]. split; [exists []; auto|auto]. }
  match type of E1 with (let (_, _) := ?m in _) = _ => destruct m as [z1 v1] eqn:F1 end.
  match type of E2 with (let (_, _) := ?m in _) = _ => destruct m as [z2 v2] eqn:F2 end.
  unfold sbind at 1, own at 1, put_rungs in F1. unfold sbind at 1, own at 1, put_rungs in F2. cbn [y_w y_s y_jobs y_plan y_calls before] in F1, F2.
  assert (AG : agree (EX stop1 stop2)
     (mkW lists [] 1 [] (seeded s) uid stop1 (empty_rungs fr mr) []) (mkW lists [] 1 [] (seeded s) uid stop2 (empty_rungs fr mr) [])).
  { destruct (start_agree lists 1 (seeded s) uid stop1 stop2) as (_ & L1 & L2). split; [reflexivity|]. split; auto. }
  assert (Y1 : y_w y1 = y_w v1) by (destruct z1 as [?|e]; [destruct (w_rungs (y_w v1))|destruct e; try destruct (reached (w_rungs (y_w v1)))]; injection E1 as <- <-; auto).
  assert (Y2 : y_w y2 = y_w v2) by (destruct z2 as [?|e]; [destruct (w_rungs (y_w v2))|destruct e; try destruct (reached (w_rungs (y_w v2)))]; injection E2 as <- <-; auto).
  eapply (in_context call d (EX stop1 stop2)) in F2; [| |exact AG|exact U1|exact U2|exact F1].
  2:{ apply dets_bind; [apply dets_jobs; auto|intros ?]. apply dets_bind; [apply dets_own; auto with dt|intros ?]. apply dets_asha; auto. }
  unfold prey in F2. rewrite Y1, Y2.
  split; [apply comparable_of; destruct F2 as [(_ & C & _)|[(_ & P)|(_ & P)]]; auto|].
  intros -> -> N1 N2. destruct F2 as [(-> & C & _)|[((e & -> & [->|(k & [K|[K|[]]])]) & P)|((e & -> & [->|(k & [K|[K|[]]])]) & P)]]; try discriminate.
  - assert (CR : w_rungs (y_w v1) = w_rungs (y_w v2)) by (apply (f_equal w_rungs) in C; exact C). rewrite CR in E1.
    split; [|apply calm_trace; auto].
    destruct z2 as [?|e]; [destruct (w_rungs (y_w v2))|destruct e; try destruct (reached (w_rungs (y_w v2)))]; congruence.
  - destruct N1. congruence.
  - destruct N2. congruence.
Qed.

Lemma det_steady : steady det_call [].
Proof. intros k. left. exists k, Async_Model.NoError. reflexivity. Qed.
Definition just (acts : list Async_Model.act) : turn := mkTurn acts (fun _ => Some 1) (fun _ => Some 1) (fun _ => Some 1) true.
Definition one_by_one : list turn := map working [9; 9; 9; 9; 9; 9; 1; 2; 1; 2; 1; 2; 1; 2].
Definition second_first : list turn := map (fun _ => just [Async_Model.Get 1]) (seq 0 6) ++ map working [2; 2; 2; 1; 1; 1].
Lemma quiet_working l : undisturbed (map working l).
Proof. intros t p Ht. apply in_map_iff in Ht. destruct Ht as (q & <- & _). cbn. intuition discriminate. Qed.
Lemma quiet_second : undisturbed second_first.
Proof.
  intros t p Ht. apply in_app_iff in Ht. destruct Ht as [Ht|Ht]; [|eapply quiet_working; eauto].
  apply in_map_iff in Ht. destruct Ht as (q & <- & _). cbn. intuition discriminate.
Qed.
(** C143: it takes one worker: with two the order of the results depends on the timing. *)
Lemma C143_two_workers_refuted_main :
  ~ (forall call scores defaults, steady call defaults ->
     forall log o out restart max_n pop_size start lists r uid plan1 plan2 calls x1 x2 y1 y2, undisturbed plan1 -> undisturbed plan2 ->
     s_async_ea call scores 2 None log defaults o out restart max_n pop_size start (before lists 2 r uid None plan1 calls) = (x1, y1) ->
     s_async_ea call scores 2 None log defaults o out restart max_n pop_size start (before lists 2 r uid None plan2 calls) = (x2, y2) ->
     comparable (w_trace (y_w y1)) (w_trace (y_w y2))).
Proof.
  intros H.
  assert (E1 := surjective_pairing (s_async_ea det_call det_scores 2 None true [] det_ops 0 false (Some 2%Z) 3 1 (before det_lists 2 [] 50 None one_by_one []))).
  assert (E2 := surjective_pairing (s_async_ea det_call det_scores 2 None true [] det_ops 0 false (Some 2%Z) 3 1 (before det_lists 2 [] 50 None second_first []))).
  assert (K := H _ _ _ det_steady _ _ _ _ _ _ _ _ _ _ _ _ _ _ _ _ _ (quiet_working _) quiet_second E1 E2). clear H.
  clear E1 E2. vm_compute in K. destruct K as (t & [K|K]); discriminate K.
Qed.
(** C143: and fit has to be the first thing after the instance was made: the generator belongs to
    the process, so the second of two instances made with the same random_state, or the second fit of
    one instance, goes another way. *)
Lemma C143_seed_refuted_main :
  ~ (forall call scores defaults, steady call defaults ->
     forall seeded s h log o out restart max_n pop_size start lists uid plan calls x1 x2 y1 y2, undisturbed plan ->
     (forall a, In a h -> exists k, a = Draws k) ->
     s_async_ea call scores 1 None log defaults o out restart max_n pop_size start
       (before lists 1 (generator seeded [] [Construct (Some s)]) uid None plan calls) = (x1, y1) ->
     s_async_ea call scores 1 None log defaults o out restart max_n pop_size start
       (before lists 1 (generator seeded [] ([Construct (Some s)] ++ h)) uid None plan calls) = (x2, y2) ->
     comparable (w_trace (y_w y1)) (w_trace (y_w y2))).
Proof.
  intros H.
  assert (E1 := surjective_pairing (s_async_ea det_call det_scores 1 None true [] det_ops 0 false (Some 5%Z) 3 1 (before det_lists 1 (generator det_seeded [] [Construct (Some 0)]) 50 None (map working (repeat 1 14)) []))).
  assert (E2 := surjective_pairing (s_async_ea det_call det_scores 1 None true [] det_ops 0 false (Some 5%Z) 3 1 (before det_lists 1 (generator det_seeded [] ([Construct (Some 0)] ++ [Draws 1])) 50 None (map working (repeat 1 14)) []))).
  assert (K := fun L => H _ _ _ det_steady _ _ [Draws 1] _ _ _ _ _ _ _ _ _ _ _ _ _ _ _ (quiet_working _) L E1 E2). clear H.
  specialize (K ltac:(intros a [<-|[]]; eauto)).
  clear E1 E2. vm_compute in K. destruct K as (t & [K|K]); discriminate K.
Qed.
(** C143: ASHA is not reproducible in this way at all: among candidates with equal losses the
    promoted one is the first in the order of a set of objects whose hashes are new in every
    process.  Here nothing else is random. *)
Lemma C143_asha_refuted_main :
  ~ (forall call scores defaults, steady call defaults ->
     forall log o eta min_res max_res first_rung max_rung start same max_full lists r1 r2 uid plan calls x1 x2 y1 y2, undisturbed plan ->
     (forall r, o_individual o r = (Ok tt, r)) ->
     s_asha call scores 1 None log defaults o eta min_res max_res first_rung max_rung start same max_full (before lists 1 r1 uid None plan calls) = (x1, y1) ->
     s_asha call scores 1 None log defaults o eta min_res max_res first_rung max_rung start same max_full (before lists 1 r2 uid None plan calls) = (x2, y2) ->
     comparable (w_trace (y_w y1)) (w_trace (y_w y2))).
Proof.
  intros H.
  assert (E1 := surjective_pairing (s_asha det_call (fun _ => [Fin 0; Fin 0]) 1 None true [] det_ops 3 1 9 0 2%Z 1 true (Some 1%Z) (before det_lists 1 [0; 0; 0] 50 None (map working (repeat 1 30)) []))).
  assert (E2 := surjective_pairing (s_asha det_call (fun _ => [Fin 0; Fin 0]) 1 None true [] det_ops 3 1 9 0 2%Z 1 true (Some 1%Z) (before det_lists 1 [1; 0; 0] 50 None (map working (repeat 1 30)) []))).
  assert (K := H _ _ _ det_steady _ _ _ _ _ _ _ _ _ _ _ _ _ _ _ _ _ _ _ _ (quiet_working _) (fun r => (eq_refl : o_individual det_ops r = (Ok tt, r))) E1 E2). clear H.
  clear E1 E2. vm_compute in K. destruct K as (t & [K|K]); discriminate K.
Qed.
(** C143: two runs with one worker, one faster than the other and one that meets its time limit early. *)
Example C143_ex_main :
  steady det_call [] /\ undisturbed (map working (repeat 1 14)) /\ undisturbed (map working ([2; 3] ++ repeat 1 14)) /\
  exists y1 y2,
  s_async_ea det_call det_scores 1 None true [] det_ops 0 false (Some 5%Z) 3 1
    (before det_lists 1 (generator det_seeded [4; 4] ([Draws 1; Construct None] ++ [Construct (Some 0)])) 50 None (map working (repeat 1 14)) []) = (Ok 0, y1) /\
  s_async_ea det_call det_scores 1 None false [] det_ops 0 false (Some 5%Z) 3 1
    (before det_lists 1 (generator det_seeded [] ([] ++ [Construct (Some 0)])) 50 (Some (20, TimeoutException)) (map working ([2; 3] ++ repeat 1 14)) []) = (Err TimeoutException, y2) /\
  map (fun x => i_id (fst (fst x))) (dones (w_trace (y_w y1))) = [10; 11; 12; 13; 14] /\
  map (fun x => i_id (fst (fst x))) (dones (w_trace (y_w y2))) = [10; 11; 12; 13].
Proof.
  split; [apply det_steady|]. split; [apply quiet_working|]. split; [apply quiet_working|].
  do 2 eexists. split; [vm_compute; reflexivity|]. split; [vm_compute; reflexivity|]. split; reflexivity.
Qed.

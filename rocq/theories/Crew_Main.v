(** C176: fit with an ensemble succeeds, when its workers get their turns. *)
(*IMPORTS*)
Require Import Permutation ZArith QArith Qcanon.
From Verif Require Import Base Num Gp_Model Gp_Spec Gp_Examples Misc_Model Lib_Model Lib_Spec Evo_Model Evo_Spec Evo_Main Rnd_Model Rnd_Spec End_Model End_Spec Mix_Model Mix_Spec Mix_Main Proc_Model Proc_Spec Team_Model Team_Spec Live_Spec Done_Spec Top_Spec.
From Verif Require Ens_Model Ens_Spec Ens_Main Async_Model Sys_Model Sys_Main Proc_Main Live_Main Done_Main.
Open Scope nat_scope.
Open Scope list_scope.
(*END*)
From Verif Require Import Team_Main.
From Verif Require Top_Main Top_Proofs Whole_Proofs2.
Require Import Lia.

(** One of the evaluations that ended succeeded. *)
Lemma h_good call scores d failing w : h_from_workers call scores d w -> succeeds call d failing -> length failing < length (arrivals (q_trace w)) ->
  exists i r v, In (Finished i r (Evaluated (scores v) false)) (q_trace w).
Proof.
  intros (ks & N & F) (_ & Y) L. destruct (Done_Main.one_more ks failing N) as (k & K & NF); [rewrite (Done_Main.F2_number _ _ _ F); auto|].
  destruct (Done_Main.F2_pick _ _ _ _ F K) as ([[i r] o] & I & j & _ & _ & c & _ & LE). destruct (Y k c NF) as (v & EC). rewrite EC in LE. destruct LE as (f & -> & FF).
  assert (f = false) by (apply FF; auto). subst f.
  destruct (Proc_Main.in_arrivals _ _ _ _ I) as (t1 & t2 & ->). exists i, r, v. apply in_or_app. right. left. auto.
Qed.
(** ... on this rung. *)
Lemma h_good_on call scores d failing w r : h_from_workers call scores d w -> succeeds call d failing -> length failing < length (scored r (q_trace w)) ->
  exists i v, In (Finished i r (Evaluated (scores v) false)) (q_trace w).
Proof.
  intros (ks & N & F) (_ & Y) L.
  assert (K : exists ks', NoDup ks' /\ incl ks' ks /\ length ks' = length (scored r (q_trace w)) /\ forall k, In k ks' -> exists i o, In (i, r, o) (arrivals (q_trace w)) /\ call_ended call scores d k o).
  { assert (EQ : length (scored r (q_trace w)) = length (filter (fun x : individual * nat * outcome => match x with (_, q, Evaluated (_ :: _) _) => q =? r | _ => false end) (arrivals (q_trace w)))).
    { clear. induction (q_trace w) as [|[i q|i q [|[|z sc] b]] t IH]; cbn; auto. unfold scored in *. cbn [flat_map]. rewrite app_length, IH. destruct (q =? r); cbn; auto. }
    rewrite EQ. clear - N F. revert N. induction F as [|k [[i q] o] ks l H F IH]; intros N; [exists []; split; [constructor|]; split; [intros z []|split; [auto|intros k []]]|].
    inversion N as [|? ? N1 N2]; subst. destruct (IH N2) as (ks' & K1 & K2 & K3 & K4). cbn [filter].
    assert (K4' : forall z, In z ks' -> exists i0 o0, In (i0, r, o0) ((i, q, o) :: l) /\ call_ended call scores d z o0) by (intros z Hz; destruct (K4 z Hz) as (i0 & o0 & A & B); exists i0, o0; split; [right|]; auto).
    assert (SKIP : length ks' = length (filter (fun x : individual * nat * outcome => match x with (_, q, Evaluated (_ :: _) _) => q =? r | _ => false end) l) ->
      exists ks'0, NoDup ks'0 /\ incl ks'0 (k :: ks) /\ length ks'0 = length (filter (fun x : individual * nat * outcome => match x with (_, q, Evaluated (_ :: _) _) => q =? r | _ => false end) l) /\ (forall k0, In k0 ks'0 -> exists i0 o0, In (i0, r, o0) ((i, q, o) :: l) /\ call_ended call scores d k0 o0)).
    { intros EL. exists ks'. split; auto. split; [intros z Hz; right; auto|]. split; auto. }
    destruct o as [|[|z sc] b]; auto. destruct (Nat.eqb_spec q r) as [->|NE]; auto.
    destruct H as (j & _ & _ & CE). exists (k :: ks'). split; [constructor; auto|]. split; [intros y [<-|Hy]; [left|right]; auto|]. split; [cbn; auto|].
    intros y [<-|Hy]; auto. exists i, (Evaluated (z :: sc) b). split; [left|]; auto. }
  destruct K as (ks' & K1 & K2 & K3 & K4). destruct (Done_Main.one_more ks' failing K1) as (k & K & NF); [rewrite K3; auto|].
  destruct (K4 k K) as (i & o & I & c & _ & LE). destruct (Y k c NF) as (v & EC). rewrite EC in LE. destruct LE as (f & -> & FF). assert (f = false) by (apply FF; auto). subst f.
  destruct (Proc_Main.in_arrivals _ _ _ _ I) as (t1 & t2 & ->). exists i, v. apply in_or_app. right. left. auto.
Qed.
Lemma results_arrivals t : length (results t) <= length (arrivals t).
Proof. induction t as [|[i r|i r [|sc b]] t IH]; cbn; lia. Qed.

(** C176.  fit with random search and an ensemble returns an ensemble of the best evaluations,
    of the requested size: the workers get so many turns that the first candidates can be
    submitted, and more rounds than there are evaluations that do not succeed; these are fewer
    than max_evaluations, if that is given. *)
Lemma C176_random_main :
  forall A call scores n log defaults l0 rr data row tr (metric : list A -> Ens_Model.mat -> res num) task size hillclimb models y left r c
    ps max_length max_n warm_start s plan x w p failing,
  wf_heap (s_heap s) -> start_ok ps max_length s warm_start -> NoDup (map i_id warm_start) -> pset_rich ps -> allows_one max_length ->
  (forall k, Forall (fun x => x <> NaN) (scores k)) ->
  new_library (length y) l0 -> (forall n, Ens_Spec.readable row tr n c) -> (forall y1, Ens_Spec.scores (length y1) c (metric y1)) -> nlt (Fin 0) left ->
  0 < n -> succeeds call defaults failing -> (match max_n with Some m => (Z.of_nat (length failing) < m)%Z | None => True end) ->
  long_enough n (match warm_start with [] => 50 | _ => length warm_start end) (length failing) plan ->
  fit_random_ens_p call scores l0 rr data row tr metric task (ensemble_hps (VNum (Zpos size # 1)) hillclimb models) y left r
    ps max_length n log defaults max_n warm_start (before_h s plan) = (x, (w, p)) ->
  let good := succeeded (q_trace w) in
  delivers (length y) good data ->
  exists e, x = Ok (e, Ok tt) /\ ensemble_of good data (l_m l0) (Pos.to_nat size) e.
Proof.
  intros A call scores n log d l0 rr data row tr metric task size hc models y left r c ps ml mn warm s plan x w p failing H1 H2 H3 H4 H5 H6 H7 H8 H9 H10 POS Y MN (init & rounds & rest & EPL & NK & FR & LI & LF) E0 good DE.
  destruct (C163_random_main A call scores n log d l0 rr data row tr metric task size hc models y left r c ps ml mn warm s plan x w p H1 H2 H3 H4 H5 H6 H7 H8 H9 H10 E0 DE) as (F & _ & K & _). apply K. clear K.
  apply random_ens_top in E0 as (es & x1 & p1 & l & _ & R & _). rewrite EPL in R.
  pose proof (Live_Main.C172_random_main _ _ _ _ _ _ _ _ _ _ _ _ _ _ _ _ POS (proj1 Y) NK FR LI H1 H2 H4 H5 R) as C.
  assert (L : length failing < length (arrivals (q_trace w))).
  { pose proof (results_arrivals (q_trace w)). destruct mn as [m|]; [destruct C as [(_ & C)|(_ & C & _)]|destruct C as (_ & C)]; lia. }
  destruct (h_good _ _ _ _ _ F Y L) as (i & q & v & I). apply in_split in I as (t1 & t2 & ET). exists (length (results t1)), i, (scores v), q, t1, t2. auto.
Qed.
(** C176: with the evolutionary search, also with restarts, for any limit and number of scores;
    missing: it can end by the exceptions of C160. *)
Lemma C176_evolutionary_partial_main :
  forall A call scores n log defaults l0 rr data row tr (metric : list A -> Ens_Model.mat -> res num) task size hillclimb models y left r c
    ps max_length max_retry pop_size max_n (restart : bool) warm_start (s : setting) plan x w p failing k,
  wf_heap (s_heap s) -> start_ok ps max_length s warm_start -> NoDup (map i_id warm_start) ->
  pset_typed ps -> pset_rich ps -> allows_one max_length -> 0 < max_retry -> (forall e, length (scores e) = k) ->
  (forall k, Forall (fun x => x <> NaN) (scores k)) ->
  new_library (length y) l0 -> (forall n, Ens_Spec.readable row tr n c) -> (forall y1, Ens_Spec.scores (length y1) c (metric y1)) -> nlt (Fin 0) left ->
  0 < n -> succeeds call defaults failing -> (match max_n with Some m => (Z.of_nat (length failing) < m)%Z | None => True end) ->
  long_enough n (match warm_start with [] => 50 | _ => length warm_start end) ((if restart then S pop_size else 1) * length failing) plan ->
  fit_evo_ens_p call scores l0 rr data row tr metric task (ensemble_hps (VNum (Zpos size # 1)) hillclimb models) y left r
    ps max_length n log defaults max_retry pop_size max_n restart warm_start (before_search s plan) = (x, (w, p)) ->
  let good := succeeded_ea (v_trace w) in
  delivers (length y) good data ->
  (exists e, x = Ok (e, Ok tt) /\ ensemble_of good data (l_m l0) (Pos.to_nat size) e) \/
  (x = Err ValueError /\ length (v_pop w) < 3) \/
  (exists ex, x = Err ex /\ breakdown ps max_length k w (Err ex)).
Proof.
  intros A call scores n log d l0 rr data row tr metric task size hc models y left r c ps ml mr pz mn rst warm s plan x w p failing k H1 H2 H3 T1 T2 T3 MR KS H6 H7 H8 H9 H10 POS Y MN (init & rounds & rest & EPL & NK & FR & LI & LF) E0 good DE.
  assert (H2' : start_ok ps None s warm) by (eapply Forall_impl; [|exact H2]; intros i (I1 & ss & I2 & I3 & _); split; auto; exists ss; split; auto; split; auto; exact Logic.I).
  destruct (C163_evolutionary_main A call scores n log d l0 rr data row tr metric task size hc models y left r c ps ml mr pz mn rst warm s plan x w p T1 MR H1 H2' H3 H6 H7 H8 H9 H10 E0 DE) as (F & _ & K & _).
  assert (P : match mn with Some m => (0 < m)%Z | None => True end) by (destruct mn; lia || exact Logic.I).
  assert (E1 := E0). apply evo_ens_top in E1 as (es & x1 & p1 & l & _ & R & _). assert (R' := R). rewrite EPL in R'.
  pose proof (Live_Main.C172_evolutionary_main _ _ _ _ _ _ _ _ _ _ _ _ _ _ _ _ _ _ _ k POS (proj1 Y) NK FR LI T1 T2 T3 MR KS H1 H2 P R') as C.
  assert (G : length failing < length (collections (v_trace w)) -> x1 <> Err ValueError -> (forall ex, x1 = Err ex -> ex = Diverges) -> exists e, x = Ok (e, Ok tt) /\ ensemble_of good data (l_m l0) (Pos.to_nat size) e).
  { intros L _ DV. destruct (Done_Main.e_one _ _ _ _ _ F Y L) as (i & v & I). apply in_split in I as (t1 & t2 & ET).
    destruct K as [K|(ex & _ & ND & EX)]; auto; [exists (n_completed t1), i, (scores v), t1, t2; auto|]. exfalso. rewrite R in EX. cbn [fst] in EX. exact (ND (DV _ EX)). }
  destruct C as [(-> & C)|[(-> & C)|[C|(-> & C & _)]]].
  - left. destruct mn as [m|]; [|contradiction]. apply G; [lia|discriminate|discriminate].
  - right. left. split; auto. unfold fit_evo_ens_p in E0. rewrite R in E0. cbn in E0. congruence.
  - right. right.
    assert (XE : x1 = Err IndexError \/ x1 = Err AttributeError \/ x1 = Err ValueError).
    { destruct C as [(C & _)|(m & ss & lim & _ & _ & _ & [(_ & [C|C])|(_ & _ & _ & C)])]; auto. }
    destruct XE as [-> |[-> | ->]]; (eexists; split; [|exact C]; unfold fit_evo_ens_p in E0; rewrite R in E0; cbn in E0; congruence).
  - left. apply G; [|discriminate|congruence]. destruct rst; nia.
Qed.
(** C176: with ASHA, when the rounds are enough for more scores on the top rung than there are
    evaluations that do not succeed (see C174); missing: that evaluations on lower rungs are enough,
    which is false (C155). *)
Lemma C176_asha_partial_main :
  forall A call scores n log defaults l0 rr data row tr (metric : list A -> Ens_Model.mat -> res num) task size hillclimb models y left r c
    ps max_length eta first_rung max_rung max_full warm_start s plan x w p failing,
  wf_heap (s_heap s) -> start_ok ps max_length s warm_start -> NoDup (map i_id warm_start) -> pset_rich ps -> allows_one max_length ->
  (Z.of_nat first_rung <= max_rung)%Z -> (forall k, scores k <> []) -> (forall k, Forall (fun x => x <> NaN) (scores k)) ->
  new_library (length y) l0 -> (forall n, Ens_Spec.readable row tr n c) -> (forall y1, Ens_Spec.scores (length y1) c (metric y1)) -> nlt (Fin 0) left ->
  0 < n -> 0 < eta -> succeeds call defaults failing -> (match max_full with Some m => (Z.of_nat (length failing) < m)%Z | None => True end) ->
  long_enough n 8 (results_needed eta (length failing) (S (length failing)) (Z.to_nat max_rung - first_rung)) plan ->
  fit_asha_ens_p call scores l0 rr data row tr metric task (ensemble_hps (VNum (Zpos size # 1)) hillclimb models) y left r
    ps max_length n log defaults eta first_rung max_rung max_full warm_start (before_h s plan) = (x, (w, p)) ->
  let good := succeeded_on_top max_rung (q_trace w) in
  delivers (length y) good data ->
  exists e, x = Ok (e, Ok tt) /\ ensemble_of good data (l_m l0) (Pos.to_nat size) e.
Proof.
  intros A call scores n log d l0 rr data row tr metric task size hc models y left r c ps ml eta fr mr mf warm s plan x w p failing H1 H2 H3 H4 H5 H5' H6' H6 H7 H8 H9 H10 POS ETA Y MF (init & rounds & rest & EPL & NK & FR & LI & LF) E0 good DE.
  destruct (C163_asha_partial_main A call scores n log d l0 rr data row tr metric task size hc models y left r c ps ml eta fr mr mf warm s plan x w p H1 H2 H3 H4 H5 H5' H6' H6 H7 H8 H9 H10 E0 DE) as (F & _ & K & _). apply K. clear K.
  apply asha_ens_top in E0 as (es & x1 & p1 & l & _ & R & _). rewrite EPL in R.
  assert (YY : yields call d failing). { destruct Y as (Y1 & Y2). split; auto. intros k ch NI. destruct (Y2 k ch NI) as (v & E). eauto. }
  assert (L : length failing < length (scored (Z.to_nat mr) (q_trace w))).
  { destruct (Top_Main.C174_reaches_main _ _ _ _ _ _ _ _ _ _ _ _ _ _ _ _ _ _ _ failing (S (length failing)) POS ETA YY NK FR LI H6' (Nat.lt_le_incl _ _ LF) H1 H2 H3 H4 H5 H5' R) as [C|(full & -> & _ & C)]; lia. }
  destruct (h_good_on _ _ _ _ _ _ F Y L) as (i & v & I). apply in_split in I as (t1 & t2 & ET). exists (length (results t1)), i, (scores v), (Z.to_nat mr). split; [lia|]. exists t1, t2. auto.
Qed.
(** * Examples: two workers, in each round one of them is slower; the evaluation of submission 5
    fails; after the last round both workers are killed. *)
Lemma ex_one_fails : succeeds Live_Main.ex_evaluation [] [5].
Proof.
  split; [intros k c; left; eexists _, _; reflexivity|]. intros k c N. exists k. unfold Live_Main.ex_evaluation. destruct (Nat.eqb_spec k 5) as [->|_]; auto. exfalso. apply N. left. auto.
Qed.
Notation ex_rs_crew k := (fit_random_ens_p Live_Main.ex_evaluation Sys_Main.ex_scores ex_lib2 [] ex_data Ens_Main.ex_row None Ens_Main.sq_err None ex_options ex_y (Fin (1 # 1)) []
  ex_ps (Some 3%Z) 2 true [] None ex_start (before_h (ex_begin ex_rand) (Done_Main.ex_turns k))).
Notation ex_ea_crew restart rand k := (fit_evo_ens_p Live_Main.ex_evaluation Sys_Main.ex_scores ex_lib2 [] ex_data Ens_Main.ex_row None Ens_Main.sq_err None ex_options ex_y (Fin (1 # 1)) []
  ex_ps None 2 true [] 50 5 None restart ex_start (before_search (first_fit (ex_begin rand)) (Done_Main.ex_turns k))).
Notation ex_asha_crew k := (fit_asha_ens_p Live_Main.ex_evaluation Sys_Main.ex_scores ex_lib2 [] ex_data Ens_Main.ex_row None Ens_Main.sq_err None ex_options ex_y (Fin (1 # 1)) []
  ex_ps (Some 3%Z) 2 true [] 2 0 1%Z None ex_start (before_h (ex_begin ex_rand) (Done_Main.ex_turns k))).
Example C176_ex_main :
  wf_heap (s_heap (ex_begin ex_rand)) /\ start_ok ex_ps (Some 3%Z) (ex_begin ex_rand) ex_start /\ start_ok ex_ps None (ex_begin (repeat 1 300)) ex_start /\ NoDup (map i_id ex_start) /\
  pset_rich ex_ps /\ pset_typed ex_ps /\ allows_one (Some 3%Z) /\ roomy ex_ps None /\ (forall e, length (Sys_Main.ex_scores e) = 2) /\
  new_library (length ex_y) ex_lib2 /\ (forall good, delivers (length ex_y) good ex_data) /\
  succeeds Live_Main.ex_evaluation [] [5] /\ results_needed 2 1 2 1 = 25 /\
  long_enough 2 5 1 (Done_Main.ex_turns 2) /\ long_enough 2 5 6 (Done_Main.ex_turns 7) /\ long_enough 2 8 25 (Done_Main.ex_turns 26) /\
  ex_show (fst (ex_rs_crew 2)) = ([(3, 1); (2, 2)], Some [(103, 1); (102, 2)], Ok tt) /\
  ex_show (fst (ex_ea_crew true (repeat 1 300) 7)) = ([(4, 1); (3, 2)], Some [(104, 1); (103, 2)], Ok tt) /\
  ex_show (fst (ex_asha_crew 26)) = ([(29, 1); (27, 2)], Some [(149, 1); (146, 2)], Ok tt) /\
  (* no rounds; too few for the top rung *)
  ex_show (fst (ex_rs_crew 0)) = ([], None, Err ZeroDivisionError) /\
  ex_show (fst (ex_asha_crew 2)) = ([], None, Err ZeroDivisionError).
Proof.
  split; [apply (ex_begin_wf ex_p1); auto|]. split; [apply ex_start_ok; lia|]. split; [eapply Forall_impl; [|apply (ex_start_ok 3 (repeat 1 300)); lia]; intros i (I1 & ss & I2 & I3 & _); split; auto; exists ss; split; auto; split; auto; exact Logic.I|]. split; [apply ex_ids|]. split; [apply ex_rich|]. split; [apply ex_typed|]. split; [simpl; lia|].
  split; [left; auto|]. split; [reflexivity|]. split; [apply ex_lib_new|]. split; [apply ex_delivers|]. split; [apply ex_one_fails|]. split; [reflexivity|].
  split; [apply (Done_Main.ex_long 1 5); lia|]. split; [apply (Done_Main.ex_long 6 5); lia|]. split; [apply (Done_Main.ex_long 25 8); lia|].
  split; [vm_compute; reflexivity|]. split; [vm_compute; reflexivity|]. split; [vm_compute; reflexivity|]. split; vm_compute; reflexivity.
Qed.
(** C176 without the exception is false: two successes with so many workers and candidates
    that the population has fewer than three members when the first child is to be made. *)
Lemma C176_evolutionary_refuted_main :
  ~ (forall (A : Type) call scores n log defaults l0 rr data row tr (metric : list A -> Ens_Model.mat -> res num) task size hillclimb models y left r c
    ps max_length max_retry pop_size max_n (restart : bool) warm_start (s : setting) plan x w p failing k,
  wf_heap (s_heap s) -> start_ok ps max_length s warm_start -> NoDup (map i_id warm_start) ->
  pset_typed ps -> pset_rich ps -> roomy ps max_length -> 0 < max_retry -> 2 <= k -> (forall e, length (scores e) = k) ->
  (forall k, Forall (fun x => x <> NaN) (scores k)) ->
  new_library (length y) l0 -> (forall n, Ens_Spec.readable row tr n c) -> (forall y1, Ens_Spec.scores (length y1) c (metric y1)) -> nlt (Fin 0) left ->
  0 < n -> succeeds call defaults failing -> (match max_n with Some m => (Z.of_nat (length failing) < m)%Z | None => True end) ->
  long_enough n (match warm_start with [] => 50 | _ => length warm_start end) ((if restart then S pop_size else 1) * length failing) plan ->
  fit_evo_ens_p call scores l0 rr data row tr metric task (ensemble_hps (VNum (Zpos size # 1)) hillclimb models) y left r
    ps max_length n log defaults max_retry pop_size max_n restart warm_start (before_search s plan) = (x, (w, p)) ->
  let good := succeeded_ea (v_trace w) in
  delivers (length y) good data ->
  exists e, x = Ok (e, Ok tt) /\ ensemble_of good data (l_m l0) (Pos.to_nat size) e).
Proof.
  intros H.
  destruct C176_ex_main as (E1 & E2 & _ & E4 & E5 & E6 & _ & E8 & E9 & E10 & E11 & E12 & _ & E13 & _).
  assert (E2' : start_ok ex_ps None (ex_begin ex_rand) ex_start) by (eapply Forall_impl; [|exact E2]; intros i (I1 & ss & I2 & I3 & _); split; auto; exists ss; split; auto; split; auto; exact Logic.I).
  assert (ES : forall k, Forall (fun x => x <> NaN) (Sys_Main.ex_scores k)) by (intros k; repeat (constructor; try discriminate)).
  assert (EX : fst (ex_ea_crew false ex_rand 2) = Err ValueError) by (vm_compute; reflexivity).
  assert (L0 : nlt (Fin 0) (Fin (1 # 1))) by reflexivity. assert (L1 : 0 < 50) by lia. assert (L2 : 0 < 2) by lia.
  specialize (H _ Live_Main.ex_evaluation Sys_Main.ex_scores 2 true [] ex_lib2 [] ex_data Ens_Main.ex_row None Ens_Main.sq_err None 3%positive (VNum (10000 # 1)) (VNum (200 # 1)) ex_y (Fin (1 # 1)) [] 1
    ex_ps None 50 5 None false ex_start (first_fit (ex_begin ex_rand)) (Done_Main.ex_turns 2)).
  specialize (fun x w p => H x w p [5] 2 E1 E2' E4 E6 E5 E8 L1 (le_n 2) E9 ES E10 ex_read (fun y1 => Ens_Main.ex_scores y1 _ _) L0 L2 E12 Logic.I E13). clear - H EX E11. unfold ex_options in EX.
  match type of EX with fst ?t = _ => destruct t as [x [w p]] end. cbn [fst] in EX. destruct (H x w p eq_refl (E11 _)) as (e & K & _). rewrite EX in K. discriminate K.
Qed.

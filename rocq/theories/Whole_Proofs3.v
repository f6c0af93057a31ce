(** Lemmas about fit from the data to the model: a call of fit, and a series of them. *)
Require Import ZArith Permutation.
From Verif Require Import Base Num Lib_Spec Data_Model Data_Spec Gp_Model Gp_Spec Eval_Model Evo_Model Evo_Spec Rnd_Model Rnd_Spec End_Model End_Spec Pred_Model Fit_Model Fit_Spec Proc_Spec Whole_Model Whole_Spec Whole_Proofs Whole_Proofs2.
From Verif Require Async_Model Sys_Model Proc_Model Fac_Model Proc_Main End_Proofs Fac_Main Fit_Proofs Fit_Proofs2 Fit_Main Gp_Proofs4.
Open Scope nat_scope.
Open Scope list_scope.

(** * Fixed steps *)
Lemma in_individuals j f x s pop : In (Obj j f x s) pop -> In j (individuals_of pop).
Proof. induction pop as [|[i f' x' s'|e] pop IH]; cbn [individuals_of]; [intros []| |]; intros [H|H]; try discriminate; auto; [injection H as -> _ _ _; left; auto|right; auto]. Qed.
Lemma bound_own ext pop i : NoDup (map i_id (individuals_of pop)) -> own_steps pop ext i (bound ext pop (i_id i)).
Proof.
  induction pop as [|[j f x s|e] pop IH]; cbn [individuals_of map bound]; intros N.
  - split; [intros ? ? ? ? []|auto].
  - apply NoDup_cons_iff in N as (N1 & N2). destruct (IH N2) as (A & B). destruct (Nat.eqb_spec (i_id j) (i_id i)) as [EQ|NE].
    + split.
      * intros j' f' x' s' [H|H] E; [injection H as -> -> -> ->; reflexivity|]. exfalso. apply N1. rewrite EQ, <- E. apply in_map. eapply in_individuals; eauto.
      * intros H. destruct x as [l|]; [|reflexivity]. exfalso. exact (H _ _ _ _ (or_introl eq_refl) EQ).
    + split.
      * intros j' f' x' s' [H|H] E; [injection H as -> -> -> ->; contradiction|]. eapply A; eauto.
      * intros H. apply B. intros j' f' x' s' H'. eapply H. right. eauto.
  - destruct (IH N) as (A & B). split.
    + intros j' f' x' s' [H|H] E; [discriminate|]. eapply A; eauto.
    + intros H. apply B. intros j' f' x' s' H'. eapply H. right. eauto.
Qed.

Section Fit.
Context (rate : positive) (ft : enc_step -> frame -> res frame) (fitted : list enc_step -> frame -> frame -> res frame) (knn poly : primitive -> bool) (tl : bool).
Notation fit := (fit rate ft fitted knn poly fitness_of tl).

(** the population after a fit, successful or not *)
Lemma search_final c limit (g : inst obj) r g' : search_phase rate c limit g = (r, g') -> i_pset g' = i_pset g /\
  (i_final g' = i_final g \/ exists pop x y how deadline, Fac_Model.start_population (c_warm c) (i_final g) (c_fresh c (i_pset g)) = Ok pop /\
     c_search c (i_pset g) (i_extension g) pop x y (i_labels g) limit deadline = (how, i_final g') /\ (how = Ok tt \/ how = Err TimeoutException \/ how = Err KeyboardInterrupt)).
Proof.
  intros E. unfold Fit_Model.search_phase in E. destruct (Fac_Model.start_population (c_warm c) (i_final g) (c_fresh c (i_pset g))) as [pop|e]; [|injection E as _ <-; auto].
  destruct (i_x g) as [x|]; [|injection E as _ <-; auto]. destruct (i_y g) as [y|]; [|injection E as _ <-; auto].
  destruct (c_search _ _ _ _ _ _ _ _ _) as [outcome output] eqn:S. unfold Fac_Model.search_phase in E.
  destruct outcome as [[]|e]; [|destruct e]; injection E as _ <-; cbn [i_pset i_final set_dir set_final]; split; auto; right; do 5 eexists; (split; [reflexivity|]); (split; [exact S|]); auto.
Qed.
Lemma base_final c (g : inst obj) r g' : base_fit rate ft fitted knn poly fitness_of c g = (r, g') ->
  i_final g' = i_final g \/ exists ext labels limit pop x y how deadline, Fac_Model.start_population (c_warm c) (i_final g) (c_fresh c (i_pset g')) = Ok pop /\
     c_search c (i_pset g') ext pop x y labels limit deadline = (how, i_final g') /\ (how = Ok tt \/ how = Err TimeoutException \/ how = Err KeyboardInterrupt).
Proof.
  intros E. apply Fit_Proofs.base_fit_cases in E as (r1 & g1 & P & E). apply Fit_Proofs.pre_cases in P as (_ & _ & F1 & _). change (i_final (Fit_Proofs.begun rate c g)) with (i_final g) in F1.
  destruct r1 as [u|e]; [|destruct E as (_ & ->); left; exact F1]. cbn zeta in E. destruct E as [(_ & _ & ->)|(_ & r2 & g3 & S & E)]; [left; exact F1|].
  apply search_final in S as (Q & S). cbn [set_keeper i_pset i_final i_extension i_labels] in Q, S. rewrite F1 in S.
  assert (G : i_final g3 = i_final g' /\ i_pset g3 = i_pset g').
  { destruct r2 as [u2|e]; [|destruct E as (_ & ->); auto]. destruct E as (r3 & g5 & P & _ & E). apply Fit_Proofs.post_cases in P as (_ & _ & _ & _ & _ & _ & P7 & P8 & _). cbn [set_keeper i_pset i_final] in P7, P8.
    destruct r3 as [u3|e]; destruct E as (_ & ->); cbn [set_keeper set_dir i_pset i_final]; auto. }
  destruct G as (G1 & G2). rewrite G1 in S. rewrite <- Q, G2 in S. destruct S as [S|(pop & x & y & how & dl & S1 & S2 & S3)]; [left; exact S|].
  right. exists (i_extension g1), (i_labels g1). do 6 eexists. split; [exact S1|]. split; [exact S2|exact S3].
Qed.
Lemma fit_final c (g : inst obj) :
  i_final (snd (fit c g)) = i_final g \/ exists ext labels limit pop x y how deadline, Fac_Model.start_population (c_warm c) (i_final g) (c_fresh c (i_pset (snd (fit c g)))) = Ok pop /\
     c_search c (i_pset (snd (fit c g))) ext pop x y labels limit deadline = (how, i_final (snd (fit c g))) /\ (how = Ok tt \/ how = Err TimeoutException \/ how = Err KeyboardInterrupt).
Proof.
  unfold Fit_Model.fit. destruct (i_classifier g).
  - destruct (classifier_fit rate ft fitted knn poly fitness_of tl c g) as [r g'] eqn:E.
    assert (G : i_final g' = i_final g \/ exists ext labels limit pop x y how deadline, Fac_Model.start_population (c_warm c) (i_final g) (c_fresh c (i_pset g')) = Ok pop /\
       c_search c (i_pset g') ext pop x y labels limit deadline = (how, i_final g') /\ (how = Ok tt \/ how = Err TimeoutException \/ how = Err KeyboardInterrupt)).
    { apply Fit_Proofs2.classifier_cases in E as [(e & _ & -> & _)|(ls & classes & _ & _ & [(e & _ & -> & _)|(ls' & _ & _ & E)])]; [auto|auto|].
      apply base_final in E. destruct (Fit_Proofs2.inner_same c ls ls') as (_ & _ & Qw & _ & Qf & Q4 & _). destruct (Fit_Proofs2.inner_inst_same tl g classes ls') as (_ & Qn & _).
      rewrite Qw, Qf, Q4, Qn in E. exact E. }
    destruct r; exact G.
  - destruct (base_fit rate ft fitted knn poly fitness_of c g) as [r g'] eqn:E. apply base_final in E. destruct r; exact E.
Qed.
Lemma started_of {I} (c : call I) (g : inst I) space pop : Fac_Model.start_population (c_warm c) (i_final g) (c_fresh c space) = Ok pop -> started_from c g space pop.
Proof.
  intros B8. destruct (Fac_Main.C103_start_main I (c_fresh c space) (c_warm c) (i_final g)) as (S1 & S2 & S3 & S4).
  split; [intros given W1; apply Fit_Main.all_some; intros W2; rewrite (S2 given W1 W2) in B8; discriminate|]. split; [intros l W1 W2; rewrite (S1 l W1 W2) in B8; congruence|].
  split; [intros W1 W2; rewrite (S3 W1 W2) in B8; congruence|]. intros W1. rewrite (S4 W1) in B8. congruence.
Qed.
End Fit.

(** * A search of a fit *)
Section One.
Context {E : Type} (build : nat -> list (string * value) -> res E) (estimator : enc_step -> string * E) (train : list (string * E) -> frame -> yout -> res model)
  (ml : option Z) (n : nat) (log : bool) (d : Async_Model.kwargs) (e : circumstances) (g : inst obj).
Notation this how := (this_call build estimator train how ml n log d e).
Definition ended (how : res unit) : Prop := how = Ok tt \/ how = Err TimeoutException \/ how = Err KeyboardInterrupt.
Lemma from_usable how ps pop ext x y labels limit dl ending out mx : ready ps mx e g -> (mx = ml \/ mx = None) -> started_from (this how) g ps pop ->
  Whole_Model.search how ml n log d e ps ext pop x y labels limit dl = (ending, out) -> ended ending ->
  exists s, usable ps mx pop /\ wf_heap (s_heap s) /\ start_ok ps mx s (individuals_of pop) /\ NoDup (map i_id (individuals_of pop)) /\
    (exists i f b pop', pop = Obj i f b s :: pop').
Proof.
  intros R M S H EN. assert (ST : (usable ps mx pop /\ pop <> []) \/ (exists ex rest, pop = Unmade ex :: rest /\ Gp_Proofs4.creation_error ps ml ex)).
  { destruct R as (W & R1 & R2). destruct S as (S0 & S1 & S2 & S3). cbn [this_call c_warm c_fresh] in *.
    assert (NEW : pop = map (fresh ml (e_mem e) ps) (seq 0 50) -> (usable ps mx pop /\ pop <> []) \/ (exists ex rest, pop = Unmade ex :: rest /\ Gp_Proofs4.creation_error ps ml ex)).
    { intros ->. destruct (fresh_list ml (e_mem e) ps W) as [(ex & rest & A & B)|(l & s & A & L & B)]; [right; exists ex, rest; auto|left; rewrite A; split].
      - destruct M as [-> | ->]; [exact B|eapply usable_none; exact B].
      - destruct l; discriminate. }
    destruct (e_warm e) as [l|] eqn:EW.
    - destruct (S0 l eq_refl) as (l' & ->). destruct l' as [|o l']; [apply NEW, S3; left; reflexivity|].
      left. assert (NE : o :: l' <> []) by discriminate. rewrite (S1 _ eq_refl NE). auto.
    - destruct (i_final g) as [|o f] eqn:EF; [apply NEW, S3; right; auto|].
      left. assert (NE : o :: f <> []) by discriminate. rewrite (S2 eq_refl NE). auto. }
  destruct ST as [(U & NE)|(ex & rest & -> & CE)].
  - destruct (usable_head _ _ _ U NE) as (i & f & b & s & pop' & EP & W & SO & ND). exists s. split; auto. split; auto. split; auto. split; auto. exists i, f, b, pop'. exact EP.
  - exfalso. cbn [Whole_Model.search] in H. injection H as <- _. destruct EN as [EN|[EN|EN]]; try discriminate; injection EN as ->; destruct CE as [(CE & _)|(CE & _)]; discriminate.
Qed.
Lemma random_search max_n ps pop ext x y labels limit dl ending out : ready ps ml e g -> started_from (this (RandomSearch max_n)) g ps pop ->
  Whole_Model.search (RandomSearch max_n) ml n log d e ps ext pop x y labels limit dl = (ending, out) -> ended ending ->
  exists s r w p, Proc_Model.q_rs_phase (e_call e x y labels dl) (e_scores e) ps ml max_n n log d (individuals_of pop) (Proc_Model.before_h s (e_plan e)) = (r, (w, p)) /\
    h_from_workers (e_call e x y labels dl) (e_scores e) d w /\ found_ok ps ml (q_st w) (results (q_trace w)) /\
    out = as_objects (bound ext pop) (q_st w) (results (q_trace w)) /\ NoDup (map i_id (individuals_of pop)).
Proof.
  intros R S H EN. destruct (from_usable _ _ _ _ _ _ _ _ _ _ _ ml R (or_introl eq_refl) S H EN) as (s & U & W & SO & ND & i & f & b & pop' & EP).
  unfold Whole_Model.search in H. rewrite EP in H. rewrite <- EP in H.
  destruct (Proc_Model.q_rs_phase (e_call e x y labels dl) (e_scores e) ps ml max_n n log d (individuals_of pop) (Proc_Model.before_h s (e_plan e))) as [r [w p]] eqn:ER. injection H as H1 H2.
  destruct (rs_found _ _ _ _ _ _ _ _ _ _ _ _ _ _ W SO ND ER) as (A & B & C). exists s, r, w, p. split; [exact ER|]. split; [exact A|]. split; [exact C|]. cbn [fst] in H2. rewrite B in H2. auto.
Qed.
Lemma evo_search max_retry pop_size max_n restart ps pop ext x y labels limit dl ending out : pset_typed ps -> 0 < max_retry -> ready ps None e g ->
  started_from (this (Evolution max_retry pop_size max_n restart)) g ps pop ->
  Whole_Model.search (Evolution max_retry pop_size max_n restart) ml n log d e ps ext pop x y labels limit dl = (ending, out) -> ended ending ->
  exists (s : setting) r w p, seen_before s = seen_before (e_mem e) /\ Proc_Model.p_search (e_call e x y labels dl) (e_scores e) ps ml max_retry pop_size max_n restart n log d (individuals_of pop) (Proc_Model.before_search s (e_plan e)) = (r, (w, p)) /\
    from_workers (e_call e x y labels dl) (e_scores e) d w /\ incl (v_pop w) (successes (since_restart (v_trace w))) /\
    (length (successes (since_restart (v_trace w))) <= pop_size -> v_pop w = successes (since_restart (v_trace w))) /\ found_ok ps None (v_st w) (v_pop w) /\
    out = as_objects (inherited (bound ext pop) (v_trace w)) (v_st w) (v_pop w).
Proof.
  intros T HN R S H EN. destruct (from_usable _ _ _ _ _ _ _ _ _ _ _ None R (or_intror eq_refl) S H EN) as (s & U & W & SO & ND & i & f & b & pop' & EP).
  unfold Whole_Model.search in H. rewrite EP in H. rewrite <- EP in H.
  destruct (Proc_Model.p_search (e_call e x y labels dl) (e_scores e) ps ml max_retry pop_size max_n restart n log d (individuals_of pop) (Proc_Model.before_search (mkSetting s (seen_before (e_mem e))) (e_plan e))) as [r [w p]] eqn:ER. injection H as H1 H2.
  change (wf_heap (s_heap (mkSetting s (seen_before (e_mem e))))) in W. change (start_ok ps None (mkSetting s (seen_before (e_mem e))) (individuals_of pop)) in SO.
  assert (X : End_Proofs.stopped r). { subst ending. repeat split; intros ->; destruct EN as [EN|[EN|EN]]; discriminate. }
  destruct (evo_found _ _ _ _ _ _ _ _ _ _ _ _ _ _ _ _ _ T HN W SO ND X ER) as (A & B & C & D). exists (mkSetting s (seen_before (e_mem e))), r, w, p. split; [reflexivity|]. split; [exact ER|]. cbn [fst] in H2. auto.
Qed.
Lemma asha_search eta fr mr mf ps pop ext x y labels limit dl ending out : pset_rich ps -> allows_one ml -> (Z.of_nat fr <= mr)%Z -> (forall k, e_scores e k <> []) -> ready ps ml e g ->
  started_from (this (Halving eta fr mr mf)) g ps pop ->
  Whole_Model.search (Halving eta fr mr mf) ml n log d e ps ext pop x y labels limit dl = (ending, out) -> ended ending ->
  exists s r w p l, Proc_Model.q_asha_phase (e_call e x y labels dl) (e_scores e) ps ml eta fr mr mf n log d (individuals_of pop) (Proc_Model.before_h s (e_plan e)) = (r, (w, p)) /\
    h_from_workers (e_call e x y labels dl) (e_scores e) d w /\ found_ok ps ml (q_st w) l /\
    (l <> [] -> exists r, l = map snd (scored r (q_trace w)) /\ forall r', r < r' -> scored r' (q_trace w) = []) /\
    out = as_objects (bound ext pop) (q_st w) l /\ NoDup (map i_id (individuals_of pop)) /\ wf_heap (s_heap s) /\ start_ok ps ml s (individuals_of pop).
Proof.
  intros R1 R2 R3 H8 R S H EN. destruct (from_usable _ _ _ _ _ _ _ _ _ _ _ ml R (or_introl eq_refl) S H EN) as (s & U & W & SO & ND & i & f & b & pop' & EP).
  unfold Whole_Model.search in H. rewrite EP in H. rewrite <- EP in H.
  destruct (Proc_Model.q_asha_phase (e_call e x y labels dl) (e_scores e) ps ml eta fr mr mf n log d (individuals_of pop) (Proc_Model.before_h s (e_plan e))) as [r [w p]] eqn:ER.
  cbn [fst] in H. destruct (asha_output r (q_rungs w)) as [l|ex] eqn:EO.
  - injection H as H1 H2. destruct (asha_found _ _ _ _ _ _ _ _ _ _ _ _ _ _ _ _ _ _ W SO ND R1 R2 R3 H8 ER EO) as (A & B & C). exists s, r, w, p, l. split; [exact ER|]. auto 10.
  - exfalso. injection H as H1 _. subst ending. assert (ex = UnboundLocalError).
    { unfold asha_output in EO. destruct r as [u|[]]; try congruence; [destruct (q_rungs w); congruence|destruct (highest_reached (q_rungs w)); congruence]. }
    subst. destruct EN as [EN|[EN|EN]]; discriminate.
Qed.
End One.

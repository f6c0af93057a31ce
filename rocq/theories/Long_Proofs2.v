(** Two calls of fit of the same object that differ in the search only; the second may fail. *)
Require Import ZArith QArith Lia.
From Verif Require Import Base Num Lib_Spec Data_Model Tk_Model Gp_Model Gp_Spec Eval_Model Evo_Model Evo_Spec Rnd_Model Rnd_Spec End_Model End_Spec Pred_Model Fit_Model Fit_Spec Proc_Spec Whole_Model Whole_Spec.
From Verif Require Import Whole_Proofs3 Whole_Proofs4 Long_Proofs.
From Verif Require Fac_Model Fit_Proofs Fit_Proofs2 Fit_Main.
Open Scope nat_scope.
Open Scope list_scope.

Section Two.
Context {I : Type} (rate : positive) (ft : enc_step -> frame -> res frame) (fitted : list enc_step -> frame -> frame -> res frame) (knn poly : primitive -> bool)
  (key : I -> option (list num)) (tl : bool).
Notation base_fit := (base_fit rate ft fitted knn poly key).
(** the search and the end of the second *)
Definition followed (c c' : call I) (g g1 g2 : inst I) (r r' : res unit) : Prop :=
  i_pset g2 = i_pset g1 /\
  exists pop xe y ext labels limit dl how out how' out', Fac_Model.start_population (c_warm c) (i_final g) (c_fresh c (i_pset g1)) = Ok pop /\
    c_search c (i_pset g1) ext pop xe y labels limit dl = (how, out) /\ finished key c g xe y how out r /\
    c_search c' (i_pset g1) ext pop xe y labels limit dl = (how', out') /\ finished key c' g xe y how' out' r'.
Lemma base_followed c c' g r g1 r' g2 : agree c c' -> base_fit c g = (Ok r, g1) -> base_fit c' g = (r', g2) -> followed c c' g g1 g2 (Ok r) r'.
Proof.
  intros (A1 & A2 & A3 & A4 & A5 & A6) E E'. assert (E1 := E).
  apply Fit_Proofs2.base_ok in E as (x & y & types & steps & xe & ext & pop & how & m & B1 & B2 & B3 & B4 & B5 & B6 & B7 & B8 & B9 & B10 & B11 & _).
  destruct (base_goes_at rate ft fitted knn poly key c g x y types xe steps ext pop (i_pset g1) (Ok r) g1 B1 B2 B3 B4 B5 (eq_sym B6) B8 E1) as (_ & _ & _ & h1 & o1 & S1 & F1).
  assert (E2 : i_pset g2 = i_pset g1 /\ i_extension g2 = ext /\ i_labels g2 = i_labels g /\ exists ending out,
     c_search c' (i_pset g1) ext pop xe y (i_labels g) (Fit_Proofs.limit1 rate c' g) (c_clock c' 5 + ticks rate (Fit_Proofs.limit1 rate c' g))%Z = (ending, out) /\ finished key c' g xe y ending out r').
  { apply (base_goes_at rate ft fitted knn poly key c' g x y types xe steps ext pop (i_pset g1) r' g2); [congruence|congruence|exact B3|exact B4|unfold Fit_Proofs.left1 in *; rewrite A5; exact B5|exact (eq_sym B6)|rewrite A4, A6; exact B8|exact E']. }
  destruct E2 as (Q & _ & _ & h2 & o2 & S2 & F2). split; [exact Q|].
  unfold Fit_Proofs.limit1, Fit_Proofs.left1 in S1, S2. rewrite A5 in S2.
  exists pop, xe, y, ext, (i_labels g). do 2 eexists. exists h1, o1, h2, o2. split; [exact B8|]. split; [exact S1|]. split; [exact F1|]. split; [exact S2|exact F2].
Qed.
Lemma fit_followed c c' g r g1 r' g2 : agree c c' -> c_sampling c' = c_sampling c -> fit rate ft fitted knn poly key tl c g = (Ok r, g1) -> fit rate ft fitted knn poly key tl c' g = (r', g2) ->
  exists r0 u, followed c c' g g1 g2 (Ok u) r0 /\ match r0 with Ok _ => exists v, r' = Ok v | Err ex => r' = Err ex end.
Proof.
  intros A SA E E'. unfold fit in E, E'. destruct (i_classifier g) eqn:C.
  - destruct (classifier_fit rate ft fitted knn poly key tl c g) as [[u|e] h] eqn:F; [|discriminate]. injection E as <- ->.
    destruct (classifier_fit rate ft fitted knn poly key tl c' g) as [r0 h] eqn:F'. exists r0, u. split; [|destruct r0; injection E' as <- _; eauto].
    assert (h = g2) by (destruct r0; injection E' as _ <-; reflexivity). subst h. clear E'.
    apply Fit_Proofs2.classifier_cases in F as [(e & E & _)|(ls & classes & T & L & [(e & E & _)|(ls' & CL & SO & B)])]; try discriminate.
    destruct A as (A1 & A2 & A3 & A4 & A5 & A6).
    apply Fit_Proofs2.classifier_cases in F' as [(e & _ & _ & [K|(ls2 & K & K2)])|(ls2 & classes2 & T2 & L2 & [(e & _ & _ & [K|(ls2' & K & K2)])|(ls2' & CL2 & _ & B')])]; try congruence.
    all: try (rewrite A2, T in K; injection K as <-; congruence).
    all: try (rewrite A2, T in T2; injection T2 as <-; congruence).
    all: try (rewrite A2, T in T2; injection T2 as <-; rewrite CL in K; injection K as _ <-; congruence).
    rewrite A2, T in T2. injection T2 as <-. rewrite L in L2. injection L2 as <-. rewrite CL in CL2. injection CL2 as <-.
    assert (K : agree (Fit_Proofs2.inner_call c ls ls') (Fit_Proofs2.inner_call c' ls ls')).
    { unfold Fit_Proofs2.inner_call, with_y. destruct (existsb is_str ls); repeat split; cbn; assumption. }
    apply (base_followed _ _ _ _ _ _ _ K B) in B'. unfold followed, finished in *.
    destruct (Fit_Proofs2.inner_same c ls ls') as (_ & _ & Qw & _ & Qf & Q4 & Qd & Q5). destruct (Fit_Proofs2.inner_same c' ls ls') as (_ & _ & _ & _ & _ & Q4' & Qd' & Q5'). destruct (Fit_Proofs2.inner_inst_same tl g classes ls') as ((_ & _ & _ & _ & QS) & Qn & _).
    rewrite Qw, Qf, Qn, Q4, Q4', Qd, Qd', Q5, Q5', QS in B'. exact B'.
  - destruct (base_fit c g) as [[u|e] h] eqn:F; [|discriminate]. injection E as <- ->.
    destruct (base_fit c' g) as [r0 h] eqn:F'. exists r0, u. split; [|destruct r0; injection E' as <- _; eauto].
    assert (h = g2) by (destruct r0; injection E' as _ <-; reflexivity). subst h. eapply base_followed; eauto.
Qed.
End Two.

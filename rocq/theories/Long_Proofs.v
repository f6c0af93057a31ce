(** Two calls of fit of the same object that differ in the search only. *)
Require Import ZArith QArith.
From Verif Require Import Base Num Lib_Spec Data_Model Gp_Model Gp_Spec Eval_Model Evo_Model Evo_Spec Rnd_Model Rnd_Spec End_Model End_Spec Pred_Model Fit_Model Fit_Spec Proc_Spec Whole_Model Whole_Spec.
From Verif Require Fac_Model Fit_Proofs Fit_Proofs2 Fit_Main.
Open Scope nat_scope.
Open Scope list_scope.

Section Two.
Context {I : Type} (rate : positive) (ft : enc_step -> frame -> res frame) (fitted : list enc_step -> frame -> frame -> res frame) (knn poly : primitive -> bool)
  (key : I -> option (list num)) (tl : bool).
Definition agree (c c' : call I) : Prop :=
  c_x c' = c_x c /\ c_y c' = c_y c /\ c_declared c' = c_declared c /\ c_warm c' = c_warm c /\ c_clock c' = c_clock c /\ c_fresh c' = c_fresh c.
Definition stopped (how : res unit) : Prop := how = Ok tt \/ how = Err TimeoutException \/ how = Err KeyboardInterrupt.
(** what the two searches had in common *)
Definition alike (c c' : call I) (g g1 g2 : inst I) : Prop :=
  i_pset g2 = i_pset g1 /\ i_extension g2 = i_extension g1 /\ i_labels g2 = i_labels g1 /\
  exists pop xe y limit dl how how', Fac_Model.start_population (c_warm c) (i_final g) (c_fresh c (i_pset g1)) = Ok pop /\
    c_search c (i_pset g1) (i_extension g1) pop xe y (i_labels g1) limit dl = (how, i_final g1) /\ stopped how /\
    c_search c' (i_pset g1) (i_extension g1) pop xe y (i_labels g1) limit dl = (how', i_final g2) /\ stopped how'.
Lemma base_two c c' g r g1 r' g2 : agree c c' -> base_fit rate ft fitted knn poly key c g = (Ok r, g1) -> base_fit rate ft fitted knn poly key c' g = (Ok r', g2) -> alike c c' g g1 g2.
Proof.
  intros (A1 & A2 & A3 & A4 & A5 & A6) E E'.
  apply Fit_Proofs2.base_ok in E as (x & y & types & steps & xe & ext & pop & how & m & B1 & B2 & B3 & B4 & B5 & B6 & B7 & B8 & B9 & B10 & B11 & _).
  apply Fit_Proofs2.base_ok in E' as (x' & y' & types' & steps' & xe' & ext' & pop' & how' & m' & D1 & D2 & D3 & D4 & D5 & D6 & D7 & D8 & D9 & D10 & D11 & _).
  rewrite A1, A2, B1 in D1. injection D1 as <- <-. rewrite B3 in D3. injection D3 as <- <-. rewrite B4 in D4. injection D4 as <-.
  assert (Q : i_pset g2 = i_pset g1) by congruence. split; [exact Q|]. split; [congruence|]. split; [congruence|].
  rewrite A4, A6, Q, B8 in D8. injection D8 as <-.
  rewrite Q in D10. unfold Fit_Proofs.limit1, Fit_Proofs.left1 in D10, B10. rewrite A5 in D10.
  exists pop, xe, y. do 2 eexists. exists how, how'. split; [exact B8|]. rewrite B7, B9. split; [exact B10|]. split; [exact B11|]. split; [exact D10|exact D11].
Qed.
Lemma fit_two c c' g r g1 r' g2 : agree c c' -> fit rate ft fitted knn poly key tl c g = (Ok r, g1) -> fit rate ft fitted knn poly key tl c' g = (Ok r', g2) -> alike c c' g g1 g2.
Proof.
  intros A E E'. unfold fit in E, E'. destruct (i_classifier g) eqn:C.
  - destruct (classifier_fit rate ft fitted knn poly key tl c g) as [[[]|e] h] eqn:F; [|discriminate]. injection E as <- ->.
    destruct (classifier_fit rate ft fitted knn poly key tl c' g) as [[[]|e] h] eqn:F'; [|discriminate]. injection E' as <- ->.
    apply Fit_Proofs2.classifier_cases in F as [(e & E & _)|(ls & classes & T & L & [(e & E & _)|(ls' & CL & _ & B)])]; try discriminate.
    apply Fit_Proofs2.classifier_cases in F' as [(e & E & _)|(ls2 & classes2 & T2 & L2 & [(e & E & _)|(ls2' & CL2 & _ & B')])]; try discriminate.
    destruct A as (A1 & A2 & A3 & A4 & A5 & A6). rewrite A2, T in T2. injection T2 as <-. rewrite L in L2. injection L2 as <-. rewrite CL in CL2. injection CL2 as <-.
    assert (K : agree (Fit_Proofs2.inner_call c ls ls') (Fit_Proofs2.inner_call c' ls ls')).
    { unfold Fit_Proofs2.inner_call, with_y. destruct (existsb is_str ls); repeat split; cbn; assumption. }
    apply (base_two _ _ _ _ _ _ _ K B) in B' as (Q1 & Q2 & Q3 & pop & xe & y & limit & dl & how & how' & S1 & S2 & S3 & S4 & S5).
    destruct (Fit_Proofs2.inner_same c ls ls') as (_ & _ & Qw & _ & Qf & Q4 & _). destruct (Fit_Proofs2.inner_same c' ls ls') as (_ & _ & _ & _ & _ & Q4' & _). destruct (Fit_Proofs2.inner_inst_same tl g classes ls') as (_ & Qn & _).
    rewrite Qw, Qf, Qn in S1. rewrite Q4 in S2. rewrite Q4' in S4.
    split; [exact Q1|]. split; [exact Q2|]. split; [exact Q3|]. exists pop, xe, y, limit, dl, how, how'. auto 6.
  - destruct (base_fit rate ft fitted knn poly key c g) as [[[]|e] h] eqn:F; [|discriminate]. injection E as <- ->.
    destruct (base_fit rate ft fitted knn poly key c' g) as [[[]|e] h] eqn:F'; [|discriminate]. injection E' as <- ->.
    eapply base_two; eauto.
Qed.
End Two.

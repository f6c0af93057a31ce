(** Theorems about fit as a whole; restated in [Fit_Props.v]. *)
(*IMPORTS*)
Require Import QArith Qcanon Permutation Sorted.
From Verif Require Import Base Num Data_Model Data_Spec Tk_Model Gp_Model Lib_Spec Pred_Model Pred_Spec Fit_Model Fit_Spec.
From Verif Require Fac_Model.
Open Scope string_scope.
Open Scope list_scope.
Open Scope nat_scope.
(*END*)
Require Import Lqa.
From Verif Require Import Fit_Proofs Fit_Proofs2.
From Verif Require Num_Proofs Gp_Proofs Fac_Proofs Fac_Main Data_Main Data_Proofs.

Lemma all_some {I} (l : list (option I)) : ~ In None l -> exists l', l = map Some l'.
Proof.
  induction l as [|[i|] l IH]; intros H; [exists []; reflexivity| |exfalso; apply H; left; reflexivity].
  destruct IH as (l' & ->); [intros K; apply H; right; exact K|]. exists (i :: l'). reflexivity.
Qed.
Lemma best_first_of {I} (key : I -> option (list num)) (out : list I) :
  Forall (fun i => key i <> None) out -> best_first key out (Fac_Model.best_individuals (values key) out).
Proof.
  intros F. split; [|split; [exact F|]].
  - unfold Fac_Model.best_individuals. eapply Permutation_trans; [apply Permutation_sym, Permutation_rev|]. apply Permutation_sym, Gp_Proofs.py_sorted_perm.
  - intros N. destruct (Fac_Proofs.best_sorted (values key) out) as (P & S).
    { intros i Hi. unfold values. destruct (key i) as [v|] eqn:K; [eapply N; eauto|constructor]. }
    clear - S. induction S as [|a l S IH Fa]; constructor; auto. eapply Forall_impl; [|exact Fa]. intros b Hb v w Ka Kb. unfold values in Hb. rewrite Ka, Kb in Hb. exact Hb.
Qed.
Lemma answers_of types enc classes m : answers (Pred_Model.mkGama types (Some enc) classes (Some m)) types enc classes m.
Proof.
  intros pf pi other. split; [|split].
  - intros q. reflexivity.
  - intros q. reflexivity.
  - intros n cols q P. destruct (P (Some enc) classes (Some m)) as (P1 & P2). split; [exact P1|exact (P2 true)].
Qed.

Lemma silent_of types enc classes : silent (Pred_Model.mkGama types (Some enc) classes None).
Proof.
  intros pf pi other x. unfold predict, predict_proba, predict_frame, predict_proba_frame. cbn [g_model].
  split; [intros a|intros [] a]; try destruct (prepare _ _ _ _ _); cbn [rbind]; discriminate.
Qed.

(** C116: what a successful fit leaves.  The search and the post-processing worked
    on the encoded training rows of this call, under the limits in the time keeper;
    the post-processing got the evaluated individuals of this search, best first, and
    its model, if it makes one, answers, through the encoders fitted on the same rows and the classes of
    the same targets. *)
Lemma C116_fitted_main :
  forall I rate fit_transform fitted knn poly (key : I -> option (list num)) takes_labels g c r g',
  history rate fit_transform fitted knn poly key takes_labels g ->
  fit rate fit_transform fitted knn poly key takes_labels c g = (Ok r, g') ->
  exists x y classes types steps xe best rest m,
    training_data c (i_classifier g) x y classes /\
    inferred_dtypes (c_x c) (c_declared c) = Ok types /\
    preprocess fit_transform x (i_classifier g) = Ok (xe, steps, i_extension g') /\
    space_for knn poly (i_stores g) (length (f_index xe)) (length (f_cols xe)) (i_pset g) (i_pset g') /\
    searched rate c g g' xe y (i_final g') /\
    best_first key (i_final g') best /\ c_post c xe y rest best = Ok m /\
    (rest = i_total g * Zpos rate - spent (c_clock c) 0 1 - spent (c_clock c) 4 6 - spent (c_clock c) 8 9)%Z /\
    match m with Some m => answers (i_gama g') types (fitted steps x) classes m | None => silent (i_gama g') end.
Proof.
  intros I rate ft fitted knn poly key tl g c r g' H E.
  assert (K : forall c0 g0 r0, i_classifier g0 = i_classifier g -> i_total g0 = i_total g -> i_stores g0 = i_stores g -> i_pset g0 = i_pset g -> i_final g0 = i_final g -> c_warm c0 = c_warm c -> c_fresh c0 = c_fresh c -> c_clock c0 = c_clock c -> c_search c0 = c_search c -> c_post c0 = c_post c -> c_x c0 = c_x c -> c_declared c0 = c_declared c ->
    base_fit rate ft fitted knn poly key c0 g0 = (Ok r0, g') ->
    exists x y types steps xe best rest m, format_x_y (c_x c0) (c_y c0) TSeries true = Ok (x, y) /\ inferred_dtypes (c_x c) (c_declared c) = Ok types /\
      preprocess ft x (i_classifier g) = Ok (xe, steps, i_extension g') /\
      space_for knn poly (i_stores g) (length (f_index xe)) (length (f_cols xe)) (i_pset g) (i_pset g') /\ searched rate c g g' xe y (i_final g') /\
      best_first key (i_final g') best /\ c_post c xe y rest best = Ok m /\
      (rest = i_total g * Zpos rate - spent (c_clock c) 0 1 - spent (c_clock c) 4 6 - spent (c_clock c) 8 9)%Z /\ match m with Some m => answers (i_gama g') types (fitted steps x) (g_classes (i_gama g0)) m | None => silent (i_gama g') end).
  { intros c0 g0 r0 Hc Ht Hst Hps Hf Hw Hn Hk Hs Hp Hx Hd B. apply base_ok in B as (x & y & types & steps & xe & ext & pop & how & m & B1 & B2 & B3 & B4 & B5 & B6 & B7 & B8 & B9 & B10 & B11 & B12 & B13 & B14 & B15 & B16 & B17 & B18).
    exists x, y, types, steps, xe, (Fac_Model.best_individuals (values key) (i_final g')), (left3 rate c0 g0), m.
    rewrite Hc in *. rewrite Hx, Hd in B2. split; [exact B1|]. split; [exact B2|]. split; [unfold preprocess; rewrite B3; cbn [rbind]; rewrite B4; cbn [rbind]; rewrite B7; reflexivity|].
    split; [intros k p; rewrite B6, Hst, Hps; apply Fac_Main.C104_excluded_main|]. split.
    { exists pop, (limit1 rate c0 g0), how. rewrite B7, B9. rewrite <- Hs, <- Hk. split; [exact B10|]. split; [|split; [exact B11|]].
      { rewrite Hf, Hw, Hn in B8. unfold started_from. destruct (Fac_Main.C103_start_main I (c_fresh c (i_pset g')) (c_warm c) (i_final g)) as (S1 & S2 & S3 & S4).
        split; [intros given W1; apply all_some; intros W2; rewrite (S2 given W1 W2) in B8; discriminate|]. split; [intros l W1 W2; rewrite (S1 l W1 W2) in B8; congruence|]. split; [intros W1 W2; rewrite (S3 W1 W2) in B8; congruence|]. intros W1. rewrite (S4 W1) in B8. congruence. }
      rewrite B15. eexists. split; [reflexivity|]. split; reflexivity. }
    split; [apply best_first_of; exact B12|]. split; [rewrite <- Hp; exact B13|]. split; [unfold left3, left2, left1, spent, ticks; rewrite Ht, Hk; lia|]. rewrite B14. destruct m; [apply answers_of|apply silent_of]. }
  unfold fit in E. destruct (i_classifier g) eqn:C.
  - destruct (classifier_fit rate ft fitted knn poly key tl c g) as [[[]|e] g1] eqn:F; [|discriminate]. injection E as <- ->.
    apply classifier_cases in F as [(e & E & _)|(ls & classes & T & L & [(e & E & _)|(ls' & CL & _ & B)])]; try discriminate.
    destruct (inner_same c ls ls') as (Q1 & Q2 & Qw & Q3 & Qf & Q4 & _ & Q5). destruct (inner_inst_same tl g classes ls') as (Q6 & Qn & Qps & Q7 & _). destruct Q6 as (Q6 & Qt & _ & Qst & _).
    apply K in B; try congruence. destruct B as (x & y & types & steps & xe & best & rest & m & B1 & B2 & B3 & B3' & B4 & B5 & B6 & B6' & B7).
    exists x, y, (Some classes), types, steps, xe, best, rest, m. split; [|rewrite Q7 in B7; auto 12].
    unfold training_data. exists classes. split; auto. rewrite (inner_format c ls classes ls' T CL), B1. reflexivity.
  - destruct (base_fit rate ft fitted knn poly key c g) as [[[]|e] g1] eqn:B; [|discriminate]. injection E as <- ->.
    apply K in B; auto. destruct B as (x & y & types & steps & xe & best & rest & m & B1 & B2 & B3 & B3' & B4 & B5 & B6 & B6' & B7).
    exists x, y, None, types, steps, xe, best, rest, m. split; [unfold training_data; auto|]. destruct (history_inv _ _ _ _ _ _ _ _ H C) as (_ & N). rewrite N in B7. auto 12.
Qed.
(** With the best-fit post-processing (preset "simple") the model is one trained on
    these rows from an individual that none of the others found beats. *)
Lemma C116_best_main :
  forall I rate fit_transform fitted knn poly (key : I -> option (list num)) takes_labels train g c r g',
  history rate fit_transform fitted knn poly key takes_labels g -> c_post c = best_fit_post train ->
  fit rate fit_transform fitted knn poly key takes_labels c g = (Ok r, g') ->
  exists x y classes types steps xe i m,
    training_data c (i_classifier g) x y classes /\ inferred_dtypes (c_x c) (c_declared c) = Ok types /\
    preprocess fit_transform x (i_classifier g) = Ok (xe, steps, i_extension g') /\
    In i (i_final g') /\ train i xe y = Ok m /\ answers (i_gama g') types (fitted steps x) classes m /\
    ((forall j v, In j (i_final g') -> key j = Some v -> Forall (fun n => n <> NaN) v) ->
     forall j v w, In j (i_final g') -> key i = Some v -> key j = Some w -> ~ lex_lt v w).
Proof.
  intros I rate ft fitted knn poly key tl train g c r g' H P E.
  destruct (C116_fitted_main _ _ _ _ _ _ _ _ _ _ _ _ H E) as (x & y & classes & types & steps & xe & best & rest & m & T & Ty & D & _ & _ & (B1 & _ & B2) & B & _ & A).
  rewrite P in B. unfold best_fit_post, Fac_Model.best_fit in B. destruct best as [|i best]; [discriminate|]. cbn [rbind] in B.
  destruct (train i xe y) as [m'|] eqn:TR; [|discriminate]. cbn [rbind] in B. injection B as <-. rename m' into m.
  exists x, y, classes, types, steps, xe, i, m. split; auto. split; auto. split; auto. split; [apply (Permutation_in _ B1); left; reflexivity|]. split; auto. split; auto.
  intros N. specialize (B2 N). inversion B2 as [|a l S F]; subst. intros j v w Hj Ki Kj. apply (Permutation_in _ (Permutation_sym B1)) in Hj. destruct Hj as [<-|Hj].
  - rewrite Ki in Kj. injection Kj as <-. intros (k & _ & [(_ & _ & L)|(L1 & L2)]); [exact (Num_Proofs.nlt_irrefl _ L)|lia].
  - rewrite Forall_forall in F. eapply F; eauto.
Qed.

(** Without post-processing (NoPostProcessing) fit searches as usual but leaves an
    object that answers nothing. *)
Lemma C116_no_post_main :
  forall I rate fit_transform fitted knn poly (key : I -> option (list num)) takes_labels g c r g',
  history rate fit_transform fitted knn poly key takes_labels g -> c_post c = no_post ->
  fit rate fit_transform fitted knn poly key takes_labels c g = (Ok r, g') ->
  silent (i_gama g') /\
  exists x y classes xe steps, training_data c (i_classifier g) x y classes /\
    preprocess fit_transform x (i_classifier g) = Ok (xe, steps, i_extension g') /\ searched rate c g g' xe y (i_final g').
Proof.
  intros I rate ft fitted knn poly key tl g c r g' H P E.
  destruct (C116_fitted_main _ _ _ _ _ _ _ _ _ _ _ _ H E) as (x & y & classes & types & steps & xe & best & rest & m & T & Ty & D & _ & S & _ & B & _ & A).
  rewrite P in B. injection B as <-. split; [exact A|]. exists x, y, classes, xe, steps. auto.
Qed.

(** The rows: for a DataFrame and a target with the same row labels they are exactly the
    labelled ones, in order, with their own targets. *)
Lemma C116_rows_main :
  forall I (c : call I) f s x y classes,
  c_x c = XFrame f -> c_y c = YSeries s -> map fst s = f_index f -> rectangular f ->
  training_data c false x y classes ->
  header x = header f /\ length (labels y) = length (rows x) /\ combine (rows x) (labels y) = filter labelled (combine (rows f) (map snd s)).
Proof.
  intros I c f s x y classes X Y IX R (_ & T). rewrite X, Y in T.
  destruct (Data_Main.C66_aligned_main (XFrame f) (YSeries s) TSeries f (OSeries s) eq_refl R Logic.I IX) as (f' & y' & E & _ & H & _ & L & K).
  rewrite T in E. injection E as <- <-. auto.
Qed.
(** Nothing of earlier fits, finished or failed, plays a role when the search starts
    from warm_start: two objects with the same settings and search space that are
    fitted in the same circumstances answer the same. *)
Lemma C116_history_main :
  forall I rate fit_transform fitted knn poly (key : I -> option (list num)) takes_labels g1 g2 c r1 g1' r2 g2',
  history rate fit_transform fitted knn poly key takes_labels g1 -> history rate fit_transform fitted knn poly key takes_labels g2 ->
  i_classifier g1 = i_classifier g2 -> i_total g1 = i_total g2 -> i_fraction g1 = i_fraction g2 -> i_stores g1 = i_stores g2 ->
  i_pset g1 = i_pset g2 -> takes_labels = true ->
  (exists i warm, c_warm c = Some (i :: warm)) ->
  fit rate fit_transform fitted knn poly key takes_labels c g1 = (Ok r1, g1') ->
  fit rate fit_transform fitted knn poly key takes_labels c g2 = (Ok r2, g2') ->
  r1 = r2 /\ i_final g1' = i_final g2' /\
  forall parse_float parse_int other q, predict parse_float parse_int other (i_gama g1') q = predict parse_float parse_int other (i_gama g2') q.
Proof.
  intros I rate ft fitted knn poly key tl g1 g2 c r1 g1' r2 g2' H1 H2 SC ST SF SS SP -> (i & warm & W) E1 E2.
  assert (B : forall c0 h1 h2 u1 u2, c_warm c0 = Some (i :: warm) -> i_classifier h1 = i_classifier h2 -> i_total h1 = i_total h2 -> i_fraction h1 = i_fraction h2 -> i_stores h1 = i_stores h2 ->
    i_pset h1 = i_pset h2 -> i_labels h1 = i_labels h2 -> g_classes (i_gama h1) = g_classes (i_gama h2) ->
    base_fit rate ft fitted knn poly key c0 h1 = (Ok u1, g1') -> base_fit rate ft fitted knn poly key c0 h2 = (Ok u2, g2') ->
    i_final g1' = i_final g2' /\ i_gama g1' = i_gama g2').
  { intros c0 h1 h2 u1 u2 W0 A1 A2 A3 A4 A5 A6 A7 B1 B2.
    apply base_ok in B1 as (x & y & types & steps & xe & ext & pop & how & m & B1 & B2' & B3 & B4 & B5 & B6 & B7 & B8 & B9 & B10 & B11 & B12 & B13 & B14 & B15 & B16 & B17 & B18).
    apply base_ok in B2 as (x2 & y2 & types2 & steps2 & xe2 & ext2 & pop2 & how2 & m2 & D1 & D2' & D3 & D4 & D5 & D6 & D7 & D8 & D9 & D10 & D11 & D12 & D13 & D14 & D15 & D16 & D17 & D18).
    rewrite B1 in D1. injection D1 as <- <-. rewrite B2' in D2'. injection D2' as <-. rewrite <- A1, B3 in D3. injection D3 as <- <-. rewrite <- A1, B4 in D4. injection D4 as <-.
    rewrite <- A4, <- A5, <- B6 in D6. rewrite W0 in *. rewrite D6 in D8. cbn [Fac_Model.start_population] in B8, D8. rewrite B8 in D8. injection D8 as <-.
    assert (L1 : left1 rate c0 h1 = left1 rate c0 h2) by (unfold left1; rewrite A2; reflexivity).
    assert (L2 : limit1 rate c0 h1 = limit1 rate c0 h2) by (unfold limit1; rewrite L1, A3; reflexivity).
    assert (L3 : left3 rate c0 h1 = left3 rate c0 h2) by (unfold left3, left2; rewrite L1; reflexivity).
    rewrite D6, <- L2, <- A6, B10 in D10. injection D10 as <- F. split; [auto|]. rewrite <- F, <- L3, B13 in D13. injection D13 as <-. rewrite B14, D14, A7. reflexivity. }
  unfold fit in E1, E2. destruct (i_classifier g1) eqn:C; rewrite <- SC in E2.
  - destruct (classifier_fit rate ft fitted knn poly key true c g1) as [[[]|e] h1] eqn:F1; [|discriminate]. injection E1 as <- ->.
    destruct (classifier_fit rate ft fitted knn poly key true c g2) as [[[]|e] h2] eqn:F2; [|discriminate]. injection E2 as <- ->.
    apply classifier_cases in F1 as [(e & X & _)|(ls & classes & T & L & [(e & X & _)|(ls' & CL & _ & F1)])]; try discriminate.
    apply classifier_cases in F2 as [(e & X & _)|(ls2 & classes2 & T2 & L2 & [(e & X & _)|(ls2' & CL2 & _ & F2)])]; try discriminate.
    rewrite T in T2. injection T2 as <-. rewrite CL in CL2. injection CL2 as <- <-.
    destruct (inner_inst_same true g1 classes ls') as (Q1 & _ & Q2 & Q3 & Q4). destruct (inner_inst_same true g2 classes ls') as (R1 & _ & R2 & R3 & R4).
    destruct (inner_same c ls ls') as (_ & _ & WW & _).
    destruct (B (inner_call c ls ls') (inner_inst true g1 classes ls') (inner_inst true g2 classes ls') tt tt) as (K1 & K2); try assumption;
      [unfold same_setup in *; intuition congruence..|].
    split; [reflexivity|]. split; [exact K1|]. intros. rewrite K2. reflexivity.
  - destruct (base_fit rate ft fitted knn poly key c g1) as [[[]|e] h1] eqn:F1; [|discriminate]. injection E1 as <- ->.
    destruct (base_fit rate ft fitted knn poly key c g2) as [[[]|e] h2] eqn:F2; [|discriminate]. injection E2 as <- ->.
    destruct (history_inv _ _ _ _ _ _ _ _ H1 C) as (N1 & N2). destruct (history_inv _ _ _ _ _ _ _ _ H2 (eq_sym SC)) as (N3 & N4).
    destruct (B c g1 g2 tt tt) as (K1 & K2); auto; try congruence.
    split; [reflexivity|]. split; [exact K1|]. intros. rewrite K2. reflexivity.
Qed.
Definition ex_good : call nat := ex_call (XFrame ex_x) (YSeries [(0%Z, ex_label 5); (1%Z, LMissing); (2%Z, ex_label 7)]) (Err TimeoutException) [1; 3; 2].
Example C116_ex_main :
  history 1 ex_ft ex_fitted no_prim no_prim ex_key true (ex_inst false) /\
  exists g', ex_fit ex_good (ex_inst false) = (Ok Self, g') /\ i_y g' = Some (OSeries [(0%Z, ex_label 5); (2%Z, ex_label 7)]) /\
    predict (fun _ => Err ValueError) (fun _ => Err ValueError) (fun _ _ => Err TypeError) (i_gama g') (XFrame ex_x) = Ok [ex_label 3; ex_label 3; ex_label 3].
Proof. split; [apply constructed|]. eexists. split; [vm_compute; reflexivity|]. split; reflexivity. Qed.

Example C116_no_post_ex_main :
  let c := mkCall (c_x ex_good) (c_y ex_good) (c_declared ex_good) (c_warm ex_good) (c_sampling ex_good) (c_clock ex_good)
             (c_fresh ex_good) (c_search ex_good) (c_dir ex_good) no_post in
  exists g', ex_fit c (ex_inst false) = (Ok Self, g') /\ i_final g' <> [] /\
    predict (fun _ => Err ValueError) (fun _ => Err ValueError) (fun _ _ => Err TypeError) (i_gama g') (XFrame ex_x) = Err AttributeError.
Proof. eexists. split; [vm_compute; reflexivity|]. split; [discriminate|reflexivity]. Qed.

(** C117 is false: when fit fails after the data was prepared (here: because the search
    raises, as the second fit with the default search does, C49), the object keeps the
    old model but answers with the column types, encoders and class names of the call
    that failed. *)
Lemma C117_mixed_main :
  forall I rate fit_transform fitted knn poly (key : I -> option (list num)) takes_labels g c e x y classes types xe steps ext m,
  history rate fit_transform fitted knn poly key takes_labels g -> g_model (i_gama g) = Some m ->
  training_data c (i_classifier g) x y classes -> (forall ls, c_sampling c ls = Ok tt) ->
  inferred_dtypes (c_x c) (c_declared c) = Ok types -> preprocess fit_transform x (i_classifier g) = Ok (xe, steps, ext) ->
  (spent (c_clock c) 0 1 <= i_total g * Zpos rate)%Z -> (forall l, c_warm c = Some l -> ~ In None l) ->
  (forall p st pop d t l n k, fst (c_search c p st pop d t l n k) = Err e) -> e <> TimeoutException -> e <> KeyboardInterrupt ->
  exists g', fit rate fit_transform fitted knn poly key takes_labels c g = (Err e, g') /\
    answers (i_gama g') types (fitted steps x) classes m.
Proof.
  intros I rate ft fitted knn poly key tl g c e x y classes types xe steps ext m H M T Sa D P TL W S NT NK.
  unfold preprocess in P. destruct (basic_encoding ft x (i_classifier g)) as [[xe' st']|] eqn:B; [|discriminate]. cbn [rbind] in P.
  destruct (basic_pipeline_extension xe' (i_classifier g)) as [ext'|] eqn:X; [|discriminate]. cbn [rbind] in P. injection P as -> -> ->.
  unfold fit. unfold training_data in T. destruct (i_classifier g) eqn:C.
  - destruct T as (cs & -> & T). unfold classifier_format in T. change (match c_y c with YVec ls => _ | _ => _ end) with (target_labels (c_y c)) in T.
    destruct (target_labels (c_y c)) as [ls|] eqn:TL2; [|discriminate]. cbn [rbind] in T. destruct (classifier_labels ls) as [[cs' ls']|] eqn:CL; [|discriminate]. cbn [rbind] in T.
    destruct (format_x_y _ _ _ _) as [[x' y']|] eqn:F; [|discriminate]. cbn [rbind] in T. injection T as -> -> ->.
    destruct (classifier_fit rate ft fitted knn poly key tl c g) as [r g'] eqn:E.
    apply classifier_cases in E as [(e0 & _ & _ & [K|(ls0 & K & K2)])|(ls0 & classes & K & K2 & E)]; rewrite TL2 in K; try discriminate; injection K as <-.
    { unfold classifier_labels in CL. rewrite K2 in CL. discriminate. }
    destruct E as [(e0 & _ & _ & [K|(ls0 & K & K3)])|(ls0 & K & _ & E)]; rewrite CL in K; [discriminate| |].
    { rewrite Sa in K3. discriminate. }
    injection K as <- <-. destruct (inner_same c ls ls') as (Q1 & Q2 & QW & Q3 & _ & Q4 & _ & Q5). destruct (inner_inst_same tl g cs ls') as ((QC & QT & _) & _ & _ & QG & _).
    destruct (base_raises rate ft fitted knn poly key (inner_call c ls ls') (inner_inst tl g cs ls') e x y types xe steps ext) as (g1 & E1 & G1).
    + rewrite Q1. unfold inner_call. destruct (existsb is_str ls); exact F.
    + congruence.
    + rewrite QC, C. exact B.
    + rewrite QC, C. exact X.
    + unfold left1, ticks, spent in *. rewrite Q3, QT. lia.
    + rewrite QW. exact W.
    + rewrite Q4. exact S.
    + exact NT.
    + exact NK.
    + rewrite E in E1. injection E1 as -> ->. exists g1. split; [reflexivity|]. rewrite G1, QG. cbn. rewrite M. apply answers_of.
  - destruct T as (-> & T). destruct (base_raises rate ft fitted knn poly key c g e x y types xe steps ext) as (g' & E & G); auto.
    { rewrite C. exact B. } { rewrite C. exact X. } { unfold left1, ticks, spent in *. lia. }
    rewrite E. exists g'. split; [reflexivity|]. rewrite G, M. destruct (history_inv _ _ _ _ _ _ _ _ H C) as (_ & ->). apply answers_of.
Qed.
(** An example: the fruit classifier answers "cat" after a failed fit on animals. *)
Definition texts (l : list string) : ydata := YVec (map LStr l).
Definition fruit : call nat := ex_call (XFrame ex_x) (texts ["apple"; "pear"; "apple"]) (Ok tt) [0].
Definition animals : call nat := ex_call (XFrame ex_x) (texts ["dog"; "dog"; "cat"]) (Err RuntimeError) [].
Lemma C117_failed_fit_refuted_main :
  ~ (forall I rate fit_transform fitted knn poly (key : I -> option (list num)) takes_labels g c e g' parse_float parse_int other q,
     history rate fit_transform fitted knn poly key takes_labels g ->
     fit rate fit_transform fitted knn poly key takes_labels c g = (Err e, g') ->
     predict parse_float parse_int other (i_gama g') q = predict parse_float parse_int other (i_gama g) q \/
     exists e', predict parse_float parse_int other (i_gama g') q = Err e').
Proof.
  intros H. assert (Hg : history 1 ex_ft ex_fitted no_prim no_prim ex_key true (snd (ex_fit fruit (ex_inst true)))) by (apply refitted, constructed).
  specialize (H nat 1%positive ex_ft ex_fitted no_prim no_prim ex_key true _ animals RuntimeError
    (snd (ex_fit animals (snd (ex_fit fruit (ex_inst true))))) (fun _ => Err ValueError) (fun _ => Err ValueError) (fun _ _ => Err TypeError) (XFrame ex_x) Hg).
  destruct H as [K|(e' & K)]; [|vm_compute in K; discriminate..].
  vm_compute. reflexivity.
Qed.
Example C117_ex_main :
  let pr := fun (g : inst nat) => predict (fun _ => Err ValueError) (fun _ => Err ValueError) (fun _ _ => Err TypeError) (i_gama g) (XFrame ex_x) in
  let g := snd (ex_fit fruit (ex_inst true)) in
  fst (ex_fit fruit (ex_inst true)) = Ok PyNone /\ pr g = Ok [LStr "apple"; LStr "apple"; LStr "apple"] /\
  fst (ex_fit animals g) = Err RuntimeError /\ pr (snd (ex_fit animals g)) = Ok [LStr "cat"; LStr "cat"; LStr "cat"].
Proof. repeat split; vm_compute; reflexivity. Qed.
(** What holds: if the data of a regressor are refused, or the targets of a classifier,
    the object answers as before. *)
Lemma C117_refused_partial_main :
  forall I rate fit_transform fitted knn poly (key : I -> option (list num)) takes_labels g c e,
  (i_classifier g = false /\ format_x_y (c_x c) (c_y c) TSeries true = Err e \/
   i_classifier g = true /\ exists ls, c_y c = YVec ls /\ (exists s q, In (LStr s) ls /\ In (LNum q) ls) /\ e = TypeError) ->
  exists g', fit rate fit_transform fitted knn poly key takes_labels c g = (Err e, g') /\
    forall parse_float parse_int other q, predict parse_float parse_int other (i_gama g') q = predict parse_float parse_int other (i_gama g) q.
Proof.
  intros I rate ft fitted knn poly key tl g c e H. unfold fit. destruct H as [(-> & F)|(-> & ls & Y & (s & q & Hs & Hq) & ->)].
  - destruct (base_fit rate ft fitted knn poly key c g) as [r g'] eqn:E. apply base_fit_cases in E as (r1 & g1 & P & E). apply pre_cases in P as (_ & _ & _ & _ & _ & _ & _ & P).
    rewrite F in P. destruct P as (-> & P). destruct E as (-> & ->). eexists. split; [reflexivity|]. cbn [set_keeper i_gama]. rewrite P. reflexivity.
  - destruct (classifier_fit rate ft fitted knn poly key tl c g) as [r g'] eqn:E.
    assert (L : label_classes ls = Err TypeError).
    { unfold label_classes. assert (A : existsb is_str ls = true) by (apply existsb_exists; exists (LStr s); auto). assert (B : existsb is_num ls = true) by (apply existsb_exists; exists (LNum q); auto). rewrite A, B. reflexivity. }
    apply classifier_cases in E as [(e0 & -> & -> & [K|(ls0 & K & K2)])|(ls0 & classes & K & K2 & _)]; rewrite Y in K; cbn in K; try discriminate; injection K as <-; rewrite L in K2; [|discriminate].
    injection K2 as <-. eauto.
Qed.
(** An object that was never fitted gives no predictions after a failed fit either. *)
Lemma C117_unfitted_partial_main :
  forall I rate fit_transform fitted knn poly (key : I -> option (list num)) takes_labels g c e g',
  g_model (i_gama g) = None -> fst (Fac_Model.fit_end (i_store g) (c_dir c)) = Ok tt ->
  fit rate fit_transform fitted knn poly key takes_labels c g = (Err e, g') ->
  forall parse_float parse_int other q, exists e', predict parse_float parse_int other (i_gama g') q = Err e'.
Proof.
  intros I rate ft fitted knn poly key tl g c e g' N FE E pf pi other q.
  assert (M : g_model (i_gama g') = None).
  { unfold fit in E. destruct (i_classifier g).
    - destruct (classifier_fit rate ft fitted knn poly key tl c g) as [[[]|e1] h] eqn:F; [discriminate|]. injection E as -> ->.
      apply classifier_cases in F as [(e0 & _ & -> & _)|(ls & classes & _ & _ & [(e0 & _ & -> & _)|(ls' & _ & _ & F)])]; auto.
      apply base_failed in F as (_ & _ & _ & [F|F]).
      + rewrite F. destruct (inner_inst_same tl g classes ls') as (_ & _ & _ & -> & _). exact N.
      + destruct (inner_inst_same tl g classes ls') as ((_ & _ & _ & _ & St) & _). destruct (inner_same c ls ls') as (_ & _ & _ & _ & _ & _ & D & _). rewrite St, D, FE in F. discriminate.
    - destruct (base_fit rate ft fitted knn poly key c g) as [[[]|e1] h] eqn:F; [discriminate|]. injection E as -> ->. apply base_failed in F as (_ & _ & _ & [F|F]); [congruence|]. rewrite FE in F. discriminate. }
  unfold predict. destruct (prepare pf pi other (i_gama g') q) as [f|e0]; cbn [rbind]; [|eauto]. unfold predict_frame. rewrite M. eauto.
Qed.
(** And a later fit that succeeds sets everything right: [C116_fitted] holds after any
    history.  Here after the failed one. *)
Example C117_recovers_ex_main :
  let g := snd (ex_fit animals (snd (ex_fit fruit (ex_inst true)))) in
  history 1 ex_ft ex_fitted no_prim no_prim ex_key true g /\
  exists g', ex_fit (ex_call (XFrame ex_x) (texts ["oak"; "fir"; "oak"]) (Ok tt) [1]) g = (Ok PyNone, g') /\
    predict (fun _ => Err ValueError) (fun _ => Err ValueError) (fun _ _ => Err TypeError) (i_gama g') (XFrame ex_x) = Ok [LStr "oak"; LStr "oak"; LStr "oak"].
Proof. split; [apply refitted, refitted, constructed|]. eexists. split; vm_compute; reflexivity. Qed.

(** C118, the limits: the search gets a limit that is not negative and, with the time
    spent on preprocessing, is within max_total_time; so does post-processing, if there
    is any time left. (Either fit failed before it looked at the clock, or these are the
    limits of this call.) *)
Lemma C118_limits_partial_main :
  forall I rate fit_transform fitted knn poly (key : I -> option (list num)) takes_labels g c r g',
  (0 <= i_fraction g <= 1)%Q ->
  fit rate fit_transform fitted knn poly key takes_labels c g = (r, g') ->
  let total := (i_total g * Zpos rate)%Z in let clock := c_clock c in
  (exists e, r = Err e /\ i_keeper g' = i_keeper g) \/
  (forall l, limit_of g' "search" l -> (0 <= l /\ spent clock 0 1 + l <= total)%Z) /\
  (forall l, limit_of g' "postprocess" l ->
     ((spent clock 0 1 + spent clock 4 6 <= total -> 0 <= l /\ spent clock 0 1 + spent clock 4 6 + l <= total) /\
      (total < spent clock 0 1 + spent clock 4 6 -> l <= 0))%Z).
Proof.
  intros I rate ft fitted knn poly key tl g c r g' F E. cbn zeta. apply fit_acts in E as [E|(n & A & B & _)]; [left; exact E|right].
  assert (X : forall a, In a (firstn n (acts rate c g)) -> In a (acts rate c g)).
  { intros a Ha. rewrite <- (firstn_skipn n (acts rate c g)). apply in_or_app. auto. }
  pose proof (int_pos rate (i_fraction g) (left1 rate c g) F) as P1. destruct (int_sec rate (left2 rate c g)) as (P2 & P3).
  unfold spent, limit_of. rewrite A. split; intros l (a & Ha & N & L).
  - assert (NN : (0 <= left1 rate c g)%Z). { destruct B as [B|B]; auto. destruct n as [|[|n]]; [destruct Ha| |lia]. destruct Ha as [<-|[]]. discriminate. }
    apply X in Ha. cbn in Ha. destruct Ha as [<-|[<-|[<-|[]]]]; try discriminate. injection L as <-. specialize (P1 NN). fold (seconds rate (left1 rate c g)) in P1. fold (limit1 rate c g) in P1. unfold ticks. unfold left1, ticks in *. lia.
  - apply X in Ha. cbn in Ha. destruct Ha as [<-|[<-|[<-|[]]]]; try discriminate. injection L as <-. fold (seconds rate (left2 rate c g)) in P2, P3. fold (limit2 rate c g) in P2, P3. unfold ticks. unfold left2, left1, ticks in *. lia.
Qed.
(** How much: in whole seconds, rounded down, the search gets what the share of
    post-processing leaves of the time after preprocessing, and post-processing all that
    is left after the search. *)
Lemma C118_share_main :
  forall I rate fit_transform fitted knn poly (key : I -> option (list num)) takes_labels g c r g' ls lp,
  (0 <= i_fraction g <= 1)%Q ->
  fit rate fit_transform fitted knn poly key takes_labels c g = (Ok r, g') ->
  limit_of g' "search" ls -> limit_of g' "postprocess" lp ->
  let left := (i_total g * Zpos rate - spent (c_clock c) 0 1)%Z in let rest := (left - spent (c_clock c) 4 6)%Z in
  (exists n, ls = (n * Zpos rate)%Z /\ (inject_Z n <= (1 - i_fraction g) * (left # rate))%Q /\ ((1 - i_fraction g) * (left # rate) < inject_Z (n + 1))%Q) /\
  ((0 <= rest)%Z -> exists n, (lp = n * Zpos rate /\ n * Zpos rate <= rest < (n + 1) * Zpos rate)%Z).
Proof.
  intros I rate ft fitted knn poly key tl g c r g' ls lp F E LS LP. cbn zeta. apply fit_acts in E as [(e & E & _)|(n & A & B & N)]; [discriminate|]. rewrite (N _ eq_refl) in *.
  assert (NN : (0 <= left1 rate c g)%Z) by (destruct B; [lia|auto]).
  destruct LS as (a & Ha & N1 & L). rewrite A in Ha. cbn in Ha. destruct Ha as [<-|[<-|[<-|[]]]]; try discriminate. injection L as <-.
  destruct LP as (a & Ha & N2 & L). rewrite A in Ha. cbn in Ha. destruct Ha as [<-|[<-|[<-|[]]]]; try discriminate. injection L as <-.
  change (i_total g * Zpos rate - spent (c_clock c) 0 1)%Z with (left1 rate c g). change (left1 rate c g - spent (c_clock c) 4 6)%Z with (left2 rate c g). split.
  - exists (limit1 rate c g). split; [reflexivity|]. unfold limit1, seconds. apply int_floor. assert (R : (0 <= left1 rate c g # rate)%Q) by (unfold Qle; cbn; lia). destruct F. nra.
  - intros R. exists (limit2 rate c g). split; [reflexivity|]. destruct (int_floor (left2 rate c g # rate)) as (I1 & I2); [unfold Qle; cbn; lia|].
    unfold limit2, seconds. unfold Qle, Qlt, inject_Z in I1, I2. cbn [Qnum Qden] in I1, I2. lia.
Qed.
(** The whole: if search and post-processing exceed their limits by at most [d1] and
    [d2], fit is over by max_total_time and that, not counting the moments between the
    activities. *)
Lemma C118_total_main :
  forall I rate fit_transform fitted knn poly (key : I -> option (list num)) takes_labels g c r g' ls lp d1 d2,
  (0 <= i_fraction g <= 1)%Q -> monotone (c_clock c) ->
  fit rate fit_transform fitted knn poly key takes_labels c g = (Ok r, g') ->
  limit_of g' "search" ls -> limit_of g' "postprocess" lp -> (0 <= d1)%Z ->
  let clock := c_clock c in
  (spent clock 4 6 <= ls + d1)%Z -> (spent clock 8 10 <= lp + d2)%Z ->
  (spent clock 0 10 <= i_total g * Zpos rate + d1 + d2 + spent clock 1 4 + spent clock 6 8)%Z.
Proof.
  intros I rate ft fitted knn poly key tl g c r g' ls lp d1 d2 F M E LS LP D1 clock S P.
  pose proof (C118_limits_partial_main _ _ _ _ _ _ _ _ _ _ _ _ F E) as [(e & K & _)|(A & B)]; [discriminate|].
  specialize (A _ LS). specialize (B _ LP). unfold clock, spent in *. destruct B as (B1 & B2). lia.
Qed.
(** Both limits are there after every successful fit. *)
Lemma C118_recorded_main :
  forall I rate fit_transform fitted knn poly (key : I -> option (list num)) takes_labels g c r g',
  fit rate fit_transform fitted knn poly key takes_labels c g = (Ok r, g') ->
  exists ls lp, limit_of g' "search" ls /\ limit_of g' "postprocess" lp.
Proof.
  intros I rate ft fitted knn poly key tl g c r g' E. apply fit_acts in E as [(e & E & _)|(n & A & _ & N)]; [discriminate|]. rewrite (N _ eq_refl) in A.
  unfold limit_of. rewrite A. do 2 eexists. split; eexists; [split; [cbn; right; left; reflexivity|split; reflexivity]|split; [cbn; right; right; left; reflexivity|split; reflexivity]].
Qed.
(** When preprocessing took all the time, fit raises RuntimeError and does not search. *)
Lemma C118_no_time_main :
  forall I rate fit_transform fitted knn poly (key : I -> option (list num)) takes_labels g c x y types prep,
  i_classifier g = false ->
  training_data c false x y None -> inferred_dtypes (c_x c) (c_declared c) = Ok types -> preprocess fit_transform x false = Ok prep ->
  (i_total g * Zpos rate < spent (c_clock c) 0 1)%Z ->
  exists g', fit rate fit_transform fitted knn poly key takes_labels c g = (Err RuntimeError, g') /\
    (forall l, ~ limit_of g' "search" l) /\ i_final g' = i_final g.
Proof.
  intros I rate ft fitted knn poly key tl g c x y types prep C (_ & T) D P L. unfold fit. rewrite C. destruct (base_fit rate ft fitted knn poly key c g) as [r g'] eqn:E.
  apply base_fit_cases in E as (r1 & g1 & Q & E). apply pre_cases in Q as (_ & _ & FI & _ & _ & _ & _ & Q). unfold begun in Q. cbn [set_keeper i_classifier] in Q. rewrite T in Q. destruct Q as (_ & Q). rewrite D in Q. destruct Q as (_ & Q).
  unfold preprocess in P. rewrite C in Q. destruct (basic_encoding ft x false) as [[xe st]|]; [|discriminate]. cbn [rbind] in P. destruct Q as (_ & _ & Q).
  destruct (basic_pipeline_extension xe false) as [ext|]; [|discriminate]. destruct Q as (-> & _). cbn zeta in E.
  destruct E as [(_ & -> & ->)|(N & _)]; [|unfold left1, ticks, spent in *; lia].
  eexists. split; [reflexivity|]. split; [|exact FI]. intros l (a & Ha & N & _). cbn in Ha. destruct Ha as [<-|[]]. discriminate.
Qed.
(** C118 is false when the search overran: the limit of post-processing is negative. *)
Lemma C118_negative_refuted_main :
  ~ (forall I rate fit_transform fitted knn poly (key : I -> option (list num)) takes_labels g c r g' l,
     (0 <= i_fraction g <= 1)%Q -> monotone (c_clock c) -> history rate fit_transform fitted knn poly key takes_labels g ->
     fit rate fit_transform fitted knn poly key takes_labels c g = (Ok r, g') -> limit_of g' "postprocess" l -> (0 <= l)%Z).
Proof.
  intros H. specialize (H nat 1%positive ex_ft ex_fitted no_prim no_prim ex_key true (new_inst false 2 (1 # 10) false "all" (Some []) (mkPset [] [])) ex_good Self
    (snd (ex_fit ex_good (new_inst false 2 (1 # 10) false "all" (Some []) (mkPset [] [])))) (-1)%Z).
  assert (K : (0 <= -1)%Z); [|lia]. apply H.
  - split; cbn; lra.
  - intros i j L. cbn. lia.
  - apply constructed.
  - vm_compute. reflexivity.
  - eexists. split; [vm_compute; right; right; left; reflexivity|]. split; reflexivity.
Qed.
Example C118_ex_main :
  exists g', ex_fit ex_good (ex_inst false) = (Ok Self, g') /\ limit_of g' "search" 89 /\ limit_of g' "postprocess" 97 /\ monotone (c_clock ex_good).
Proof.
  eexists. split; [vm_compute; reflexivity|]. split; [|split].
  - eexists. split; [cbn; right; left; reflexivity|]. split; reflexivity.
  - eexists. split; [cbn; right; right; left; reflexivity|]. split; reflexivity.
  - intros i j L. cbn. lia.
Qed.

(** C119, without missing targets: the labels handed to the scoring functions are the
    targets the model is trained on. *)
Lemma C119_labels_partial_main :
  forall I rate fit_transform fitted knn poly (key : I -> option (list num)) g c r g' ls,
  i_classifier g = true -> c_y c = YVec ls -> ~ In LMissing ls ->
  fit rate fit_transform fitted knn poly key true c g = (Ok r, g') ->
  exists y, i_y g' = Some y /\ i_labels g' = Some (labels y) /\ ~ In LMissing (labels y) /\ length (labels y) = length ls.
Proof.
  intros I rate ft fitted knn poly key g c r g' ls C Y N E. unfold fit in E. rewrite C in E.
  destruct (classifier_fit rate ft fitted knn poly key true c g) as [[[]|e] h] eqn:F; [|discriminate]. injection E as _ ->.
  apply classifier_cases in F as [(e & X & _)|(ls0 & classes & T & L & [(e & X & _)|(ls' & CL & _ & F)])]; try discriminate.
  rewrite Y in T. cbn in T. injection T as <-.
  apply base_ok in F as (x & y & types & steps & xe & ext & pop & how & m & B1 & _ & _ & _ & _ & _ & _ & _ & B9 & _ & _ & _ & _ & _ & _ & _ & _ & B18).
  destruct (inner_inst_same true g classes ls') as (_ & _ & _ & _ & QL). rewrite QL in B9. exists y. split; [exact B18|]. rewrite B9.
  assert (YV : c_y (inner_call c ls ls') = YVec ls').
  { unfold inner_call. destruct (existsb is_str ls) eqn:S; [reflexivity|]. rewrite Y. f_equal. unfold classifier_labels in CL. rewrite L in CL. cbn [rbind] in CL. rewrite S in CL. injection CL as <-. reflexivity. }
  assert (NM : ~ In LMissing ls' /\ length ls' = length ls).
  { unfold classifier_labels in CL. rewrite L in CL. cbn [rbind] in CL. destruct (existsb is_str ls); [|injection CL as <-; auto].
    destruct (rmap (encode_label classes) ls) as [e|] eqn:R; [|discriminate]. cbn [rbind] in CL. injection CL as <-. clear - R. revert e R. induction ls as [|a ls IH]; intros e R; cbn [rmap] in R; [injection R as <-; auto|].
    unfold encode_label at 1 in R. destruct (position a classes); [|discriminate]. cbn [rbind] in R. destruct (rmap (encode_label classes) ls) as [e'|]; [|discriminate]. cbn [rbind] in R. injection R as <-.
    destruct (IH _ eq_refl) as (I1 & I2). split; [|cbn; congruence]. intros [K|K]; [discriminate|auto]. }
  assert (Lab : forall l0, labels (OSeries (index_from_0 l0)) = l0).
  { intros l0. cbn. unfold index_from_0, enumerate. rewrite map_map. cbn. generalize 0. clear. induction l0 as [|a l0 IH]; intros k; cbn; f_equal; auto. }
  assert (FX : exists f, format_x_y (c_x c) (YVec ls') TSeries false = Ok (f, OSeries (index_from_0 ls'))).
  { destruct (inner_same c ls ls') as (QX & _). rewrite QX, YV in B1. unfold format_x_y in *. destruct (match c_x c with XOther => _ | _ => _ end) as [f|]; [|discriminate]. cbn. eauto. }
  destruct FX as (f & FX). destruct NM as (NM & NL).
  assert (K : format_x_y (c_x c) (YVec ls') TSeries true = Ok (f, OSeries (index_from_0 ls'))).
  { apply Data_Main.C67_all_labelled_partial_main; auto; [exact Logic.I|]. rewrite Lab. exact NM. }
  destruct (inner_same c ls ls') as (QX & _). rewrite QX, YV, K in B1. injection B1 as _ <-. rewrite Lab. auto.
Qed.
(** With missing targets among numbers C119 is false: the labels still contain the
    missing ones.  Scikit-learn's functions refuse such labels, so no evaluation
    succeeds; if that means that the search finds nothing, fit raises IndexError after the whole
    search time, although rows without a target are meant to be ignored. *)
Lemma C119_missing_refuted_main :
  forall I rate fit_transform fitted knn poly (key : I -> option (list num)) train g c ls x y cs types prep,
  i_classifier g = true -> c_y c = YVec ls -> In LMissing ls -> (forall s, ~ In (LStr s) ls) ->
  training_data c true x y (Some cs) -> inferred_dtypes (c_x c) (c_declared c) = Ok types -> preprocess fit_transform x true = Ok prep ->
  (forall l, c_sampling c l = Ok tt) -> (spent (c_clock c) 0 1 <= i_total g * Zpos rate)%Z -> c_warm c = None ->
  (forall p st pop d t l n k, In LMissing l -> c_search c p st pop d t (Some l) n k = (Err TimeoutException, [])) ->
  c_post c = best_fit_post train ->
  exists g', fit rate fit_transform fitted knn poly key true c g = (Err IndexError, g').
Proof.
  intros I rate ft fitted knn poly key train g c ls x y cs types prep C Y HM NS T D P Sa TL W S PP. unfold fit. rewrite C.
  destruct (classifier_fit rate ft fitted knn poly key true c g) as [r g'] eqn:E.
  assert (NB : existsb is_str ls = false). { apply not_true_iff_false. intros K. apply existsb_exists in K as ([| |s] & K & K2); try discriminate. exact (NS _ K). }
  destruct T as (cs' & [= <-] & T). unfold classifier_format in T. rewrite Y in T. cbn [rbind] in T. destruct (classifier_labels ls) as [[cs0 ls']|] eqn:CL; [|discriminate]. cbn [rbind] in T. rewrite NB in T.
  destruct (format_x_y (c_x c) (YVec ls) TSeries true) as [xy|] eqn:F; [|discriminate]. cbn [rbind] in T. injection T as <- ->.
  assert (ls' = ls). { unfold classifier_labels in CL. destruct (label_classes ls); [|discriminate]. cbn [rbind] in CL. rewrite NB in CL. injection CL as _ <-. reflexivity. } subst ls'.
  apply classifier_cases in E as [(e0 & _ & _ & [K|(ls0 & K & K2)])|(ls0 & classes & K & K2 & E)]; rewrite Y in K; cbn in K; try discriminate; injection K as <-.
  { unfold classifier_labels in CL. rewrite K2 in CL. discriminate. }
  destruct E as [(e0 & _ & _ & [K|(ls0 & K & K3)])|(ls0 & K & _ & E)]; rewrite CL in K; [discriminate| |]. { rewrite Sa in K3. discriminate. }
  injection K as <- <-. assert (IC : inner_call c ls ls = c) by (unfold inner_call; rewrite NB; reflexivity). rewrite IC in E.
  destruct (inner_inst_same true g cs0 ls) as ((QC & QT & _) & _ & _ & _ & QL).
  unfold preprocess in P. destruct (basic_encoding ft x true) as [[xe st]|] eqn:B; [|discriminate]. cbn [rbind] in P. destruct (basic_pipeline_extension xe true) as [ext|] eqn:X; [|discriminate].
  destruct (base_nothing rate ft fitted knn poly key c (inner_inst true g cs0 ls) IndexError x y types xe st ext) as (g1 & E1).
  - rewrite Y. exact F.
  - exact D.
  - rewrite QC, C. exact B.
  - rewrite QC, C. exact X.
  - unfold left1, ticks, spent in *. rewrite QT. lia.
  - intros l K. rewrite W in K. discriminate.
  - intros. rewrite QL. apply S. exact HM.
  - intros. rewrite PP. reflexivity.
  - rewrite E in E1. injection E1 as -> ->. eauto.
Qed.
Definition ex_gap : call nat :=
  mkCall (XFrame ex_x) (YVec [ex_label 1; LMissing; ex_label 0]) [TPlain DFloat] None (fun _ => Ok tt) Z.of_nat (fun _ i => i)
    (fun _ _ _ _ _ l _ _ => (Err TimeoutException, match l with Some l => if existsb unlabelled l then [] else [1] | None => [1] end)) (Some []) (best_fit_post ex_train).
Example C119_ex_main :
  fst (ex_fit ex_gap (ex_inst true)) = Err IndexError /\
  exists x y cs, training_data ex_gap true x y (Some cs) /\ labels y = [ex_label 1; ex_label 0].
Proof. split; [vm_compute; reflexivity|]. do 3 eexists. split; [eexists; split; [reflexivity|vm_compute; reflexivity]|vm_compute; reflexivity]. Qed.

(** C120: fit of a regressor returns the object itself; the promise is broken by
    GamaClassifier, whose fit returns None. *)
Lemma C120_regressor_partial_main :
  forall I rate fit_transform fitted knn poly (key : I -> option (list num)) takes_labels g c r g',
  i_classifier g = false -> fit rate fit_transform fitted knn poly key takes_labels c g = (Ok r, g') -> r = Self.
Proof.
  intros I rate ft fitted knn poly key tl g c r g' C E. unfold fit in E. rewrite C in E. destruct (base_fit rate ft fitted knn poly key c g) as [[[]|e] h]; [|discriminate]. injection E as <- _. reflexivity.
Qed.
Lemma C120_classifier_refuted_main :
  forall I rate fit_transform fitted knn poly (key : I -> option (list num)) takes_labels g c r g',
  i_classifier g = true -> fit rate fit_transform fitted knn poly key takes_labels c g = (Ok r, g') -> r <> Self.
Proof.
  intros I rate ft fitted knn poly key tl g c r g' C E. unfold fit in E. rewrite C in E. destruct (classifier_fit rate ft fitted knn poly key tl c g) as [[[]|e] h]; [|discriminate]. injection E as <- _. discriminate.
Qed.
Example C120_ex_main : fst (ex_fit ex_good (ex_inst false)) = Ok Self /\ fst (ex_fit fruit (ex_inst true)) = Ok PyNone.
Proof. split; vm_compute; reflexivity. Qed.

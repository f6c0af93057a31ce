(** More proofs about fit. *)
Require Import QArith Qcanon Permutation Sorted Lqa.
From Verif Require Import Base Num Data_Model Data_Spec Tk_Model Gp_Model Lib_Spec Pred_Model Pred_Spec Fit_Model Fit_Spec Fit_Proofs.
From Verif Require Fac_Model Fac_Proofs.
Open Scope string_scope.
Open Scope list_scope.
Open Scope nat_scope.

Section Fit.
  Context {I : Type} (rate : positive) (fit_transform : enc_step -> frame -> res frame)
          (fitted : list enc_step -> frame -> frame -> res frame)
          (knn poly : primitive -> bool) (key : I -> option (list num)) (takes_labels : bool).
  Notation base_fit := (base_fit rate fit_transform fitted knn poly key).
  Notation classifier_fit := (classifier_fit rate fit_transform fitted knn poly key takes_labels).
  Notation fit := (fit rate fit_transform fitted knn poly key takes_labels).
  Notation ticks := (ticks rate).
  Notation history := (history rate fit_transform fitted knn poly key takes_labels).

  (** everything a successful base fit determines *)
  Lemma base_ok c g r g' : base_fit c g = (Ok r, g') ->
    exists x y types steps xe ext pop how m,
      format_x_y (c_x c) (c_y c) TSeries true = Ok (x, y) /\ inferred_dtypes (c_x c) (c_declared c) = Ok types /\
      basic_encoding fit_transform x (i_classifier g) = Ok (xe, steps) /\ basic_pipeline_extension xe (i_classifier g) = Ok ext /\
      (0 <= left1 rate c g)%Z /\
      i_pset g' = Fac_Model.restrict (i_stores g) (length (f_index xe)) (length (f_cols xe)) knn poly (i_pset g) /\ i_extension g' = ext /\
      Fac_Model.start_population (c_warm c) (i_final g) (c_fresh c (i_pset g')) = Ok pop /\ i_labels g' = i_labels g /\
      c_search c (i_pset g') ext pop xe y (i_labels g) (limit1 rate c g) (c_clock c 5 + ticks (limit1 rate c g))%Z = (how, i_final g') /\
      (how = Ok tt \/ how = Err TimeoutException \/ how = Err KeyboardInterrupt) /\
      Forall (fun i => key i <> None) (i_final g') /\
      c_post c xe y (left3 rate c g) (Fac_Model.best_individuals (values key) (i_final g')) = Ok m /\
      i_gama g' = Pred_Model.mkGama types (Some (fitted steps x)) (g_classes (i_gama g)) m /\
      i_keeper g' = mkTk (Some (ticks (i_total g))) None (acts rate c g) /\ same_setup g g' /\ i_x g' = Some xe /\ i_y g' = Some y.
  Proof.
    intros E. apply base_fit_cases in E as (r1 & g1 & P & E). destruct r1 as [[]|e]; [|destruct E as [E _]; discriminate].
    apply pre_cases in P as (_ & S1 & F1 & L1 & _ & _ & _ & P). unfold begun in P, F1, L1, S1. cbn [set_keeper i_classifier i_gama i_stores i_pset i_final i_labels] in *.
    destruct (format_x_y _ _ _ _) as [[x y]|]; [|destruct P as [P _]; discriminate]. destruct P as [Y1 P].
    destruct (inferred_dtypes _ _) as [types|]; [|destruct P as [P _]; discriminate]. destruct P as [_ P].
    destruct (basic_encoding _ _ _) as [[xe steps]|] eqn:QB; [|destruct P as [P _]; discriminate]. destruct P as (X1 & G1 & P).
    destruct (basic_pipeline_extension _ _) as [ext|] eqn:QE; [|discriminate]. destruct P as (_ & EX & PS).
    cbn zeta in E. destruct E as [(_ & E & _)|(N & r2 & g3 & P2 & E)]; [discriminate|].
    destruct r2 as [[]|e]; [|destruct E as [E _]; discriminate].
    apply search_cases in P2 as (_ & S2 & L2 & G2 & X2 & Y2 & EX2 & PS2 & pop & x' & y' & how & A1 & A2 & A3 & A4 & A5 & _).
    cbn [set_keeper i_classifier i_gama i_stores i_pset i_final i_labels i_x i_y i_extension] in *.
    destruct E as (r3 & g5 & P3 & R3 & E). destruct r3 as [[]|e]; [|destruct E as [E _]; discriminate].
    apply post_cases in P3 as (_ & S3 & L3 & X3 & Y3 & EX3 & PS3 & F3 & _ & x2 & y2 & rest & m & B1 & B2 & B3 & B4 & B5 & B6).
    cbn [set_keeper i_classifier i_gama i_stores i_pset i_final i_labels i_x i_y i_extension i_keeper] in *.
    rewrite R3 in B3. injection B3 as <-. destruct E as (_ & ->). cbn [set_keeper set_dir i_classifier i_gama i_stores i_pset i_final i_labels i_x i_y i_extension i_keeper].
    rewrite X1 in A2. injection A2 as <-. rewrite Y1 in A3. injection A3 as <-. rewrite X2, X1 in B1. injection B1 as <-. rewrite Y2, Y1 in B2. injection B2 as <-.
    exists x, y, types, steps, xe, ext, pop, how, m. rewrite F1 in A1. rewrite EX, L1 in A4.
    rewrite PS3, PS2, PS, EX3, EX2, EX, F3, L3, L2, L1, B6, G2, G1, X3, X2, X1, Y3, Y2, Y1. unfold set_model. cbn [g_dtypes g_transform g_classes g_model].
    rewrite PS in A1, A4.
    split; [reflexivity|]. split; [reflexivity|]. split; [exact QB|]. split; [exact QE|]. split; [exact N|]. split; [reflexivity|]. split; [reflexivity|].
    split; [exact A1|]. split; [reflexivity|]. split; [exact A4|]. split; [exact A5|]. split; [exact B4|]. split; [exact B5|].
    split; [reflexivity|]. split; [reflexivity|].
    split; [|auto]. unfold same_setup in *; cbn in *; intuition congruence.
  Qed.

  Lemma base_failed c g e g' : base_fit c g = (Err e, g') ->
    same_setup g g' /\ i_labels g' = i_labels g /\ g_classes (i_gama g') = g_classes (i_gama g) /\
    (g_model (i_gama g') = g_model (i_gama g) \/ fst (Fac_Model.fit_end (i_store g) (c_dir c)) = Err e).
  Proof.
    intros E. apply base_fit_cases in E as (r1 & g1 & P & E). apply pre_cases in P as (_ & S1 & _ & L1 & _ & M1 & C1 & _).
    unfold begun in *. cbn [set_keeper i_gama i_labels] in *.
    destruct r1 as [[]|e1].
    2:{ destruct E as (_ & ->). split; [unfold same_setup in *; cbn in *; intuition congruence|]. cbn. auto. }
    cbn zeta in E. destruct E as [(_ & _ & ->)|(_ & r2 & g3 & P2 & E)].
    { split; [unfold same_setup in *; cbn in *; intuition congruence|]. cbn. auto. }
    apply search_cases in P2 as (_ & S2 & L2 & G2 & _ & _ & _ & _ & P2). cbn [set_keeper i_gama i_labels] in *.
    destruct r2 as [[]|e2].
    2:{ destruct E as (_ & ->). split; [unfold same_setup in *; cbn in *; intuition congruence|]. cbn. rewrite G2. split; [congruence|]. auto. }
    destruct P2 as (pop & x & y & how & _ & _ & _ & _ & _ & D2).
    destruct E as (r3 & g5 & P3 & _ & E). apply post_cases in P3 as (_ & S3 & L3 & _ & _ & _ & _ & _ & D3 & P3). cbn [set_keeper i_gama i_labels i_dir] in *.
    destruct r3 as [[]|e3].
    - destruct E as (E & ->). destruct P3 as (_ & _ & _ & m & _ & _ & _ & _ & _ & G3). cbn. rewrite G3, G2. cbn.
      split; [unfold same_setup in *; cbn in *; intuition congruence|]. split; [congruence|]. split; [exact C1|]. right. rewrite D3, D2 in E. auto.
    - destruct E as (_ & ->). cbn. rewrite P3, G2. split; [unfold same_setup in *; cbn in *; intuition congruence|]. split; [congruence|]. auto.
  Qed.

  Lemma base_setup c g r g' : base_fit c g = (r, g') -> same_setup g g' /\ i_labels g' = i_labels g /\ g_classes (i_gama g') = g_classes (i_gama g).
  Proof.
    intros E. destruct r as [r|e].
    - apply base_ok in E. decompose [ex and] E. split; auto. split; auto. match goal with H : i_gama g' = _ |- _ => rewrite H end. reflexivity.
    - apply base_failed in E. tauto.
  Qed.

  Lemma with_y_id (c : call I) : with_y c (c_y c) = c. Proof. destruct c; reflexivity. Qed.
  (** the call that GamaClassifier.fit makes, and the instance it makes it on *)
  Definition inner_call (c : call I) (ls ls' : list label) : call I := if existsb is_str ls then with_y c (YVec ls') else c.
  Definition inner_inst (g : inst I) (classes ls' : list label) : inst I :=
    let g := set_gama g (set_classes classes (i_gama g)) in if takes_labels then set_labels g ls' else g.
  Lemma classifier_cases c g r g' : classifier_fit c g = (r, g') ->
    (exists e, r = Err e /\ g' = g /\ (target_labels (c_y c) = Err e \/ exists ls, target_labels (c_y c) = Ok ls /\ label_classes ls = Err e)) \/
    exists ls classes, target_labels (c_y c) = Ok ls /\ label_classes ls = Ok classes /\
      ((exists e, r = Err e /\ g' = set_gama g (set_classes classes (i_gama g)) /\
          (classifier_labels ls = Err e \/ exists ls', classifier_labels ls = Ok (classes, ls') /\ c_sampling c ls' = Err e)) \/
       exists ls', classifier_labels ls = Ok (classes, ls') /\ c_sampling c ls' = Ok tt /\
         base_fit (inner_call c ls ls') (inner_inst g classes ls') = (r, g')).
  Proof.
    intros E. unfold Fit_Model.classifier_fit in E. destruct (target_labels (c_y c)) as [ls|e] eqn:T.
    2:{ left. injection E as <- <-. exists e. auto. }
    destruct (label_classes ls) as [classes|e] eqn:L.
    2:{ left. injection E as <- <-. exists e. eauto 6. }
    right. exists ls, classes. split; auto. split; auto. unfold classifier_labels. rewrite L. cbn [rbind].
    unfold inner_call, inner_inst. cbn zeta.
    destruct (existsb is_str ls) eqn:S; cbn [rbind] in *.
    - destruct (rmap (encode_label classes) ls) as [ls'|e] eqn:R; cbn [rbind].
      + destruct (c_sampling c ls') as [[]|e] eqn:Sa.
        * right. exists ls'. auto.
        * left. injection E as <- <-. exists e. eauto 6.
      + left. injection E as <- <-. exists e. auto.
    - destruct (c_sampling c ls) as [[]|e] eqn:Sa.
      + right. exists ls. auto.
      + left. injection E as <- <-. exists e. eauto 6.
  Qed.
  Lemma inner_format c ls classes ls' : target_labels (c_y c) = Ok ls -> classifier_labels ls = Ok (classes, ls') ->
    classifier_format (c_x c) (c_y c) = do xy <- format_x_y (c_x (inner_call c ls ls')) (c_y (inner_call c ls ls')) TSeries true; Ok (classes, xy).
  Proof.
    intros T L. unfold classifier_format. unfold target_labels in T. rewrite T. cbn [rbind]. rewrite L. cbn [rbind].
    unfold inner_call. destruct (existsb is_str ls); reflexivity.
  Qed.
  Lemma inner_same c ls ls' : c_x (inner_call c ls ls') = c_x c /\ c_declared (inner_call c ls ls') = c_declared c /\ c_warm (inner_call c ls ls') = c_warm c /\
    c_clock (inner_call c ls ls') = c_clock c /\ c_fresh (inner_call c ls ls') = c_fresh c /\ c_search (inner_call c ls ls') = c_search c /\
    c_dir (inner_call c ls ls') = c_dir c /\ c_post (inner_call c ls ls') = c_post c.
  Proof. unfold inner_call. destruct (existsb is_str ls); repeat split. Qed.
  Lemma inner_inst_same g classes ls' : same_setup g (inner_inst g classes ls') /\ i_final (inner_inst g classes ls') = i_final g /\
    i_pset (inner_inst g classes ls') = i_pset g /\ i_gama (inner_inst g classes ls') = set_classes classes (i_gama g) /\
    i_labels (inner_inst g classes ls') = (if takes_labels then Some ls' else i_labels g).
  Proof. unfold inner_inst. destruct takes_labels; repeat split. Qed.

  (** regressors never get classes *)
  Lemma fit_setup c g : same_setup g (snd (fit c g)) /\ (i_classifier g = false -> i_labels (snd (fit c g)) = i_labels g /\ g_classes (i_gama (snd (fit c g))) = g_classes (i_gama g)).
  Proof.
    unfold Fit_Model.fit. destruct (i_classifier g) eqn:C.
    - split; [|discriminate]. destruct (classifier_fit c g) as [r g'] eqn:E. assert (S : same_setup g g').
      { apply classifier_cases in E as [(e & _ & -> & _)|(ls & classes & _ & _ & [(e & _ & -> & _)|(ls' & _ & _ & E)])]; [repeat split|repeat split|].
        apply base_setup in E as (S & _). destruct (inner_inst_same g classes ls') as (S2 & _). unfold same_setup in *. intuition congruence. }
      destruct r; exact S.
    - destruct (base_fit c g) as [r g'] eqn:E. apply base_setup in E as (S & L & K). destruct r; cbn [snd]; auto.
  Qed.
  Lemma history_inv g : history g -> i_classifier g = false -> i_labels g = None /\ g_classes (i_gama g) = None.
  Proof.
    intros H. induction H as [|g c H IH]; intros C; [split; reflexivity|]. destruct (fit_setup c g) as (S & K).
    destruct S as (S & _). rewrite S in C. destruct (IH C) as (A & B). destruct (K C) as (K1 & K2). split; congruence.
  Qed.
  Lemma history_classes g : history g -> g_model (i_gama g) <> None -> i_classifier g = true -> g_classes (i_gama g) <> None.
  Proof.
    intros H. induction H as [|g c H IH]; intros M C; [cbn in M; congruence|]. destruct (fit_setup c g) as (S & _). destruct S as (S & _). rewrite S in C.
    unfold Fit_Model.fit in *. rewrite C in *. destruct (classifier_fit c g) as [r g'] eqn:E.
    assert (K : g_model (i_gama g') <> None -> g_classes (i_gama g') <> None).
    { apply classifier_cases in E as [(e & _ & -> & _)|(ls & classes & _ & _ & [(e & _ & -> & _)|(ls' & _ & _ & E)])]; [auto|intros _; discriminate|].
      apply base_setup in E as (_ & _ & K). intros _. rewrite K. destruct (inner_inst_same g classes ls') as (_ & _ & _ & -> & _). discriminate. }
    destruct r; auto.
  Qed.

  Lemma start_ok {A} (warm : option (list (option A))) final fresh : (forall l, warm = Some l -> ~ In None l) -> exists pop, Fac_Model.start_population warm final fresh = Ok pop.
  Proof.
    intros W. unfold Fac_Model.start_population. destruct warm as [[|o l]|]; [eauto| |destruct final; eauto].
    specialize (W _ eq_refl). revert W. generalize (o :: l). clear. intros l. induction l as [|a l IH]; intros W; [eexists; reflexivity|].
    destruct a as [a|]; [|destruct W; left; reflexivity]. cbn [rmap rbind]. destruct IH as (p & ->); [intros K; apply W; right; exact K|]. cbn [rbind]. eauto.
  Qed.

  (** a search that raises *)
  Lemma base_raises c g e x y types xe steps ext :
    format_x_y (c_x c) (c_y c) TSeries true = Ok (x, y) -> inferred_dtypes (c_x c) (c_declared c) = Ok types ->
    basic_encoding fit_transform x (i_classifier g) = Ok (xe, steps) -> basic_pipeline_extension xe (i_classifier g) = Ok ext ->
    (0 <= left1 rate c g)%Z -> (forall l, c_warm c = Some l -> ~ In None l) ->
    (forall p st pop d t l n k, fst (c_search c p st pop d t l n k) = Err e) -> e <> TimeoutException -> e <> KeyboardInterrupt ->
    exists g', base_fit c g = (Err e, g') /\ i_gama g' = Pred_Model.mkGama types (Some (fitted steps x)) (g_classes (i_gama g)) (g_model (i_gama g)).
  Proof.
    intros F D B X L W S NT NK. destruct (base_fit c g) as [r g'] eqn:E. exists g'. apply base_fit_cases in E as (r1 & g1 & P & E).
    apply pre_cases in P as (_ & _ & _ & _ & _ & _ & _ & P). unfold begun in P. cbn [set_keeper i_classifier i_gama] in P.
    rewrite F in P. destruct P as [Y1 P]. rewrite D in P. destruct P as [_ P]. rewrite B in P. destruct P as (X1 & G1 & P). rewrite X in P. destruct P as (-> & _).
    cbn zeta in E. destruct E as [(N & _)|(_ & r2 & g3 & P2 & E)]; [lia|].
    apply search_cases in P2 as (_ & _ & _ & G2 & _ & _ & _ & _ & P2). cbn [set_keeper i_gama i_x i_y] in *.
    destruct r2 as [[]|e2].
    - destruct P2 as (pop & x' & y' & how & _ & _ & _ & K & O & _). 
      match type of K with c_search c ?p ?st ?pop ?d ?t ?l ?n ?k = _ => specialize (S p st pop d t l n k) end. rewrite K in S. cbn in S. subst how.
      destruct O as [O|[O|O]]; try discriminate; injection O; congruence.
    - destruct E as (-> & ->). cbn. rewrite G2, G1. split; [|reflexivity]. f_equal. f_equal.
      destruct P2 as [K|[K|[K|(pop & x' & y' & out & _ & _ & _ & K & _)]]].
      + destruct (start_ok (c_warm c) (i_final (set_keeper (set_keeper g1 (mkTk (Some (ticks (i_total g))) None (firstn 1 (acts rate c g)))) (act_begin (c_clock c 4) "search" (Some (ticks (limit1 rate c g))) (mkTk (Some (ticks (i_total g))) None (firstn 1 (acts rate c g)))))) (c_fresh c (i_pset g1)) W) as (pop & PP).
        cbn in PP, K. rewrite PP in K. discriminate.
      + rewrite X1 in K. discriminate.
      + rewrite Y1 in K. discriminate.
      + match type of K with c_search c ?p ?st ?pop ?d ?t ?l ?n ?k = _ => specialize (S p st pop d t l n k) end. rewrite K in S. cbn in S. congruence.
  Qed.

  (** which activities a fit leaves in the time keeper *)
  Lemma base_acts c g r g' : base_fit c g = (r, g') ->
    exists n, tk_acts (i_keeper g') = firstn n (acts rate c g) /\ (n <= 1 \/ (0 <= left1 rate c g)%Z) /\ (r = Ok tt -> n = 3).
  Proof.
    intros E. apply base_fit_cases in E as (r1 & g1 & _ & E). destruct r1 as [[]|e]; [|destruct E as (-> & ->); exists 1; repeat split; auto; discriminate].
    cbn zeta in E. destruct E as [(_ & -> & ->)|(N & r2 & g3 & _ & E)]; [exists 1; repeat split; auto; discriminate|].
    destruct r2 as [[]|e]; [|destruct E as (-> & ->); exists 2; repeat split; auto; discriminate].
    destruct E as (r3 & g5 & _ & _ & E). destruct r3 as [[]|e]; [|destruct E as (-> & ->); exists 3; repeat split; auto; discriminate].
    destruct E as (_ & ->). exists 3. repeat split; auto.
  Qed.
  Lemma fit_acts c g r g' : fit c g = (r, g') -> (exists e, r = Err e /\ i_keeper g' = i_keeper g) \/
    exists n, tk_acts (i_keeper g') = firstn n (acts rate c g) /\ (n <= 1 \/ (0 <= left1 rate c g)%Z) /\ (forall v, r = Ok v -> n = 3).
  Proof.
    intros E. unfold Fit_Model.fit in E. destruct (i_classifier g).
    - destruct (classifier_fit c g) as [r0 h] eqn:F.
      apply classifier_cases in F as [(e0 & -> & -> & _)|(ls & classes & _ & _ & [(e0 & -> & -> & _)|(ls' & _ & _ & F)])].
      + left. injection E as <- <-. eauto.
      + left. injection E as <- <-. eauto.
      + right. apply base_acts in F as (n & A & B & C). exists n.
        destruct (inner_same c ls ls') as (_ & _ & _ & K & _). destruct (inner_inst_same g classes ls') as ((_ & T & Fr & _) & _).
        assert (L1 : left1 rate (inner_call c ls ls') (inner_inst g classes ls') = left1 rate c g) by (unfold left1; rewrite K, T; reflexivity).
        assert (L2 : acts rate (inner_call c ls ls') (inner_inst g classes ls') = acts rate c g).
        { unfold acts, limit1, limit2, left2. rewrite L1, K, Fr. reflexivity. }
        rewrite L1 in B. rewrite L2 in A. destruct r0 as [[]|e]; injection E as <- <-; repeat split; auto; discriminate.
    - destruct (base_fit c g) as [r0 h] eqn:F. right. apply base_acts in F as (n & A & B & C). exists n.
      destruct r0 as [[]|e]; injection E as <- <-; repeat split; auto; discriminate.
  Qed.

  (** a search that finds nothing *)
  Lemma base_nothing c g e x y types xe steps ext :
    format_x_y (c_x c) (c_y c) TSeries true = Ok (x, y) -> inferred_dtypes (c_x c) (c_declared c) = Ok types ->
    basic_encoding fit_transform x (i_classifier g) = Ok (xe, steps) -> basic_pipeline_extension xe (i_classifier g) = Ok ext ->
    (0 <= left1 rate c g)%Z -> (forall l, c_warm c = Some l -> ~ In None l) ->
    (forall p st pop d t n k, c_search c p st pop d t (i_labels g) n k = (Err TimeoutException, [])) ->
    (forall d t rest, c_post c d t rest [] = Err e) ->
    exists g', base_fit c g = (Err e, g').
  Proof.
    intros F D B X L W S NP. destruct (base_fit c g) as [r g'] eqn:E. exists g'. apply base_fit_cases in E as (r1 & g1 & P & E).
    apply pre_cases in P as (_ & _ & _ & LL & _ & _ & _ & P). unfold begun in P, LL. cbn [set_keeper i_classifier i_gama i_labels] in P, LL.
    rewrite F in P. destruct P as [Y1 P]. rewrite D in P. destruct P as [_ P]. rewrite B in P. destruct P as (X1 & G1 & P). rewrite X in P. destruct P as (-> & _).
    cbn zeta in E. destruct E as [(N & _)|(_ & r2 & g3 & P2 & E)]; [lia|].
    apply search_cases in P2 as (_ & _ & _ & _ & X2 & Y2 & _ & _ & P2). cbn [set_keeper i_gama i_x i_y i_labels] in *. rewrite LL in P2.
    destruct r2 as [[]|e2].
    - destruct P2 as (pop & x' & y' & how & _ & _ & _ & K & _ & _). rewrite S in K. injection K as _ K.
      destruct E as (r3 & g5 & P3 & R3 & E). unfold Fit_Model.post_processing in P3. cbn [set_keeper i_final i_x i_y i_keeper] in P3. rewrite <- K in P3. cbn [existsb] in P3.
      rewrite X2, X1, Y2, Y1 in P3. cbn [set_keeper i_keeper] in R3. rewrite R3 in P3. change (Fac_Model.best_individuals _ []) with (@nil I) in P3. rewrite NP in P3. injection P3 as <- <-.
      destruct E as (-> & _). reflexivity.
    - exfalso. destruct P2 as [K|[K|[K|(pop & x' & y' & out & _ & _ & _ & K & K2 & _)]]].
      + destruct (start_ok (c_warm c) (i_final g1) (c_fresh c (i_pset g1)) W) as (pop & PP). cbn in K. rewrite PP in K. discriminate.
      + rewrite X1 in K. discriminate.
      + rewrite Y1 in K. discriminate.
      + rewrite S in K. injection K as <- _. congruence.
  Qed.
End Fit.

(** whole seconds, in ticks *)
Lemma int_pos rate f l : (0 <= f <= 1)%Q -> (0 <= l)%Z -> (0 <= Fac_Model.py_int ((1 - f) * (l # rate)) * Zpos rate <= l)%Z.
Proof.
  intros (F0 & F1) L. assert (R : (0 <= l # rate)%Q) by (unfold Qle; cbn; lia).
  assert (R1 : (0 <= (1 - f) * (l # rate))%Q) by nra. assert (R2 : ((1 - f) * (l # rate) <= l # rate)%Q) by nra.
  revert R1 R2. generalize ((1 - f) * (l # rate))%Q. intros [n d] R1 R2. unfold Fac_Model.py_int. cbn [Qnum Qden] in *. unfold Qle in *. cbn in *.
  assert (Q1 : (0 <= Z.quot n (Zpos d))%Z) by (apply Z.quot_pos; lia). pose proof (Z.mul_quot_le n (Zpos d) ltac:(lia) ltac:(lia)) as Q2.
  split; [nia|]. nia.
Qed.
Lemma int_sec rate l : ((0 <= l)%Z -> (0 <= Fac_Model.py_int (l # rate) * Zpos rate <= l)%Z) /\ ((l < 0)%Z -> (l <= Fac_Model.py_int (l # rate) * Zpos rate <= 0)%Z).
Proof.
  unfold Fac_Model.py_int. cbn [Qnum Qden]. split; intros L.
  - assert (Q1 : (0 <= Z.quot l (Zpos rate))%Z) by (apply Z.quot_pos; lia). pose proof (Z.mul_quot_le l (Zpos rate) ltac:(lia) ltac:(lia)). nia.
  - replace l with (- (- l))%Z by lia. rewrite Z.quot_opp_l by lia. assert (Q1 : (0 <= Z.quot (-l) (Zpos rate))%Z) by (apply Z.quot_pos; lia).
    pose proof (Z.mul_quot_le (-l) (Zpos rate) ltac:(lia) ltac:(lia)). nia.
Qed.

Lemma int_floor q : (0 <= q)%Q -> (inject_Z (Fac_Model.py_int q) <= q)%Q /\ (q < inject_Z (Fac_Model.py_int q + 1))%Q.
Proof.
  destruct q as [n d]. unfold Fac_Model.py_int, Qle, Qlt, inject_Z. cbn [Qnum Qden]. intros H.
  pose proof (Z.mul_quot_le n (Zpos d) ltac:(lia) ltac:(lia)) as Q2. pose proof (Z.mul_succ_quot_gt n (Zpos d) ltac:(lia) ltac:(lia)) as Q3. lia.
Qed.

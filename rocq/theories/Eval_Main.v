(** Theorems about compilers/scikitlearn.py; restated in [Eval_Props.v]. *)
(*IMPORTS*)
Require Import Permutation.
From Verif Require Import Base Num Gp_Model Gp_Spec Gp_Examples Eval_Model Eval_Spec.
Open Scope nat_scope.
(*END*)
From Verif Require Import Num_Proofs Gp_Proofs Eval_Proofs Eval_Proofs2.

(** C58. The compiled pipeline is the given preprocessing, in order, followed by the
    individual's own steps from the one nearest the data to the predictor; every own
    step is made from its class and exactly its hyperparameters; nothing is changed. *)
Lemma C58_steps_main : forall E (build : nat -> list (string * value) -> res E) ind preprocessing s ls ss steps s',
  wf_heap (s_heap s) -> pipeline (s_heap s) ind ls ss -> Forall unambiguous ss ->
  compile build ind preprocessing s = (Ok steps, s') ->
  s' = s /\ exists own, steps = (match preprocessing with Some l => l | None => [] end) ++ own /\
    Forall2 (fun st ne => exists kwargs, build (p_class (fst st)) kwargs = Ok (snd ne) /\ says kwargs (snd st)) (rev ss) own /\
    map fst own = rev (map nat_str (seq 0 (length ss))).
Proof.
  intros E build ind pp s ls ss steps s' W P U H.
  destruct (compile_eq build ind pp s ls ss W P) as (cs & Ec & Eq). rewrite Eq in H. clear Eq.
  destruct (rmap _ (enumerate cs)) as [ys|] eqn:R; [|discriminate]. cbn [rbind] in H. injection H as <- <-. split; auto.
  apply enum_steps in R as [R1 R2]. exists (rev ys). split; auto. split.
  - apply fa2_rev. subst ss. clear R1 P. revert U. induction R2 as [|c ne cs ys T R2 IH]; intros U; simpl; [constructor|].
    inversion U; subst. constructor; auto. eexists. split; [exact T|]. apply says_own. exact H1.
  - rewrite map_rev, R1. subst ss. rewrite map_length. reflexivity.
Qed.
(** C58, names: they are all different exactly when the given names are and none of
    them is the number of a step. *)
Lemma C58_names_main : forall E (build : nat -> list (string * value) -> res E) ind preprocessing s ls ss steps s',
  wf_heap (s_heap s) -> pipeline (s_heap s) ind ls ss -> compile build ind preprocessing s = (Ok steps, s') ->
  let given := match preprocessing with Some l => l | None => [] end in
  NoDup (map fst steps) <-> NoDup (map fst given) /\ forall i, i < length ss -> ~ In (nat_str i) (map fst given).
Proof.
  intros E build ind pp s ls ss steps s' W P H given.
  destruct (compile_eq build ind pp s ls ss W P) as (cs & Ec & Eq). rewrite Eq in H. clear Eq.
  destruct (rmap _ (enumerate cs)) as [ys|] eqn:R; [|discriminate]. cbn [rbind] in H. injection H as <- <-.
  apply enum_steps in R as [R1 _]. fold given. rewrite map_app, map_rev, R1.
  assert (L : length cs = length ss) by (subst ss; rewrite map_length; auto). rewrite L.
  assert (N1 : NoDup (rev (map nat_str (seq 0 (length ss))))).
  { apply NoDup_rev. apply FinFun.Injective_map_NoDup; [intros a b; apply nat_str_inj|apply seq_NoDup]. }
  assert (N2 : forall x, In x (rev (map nat_str (seq 0 (length ss)))) <-> exists i, i < length ss /\ x = nat_str i).
  { intros x. rewrite <- in_rev, in_map_iff. split.
    - intros (i & <- & Hi). apply in_seq in Hi. exists i. split; auto; lia.
    - intros (i & Hi & ->). exists i. split; auto. apply in_seq. lia. }
  split.
  - intros H. split.
    + clear - H. induction (map fst given) as [|x l IH]; [constructor|]. simpl in H. inversion H; subst. constructor; auto.
      intros K. apply H2, in_or_app; auto.
    + intros i Hi K. apply (in_split) in K as (l1 & l2 & K). rewrite K in H.
      rewrite <- app_assoc in H. simpl in H. apply NoDup_remove_2 in H. apply H. apply in_or_app. right. apply in_or_app. right. apply N2. eauto.
  - intros [A B]. induction (map fst given) as [|x l IH]; simpl; auto. inversion A; subst. constructor.
    + intros K. apply in_app_or in K as [K|K]; auto. apply N2 in K as (i & Hi & ->). apply (B i Hi). simpl; auto.
    + apply IH; auto. intros i Hi K. apply (B i Hi). simpl; auto.
Qed.
(** C58, totality: compiling fails only if building a step does. *)
Lemma C58_total_main : forall E (build : nat -> list (string * value) -> res E) ind preprocessing s ls ss,
  wf_heap (s_heap s) -> pipeline (s_heap s) ind ls ss -> (forall c kwargs, exists e, build c kwargs = Ok e) ->
  exists steps, compile build ind preprocessing s = (Ok steps, s).
Proof.
  intros E build ind pp s ls ss W P T. destruct (compile_eq build ind pp s ls ss W P) as (cs & Ec & Eq). rewrite Eq.
  destruct (enum_ok build cs 0) as (ys & R); [apply Forall_forall; intros; apply T|]. unfold enumerate. rewrite R. simpl. eauto.
Qed.

(** The example of an estimator: its class and arguments. *)
Definition ex_build (c : nat) (kw : list (string * value)) : res (nat * list (string * value)) := Ok (c, kw).
Example C58_ex_main : wf_heap (s_heap (ex_state [])) /\ pipeline (s_heap (ex_state [])) ex_ind1 [0; 1; 2; 3] ex_long /\ Forall unambiguous ex_long /\
  compile ex_build ex_ind1 (Some [("enc", (7, [])); ("imp", (8, []))]) (ex_state []) =
    (Ok [("enc", (7, [])); ("imp", (8, [])); ("3", (2, [("threshold", vi "0.6" 6)])); ("2", (3, [])); ("1", (2, [("threshold", vi "0.5" 5)]));
         ("0", (0, [("alpha", vi "0.1" 1); ("fit_prior", vi "True" 3)]))]%string, ex_state []).
Proof.
  split; [apply ex_wf|]. split; [apply ex_pipe1|]. split.
  - repeat constructor; simpl; try (intros [H|H]; [discriminate|destruct H]); auto.
  - rewrite (surjective_pairing (compile _ _ _ _)). f_equal; vm_compute; reflexivity.
Qed.

(** A run of evaluate_pipeline that returns is a run of its block. *)
Lemma eval_run {E P} rows index splits sample (fit : list nat -> res E) score (predict : E -> bool -> list nat -> res (nat * list P)) metrics sub hit valid timeout o :
  evaluate_pipeline rows index splits sample fit score predict metrics sub hit valid timeout = Ok o ->
  exists r s', body rows index splits sample fit score predict metrics sub hit (initial metrics, (0, false)) = (r, s') /\
    o = report (fst s') (o_error o) /\ (o_error o = None <-> r = Ok tt) /\ valid = true /\ nleb timeout (Fin 0) = false.
Proof.
  unfold evaluate_pipeline. destruct valid; simpl; [|discriminate]. destruct (nleb timeout (Fin 0)); [discriminate|].
  destruct (body _ _ _ _ _ _ _ _ _ _ _) as [[[]|e] [v [k b]]].
  - intros H. injection H as <-. eexists _, _. split; [reflexivity|]. simpl. repeat split; auto.
  - destruct e; intros H; try discriminate; try (injection H as <-; eexists _, _; split; [reflexivity|]; simpl; repeat split; auto; discriminate).
    destruct (own_timer hit && b); [|discriminate]. injection H as <-. eexists _, _. split; [reflexivity|]. simpl. repeat split; auto; discriminate.
Qed.

(** C59. When a pipeline is evaluated successfully on a division of the rows in folds
    (the same at both calls of split, as for an integer cv) without subsampling, every
    row has one prediction, made by the estimator of the one fold in which the row is a
    test row; that estimator was fitted on rows not including it. *)
Lemma C59_held_out_main : forall E P rows index splits sample (fit : list nat -> res E) score (predict : E -> bool -> list nat -> res (nat * list P))
    metrics sub hit timeout o folds,
  ~ part_of_rows sub rows -> splits 0 = Ok folds -> splits 1 = Ok folds -> k_fold rows folds -> 0 < rows ->
  evaluate_pipeline rows index splits sample fit score predict metrics sub hit true timeout = Ok o -> o_error o = None ->
  exists cols arr ests, o_pred o = Some (cols, arr) /\ o_ests o = Some ests /\ length arr = rows /\
    Forall2 (fun f e => fit (fst f) = Ok e) folds ests /\
    forall i, i < rows -> exists k train test e ps q x,
      nth_error folds k = Some (train, test) /\ nth_error ests k = Some e /\ ~ In i train /\ nth_error test q = Some i /\
      (forall k' train' test', nth_error folds k' = Some (train', test') -> In i test' -> k' = k) /\
      predict e (existsb (fun b => b) metrics) test = Ok (cols, ps) /\ nth_error ps q = Some x /\ nth_error arr i = Some (Some x).
Proof.
  intros E P rows index splits sample fit score predict metrics sub hit timeout o folds HS S0 S1 (KN & KI & KD) R HE HO. apply part_false in HS.
  apply eval_run in HE as (r & s' & B & EO & EE & _). rewrite EO. cbn [report o_pred o_ests]. apply EE in HO. subst r.
  apply body_ok in B as (folds' & used & result & s7 & folds2 & F0 & FT & FR & _ & VE & VP & F2 & FP).
  rewrite HS in F2. unfold trained_on in FT. rewrite HS in FT. assert (folds' = folds) by congruence. assert (folds2 = folds) by congruence. subst folds' folds2 used.
  assert (LE : length (map fst result) = length folds) by (rewrite map_length; clear - FR; induction FR; simpl; auto).
  destruct (fold_predictions_ok _ _ _ _ _ _ _ _ FP LE KN) as [[FE _]|(cols & arr0 & arr & A1 & A2 & A3 & A4 & A5)].
  { subst folds. exfalso. apply (KI 0) in R. destruct R. }
  rewrite VP in A3. cbn in A3. destruct A3 as [A3|[_ ->]]; [discriminate|].
  exists cols, arr, (map fst result). split; auto. split; auto. split; [rewrite A2, repeat_length; auto|]. split.
  - clear - FR. induction FR as [|u ex folds result [F1 _]]; simpl; constructor; auto.
  - intros i Hi. apply KI in Hi. apply in_concat in Hi as (test & Ht & Hi). apply in_map_iff in Ht as ([train test'] & ET & Hf). simpl in ET. subst test'.
    apply In_nth_error in Hf as (k & Hk).
    assert (HR : exists e ps, nth_error (map fst result) k = Some e /\ predict e (existsb (fun b => b) metrics) test = Ok (cols, ps) /\
       forall q, q < length test -> exists x, nth_error ps q = Some x /\ nth_error arr (nth q test 0) = Some (Some x)).
    { clear - A5 Hk. revert k Hk. induction A5 as [|e f ests folds (ps & Q1 & Q2) A5 IH]; intros k Hk; [destruct k; discriminate|].
      destruct k as [|k]; simpl in Hk.
      - injection Hk as ->. exists e, ps. auto.
      - destruct (IH k Hk) as (e' & ps' & Q3 & Q4 & Q5). exists e', ps'. auto. }
    destruct HR as (e & ps & Q1 & Q2 & Q3). apply (In_nth _ _ 0) in Hi as (q & Hq & Eq). destruct (Q3 q Hq) as (x & X1 & X2). rewrite Eq in X2.
    exists k, train, test, e, ps, q, x. split; auto. split; auto. split.
    { rewrite Forall_forall in KD. intros K. apply (KD (train, test) (nth_error_In _ _ Hk) i K). simpl. rewrite <- Eq. apply nth_In; auto. }
    split; [rewrite (nth_error_nth' test 0 Hq); congruence|]. split; auto.
    intros k' train' test' Hk' Hi'. assert (Hi : In i test) by (rewrite <- Eq; apply nth_In; auto).
    clear - KN Hk Hk' Hi Hi'. revert k k' Hk Hk'. induction folds as [|[tr te] folds IH]; intros [|k] [|k'] Hk Hk'; simpl in *; try discriminate; auto.
    + exfalso. injection Hk as <- <-. apply nth_error_In in Hk'. apply (in_map snd) in Hk'. simpl in Hk'.
      assert (J : In i (concat (map snd folds))) by (apply in_concat; eauto). clear - KN Hi J. induction te as [|a te IH]; [destruct Hi|].
      simpl in KN. inversion KN; subst. destruct Hi as [-> |Hi]; auto. apply H1, in_or_app; auto.
    + exfalso. injection Hk' as <- <-. apply nth_error_In in Hk. apply (in_map snd) in Hk. simpl in Hk.
      assert (J : In i (concat (map snd folds))) by (apply in_concat; eauto). clear - KN Hi' J. induction te as [|a te IH]; [destruct Hi'|].
      simpl in KN. inversion KN; subst. destruct Hi' as [-> |Hi]; auto. apply H1, in_or_app; auto.
    + f_equal. apply IH; auto. clear - KN. induction te; auto. simpl in KN. inversion KN; auto.
Qed.
(** C59 relies on split giving the same folds twice: with a splitter that does not,
    a row can get the prediction of an estimator fitted on it. *)
Lemma C59_same_folds_needed_main : exists splits folds folds', splits 0 = Ok folds /\ splits 1 = Ok folds' /\ k_fold 2 folds /\ k_fold 2 folds' /\
  exists o, evaluate_pipeline (E := list nat) (P := list nat) 2 [0; 1] splits (fun _ _ => Err ValueError) (fun rows => Ok rows) (fun _ _ _ => Ok (Fin 1))
      (fun e _ test => Ok (0, map (fun _ => e) test)) [false] NoSub None true (Fin 1) = Ok o /\ o_error o = None /\
    o_pred o = Some (0, [Some [0]; Some [1]]).
Proof.
  exists (fun k => Ok (if k =? 0 then [([0], [1]); ([1], [0])] else [([1], [0]); ([0], [1])])), [([0], [1]); ([1], [0])], [([1], [0]); ([0], [1])].
  split; auto. split; auto.
  assert (K : forall a b, (a = 0 /\ b = 1 \/ a = 1 /\ b = 0) -> k_fold 2 [([a], [b]); ([b], [a])]).
  { intros a b H. split; [|split].
    - simpl. constructor; [simpl; lia|]. constructor; auto. constructor.
    - simpl. intros i. lia.
    - repeat constructor; simpl; intros i; lia. }
  split; [apply K; auto|]. split; [apply K; auto|]. eexists. split; [vm_compute; reflexivity|]. auto.
Qed.
(** Five rows, two folds; an estimator is named by its training rows and predicts it. *)
Definition ex_folds : list (list nat * list nat) := [([3; 4], [0; 1; 2]); ([0; 1; 2], [3; 4])].
Definition ex_eval sub hit (bad : list nat -> bool) :=
  evaluate_pipeline (E := list nat) (P := list nat) 5 (seq 0 5) (fun _ => Ok ex_folds) (fun _ _ => Ok [0]) (fun rows => Ok rows)
    (fun e m test => Ok (Fin (inject_Z (Z.of_nat (length e + m))))) (fun e _ test => if bad e then Err ValueError else Ok (0, map (fun _ => e) test))
    [false; false] sub hit true (Fin 1).
Example C59_ex_main : k_fold 5 ex_folds /\ ~ part_of_rows NoSub 5 /\
  exists o, ex_eval NoSub None (fun _ => false) = Ok o /\ o_error o = None /\
   o_pred o = Some (0, [Some [3; 4]; Some [3; 4]; Some [3; 4]; Some [0; 1; 2]; Some [0; 1; 2]]) /\ o_ests o = Some [[3; 4]; [0; 1; 2]].
Proof.
  split; [|split; [intros []|]].
  - split; [|split].
    + simpl. repeat (constructor; [simpl; lia|]). constructor.
    + simpl. intros i. lia.
    + repeat constructor; simpl; intros i; lia.
  - eexists. split; [vm_compute; reflexivity|]. auto.
Qed.

(** C60 is false: the sampled positions within the training fold are used as row
    numbers, so the estimator of a fold can be trained on that fold's own test rows. *)
Lemma C60_subsample_refuted_main : exists folds o, k_fold 5 folds /\
  ex_eval (IntSub 1) None (fun _ => false) = Ok o /\ o_error o = None /\ folds = ex_folds /\
  exists ests k train test e i, o_ests o = Some ests /\ nth_error folds k = Some (train, test) /\ nth_error ests k = Some e /\
    In i e /\ In i test /\ ~ In i train.
Proof.
  exists ex_folds. eexists. split; [apply C59_ex_main|]. split; [vm_compute; reflexivity|]. split; auto. split; auto.
  exists [[0]; [0]], 0, [3; 4], [0; 1; 2], [0], 0. repeat split; simpl; auto. lia.
Qed.
(** C60, what holds: one estimator per fold, trained on exactly the rows numbered by
    the positions sampled among the fold's training rows (with the targets found under
    their row numbers in the index of y), and every fold is tested on its own test
    rows. *)
Lemma C60_size_partial_main : forall E P rows index splits sample (fit : list nat -> res E) score (predict : E -> bool -> list nat -> res (nat * list P))
    metrics sub hit timeout o folds,
  part_of_rows sub rows -> splits 0 = Ok folds ->
  evaluate_pipeline rows index splits sample fit score predict metrics sub hit true timeout = Ok o -> o_error o = None ->
  exists ests, o_ests o = Some ests /\
    Forall2 (fun f e => exists ys idx, length ys = length (fst f) /\
       (NoDup index -> Forall2 (fun t p => nth_error index p = Some t) (fst f) ys) /\
       sample (fst f) ys = Ok idx /\ fit idx = Ok e /\
       forall m, m < length metrics -> exists x, score e m (snd f) = Ok x) folds ests.
Proof.
  intros E P rows index splits sample fit score predict metrics sub hit timeout o folds HS S0 HE HO. apply part_true in HS.
  apply eval_run in HE as (r & s' & B & EO & EE & _). rewrite EO. cbn [report o_pred o_ests]. apply EE in HO. subst r.
  apply body_ok in B as (folds' & used & result & s7 & folds2 & F0 & FT & FR & _ & VE & VP & F2 & FP).
  exists (map fst result). split; auto. assert (folds' = folds) by congruence. subst folds'.
  unfold trained_on in FT. rewrite HS in FT. clear - FT FR. revert result FR.
  induction FT as [|f u folds used [T1 T2] FT IH]; intros result FR; inversion FR as [|? ex ? ? [R1 R2]]; subst; simpl; constructor; auto.
  unfold draw in T1. destruct (by_label index (fst f)) as [ys|] eqn:BL; [|discriminate]. cbn [rbind] in T1.
  destruct (Nat.eqb_spec (length ys) (length (fst f))) as [LY|]; [|discriminate].
  exists ys, (fst u). split; auto. split; [intros N; apply by_label_pos; auto|]. split; auto. split; auto. intros m Hm. rewrite <- T2. clear - R2 Hm.
  assert (G : forall l xs, Forall2 (fun m x => score (fst ex) m (snd u) = Ok x) l xs -> In m l -> exists x, score (fst ex) m (snd u) = Ok x).
  { induction 1; simpl; [intros []|]. intros [<- |K]; eauto. }
  apply (G _ _ R2). apply in_seq. lia.
Qed.
Example C60_ex_main : part_of_rows (IntSub 1) 5 /\ part_of_rows (FracSub (1 # 2)) 5 /\
  exists o, ex_eval (IntSub 1) None (fun _ => false) = Ok o /\ o_error o = None /\ o_ests o = Some [[0]; [0]].
Proof. split; [simpl; lia|]. split; [reflexivity|]. eexists. split; [vm_compute; reflexivity|]. auto. Qed.

(** C61 is false: an error while predicting, or the timeout after scoring, is reported
    together with the scores of the cross validation. *)
Lemma C61_failed_refuted_main :
  (exists o, ex_eval NoSub None (fun e => length e =? 3) = Ok o /\ o_error o = Some ValueError /\ o_scores o = [Fin (5 # 2); Fin (7 # 2)]) /\
  (exists k o, ex_eval NoSub (Some (k, OwnTimer)) (fun _ => false) = Ok o /\ o_error o = Some TimeoutException /\ o_scores o = [Fin (5 # 2); Fin (7 # 2)] /\ o_pred o = None).
Proof. split; [|exists 8]; eexists; (split; [vm_compute; reflexivity|]); auto. Qed.
(** C61, what holds: whenever a result is returned (with or without an error), all
    scores are -inf, with neither predictions nor estimators, or every fold was
    fitted and scored without error and the scores are the means over the folds. *)
Lemma C61_failed_partial_main : forall E P rows index splits sample (fit : list nat -> res E) score (predict : E -> bool -> list nat -> res (nat * list P))
    metrics sub hit timeout o,
  evaluate_pipeline rows index splits sample fit score predict metrics sub hit true timeout = Ok o ->
  (o_scores o = repeat NInf (length metrics) /\ o_pred o = None /\ o_ests o = None /\ o_error o <> None) \/
  exists folds used result, splits 0 = Ok folds /\ map snd used = map snd folds /\
    (~ part_of_rows sub rows -> used = folds) /\
    (part_of_rows sub rows -> Forall2 (fun f u => exists ys, sample (fst f) ys = Ok (fst u)) folds used) /\
    Forall2 (fun u ex => fit (fst u) = Ok (fst ex) /\
      Forall2 (fun m x => score (fst ex) m (snd u) = Ok x) (seq 0 (length metrics)) (snd ex)) used result /\
    Forall2 (fun m x => is_mean_of (map (fun ex => nth m (snd ex) NaN) result) x) (seq 0 (length metrics)) (o_scores o).
Proof.
  intros E P rows index splits sample fit score predict metrics sub hit timeout o HE.
  apply eval_run in HE as (r & s' & B & EO & EE & _). pose proof B as B0. apply body_cases in B as [B|(folds & used & result & F0 & FT & FR & VS & _)].
  - left. rewrite EO. unfold report. rewrite B. cbn [o_scores o_pred o_ests o_error initial v_scores v_pred v_ests fst]. repeat split; auto.
    intros K. apply EE in K. subst r. apply body_ok in B0 as (? & ? & ? & ? & ? & _ & _ & _ & _ & VE & _). rewrite B in VE. discriminate.
  - right. exists folds, used, result. split; auto. unfold trained_on in FT. split; [|split; [|split; [|split; [exact FR|]]]].
    + destruct (require_subsample sub rows); [|congruence]. clear - FT. induction FT as [|? ? ? ? [? ?]]; simpl; auto. f_equal; auto.
    + intros K. apply part_false in K. rewrite K in FT. auto.
    + intros K. apply part_true in K. rewrite K in FT. clear - FT. induction FT as [|f u ? ? [D _]]; constructor; auto. unfold draw in D.
      destruct (by_label index (fst f)) as [ys|]; [|discriminate]. cbn [rbind] in D. destruct (_ =? _); [eauto|discriminate].
    + rewrite EO. unfold report. cbn [o_scores]. rewrite VS. unfold means. apply fa2_map_r. intros m _. apply mean_of_spec.
Qed.
(** C61, the usual failures: if splitting fails, or some fold cannot be fitted or
    scored, the result (if any) has -inf scores. *)
Lemma C61_training_error_main : forall E P rows index splits sample (fit : list nat -> res E) score (predict : E -> bool -> list nat -> res (nat * list P))
    metrics sub hit timeout o,
  ~ part_of_rows sub rows ->
  (exists e, splits 0 = Err e) \/ (exists folds f e, splits 0 = Ok folds /\ In f folds /\
     (fit (fst f) = Err e \/ exists est m, fit (fst f) = Ok est /\ m < length metrics /\ score est m (snd f) = Err e)) ->
  evaluate_pipeline rows index splits sample fit score predict metrics sub hit true timeout = Ok o ->
  o_scores o = repeat NInf (length metrics) /\ o_pred o = None /\ o_ests o = None /\ o_error o <> None.
Proof.
  intros E P rows index splits sample fit score predict metrics sub hit timeout o HS HF HE. apply part_false in HS.
  destruct (C61_failed_partial_main _ _ _ _ _ _ _ _ _ _ _ _ _ _ HE) as [H|_]; auto.
  apply eval_run in HE as (r & s' & B & EO & EE & _). pose proof B as B0. apply body_cases in B as [B|(folds & used & result & F0 & FT & FR & VS & _)].
  - rewrite EO. unfold report. rewrite B. cbn [o_scores o_pred o_ests o_error initial v_scores v_pred v_ests fst]. repeat split; auto.
    intros K. apply EE in K. subst r. apply body_ok in B0 as (? & ? & ? & ? & ? & _ & _ & _ & _ & VE & _). rewrite B in VE. discriminate.
  - exfalso. unfold trained_on in FT. rewrite HS in FT. subst used. destruct HF as [(e & K)|(folds' & f & e & K & I & HF)]; [congruence|].
    assert (folds' = folds) by congruence. subst folds'.
    assert (G : exists ex, fold_result fit score metrics f ex).
    { clear - FR I. induction FR; [destruct I|]. destruct I as [<- |I]; eauto. }
    destruct G as (ex & G1 & G2). destruct HF as [HF|(est & m & H1 & H2 & H3)]; [congruence|].
    assert (est = fst ex) by congruence. subst est.
    assert (G : forall l xs, Forall2 (fun m x => score (fst ex) m (snd f) = Ok x) l xs -> In m l -> exists x, score (fst ex) m (snd f) = Ok x).
    { induction 1; simpl; [intros []|]. intros [<- |J]; eauto. }
    destruct (G _ _ G2) as (x & X); [apply in_seq; lia|]. congruence.
Qed.
(** A fold that cannot be fitted; the timer before and after the scores are known. *)
Example C61_ex_main :
  (exists o, evaluate_pipeline (E := list nat) (P := list nat) 5 (seq 0 5) (fun _ => Ok ex_folds) (fun _ _ => Ok [0]) (fun rows => if length rows =? 3 then Err TypeError else Ok rows)
    (fun _ _ _ => Ok (Fin 1)) (fun e _ test => Ok (0, map (fun _ => e) test)) [false; false] NoSub None true (Fin 1) = Ok o /\
    o_error o = Some TypeError /\ o_scores o = [NInf; NInf] /\ o_pred o = None) /\
  (exists o, ex_eval NoSub (Some (3, OwnTimer)) (fun _ => false) = Ok o /\ o_error o = Some TimeoutException /\ o_scores o = [NInf; NInf]) /\
  (exists o, ex_eval NoSub None (fun _ => false) = Ok o /\ o_error o = None /\ o_scores o = [Fin (5 # 2); Fin (7 # 2)]).
Proof. split; [|split]; eexists; (split; [vm_compute; reflexivity|]); auto. Qed.
(** C61: what is not a pipeline is refused with a TypeError before anything is
    evaluated: None and every object without fit, predict or steps. *)
Lemma C61_not_a_pipeline_main : forall E P rows index splits sample (fit : list nat -> res E) score (predict : E -> bool -> list nat -> res (nat * list P))
    metrics sub hit timeout object,
  (object = None \/ exists attributes, object = Some attributes /\
     (~ In "fit" attributes \/ ~ In "predict" attributes \/ ~ In "steps" attributes)) ->
  evaluate_pipeline rows index splits sample fit score predict metrics sub hit (object_is_valid_pipeline object) timeout = Err TypeError.
Proof.
  intros E P rows index splits sample fit score predict metrics sub hit timeout object H.
  assert (V : object_is_valid_pipeline object = false); [|rewrite V; reflexivity].
  destruct H as [-> |(l & -> & H)]; [reflexivity|]. cbn [object_is_valid_pipeline].
  assert (X : forall n, ~ In n l -> existsb (String.eqb n) l = false).
  { intros n N. apply not_true_is_false. intros K. apply existsb_exists in K as (m & I & K). apply String.eqb_eq in K. subst m. auto. }
  destruct H as [H|[H|H]]; rewrite (X _ H); rewrite ?andb_false_r; reflexivity.
Qed.
(** ... and an object that has the three is evaluated. *)
Lemma C61_pipeline_main : forall E P rows index splits sample (fit : list nat -> res E) score (predict : E -> bool -> list nat -> res (nat * list P))
    metrics sub hit timeout attributes,
  In "fit" attributes -> In "predict" attributes -> In "steps" attributes ->
  evaluate_pipeline rows index splits sample fit score predict metrics sub hit (object_is_valid_pipeline (Some attributes)) timeout =
  evaluate_pipeline rows index splits sample fit score predict metrics sub hit true timeout.
Proof.
  intros E P rows index splits sample fit score predict metrics sub hit timeout l A B C.
  replace (object_is_valid_pipeline (Some l)) with true; [reflexivity|]. symmetry. cbn [object_is_valid_pipeline].
  assert (X : forall n, In n l -> existsb (String.eqb n) l = true).
  { intros n N. apply existsb_exists. exists n. split; [exact N|apply String.eqb_refl]. }
  rewrite (X _ A), (X _ B), (X _ C). reflexivity.
Qed.
(** C61, interruptions: a timeout of an enclosing block, or Ctrl-C, is never turned
    into an evaluation result. *)
Lemma C61_outer_main : forall E P rows index splits sample (fit : list nat -> res E) score (predict : E -> bool -> list nat -> res (nat * list P))
    metrics sub k x timeout o,
  evaluate_pipeline rows index splits sample fit score predict metrics sub (Some (k, x)) true timeout = Ok o -> x <> OwnTimer ->
  o_error o <> Some TimeoutException /\ o_error o <> Some KeyboardInterrupt.
Proof.
  intros E P rows index splits sample fit score predict metrics sub k x timeout o H X. unfold evaluate_pipeline in H. cbn [negb] in H.
  destruct (nleb timeout (Fin 0)); [discriminate|].
  destruct (body _ _ _ _ _ _ _ _ _ _ _) as [[[]|e] [v [n b]]]; [injection H as <-; simpl; split; discriminate|].
  destruct e; try discriminate; try (injection H as <-; simpl; split; discriminate).
  destruct x; [congruence| |]; simpl in H; discriminate.
Qed.

(** C61, reporting: with a positive limit, nothing a library call raises and no own
    timer escapes: a result is returned, unless a call itself raises a request to stop. *)
Lemma C61_contained_main : forall E P rows index splits sample (fit : list nat -> res E) score (predict : E -> bool -> list nat -> res (nat * list P))
    metrics sub hit timeout,
  nlt (Fin 0) timeout -> (hit = None \/ exists k, hit = Some (k, OwnTimer)) ->
  (forall k e, splits k = Err e -> ordinary e) -> (forall a b e, sample a b = Err e -> ordinary e) ->
  (forall a e, fit a = Err e -> ordinary e) -> (forall a b c e, score a b c = Err e -> ordinary e) ->
  (forall a b c e, predict a b c = Err e -> ordinary e) ->
  exists o, evaluate_pipeline rows index splits sample fit score predict metrics sub hit true timeout = Ok o /\
    (o_error o = Some TimeoutException -> hit <> None).
Proof.
  intros E P rows index splits sample fit score predict metrics sub hit timeout HT HH H1 H2 H3 H4 H5.
  assert (HH' : match hit with Some (_, x) => x = OwnTimer | None => True end) by (destruct HH as [-> |(k & ->)]; auto).
  unfold evaluate_pipeline. cbn [negb].
  assert (TN : nleb timeout (Fin 0) = false).
  { unfold nlt in HT. destruct timeout as [| |q|]; try discriminate; auto. simpl in *. unfold qltb in HT. destruct (Qle_bool q 0); auto; discriminate. }
  rewrite TN. destruct (body _ _ _ _ _ _ _ _ _ _ _) as [[[]|x] [v [n b]]] eqn:B.
  - eexists. split; [reflexivity|]. discriminate.
  - destruct (sf_body rows index splits sample fit score predict metrics sub hit HH' H1 H2 H3 H4 H5 _ _ _ B) as [[N1 N2]|(O & -> & S)].
    + exists (report v (Some x)). split; [destruct x; congruence|]. cbn [report o_error]. congruence.
    + cbn [snd] in S. subst b. rewrite O. eexists. split; [reflexivity|]. intros _ ->. discriminate O.
Qed.
Example C61_contained_ex_main : nlt (Fin 0) (Fin 1) /\ ordinary ValueError /\ ~ ordinary TimeoutException /\
  exists o, evaluate_pipeline (E := list nat) (P := list nat) 5 (seq 0 5) (fun _ => Err ValueError) (fun _ _ => Ok [0]) (fun rows => Ok rows)
    (fun _ _ _ => Ok (Fin 1)) (fun e _ test => Ok (0, map (fun _ => e) test)) [false] NoSub None true (Fin 1) = Ok o /\ o_error o = Some ValueError.
Proof.
  split; [reflexivity|]. split; [split; discriminate|]. split; [intros [K _]; apply K; reflexivity|]. eexists. split; [vm_compute; reflexivity|]. reflexivity.
Qed.
(** C61, success: if the splitter gives the same k folds twice, every fit, score and
    prediction works (one prediction per row, always of the same shape) and no timer
    strikes, no error is reported. *)
Lemma C61_success_main : forall E P rows index splits sample (fit : list nat -> res E) score (predict : E -> bool -> list nat -> res (nat * list P))
    metrics sub timeout folds cols,
  nlt (Fin 0) timeout -> ~ part_of_rows sub rows -> splits 0 = Ok folds -> splits 1 = Ok folds -> k_fold rows folds ->
  (forall a, exists e, fit a = Ok e) -> (forall a b c, exists x, score a b c = Ok x) ->
  (forall e b test, exists ps, predict e b test = Ok (cols, ps) /\ length ps = length test) ->
  exists o, evaluate_pipeline rows index splits sample fit score predict metrics sub None true timeout = Ok o /\ o_error o = None.
Proof.
  intros E P rows index splits sample fit score predict metrics sub timeout folds cols HT RS S0 S1 K SF SS SP. apply part_false in RS. unfold evaluate_pipeline. cbn [negb].
  assert (TN : nleb timeout (Fin 0) = false).
  { unfold nlt in HT. destruct timeout as [| |q|]; try discriminate; auto. simpl in *. unfold qltb in HT. destruct (Qle_bool q 0); auto; discriminate. }
  rewrite TN. destruct (body_total rows index splits sample fit score predict metrics sub cols folds S0 S1) with (s := (initial (E := E) (P := P) metrics, (0, false))) as ([v [n b]] & B); auto.
  - apply k_fold_test; auto.
  - congruence.
  - rewrite B. eexists. split; reflexivity.
Qed.
Example C61_success_ex_main : k_fold 5 ex_folds /\ ~ part_of_rows NoSub 5 /\
  exists o, ex_eval NoSub None (fun _ => false) = Ok o /\ o_error o = None.
Proof. split; [apply C59_ex_main|]. split; [intros []|]. eexists. split; [vm_compute; reflexivity|]. reflexivity. Qed.

(** C108 is false: as soon as one training row number is not a label of y (rows were
    dropped from y, or it was cut out of a larger table), every evaluation on a part of
    the rows fails, whatever the pipeline, the metrics and the time. *)
Lemma C108_index_refuted_main : forall E P rows index splits sample (fit : list nat -> res E) score (predict : E -> bool -> list nat -> res (nat * list P))
    metrics sub timeout folds f t,
  nlt (Fin 0) timeout -> part_of_rows sub rows -> splits 0 = Ok folds -> In f folds -> In t (fst f) -> ~ In t index ->
  (forall a b e, sample a b = Err e -> ordinary e) ->
  exists o, evaluate_pipeline rows index splits sample fit score predict metrics sub None true timeout = Ok o /\
    o_error o <> None /\ o_scores o = repeat NInf (length metrics) /\ o_pred o = None /\ o_ests o = None.
Proof.
  intros E P rows index splits sample fit score predict metrics sub timeout folds f t HT RS S0 If It NI H2. apply part_true in RS. unfold evaluate_pipeline. cbn [negb].
  assert (TN : nleb timeout (Fin 0) = false).
  { unfold nlt in HT. destruct timeout as [| |q|]; try discriminate; auto. simpl in *. unfold qltb in HT. destruct (Qle_bool q 0); auto; discriminate. }
  rewrite TN.
  destruct (training_sets rows index splits sample sub None (initial (E := E) (P := P) metrics, (0, false))) as [[used|x] s1] eqn:T.
  { exfalso. apply training_ok in T as (folds' & F1 & F2 & _). assert (folds' = folds) by congruence. subst folds'.
    unfold trained_on in F2. rewrite RS in F2. clear - F2 If It NI. induction F2 as [|f' u fs us [D _] F2 IH]; [destruct If|].
    destruct If as [-> |If]; auto. unfold draw, by_label in D. destruct (forallb _ (fst f)) eqn:FB; [|discriminate].
    rewrite forallb_forall in FB. apply FB in It. apply existsb_exists in It as (y & Hy & Ey). apply Nat.eqb_eq in Ey. subst; auto. }
  assert (OX : ordinary x).
  { assert (SX : safe None (training_sets (E := E) (P := P) rows index splits sample sub None)).
    { unfold training_sets. apply sf_bind; [apply sf_tick; exact Logic.I|]. intros _. apply sf_bind; [apply sf_lift; intros e K; congruence|]. intros fs.
      destruct (require_subsample sub rows); [|apply sf_ret]. apply sf_cmap. intros g _. apply sf_bind; [apply sf_tick; exact Logic.I|]. intros _.
      apply sf_bind; [apply sf_lift; intros; eapply draw_err; eauto|]. intros; apply sf_ret. }
    destruct (SX _ _ _ T) as [O|(O & _)]; [auto|discriminate]. }
  pose proof (q_training _ _ _ _ _ _ _ _ _ T) as Q. unfold body. unfold cbind at 1. rewrite T. destruct s1 as [v [n b]]. cbn [fst] in Q. subst v.
  destruct OX as [O1 O2]. exists (report (initial metrics) (Some x)). split; [destruct x; congruence|]. repeat split; discriminate.
Qed.
(** C108, what holds: if the labels of y are the row numbers in any order, each once,
    the evaluation on a part of the rows succeeds whenever the library calls do. *)
Lemma C108_index_partial_main : forall E P rows index splits sample (fit : list nat -> res E) score (predict : E -> bool -> list nat -> res (nat * list P))
    metrics sub timeout folds cols,
  nlt (Fin 0) timeout -> Permutation index (seq 0 rows) -> splits 0 = Ok folds -> splits 1 = Ok folds -> k_fold rows folds ->
  (forall f, In f folds -> Forall (fun i => i < rows) (fst f)) ->
  (forall a b, length a = length b -> exists idx, sample a b = Ok idx) ->
  (forall a, exists e, fit a = Ok e) -> (forall a b c, exists x, score a b c = Ok x) ->
  (forall e b test, exists ps, predict e b test = Ok (cols, ps) /\ length ps = length test) ->
  exists o, evaluate_pipeline rows index splits sample fit score predict metrics sub None true timeout = Ok o /\ o_error o = None.
Proof.
  intros E P rows index splits sample fit score predict metrics sub timeout folds cols HT PI S0 S1 K KT SA SF SS SP. unfold evaluate_pipeline. cbn [negb].
  assert (TN : nleb timeout (Fin 0) = false).
  { unfold nlt in HT. destruct timeout as [| |q|]; try discriminate; auto. simpl in *. unfold qltb in HT. destruct (Qle_bool q 0); auto; discriminate. }
  rewrite TN. destruct (body_total rows index splits sample fit score predict metrics sub cols folds S0 S1) with (s := (initial (E := E) (P := P) metrics, (0, false))) as ([v [n b]] & B); auto.
  - apply k_fold_test; auto.
  - intros _. apply Forall_forall. intros f If. destruct (by_label_perm rows index (fst f) PI (KT f If)) as (ys & BL & LY).
    unfold draw. rewrite BL. cbn [rbind]. rewrite LY, Nat.eqb_refl. apply SA. auto.
  - rewrite B. eexists. split; reflexivity.
Qed.
(** C108, with the default labels the sampler sees the targets of the very rows it
    samples from. *)
Lemma C108_default_main : forall E P rows splits sample (fit : list nat -> res E) score (predict : E -> bool -> list nat -> res (nat * list P))
    metrics sub hit timeout o folds,
  part_of_rows sub rows -> splits 0 = Ok folds -> (forall f, In f folds -> Forall (fun i => i < rows) (fst f)) ->
  evaluate_pipeline rows (seq 0 rows) splits sample fit score predict metrics sub hit true timeout = Ok o -> o_error o = None ->
  exists ests, o_ests o = Some ests /\
    Forall2 (fun f e => exists idx, sample (fst f) (fst f) = Ok idx /\ fit idx = Ok e) folds ests.
Proof.
  intros E P rows splits sample fit score predict metrics sub hit timeout o folds HS S0 KT HE HO. apply part_true in HS.
  apply eval_run in HE as (r & s' & B & EO & EE & _). rewrite EO. cbn [report o_pred o_ests]. apply EE in HO. subst r.
  apply body_ok in B as (folds' & used & result & s7 & folds2 & F0 & FT & FR & _ & VE & _).
  exists (map fst result). split; auto. assert (folds' = folds) by congruence. subst folds'.
  unfold trained_on in FT. rewrite HS in FT. clear - FT FR KT. revert result FR.
  induction FT as [|f u folds used [T1 T2] FT IH]; intros result FR; inversion FR as [|? ex ? ? [R1 R2]]; subst; simpl; constructor.
  - unfold draw in T1. rewrite (by_label_default rows) in T1; [|auto|apply KT; simpl; auto]. cbn [rbind] in T1. rewrite Nat.eqb_refl in T1. eauto.
  - apply IH; auto. intros g Hg. apply KT. simpl; auto.
Qed.
(** C108 is false also when the labels are the row numbers in another order: the
    sampler gets the targets of other rows than those it samples from. *)
Lemma C108_order_refuted_main : exists index, Permutation index (seq 0 5) /\
  let sample := fun xs ys : list nat => if list_eq_dec Nat.eq_dec xs ys then Ok [0] else Err ValueError in
  (exists o, evaluate_pipeline (E := list nat) (P := list nat) 5 index (fun _ => Ok ex_folds) sample (fun rows => Ok rows) (fun _ _ _ => Ok (Fin 1))
    (fun e _ test => Ok (0, map (fun _ => e) test)) [false] (IntSub 1) None true (Fin 1) = Ok o /\ o_error o = Some ValueError) /\
  (exists o, evaluate_pipeline (E := list nat) (P := list nat) 5 (seq 0 5) (fun _ => Ok ex_folds) sample (fun rows => Ok rows) (fun _ _ _ => Ok (Fin 1))
    (fun e _ test => Ok (0, map (fun _ => e) test)) [false] (IntSub 1) None true (Fin 1) = Ok o /\ o_error o = None).
Proof.
  exists [4; 3; 2; 1; 0]. split; [change [4; 3; 2; 1; 0] with (rev (seq 0 5)); apply Permutation_sym, Permutation_rev|].
  split; eexists; (split; [vm_compute; reflexivity|]); reflexivity.
Qed.
(** The first of six rows had no label and was dropped; and the shuffled case. *)
Example C108_ex_main : part_of_rows (IntSub 1) 5 /\ k_fold 5 ex_folds /\ ~ In 0 [1; 2; 3; 4; 5] /\ In ([0; 1; 2], [3; 4]) ex_folds /\
  (exists o, evaluate_pipeline (E := list nat) (P := list nat) 5 [1; 2; 3; 4; 5] (fun _ => Ok ex_folds) (fun _ _ => Ok [0]) (fun rows => Ok rows)
    (fun _ _ _ => Ok (Fin 1)) (fun e _ test => Ok (0, map (fun _ => e) test)) [false] (IntSub 1) None true (Fin 1) = Ok o /\
    o_error o = Some KeyError /\ o_scores o = [NInf]) /\
  (exists o, evaluate_pipeline (E := list nat) (P := list nat) 5 [4; 3; 2; 1; 0] (fun _ => Ok ex_folds) (fun _ _ => Ok [0]) (fun rows => Ok rows)
    (fun _ _ _ => Ok (Fin 1)) (fun e _ test => Ok (0, map (fun _ => e) test)) [false] (IntSub 1) None true (Fin 1) = Ok o /\
    o_error o = None /\ exists q, o_scores o = [Fin q] /\ (q == 1)%Q).
Proof.
  split; [reflexivity|]. split; [apply C59_ex_main|]. split; [simpl; lia|]. split; [simpl; auto|].
  split; eexists; (split; [vm_compute; reflexivity|]); auto. split; auto. eexists. split; reflexivity.
Qed.

(** C62. The evaluation of an individual has one score per metric, followed by minus
    the number of its steps exactly when asked for; the fitness is the same tuple. *)
Lemma C62_score_main : forall E P rows index splits sample (fit : list nat -> res E) score (predict : E -> bool -> list nat -> res (nat * list P))
    metrics sub hit valid steps timeout deadline add_length now start stop ev,
  evaluate_individual (evaluate_pipeline rows index splits sample fit score predict metrics sub hit valid) steps timeout deadline add_length now start stop = Ok ev ->
  r_fitness ev = r_score ev /\
  exists per_metric, length per_metric = length metrics /\
    r_score ev = per_metric ++ (if add_length then [Fin (inject_Z (- Z.of_nat steps))] else []).
Proof.
  intros E P rows index splits sample fit score predict metrics sub hit valid steps timeout deadline add now start stop ev H.
  unfold evaluate_individual in H. destruct (evaluate_pipeline _ _ _ _ _ _ _ _ _ _ _ _) as [o|] eqn:R; [|discriminate]. cbn [rbind] in H.
  injection H as <-. cbn [r_fitness r_score]. split; auto. exists (o_scores o). split; [|destruct add; auto; rewrite app_nil_r; auto].
  destruct valid; [|discriminate].
  destruct (C61_failed_partial_main _ _ _ _ _ _ _ _ _ _ _ _ _ _ R) as [[K _]|(? & ? & ? & _ & _ & _ & _ & _ & K)];
    [rewrite K; apply repeat_length|]. apply fa2_len in K. rewrite seq_length in K. auto.
Qed.
(** C62, time: the pipeline is evaluated with a limit that is at most the timeout and
    at most the time left until the deadline, and is one of the two; what comes out is
    what that evaluation gave. *)
Lemma C62_limit_main : forall E P (run : num -> res (@outcome E P)) steps timeout deadline add_length now start stop ev,
  timeout <> NaN -> (forall d, deadline = Some d -> nsub d now <> NaN) ->
  evaluate_individual run steps timeout deadline add_length now start stop = Ok ev ->
  exists limit o, run limit = Ok o /\ nle limit timeout /\ (forall d, deadline = Some d -> nle limit (nsub d now)) /\
    (limit = timeout \/ exists d, deadline = Some d /\ limit = nsub d now) /\
    r_score ev = o_scores o ++ (if add_length then [Fin (inject_Z (- Z.of_nat steps))] else []) /\
    r_pred ev = o_pred o /\ r_ests ev = o_ests o /\ r_error ev = o_error o /\ r_duration ev = nsub stop start.
Proof.
  intros E P run steps timeout deadline add now start stop ev HT HD H. unfold evaluate_individual in H.
  destruct (run _) as [o|] eqn:R; [|discriminate]. cbn [rbind] in H. injection H as <-. eexists _, o. split; [exact R|].
  cbn [r_pred r_ests r_error r_duration r_score].
  assert (SC : (if add then o_scores o ++ [Fin (inject_Z (- Z.of_nat steps))] else o_scores o) = o_scores o ++ (if add then [Fin (inject_Z (- Z.of_nat steps))] else [])).
  { destruct add; auto. rewrite app_nil_r. auto. }
  split.
  { unfold time_limit. destruct deadline as [d|]; [|apply nle_refl; auto]. unfold nmin. destruct (nltb _ _) eqn:B; [apply nlt_nle; auto|apply nle_refl; auto]. }
  split; [|split; auto].
  - intros d ->. unfold time_limit, nmin. specialize (HD d eq_refl). destruct (nltb _ _) eqn:B; [apply nle_refl; auto|].
    apply not_lt_nle; auto. unfold nlt. rewrite B. discriminate.
  - unfold time_limit. destruct deadline as [d|]; auto. unfold nmin. destruct (nltb _ _); eauto.
Qed.
(** C62, deadline: once the deadline has passed, nothing is evaluated: ValueError. *)
Lemma C62_expired_main : forall E P rows index splits sample (fit : list nat -> res E) score (predict : E -> bool -> list nat -> res (nat * list P))
    metrics sub hit steps timeout d add_length now start stop,
  timeout <> NaN -> nsub d now <> NaN -> nle (nsub d now) (Fin 0) \/ nle timeout (Fin 0) ->
  evaluate_individual (evaluate_pipeline rows index splits sample fit score predict metrics sub hit true) steps timeout (Some d) add_length now start stop = Err ValueError.
Proof.
  intros E P rows index splits sample fit score predict metrics sub hit steps timeout d add now start stop HT HD H.
  unfold evaluate_individual, time_limit, evaluate_pipeline. cbn [negb].
  assert (K : nleb (nmin timeout (nsub d now)) (Fin 0) = true); [|rewrite K; reflexivity].
  unfold nmin. destruct (nltb (nsub d now) timeout) eqn:B.
  - destruct H as [H|H]; auto. apply (nle_trans _ timeout); auto. apply nlt_nle; auto.
  - destruct H as [H|H]; auto. apply (nle_trans _ (nsub d now)); auto. apply not_lt_nle; auto. unfold nlt. rewrite B. discriminate.
Qed.
Example C62_ex_main : exists ev,
  evaluate_individual (evaluate_pipeline (E := list nat) (P := list nat) 5 (seq 0 5) (fun _ => Ok ex_folds) (fun _ _ => Ok [0]) (fun rows => Ok rows)
    (fun e m test => Ok (Fin (inject_Z (Z.of_nat (length e + m))))) (fun e _ test => Ok (0, map (fun _ => e) test)) [false; false] NoSub None true)
    4 (Fin 10) (Some (Fin 107)) true (Fin 100) (Fin 101) (Fin 103) = Ok ev /\
  r_score ev = [Fin (5 # 2); Fin (7 # 2); Fin (-4)] /\ time_limit (Fin 10) (Some (Fin 107)) (Fin 100) = Fin 7.
Proof. eexists. split; [vm_compute; reflexivity|]. split; vm_compute; reflexivity. Qed.

(*IMPORTS*)
From Verif Require Import Base Gp_Model Gp_Spec Str_Model Str_Spec Cov_Spec Conf_Model Conf_Spec Ship_Model Ship_Spec Gp_Examples Conf_Examples.
Require Import Ascii Permutation Sorted.
Open Scope string_scope.
Open Scope list_scope.
Open Scope nat_scope.
(*END*)
From Verif Require Import Gp_Proofs Gp_Proofs5 Gp_Main Str_Proofs Str_Main Cov_Main Conf_Proofs Conf_Proofs2 Conf_Main Gp_Proofs4 Ship_Proofs Ship_Proofs2 Ship_Proofs3 Ship_Proofs4 Ship_Proofs5.
Require Import Lia.

(** C122: a configuration that is complete, unambiguous and made of plain names
    and values gives a search space with everything the other theorems about
    search spaces ask for. *)
Lemma C122_usable_main :
  forall cfg, usable cfg ->
    exists d ch, pset_from_config cfg = Ok (d, ch) /\
      pset_typed (pset_of d) /\ pset_inhabited (pset_of d) /\ pset_named (pset_of d) /\ pset_readable (pset_of d) /\ pset_rich (pset_of d).
Proof. exact usable_space. Qed.
(** The configurations shipped with GAMA are like that, whatever the metaclasses
    of the scikit-learn classes. *)
Lemma C122_shipped_main :
  forall meta s, In s [clf_config meta; reg_config meta; test_config meta] -> usable (as_config s).
Proof. exact shipped_usable. Qed.
(** So in every search with a shipped configuration: new individuals can always
    be created, and every individual ever created is a pipeline of the search
    space that is read back exactly from its text. *)
Lemma C122_shipped_search_main :
  forall meta s d ch max_length max_retry r calls,
    In s [clf_config meta; reg_config meta; test_config meta] ->
    pset_from_config (as_config s) = Ok (d, ch) -> 0 < max_retry ->
    let w := gp_run (pset_of d) max_length max_retry (empty_world r) calls in
    (match max_length with Some m => (1 <= m)%Z | None => True end ->
       exists ind s', op_individual (pset_of d) max_length (w_st w) = (Ok ind, s')) /\
    (forall i ind, nth_error (w_pool w) i = Some ind ->
       exists str ls ss ind' s' ls',
         pipeline (s_heap (w_st w)) ind ls ss /\ pipeline_ok (pset_of d) ss /\
         pipeline_str ind (w_st w) = (Ok str, w_st w) /\
         individual_from_string str (pset_of d) true (w_st w) = (Ok ind', s') /\
         pipeline (s_heap s') ind' ls' ss /\ pipeline_str ind' s' = (Ok str, s')).
Proof.
  intros meta s d ch mx n r calls H P Hn w. pose proof (shipped_usable _ _ H) as U. destruct (usable_space _ U) as (d' & ch' & P' & T & I & N & R & Ri).
  assert (d' = d) by congruence. subst d'. clear P' ch'.
  destruct (gp_run_inv (pset_of d) mx n calls (empty_world r) T Hn (empty_inv _ r)) as (WI & _). fold w in WI. split.
  - intros Hm. destruct U as (_ & _ & C & _ & _ & _ & Ap & Ad). eapply C63_can_start_main; eauto. apply (proj1 WI).
  - intros i ind Hi. destruct (C19_round_trip_in_search_main (pset_of d) mx n r calls i ind T R N Hn Hi) as (str & ls & ss & ind' & s' & ls' & A1 & A2 & A3 & A4 & A5).
    exists str, ls, ss, ind', s', ls'. split; auto. split; [|auto].
    destruct (C01_generated_pipelines_in_search_space_main (pset_of d) mx n r calls ind T Hn (nth_error_In _ _ Hi)) as (ls2 & ss2 & Q1 & Q2).
    destruct (chain_fun _ _ _ _ A1 _ _ Q1) as [_ ->]. exact Q2.
Qed.
Example C122_ex_main : forall meta,
  usable (as_config (clf_config meta)) /\
  (exists d ch, pset_from_config (as_config (clf_config meta)) = Ok (d, ch)) /\
  length (algorithms (as_config (clf_config meta)) "prediction") = 10 /\ length (algorithms (as_config (clf_config meta)) "data") = 15 /\
  length (algorithms (as_config (reg_config meta)) "prediction") = 9.
Proof.
  intros meta. pose proof (shipped_usable meta (clf_config meta) (or_introl eq_refl)) as U. split; [exact U|]. split.
  - destruct (usable_space _ U) as (d & ch & P & _). eauto.
  - vm_compute. auto.
Qed.

(** C123: with a shipped configuration every pipeline can be mutated, except that
    under a length limit of 1 pipelines that consist only of GaussianNB (no
    hyperparameters) or only of LassoLarsCV (one) cannot. *)
Lemma C123_mutation_main :
  forall meta s d ch max_length ind st ls ss,
    In s [clf_config meta; reg_config meta; test_config meta] ->
    pset_from_config (as_config s) = Ok (d, ch) ->
    wf_heap (s_heap st) -> pipeline (s_heap st) ind ls ss -> pipeline_ok (pset_of d) ss ->
    match max_length with Some m => (1 <= m)%Z | None => True end ->
    ((exists ind' m s', random_valid_mutation ind (pset_of d) max_length st = (Ok (ind', m), s')) <->
     ~ (max_length = Some 1%Z /\ exists step, ss = [step] /\ (p_name (fst step) = "GaussianNB" \/ p_name (fst step) = "LassoLarsCV"))).
Proof.
  intros meta s d ch mx ind st ls ss H P W Hp Hok Hm. pose proof (shipped_usable _ _ H) as U. destruct (usable_space _ U) as (d' & ch' & P' & T & I & N & R & Ri).
  assert (d' = d) by congruence. subst d'. clear P' ch'.
  rewrite (C15_mutation_exists_partial_main (pset_of d) mx ind st ls ss W Hp T Ri Hok Hm).
  assert (Q : length ss = 1 /\ tunable (pset_of d) ss <= 1 <-> exists step, ss = [step] /\ (p_name (fst step) = "GaussianNB" \/ p_name (fst step) = "LassoLarsCV")).
  { assert (One : forall step, step_ok (pset_of d) PREDICTION step -> (tunable (pset_of d) [step] <= 1 <-> p_name (fst step) = "GaussianNB" \/ p_name (fst step) = "LassoLarsCV")).
    { intros step So. destruct U as (_ & Ua & C & _). destruct (tunable_step _ _ _ P Ua C PREDICTION step T So) as (c & e & items & Hin & E & Rc & -> & ->).
      set (chk := fun ke : ckey * entry => match fst ke, e_dict (snd ke) with
                   | KeyClass c, Some items => match role c with
                       | Some k => implb (String.eqb k PREDICTION) (Bool.eqb (tunables (as_config s) items <=? 1) (String.eqb (c_name c) "GaussianNB" || String.eqb (c_name c) "LassoLarsCV"))
                       | None => true end
                   | _, _ => true end).
      assert (F : forallb chk (as_config s) = true) by (destruct H as [<-|[<-|[<-|[]]]]; vm_compute; reflexivity).
      rewrite forallb_forall in F. specialize (F _ Hin). unfold chk in F. cbn [fst snd] in F. rewrite E, Rc in F. cbn in F. apply Bool.eqb_prop in F.
      rewrite <- Nat.leb_le, F, Bool.orb_true_iff, !String.eqb_eq. reflexivity. }
    destruct ss as [|m [|a rest]]; [destruct Hok| |]; split.
    - intros (_ & Ht). exists m. split; auto. apply One; auto. apply Hok.
    - intros (step & E & Hs). injection E as <-. split; auto. apply One; auto. apply Hok.
    - intros (L & _). discriminate.
    - intros (step & E & _). discriminate. }
  rewrite <- Q. tauto.
Qed.
(** the exception exists: both are pipelines of shipped configurations *)
Example C123_ex_main : forall meta,
  (exists d ch ss, pset_from_config (as_config (clf_config meta)) = Ok (d, ch) /\ pipeline_ok (pset_of d) ss /\ text ss = "GaussianNB(data)") /\
  (exists d ch ss, pset_from_config (as_config (reg_config meta)) = Ok (d, ch) /\ pipeline_ok (pset_of d) ss /\ text ss = "LassoLarsCV(data, LassoLarsCV.normalize=True)").
Proof.
  intros meta. split.
  - destruct (usable_space _ (shipped_usable meta (clf_config meta) (or_introl eq_refl))) as (d & ch & P & _). exists d, ch, [(mkPrim [] PREDICTION 15 "GaussianNB", [])]. split; auto.
    split; [|reflexivity]. split; [|constructor]. split; [|exists []; split; constructor]. cbn [fst].
    apply (in_prims _ _ _ _ _ P). exists (c_GaussianNB meta), (mkEntry (Some []) (Some [])), []. split; [cbn; tauto|auto].
  - destruct (usable_space _ (shipped_usable meta (reg_config meta) (or_intror (or_introl eq_refl)))) as (d & ch & P & _).
    exists d, ch, [(mkPrim ["LassoLarsCV.normalize"] PREDICTION 31 "LassoLarsCV", [mkTerm (vo "True" 3) "normalize" "LassoLarsCV.normalize"])]. split; auto.
    split; [|reflexivity]. split; [|constructor].
    assert (Hin : exists e, In (KeyClass (c_LassoLarsCV meta), e) (as_config (reg_config meta)) /\ e_dict e = Some [("normalize", mkHval HList [vo "True" 3; vo "False" 6])]) by (eexists; split; [cbn; tauto|reflexivity]).
    destruct Hin as (e & Hin & E). split.
    + apply (in_prims _ _ _ _ _ P). exists (c_LassoLarsCV meta), e, [("normalize", mkHval HList [vo "True" 3; vo "False" 6])]. auto.
    + eexists. split; [apply Permutation_refl|]. constructor; [|constructor]. apply (in_terms _ _ _ _ _ P). right.
      exists (c_LassoLarsCV meta), e, [("normalize", mkHval HList [vo "True" 3; vo "False" 6])], "normalize", (mkHval HList [vo "True" 3; vo "False" 6]), (vo "True" 3).
      split; auto. split; auto. split; [simpl; auto|]. split; [discriminate|]. split; [discriminate|]. split; [reflexivity|]. split; [simpl; auto|reflexivity].
Qed.

Lemma make_step cfg d ch c e items k ts : pset_from_config cfg = Ok (d, ch) -> In (KeyClass c, e) cfg -> e_dict e = Some items -> role c = Some k ->
  Forall2 (fun i t => exists n v x, In (n, v) items /\ is_empty_list v = false /\ n <> "param_check" /\ i = (c_name c ++ "." ++ n)%string /\ In x (hv_items v) /\ t = mkTerm x n i)
    (p_input (prim_of_class c k items)) ts ->
  step_ok (pset_of d) k (prim_of_class c k items, ts).
Proof.
  intros P Hin E R F. split; [apply (in_prims _ _ _ _ _ P); exists c, e, items; auto|]. exists ts. split; [apply Permutation_refl|]. cbn [fst].
  revert F. generalize (p_input (prim_of_class c k items)). intros l F. cbn [snd]. induction F as [|i t l ts (n & v & x & A1 & A2 & A3 & A4 & A5 & A6) _ IH]; constructor; auto.
  apply (in_terms _ _ _ _ _ P). right. exists c, e, items, n, v, x. rewrite A4 in *. repeat (split; auto). apply empty_not. exact A2.
Qed.
Fixpoint argb (cn : string) (items : hdict) (ids : list string) (ts : list terminal) : bool :=
  match ids, ts with
  | [], [] => true
  | i :: ids, t :: ts => existsb (fun nv => negb (is_empty_list (snd nv)) && negb (String.eqb (fst nv) "param_check") && String.eqb i (cn ++ "." ++ fst nv)%string &&
                                   String.eqb (t_output t) (fst nv) && String.eqb (t_ident t) i &&
                                   existsb (fun x => value_same x (t_value t)) (hv_items (snd nv))) items && argb cn items ids ts
  | _, _ => false
  end.
Lemma argb_ok cn items ids : forall ts, argb cn items ids ts = true ->
  Forall2 (fun i t => exists n v x, In (n, v) items /\ is_empty_list v = false /\ n <> "param_check" /\ i = (cn ++ "." ++ n)%string /\ In x (hv_items v) /\ t = mkTerm x n i) ids ts.
Proof.
  induction ids as [|i ids IH]; intros [|t ts] H; try discriminate; [constructor|]. cbn [argb] in H. apply andb_prop in H. destruct H as (H & H2). constructor; auto.
  apply existsb_exists in H. destruct H as ((n & v) & Hin & H). cbn [fst snd] in H.
  repeat (apply andb_prop in H; let X := fresh "B" in destruct H as (H & X)).
  apply existsb_exists in B. destruct B as (x & Hx & Ex). apply value_same_eq in Ex. subst x.
  apply String.eqb_eq in B0, B1, B2. apply Bool.negb_true_iff in B3, H. apply String.eqb_neq in B3.
  exists n, v, (t_value t). repeat (split; auto). destruct t; cbn in *. congruence.
Qed.
Lemma sets_find step n x : existsb (fun t => String.eqb (t_output t) n && String.eqb (v_text (t_value t)) x) (snd step) = true -> sets step n x.
Proof. intros H. apply existsb_exists in H. destruct H as (t & Hin & H). apply andb_prop in H. destruct H as (A & B). apply String.eqb_eq in A, B. exists t. auto. Qed.
Definition svc_ts := [mkTerm (vo "0.0001" 82) "C" "LinearSVC.C"; mkTerm (vo "True" 3) "dual" "LinearSVC.dual"; mkTerm (vs "hinge" 79) "loss" "LinearSVC.loss";
                      mkTerm (vs "l1" 77) "penalty" "LinearSVC.penalty"; mkTerm (vo "1e-05" 81) "tol" "LinearSVC.tol"].
Definition fa_ts := [mkTerm (vs "l1" 77) "affinity" "FeatureAgglomeration.affinity"; mkTerm (vs "ward" 90) "linkage" "FeatureAgglomeration.linkage"].
Definition svc_prim := mkPrim (map t_ident svc_ts) PREDICTION 23 "LinearSVC".
Definition fa_prim := mkPrim (map t_ident fa_ts) DATA 2 "FeatureAgglomeration".
Lemma svc_ok meta d ch : pset_from_config (as_config (clf_config meta)) = Ok (d, ch) -> step_ok (pset_of d) PREDICTION (svc_prim, svc_ts).
Proof.
  intros P. pose proof (eq_refl (nth_error (as_config (clf_config meta)) 12)) as N. 
  change (nth_error (as_config (clf_config meta)) 12) with (Some (nth 12 (as_config (clf_config meta)) (KeyStr "", mkEntry None None))) in N at 1.
  apply eq_sym, nth_error_In in N. cbn [nth as_config clf_config map fst snd] in N.
  refine (make_step _ _ _ _ _ _ _ svc_ts P N eq_refl eq_refl _).
  apply argb_ok. vm_compute. reflexivity.
Qed.
Lemma fa_ok meta s d ch : In s [clf_config meta; reg_config meta] -> pset_from_config (as_config s) = Ok (d, ch) -> step_ok (pset_of d) DATA (fa_prim, fa_ts).
Proof.
  intros [<-|[<-|[]]] P.
  - pose proof (eq_refl (nth_error (as_config (clf_config meta)) 16)) as N.
    change (nth_error (as_config (clf_config meta)) 16) with (Some (nth 16 (as_config (clf_config meta)) (KeyStr "", mkEntry None None))) in N at 1.
    apply eq_sym, nth_error_In in N. cbn [nth as_config clf_config map fst snd] in N.
    refine (make_step _ _ _ _ _ _ _ fa_ts P N eq_refl eq_refl _). apply argb_ok. vm_compute. reflexivity.
  - pose proof (eq_refl (nth_error (as_config (reg_config meta)) 11)) as N.
    change (nth_error (as_config (reg_config meta)) 11) with (Some (nth 11 (as_config (reg_config meta)) (KeyStr "", mkEntry None None))) in N at 1.
    apply eq_sym, nth_error_In in N. cbn [nth as_config reg_config map fst snd] in N.
    refine (make_step _ _ _ _ _ _ _ fa_ts P N eq_refl eq_refl _). apply argb_ok. vm_compute. reflexivity.
Qed.

(** C124: which steps of a shipped search space break the restriction configured
    for them (which hyperparameter values may not be combined). *)
Lemma C124_violations_main :
  forall meta s d ch k step,
    In s [clf_config meta; reg_config meta; test_config meta] -> pset_from_config (as_config s) = Ok (d, ch) -> step_ok (pset_of d) k step ->
    (violates shipped_check ch step <->
     (p_name (fst step) = "LinearSVC" /\ (sets step "penalty" "l1" /\ (sets step "loss" "hinge" \/ sets step "dual" "True") \/
                                          sets step "penalty" "l2" /\ sets step "loss" "hinge" /\ sets step "dual" "False")) \/
     (p_name (fst step) = "FeatureAgglomeration" /\ sets step "linkage" "ward" /\ ~ sets step "affinity" "euclidean") \/
     (p_name (fst step) = "LogisticRegression" /\ sets step "penalty" "l1" /\ sets step "dual" "True")).
Proof. exact shipped_violations. Qed.
(** They are not avoided: in the default search space of GamaClassifier, a
    pipeline of which both steps break their restriction can be generated as a
    new individual. *)
Lemma C124_default_refuted_main :
  forall meta h u, wf_heap h -> exists d ch ss,
    pset_from_config (as_config (clf_config meta)) = Ok (d, ch) /\
    text ss = "LinearSVC(FeatureAgglomeration(data, FeatureAgglomeration.affinity='l1', FeatureAgglomeration.linkage='ward'), LinearSVC.C=0.0001, LinearSVC.dual=True, LinearSVC.loss='hinge', LinearSVC.penalty='l1', LinearSVC.tol=1e-05)" /\
    Forall (violates shipped_check ch) ss /\
    possible (op_individual (pset_of d) None) h u (fun ind h' => exists ls ss', pipeline h' ind ls ss' /\ equivalent ss ss').
Proof.
  intros meta h u W. destruct (usable_space _ (shipped_usable meta (clf_config meta) (or_introl eq_refl))) as (d & ch & P & _).
  exists d, ch, [(svc_prim, svc_ts); (fa_prim, fa_ts)]. split; auto. split; [reflexivity|].
  pose proof (svc_ok meta d ch P) as S1. pose proof (fa_ok meta _ d ch (or_introl eq_refl) P) as S2.
  assert (V : Forall (violates shipped_check ch) [(svc_prim, svc_ts); (fa_prim, fa_ts)]).
  { constructor; [|constructor; [|constructor]].
    - apply (C124_violations_main meta _ d ch PREDICTION _ (or_introl eq_refl) P S1). left. split; [reflexivity|]. left. split; [|left]; apply sets_find; reflexivity.
    - apply (C124_violations_main meta _ d ch DATA _ (or_introl eq_refl) P S2). right; left. split; [reflexivity|]. split; [apply sets_find; reflexivity|].
      intros (t & [<-|[<-|[]]] & A & B); discriminate. }
  split; [exact V|]. apply (C65_checks_ignored_refuted_main _ _ _ shipped_check None h u _ P W).
  - split; [exact S1|]. constructor; [exact S2|constructor].
  - simpl. auto.
  - inversion V; subst. left. assumption.
Qed.
(** The same in the default search space of GamaRegressor. *)
Lemma C124_regression_refuted_main :
  forall meta h u, wf_heap h -> exists d ch ss step,
    pset_from_config (as_config (reg_config meta)) = Ok (d, ch) /\ In step ss /\
    p_name (fst step) = "FeatureAgglomeration" /\ violates shipped_check ch step /\
    possible (op_individual (pset_of d) None) h u (fun ind h' => exists ls ss', pipeline h' ind ls ss' /\ equivalent ss ss').
Proof.
  intros meta h u W. destruct (C123_ex_main meta) as (_ & (d & ch & ss & P & Pok & Tx)).
  pose proof (fa_ok meta _ d ch (or_intror (or_introl eq_refl)) P) as S2.
  assert (Vi : violates shipped_check ch (fa_prim, fa_ts)).
  { apply (C124_violations_main meta _ d ch DATA _ (or_intror (or_introl eq_refl)) P S2). right; left. split; [reflexivity|]. split; [apply sets_find; reflexivity|].
    intros (t & [<-|[<-|[]]] & A & B); discriminate. }
  destruct ss as [|m rest]; [destruct Pok|]. exists d, ch, [m; (fa_prim, fa_ts)], (fa_prim, fa_ts). split; auto. split; [simpl; auto|]. split; [reflexivity|]. split; [exact Vi|].
  apply (C65_checks_ignored_refuted_main _ _ _ shipped_check None h u _ P W).
  - split; [apply Pok|]. constructor; [exact S2|constructor].
  - simpl. auto.
  - right. left. exact Vi.
Qed.

(** C125: importing gama.logging.GamaReport merges the two default
    configurations.  That succeeds whatever order sets have, gives a usable
    search space, and every pipeline of a search with either default
    configuration is read back from its text in it, so reports can be made of
    both. *)
Lemma C125_report_main :
  forall meta set_list, lists_set set_list ->
    exists m h', merge_configurations set_list (loaded meta) (clf_refs meta) (reg_refs meta) = (Ok m, h') /\ usable (view h' m) /\
      forall s d0 ch0 d ch ss st,
        In s [clf_config meta; reg_config meta] -> pset_from_config (as_config s) = Ok (d0, ch0) -> pset_from_config (view h' m) = Ok (d, ch) ->
        pipeline_ok (pset_of d0) ss -> wf_heap (s_heap st) ->
        exists ind st' ls ss', individual_from_string (text ss) (pset_of d) true st = (Ok ind, st') /\
          pipeline (s_heap st') ind ls ss' /\ same_pipeline ss ss' /\ extends st st'.
Proof.
  intros meta f LS. pose proof (report_merge_ok f meta) as Em. pose proof (report_usable f meta LS) as U. pose proof (fun A => report_covers f meta A LS) as Cv.
  revert Em U Cv. generalize (merge_configurations f (loaded meta) (clf_refs meta) (reg_refs meta)). intros R Em U Cv. exists (merged_of R), (snd R). split; [exact Em|]. split; [exact U|].
  intros s d0 ch0 d ch ss st Hs P0 P Hok W. pose proof (covers_pipeline _ _ _ _ _ _ ss P0 P (Cv s Hs) Hok) as Hok'.
  destruct (usable_space _ U) as (d' & ch' & P' & T & I & N & Rd & Ri). assert (d' = d) by congruence. subst d'.
  destruct (from_string_ok (pset_of d) true ss st W (pipeline_ok_ne _ _ Hok')) as (A & _).
  { eapply pipeline_ok_all; eauto using step_ok_readable. }
  destruct A as (ind & s' & ls & E & Pi & _ & X & _).
  { right. eapply pipeline_ok_all; eauto using Str_Main.step_ok_complete. }
  exists ind, s', ls, (map resort ss). split; auto. split; auto. split; auto. apply same_pipeline_resort.
Qed.
Definition fwe_items := [("alpha", mkHval HArray [vo "0.0" 6]); ("score_func", mkHval HList [vc "f_regression" 217])].
Definition fwe_config meta : config := [(KeyClass (c_SelectFwe meta), mkEntry None (Some fwe_items)); (KeyClass (c_GaussianNB meta), mkEntry (Some []) (Some []))].
Definition fwe_ts := [mkTerm (vo "0.0" 6) "alpha" "SelectFwe.alpha"; mkTerm (vc "f_regression" 217) "score_func" "SelectFwe.score_func"].
Definition nb_step : step := (mkPrim [] PREDICTION 15 "GaussianNB", []).
Definition fwe_step : step := (mkPrim (map t_ident fwe_ts) DATA 12 "SelectFwe", fwe_ts).
Lemma fwe_valid meta : Forall valid_entry (fwe_config meta).
Proof.
  constructor; [|constructor; [|constructor]].
  - split; [discriminate|]. exists fwe_items. split; [reflexivity|]. constructor; [|constructor; [|constructor]]; right; right; split; discriminate.
  - split; [discriminate|]. exists []. split; [reflexivity|constructor].
Qed.
Definition no_regression (ke : ckey * entry) : bool :=
  match fst ke with
  | KeyStr s => negb (String.eqb s "SelectFwe.score_func")
  | KeyClass c => match e_dict (snd ke) with
                  | Some items => forallb (fun nv => implb (String.eqb "SelectFwe.score_func" (c_name c ++ "." ++ fst nv)) (forallb (fun x => negb (Z.eqb (v_eq x) 217)) (hv_items (snd nv)))) items
                  | None => true end
  | _ => true
  end.
(** The merge leaves GamaRegressor's default as it was; GamaClassifier's still
    gives a usable search space, with every pipeline it had before. *)
Lemma C125_defaults_partial_main :
  forall meta set_list m h', lists_set set_list ->
    merge_configurations set_list (loaded meta) (clf_refs meta) (reg_refs meta) = (Ok m, h') ->
    view (loaded meta) (clf_refs meta) = as_config (clf_config meta) /\
    view (loaded meta) (reg_refs meta) = as_config (reg_config meta) /\
    view h' (reg_refs meta) = as_config (reg_config meta) /\
    usable (view h' (clf_refs meta)) /\
    forall d0 ch0 d ch ss, pset_from_config (as_config (clf_config meta)) = Ok (d0, ch0) -> pset_from_config (view h' (clf_refs meta)) = Ok (d, ch) ->
      pipeline_ok (pset_of d0) ss -> pipeline_ok (pset_of d) ss.
Proof.
  intros meta f m h' LS E. pose proof (report_clf_usable f meta LS) as U. pose proof (report_clf_covers f meta LS) as Cv. pose proof (report_reg_same f meta) as Rs.
  rewrite E in U, Cv, Rs. cbn [snd] in U, Cv, Rs.
  split; [vm_compute; reflexivity|]. split; [vm_compute; reflexivity|]. split; [exact Rs|]. split; [exact U|].
  intros d0 ch0 d ch ss P0 P. exact (covers_pipeline _ _ _ _ _ _ ss P0 P Cv).
Qed.
(** But it is no longer the same: it now has pipelines that select features with
    a score for regression, which it had not before. *)
Lemma C125_default_changed_refuted_main :
  forall meta set_list, lists_set set_list -> exists m h' d0 ch0 d ch ss,
    merge_configurations set_list (loaded meta) (clf_refs meta) (reg_refs meta) = (Ok m, h') /\
    pset_from_config (view (loaded meta) (clf_refs meta)) = Ok (d0, ch0) /\ pset_from_config (view h' (clf_refs meta)) = Ok (d, ch) /\
    text ss = "GaussianNB(SelectFwe(data, SelectFwe.alpha=0.0, SelectFwe.score_func=f_regression))" /\
    pipeline_ok (pset_of d) ss /\ ~ pipeline_ok (pset_of d0) ss.
Proof.
  intros meta f LS. pose proof (report_merge_ok f meta) as Em. pose proof (report_clf_usable f meta LS) as U.
  assert (Cv : covers (view (snd (report_merge f meta)) (clf_refs meta)) (fwe_config meta)).
  { eapply covers_sim; [apply report_clf_sim; exact LS|]. apply covers_ok; [vm_compute|vm_compute]; reflexivity. }
  revert Em U Cv. generalize (merge_configurations f (loaded meta) (clf_refs meta) (reg_refs meta)). intros R Em U Cv.
  destruct (usable_space _ U) as (d & ch & P & _). destruct (usable_space _ (shipped_usable meta (clf_config meta) (or_introl eq_refl))) as (d0 & ch0 & P0 & _).
  assert (V0 : view (loaded meta) (clf_refs meta) = as_config (clf_config meta)) by (vm_compute; reflexivity).
  exists (merged_of R), (snd R), d0, ch0, d, ch, [nb_step; fwe_step]. split; [exact Em|]. split; [rewrite V0; exact P0|]. split; [exact P|]. split; [reflexivity|]. split.
  - assert (Pf : exists df cf, pset_from_config (fwe_config meta) = Ok (df, cf)) by (destruct (proj2 (config_total (fwe_config meta)) (fwe_valid meta)) as ([df cf] & Pf); eauto). destruct Pf as (df & cf & Pf).
    apply (covers_pipeline _ _ _ _ _ _ _ Pf P Cv). split.
    + refine (make_step (fwe_config meta) df cf (c_GaussianNB meta) _ _ _ [] Pf (or_intror (or_introl eq_refl)) eq_refl eq_refl _). constructor.
    + constructor; [|constructor]. refine (make_step (fwe_config meta) df cf (c_SelectFwe meta) _ _ _ (snd fwe_step) Pf (or_introl eq_refl) eq_refl eq_refl _). apply argb_ok. vm_compute. reflexivity.
  - intros (_ & F). inversion F as [|x l (_ & ts & Pm & F2) _]; subst. cbn [fst snd fwe_step fwe_ts p_input map] in *.
    assert (Hin : In (mkTerm (vc "f_regression" 217) "score_func" "SelectFwe.score_func") (terms_of (pset_of d0) "SelectFwe.score_func")).
    { assert (Ht : In (mkTerm (vc "f_regression" 217) "score_func" "SelectFwe.score_func") ts) by (eapply Permutation_in; [exact Pm|simpl; auto]).
      clear - F2 Ht P0. induction F2 as [|i t l ts Hit _ IH]; [destruct Ht|]. destruct Ht as [->|Ht]; auto.
      pose proof Hit as Hit'. apply (in_terms _ _ _ _ _ P0) in Hit' as [(e & vs & x & _ & _ & _ & A)|(c & e & items & n & v & x & _ & _ & _ & _ & _ & E & _ & A)]; injection A as A1 A2 A3; [congruence|].
      rewrite <- A3 in Hit. exact Hit. }
    assert (Fb : forallb no_regression (as_config (clf_config meta)) = true) by (vm_compute; reflexivity). rewrite forallb_forall in Fb.
    apply (in_terms _ _ _ _ _ P0) in Hin as [(e & vs & x & Hin & _)|(c & e & items & n & v & x & Hin & E & Hn & Ns & Np & Ei & Hx & A)]; specialize (Fb _ Hin); [discriminate|].
    unfold no_regression in Fb. cbn [fst snd] in Fb. rewrite E, forallb_forall in Fb. specialize (Fb _ Hn). cbn [fst snd] in Fb.
    rewrite <- Ei, String.eqb_refl in Fb. cbn [implb] in Fb. rewrite forallb_forall in Fb. specialize (Fb _ Hx). injection A as <- _. discriminate.
Qed.
(** And it cannot be done twice: merging the same two configurations again raises
    a TypeError. *)
Lemma C125_again_refuted_main :
  forall meta set_list m h', merge_configurations set_list (loaded meta) (clf_refs meta) (reg_refs meta) = (Ok m, h') ->
    exists h'', merge_configurations set_list h' (clf_refs meta) (reg_refs meta) = (Err TypeError, h'').
Proof.
  intros meta f m h' E. pose proof (report_twice f meta) as T. rewrite E in T. cbn [snd] in T. clear E.
  destruct (merge_configurations f h' (clf_refs meta) (reg_refs meta)) as [r h'']. cbn [fst] in T. exists h''. rewrite T. reflexivity.
Qed.
(** the hypotheses are met: an order of sets exists, and pipelines of either
    default exist that a report has to read *)
Example C125_ex_main : forall meta,
  lists_set ex_set /\
  (exists d ch ss, pset_from_config (as_config (clf_config meta)) = Ok (d, ch) /\ pipeline_ok (pset_of d) ss /\ text ss = "GaussianNB(data)") /\
  (exists d ch ss, pset_from_config (as_config (reg_config meta)) = Ok (d, ch) /\ pipeline_ok (pset_of d) ss /\ text ss = "LassoLarsCV(data, LassoLarsCV.normalize=True)").
Proof. intros meta. split; [apply C64_ex_main|apply C123_ex_main]. Qed.

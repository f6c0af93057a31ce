(*IMPORTS*)
From Verif Require Import Base Gp_Model Gp_Spec Gp_Examples Str_Model Str_Spec.
Require Import Permutation.
Open Scope nat_scope.
(*END*)
From Verif Require Import Gp_Proofs Gp_Proofs2 Gp_Proofs3 Gp_Proofs4 Gp_Proofs5 Str_Proofs Str_Proofs2.
Require Import Ascii.

Lemma step_ok_complete ps k st : pset_typed ps -> step_ok ps k st -> complete st.
Proof.
  intros [_ TT] [_ (ts & Hp & Hf)] i Hi.
  destruct (in_split _ _ Hi) as (a & b & E). rewrite E in Hf.
  apply Forall2_app_inv_l in Hf as (t1 & t2 & F1 & F2 & ->). inversion F2 as [|? t ? ? Ht F3]; subst.
  exists t. split; [eapply Permutation_in; [apply Permutation_sym; eauto|rewrite in_app_iff; simpl; auto]|].
  eapply TT; eauto.
Qed.
Lemma step_ok_readable ps k st : pset_readable ps -> step_ok ps k st -> step_readable ps st.
Proof.
  intros [RP RT] [Hp (ts & Hpm & Hf)]. split; [eapply RP; eauto|].
  apply Forall_forall. intros t Ht. assert (Ht' : In t ts) by (eapply Permutation_in; eauto).
  apply in_split in Ht' as (c & d & ->). apply Forall2_app_inv_r in Hf as (i1 & i2 & F1 & F2 & E).
  inversion F2 as [|j ? js ? Hi F3]; subst. eapply RT; eauto.
Qed.
Lemma pipeline_ok_all (P : primitive * list terminal -> Prop) ps ss :
  pipeline_ok ps ss -> (forall k st, step_ok ps k st -> P st) -> Forall P ss.
Proof.
  destruct ss as [|m rest]; simpl; [tauto|]. intros [H1 H2] H. constructor; [eauto|].
  eapply Forall_impl; [|exact H2]. eauto.
Qed.
Lemma pipeline_ok_ne ps ss : pipeline_ok ps ss -> ss <> [].
Proof. destruct ss; [simpl; tauto|discriminate]. Qed.

(** C19: parsing the text of a pipeline rebuilds it in new objects. *)
Lemma C19_round_trip_main :
  forall ps strict ind s ls ss,
    wf_heap (s_heap s) -> pipeline (s_heap s) ind ls ss ->
    pset_typed ps -> pset_readable ps -> pipeline_ok ps ss ->
    exists str ind' s' ls' ss',
      pipeline_str ind s = (Ok str, s) /\
      individual_from_string str ps strict s = (Ok ind', s') /\
      pipeline (s_heap s') ind' ls' ss' /\ same_pipeline ss ss' /\
      extends s s' /\ all_new (s_heap s) ls' /\ s_uid s <= i_id ind' < s_uid s'.
Proof.
  intros ps strict ind s ls ss W C T R Hok.
  destruct (from_string_ok ps strict ss s W (pipeline_ok_ne _ _ Hok)) as [H _].
  { eapply pipeline_ok_all; eauto using step_ok_readable. }
  destruct H as (ind' & s' & ls' & E & P & N & X & I).
  { right. eapply pipeline_ok_all; eauto using step_ok_complete. }
  exists (text ss), ind', s', ls', (map resort ss). split; [eapply pipeline_str_ok; eauto|].
  split; auto. split; auto. split; [apply same_pipeline_resort|]. auto.
Qed.
(** C19 for the individuals of a search: whatever calls were made, reading back
    the text of an individual gives exactly its steps, and the same text. *)
Lemma C19_round_trip_in_search_main :
  forall ps max_length max_retry r calls i ind,
    pset_typed ps -> pset_readable ps -> pset_named ps -> 0 < max_retry ->
    let s := w_st (gp_run ps max_length max_retry (empty_world r) calls) in
    nth_error (w_pool (gp_run ps max_length max_retry (empty_world r) calls)) i = Some ind ->
    exists str ls ss ind' s' ls',
      pipeline (s_heap s) ind ls ss /\
      pipeline_str ind s = (Ok str, s) /\
      individual_from_string str ps true s = (Ok ind', s') /\
      pipeline (s_heap s') ind' ls' ss /\ pipeline_str ind' s' = (Ok str, s').
Proof.
  intros ps mx n r calls i ind T R NM Hn s E.
  destruct (gp_run_inv ps mx n calls (empty_world r) T Hn (empty_inv ps r)) as (WI & _).
  destruct (world_lookup _ _ _ _ WI E) as (ls & ss & P & Hok & O). specialize (O NM).
  destruct (C19_round_trip_main ps true ind s ls ss (proj1 WI) P T R Hok)
    as (str & ind' & s' & ls' & ss' & E1 & E2 & P' & [_ SP] & X & _).
  rewrite (SP O) in P'. pose proof (pipeline_str_ok _ _ _ _ (proj1 WI) P) as E3. 
  change (pipeline_str ind s = (Ok (text ss), s)) in E3. rewrite E1 in E3. inversion E3; subst str.
  exists (text ss), ls, ss, ind', s', ls'. split; auto. split; auto. split; auto. split; auto.
  apply (pipeline_str_ok _ _ ls'); auto. apply X.
Qed.
Lemma ex_readable : pset_readable ex_ps.
Proof.
  assert (NC : forall c s, has_char c s = false -> ~ contains (String c "") s)
    by (intros c s H; rewrite contains_char_in; congruence).
  split.
  - intros k p; psets; intros H; repeat (destruct H as [<-|H]; [|]); try destruct H;
      (split; [simpl; auto|split; [apply NC; reflexivity|split;
        [intros HH; apply (fun h => after_first_none _ _ h HH); reflexivity|
         intros q; psets; intros Hq Hn; simpl in Hq, Hn;
         repeat destruct Hq as [Hq|Hq]; try tauto; subst q; try reflexivity; discriminate]]]).
  - intros k t; psets; intros H; repeat (destruct H as [<-|H]; [|]); try destruct H;
      (split; [simpl; auto|split; [intros s [-> | ->]; repeat split; apply NC; reflexivity|split;
        [intros HH; apply (fun h => after_first_none _ _ h HH); reflexivity|split;
        [intros HH; apply (fun h => after_first_none _ _ h HH); reflexivity|
         intros u; psets; intros Hu Hn; simpl in Hu;
         repeat destruct Hu as [Hu|Hu]; try tauto; subst u; try reflexivity; discriminate]]]]).
Qed.
Example C19_ex_main :
  pset_typed ex_ps /\ pset_readable ex_ps /\ pset_named ex_ps /\ pipeline_ok ex_ps ex_long /\
  text ex_long = "BNB(Bin(PCA(Bin(data, Bin.threshold=0.6)), Bin.threshold=0.5), alpha=0.1, BNB.fit_prior=True)"%string /\
  fst (individual_from_string (text ex_long) ex_ps true (ex_state [])) = Ok (mkInd 9 2 [] ""%string).
Proof.
  split; [apply ex_typed|]. split; [apply ex_readable|]. split; [apply ex_named|]. split; [apply ex_ok1|].
  split; reflexivity.
Qed.

(** C17, C19: pipelines with the same text are the same pipeline, so comparing
    texts is a faithful test for "already evaluated". *)
Lemma C17_same_text_same_pipeline_main :
  forall ps ss1 ss2,
    pset_typed ps -> pset_readable ps -> pipeline_ok ps ss1 -> pipeline_ok ps ss2 ->
    Forall in_order ss1 -> Forall in_order ss2 -> text ss1 = text ss2 -> ss1 = ss2.
Proof.
  intros ps ss1 ss2 T R H1 H2 O1 O2 E.
  set (s := mkSt (mkHeap 0 (fun _ => None)) [] 0). assert (W : wf_heap (s_heap s)) by (intros l _; reflexivity).
  destruct (from_string_ok ps false ss1 s W (pipeline_ok_ne _ _ H1)) as [A _];
    [eapply pipeline_ok_all; eauto using step_ok_readable|].
  destruct (from_string_ok ps false ss2 s W (pipeline_ok_ne _ _ H2)) as [B _];
    [eapply pipeline_ok_all; eauto using step_ok_readable|].
  destruct A as (i1 & s1 & l1 & E1 & P1 & _); auto. destruct B as (i2 & s2 & l2 & E2 & P2 & _); auto.
  rewrite E, E2 in E1. inversion E1; subst.
  destruct (chain_fun _ _ _ _ P1 _ _ P2) as [_ HH]. rewrite !resort_all_id in HH; auto.
Qed.

(** C20: a text in which some step lacks a declared hyperparameter is rejected in
    strict mode, and otherwise accepted with the hyperparameters present. *)
Lemma C20_strict_main :
  forall ps ss s,
    wf_heap (s_heap s) -> ss <> [] -> Forall (step_readable ps) ss ->
    ((exists ind s', individual_from_string (text ss) ps true s = (Ok ind, s')) <-> Forall complete ss) /\
    (~ Forall complete ss ->
     exists s', individual_from_string (text ss) ps true s = (Err ValueError, s') /\ extends s s').
Proof.
  intros ps ss s W Hne R. destruct (from_string_ok ps true ss s W Hne R) as [A B]. split; [split|]; auto.
  - intros (ind & s' & E).
    assert (D : {Forall complete ss} + {~ Forall complete ss}).
    { apply Forall_dec. intros [p ts]. destruct (has_missing p ts) eqn:Em.
      - right. rewrite <- has_missing_spec. congruence.
      - left. apply has_missing_spec; auto. }
    destruct D as [D|D]; auto. destruct B as (s2 & E2 & _); auto. congruence.
  - intros H. destruct A as (i & s' & l & E & _); eauto.
Qed.
Lemma C20_not_strict_main :
  forall ps ss s,
    wf_heap (s_heap s) -> ss <> [] -> Forall (step_readable ps) ss ->
    exists ind s' ls ss', individual_from_string (text ss) ps false s = (Ok ind, s') /\
      pipeline (s_heap s') ind ls ss' /\ same_pipeline ss ss' /\ extends s s'.
Proof.
  intros ps ss s W Hne R. destruct (from_string_ok ps false ss s W Hne R) as [A _].
  destruct A as (ind & s' & ls & E & P & N & X & I); auto.
  exists ind, s', ls, (map resort ss). split; auto. split; auto. split; auto. apply same_pipeline_resort.
Qed.
Definition ex_incomplete : list (primitive * list terminal) := [(ex_bnb, [ex_alpha1]); (ex_bin, [ex_thr1])].
Example C20_ex_main :
  Forall (step_readable ex_ps) ex_incomplete /\ ~ Forall complete ex_incomplete /\
  fst (individual_from_string (text ex_incomplete) ex_ps true (ex_state [])) = Err ValueError.
Proof.
  destruct ex_readable as [RP RT]. split.
  - constructor; [|constructor; [|constructor]]; split.
    + apply (RP "prediction"%string). simpl; auto.
    + constructor; [|constructor]. apply (RT "alpha"%string). simpl; auto.
    + apply (RP "data"%string). simpl; auto.
    + constructor; [|constructor]. apply (RT "Bin.threshold"%string). simpl; auto.
  - split; [|vm_compute; reflexivity]. intros H. inversion H as [|? ? Hc _]; subst.
    destruct (Hc "BNB.fit_prior"%string) as (t & [<-|[]] & E); [simpl; auto|]. discriminate.
Qed.

(** C21 is false.  A tuple value cannot be read back: the text is rejected. *)
Definition ex_tuple := mkTerm (mkValue KOther "(100, 50)" 1) "layers" "MLP.layers".
Definition ex_mlp := mkPrim ["MLP.layers"%string] "prediction" 0 "MLP".
Definition ex_ps_tuple : pset :=
  mkPset [("prediction"%string, [ex_mlp]); ("data"%string, [ex_pca])] [("MLP.layers"%string, [ex_tuple])].
Lemma C21_round_trip_all_values_refuted_main :
  exists ps ss s, pset_typed ps /\ pset_inhabited ps /\ pipeline_ok ps ss /\ Forall in_order ss /\
    fst (individual_from_string (text ss) ps true s) = Err IndexError.
Proof.
  exists ex_ps_tuple, [(ex_mlp, [ex_tuple])], (mkSt (mkHeap 0 (fun _ => None)) [] 0).
  split; [|split; [|split; [|split; [|vm_compute; reflexivity]]]].
  - split; intros k x; unfold ex_ps_tuple; psets; intros H; repeat (destruct H as [<-|H]; [reflexivity|]); destruct H.
  - intros k p i; unfold ex_ps_tuple, prims_of; simpl;
    repeat match goal with |- context [String.eqb ?a ?b] => destruct (String.eqb_spec a b); subst; simpl end;
    intros H Hi; repeat (destruct H as [<-|H]; [simpl in Hi|]); try destruct H;
    repeat (destruct Hi as [<-|Hi]; [discriminate|]); destruct Hi.
  - split; [|constructor]. split; [simpl; auto|]. exists [ex_tuple]. split; [apply Permutation_refl|].
    constructor; [simpl; auto|constructor].
  - constructor; [|constructor]. constructor; constructor.
Qed.
(** Worse: two functions with the same __name__ have the same text, and reading
    it back silently gives the other pipeline. *)
Definition ex_f1 := mkTerm (mkValue KCallable "f_classif" 1) "score_func" "Sel.score_func".
Definition ex_f2 := mkTerm (mkValue KCallable "f_classif" 2) "score_func" "Sel.score_func".
Definition ex_sel := mkPrim ["Sel.score_func"%string] "prediction" 0 "Sel".
Definition ex_ps_fun : pset :=
  mkPset [("prediction"%string, [ex_sel]); ("data"%string, [ex_pca])] [("Sel.score_func"%string, [ex_f1; ex_f2])].
Lemma C21_other_pipeline_refuted_main :
  exists ps ss s ind s' ls other, pset_typed ps /\ pipeline_ok ps ss /\
    individual_from_string (text ss) ps true s = (Ok ind, s') /\
    pipeline (s_heap s') ind ls other /\ ~ same_pipeline ss other.
Proof.
  exists ex_ps_fun, [(ex_sel, [ex_f2])], (mkSt (mkHeap 0 (fun _ => None)) [] 0).
  do 4 eexists. split; [|split; [|split; [vm_compute; reflexivity|split]]].
  - split; intros k x; unfold ex_ps_fun; psets; intros H; repeat (destruct H as [<-|H]; [reflexivity|]); destruct H.
  - split; [|constructor]. split; [simpl; auto|]. exists [ex_f2]. split; [apply Permutation_refl|].
    constructor; [simpl; auto|constructor].
  - cbn. eapply (chain_node _ 0 (mkCell ex_sel DData [ex_f1])); [reflexivity|constructor].
  - intros [H _]. inversion H as [|? ? ? ? [_ Hp] _]; subst. simpl in Hp.
    apply Permutation_length_1 in Hp. discriminate.
Qed.
(** What does hold in every search space: only the entries the pipeline itself
    uses need to be recognisable. *)
Lemma C21_round_trip_partial_main :
  forall ps strict ind s ls ss,
    wf_heap (s_heap s) -> pipeline (s_heap s) ind ls ss ->
    pset_typed ps -> pipeline_ok ps ss -> Forall (step_readable ps) ss ->
    exists ind' s' ls' ss',
      individual_from_string (text ss) ps strict s = (Ok ind', s') /\
      pipeline (s_heap s') ind' ls' ss' /\ same_pipeline ss ss' /\ extends s s'.
Proof.
  intros ps strict ind s ls ss W C T Hok R.
  destruct (from_string_ok ps strict ss s W (pipeline_ok_ne _ _ Hok) R) as [H _].
  destruct H as (ind' & s' & ls' & E & P & N & X & I).
  { right. eapply pipeline_ok_all; eauto using step_ok_complete. }
  exists ind', s', ls', (map resort ss). split; auto. split; auto. split; auto. apply same_pipeline_resort.
Qed.
Example C21_ex_main : Forall (step_readable ex_ps) ex_long.
Proof. eapply pipeline_ok_all; [apply ex_ok1|]. intros; eapply step_ok_readable; [apply ex_readable|eauto]. Qed.

(** C135.  A text written for another search space [other] (in which it can be
    read) is refused by a search space that lacks one of its algorithms or one of
    its hyperparameter values, wherever in the pipeline it stands. *)
Lemma C135_refused_main :
  forall other ps strict ss s,
    wf_heap (s_heap s) -> Forall (step_readable other) ss ->
    Exists (fun x =>
      (forall q, In q (prims_of ps DATA) \/ In q (prims_of ps PREDICTION) -> p_name q <> p_name (fst x)) \/
      Exists (fun t => forall u, In u (terms_of ps (t_ident t)) -> term_text u <> term_text t) (snd x)) ss ->
    exists e s', individual_from_string (text ss) ps strict s = (Err e, s') /\ extends s s' /\
      (e = IndexError \/ e = RuntimeError \/ (strict = true /\ e = ValueError)).
Proof.
  intros other ps strict ss s W R X. rewrite (from_string_text other); auto. unfold mbind.
  destruct (build_nodes_bad other ps strict (rev ss) DData s) as (e & s' & E & HE).
  - apply Forall_rev; auto.
  - apply Exists_exists in X as (x & Hx & U). apply Exists_exists. exists x. split; [|exact U].
    rewrite <- in_rev. auto.
  - exists e, s'. pose proof (build_nodes_extends ps strict (map item (rev ss)) DData s W) as XT.
    rewrite E in XT |- *. auto.
Qed.

(** Steps are read from the data end.  The first one that cannot be read decides
    the exception: an unknown algorithm is an IndexError ... *)
Lemma C135_algorithm_main :
  forall other ps strict outer p ts inner s,
    wf_heap (s_heap s) -> Forall (step_readable other) (outer ++ (p, ts) :: inner) ->
    Forall (step_readable ps) inner -> strict = false \/ Forall complete inner ->
    (forall q, In q (prims_of ps DATA) \/ In q (prims_of ps PREDICTION) -> p_name q <> p_name p) ->
    exists s', individual_from_string (text (outer ++ (p, ts) :: inner)) ps strict s = (Err IndexError, s') /\
      extends s s'.
Proof.
  intros other ps strict outer p ts inner s W R Ri C U. rewrite (from_string_text other); auto. unfold mbind.
  rewrite rev_app_distr. cbn [rev]. rewrite <- app_assoc, map_app. cbn [app map].
  pose proof (build_nodes_extends ps strict (map item (rev inner) ++ item (p, ts) :: map item (rev outer)) DData s W) as XT.
  rewrite build_nodes_app in *.
  destruct (build_nodes_ok ps strict (rev inner) s DData [] [] W (chain_data _)) as [B _]; [apply Forall_rev; auto|].
  destruct B as (s' & d' & new & E & _); [destruct C; auto; right; apply Forall_rev; auto|].
  rewrite E in *. cbn [build_nodes item fst snd] in *. unfold mbind, mlift in *.
  rewrite find_primitive_unknown in * by exact U. eauto.
Qed.
(** ... and an unknown value of a known algorithm is a RuntimeError. *)
Lemma C135_value_main :
  forall other ps strict outer p ts inner s,
    wf_heap (s_heap s) -> Forall (step_readable other) (outer ++ (p, ts) :: inner) ->
    Forall (step_readable ps) inner -> strict = false \/ Forall complete inner ->
    (exists q, (In q (prims_of ps DATA) \/ In q (prims_of ps PREDICTION)) /\ p_name q = p_name p) ->
    Exists (fun t => forall u, In u (terms_of ps (t_ident t)) -> term_text u <> term_text t) ts ->
    exists s', individual_from_string (text (outer ++ (p, ts) :: inner)) ps strict s = (Err RuntimeError, s') /\
      extends s s'.
Proof.
  intros other ps strict outer p ts inner s W R Ri C Q U. rewrite (from_string_text other); auto. unfold mbind.
  rewrite rev_app_distr. cbn [rev]. rewrite <- app_assoc, map_app. cbn [app map].
  pose proof (build_nodes_extends ps strict (map item (rev inner) ++ item (p, ts) :: map item (rev outer)) DData s W) as XT.
  rewrite build_nodes_app in *.
  destruct (build_nodes_ok ps strict (rev inner) s DData [] [] W (chain_data _)) as [B _]; [apply Forall_rev; auto|].
  destruct B as (s' & d' & new & E & _); [destruct C; auto; right; apply Forall_rev; auto|].
  rewrite E in *. cbn [build_nodes item fst snd] in *. unfold mbind, mlift in *.
  destruct (find_primitive_known ps (p_name p) Q) as (q & Eq). rewrite Eq in *.
  apply Forall_app in R as [_ R]. inversion R as [|? ? [_ Rt] _]; subst.
  rewrite (parse_terminals_unknown other) in * by assumption. eauto.
Qed.
(** A text that never mentions the data is a ValueError, and nothing is made. *)
Lemma C135_no_data_main :
  forall ps strict str s, ~ contains "data" str ->
    individual_from_string str ps strict s = (Err ValueError, s).
Proof.
  intros ps strict str s H. unfold individual_from_string, node_from_string.
  change DATA with "data"%string. rewrite after_first_absent; auto.
Qed.
(** The example space without the first value of one hyperparameter, or without
    one algorithm, refuses the texts of the full space. *)
Definition ex_smaller_values : pset :=
  mkPset (ps_prims ex_ps) (filter (fun kv => negb (String.eqb (fst kv) "Bin.threshold")) (ps_terms ex_ps)).
Definition ex_smaller_algorithms : pset :=
  mkPset [("prediction"%string, [ex_bnb])] (ps_terms ex_ps).
Example C135_ex_main :
  Forall (step_readable ex_ps) ex_incomplete /\
  fst (individual_from_string (text ex_incomplete) ex_smaller_values false (ex_state [])) = Err RuntimeError /\
  fst (individual_from_string (text ex_incomplete) ex_smaller_algorithms false (ex_state [])) = Err IndexError /\
  fst (individual_from_string (text ex_incomplete) ex_ps true (ex_state [])) = Err ValueError /\
  fst (individual_from_string "BNB(input)" ex_ps true (ex_state [])) = Err ValueError.
Proof. split; [apply C20_ex_main|]. vm_compute. repeat split. Qed.

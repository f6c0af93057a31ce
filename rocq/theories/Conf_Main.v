(*IMPORTS*)
From Verif Require Import Base Gp_Model Gp_Spec Cov_Spec Conf_Model Conf_Spec Conf_Examples Gp_Examples.
Require Import Ascii Permutation Sorted.
Open Scope string_scope.
Open Scope list_scope.
Open Scope nat_scope.
(*END*)
From Verif Require Import Gp_Proofs Conf_Proofs Conf_Proofs2 Conf_Proofs3 Conf_Proofs4 Gp_Main Cov_Main.

(** C63: the primitives of each type are exactly the configured algorithms of
    that type, once each, with all their hyperparameters. *)
Lemma C63_primitives_main :
  forall cfg d ch, pset_from_config cfg = Ok (d, ch) ->
    (forall k, Permutation (map p_class (prims_of (pset_of d) k)) (algorithms cfg k)) /\
    (forall k p, In p (prims_of (pset_of d) k) ->
       p_output p = k /\ exists c e items, In (KeyClass c, e) cfg /\ e_dict e = Some items /\ primitive_for c items p) /\
    (forall c e items, In (KeyClass c, e) cfg -> e_dict e = Some items ->
       exists k p, role c = Some k /\ In p (prims_of (pset_of d) k) /\ primitive_for c items p).
Proof.
  intros cfg d ch H. split; [intros k; eapply prim_classes; eauto|]. split.
  - intros k p Hp. apply (in_prims _ _ _ _ _ H) in Hp as (c & e & items & Hin & E & R & ->). split; [reflexivity|].
    exists c, e, items. split; auto. split; auto. apply prim_of_class_ok; auto.
  - intros c e items Hin E. pose proof (pset_ok _ _ _ H) as (F & _). pose proof (valid_in _ _ F Hin) as (R & _). cbn [fst] in R.
    destruct (role c) as [k|] eqn:Rk; [|congruence]. exists k, (prim_of_class c k items). split; auto. split; [|apply prim_of_class_ok; auto].
    apply (in_prims _ _ _ _ _ H). exists c, e, items. auto.
Qed.
(** The values of each hyperparameter are the configured ones, in order;
    nothing else has values. *)
Lemma C63_values_partial_main :
  forall cfg d ch, pset_from_config cfg = Ok (d, ch) -> unambiguous cfg ->
    (forall s e vs, In (KeyStr s, e) cfg -> e_iter e = Some vs ->
       terms_of (pset_of d) s = map (fun x => mkTerm x s s) vs) /\
    (forall c e items n v, In (KeyClass c, e) cfg -> e_dict e = Some items -> In (n, v) items -> ~ shared v -> n <> "param_check" ->
       terms_of (pset_of d) (c_name c ++ "." ++ n) = map (fun x => mkTerm x n (c_name c ++ "." ++ n)) (hv_items v)) /\
    (forall k, terms_of (pset_of d) k <> [] ->
       In k (string_keys cfg) \/ exists c e items n v, In (KeyClass c, e) cfg /\ e_dict e = Some items /\ In (n, v) items /\ ~ shared v /\ n <> "param_check" /\ k = (c_name c ++ "." ++ n)%string).
Proof.
  intros cfg d ch H U. split; [|split].
  - intros s e vs Hin E. eapply shared_values; eauto.
  - intros c e items n v Hin E Hn Hs Hp. eapply own_values; eauto.
  - intros k Hk. destruct (terms_of (pset_of d) k) as [|t l] eqn:Et; [congruence|].
    assert (Ht : In t (terms_of (pset_of d) k)) by (rewrite Et; simpl; auto).
    apply (in_terms _ _ _ _ _ H) in Ht as [(e & vs & x & Hin & _)|(c & e & items & n & v & x & Hin & E & Hn & Ns & Np & -> & _)].
    + left. eapply in_string_keys; eauto.
    + right. exists c, e, items, n, v. auto 6.
Qed.
(** Without that assumption it is false: values of algorithms that have the same
    class name are mixed. *)
Lemma C63_values_refuted_main :
  exists cfg d ch c e items n v,
    pset_from_config cfg = Ok (d, ch) /\ In (KeyClass c, e) cfg /\ e_dict e = Some items /\ In (n, v) items /\ ~ shared v /\ n <> "param_check" /\
    exists t, In t (terms_of (pset_of d) (c_name c ++ "." ++ n)) /\ ~ In (t_value t) (hv_items v).
Proof.
  set (other := mkCls 7 "PCA" meta_abc true false false).
  set (e2 := mkEntry (Some []) (Some [("power", mkHval HList [vi "9" 9])])).
  remember (pset_from_config [(KeyClass cPCA, cfg_pca); (KeyClass other, e2)]) as r eqn:E. vm_compute in E.
  destruct r as [[d ch]|]; [|discriminate]. injection E as Ed Ech.
  exists [(KeyClass cPCA, cfg_pca); (KeyClass other, e2)], d, ch, cPCA, cfg_pca, [("power", mkHval HRange [vi "1" 1; vi "2" 2; vi "3" 3])], "power", (mkHval HRange [vi "1" 1; vi "2" 2; vi "3" 3]).
  split; [subst; vm_compute; reflexivity|]. split; [simpl; auto|]. split; [reflexivity|]. split; [simpl; auto|]. split; [discriminate|]. split; [discriminate|].
  exists (mkTerm (vi "9" 9) "power" "PCA.power"). split; [subst d; vm_compute; auto|]. simpl. intros [K|[K|[K|[]]]]; discriminate.
Qed.
(** Keys that are neither strings nor suitable classes are refused with a
    TypeError; a configuration is accepted exactly when all entries are valid. *)
Lemma C63_errors_main :
  forall cfg,
    ((exists r, pset_from_config cfg = Ok r) <-> Forall valid_entry cfg) /\
    (Forall (fun ke => valid_entry ke \/ bad_key ke) cfg -> Exists bad_key cfg -> pset_from_config cfg = Err TypeError).
Proof. intros cfg. split; [apply config_total|apply config_type_error]. Qed.
(** C63: and the exception tells the kind of mistake: TypeError for values that
    cannot be iterated over (or a bad key), AttributeError for an algorithm whose
    entry is no dictionary, KeyError or IndexError for a param_check without a
    first element. *)
Lemma C63_faults_main :
  forall cfg x, Forall (fun ke => valid_entry ke \/ fault ke x) cfg -> Exists (fun ke => fault ke x) cfg -> pset_from_config cfg = Err x.
Proof. exact config_fault. Qed.
(** The check recorded for an algorithm is the first value of its param_check. *)
Lemma C63_checks_main :
  forall cfg d ch c e items, pset_from_config cfg = Ok (d, ch) -> unambiguous cfg -> In (KeyClass c, e) cfg -> e_dict e = Some items ->
    (forall v f, In ("param_check", v) items -> first_value v f -> get_check ch (c_name c) = Some f) /\
    (~ In "param_check" (map fst items) -> get_check ch (c_name c) = None).
Proof.
  intros cfg d ch c e items H U Hin E. rewrite (config_checks cfg d ch c e items) by auto. unfold check_of. split.
  - intros v f I F. rewrite (in_hget _ _ v) by (auto; apply U with (c := c) (e := e); auto). apply first_value_of in F. rewrite F. reflexivity.
  - intros N. apply hget_none in N. rewrite N. reflexivity.
Qed.
(** The resulting search space has the properties the other theorems assume. *)
Lemma C63_search_space_main :
  forall cfg d ch, pset_from_config cfg = Ok (d, ch) ->
    pset_typed (pset_of d) /\
    (complete cfg -> pset_inhabited (pset_of d)) /\
    (unambiguous cfg ->
     (forall s, In s (string_keys cfg) -> has_char "="%char s = false) ->
     (forall c e items n v, In (KeyClass c, e) cfg -> e_dict e = Some items -> In (n, v) items ->
        has_char "="%char n = false /\ (shared v -> has_char "."%char n = false)) ->
     pset_named (pset_of d)).
Proof.
  intros cfg d ch H. split; [eapply config_typed; eauto|]. split; [eapply config_inhabited; eauto|].
  intros U E1 E2. eapply config_named; eauto; intros; eapply E2; eauto.
Qed.
(** A complete configuration with a predictor and a preprocessor can generate
    individuals, always. *)
Lemma C63_can_start_main :
  forall cfg d ch max_length s, pset_from_config cfg = Ok (d, ch) -> complete cfg -> wf_heap (s_heap s) ->
    algorithms cfg "prediction" <> [] -> algorithms cfg "data" <> [] ->
    match max_length with Some m => (1 <= m)%Z | None => True end ->
    exists ind s', op_individual (pset_of d) max_length s = (Ok ind, s').
Proof.
  intros cfg d ch mx s H C W A1 A2 Hm.
  assert (NE : forall k, algorithms cfg k <> [] -> prims_of (pset_of d) k <> []).
  { intros k Hk E. pose proof (prim_classes _ _ _ k H) as P. rewrite E in P. simpl in P. apply Permutation_nil in P. auto. }
  destruct (C91_new_individual_main (pset_of d) mx s W) as (_ & _ & X). apply X; auto. eapply config_inhabited; eauto.
Qed.
Lemma ex_cfg_unambiguous : unambiguous ex_cfg.
Proof.
  split; [|split; [|split; [|split]]].
  - simpl. repeat constructor; simpl; intuition discriminate.
  - simpl. repeat constructor; simpl; intuition discriminate.
  - simpl. intros s [<-|[<-|[<-|[]]]]; reflexivity.
  - simpl. intros s [<-|[]]; reflexivity.
  - intros c e items Hin E. simpl in Hin. destruct Hin as [K|[K|[K|[K|[]]]]]; try discriminate; injection K as <- <-; injection E as <-; simpl;
      repeat constructor; simpl; intuition discriminate.
Qed.
Lemma ex_cfg_complete : complete ex_cfg.
Proof.
  intros c e items n v Hin E Hn. simpl in Hin. destruct Hin as [K|[K|[K|[K|[]]]]]; try discriminate; injection K as <- <-; injection E as <-; simpl in Hn;
    repeat (destruct Hn as [K|Hn]; [injection K as <- <-; split; [intros S; try discriminate S|intros S ?; try discriminate; try (exfalso; apply S; reflexivity)]|]); try destruct Hn.
  exists cfg_alpha, (vi "0.1" 10), [vi "1.0" 1]. split; [simpl; auto|reflexivity].
Qed.
Example C63_ex_main : unambiguous ex_cfg /\ complete ex_cfg /\ Forall valid_entry ex_cfg /\
  exists d ch, pset_from_config ex_cfg = Ok (d, ch) /\ get_check ch "SVC" = Some vcheck /\ algorithms ex_cfg "prediction" = [0; 1] /\
    map p_input (prims_of (pset_of d) "prediction") = [["SVC.dual"; "SVC.penalty"]; ["alpha"; "BNB.fit_prior"]] /\
    Exists bad_key [(KeyOther "<class 'int'>" 3, cfg_alpha)].
Proof.
  split; [apply ex_cfg_unambiguous|]. split; [apply ex_cfg_complete|]. split.
  - apply (proj1 (config_total ex_cfg)). eexists. vm_compute. reflexivity.
  - remember (pset_from_config ex_cfg) as r eqn:E. vm_compute in E. subst r. do 2 eexists. split; [reflexivity|]. repeat (split; [vm_compute; reflexivity|]).
    constructor. exact Logic.I.
Qed.

(** One algorithm with a number instead of a list of values; one with a
    param_check that is an empty range. *)
Example C63_faults_ex_main :
  fault (KeyClass cPCA, mkEntry None (Some [("power", mkHval HScalar [])])) TypeError /\
  pset_from_config [(KeyClass cPCA, mkEntry None (Some [("power", mkHval HScalar [])])); (KeyClass cPCA, cfg_pca)] = Err TypeError /\
  fault (KeyClass cPCA, mkEntry None (Some [("param_check", mkHval HRange [])])) IndexError /\
  fault (KeyClass cPCA, mkEntry (Some []) None) AttributeError /\ fault (KeyStr "alpha", mkEntry None None) TypeError.
Proof.
  split; [eapply f_hp; [reflexivity| |]; constructor; try (right; constructor; reflexivity); constructor; reflexivity|].
  split; [reflexivity|].
  split; [eapply f_hp; [reflexivity| |]; constructor; try (right; constructor; cbn; auto; discriminate); constructor; cbn; auto; discriminate|].
  split; constructor; reflexivity.
Qed.
(** C64: merging keeps every option of both configurations (values up to ==). *)
Lemma C64_options_kept_partial_main :
  forall set_list h c1 c2 m h',
    lists_set set_list -> merge_configurations set_list h c1 c2 = (Ok m, h') ->
    (forall k n v, offers h c1 k n v \/ offers h c2 k n v -> offers h' m k n v) /\
    (forall s v, offers_shared c1 s v \/ offers_shared c2 s v -> offers_shared m s v).
Proof.
  intros f h c1 c2 m h' Hf H. unfold merge_configurations in H.
  pose proof (merge_loop_keeps f Hf _ _ _ _ _ H) as [K1 K2]. pose proof (merge_loop_grow f Hf _ _ _ _ _ H) as Gr. split.
  - intros k n v [(l & hv & w & R & G & X)|(l & hv & w & R & G & X)].
    + destruct (Gr l n v) as (hv' & w' & G' & X'); [exists hv, w; auto|]. exists l, hv', w'. auto.
    + apply rget_in in R as (k' & Hin & Ek). destruct (merge_loop_adds f Hf _ _ _ _ _ _ _ H Hin n v) as (l' & R' & hv' & w' & Y); [exists hv, w; auto|].
      exists l', hv', w'. rewrite (rget_eq _ _ _ Ek). auto.
  - intros s v [X|(hv & w & R & Hw & Ev)].
    + apply K2. exact X.
    + apply rget_in in R as (k' & Hin & Ek). destruct (merge_loop_adds f Hf _ _ _ _ _ _ _ H Hin v w Hw Ev) as (hv' & w' & R' & Y).
      exists hv', w'. rewrite (rget_eq _ _ _ Ek). auto.
Qed.
(** When no inner dictionary is used twice, nothing is invented, and only inner
    dictionaries of the first configuration are modified. *)
Lemma C64_exactly_the_options_partial_main :
  forall set_list h c1 c2 m h',
    lists_set set_list -> merge_configurations set_list h c1 c2 = (Ok m, h') ->
    distinct_keys c2 -> separate c1 c2 -> distinct_names h c2 ->
    (forall k n v, offers h' m k n v <-> offers h c1 k n v \/ offers h c2 k n v) /\
    (forall s v, offers_shared m s v <-> offers_shared c1 s v \/ offers_shared c2 s v) /\
    view h' c2 = view h c2 /\
    (forall l, ~ In l (dictionaries c1) -> h' l = h l).
Proof.
  intros f h c1 c2 m h' Hf H D S DN.
  destruct (C64_options_kept_partial_main f h c1 c2 m h' Hf H) as [A B]. unfold merge_configurations in H.
  assert (FR : forall l, ~ In l (dictionaries c1) -> h' l = h l).
  { apply (loop_frame f c1 c2 h c1 (Ok m) h' H D). auto. }
  destruct (loop_exact f Hf h c1 c2 D S DN c2 h c1 m h' [] eq_refl H) as [X1 X2]; auto.
  { intros k l n v R (hv & w & Y). left. exists l, hv, w. auto. }
  split; [|split; [|split]]; auto.
  - intros k n v. split; [|apply A]. intros (l & hv & w & R & Y). apply (X1 k l n v R). exists hv, w. auto.
  - intros s v. split; [|apply B]. intros Y. apply X2. exact Y.
  - unfold view. apply map_ext_in. intros [k [b|l]] Hin; simpl; auto. f_equal. f_equal. f_equal. apply FR. intros K.
    eapply (app_NoDup _ _ l S); eauto. eapply dict_in; eauto.
Qed.
Lemma ex_set_ok : lists_set ex_set.
Proof.
  intros l. induction l as [|v l (I1 & I2 & I3)]; simpl; [split; [constructor|split; [apply incl_refl|intros v []]]|].
  destruct (existsb (value_eqb v) l) eqn:E.
  - split; auto. split; [intros x Hx; right; auto|]. intros x [<-|Hx]; auto. apply existsb_exists in E as (u & Hu & Eu). apply Z.eqb_eq in Eu.
    destruct (I3 u Hu) as (w & Hw & Ew). exists w. split; auto. congruence.
  - split; [|split].
    + simpl. constructor; auto. intros K. apply in_map_iff in K as (u & Eu & Hu). apply I2 in Hu. 
      assert (X : existsb (value_eqb v) l = true) by (apply existsb_exists; exists u; split; auto; apply Z.eqb_eq; auto). congruence.
    + intros x [<-|Hx]; [left; auto|right; auto].
    + intros x [<-|Hx]; [exists v; simpl; auto|]. destruct (I3 x Hx) as (w & Hw & Ew). exists w. simpl; auto.
Qed.
(** Merging is refused exactly when something given in both cannot be combined:
    values in containers of different types (for instance a list and a range), a
    shared hyperparameter that is not a list, or the same key for an algorithm
    and a shared hyperparameter.  The error is a TypeError or AttributeError. *)
Lemma C64_refused_main :
  forall set_list h c1 c2,
    distinct_keys c2 -> separate c1 c2 -> distinct_names h c2 ->
    (mergeable h c1 c2 <-> exists m h', merge_configurations set_list h c1 c2 = (Ok m, h')) /\
    (~ mergeable h c1 c2 ->
       exists e h', merge_configurations set_list h c1 c2 = (Err e, h') /\ (e = TypeError \/ e = AttributeError) /\
         (forall l, ~ In l (dictionaries c1) -> h' l = h l)).
Proof.
  intros f h c1 c2 D S N. assert (EQ : mergeable h c1 c2 <-> forall k v, In (k, v) c2 -> entry_ok h (rget c1 k) v).
  { unfold mergeable, entry_ok. split.
    - intros H k v Hin. destruct (rget c1 k) as [v1|] eqn:G; auto. specialize (H k v1 v G Hin). destruct v1, v; auto. intros n a b Ha Hb. eapply H; eauto.
    - intros H k v1 v2 G Hin. specialize (H k v2 Hin). rewrite G in H. destruct v1, v2; auto. intros n a b Ha Hb. eapply H; eauto. }
  unfold merge_configurations.
  destruct (merge_loop_iff f h c1 (NoDup_l _ _ S) c2 h c1 D) as [[A (m & h' & R)]|[A (e & h' & R & T)]]; auto.
  - intros l Hl. split; [apply N; auto|]. intros K. eapply (app_NoDup _ _ _ S); eauto.
  - split; [split; [eauto|intros _; apply EQ; auto]|]. intros K. exfalso. apply K, EQ, A.
  - split; [split; [intros K; exfalso; apply A, EQ; auto|intros (m & h2 & R2); congruence]|].
    intros _. exists e, h'. split; auto. split; auto. intros l Hl. eapply (loop_frame f c1); eauto.
Qed.
Example C64_refused_ex_main : exists h c1 c2 c3,
  distinct_keys c2 /\ separate c1 c2 /\ distinct_names h c2 /\ mergeable h c1 c2 /\
  distinct_keys c3 /\ separate c1 c3 /\ distinct_names h c3 /\ ~ mergeable h c1 c3.
Proof.
  exists (fun l : nat => if l =? 0 then [("power", mkHval HList [vi "1" 1])] else if l =? 1 then [("power", mkHval HList [vi "9" 9]); ("whiten", mkHval HRange [vi "1" 1])] else [("power", mkHval HRange [vi "9" 9])]),
    [(KeyClass cPCA, RDict 0)], [(KeyClass cPCA, RDict 1)], [(KeyClass cPCA, RDict 2)].
  assert (S : forall x, x <> 0 -> separate [(KeyClass cPCA, RDict 0)] [(KeyClass cPCA, RDict x)]) by (intros x N; repeat constructor; simpl; intuition congruence).
  split; [repeat constructor|]. split; [apply S; discriminate|]. split; [intros l [<-|[]]; simpl; repeat constructor; simpl; intuition discriminate|].
  split; [|split; [repeat constructor|split; [apply S; discriminate|split; [intros l [<-|[]]; simpl; repeat constructor; simpl; intuition discriminate|]]]].
  - intros k v1 v2 G [E|[]]. injection E as <- <-. cbn in G. injection G as <-. intros n a b Ha [Hb|[Hb|[]]]; injection Hb as <- <-; cbn in Ha; [injection Ha as <-|discriminate]. split; [reflexivity|discriminate].
  - intros M. specialize (M (KeyClass cPCA) (RDict 0) (RDict 2) eq_refl (or_introl eq_refl)). cbn iota in M.
    destruct (M "power" _ _ eq_refl (or_introl eq_refl)) as [K _]. discriminate.
Qed.
Example C64_ex_main : lists_set ex_set /\
  exists h c1 c2 m h', merge_configurations ex_set h c1 c2 = (Ok m, h') /\ distinct_keys c2 /\ separate c1 c2 /\ distinct_names h c2 /\
    offers h c2 (KeyClass cPCA) "power" (vi "9" 9) /\ offers h' m (KeyClass cPCA) "power" (vi "9" 9).
Proof.
  split; [apply ex_set_ok|].
  set (h := fun l : nat => if l =? 0 then [("power", mkHval HList [vi "1" 1])] else [("power", mkHval HList [vi "9" 9; vi "1" 1])]).
  exists h, [(KeyClass cPCA, RDict 0)], [(KeyClass cPCA, RDict 1)]. remember (merge_configurations ex_set h [(KeyClass cPCA, RDict 0)] [(KeyClass cPCA, RDict 1)]) as r eqn:E.
  cbv beta iota zeta delta [merge_configurations merge_loop merge_alg rget key_eqb cPCA c_id Nat.eqb] in E. 
  unfold merge_hps, merge_hp in E. simpl in E. subst r.
  do 2 eexists. split; [reflexivity|]. split; [repeat constructor|]. split; [repeat constructor; simpl; intuition discriminate|].
  split; [intros l [<-|[]]; simpl; repeat constructor; auto|]. split.
  - exists 1, (mkHval HList [vi "9" 9; vi "1" 1]), (vi "9" 9). simpl; auto.
  - eexists 0, _, (vi "9" 9). split; [reflexivity|]. split; [reflexivity|]. split; [simpl; auto|reflexivity].
Qed.
(** But the first configuration IS modified: merging the classification and
    regression configurations, which importing gama.logging.GamaReport does,
    changes the default search space of GamaClassifier. *)
Lemma C64_inputs_unchanged_refuted_main :
  forall set_list, exists h c1 c2 m h',
    merge_configurations set_list h c1 c2 = (Ok m, h') /\ distinct_keys c1 /\ distinct_keys c2 /\ separate c1 c2 /\
    view h' c1 <> view h c1.
Proof.
  intros f.
  set (h := fun l : nat => if l =? 0 then [("score_func", mkHval HDict [vi "f_classif" 50])] else [("score_func", mkHval HDict [vi "f_regression" 51])]).
  set (fwe := mkCls 20 "SelectFwe" meta_abc true false false).
  exists h, [(KeyClass fwe, RDict 0)], [(KeyClass fwe, RDict 1)]. do 2 eexists. split; [reflexivity|].
  split; [repeat constructor|]. split; [repeat constructor|]. split; [repeat constructor; simpl; intuition discriminate|]. discriminate.
Qed.
(** An algorithm that used the shared values of a hyperparameter loses them when
    the other configuration gives it values of its own. *)
Lemma C64_shared_option_refuted_main :
  forall set_list, lists_set set_list -> exists h c1 c2 m h' n k,
    merge_configurations set_list h c1 c2 = (Ok m, h') /\ distinct_keys c1 /\ distinct_keys c2 /\ separate c1 c2 /\
    uses_shared h c1 k n /\ ~ uses_shared h' m k n.
Proof.
  intros f Hf.
  set (h := fun l : nat => if l =? 0 then [("alpha", mkHval HList [])] else [("alpha", mkHval HList [vi "0.5" 5])]).
  exists h, [(KeyClass cBNB, RDict 0)], [(KeyClass cBNB, RDict 1)]. do 2 eexists. exists "alpha", (KeyClass cBNB). split; [reflexivity|].
  split; [repeat constructor|]. split; [repeat constructor|]. split; [repeat constructor; simpl; intuition discriminate|]. split.
  - exists 0, (mkHval HList []). repeat split.
  - intros (l & hv & R & G & S). simpl in R. injection R as <-. unfold h in G. simpl in G. injection G as <-. unfold shared in S. injection S as S.
    destruct (Hf [vi "0.5" 5]) as (_ & _ & X). destruct (X (vi "0.5" 5)) as (w & Hw & _); [simpl; auto|]. rewrite S in Hw. destruct Hw.
Qed.
(** Of two param_checks only one survives parsing. *)
Lemma C64_checks_refuted_main :
  forall set_list, lists_set set_list -> exists h c1 c2 m h' d1 ch1 d2 ch2 d ch f1 f2,
    merge_configurations set_list h c1 c2 = (Ok m, h') /\
    pset_from_config (view h c1) = Ok (d1, ch1) /\ pset_from_config (view h c2) = Ok (d2, ch2) /\ pset_from_config (view h' m) = Ok (d, ch) /\
    get_check ch1 "SVC" = Some f1 /\ get_check ch2 "SVC" = Some f2 /\ v_eq f1 <> v_eq f2 /\
    (get_check ch "SVC" <> Some f1 \/ get_check ch "SVC" <> Some f2).
Proof.
  intros f Hf.
  set (f1 := mkValue KCallable "<lambda>" 102). set (f2 := mkValue KCallable "<lambda>" 103).
  set (h := fun l : nat => if l =? 0 then [("param_check", mkHval HList [f1])] else [("param_check", mkHval HList [f2])]).
  assert (NE : exists x xs, f [f1; f2] = x :: xs).
  { destruct (f [f1; f2]) as [|x xs] eqn:E; [|eauto]. destruct (Hf [f1; f2]) as (_ & _ & X). destruct (X f1) as (w & Hw & _); [simpl; auto|]. rewrite E in Hw. destruct Hw. }
  destruct NE as (x & xs & NE).
  exists h, [(KeyClass cSVC, RDict 0)], [(KeyClass cSVC, RDict 1)]. do 8 eexists. exists f1, f2.
  split; [reflexivity|]. split; [reflexivity|]. split; [reflexivity|].
  split.
  { unfold pset_from_config, sorted_entries, view, deref. cbn [map fst snd py_sorted insert_sorted rev app]. unfold register_all, register, e_dict.
    simpl. rewrite NE. reflexivity. }
  split; [reflexivity|]. split; [reflexivity|]. split; [discriminate|].
  cbn [get_check]. simpl. destruct (Z.eq_dec (v_eq x) 102) as [E|E].
  - right. intros K. injection K as ->. discriminate.
  - left. intros K. injection K as ->. apply E. reflexivity.
Qed.

(** C65 is false: the checks are parsed and then used nowhere.  Every pipeline of
    the search space, whether or not it violates a check, can be generated... *)
Lemma C65_checks_ignored_refuted_main :
  forall cfg d ch holds max_length h u ss,
    pset_from_config cfg = Ok (d, ch) -> wf_heap h -> pipeline_ok (pset_of d) ss ->
    match max_length with Some m => (Z.of_nat (length ss) <= m)%Z | None => length ss <= 3 end ->
    Exists (violates holds ch) ss ->
    possible (op_individual (pset_of d) max_length) h u
      (fun ind h' => exists ls ss', pipeline h' ind ls ss' /\ equivalent ss ss').
Proof. intros cfg d ch holds mx h u ss _ W Hok Hl _. apply C93_individual_main; auto. Qed.
(** ... and such pipelines exist, e.g. for LinearSVC's check. *)
Lemma C65_violation_refuted_main :
  exists cfg d ch ss, pset_from_config cfg = Ok (d, ch) /\ unambiguous cfg /\ complete cfg /\
    pipeline_ok (pset_of d) ss /\ length ss <= 3 /\ Exists (violates ex_holds ch) ss.
Proof.
  remember (pset_from_config ex_cfg) as r eqn:E. vm_compute in E. destruct r as [[d ch]|]; [|discriminate].
  exists ex_cfg, d, ch.
  exists [(mkPrim ["SVC.dual"; "SVC.penalty"] "prediction" 1 "SVC", [mkTerm vtrue "dual" "SVC.dual"; mkTerm vl1 "penalty" "SVC.penalty"])].
  injection E as Ed Ech. split; [subst; vm_compute; reflexivity|]. split; [apply ex_cfg_unambiguous|]. split; [apply ex_cfg_complete|]. split; [|split; [simpl; lia|]].
  - subst d. split; [|constructor]. split; [vm_compute; auto|]. eexists. split; [apply Permutation_refl|]. cbn [fst snd p_input].
    constructor; [vm_compute; auto|]. constructor; [vm_compute; auto|constructor].
  - subst ch. constructor. exists vcheck. split; reflexivity.
Qed.
(** What holds: a check can only be violated by combinations the search space
    contains, so a search space all of whose combinations are allowed is safe. *)
Lemma C65_checks_partial_main :
  forall cfg d ch holds max_length max_retry r calls ind,
    pset_from_config cfg = Ok (d, ch) -> 0 < max_retry ->
    (forall k s, step_ok (pset_of d) k s -> ~ violates holds ch s) ->
    In ind (w_pool (gp_run (pset_of d) max_length max_retry (empty_world r) calls)) ->
    exists ls ss, pipeline (s_heap (w_st (gp_run (pset_of d) max_length max_retry (empty_world r) calls))) ind ls ss /\
      Forall (fun s => ~ violates holds ch s) ss.
Proof.
  intros cfg d ch holds mx n r calls ind H Hn Hs Hin.
  destruct (C01_generated_pipelines_in_search_space_main (pset_of d) mx n r calls ind (config_typed _ _ _ H) Hn Hin) as (ls & ss & P & Hok).
  exists ls, ss. split; auto. destruct ss as [|s ss]; [constructor|]. destruct Hok as [H1 H2]. constructor; [eapply Hs; eauto|].
  eapply Forall_impl; [|exact H2]. intros x Hx. eapply Hs; eauto.
Qed.

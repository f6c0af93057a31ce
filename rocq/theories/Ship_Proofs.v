From Verif Require Import Base Gp_Model Gp_Spec Str_Spec Conf_Model Conf_Spec Ship_Spec Gp_Proofs Str_Proofs Conf_Proofs Conf_Proofs2 Conf_Main.
Require Import Ascii Permutation Sorted Lia.
Open Scope string_scope.
Open Scope list_scope.
Open Scope nat_scope.

Lemma has_char_app c a b : has_char c (a ++ b)%string = has_char c a || has_char c b.
Proof. induction a as [|x a IH]; simpl; auto. rewrite IH, Bool.orb_assoc. reflexivity. Qed.
Lemma plain_dot a b : plain_name a -> plain_name b -> plain_name (a ++ "." ++ b)%string.
Proof.
  intros (A1 & A2 & A3 & A4) (B1 & B2 & B3 & B4). repeat split; rewrite !has_char_app; simpl;
    rewrite ?A1, ?A2, ?A3, ?A4, ?B1, ?B2, ?B3, ?B4; reflexivity.
Qed.
Lemma plain_no c s : has_char c s = false -> ~ contains (String c "") s.
Proof. intros H K. apply contains_char_in in K. congruence. Qed.
Lemma plain_comma s : has_char ","%char s = false -> ~ contains ", " s.
Proof.
  intros H (a & b & ->). rewrite !has_char_app in H. simpl in H. destruct (has_char ","%char a); discriminate.
Qed.
Lemma nodup_map_inj {A B} (f : A -> B) l x y : NoDup (map f l) -> In x l -> In y l -> f x = f y -> x = y.
Proof.
  induction l as [|a l IH]; intros N Hx Hy E; [destruct Hx|]. simpl in N. inversion N as [|? ? N1 N2]; subst.
  destruct Hx as [->|Hx]; destruct Hy as [->|Hy]; auto.
  - exfalso. apply N1. rewrite E. apply in_map; auto.
  - exfalso. apply N1. rewrite <- E. apply in_map; auto.
Qed.
Lemma str_app_cancel a : forall x y, (a ++ x = a ++ y)%string -> x = y.
Proof. induction a as [|c a IH]; simpl; intros x y H; auto. injection H as H. auto. Qed.

Lemma same_class_name cfg c e c' e' : NoDup (class_names cfg) -> In (KeyClass c, e) cfg -> In (KeyClass c', e') cfg -> c_name c = c_name c' ->
  (c, e) = (c', e').
Proof.
  induction cfg as [|[k0 e0] cfg IH]; intros N H H' E; [destruct H|]. unfold class_names in N. simpl in N.
  destruct H as [H|H]; destruct H' as [H'|H'].
  - congruence.
  - injection H as -> ->. simpl in N. inversion N as [|? ? N1 N2]; subst. exfalso. apply N1. rewrite E. eapply (in_class_names cfg); eauto.
  - injection H' as -> ->. simpl in N. inversion N as [|? ? N1 N2]; subst. exfalso. apply N1. rewrite <- E. eapply (in_class_names cfg); eauto.
  - apply IH; auto. destruct k0; simpl in N; auto. inversion N; auto.
Qed.

Section WithConfig.
Context (cfg : config) (d : psdict) (ch : checks).
Context (P : pset_from_config cfg = Ok (d, ch)) (U : unambiguous cfg).

(** Where the values of hyperparameter [k] come from. *)
Lemma terms_from k t : In t (terms_of (pset_of d) k) ->
  (exists e vs x, In (KeyStr k, e) cfg /\ e_iter e = Some vs /\ In x vs /\ t = mkTerm x k k /\
     terms_of (pset_of d) k = map (fun x => mkTerm x k k) vs) \/
  (exists c e items n v x, In (KeyClass c, e) cfg /\ e_dict e = Some items /\ In (n, v) items /\ ~ shared v /\ n <> "param_check" /\
     k = (c_name c ++ "." ++ n)%string /\ In x (hv_items v) /\ t = mkTerm x n k /\
     terms_of (pset_of d) k = map (fun x => mkTerm x n k) (hv_items v)).
Proof.
  intros H. apply (in_terms _ _ _ _ _ P) in H as [(e & vs & x & A & B & C & D)|(c & e & items & n & v & x & A & B & C & D & E & F & G & I)].
  - left. exists e, vs, x. repeat (split; auto). eapply shared_values; eauto.
  - right. exists c, e, items, n, v, x. repeat (split; auto). rewrite F. eapply own_values; eauto.
Qed.

Lemma config_readable : legible cfg -> pset_readable (pset_of d).
Proof.
  intros (L1 & L2). split.
  - intros k p Hp. pose proof Hp as Hp'. apply (in_prims _ _ _ _ _ P) in Hp as (c & e & items & Hin & E & R & ->).
    assert (K : k = DATA \/ k = PREDICTION).
    { unfold role in R. destruct (c_transformer c); [injection R as <-; auto|]. destruct (c_classifier c); [injection R as <-; auto|].
      destruct (c_regressor c); [injection R as <-; auto|discriminate]. }
    destruct (L2 _ _ _ Hin E) as (N & D & _). split; [destruct K as [-> | ->]; auto|]. cbn [p_name prim_of_class].
    split; [apply plain_no; apply N|]. split; [exact D|].
    intros q Hq Eq. assert (Hq' : exists k', In q (prims_of (pset_of d) k')) by (destruct Hq as [Hq|Hq]; eauto).
    destruct Hq' as (k' & Hq'). apply (in_prims _ _ _ _ _ P) in Hq' as (c' & e' & items' & Hin' & E' & R' & ->). cbn [p_name prim_of_class] in Eq.
    pose proof (same_class_name _ _ _ _ _ (proj1 U) Hin' Hin Eq) as X. injection X as -> ->. congruence.
  - intros k t Ht. pose proof Ht as Ht'.
    apply terms_from in Ht as [(e & vs & x & Hin & E & Hx & -> & T)|(c & e & items & n & v & x & Hin & E & Hn & Hs & Hp & -> & Hx & -> & T)].
    + destruct (L1 _ _ _ Hin E) as (N & V & ND). rewrite Forall_forall in V. destruct (V _ Hx) as (V1 & V2 & V3 & V4).
      destruct N as (N1 & N2 & N3 & N4). unfold term_readable. cbn [t_ident t_value]. split; [exact Ht'|].
      split; [intros s [-> | ->]; repeat split; auto; apply plain_no; auto|]. split; [apply plain_comma; auto|]. split; [auto|].
      intros u Hu Et. rewrite T in Hu. apply in_map_iff in Hu as (y & <- & Hy). unfold term_text in Et. cbn [t_ident t_value] in Et.
      apply str_app_cancel, str_app_cancel in Et. f_equal. eapply nodup_map_inj; eauto.
    + destruct (L2 _ _ _ Hin E) as (Nc & _ & L3). destruct (L3 _ _ Hn Hp Hs) as (Nn & V & ND). rewrite Forall_forall in V. destruct (V _ Hx) as (V1 & V2 & V3 & V4).
      destruct (plain_dot _ _ Nc Nn) as (N1 & N2 & N3 & N4). unfold term_readable. cbn [t_ident t_value]. split; [exact Ht'|].
      split; [intros s [-> | ->]; repeat split; auto; apply plain_no; auto|]. split; [apply plain_comma; auto|]. split; [auto|].
      intros u Hu Et. rewrite T in Hu. apply in_map_iff in Hu as (y & <- & Hy). unfold term_text in Et. cbn [t_ident t_value] in Et.
      apply str_app_cancel, str_app_cancel in Et. f_equal. eapply nodup_map_inj; eauto.
Qed.

Lemma nodup_other {A B} (f : A -> B) (l : list A) x : NoDup (map f l) -> In x l -> 1 < length l -> exists y, In y l /\ f y <> f x.
Proof.
  intros N Hx L. destruct l as [|a [|b l]]; simpl in L; try lia. inversion N as [|? ? N1 N2]; subst.
  destruct Hx as [->|Hx].
  - exists b. split; [simpl; auto|]. intros E. apply N1. simpl. auto.
  - exists a. split; [simpl; auto|]. intros E. apply N1. rewrite E. apply (in_map f (b :: l)). exact Hx.
Qed.
Lemma algorithms_ids k : NoDup (class_ids cfg) -> NoDup (algorithms cfg k).
Proof.
  unfold class_ids, algorithms. clear P U. induction cfg as [|[key e] l IH]; simpl; intros N; [constructor|].
  destruct key as [s|c|t i]; simpl in *; auto. inversion N as [|? ? N1 N2]; subst.
  destruct (role c) as [k'|]; simpl; auto. destruct (String.eqb k' k); simpl; auto. constructor; auto.
  intros H. apply N1. apply in_flat_map in H as ([key' e'] & Hin & Hk). apply in_flat_map. exists (key', e'). split; auto. cbn [fst] in *.
  destruct key' as [|c'|]; try destruct Hk. destruct (role c') as [k''|]; [|destruct Hk]. destruct (String.eqb k'' k); [exact Hk|destruct Hk].
Qed.
Lemma config_rich : complete cfg -> no_repetition cfg -> algorithms cfg "prediction" <> [] -> algorithms cfg "data" <> [] -> pset_rich (pset_of d).
Proof.
  intros C (R1 & R2 & R3) Ap Ad. split; [eapply C63_search_space_main; eauto|].
  assert (NE : forall k, algorithms cfg k <> [] -> prims_of (pset_of d) k <> []).
  { intros k Ha E. pose proof (prim_classes _ _ _ k P) as Pm. rewrite E in Pm. simpl in Pm. apply Permutation_nil in Pm. auto. }
  split; [apply NE; auto|]. split; [apply NE; auto|]. split.
  - intros k p Hp Hl. assert (N : NoDup (map p_class (prims_of (pset_of d) k))).
    { eapply Permutation_NoDup; [apply Permutation_sym; apply (prim_classes _ _ _ k P)|]. apply algorithms_ids; auto. }
    destruct (nodup_other p_class _ _ N Hp Hl) as (q & Hq & Ne). exists q. split; auto. intros (_ & _ & K). auto.
  - intros k t Ht Hl.
    apply terms_from in Ht as [(e & vs & x & Hin & E & Hx & -> & T)|(c & e & items & n & v & x & Hin & E & Hn & Hs & Hp & -> & Hx & -> & T)]; rewrite T in *; rewrite map_length in Hl.
    + destruct (nodup_other v_eq _ _ (R2 _ _ _ Hin E) Hx Hl) as (y & Hy & Ne). eexists. split; [apply in_map; exact Hy|exact Ne].
    + destruct (nodup_other v_eq _ _ (R3 _ _ _ _ _ Hin E Hn Hp) Hx Hl) as (y & Hy & Ne).
      exists (mkTerm y n (c_name c ++ "." ++ n)). split; [apply in_map_iff; eauto|exact Ne].
Qed.
End WithConfig.

(** * Number of values of each hyperparameter, from what is written *)
Definition str_values (cfg : config) (s : string) : list value :=
  flat_map (fun ke => match fst ke with
                      | KeyStr s' => if String.eqb s' s then match e_iter (snd ke) with Some vs => vs | None => [] end else []
                      | _ => []
                      end) cfg.
Definition written_values (cfg : config) (nv : string * hval) : list value :=
  if is_empty_list (snd nv) then str_values cfg (fst nv)
  else if String.eqb (fst nv) "param_check" then [] else hv_items (snd nv).
Definition tunables (cfg : config) (items : list (string * hval)) : nat :=
  length (filter (fun nv => 1 <? length (written_values cfg nv)) items).

Lemma str_values_in cfg s e vs : NoDup (string_keys cfg) -> In (KeyStr s, e) cfg -> e_iter e = Some vs -> str_values cfg s = vs.
Proof.
  unfold string_keys, str_values. induction cfg as [|[k0 e0] l IH]; intros N H E; [destruct H|]. simpl in *.
  destruct H as [H|H].
  - injection H as -> ->. cbn [fst snd]. rewrite String.eqb_refl, E. inversion N as [|? ? N1 N2]; subst.
    assert (Z : flat_map (fun ke : ckey * entry => match fst ke with KeyStr s' => if String.eqb s' s then match e_iter (snd ke) with Some vs => vs | None => [] end else [] | _ => [] end) l = []).
    { clear - N1. induction l as [|[k e1] l IH]; simpl in *; auto. destruct k as [s'|c|t i]; simpl in *; auto.
      destruct (String.eqb_spec s' s); [exfalso; apply N1; auto|]. simpl. apply IH. auto. }
    rewrite Z, app_nil_r. reflexivity.
  - destruct k0 as [s'|c|t i]; simpl in *; auto. inversion N as [|? ? N1 N2]; subst.
    destruct (String.eqb_spec s' s); [|simpl; auto]. exfalso. apply N1. subst. apply in_flat_map. exists (KeyStr s, e). simpl. auto.
Qed.
Lemma empty_shared v : is_empty_list v = true <-> shared v.
Proof.
  unfold is_empty_list, shared. destruct v as [k i]. simpl. destruct k, i; split; intros H; try discriminate; auto.
Qed.

Section Counting.
Context (cfg : config) (d : psdict) (ch : checks).
Context (P : pset_from_config cfg = Ok (d, ch)) (U : unambiguous cfg) (C : complete cfg).

Lemma shared_terms n : In n (string_keys cfg) -> length (terms_of (pset_of d) n) = length (str_values cfg n).
Proof.
  intros H. unfold string_keys in H. apply in_flat_map in H as ([k e] & Hin & Hk). cbn [fst] in Hk. destruct k as [s|c|t i]; try destruct Hk; try contradiction.
  subst s. pose proof (pset_ok _ _ _ P) as (F & _). pose proof (valid_in _ _ F Hin) as (vs & E). cbn [snd] in E.
  rewrite (shared_values _ _ _ _ _ _ P U Hin E), map_length. rewrite (str_values_in _ _ _ _ (proj1 (proj2 U)) Hin E). reflexivity.
Qed.
Lemma input_count c e items l : In (KeyClass c, e) cfg -> e_dict e = Some items -> incl l items ->
  length (filter (fun i => 1 <? length (terms_of (pset_of d) i)) (flat_map (hp_types c) l)) = tunables cfg l.
Proof.
  intros Hin E. unfold tunables. induction l as [|[n v] l IH]; intros I; [reflexivity|].
  assert (Hn : In (n, v) items) by (apply I; simpl; auto). assert (I' : incl l items) by (intros x Hx; apply I; simpl; auto). specialize (IH I').
  cbn [flat_map filter]. unfold hp_types at 1, written_values at 1. cbn [fst snd].
  destruct (is_empty_list v) eqn:Es.
  - apply empty_shared in Es. destruct (C _ _ _ _ _ Hin E Hn) as (C1 & _). destruct (C1 Es) as (e' & x & xs & Hk & Ei).
    cbn [app filter]. rewrite shared_terms by (eapply in_string_keys; eauto).
    destruct (1 <? length (str_values cfg n)); cbn [length]; rewrite IH; reflexivity.
  - destruct (String.eqb_spec n "param_check") as [-> |Np]; [cbn [app]; exact IH|].
    assert (Ns : ~ shared v) by (intros K; apply empty_shared in K; congruence).
    cbn [app filter]. rewrite (own_values _ _ _ _ _ _ _ _ P U Hin E Hn Ns Np), map_length.
    destruct (1 <? length (hv_items v)); cbn [length]; rewrite IH; reflexivity.
Qed.
Lemma filter_length_perm {A} (f : A -> bool) l l' : Permutation l l' -> length (filter f l) = length (filter f l').
Proof.
  induction 1; simpl; auto.
  - destruct (f x); simpl; auto.
  - destruct (f x), (f y); simpl; auto.
  - congruence.
Qed.
Lemma tunable_step k s : pset_typed (pset_of d) -> step_ok (pset_of d) k s ->
  exists c e items, In (KeyClass c, e) cfg /\ e_dict e = Some items /\ role c = Some k /\ p_name (fst s) = c_name c /\
    tunable (pset_of d) [s] = tunables cfg items.
Proof.
  intros (_ & Ty) (Hp & ts & Pm & F). apply (in_prims _ _ _ _ _ P) in Hp as (c & e & items & Hin & E & R & Ep).
  exists c, e, items. split; auto. split; auto. split; auto. split; [rewrite Ep; reflexivity|].
  unfold tunable. simpl. rewrite app_nil_r. rewrite (filter_length_perm _ _ _ Pm).
  assert (X : length (filter (fun t => 1 <? length (terms_of (pset_of d) (t_ident t))) ts) = length (filter (fun i => 1 <? length (terms_of (pset_of d) i)) (p_input (fst s)))).
  { clear Pm Ep. induction F as [|i t is ts' Hi _ IH]; [reflexivity|]. cbn [filter]. rewrite (Ty _ _ Hi). destruct (1 <? length (terms_of (pset_of d) i)); simpl; congruence. }
  rewrite X, Ep. cbn [p_input prim_of_class].
  rewrite (filter_length_perm _ _ (flat_map (hp_types c) items)) by (apply flat_map_perm; apply Permutation_sym; apply py_sorted_perm).
  eapply input_count; eauto. intros x; auto.
Qed.
End Counting.

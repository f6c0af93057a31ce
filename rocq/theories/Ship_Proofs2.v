From Verif Require Import Base Gp_Model Gp_Spec Str_Spec Conf_Model Conf_Spec Ship_Model Ship_Spec Gp_Proofs Str_Proofs Conf_Proofs Conf_Proofs2 Conf_Main Ship_Proofs.
Require Import Ascii Permutation Sorted Lia.
Open Scope string_scope.
Open Scope list_scope.
Open Scope nat_scope.

Lemma usable_space cfg : usable cfg ->
  exists d ch, pset_from_config cfg = Ok (d, ch) /\
    pset_typed (pset_of d) /\ pset_inhabited (pset_of d) /\ pset_named (pset_of d) /\ pset_readable (pset_of d) /\ pset_rich (pset_of d).
Proof.
  intros (V & U & C & L & R & (N1 & N2) & Ap & Ad). apply config_total in V as ([d ch] & P). exists d, ch. split; [exact P|].
  destruct (C63_search_space_main _ _ _ P) as (T & I & Nm). split; [exact T|]. split; [auto|]. split; [auto|].
  split; [eapply config_readable; eauto|eapply config_rich; eauto].
Qed.

(** * A decision procedure *)
Definition plain_nameb (s : string) : bool :=
  negb (has_char "("%char s) && negb (has_char ")"%char s) && negb (has_char "="%char s) && negb (has_char ","%char s).
Fixpoint nodupb {A} (eqb : A -> A -> bool) (l : list A) : bool :=
  match l with [] => true | x :: l' => negb (existsb (eqb x) l') && nodupb eqb l' end.
Fixpoint hasb (sub s : string) : bool :=
  String.prefix sub s || match s with EmptyString => false | String _ s' => hasb sub s' end.
Definition is_nil {A} (l : list A) : bool := match l with [] => true | _ => false end.
Definition valuesb (vs : list value) : bool :=
  forallb (fun v => plain_nameb (format_value v)) vs && nodupb String.eqb (map format_value vs) && nodupb Z.eqb (map v_eq vs).
Definition itemb (cfg : config) (nv : string * hval) : bool :=
  plain_nameb (fst nv) &&
  (if is_empty_list (snd nv)
   then negb (has_char "."%char (fst nv)) && negb (is_nil (str_values cfg (fst nv)))
   else if String.eqb (fst nv) "param_check"
        then match hv_kind (snd nv), hv_items (snd nv) with HScalar, _ | HDict, _ | _, [] => false | _, _ => true end
        else negb (kind_eqb (hv_kind (snd nv)) HScalar) && valuesb (hv_items (snd nv)) && negb (is_nil (hv_items (snd nv)))).
Definition entryb (cfg : config) (ke : ckey * entry) : bool :=
  match fst ke with
  | KeyStr s => match e_iter (snd ke) with
                | Some vs => plain_nameb s && negb (has_char "."%char s) && valuesb vs
                | None => false
                end
  | KeyClass c => match role c, e_dict (snd ke) with
                  | Some _, Some items => plain_nameb (c_name c) && negb (has_char "."%char (c_name c)) && negb (hasb "data" (c_name c)) &&
                                          nodupb String.eqb (map fst items) && forallb (itemb cfg) items
                  | _, _ => false
                  end
  | KeyOther _ _ => false
  end.
Definition usableb (cfg : config) : bool :=
  nodupb String.eqb (class_names cfg) && nodupb String.eqb (string_keys cfg) && nodupb Nat.eqb (class_ids cfg) && forallb (entryb cfg) cfg &&
  negb (is_nil (algorithms cfg "prediction")) && negb (is_nil (algorithms cfg "data")).

Lemma nodupb_ok {A} (eqb : A -> A -> bool) : (forall x, eqb x x = true) -> forall l, nodupb eqb l = true -> NoDup l.
Proof.
  intros R. induction l as [|x l IH]; simpl; intros H; [constructor|]. apply andb_prop in H as (H1 & H2). constructor; auto.
  intros K. apply Bool.negb_true_iff in H1. assert (X : existsb (eqb x) l = true) by (apply existsb_exists; eauto). congruence.
Qed.
Lemma hasb_ok sub s : hasb sub s = false -> ~ contains sub s.
Proof.
  intros H (a & b & ->). revert H. induction a as [|c a IH]; cbn [String.append]; intros H.
  - assert (X : String.prefix sub (sub ++ b) = true).
    { clear. induction sub as [|c s IH]; simpl; [destruct b; reflexivity|]. destruct (Ascii.ascii_dec c c); [auto|congruence]. }
    destruct (sub ++ b)%string eqn:E; cbn [hasb] in H; rewrite X in H; discriminate.
  - cbn [hasb] in H. apply Bool.orb_false_iff in H as (_ & H). auto.
Qed.
Lemma plain_nameb_ok s : plain_nameb s = true -> plain_name s.
Proof.
  unfold plain_nameb, plain_name. rewrite !Bool.andb_true_iff, !Bool.negb_true_iff. tauto.
Qed.
Lemma plain_valueb_ok v : plain_nameb (format_value v) = true -> plain_value v.
Proof. intros H. apply plain_nameb_ok in H as (A & B & C & D). repeat split; try (apply plain_no; assumption). apply plain_comma; auto. Qed.
Lemma valuesb_ok vs : valuesb vs = true -> legible_values vs /\ NoDup (map v_eq vs).
Proof.
  unfold valuesb. rewrite !Bool.andb_true_iff. intros ((A & B) & C). split; [split|].
  - apply Forall_forall. intros v Hv. rewrite forallb_forall in A. apply plain_valueb_ok. auto.
  - eapply nodupb_ok; [apply String.eqb_refl|exact B].
  - eapply nodupb_ok; [apply Z.eqb_refl|exact C].
Qed.
Lemma is_nil_false {A} (l : list A) : negb (is_nil l) = true -> l <> [].
Proof. destruct l; simpl; congruence. Qed.
Lemma str_values_some cfg s : str_values cfg s <> [] -> exists e x xs, In (KeyStr s, e) cfg /\ e_iter e = Some (x :: xs).
Proof.
  unfold str_values. intros H. destruct (flat_map _ cfg) as [|y ys] eqn:E; [congruence|].
  assert (X : In y (y :: ys)) by (simpl; auto). rewrite <- E in X. apply in_flat_map in X as ([k e] & Hin & Hy). cbn [fst snd] in Hy.
  destruct k as [s'|c|t i]; try destruct Hy. destruct (String.eqb_spec s' s); [|destruct Hy]. subst. destruct (e_iter e) as [[|x xs]|] eqn:Ei; try destruct Hy; eauto 8.
Qed.
Lemma usableb_ok cfg : usableb cfg = true -> usable cfg.
Proof.
  unfold usableb. rewrite !Bool.andb_true_iff. intros (((((A & B) & C) & D) & Ap) & Ad).
  apply nodupb_ok in A; [|apply String.eqb_refl]. apply nodupb_ok in B; [|apply String.eqb_refl]. apply nodupb_ok in C; [|apply Nat.eqb_refl].
  rewrite forallb_forall in D.
  assert (S : forall s e, In (KeyStr s, e) cfg -> exists vs, e_iter e = Some vs /\ plain_name s /\ has_char "."%char s = false /\ legible_values vs /\ NoDup (map v_eq vs)).
  { intros s e H. specialize (D _ H). unfold entryb in D. cbn [fst snd] in D. destruct (e_iter e) as [vs|]; [|discriminate].
    rewrite !Bool.andb_true_iff in D. destruct D as ((D1 & D2) & D3). apply valuesb_ok in D3 as (D3 & D4). exists vs. split; auto. split; [apply plain_nameb_ok; auto|]. split; [apply Bool.negb_true_iff; auto|]. auto. }
  assert (K : forall c e, In (KeyClass c, e) cfg -> exists items, e_dict e = Some items /\ role c <> None /\ plain_name (c_name c) /\ has_char "."%char (c_name c) = false /\
     ~ contains "data" (c_name c) /\ NoDup (map fst items) /\ forall nv, In nv items -> itemb cfg nv = true).
  { intros c e H. specialize (D _ H). unfold entryb in D. cbn [fst snd] in D. destruct (role c) as [k|]; [|discriminate]. destruct (e_dict e) as [items|]; [|discriminate].
    rewrite !Bool.andb_true_iff in D. destruct D as ((((D1 & D2) & D3) & D4) & D5). exists items. split; auto. split; [discriminate|]. split; [apply plain_nameb_ok; auto|].
    split; [apply Bool.negb_true_iff; auto|]. split; [apply hasb_ok; apply Bool.negb_true_iff; auto|]. split; [eapply nodupb_ok; [apply String.eqb_refl|auto]|].
    apply forallb_forall; auto. }
  assert (I : forall n v, itemb cfg (n, v) = true -> plain_name n /\ valid_hp (n, v) /\ (shared v -> has_char "."%char n = false /\ str_values cfg n <> []) /\
     (~ shared v -> n <> "param_check" -> legible_values (hv_items v) /\ NoDup (map v_eq (hv_items v)) /\ hv_items v <> [])).
  { intros n v H. unfold itemb in H. cbn [fst snd] in H. apply andb_prop in H as (H1 & H2). split; [apply plain_nameb_ok; auto|].
    destruct (is_empty_list v) eqn:Es.
    - apply empty_shared in Es. apply andb_prop in H2 as (H2 & H3). split; [left; exact Es|]. split; [|tauto]. intros _. split; [apply Bool.negb_true_iff; auto|apply is_nil_false; auto].
    - assert (Ns : ~ shared v) by (intros X; apply empty_shared in X; congruence). split; [|split; [tauto|]].
      + destruct (String.eqb_spec n "param_check") as [-> |Np].
        * right; left. split; auto. cbn [snd]. unfold first_value. destruct (hv_kind v), (hv_items v) as [|f fs]; try discriminate; exists f; (split; [discriminate|]); (split; [discriminate|]); eauto.
        * right; right. cbn [fst snd]. split; auto. rewrite !Bool.andb_true_iff in H2. destruct H2 as ((H2 & _) & _). destruct (hv_kind v); try discriminate; simpl in H2; discriminate.
      + intros _ Np. destruct (String.eqb_spec n "param_check") as [|_]; [congruence|]. rewrite !Bool.andb_true_iff in H2. destruct H2 as ((_ & H2) & H3).
        apply valuesb_ok in H2 as (H2 & H4). split; auto. split; auto. apply is_nil_false; auto. }
  split; [|split; [|split; [|split; [|split; [|split; [|split; apply is_nil_false; assumption]]]]]].
  - apply Forall_forall. intros [k e] H. unfold valid_entry. cbn [fst snd]. destruct k as [s|c|t i].
    + destruct (S _ _ H) as (vs & E & _). eauto.
    + destruct (K _ _ H) as (items & E & R & _ & _ & _ & _ & F). split; auto. exists items. split; auto. apply Forall_forall. intros [n v] Hn. apply (I n v (F _ Hn)).
    + specialize (D _ H). discriminate.
  - split; auto. split; auto. split.
    { intros s H. unfold class_names in H. apply in_flat_map in H as ([k e] & Hin & Hk). cbn [fst] in Hk. destruct k as [|c|]; try contradiction; destruct Hk as [<-|[]]. destruct (K _ _ Hin) as (? & _ & _ & _ & X & _). exact X. }
    split.
    { intros s H. unfold string_keys in H. apply in_flat_map in H as ([k e] & Hin & Hk). cbn [fst] in Hk. destruct k as [s'|c|]; try contradiction; destruct Hk as [<-|[]].
      destruct (S _ _ Hin) as (vs & _ & _ & X & _). exact X. }
    intros c e items H E. destruct (K _ _ H) as (items' & E' & _ & _ & _ & _ & N & _). congruence.
  - intros c e items n v H E Hn. destruct (K _ _ H) as (items' & E' & _ & _ & _ & _ & _ & F). assert (items' = items) by congruence. subst items'.
    destruct (I n v (F _ Hn)) as (_ & _ & I1 & I2). split.
    + intros Sv. destruct (I1 Sv) as (_ & X). apply str_values_some in X as (e' & x & xs & X1 & X2). eauto.
    + intros Ns Np. apply I2; auto.
  - split.
    + intros s e vs H E. destruct (S _ _ H) as (vs' & E' & N & _ & L & _). assert (vs' = vs) by congruence. subst. auto.
    + intros c e items H E. destruct (K _ _ H) as (items' & E' & _ & N & _ & Dt & _ & F). assert (items' = items) by congruence. subst items'.
      split; auto. split; auto. intros n v Hn Np Ns. destruct (I n v (F _ Hn)) as (Nn & _ & _ & I2). split; auto. apply I2; auto.
  - split; auto. split.
    + intros s e vs H E. destruct (S _ _ H) as (vs' & E' & _ & _ & _ & N). congruence.
    + intros c e items n v H E Hn Np. destruct (K _ _ H) as (items' & E' & _ & _ & _ & _ & _ & F). assert (items' = items) by congruence. subst items'.
      destruct (I n v (F _ Hn)) as (_ & _ & _ & I2). destruct (is_empty_list v) eqn:Es.
      * apply empty_shared in Es. unfold shared in Es. rewrite Es. constructor.
      * apply I2; auto. intros X. apply empty_shared in X. congruence.
  - split.
    + intros s H. unfold string_keys in H. apply in_flat_map in H as ([k e] & Hin & Hk). cbn [fst] in Hk. destruct k as [s'|c|]; try contradiction; destruct Hk as [<-|[]].
      destruct (S _ _ Hin) as (vs & _ & N & _). apply N.
    + intros c e items n v H E Hn. destruct (K _ _ H) as (items' & E' & _ & _ & _ & _ & _ & F). assert (items' = items) by congruence. subst items'.
      destruct (I n v (F _ Hn)) as (N & _ & I1 & _). split; [apply N|]. intros Sv. apply I1; auto.
Qed.

Lemma shipped_usable meta s : In s [clf_config meta; reg_config meta; test_config meta] -> usable (as_config s).
Proof.
  intros [<-|[<-|[<-|[]]]]; apply usableb_ok; vm_compute; reflexivity.
Qed.

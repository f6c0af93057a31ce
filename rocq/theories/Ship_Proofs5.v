From Verif Require Import Base Gp_Model Gp_Spec Str_Spec Conf_Model Conf_Spec Ship_Model Ship_Spec Gp_Proofs Str_Proofs Conf_Proofs Conf_Proofs2 Conf_Main Ship_Proofs Ship_Proofs2 Ship_Proofs3.
Require Import Ascii Permutation Sorted Lia.
Open Scope string_scope.
Open Scope list_scope.
Open Scope nat_scope.

Lemma find_param (ts : list terminal) t : NoDup (map t_output ts) -> In t ts ->
  param (map (fun t => (t_output t, t_value t)) ts) (t_output t) = Some (t_value t).
Proof.
  intros N H. unfold param. induction ts as [|a ts IH]; [destruct H|]. simpl in *. inversion N as [|? ? N1 N2]; subst. destruct H as [-> |H].
  - rewrite String.eqb_refl. reflexivity.
  - destruct (String.eqb_spec (t_output a) (t_output t)) as [E|]; [|auto]. exfalso. apply N1. rewrite E. apply in_map. exact H.
Qed.

Section Step.
Context (cfg : config) (d : psdict) (ch : checks) (P : pset_from_config cfg = Ok (d, ch)) (U : usable cfg).
Lemma step_class k s : step_ok (pset_of d) k s ->
  exists c e items, In (KeyClass c, e) cfg /\ e_dict e = Some items /\ role c = Some k /\ fst s = prim_of_class c k items /\ NoDup (map t_output (snd s)) /\
    forall n v, In (n, v) items -> ~ shared v -> n <> "param_check" ->
      exists x, In x (hv_items v) /\ param (map (fun t => (t_output t, t_value t)) (snd s)) n = Some x /\ (forall y, sets s n y <-> v_text x = y).
Proof.
  destruct (usable_space _ U) as (d' & ch' & P' & (_ & T) & I & (nm & N1 & N2 & N3) & _). assert (d' = d) by congruence. subst d'. clear P' ch'.
  destruct U as (_ & Ua & _). intros (Hp & ts & Pm & F). pose proof Hp as Hp0. apply (in_prims _ _ _ _ _ P) in Hp as (c & e & items & Hin & E & R & Ep).
  assert (ND : NoDup (map t_output (snd s))).
  { eapply Permutation_NoDup; [apply Permutation_map; apply Permutation_sym; exact Pm|]. assert (X : map t_output ts = map nm (p_input (fst s))).
    { clear Pm Ep Hp0. induction F as [|i t l ts Hi _ IH]; [reflexivity|]. simpl. rewrite (N1 _ _ Hi), IH. reflexivity. }
    rewrite X. eapply N3. exact Hp0. }
  exists c, e, items. split; auto. split; auto. split; auto. split; auto. split; [exact ND|].
  intros n v Hn Ns Np. assert (Hi : In (c_name c ++ "." ++ n)%string (p_input (fst s))).
  { rewrite Ep. cbn [p_input prim_of_class]. apply in_types. exists n, v. split; auto. }
  destruct (Forall2_l _ _ _ _ F Hi) as (t & Ht & Hti). rewrite (own_values _ _ _ _ _ _ _ _ P Ua Hin E Hn Ns Np) in Hti. apply in_map_iff in Hti as (x & Et & Hx).
  assert (Hts : In t (snd s)) by (eapply Permutation_in; [apply Permutation_sym; exact Pm|exact Ht]).
  assert (To : t_output t = n) by (rewrite <- Et; reflexivity). assert (Tv : t_value t = x) by (rewrite <- Et; reflexivity).
  exists x. split; auto. split; [rewrite <- To, <- Tv; apply find_param; auto|]. intros y. split.
  - intros (u & Hu & Ou & Vu). assert (u = t); [|subst; congruence]. eapply nodup_map_inj; [exact ND|exact Hu|exact Hts|congruence].
  - intros Ex. exists t. split; auto. split; auto. congruence.
Qed.
End Step.

Definition no_check (ke : ckey * entry) : bool :=
  match fst ke, e_dict (snd ke) with
  | KeyClass c, Some items => negb (existsb (String.eqb "param_check") (map fst items)) &&
      negb (existsb (String.eqb (c_name c)) ["LinearSVC"; "FeatureAgglomeration"]) &&
      implb (String.eqb (c_name c) "LogisticRegression")
            (existsb (fun nv => String.eqb (fst nv) "penalty" && negb (is_empty_list (snd nv)) && forallb (fun v => String.eqb (v_text v) "l2") (hv_items (snd nv))) items)
  | _, _ => false
  end.
Definition vinclb (l l' : list value) : bool := forallb (fun v => existsb (value_same v) l') l.
Definition has_item (items : list (string * hval)) (n : string) (vs : list value) : bool :=
  existsb (fun nv => String.eqb (fst nv) n && negb (is_empty_list (snd nv)) && vinclb (hv_items (snd nv)) vs) items.
Definition has_check (items : list (string * hval)) (codes : list Z) : bool :=
  existsb (fun nv => String.eqb (fst nv) "param_check" &&
     match hv_kind (snd nv), hv_items (snd nv) with HList, f :: _ => existsb (Z.eqb (v_eq f)) codes | _, _ => false end) items.
Definition svc_entry (ke : ckey * entry) : bool :=
  match fst ke, e_dict (snd ke) with
  | KeyClass c, Some items => String.eqb (c_name c) "LinearSVC" && has_item items "penalty" [vs "l1" 77; vs "l2" 78] &&
      has_item items "loss" [vs "hinge" 79; vs "squared_hinge" 80] && has_item items "dual" [vo "False" 6; vo "True" 3] && has_check items [83; 220]%Z
  | _, _ => false
  end.
Definition fa_entry (ke : ckey * entry) : bool :=
  match fst ke, e_dict (snd ke) with
  | KeyClass c, Some items => String.eqb (c_name c) "FeatureAgglomeration" && has_item items "linkage" [vs "ward" 90; vs "complete" 91; vs "average" 92] &&
      has_item items "affinity" [vs "euclidean" 93; vs "l1" 77; vs "l2" 78; vs "manhattan" 94; vs "cosine" 95; vs "precomputed" 96] && has_check items [97; 216; 222]%Z
  | _, _ => false
  end.
Definition lr_entry (ke : ckey * entry) : bool :=
  match fst ke, e_dict (snd ke) with
  | KeyClass c, Some items => String.eqb (c_name c) "LogisticRegression" && has_item items "penalty" [vs "l1" 77; vs "l2" 78] &&
      has_item items "dual" [vo "False" 6; vo "True" 3] && has_check items [221]%Z
  | _, _ => false
  end.
Definition str_entry (ke : ckey * entry) : bool := match fst ke with KeyStr _ => true | _ => false end.
Lemma shipped_entries meta s ke : In s [clf_config meta; reg_config meta; test_config meta] -> In ke (as_config s) ->
  str_entry ke || no_check ke || svc_entry ke || fa_entry ke || lr_entry ke = true.
Proof.
  intros H. assert (F : forallb (fun ke => str_entry ke || no_check ke || svc_entry ke || fa_entry ke || lr_entry ke) (as_config s) = true)
    by (destruct H as [<-|[<-|[<-|[]]]]; vm_compute; reflexivity). rewrite forallb_forall in F. apply F.
Qed.
Lemma has_item_ok items n vs : has_item items n vs = true -> exists v, In (n, v) items /\ ~ shared v /\ incl (hv_items v) vs.
Proof.
  unfold has_item. intros H. apply existsb_exists in H as ([n' v] & Hin & E). cbn [fst snd] in E. rewrite !Bool.andb_true_iff in E. destruct E as ((E1 & E2) & E3).
  apply String.eqb_eq in E1. subst. exists v. split; auto. split; [apply empty_not; apply Bool.negb_true_iff; auto|].
  unfold vinclb in E3. rewrite forallb_forall in E3. intros x Hx. specialize (E3 _ Hx). apply existsb_exists in E3 as (y & Hy & E3). apply value_same_eq in E3. subst; auto.
Qed.
Lemma has_check_ok items codes : has_check items codes = true -> exists v f, In ("param_check", v) items /\ first_value v f /\ In (v_eq f) codes.
Proof.
  unfold has_check. intros H. apply existsb_exists in H as ([n v] & Hin & E). cbn [fst snd] in E. apply andb_prop in E as (E1 & E2). apply String.eqb_eq in E1. subst.
  destruct v as [k l]. cbn [hv_kind hv_items] in E2. destruct k; try discriminate. destruct l as [|f l]; [discriminate|]. apply existsb_exists in E2 as (z & Hz & Ez). apply Z.eqb_eq in Ez.
  exists (mkHval HList (f :: l)), f. split; auto. split; [|congruence]. split; [discriminate|]. split; [discriminate|]. simpl; eauto.
Qed.

Lemma shipped_violations meta s d ch k st : In s [clf_config meta; reg_config meta; test_config meta] -> pset_from_config (as_config s) = Ok (d, ch) ->
  step_ok (pset_of d) k st ->
  (violates shipped_check ch st <->
   (p_name (fst st) = "LinearSVC" /\ (sets st "penalty" "l1" /\ (sets st "loss" "hinge" \/ sets st "dual" "True") \/
                                      sets st "penalty" "l2" /\ sets st "loss" "hinge" /\ sets st "dual" "False")) \/
   (p_name (fst st) = "FeatureAgglomeration" /\ sets st "linkage" "ward" /\ ~ sets st "affinity" "euclidean") \/
   (p_name (fst st) = "LogisticRegression" /\ sets st "penalty" "l1" /\ sets st "dual" "True")).
Proof.
  intros Hs P So. pose proof (shipped_usable _ _ Hs) as U. destruct (step_class _ _ _ P U k st So) as (c & e & items & Hin & E & R & Ep & ND & V).
  assert (Nm : p_name (fst st) = c_name c) by (rewrite Ep; reflexivity). rewrite Nm.
  destruct U as (_ & Ua & _). destruct (C63_checks_main _ _ _ _ _ _ P Ua Hin E) as (Ck1 & Ck2).
  pose proof (shipped_entries _ _ _ Hs Hin) as Cl. unfold violates. rewrite Nm.
  rewrite !Bool.orb_true_iff in Cl. destruct Cl as [[[[Cl|Cl]|Cl]|Cl]|Cl].
  - discriminate.
  - unfold no_check in Cl. cbn [fst snd] in Cl. rewrite E in Cl. rewrite !Bool.andb_true_iff in Cl. destruct Cl as ((A1 & A2) & A3).
    assert (Np : ~ In "param_check" (map fst items)).
    { intros X. apply Bool.negb_true_iff in A1. assert (Y : existsb (String.eqb "param_check") (map fst items) = true) by (apply existsb_exists; exists "param_check"; split; [exact X|reflexivity]). congruence. }
    rewrite (Ck2 Np). split; [intros (f & X & _); discriminate|]. apply Bool.negb_true_iff in A2. simpl in A2. rewrite !Bool.orb_false_iff in A2. destruct A2 as (A4 & A5 & _).
    intros [(X & _)|[(X & _)|(X & X1 & _)]]; rewrite X in *; try discriminate. simpl in A3. apply existsb_exists in A3 as ([n v] & Hn & A6). cbn [fst snd] in A6. rewrite !Bool.andb_true_iff in A6.
    destruct A6 as ((A6 & A7) & A8). apply String.eqb_eq in A6. subst n. apply Bool.negb_true_iff, empty_not in A7. destruct (V _ _ Hn A7 ltac:(discriminate)) as (x & Hx & _ & Sx).
    apply Sx in X1. rewrite forallb_forall in A8. specialize (A8 _ Hx). rewrite X1 in A8. discriminate.
  - unfold svc_entry in Cl. cbn [fst snd] in Cl. rewrite E in Cl. rewrite !Bool.andb_true_iff in Cl. destruct Cl as ((((A1 & A2) & A3) & A4) & A5).
    apply String.eqb_eq in A1. rewrite A1 in *. apply has_item_ok in A2 as (v2 & B2 & N2 & I2). apply has_item_ok in A3 as (v3 & B3 & N3 & I3). apply has_item_ok in A4 as (v4 & B4 & N4 & I4).
    apply has_check_ok in A5 as (v5 & f & B5 & F5 & C5). rewrite (Ck1 _ _ B5 F5).
    destruct (V _ _ B2 N2 ltac:(discriminate)) as (x2 & H2 & P2 & S2). destruct (V _ _ B3 N3 ltac:(discriminate)) as (x3 & H3 & P3 & S3). destruct (V _ _ B4 N4 ltac:(discriminate)) as (x4 & H4 & P4 & S4).
    apply I2 in H2. apply I3 in H3. apply I4 in H4. rewrite !S2, !S3, !S4.
    assert (Hc : forall ps, shipped_check f ps = svc_check ps) by (intros ps; unfold shipped_check; destruct C5 as [<-|[<-|[]]]; reflexivity).
    assert (G : (exists f0, Some f = Some f0 /\ shipped_check f0 (map (fun t => (t_output t, t_value t)) (snd st)) = false) <-> svc_check (map (fun t => (t_output t, t_value t)) (snd st)) = false).
    { split; [intros (f0 & X & Y); injection X as <-; rewrite <- Hc; exact Y|intros X; exists f; split; auto; rewrite Hc; exact X]. }
    rewrite G. unfold svc_check, param_is, param_true. rewrite P2, P3, P4.
    destruct H2 as [<-|[<-|[]]]; destruct H3 as [<-|[<-|[]]]; destruct H4 as [<-|[<-|[]]]; cbn; intuition discriminate.
  - unfold fa_entry in Cl. cbn [fst snd] in Cl. rewrite E in Cl. rewrite !Bool.andb_true_iff in Cl. destruct Cl as (((A1 & A2) & A3) & A5).
    apply String.eqb_eq in A1. rewrite A1 in *. apply has_item_ok in A2 as (v2 & B2 & N2 & I2). apply has_item_ok in A3 as (v3 & B3 & N3 & I3).
    apply has_check_ok in A5 as (v5 & f & B5 & F5 & C5). rewrite (Ck1 _ _ B5 F5).
    destruct (V _ _ B2 N2 ltac:(discriminate)) as (x2 & H2 & P2 & S2). destruct (V _ _ B3 N3 ltac:(discriminate)) as (x3 & H3 & P3 & S3).
    apply I2 in H2. apply I3 in H3. rewrite !S2, !S3.
    assert (Hc : forall ps, shipped_check f ps = agglomeration_check ps) by (intros ps; unfold shipped_check; destruct C5 as [<-|[<-|[<-|[]]]]; reflexivity).
    assert (G : (exists f0, Some f = Some f0 /\ shipped_check f0 (map (fun t => (t_output t, t_value t)) (snd st)) = false) <-> agglomeration_check (map (fun t => (t_output t, t_value t)) (snd st)) = false).
    { split; [intros (f0 & X & Y); injection X as <-; rewrite <- Hc; exact Y|intros X; exists f; split; auto; rewrite Hc; exact X]. }
    rewrite G. unfold agglomeration_check, param_is. rewrite P2, P3.
    destruct H2 as [<-|[<-|[<-|[]]]]; destruct H3 as [<-|[<-|[<-|[<-|[<-|[<-|[]]]]]]]; cbn; intuition discriminate.
  - unfold lr_entry in Cl. cbn [fst snd] in Cl. rewrite E in Cl. rewrite !Bool.andb_true_iff in Cl. destruct Cl as (((A1 & A2) & A3) & A5).
    apply String.eqb_eq in A1. rewrite A1 in *. apply has_item_ok in A2 as (v2 & B2 & N2 & I2). apply has_item_ok in A3 as (v3 & B3 & N3 & I3).
    apply has_check_ok in A5 as (v5 & f & B5 & F5 & C5). rewrite (Ck1 _ _ B5 F5).
    destruct (V _ _ B2 N2 ltac:(discriminate)) as (x2 & H2 & P2 & S2). destruct (V _ _ B3 N3 ltac:(discriminate)) as (x3 & H3 & P3 & S3).
    apply I2 in H2. apply I3 in H3. rewrite !S2, !S3.
    assert (Hc : forall ps, shipped_check f ps = logistic_check ps) by (intros ps; unfold shipped_check; destruct C5 as [<-|[]]; reflexivity).
    assert (G : (exists f0, Some f = Some f0 /\ shipped_check f0 (map (fun t => (t_output t, t_value t)) (snd st)) = false) <-> logistic_check (map (fun t => (t_output t, t_value t)) (snd st)) = false).
    { split; [intros (f0 & X & Y); injection X as <-; rewrite <- Hc; exact Y|intros X; exists f; split; auto; rewrite Hc; exact X]. }
    rewrite G. unfold logistic_check, param_is, param_true. rewrite P2, P3.
    destruct H2 as [<-|[<-|[]]]; destruct H3 as [<-|[<-|[]]]; cbn; intuition discriminate.
Qed.

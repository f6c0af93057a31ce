From Verif Require Import Base Gp_Model Gp_Spec Str_Spec Conf_Model Conf_Spec Ship_Model Ship_Spec Gp_Proofs Str_Proofs Conf_Proofs Conf_Proofs2 Conf_Main Ship_Proofs Ship_Proofs2.
Require Import Ascii Permutation Sorted Lia.
Open Scope string_scope.
Open Scope list_scope.
Open Scope nat_scope.

(** * Configurations that differ only in the order of values *)
Definition hv_sim (v v' : hval) : Prop :=
  hv_kind v = hv_kind v' /\ (forall x, In x (hv_items v) <-> In x (hv_items v')) /\
  (NoDup (map v_eq (hv_items v')) -> NoDup (map v_eq (hv_items v))).
Definition item_sim (a b : string * hval) : Prop := fst a = fst b /\ hv_sim (snd a) (snd b).
Definition entry_sim (a b : ckey * entry) : Prop :=
  fst a = fst b /\ e_iter (snd a) = e_iter (snd b) /\
  match e_dict (snd a), e_dict (snd b) with
  | None, None => True
  | Some i, Some j => Forall2 item_sim i j
  | _, _ => False
  end.
Lemma Forall2_l {A B} (R : A -> B -> Prop) l l' x : Forall2 R l l' -> In x l -> exists y, In y l' /\ R x y.
Proof. induction 1 as [|a b l l' H _ IH]; intros []; [subst; exists b; simpl; auto|]. destruct (IH H0) as (y & Hy & Ry). exists y; simpl; auto. Qed.
Lemma Forall2_r {A B} (R : A -> B -> Prop) l l' y : Forall2 R l l' -> In y l' -> exists x, In x l /\ R x y.
Proof. induction 1 as [|a b l l' H _ IH]; intros []; [subst; exists a; simpl; auto|]. destruct (IH H0) as (x & Hx & Rx). exists x; simpl; auto. Qed.
Lemma hv_sim_refl v : hv_sim v v.
Proof. repeat split; auto. Qed.
Lemma sim_shared v v' : hv_sim v v' -> (shared v <-> shared v').
Proof.
  destruct v as [k l], v' as [k' l']. intros (K & I & _). cbn [hv_kind hv_items] in *. subst. unfold shared. split; intros E; injection E as -> ->; f_equal.
  - destruct l' as [|x l']; auto. exfalso. apply (proj2 (I x)). simpl; auto.
  - destruct l as [|x l]; auto. exfalso. apply (proj1 (I x)). simpl; auto.
Qed.
Lemma sim_empty v v' : hv_sim v v' -> is_empty_list v = is_empty_list v'.
Proof.
  intros H. pose proof (sim_shared _ _ H) as S. rewrite <- !empty_shared in S. destruct (is_empty_list v), (is_empty_list v'); auto; exfalso; destruct S; intuition discriminate.
Qed.
Lemma sim_types c l l' : Forall2 item_sim l l' -> flat_map (hp_types c) l = flat_map (hp_types c) l'.
Proof.
  induction 1 as [|[n v] [n' v'] l l' (E & S) _ IH]; [reflexivity|]. cbn [fst snd] in *. subst n'. cbn [flat_map]. rewrite IH. f_equal.
  unfold hp_types. cbn [fst snd]. rewrite (sim_empty _ _ S). reflexivity.
Qed.
Lemma sim_insert x x' l l' : item_sim x x' -> Forall2 item_sim l l' -> Forall2 item_sim (insert_sorted name_leb x l) (insert_sorted name_leb x' l').
Proof.
  intros X. induction 1 as [|y y' l l' Y F IH]; simpl; [constructor; [exact X|constructor]|]. assert (E : name_leb x y = name_leb x' y') by (unfold name_leb; destruct X as (-> & _); destruct Y as (-> & _); reflexivity).
  rewrite E. destruct (name_leb x' y').
  - constructor; [exact X|]. constructor; [exact Y|exact F].
  - constructor; [exact Y|exact IH].
Qed.
Lemma sim_sorted l l' : Forall2 item_sim l l' -> Forall2 item_sim (py_sorted name_leb l) (py_sorted name_leb l').
Proof. induction 1; simpl; [constructor|]. apply sim_insert; auto. Qed.
Lemma sim_prim c k l l' : Forall2 item_sim l l' -> prim_of_class c k l = prim_of_class c k l'.
Proof. intros F. unfold prim_of_class. f_equal. apply sim_types. apply sim_sorted. exact F. Qed.
Lemma sim_map_keys {A} (f : ckey -> list A) l l' : Forall2 entry_sim l l' -> flat_map (fun ke => f (fst ke)) l = flat_map (fun ke => f (fst ke)) l'.
Proof. induction 1 as [|a b l l' (E & _) _ IH]; simpl; auto. rewrite E, IH. reflexivity. Qed.
Lemma sim_names l l' : Forall2 item_sim l l' -> map fst l = map fst l'.
Proof. induction 1 as [|a b l l' (E & _) _ IH]; simpl; congruence. Qed.

Section Transfer.
Context (M B : config) (S : Forall2 entry_sim M B).
Lemma sim_str s e : In (KeyStr s, e) M -> exists e', In (KeyStr s, e') B /\ e_iter e = e_iter e'.
Proof. intros H. destruct (Forall2_l _ _ _ _ S H) as ([k e'] & Hin & (E & I & _)). cbn [fst snd] in *. subst k. eauto. Qed.
Lemma sim_cls c e items : In (KeyClass c, e) M -> e_dict e = Some items ->
  exists e' items', In (KeyClass c, e') B /\ e_dict e' = Some items' /\ Forall2 item_sim items items'.
Proof.
  intros H E. destruct (Forall2_l _ _ _ _ S H) as ([k e'] & Hin & (Ek & I & D)). cbn [fst snd] in *. subst k. rewrite E in D.
  destruct (e_dict e') as [items'|] eqn:E'; [|destruct D]. eauto 8.
Qed.
Lemma sim_item items items' n v : Forall2 item_sim items items' -> In (n, v) items -> exists v', In (n, v') items' /\ hv_sim v v'.
Proof. intros F H. destruct (Forall2_l _ _ _ _ F H) as ([n' v'] & Hin & (E & I)). cbn [fst snd] in *. subst n'. eauto. Qed.

Lemma usable_transfer : usable B -> usable M.
Proof.
  assert (Kn : class_names M = class_names B) by (apply (sim_map_keys (fun k => match k with KeyClass c => [c_name c] | _ => [] end)); exact S).
  assert (Ks : string_keys M = string_keys B) by (apply (sim_map_keys (fun k => match k with KeyStr s => [s] | _ => [] end)); exact S).
  assert (Ki : class_ids M = class_ids B) by (apply (sim_map_keys (fun k => match k with KeyClass c => [c_id c] | _ => [] end)); exact S).
  assert (Ka : forall k, algorithms M k = algorithms B k).
  { intros k. apply (sim_map_keys (fun key => match key with KeyClass c => match role c with Some k' => if String.eqb k' k then [c_id c] else [] | None => [] end | _ => [] end)); exact S. }
  intros (V & (U1 & U2 & U3 & U4 & U5) & C & (L1 & L2) & (R1 & R2 & R3) & (N1 & N2) & Ap & Ad).
  split; [|split; [|split; [|split; [|split; [|split; [|split; rewrite Ka; assumption]]]]]].
  - apply Forall_forall. intros [k e] H. destruct (Forall2_l _ _ _ _ S H) as ([k' e'] & Hin & (Ek & I & D)). cbn [fst snd] in *. subst k'.
    rewrite Forall_forall in V. specialize (V _ Hin). unfold valid_entry in *. cbn [fst snd] in *. destruct k as [s|c|t i]; auto; [rewrite I; exact V|].
    destruct V as (R & items' & E' & F). rewrite E' in D. destruct (e_dict e) as [items|]; [|destruct D]. split; auto. exists items. split; auto.
    apply Forall_forall. intros [n v] Hn. destruct (sim_item _ _ _ _ D Hn) as (v' & Hn' & Sv). rewrite Forall_forall in F. specialize (F _ Hn').
    destruct F as [F|[(F1 & f & K1 & K2 & o & F2)|(F1 & F2)]]; cbn [fst snd] in *.
    + left. cbn [snd]. apply (sim_shared _ _ Sv). exact F.
    + right; left. split; auto. cbn [snd]. destruct Sv as (K & I2 & _). rewrite <- K in *. destruct (hv_items v) as [|g gs] eqn:Eg.
      * exfalso. apply (proj2 (I2 f)). rewrite F2. simpl; auto.
      * exists g. unfold first_value. rewrite Eg. eauto.
    + right; right. split; auto. cbn [snd]. destruct Sv as (K & _). congruence.
  - unfold unambiguous. rewrite Kn, Ks. split; auto. split; auto. split; auto. split; auto.
    intros c e items H E. destruct (sim_cls _ _ _ H E) as (e' & items' & H' & E' & F). rewrite (sim_names _ _ F). eauto.
  - intros c e items n v H E Hn. destruct (sim_cls _ _ _ H E) as (e' & items' & H' & E' & F). destruct (sim_item _ _ _ _ F Hn) as (v' & Hn' & Sv).
    destruct (C _ _ _ _ _ H' E' Hn') as (C1 & C2). split.
    + intros Sh. apply (sim_shared _ _ Sv) in Sh. destruct (C1 Sh) as (e2 & x & xs & A1 & A2). destruct (Forall2_r _ _ _ _ S A1) as ([k e3] & A3 & (A4 & A5 & _)). cbn [fst snd] in *. subst k.
      exists e3, x, xs. split; auto. congruence.
    + intros Ns Np. assert (Ns' : ~ shared v') by (intros X; apply Ns; apply (sim_shared _ _ Sv); exact X). specialize (C2 Ns' Np). intros X. apply C2.
      destruct (hv_items v') as [|x xs] eqn:Ex; auto. exfalso. destruct Sv as (_ & I & _). rewrite X, Ex in I. apply (proj2 (I x)). simpl; auto.
  - split.
    + intros s e vs H E. destruct (sim_str _ _ H) as (e' & H' & I). apply (L1 s e'); congruence.
    + intros c e items H E. destruct (sim_cls _ _ _ H E) as (e' & items' & H' & E' & F). destruct (L2 _ _ _ H' E') as (A1 & A2 & A3). split; auto. split; auto.
      intros n v Hn Np Ns. destruct (sim_item _ _ _ _ F Hn) as (v' & Hn' & Sv). assert (Ns' : ~ shared v') by (intros X; apply Ns; apply (sim_shared _ _ Sv); exact X).
      destruct (A3 _ _ Hn' Np Ns') as (A4 & A5 & A6). split; auto. pose proof (R3 _ _ _ _ _ H' E' Hn' Np) as ND. destruct Sv as (_ & I & SN). split.
      * apply Forall_forall. intros x Hx. rewrite Forall_forall in A5. apply A5. apply I. exact Hx.
      * specialize (SN ND). assert (SI : forall x y, In x (hv_items v) -> In y (hv_items v) -> format_value x = format_value y -> x = y).
        { intros x y Hx Hy Exy. eapply nodup_map_inj; [exact A6| | |exact Exy]; apply I; auto. }
        clear - SN SI. induction (hv_items v) as [|a l IH]; [constructor|]. simpl in *. inversion SN as [|? ? Q1 Q2]; subst. constructor.
        -- intros K. apply in_map_iff in K as (y & Ey & Hy). apply Q1. rewrite <- (SI y a); [apply in_map; auto|auto|auto|auto].
        -- apply IH; auto.
  - split; [rewrite Ki; exact R1|]. split.
    + intros s e vs H E. destruct (sim_str _ _ H) as (e' & H' & I). apply (R2 s e'); congruence.
    + intros c e items n v H E Hn Np. destruct (sim_cls _ _ _ H E) as (e' & items' & H' & E' & F). destruct (sim_item _ _ _ _ F Hn) as (v' & Hn' & Sv).
      apply Sv. eapply R3; eauto.
  - split; [rewrite Ks; exact N1|]. intros c e items n v H E Hn. destruct (sim_cls _ _ _ H E) as (e' & items' & H' & E' & F). destruct (sim_item _ _ _ _ F Hn) as (v' & Hn' & Sv).
    destruct (N2 _ _ _ _ _ H' E' Hn') as (Q1 & Q2). split; auto. intros Sh. apply Q2. apply (sim_shared _ _ Sv). exact Sh.
Qed.
End Transfer.

(** * [list(set(l))] when equal values are identical *)
Definition value_same (a b : value) : bool :=
  match v_kind a, v_kind b with KStr, KStr | KCallable, KCallable | KOther, KOther => true | _, _ => false end && String.eqb (v_text a) (v_text b) && Z.eqb (v_eq a) (v_eq b).
Lemma value_same_eq a b : value_same a b = true -> a = b.
Proof.
  destruct a as [k t e], b as [k' t' e']. unfold value_same. cbn [v_kind v_text v_eq]. rewrite !Bool.andb_true_iff. intros ((A & B) & C).
  apply String.eqb_eq in B. apply Z.eqb_eq in C. subst. destruct k, k'; try discriminate; reflexivity.
Qed.
Definition consistent (l : list value) : bool := forallb (fun a => forallb (fun b => implb (Z.eqb (v_eq a) (v_eq b)) (value_same a b)) l) l.
Fixpoint dedup (l : list value) : list value :=
  match l with
  | [] => []
  | v :: l' => if existsb (value_eqb v) l' then dedup l' else v :: dedup l'
  end.
Lemma dedup_in l : consistent l = true -> forall x, In x (dedup l) <-> In x l.
Proof.
  intros Cn. assert (Q : forall a b, In a l -> In b l -> v_eq a = v_eq b -> a = b).
  { intros a b Ha Hb E. unfold consistent in Cn. rewrite forallb_forall in Cn. specialize (Cn _ Ha). rewrite forallb_forall in Cn. specialize (Cn _ Hb).
    rewrite E, Z.eqb_refl in Cn. apply value_same_eq. exact Cn. }
  clear Cn. induction l as [|v l IH]; intros x; [reflexivity|]. assert (IH' := IH (fun a b Ha Hb => Q a b (or_intror Ha) (or_intror Hb))). cbn [dedup].
  destruct (existsb (value_eqb v) l) eqn:E.
  - apply existsb_exists in E as (w & Hw & Ew). unfold value_eqb in Ew. apply Z.eqb_eq in Ew. assert (v = w) by (apply Q; simpl; auto). subst w. rewrite IH'. simpl. intuition (subst; auto).
  - simpl. rewrite IH'. reflexivity.
Qed.
Lemma set_sim f l : lists_set f -> consistent l = true -> hv_sim (mkHval HList (f l)) (mkHval HList (dedup l)).
Proof.
  intros LS Cn. destruct (LS l) as (A1 & A2 & A3). split; [reflexivity|]. cbn [hv_items]. split; [|intros _; exact A1].
  intros x. rewrite (dedup_in _ Cn). split; [apply A2|]. intros H. destruct (A3 _ H) as (w & Hw & Ew).
  assert (w = x); [|subst; exact Hw]. unfold consistent in Cn. rewrite forallb_forall in Cn. specialize (Cn _ (A2 _ Hw)). rewrite forallb_forall in Cn. specialize (Cn _ H).
  rewrite Ew, Z.eqb_refl in Cn. apply value_same_eq. exact Cn.
Qed.

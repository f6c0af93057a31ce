From Verif Require Import Base Gp_Model Gp_Spec Gp_Proofs Conf_Model Conf_Spec.
Require Import Ascii Permutation Sorted.
Open Scope string_scope.
Open Scope list_scope.
Open Scope nat_scope.

Lemma assoc_append d k x k' : assoc k' (ps_append d k x) = assoc k' d ++ (if String.eqb k' k then [x] else []).
Proof.
  induction d as [|[k0 l] d IH]; simpl.
  - destruct (String.eqb k' k); reflexivity.
  - destruct (String.eqb_spec k k0) as [-> |N]; simpl.
    + destruct (String.eqb_spec k' k0); [reflexivity|rewrite app_nil_r; reflexivity].
    + destruct (String.eqb_spec k' k0) as [-> |N2]; [|exact IH]. destruct (String.eqb_spec k0 k); [congruence|]. rewrite app_nil_r. reflexivity.
Qed.
Lemma assoc_append_all k : forall xs d k', assoc k' (ps_append_all d k xs) = assoc k' d ++ (if String.eqb k' k then xs else []).
Proof.
  induction xs as [|x xs IH]; intros d k'; simpl.
  - destruct (String.eqb k' k); rewrite app_nil_r; reflexivity.
  - rewrite IH, assoc_append, <- app_assoc. destruct (String.eqb k' k); reflexivity.
Qed.
Lemma prims_of_set d k : prims_of (pset_of d) k = prims_in (assoc k d).
Proof. unfold prims_of, pset_of. cbn [ps_prims]. induction d as [|[k0 l] d IH]; simpl; auto. destruct (String.eqb k k0); auto. Qed.
Lemma terms_of_set d k : terms_of (pset_of d) k = terms_in (assoc k d).
Proof. unfold terms_of, pset_of. cbn [ps_terms]. induction d as [|[k0 l] d IH]; simpl; auto. destruct (String.eqb k k0); auto. Qed.

Lemma empty_shared v : is_empty_list v = true <-> shared v.
Proof.
  unfold is_empty_list, shared. destruct v as [k l]; simpl. split.
  - destruct k, l; try discriminate; auto.
  - intros E. injection E as -> ->. reflexivity.
Qed.
Lemma empty_not v : is_empty_list v = false <-> ~ shared v.
Proof. rewrite <- empty_shared. destruct (is_empty_list v); split; congruence. Qed.

(** contributions to the dictionary *)
Definition own_terms (c : cls) (nv : string * hval) : list item :=
  map (fun x => ITerm (mkTerm x (fst nv) (c_name c ++ "." ++ fst nv))) (hv_items (snd nv)).
Definition hp_contrib (k : string) (c : cls) (nv : string * hval) : list item :=
  if is_empty_list (snd nv) then [] else if String.eqb (fst nv) "param_check" then []
  else if String.eqb k (c_name c ++ "." ++ fst nv) then own_terms c nv else [].
Definition hp_types (c : cls) (nv : string * hval) : list string :=
  if is_empty_list (snd nv) then [fst nv] else if String.eqb (fst nv) "param_check" then []
  else [(c_name c ++ "." ++ fst nv)%string].
Definition hp_check (nv : string * hval) : option value :=
  if is_empty_list (snd nv) then None else if String.eqb (fst nv) "param_check"
  then match first_of (snd nv) with Ok f => Some f | Err _ => None end else None.
Definition prim_of_class (c : cls) (out : string) (items : list (string * hval)) : primitive :=
  mkPrim (flat_map (hp_types c) (py_sorted name_leb items)) out (c_id c) (c_name c).
Definition contrib (k : string) (ke : ckey * entry) : list item :=
  match fst ke with
  | KeyStr s => if String.eqb k s then map (fun x => ITerm (mkTerm x s s)) (match e_iter (snd ke) with Some vs => vs | None => [] end) else []
  | KeyClass c => match e_dict (snd ke), role c with
                  | Some items, Some out => flat_map (hp_contrib k c) (py_sorted name_leb items) ++ (if String.eqb k out then [IPrim (prim_of_class c out items)] else [])
                  | _, _ => []
                  end
  | KeyOther _ _ => []
  end.
(** checks *)
Definition upd_check (ch : checks) (c : cls) (nv : string * hval) : checks :=
  match hp_check nv with Some f => set_check ch (c_name c) f | None => ch end.
Definition ke_check (ch : checks) (ke : ckey * entry) : checks :=
  match fst ke with
  | KeyClass c => match e_dict (snd ke) with Some items => fold_left (fun ch nv => upd_check ch c nv) (py_sorted name_leb items) ch | None => ch end
  | _ => ch
  end.

Lemma first_value_of v x : first_of v = Ok x <-> first_value v x.
Proof.
  unfold first_of, first_value. destruct v as [k items]; cbn [hv_kind hv_items]. split.
  - destruct k; try discriminate; destruct items as [|y l]; try discriminate; intros E; injection E as ->; (split; [discriminate|split; [discriminate|eauto]]).
  - intros (A & B & l & ->). destruct k; congruence.
Qed.

Lemma register_hp_valid c types d ch nv : valid_hp nv ->
  exists d', register_hp c (types, d, ch) nv = Ok (types ++ hp_types c nv, d', upd_check ch c nv) /\
    forall k, assoc k d' = assoc k d ++ hp_contrib k c nv.
Proof.
  destruct nv as [n v]. intros V. unfold register_hp, hp_types, hp_contrib, upd_check, hp_check, valid_hp in *. cbn [fst snd] in *.
  destruct (is_empty_list v) eqn:E.
  - exists d. split; auto. intros k. rewrite app_nil_r. reflexivity.
  - apply empty_not in E. destruct (String.eqb_spec n "param_check") as [-> |N].
    + destruct V as [V|[(_ & f & F)|[V _]]]; try tauto; try congruence. apply first_value_of in F. rewrite F. simpl. exists d. rewrite app_nil_r. split; auto. intros k. rewrite app_nil_r. reflexivity.
    + destruct V as [V|[(V & _)|[_ V]]]; try tauto.
      exists (ps_append_all d (c_name c ++ "." ++ n) (own_terms c (n, v))). split; [destruct (hv_kind v); try congruence; reflexivity|].
      intros k. rewrite assoc_append_all. reflexivity.
Qed.
Lemma register_hp_ok_valid c st nv r : register_hp c st nv = Ok r -> valid_hp nv.
Proof.
  destruct st as [[types d] ch], nv as [n v]. unfold register_hp, valid_hp. cbn [fst snd].
  destruct (is_empty_list v) eqn:E; [apply empty_shared in E; auto|].
  destruct (String.eqb_spec n "param_check") as [-> |N].
  - destruct (first_of v) eqn:F; [|discriminate]. apply first_value_of in F. eauto 6.
  - intros H. right. right. split; auto. intros K. rewrite K in H. discriminate.
Qed.
Lemma register_hps_valid c : forall nvs types d ch, Forall valid_hp nvs ->
  exists d', register_hps c (types, d, ch) nvs = Ok (types ++ flat_map (hp_types c) nvs, d', fold_left (fun ch nv => upd_check ch c nv) nvs ch) /\
    forall k, assoc k d' = assoc k d ++ flat_map (hp_contrib k c) nvs.
Proof.
  induction nvs as [|nv nvs IH]; intros types d ch F; cbn [register_hps flat_map fold_left].
  - exists d. rewrite app_nil_r. split; auto. intros k. rewrite app_nil_r. auto.
  - inversion F; subst. destruct (register_hp_valid c types d ch nv) as (d1 & E1 & A1); auto. rewrite E1. unfold rbind.
    destruct (IH (types ++ hp_types c nv) d1 (upd_check ch c nv)) as (d2 & E2 & A2); auto. exists d2. rewrite E2, <- app_assoc. split; auto.
    intros k. rewrite A2, A1, <- app_assoc. reflexivity.
Qed.
Lemma register_hps_ok_valid c : forall nvs st r, register_hps c st nvs = Ok r -> Forall valid_hp nvs.
Proof.
  induction nvs as [|nv nvs IH]; intros st r H; simpl in H; constructor.
  - destruct (register_hp c st nv) eqn:E; [|discriminate]. eapply register_hp_ok_valid; eauto.
  - destruct (register_hp c st nv) eqn:E; [|discriminate]. eapply IH; eauto.
Qed.
Lemma Forall_sorted {A} (P : A -> Prop) leb l : Forall P l <-> Forall P (py_sorted leb l).
Proof.
  pose proof (py_sorted_perm leb l) as HP. rewrite !Forall_forall. split; intros H x Hx; apply H.
  - eapply Permutation_in; [apply Permutation_sym; exact HP|auto].
  - eapply Permutation_in; [exact HP|auto].
Qed.
Lemma register_valid d ch ke : valid_entry ke ->
  exists d', register (d, ch) ke = Ok (d', ke_check ch ke) /\ forall k, assoc k d' = assoc k d ++ contrib k ke.
Proof.
  destruct ke as [key e]. unfold valid_entry, contrib, register, ke_check. cbn [fst snd]. destruct key as [s|c|t i]; [| |intros []].
  - intros (vs & ->). eexists. split; [reflexivity|]. intros k. apply assoc_append_all.
  - intros (R & items & -> & F). apply (Forall_sorted _ name_leb) in F.
    destruct (register_hps_valid c _ [] d ch F) as (d1 & E1 & A1). rewrite E1. unfold rbind. cbn [app].
    unfold role in *. unfold prim_of_class, DATA, PREDICTION.
    destruct (c_transformer c); [|destruct (c_classifier c); [|destruct (c_regressor c); [|congruence]]];
      (eexists; split; [reflexivity|]; intros k; rewrite assoc_append, A1, <- app_assoc; reflexivity).
Qed.
Lemma register_ok_valid st ke r : register st ke = Ok r -> valid_entry ke.
Proof.
  destruct st as [d ch], ke as [key e]. unfold register, valid_entry. cbn [fst snd]. destruct key as [s|c|t i]; [| |discriminate].
  - destruct (e_iter e); [eauto|discriminate].
  - destruct (e_dict e) as [items|]; [|discriminate]. destruct (register_hps c ([], d, ch) (py_sorted name_leb items)) as [[[ty d'] ch']|] eqn:E; [|discriminate].
    apply register_hps_ok_valid in E. apply Forall_sorted in E. simpl. intros H. split; [|eauto].
    unfold role. destruct (c_transformer c), (c_classifier c), (c_regressor c); discriminate.
Qed.
Lemma register_all_valid : forall kes d ch, Forall valid_entry kes ->
  exists d', register_all (d, ch) kes = Ok (d', fold_left ke_check kes ch) /\ forall k, assoc k d' = assoc k d ++ flat_map (contrib k) kes.
Proof.
  induction kes as [|ke kes IH]; intros d ch F; cbn [register_all flat_map fold_left].
  - exists d. split; auto. intros k. rewrite app_nil_r. auto.
  - inversion F; subst. destruct (register_valid d ch ke) as (d1 & E1 & A1); auto. rewrite E1. unfold rbind.
    destruct (IH d1 (ke_check ch ke)) as (d2 & E2 & A2); auto. exists d2. split; auto. intros k. rewrite A2, A1, <- app_assoc. reflexivity.
Qed.
Lemma register_all_ok_valid : forall kes st r, register_all st kes = Ok r -> Forall valid_entry kes.
Proof.
  induction kes as [|ke kes IH]; intros st r H; simpl in H; constructor.
  - destruct (register st ke) eqn:E; [|discriminate]. eapply register_ok_valid; eauto.
  - destruct (register st ke) eqn:E; [|discriminate]. eapply IH; eauto.
Qed.
Lemma sorted_perm cfg : Permutation cfg (sorted_entries cfg).
Proof. unfold sorted_entries. eapply perm_trans; [apply (py_sorted_perm key_leb)|apply Permutation_rev]. Qed.
Lemma Forall_perm {A} (P : A -> Prop) l l' : Permutation l l' -> Forall P l -> Forall P l'.
Proof. intros H F. rewrite Forall_forall in *. intros x Hx. apply F. eapply Permutation_in; [apply Permutation_sym; exact H|auto]. Qed.
Lemma pset_ok cfg d ch : pset_from_config cfg = Ok (d, ch) ->
  Forall valid_entry cfg /\ ch = fold_left ke_check (sorted_entries cfg) [] /\ forall k, assoc k d = flat_map (contrib k) (sorted_entries cfg).
Proof.
  unfold pset_from_config. intros H. pose proof (register_all_ok_valid _ _ _ H) as F.
  split; [eapply Forall_perm; [apply Permutation_sym; apply sorted_perm|exact F]|].
  destruct (register_all_valid _ [] [] F) as (d' & E & A). pose proof (eq_trans (eq_sym H) E) as E2. injection E2 as <- ->. split; [reflexivity|]. intros k. rewrite A. reflexivity.
Qed.
Lemma flat_map_perm {A B} (f : A -> list B) l l' : Permutation l l' -> Permutation (flat_map f l) (flat_map f l').
Proof.
  induction 1; simpl; auto.
  - apply Permutation_app_head. auto.
  - rewrite !app_assoc. apply Permutation_app_tail. apply Permutation_app_comm.
  - eapply perm_trans; eauto.
Qed.

(** primitives *)
Lemma prims_in_app a b : prims_in (a ++ b) = prims_in a ++ prims_in b.
Proof. apply flat_map_app. Qed.
Lemma terms_in_app a b : terms_in (a ++ b) = terms_in a ++ terms_in b.
Proof. apply flat_map_app. Qed.
Lemma prims_terms l : prims_in (map ITerm l) = [].
Proof. induction l; auto. Qed.
Lemma terms_terms l : terms_in (map ITerm l) = l.
Proof. induction l; simpl; congruence. Qed.
Lemma own_terms_eq c nv : own_terms c nv = map ITerm (map (fun x => mkTerm x (fst nv) (c_name c ++ "." ++ fst nv)) (hv_items (snd nv))).
Proof. unfold own_terms. rewrite map_map. reflexivity. Qed.
Lemma prims_hp k c nvs : prims_in (flat_map (hp_contrib k c) nvs) = [].
Proof.
  induction nvs as [|nv nvs IH]; simpl; auto. rewrite prims_in_app, IH, app_nil_r. unfold hp_contrib.
  destruct (is_empty_list (snd nv)); auto. destruct (String.eqb (fst nv) "param_check"); auto.
  destruct (String.eqb k _); auto. rewrite own_terms_eq. apply prims_terms.
Qed.
Definition contrib_prims (k : string) (ke : ckey * entry) : list primitive :=
  match fst ke with
  | KeyClass c => match e_dict (snd ke), role c with
                  | Some items, Some out => if String.eqb k out then [prim_of_class c out items] else []
                  | _, _ => []
                  end
  | _ => []
  end.
Lemma prims_contrib k kes : prims_in (flat_map (contrib k) kes) = flat_map (contrib_prims k) kes.
Proof.
  induction kes as [|[key e] kes IH]; simpl; auto. rewrite prims_in_app, IH. f_equal. unfold contrib, contrib_prims. cbn [fst snd].
  destruct key as [s|c|t i]; auto.
  - destruct (String.eqb k s); auto. rewrite <- (map_map (fun x => mkTerm x s s) ITerm). apply prims_terms.
  - destruct (e_dict e), (role c); auto. rewrite prims_in_app, prims_hp. destruct (String.eqb k s); auto.
Qed.
Lemma hp_inputs c : forall nvs, inputs_for c nvs (flat_map (hp_types c) nvs).
Proof.
  induction nvs as [|[n v] nvs IH]; simpl; [constructor|]. unfold hp_types at 1. cbn [fst snd].
  destruct (is_empty_list v) eqn:E.
  - apply empty_shared in E. constructor; auto.
  - apply empty_not in E. destruct (String.eqb_spec n "param_check") as [-> |N]; constructor; auto.
Qed.

Lemma name_sorted items : StronglySorted (fun a b : string * hval => String.leb (fst a) (fst b) = true) (py_sorted name_leb items).
Proof.
  apply (py_sorted_ss name_leb).
  - intros; apply str_leb_total.
  - intros a b c; apply str_leb_trans.
Qed.
Lemma prim_of_class_ok c out items : role c = Some out -> primitive_for c items (prim_of_class c out items).
Proof.
  intros R. unfold prim_of_class. split; auto. split; auto. split; auto. exists (py_sorted name_leb items). split; [apply py_sorted_perm|].
  split; [apply name_sorted|apply hp_inputs].
Qed.
Lemma valid_in cfg ke : Forall valid_entry cfg -> In ke cfg -> valid_entry ke.
Proof. intros F H. rewrite Forall_forall in F. auto. Qed.
Lemma in_prims cfg d ch k p : pset_from_config cfg = Ok (d, ch) ->
  In p (prims_of (pset_of d) k) <-> exists c e items, In (KeyClass c, e) cfg /\ e_dict e = Some items /\ role c = Some k /\ p = prim_of_class c k items.
Proof.
  intros H. apply pset_ok in H as (F & _ & A). rewrite prims_of_set, A, prims_contrib, in_flat_map. split.
  - intros ([key e] & Hin & Hp). unfold contrib_prims in Hp. cbn [fst snd] in Hp. destruct key as [|c|]; try destruct Hp.
    destruct (e_dict e) as [items|] eqn:E; [|destruct Hp]. destruct (role c) as [out|] eqn:R; [|destruct Hp].
    destruct (String.eqb_spec k out) as [-> |]; [|destruct Hp]. destruct Hp as [<-|[]]. exists c, e, items.
    split; [eapply Permutation_in; [apply Permutation_sym; apply sorted_perm|exact Hin]|]. auto.
  - intros (c & e & items & Hin & E & R & ->). exists (KeyClass c, e). split; [eapply Permutation_in; [apply sorted_perm|exact Hin]|].
    unfold contrib_prims. cbn [fst snd]. rewrite E, R, String.eqb_refl. left; auto.
Qed.
Lemma prim_classes cfg d ch k : pset_from_config cfg = Ok (d, ch) -> Permutation (map p_class (prims_of (pset_of d) k)) (algorithms cfg k).
Proof.
  intros H. apply pset_ok in H as (F & _ & A). rewrite prims_of_set, A, prims_contrib.
  assert (E : forall kes, Forall valid_entry kes -> map p_class (flat_map (contrib_prims k) kes) = algorithms kes k).
  { induction 1 as [|[key e] kes V _ IH]; simpl; auto. rewrite map_app, IH. f_equal. unfold contrib_prims. cbn [fst snd].
    destruct key as [s|c|t i]; auto. unfold valid_entry in V. cbn [fst snd] in V. destruct V as (R & items & -> & _).
    destruct (role c) as [out|]; [|congruence]. rewrite (String.eqb_sym out k). destruct (String.eqb k out); reflexivity. }
  rewrite E by (eapply Forall_perm; [apply sorted_perm|exact F]).
  apply flat_map_perm. apply Permutation_sym. apply sorted_perm.
Qed.

(** values *)
Definition contrib_terms (k : string) (ke : ckey * entry) : list terminal :=
  match fst ke with
  | KeyStr s => if String.eqb k s then map (fun x => mkTerm x s s) (match e_iter (snd ke) with Some vs => vs | None => [] end) else []
  | KeyClass c => match e_dict (snd ke), role c with
                  | Some items, Some out => flat_map (fun nv => terms_in (hp_contrib k c nv)) (py_sorted name_leb items)
                  | _, _ => []
                  end
  | KeyOther _ _ => []
  end.
Lemma terms_flat {A} (f : A -> list item) l : terms_in (flat_map f l) = flat_map (fun x => terms_in (f x)) l.
Proof. induction l; simpl; auto. rewrite terms_in_app, IHl. reflexivity. Qed.
Lemma terms_contrib k kes : terms_in (flat_map (contrib k) kes) = flat_map (contrib_terms k) kes.
Proof.
  induction kes as [|[key e] kes IH]; simpl; auto. rewrite terms_in_app, IH. f_equal. unfold contrib, contrib_terms. cbn [fst snd].
  destruct key as [s|c|t i]; auto.
  - destruct (String.eqb k s); auto. rewrite <- (map_map (fun x => mkTerm x s s) ITerm). apply terms_terms.
  - destruct (e_dict e), (role c); auto. rewrite terms_in_app, terms_flat. destruct (String.eqb k s); simpl; rewrite app_nil_r; reflexivity.
Qed.
Lemma in_hp_terms k c nv t : In t (terms_in (hp_contrib k c nv)) <->
  ~ shared (snd nv) /\ fst nv <> "param_check" /\ k = (c_name c ++ "." ++ fst nv)%string /\ exists x, In x (hv_items (snd nv)) /\ t = mkTerm x (fst nv) k.
Proof.
  unfold hp_contrib. destruct (is_empty_list (snd nv)) eqn:E.
  { apply empty_shared in E. simpl. tauto. }
  apply empty_not in E. destruct (String.eqb_spec (fst nv) "param_check"); [simpl; tauto|].
  destruct (String.eqb_spec k (c_name c ++ "." ++ fst nv)) as [-> |]; [|simpl; tauto].
  rewrite own_terms_eq, terms_terms, in_map_iff. split.
  - intros (x & <- & Hx). split; auto. split; auto. split; auto. exists x. auto.
  - intros (_ & _ & _ & x & Hx & ->). exists x. auto.
Qed.
Lemma in_terms cfg d ch k t : pset_from_config cfg = Ok (d, ch) ->
  In t (terms_of (pset_of d) k) <->
  (exists e vs x, In (KeyStr k, e) cfg /\ e_iter e = Some vs /\ In x vs /\ t = mkTerm x k k) \/
  (exists c e items n v x, In (KeyClass c, e) cfg /\ e_dict e = Some items /\ In (n, v) items /\ ~ shared v /\ n <> "param_check" /\
     k = (c_name c ++ "." ++ n)%string /\ In x (hv_items v) /\ t = mkTerm x n k).
Proof.
  intros H. apply pset_ok in H as (F & _ & A). rewrite terms_of_set, A, terms_contrib, in_flat_map. split.
  - intros ([key e] & Hin & Ht). assert (Hin' : In (key, e) cfg) by (eapply Permutation_in; [apply Permutation_sym; apply sorted_perm|exact Hin]).
    unfold contrib_terms in Ht. cbn [fst snd] in Ht. destruct key as [s|c|]; [| |destruct Ht].
    + left. destruct (String.eqb_spec k s) as [-> |]; [|destruct Ht]. destruct (e_iter e) as [vs|] eqn:E; [|destruct Ht].
      apply in_map_iff in Ht as (x & <- & Hx). exists e, vs, x. auto.
    + right. destruct (e_dict e) as [items|] eqn:E; [|destruct Ht]. destruct (role c) eqn:R; [|destruct Ht].
      apply in_flat_map in Ht as ([n v] & Hn & Ht). apply in_hp_terms in Ht as (H1 & H2 & H3 & x & Hx & ->). cbn [fst snd] in *.
      exists c, e, items, n, v, x. split; auto. split; auto. split; [eapply Permutation_in; [apply Permutation_sym; apply py_sorted_perm|exact Hn]|]. auto 8.
  - intros [(e & vs & x & Hin & E & Hx & ->)|(c & e & items & n & v & x & Hin & E & Hn & Hs & Hp & -> & Hx & ->)].
    + exists (KeyStr k, e). split; [eapply Permutation_in; [apply sorted_perm|exact Hin]|]. unfold contrib_terms. cbn [fst snd]. rewrite String.eqb_refl, E.
      apply (in_map (fun x => mkTerm x k k)). auto.
    + exists (KeyClass c, e). split; [eapply Permutation_in; [apply sorted_perm|exact Hin]|]. unfold contrib_terms. cbn [fst snd]. rewrite E.
      pose proof (valid_in _ _ F Hin) as (R & _). cbn [fst snd] in R. destruct (role c); [|congruence].
      apply in_flat_map. exists (n, v). split; [eapply Permutation_in; [apply py_sorted_perm|exact Hn]|]. apply in_hp_terms. cbn [fst snd]. split; auto. split; auto. split; auto. exists x; auto.
Qed.
Lemma config_typed cfg d ch : pset_from_config cfg = Ok (d, ch) -> pset_typed (pset_of d).
Proof.
  intros H. split.
  - intros k p Hp. apply (in_prims _ _ _ _ _ H) in Hp as (c & e & items & _ & _ & _ & ->). reflexivity.
  - intros k t Ht. apply (in_terms _ _ _ _ _ H) in Ht as [(e & vs & x & _ & _ & _ & ->)|(c & e & items & n & v & x & _ & _ & _ & _ & _ & _ & _ & ->)]; reflexivity.
Qed.
Lemma in_types c items i : In i (flat_map (hp_types c) (py_sorted name_leb items)) <->
  exists n v, In (n, v) items /\ ((shared v /\ i = n) \/ (~ shared v /\ n <> "param_check" /\ i = (c_name c ++ "." ++ n)%string)).
Proof.
  rewrite in_flat_map. split.
  - intros ([n v] & Hin & Hi). exists n, v. split; [eapply Permutation_in; [apply Permutation_sym; apply py_sorted_perm|exact Hin]|].
    unfold hp_types in Hi. cbn [fst snd] in Hi. destruct (is_empty_list v) eqn:E.
    + apply empty_shared in E. destruct Hi as [<-|[]]. auto.
    + apply empty_not in E. destruct (String.eqb_spec n "param_check"); [destruct Hi|]. destruct Hi as [<-|[]]. auto.
  - intros (n & v & Hin & Hi). exists (n, v). split; [eapply Permutation_in; [apply py_sorted_perm|exact Hin]|].
    unfold hp_types. cbn [fst snd]. destruct Hi as [[Hs ->]|(Hs & Hn & ->)].
    + apply empty_shared in Hs. rewrite Hs. left; auto.
    + apply empty_not in Hs. rewrite Hs. destruct (String.eqb_spec n "param_check"); [tauto|left; auto].
Qed.
Lemma config_inhabited cfg d ch : pset_from_config cfg = Ok (d, ch) -> complete cfg -> pset_inhabited (pset_of d).
Proof.
  intros H C k p i Hp Hi. apply (in_prims _ _ _ _ _ H) in Hp as (c & e & items & Hin & E & R & ->).
  cbn [p_input prim_of_class] in Hi. apply in_types in Hi as (n & v & Hn & Hi). destruct (C c e items n v Hin E Hn) as [C1 C2].
  intros K. assert (X : exists t, In t (terms_of (pset_of d) i)); [|destruct X as (t & X); rewrite K in X; destruct X].
  destruct Hi as [[Hs ->]|(Hs & Hpc & ->)].
  - destruct (C1 Hs) as (e' & x & xs & Hin' & E'). exists (mkTerm x n n). apply (in_terms _ _ _ _ _ H). left. exists e', (x :: xs), x. simpl; auto.
  - specialize (C2 Hs Hpc). destruct (hv_items v) as [|x xs] eqn:Ev; [congruence|]. exists (mkTerm x n (c_name c ++ "." ++ n)).
    apply (in_terms _ _ _ _ _ H). right. exists c, e, items, n, v, x. rewrite Ev. simpl. auto 12.
Qed.

(** names *)
Fixpoint after_dot (s : string) : string :=
  match s with
  | EmptyString => EmptyString
  | String a s' => if Ascii.eqb a "."%char then s' else after_dot s'
  end.
Definition arg_name (k : string) : string := if has_char "."%char k then after_dot k else k.
Lemma after_dot_app c n : has_char "."%char c = false -> after_dot (c ++ "." ++ n) = n.
Proof.
  induction c as [|a c IH]; simpl; auto. intros H. apply orb_false_iff in H as [H1 H2]. rewrite H1. auto.
Qed.
Lemma has_dot c n : has_char "."%char (c ++ "." ++ n) = true.
Proof. induction c as [|a c IH]; simpl in *; auto. rewrite IH. apply orb_true_r. Qed.
Lemma arg_own c n : has_char "."%char c = false -> arg_name (c ++ "." ++ n) = n.
Proof. intros H. unfold arg_name. rewrite has_dot. apply after_dot_app; auto. Qed.
Lemma dot_inj : forall c n c' n', has_char "."%char c = false -> has_char "."%char c' = false -> (c ++ "." ++ n = c' ++ "." ++ n')%string -> c = c' /\ n = n'.
Proof.
  induction c as [|a c IH]; intros n [|b c'] n' H H' E; simpl in *.
  - injection E as ->. auto.
  - apply orb_false_iff in H' as [H' _]. injection E as <- _. discriminate.
  - apply orb_false_iff in H as [H _]. injection E as -> _. discriminate.
  - apply orb_false_iff in H as [_ H]. apply orb_false_iff in H' as [_ H']. injection E as <- E. destruct (IH n c' n') as [-> ->]; auto.
Qed.

Lemma in_class_names cfg c e : In (KeyClass c, e) cfg -> In (c_name c) (class_names cfg).
Proof. intros H. apply in_flat_map. exists (KeyClass c, e). simpl; auto. Qed.
Lemma in_string_keys cfg s e : In (KeyStr s, e) cfg -> In s (string_keys cfg).
Proof. intros H. apply in_flat_map. exists (KeyStr s, e). simpl; auto. Qed.

(** a list of keyed entries with distinct keys contributes to a key once *)
Lemma flat_map_single {A B} (f : A -> list B) l x : In x l -> NoDup l -> (forall y, In y l -> y <> x -> f y = []) -> flat_map f l = f x.
Proof.
  induction l as [|y l IH]; intros Hin ND H; [destruct Hin|]. inversion ND as [|? ? Hn ND']; subst. simpl. destruct Hin as [-> |Hin].
  - assert (E : flat_map f l = []).
    { clear - H Hn. induction l as [|z l IH]; simpl; auto. rewrite (H z) by (simpl; auto; intros ->; simpl in Hn; tauto). apply IH; [simpl in Hn; tauto|].
      intros y Hy. apply H. simpl in *. tauto. }
    rewrite E, app_nil_r. reflexivity.
  - rewrite (H y) by (simpl; auto; intros ->; contradiction). simpl. apply IH; auto. intros z Hz. apply H. simpl; auto.
Qed.
Lemma flat_map_once {A B} (f : A -> list B) : forall l1 x l2, (forall y, In y (l1 ++ l2) -> f y = []) -> flat_map f (l1 ++ x :: l2) = f x.
Proof.
  intros l1 x l2 H. rewrite flat_map_app. simpl.
  assert (E : forall l, (forall y, In y l -> f y = []) -> flat_map f l = []).
  { induction l as [|z l IH]; simpl; auto. intros K. rewrite (K z), IH; auto. }
  rewrite (E l1), (E l2), app_nil_r; auto; intros y Hy; apply H; apply in_or_app; auto.
Qed.
Lemma class_names_app a b : class_names (a ++ b) = class_names a ++ class_names b.
Proof. apply flat_map_app. Qed.
Lemma string_keys_app a b : string_keys (a ++ b) = string_keys a ++ string_keys b.
Proof. apply flat_map_app. Qed.
Lemma unamb_sorted cfg : unambiguous cfg -> unambiguous (sorted_entries cfg).
Proof.
  intros (H1 & H2 & H3 & H4 & H5). pose proof (sorted_perm cfg) as P. pose proof (Permutation_sym P) as P'.
  split; [|split; [|split; [|split]]].
  - eapply Permutation_NoDup; [apply flat_map_perm; exact P|exact H1].
  - eapply Permutation_NoDup; [apply flat_map_perm; exact P|exact H2].
  - intros s Hs. apply H3. eapply Permutation_in; [apply flat_map_perm; exact P'|exact Hs].
  - intros s Hs. apply H4. eapply Permutation_in; [apply flat_map_perm; exact P'|exact Hs].
  - intros c e items Hin. apply (H5 c e). eapply Permutation_in; [exact P'|exact Hin].
Qed.
Lemma hp_terms_none k c nvs : (forall nv, In nv nvs -> k <> (c_name c ++ "." ++ fst nv)%string) -> flat_map (fun nv => terms_in (hp_contrib k c nv)) nvs = [].
Proof.
  induction nvs as [|nv nvs IH]; simpl; auto. intros H. rewrite IH by (intros; apply H; auto). rewrite app_nil_r.
  unfold hp_contrib. destruct (is_empty_list (snd nv)); auto. destruct (String.eqb (fst nv) "param_check"); auto.
  destruct (String.eqb_spec k (c_name c ++ "." ++ fst nv)) as [E|]; auto. exfalso. apply (H nv); auto.
Qed.
Lemma shared_values cfg d ch s e vs : pset_from_config cfg = Ok (d, ch) -> unambiguous cfg -> In (KeyStr s, e) cfg -> e_iter e = Some vs ->
  terms_of (pset_of d) s = map (fun x => mkTerm x s s) vs.
Proof.
  intros H U Hin E. apply pset_ok in H as (F & _ & A). apply unamb_sorted in U. rewrite terms_of_set, A, terms_contrib.
  assert (Hin' : In (KeyStr s, e) (sorted_entries cfg)) by (eapply Permutation_in; [apply sorted_perm|exact Hin]).
  clear A F Hin ch d. revert Hin' U. generalize (sorted_entries cfg). clear cfg. intros cfg Hin (U1 & U2 & U3 & U4 & U5).
  apply in_split in Hin as (l1 & l2 & ->).
  rewrite (flat_map_once _ l1 (KeyStr s, e) l2); [unfold contrib_terms; cbn [fst snd]; rewrite String.eqb_refl, E; reflexivity|].
  intros [key e'] Hy. unfold contrib_terms. cbn [fst snd]. destruct key as [s'|c|t i]; auto.
  - destruct (String.eqb_spec s s') as [<-|]; auto. exfalso. rewrite string_keys_app in U2. change (string_keys ((KeyStr s, e) :: l2)) with (s :: string_keys l2) in U2.
    apply NoDup_remove_2 in U2. apply U2. rewrite in_app_iff in *. destruct Hy as [Hy|Hy]; apply in_string_keys in Hy; auto.
  - destruct (e_dict e') as [items|]; auto. destruct (role c); auto. apply hp_terms_none. intros nv _ K.
    assert (X : has_char "."%char s = false) by (apply U4; apply (in_string_keys _ _ e); apply in_or_app; simpl; auto).
    rewrite K, has_dot in X. discriminate.
Qed.
Lemma own_values cfg d ch c e items n v : pset_from_config cfg = Ok (d, ch) -> unambiguous cfg -> In (KeyClass c, e) cfg -> e_dict e = Some items ->
  In (n, v) items -> ~ shared v -> n <> "param_check" ->
  terms_of (pset_of d) (c_name c ++ "." ++ n) = map (fun x => mkTerm x n (c_name c ++ "." ++ n)) (hv_items v).
Proof.
  intros H U Hin E Hn Hs Hp. apply pset_ok in H as (F & _ & A). apply unamb_sorted in U. rewrite terms_of_set, A, terms_contrib.
  pose proof (valid_in _ _ F Hin) as (R & _). cbn [fst snd] in R.
  assert (Hin' : In (KeyClass c, e) (sorted_entries cfg)) by (eapply Permutation_in; [apply sorted_perm|exact Hin]).
  clear A F Hin ch d. revert Hin' U. generalize (sorted_entries cfg). clear cfg. intros cfg Hin (U1 & U2 & U3 & U4 & U5).
  pose proof (U5 _ _ _ Hin E) as ND. pose proof (U3 _ (in_class_names _ _ _ Hin)) as Hd.
  apply in_split in Hin as (l1 & l2 & ->).
  rewrite (flat_map_once _ l1 (KeyClass c, e) l2).
  - unfold contrib_terms. cbn [fst snd]. rewrite E. destruct (role c); [|congruence].
    assert (Hn' : In (n, v) (py_sorted name_leb items)) by (eapply Permutation_in; [apply py_sorted_perm|exact Hn]).
    assert (ND' : NoDup (map fst (py_sorted name_leb items))) by (eapply Permutation_NoDup; [apply Permutation_map; apply py_sorted_perm|exact ND]).
    apply in_split in Hn' as (a & b & Es). rewrite Es in *. rewrite (flat_map_once _ a (n, v) b).
    + unfold hp_contrib. cbn [fst snd]. apply empty_not in Hs. rewrite Hs. destruct (String.eqb_spec n "param_check"); [congruence|].
      rewrite String.eqb_refl. rewrite own_terms_eq, terms_terms. reflexivity.
    + intros [n' v'] Hy. unfold hp_contrib. cbn [fst snd]. destruct (is_empty_list v'); auto. destruct (String.eqb n' "param_check"); auto.
      destruct (String.eqb_spec (c_name c ++ "." ++ n) (c_name c ++ "." ++ n')) as [K|]; auto. exfalso.
      apply dot_inj in K as [_ <-]; auto. rewrite map_app in ND'. simpl in ND'. apply NoDup_remove_2 in ND'. apply ND'. rewrite <- map_app. apply (in_map fst _ (n, v')). auto.
  - intros [key e'] Hy. unfold contrib_terms. cbn [fst snd]. destruct key as [s'|c'|t i]; auto.
    + destruct (String.eqb_spec (c_name c ++ "." ++ n) s') as [K|]; auto. exfalso.
      assert (X : has_char "."%char s' = false).
      { apply U4. apply (in_string_keys _ _ e'). apply in_app_iff in Hy. apply in_or_app. simpl. tauto. }
      rewrite <- K, has_dot in X. discriminate.
    + destruct (e_dict e') as [items'|]; auto. destruct (role c'); auto. apply hp_terms_none. intros nv _ K.
      assert (Hy' : In (c_name c') (class_names (l1 ++ l2))) by (eapply in_class_names; eauto).
      assert (Hd' : has_char "."%char (c_name c') = false).
      { apply U3. rewrite class_names_app in *. change (class_names ((KeyClass c, e) :: l2)) with (c_name c :: class_names l2). rewrite in_app_iff in *. simpl. tauto. }
      apply dot_inj in K as [K _]; auto.
      rewrite class_names_app in U1. change (class_names ((KeyClass c, e) :: l2)) with (c_name c :: class_names l2) in U1.
      apply NoDup_remove_2 in U1. apply U1. rewrite <- class_names_app, K. exact Hy'.
Qed.
Lemma config_named cfg d ch : pset_from_config cfg = Ok (d, ch) -> unambiguous cfg ->
  (forall s, In s (string_keys cfg) -> has_char "="%char s = false) ->
  (forall c e items n v, In (KeyClass c, e) cfg -> e_dict e = Some items -> In (n, v) items -> has_char "="%char n = false) ->
  (forall c e items n v, In (KeyClass c, e) cfg -> e_dict e = Some items -> In (n, v) items -> shared v -> has_char "."%char n = false) ->
  pset_named (pset_of d).
Proof.
  intros H (U1 & U2 & U3 & U4 & U5) E1 E2 E3.
  (* names of keys with values are clean; elsewhere the name is irrelevant *)
  exists (fun k => if has_char "="%char (arg_name k) then EmptyString else arg_name k).
  assert (CL : forall k t, In t (terms_of (pset_of d) k) -> t_output t = arg_name k /\ has_char "="%char (arg_name k) = false).
  { intros k t Ht. apply (in_terms _ _ _ _ _ H) in Ht as [(e & vs & x & Hin & _ & _ & ->)|(c & e & items & n & v & x & Hin & E & Hn & _ & _ & -> & _ & ->)].
    - pose proof (in_string_keys _ _ _ Hin) as Hk. unfold arg_name. rewrite (U4 _ Hk). split; auto.
    - rewrite arg_own by (apply U3; eapply in_class_names; eauto). split; auto. eapply E2; eauto. }
  split; [|split].
  - intros k t Ht. destruct (CL k t Ht) as [A B]. rewrite B. exact A.
  - intros k. destruct (has_char "="%char (arg_name k)) eqn:K; auto.
  - intros k p Hp. apply (in_prims _ _ _ _ _ H) in Hp as (c & e & items & Hin & E & R & ->). cbn [p_input prim_of_class].
    pose proof (U5 _ _ _ Hin E) as ND. pose proof (U3 _ (in_class_names _ _ _ Hin)) as Hd.
    assert (ND' : NoDup (map fst (py_sorted name_leb items))) by (eapply Permutation_NoDup; [apply Permutation_map; apply py_sorted_perm|exact ND]).
    assert (FX : Forall (fun nv => has_char "="%char (fst nv) = false /\ (shared (snd nv) -> has_char "."%char (fst nv) = false)) (py_sorted name_leb items)).
    { apply Forall_sorted. apply Forall_forall. intros [n v] Hn. cbn [fst snd]. split; [eapply E2; eauto|]. intros Hs. eapply E3; eauto. }
    revert ND' FX. generalize (py_sorted name_leb items). clear - Hd. intros l ND FX.
    assert (K : forall l, Forall (fun nv : string * hval => has_char "="%char (fst nv) = false /\ (shared (snd nv) -> has_char "."%char (fst nv) = false)) l ->
       exists l', (forall x, In x l' -> In x (map fst l)) /\ map (fun k => if has_char "="%char (arg_name k) then EmptyString else arg_name k) (flat_map (hp_types c) l) = l' /\ (NoDup (map fst l) -> NoDup l')).
    { induction l0 as [|[n v] l0 IH]; intros FX'; simpl.
      - exists []. split; [auto|]. split; [reflexivity|]. intros; constructor.
      - inversion FX' as [|? ? [X1 X2] FX'']; subst. destruct (IH FX'') as (l' & I1 & I2 & I3). cbn [fst snd] in *. unfold hp_types at 1. cbn [fst snd].
        destruct (is_empty_list v) eqn:Ev.
        + apply empty_shared in Ev. exists (n :: l'). split; [intros x [<-|Hx]; simpl; auto|]. split.
          * simpl. unfold arg_name at 1 2. rewrite (X2 Ev), X1, I2. reflexivity.
          * intros NDl. inversion NDl; subst. constructor; auto.
        + destruct (String.eqb n "param_check").
          * exists l'. split; [intros x Hx; simpl; auto|]. split; auto. intros NDl. inversion NDl; subst. auto.
          * exists (n :: l'). split; [intros x [<-|Hx]; simpl; auto|]. split.
            -- cbn [app map]. rewrite arg_own by auto. rewrite X1, I2. reflexivity.
            -- intros NDl. inversion NDl; subst. constructor; auto. }
    destruct (K l FX) as (l' & _ & -> & I3). auto.
Qed.

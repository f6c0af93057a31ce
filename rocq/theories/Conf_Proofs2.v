From Verif Require Import Base Gp_Model Gp_Spec Gp_Proofs Conf_Model Conf_Spec Conf_Proofs.
Require Import Ascii Permutation Sorted.
Open Scope string_scope.
Open Scope list_scope.
Open Scope nat_scope.

(** * Checks *)
Lemma get_set_check ch k v k' : get_check (set_check ch k v) k' = if String.eqb k' k then Some v else get_check ch k'.
Proof.
  induction ch as [|[k0 v0] ch IH]; simpl.
  - destruct (String.eqb k' k); reflexivity.
  - destruct (String.eqb_spec k k0) as [-> |N]; simpl.
    + destruct (String.eqb k' k0); reflexivity.
    + rewrite IH. destruct (String.eqb_spec k' k0) as [-> |]; auto. destruct (String.eqb_spec k0 k); [congruence|reflexivity].
Qed.
Lemma upd_other c nvs : forall ch k, k <> c_name c -> get_check (fold_left (fun ch nv => upd_check ch c nv) nvs ch) k = get_check ch k.
Proof.
  induction nvs as [|nv nvs IH]; intros ch k H; simpl; auto. rewrite IH by auto. unfold upd_check. destruct (hp_check nv); auto.
  rewrite get_set_check. destruct (String.eqb_spec k (c_name c)); [congruence|auto].
Qed.
Lemma hget_in d : forall n v, hget d n = Some v -> In (n, v) d.
Proof. induction d as [|[n' v'] d IH]; simpl; intros n v H; [discriminate|]. destruct (String.eqb_spec n n') as [-> |]; [injection H as ->; auto|auto]. Qed.
Lemma hget_none d n : hget d n = None <-> ~ In n (map fst d).
Proof.
  induction d as [|[n' v'] d IH]; simpl; [tauto|]. destruct (String.eqb_spec n n') as [-> |]; [split; [discriminate|tauto]|]. rewrite IH.
  split; intros H; [intros [K|K]; [congruence|tauto]|tauto].
Qed.
Lemma in_hget d n v : NoDup (map fst d) -> In (n, v) d -> hget d n = Some v.
Proof.
  induction d as [|[n' v'] d IH]; simpl; intros ND H; [destruct H|]. inversion ND; subst. destruct H as [E|H].
  - injection E as -> ->. rewrite String.eqb_refl. auto.
  - destruct (String.eqb_spec n n') as [-> |]; auto. exfalso. apply H2. apply (in_map fst _ (n', v)). auto.
Qed.
Definition check_of (items : list (string * hval)) : option value :=
  match hget items "param_check" with
  | Some v => match first_of v with Ok f => Some f | Err _ => None end
  | None => None
  end.
Lemma upd_same c : forall nvs ch, NoDup (map fst nvs) ->
  get_check (fold_left (fun ch nv => upd_check ch c nv) nvs ch) (c_name c) =
  match check_of nvs with Some f => Some f | None => get_check ch (c_name c) end.
Proof.
  induction nvs as [|[n v] nvs IH]; intros ch ND; [reflexivity|]. inversion ND as [|? ? Hn ND']; subst.
  cbn [fold_left]. rewrite IH by auto. unfold check_of. cbn [hget]. unfold upd_check, hp_check. cbn [fst snd].
  destruct (String.eqb_spec "param_check" n) as [<-|N].
  - assert (E : hget nvs "param_check" = None) by (apply hget_none; exact Hn). rewrite E. rewrite String.eqb_refl.
    destruct (is_empty_list v) eqn:Ev.
    + apply empty_shared in Ev. rewrite Ev. reflexivity.
    + destruct (first_of v); auto. rewrite get_set_check, String.eqb_refl. reflexivity.
  - destruct (is_empty_list v); auto. destruct (String.eqb_spec n "param_check"); [congruence|auto].
Qed.
Lemma checks_other : forall kes ch k, ~ In k (class_names kes) -> get_check (fold_left ke_check kes ch) k = get_check ch k.
Proof.
  induction kes as [|[key e] kes IH]; intros ch k H; [reflexivity|]. cbn [fold_left].
  change (class_names ((key, e) :: kes)) with ((match key with KeyClass c => [c_name c] | _ => [] end) ++ class_names kes) in H.
  rewrite in_app_iff in H. rewrite IH by tauto. unfold ke_check. cbn [fst snd]. destruct key as [s|c|t i]; auto.
  destruct (e_dict e); auto. apply upd_other. intros ->. apply H. left. simpl. auto.
Qed.
Lemma check_of_perm l l' : NoDup (map fst l) -> Permutation l l' -> check_of l = check_of l'.
Proof.
  intros ND P. unfold check_of. assert (E : hget l "param_check" = hget l' "param_check").
  { assert (ND' : NoDup (map fst l')) by (eapply Permutation_NoDup; [apply Permutation_map; exact P|exact ND]).
    destruct (hget l "param_check") eqn:E1.
    - symmetry. apply in_hget; auto. eapply Permutation_in; [exact P|]. apply hget_in. auto.
    - symmetry. apply hget_none. apply hget_none in E1. intros K. apply E1. eapply Permutation_in; [apply Permutation_sym; apply Permutation_map; exact P|exact K]. }
  rewrite E. reflexivity.
Qed.
Lemma config_checks cfg d ch c e items : pset_from_config cfg = Ok (d, ch) -> unambiguous cfg -> In (KeyClass c, e) cfg -> e_dict e = Some items ->
  get_check ch (c_name c) = check_of items.
Proof.
  intros H U Hin E. apply pset_ok in H as (F & -> & _). apply unamb_sorted in U.
  assert (Hin' : In (KeyClass c, e) (sorted_entries cfg)) by (eapply Permutation_in; [apply sorted_perm|exact Hin]).
  revert Hin' U. generalize (sorted_entries cfg). clear - E. intros cfg Hin (U1 & U2 & U3 & U4 & U5).
  pose proof (U5 _ _ _ Hin E) as ND. apply in_split in Hin as (l1 & l2 & ->).
  rewrite fold_left_app. cbn [fold_left]. rewrite class_names_app in U1. change (class_names ((KeyClass c, e) :: l2)) with (c_name c :: class_names l2) in U1.
  apply NoDup_remove_2 in U1. rewrite in_app_iff in U1. rewrite checks_other by tauto. unfold ke_check at 1. cbn [fst snd]. rewrite E.
  rewrite upd_same by (eapply Permutation_NoDup; [apply Permutation_map; apply py_sorted_perm|exact ND]).
  rewrite checks_other by tauto. rewrite (check_of_perm items (py_sorted name_leb items) ND (py_sorted_perm _ _)).
  destruct (check_of (py_sorted name_leb items)); reflexivity.
Qed.

(** * Refusals *)
Lemma bad_register st ke : bad_key ke -> register st ke = Err TypeError.
Proof.
  destruct st as [d ch], ke as [key e]. unfold bad_key, register. cbn [fst snd]. destruct key as [s|c|t i]; [tauto| |reflexivity].
  intros (R & items & -> & F). apply (Forall_sorted _ name_leb) in F.
  destruct (register_hps_valid c _ [] d ch F) as (d1 & E1 & _). rewrite E1. unfold rbind. unfold role in R.
  destruct (c_transformer c), (c_classifier c), (c_regressor c); try discriminate; reflexivity.
Qed.
Lemma bad_all : forall kes st, Forall (fun ke => valid_entry ke \/ bad_key ke) kes -> Exists bad_key kes -> register_all st kes = Err TypeError.
Proof.
  induction kes as [|ke kes IH]; intros st F X; [inversion X|]. inversion F as [|? ? V F']; subst. cbn [register_all].
  destruct V as [V|B].
  - destruct st as [d ch]. destruct (register_valid d ch ke V) as (d' & E & _). rewrite E. unfold rbind. apply IH; auto.
    inversion X as [? ? B|]; subst; auto. exfalso. pose proof (bad_register (d, ch) ke B) as K. congruence.
  - rewrite bad_register by auto. reflexivity.
Qed.
Lemma config_type_error cfg : Forall (fun ke => valid_entry ke \/ bad_key ke) cfg -> Exists bad_key cfg -> pset_from_config cfg = Err TypeError.
Proof.
  intros F X. unfold pset_from_config. apply bad_all; [eapply Forall_perm; [apply sorted_perm|exact F]|].
  apply Exists_exists in X as (ke & Hin & B). apply Exists_exists. exists ke. split; auto. eapply Permutation_in; [apply sorted_perm|exact Hin].
Qed.
Lemma config_total cfg : (exists r, pset_from_config cfg = Ok r) <-> Forall valid_entry cfg.
Proof.
  split.
  - intros ([d ch] & H). apply pset_ok in H. tauto.
  - intros F. destruct (register_all_valid (sorted_entries cfg) [] []) as (d' & E & _); [eapply Forall_perm; [apply sorted_perm|exact F]|]. eexists. exact E.
Qed.

Lemma fault_hp c st nv x : hp_fault nv x -> register_hp c st nv = Err x.
Proof.
  destruct st as [[types d] ch]. intros F. inversion F as [n v K|v K|v K1 K2 K3 K4]; subst; unfold register_hp.
  - assert (E : is_empty_list v = false) by (unfold is_empty_list; rewrite K; reflexivity). rewrite E.
    destruct (String.eqb n "param_check"); [|rewrite K; reflexivity].
    unfold first_of. rewrite K. reflexivity.
  - assert (E : is_empty_list v = false) by (unfold is_empty_list; rewrite K; reflexivity). rewrite E. cbn [String.eqb].
    unfold first_of. rewrite K. reflexivity.
  - assert (E : is_empty_list v = false) by (unfold is_empty_list; destruct (hv_kind v); congruence). rewrite E. cbn [String.eqb].
    unfold first_of. rewrite K4. destruct (hv_kind v); try congruence; reflexivity.
Qed.
Lemma fault_hps c x : forall nvs st, Forall (fun nv => valid_hp nv \/ hp_fault nv x) nvs -> Exists (fun nv => hp_fault nv x) nvs ->
  register_hps c st nvs = Err x.
Proof.
  induction nvs as [|nv nvs IH]; intros st F X; [inversion X|]. inversion F as [|? ? V F']; subst. cbn [register_hps].
  destruct V as [V|B].
  - destruct st as [[ty d] ch]. destruct (register_hp_valid c ty d ch nv V) as (d' & E & _). rewrite E. unfold rbind. apply IH; auto.
    inversion X as [? ? B|]; subst; auto. exfalso. pose proof (fault_hp c (ty, d, ch) nv x B) as K. congruence.
  - rewrite (fault_hp c st nv x B). reflexivity.
Qed.
Lemma fault_register st ke x : fault ke x -> register st ke = Err x.
Proof.
  destruct st as [d ch]. intros F. destruct F as [s e K|c e K|c e items x K F X|ke B].
  - cbn. rewrite K. reflexivity.
  - cbn. rewrite K. reflexivity.
  - cbn [register]. rewrite K. rewrite (fault_hps c x); [reflexivity| |].
    + apply Forall_sorted. exact F.
    + apply Exists_exists in X as (nv & I & B). apply Exists_exists. exists nv. split; auto. eapply Permutation_in; [apply py_sorted_perm|exact I].
  - apply bad_register. exact B.
Qed.
Lemma fault_all x : forall kes st, Forall (fun ke => valid_entry ke \/ fault ke x) kes -> Exists (fun ke => fault ke x) kes -> register_all st kes = Err x.
Proof.
  induction kes as [|ke kes IH]; intros st F X; [inversion X|]. inversion F as [|? ? V F']; subst. cbn [register_all].
  destruct V as [V|B].
  - destruct st as [d ch]. destruct (register_valid d ch ke V) as (d' & E & _). rewrite E. unfold rbind. apply IH; auto.
    inversion X as [? ? B|]; subst; auto. exfalso. pose proof (fault_register (d, ch) ke x B) as K. congruence.
  - rewrite (fault_register st ke x B). reflexivity.
Qed.
Lemma config_fault cfg x : Forall (fun ke => valid_entry ke \/ fault ke x) cfg -> Exists (fun ke => fault ke x) cfg -> pset_from_config cfg = Err x.
Proof.
  intros F X. unfold pset_from_config. apply fault_all; [eapply Forall_perm; [apply sorted_perm|exact F]|].
  apply Exists_exists in X as (ke & Hin & B). apply Exists_exists. exists ke. split; auto. eapply Permutation_in; [apply sorted_perm|exact Hin].
Qed.

(** * Merging *)
Lemma key_eqb_refl k : key_eqb k k = true.
Proof. destruct k; simpl; [apply String.eqb_refl|apply Nat.eqb_refl|apply Nat.eqb_refl]. Qed.
Lemma key_eqb_sym a b : key_eqb a b = key_eqb b a.
Proof. destruct a, b; simpl; auto; [apply String.eqb_sym|apply Nat.eqb_sym|apply Nat.eqb_sym]. Qed.
Lemma key_eqb_trans a b c : key_eqb a b = true -> key_eqb b c = key_eqb a c.
Proof.
  destruct a, b, c; simpl; auto; try discriminate.
  - intros H. apply String.eqb_eq in H. subst. auto.
  - intros H. apply Nat.eqb_eq in H. rewrite H. auto.
  - intros H. apply Nat.eqb_eq in H. rewrite H. auto.
Qed.
Lemma rget_set c k v k' : rget (rset c k v) k' = if key_eqb k' k then Some v else rget c k'.
Proof.
  induction c as [|[k0 v0] c IH]; simpl.
  - destruct (key_eqb k' k); reflexivity.
  - destruct (key_eqb k k0) eqn:E; simpl.
    + destruct (key_eqb k' k) eqn:E2.
      * rewrite <- (key_eqb_trans k' k k0 E2), E. reflexivity.
      * destruct (key_eqb k' k0) eqn:E3; auto. exfalso. rewrite <- (key_eqb_trans k' k0 k E3), key_eqb_sym in E2. congruence.
    + rewrite IH. destruct (key_eqb k' k0) eqn:E3; auto. destruct (key_eqb k' k) eqn:E2; auto.
      rewrite <- (key_eqb_trans k' k k0 E2) in E3. congruence.
Qed.

Lemma rget_in c k v : rget c k = Some v -> exists k', In (k', v) c /\ key_eqb k k' = true.
Proof.
  induction c as [|[k0 v0] c IH]; simpl; [discriminate|]. destruct (key_eqb k k0) eqn:E.
  - intros H. injection H as ->. exists k0. auto.
  - intros H. destruct (IH H) as (k' & Hin & Ek). exists k'. auto.
Qed.
Lemma rget_eq c k k' : key_eqb k k' = true -> rget c k = rget c k'.
Proof.
  intros E. induction c as [|[k0 v0] c IH]; simpl; auto. rewrite <- (key_eqb_trans _ _ k0 E), IH. reflexivity.
Qed.
Lemma hget_set d n v n' : hget (hset d n v) n' = if String.eqb n' n then Some v else hget d n'.
Proof.
  induction d as [|[n0 v0] d IH]; simpl.
  - destruct (String.eqb n' n); reflexivity.
  - destruct (String.eqb_spec n n0) as [-> |N]; simpl.
    + destruct (String.eqb n' n0); reflexivity.
    + rewrite IH. destruct (String.eqb_spec n' n0) as [-> |]; auto. destruct (String.eqb_spec n0 n); [congruence|reflexivity].
Qed.
Lemma dh_same h l d : dh_set h l d l = d.
Proof. unfold dh_set. rewrite Nat.eqb_refl. auto. Qed.
Lemma dh_other h l d x : x <> l -> dh_set h l d x = h x.
Proof. intros H. unfold dh_set. destruct (Nat.eqb_spec x l); [congruence|auto]. Qed.

(** [v] is among the values of a hyperparameter, up to == *)
Definition has (d : hdict) (n : string) (v : value) : Prop :=
  exists hv w, hget d n = Some hv /\ In w (hv_items hv) /\ v_eq w = v_eq v.

Section M.
Context (f : list value -> list value).
Hypothesis Hf : lists_set f.

Lemma union_has a b v : (exists w, In w (dict_union a b) /\ v_eq w = v_eq v) <-> (exists w, In w a /\ v_eq w = v_eq v) \/ (exists w, In w b /\ v_eq w = v_eq v).
Proof.
  unfold dict_union. split.
  - intros (w & Hw & E). apply in_app_iff in Hw as [Hw|Hw]; [left; eauto|]. apply filter_In in Hw as [Hw _]. right; eauto.
  - intros [(w & Hw & E)|(w & Hw & E)]; [exists w; rewrite in_app_iff; auto|].
    destruct (existsb (value_eqb w) a) eqn:X.
    + apply existsb_exists in X as (u & Hu & Eu). apply Z.eqb_eq in Eu. exists u. rewrite in_app_iff. split; auto. congruence.
    + exists w. rewrite in_app_iff. split; auto. right. apply filter_In. rewrite X. auto.
Qed.
Lemma set_has a b v : (exists w, In w (f (a ++ b)) /\ v_eq w = v_eq v) <-> (exists w, In w a /\ v_eq w = v_eq v) \/ (exists w, In w b /\ v_eq w = v_eq v).
Proof.
  destruct (Hf (a ++ b)) as (_ & I & C). split.
  - intros (w & Hw & E). apply I, in_app_iff in Hw as [Hw|Hw]; eauto.
  - intros [(w & Hw & E)|(w & Hw & E)]; (destruct (C w) as (u & Hu & Eu); [apply in_or_app; auto|exists u; split; auto; congruence]).
Qed.
(** one hyperparameter *)
Lemma merge_hp_has h l nm hv h' : merge_hp f h l (nm, hv) = Ok h' ->
  (forall x, x <> l -> h' x = h x) /\
  forall n v, has (h' l) n v <-> has (h l) n v \/ (n = nm /\ exists w, In w (hv_items hv) /\ v_eq w = v_eq v).
Proof.
  unfold merge_hp. intros H.
  assert (K : forall new, h' = dh_set h l (hset (h l) nm new) ->
     (forall v, (exists w, In w (hv_items new) /\ v_eq w = v_eq v) <-> has (h l) nm v \/ (exists w, In w (hv_items hv) /\ v_eq w = v_eq v)) ->
     (forall x, x <> l -> h' x = h x) /\
     forall n v, has (h' l) n v <-> has (h l) n v \/ (n = nm /\ exists w, In w (hv_items hv) /\ v_eq w = v_eq v)).
  { intros new -> E. split; [intros; apply dh_other; auto|]. intros n v. unfold has at 1. rewrite dh_same. split.
    - intros (hv' & w & G & Hw & Ev). rewrite hget_set in G. destruct (String.eqb_spec n nm) as [-> |N].
      + injection G as <-. assert (X : exists w, In w (hv_items new) /\ v_eq w = v_eq v) by eauto. apply E in X as [X|X]; auto.
      + left. exists hv', w. auto.
    - destruct (String.eqb_spec n nm) as [-> |N].
      + intros X. assert (Y : has (h l) nm v \/ (exists w, In w (hv_items hv) /\ v_eq w = v_eq v)) by tauto.
        apply E in Y as (w & Hw & Ev). exists new, w. rewrite hget_set, String.eqb_refl. auto.
      + intros [(hv' & w & G & X)|[X _]]; [|congruence]. exists hv', w. rewrite hget_set. destruct (String.eqb_spec n nm); [congruence|auto]. }
  destruct (hget (h l) nm) as [v1|] eqn:G.
  - destruct (kind_eqb (hv_kind v1) HDict && kind_eqb (hv_kind hv) HDict).
    + injection H as <-. apply (K _ eq_refl). intros v. cbn [hv_items]. rewrite union_has. unfold has. rewrite G. split.
      * intros [(w & Hw & E)|X]; [left; exists v1, w; auto|auto].
      * intros [(hv' & w & Eh & Hw & E)|X]; [injection Eh as <-; left; eauto|auto].
    + destruct (kind_eqb (hv_kind v1) (hv_kind hv) && negb (kind_eqb (hv_kind hv) HScalar)); [|discriminate].
      injection H as <-. apply (K _ eq_refl). intros v. cbn [hv_items]. rewrite set_has. unfold has. rewrite G. split.
      * intros [(w & Hw & E)|X]; [left; exists v1, w; auto|auto].
      * intros [(hv' & w & Eh & Hw & E)|X]; [injection Eh as <-; left; eauto|auto].
  - injection H as <-. apply (K _ eq_refl). intros v. unfold has. rewrite G. split; auto. intros [(hv' & w & Eh & _)|X]; [discriminate|auto].
Qed.
Lemma merge_hps_has l : forall nvs h h', merge_hps f h l nvs = (Ok tt, h') ->
  (forall x, x <> l -> h' x = h x) /\
  forall n v, has (h' l) n v <-> has (h l) n v \/ exists hv w, In (n, hv) nvs /\ In w (hv_items hv) /\ v_eq w = v_eq v.
Proof.
  induction nvs as [|[nm hv] nvs IH]; intros h h' H; cbn [merge_hps] in H.
  - injection H as <-. split; auto. intros n v. split; auto. intros [X|(hv & w & [] & _)]; auto.
  - destruct (merge_hp f h l (nm, hv)) as [h1|] eqn:E1; [|discriminate]. apply merge_hp_has in E1 as [F1 A1]. apply IH in H as [F2 A2].
    split; [intros x Hx; rewrite F2, F1; auto|]. intros n v. rewrite A2, A1. split.
    + intros [[X|(-> & w & Hw & E)]|(hv' & w & Hin & X)]; auto.
      * right. exists hv, w. simpl; auto.
      * right. exists hv', w. simpl; auto.
    + intros [X|(hv' & w & [E|Hin] & Hw & Ev)]; auto.
      * injection E as -> ->. left. right. eauto.
      * right. exists hv', w. auto.
Qed.
Definition grow (h h' : dheap) : Prop := forall l n v, has (h l) n v -> has (h' l) n v.
Lemma merge_alg_grow h m kv m' h' : merge_alg f h m kv = (Ok m', h') -> grow h h'.
Proof.
  destruct kv as [k v2]. unfold merge_alg. intros H.
  assert (R : grow h h) by (intros l n v; auto).
  destruct (rget m k) as [[a|l]|]; [| |injection H as <- <-; auto].
  - destruct v2 as [b|l2].
    + destruct (kind_eqb (hv_kind a) HList && kind_eqb (hv_kind b) HList); [injection H as <- <-; auto|discriminate].
    + destruct (h l2); [injection H as <- <-; auto|discriminate].
  - destruct v2 as [b|l2]; [discriminate|]. destruct (merge_hps f h l (h l2)) as [[[]|] h1] eqn:E; [|discriminate]. injection H as <- <-.
    apply merge_hps_has in E as [F A]. intros x n v Hx. destruct (Nat.eq_dec x l) as [-> |Hn]; [apply A; auto|rewrite F; auto].
Qed.
Lemma merge_loop_grow : forall c2 h m m' h', merge_loop f h m c2 = (Ok m', h') -> grow h h'.
Proof.
  induction c2 as [|kv c2 IH]; intros h m m' h' H; cbn [merge_loop] in H; [injection H as <- <-; intros l n v; auto|].
  destruct (merge_alg f h m kv) as [[m1|] h1] eqn:E; [|discriminate]. apply merge_alg_grow in E. apply IH in H. intros l n v Hx. apply H, E, Hx.
Qed.
Definition shas (m : rconfig) (k : ckey) (v : value) : Prop :=
  exists hv w, rget m k = Some (RIter hv) /\ In w (hv_items hv) /\ v_eq w = v_eq v.
(** keys keep their kind of entry, references are kept *)
Lemma merge_alg_keeps h m kv m' h' : merge_alg f h m kv = (Ok m', h') ->
  (forall k l, rget m k = Some (RDict l) -> rget m' k = Some (RDict l)) /\
  (forall k v, shas m k v -> shas m' k v).
Proof.
  destruct kv as [k0 v2]. unfold merge_alg. intros H.
  destruct (rget m k0) as [[a|l]|] eqn:G.
  - destruct v2 as [b|l2].
    + destruct (kind_eqb (hv_kind a) HList && kind_eqb (hv_kind b) HList); [injection H as <- <-|discriminate]. split.
      * intros k l Hk. rewrite rget_set. destruct (key_eqb k k0) eqn:E; auto. rewrite (rget_eq _ _ _ E) in Hk. congruence.
      * intros k v (hv & w & Hk & Hw & Ev). unfold shas. rewrite rget_set. destruct (key_eqb k k0) eqn:E; [|exists hv, w; auto].
        rewrite (rget_eq _ _ _ E), G in Hk. injection Hk as <-.
        destruct (proj2 (set_has (hv_items a) (hv_items b) v)) as (u & Hu & Eu); [left; eauto|]. exists (mkHval HList (f (hv_items a ++ hv_items b))), u. auto.
    + destruct (h l2); [injection H as <- <-|discriminate]. auto.
  - destruct v2 as [b|l2]; [discriminate|]. destruct (merge_hps f h l (h l2)) as [[[]|] h1]; [|discriminate]. injection H as <- <-. auto.
  - injection H as <- <-. split.
    + intros k l Hk. rewrite rget_set. destruct (key_eqb k k0) eqn:E; auto. rewrite (rget_eq _ _ _ E) in Hk. congruence.
    + intros k v (hv & w & Hk & Hw). unfold shas. rewrite rget_set. destruct (key_eqb k k0) eqn:E; [|exists hv, w; auto].
      rewrite (rget_eq _ _ _ E) in Hk. congruence.
Qed.
Lemma merge_loop_keeps : forall c2 h m m' h', merge_loop f h m c2 = (Ok m', h') ->
  (forall k l, rget m k = Some (RDict l) -> rget m' k = Some (RDict l)) /\
  (forall k v, shas m k v -> shas m' k v).
Proof.
  induction c2 as [|kv c2 IH]; intros h m m' h' H; cbn [merge_loop] in H; [injection H as <- <-; auto|].
  destruct (merge_alg f h m kv) as [[m1|] h1] eqn:E; [|discriminate]. apply merge_alg_keeps in E as [A B]. apply IH in H as [C D]. split; auto.
Qed.
Lemma merge_alg_adds h m k v2 m' h' : merge_alg f h m (k, v2) = (Ok m', h') ->
  match v2 with
  | RDict l2 => forall n v, has (h l2) n v -> exists l, rget m' k = Some (RDict l) /\ has (h' l) n v
  | RIter b => forall v w, In w (hv_items b) -> v_eq w = v_eq v -> shas m' k v
  end.
Proof.
  unfold merge_alg. intros H. destruct (rget m k) as [[a|l]|] eqn:G.
  - destruct v2 as [b|l2].
    + destruct (kind_eqb (hv_kind a) HList && kind_eqb (hv_kind b) HList); [injection H as <- <-|discriminate].
      intros v w Hw Ev. destruct (proj2 (set_has (hv_items a) (hv_items b) v)) as (u & Hu & Eu); [right; eauto|].
      exists (mkHval HList (f (hv_items a ++ hv_items b))), u. rewrite rget_set, key_eqb_refl. auto.
    + destruct (h l2) eqn:E; [|discriminate]. intros n v (hv & w & Hh & _). discriminate.
  - destruct v2 as [b|l2]; [discriminate|]. destruct (merge_hps f h l (h l2)) as [[[]|] h1] eqn:E; [|discriminate]. injection H as <- <-.
    apply merge_hps_has in E as [F A]. intros n v (hv & w & Hh & Hw & Ev). exists l. split; auto. apply A. right. exists hv, w. split; [apply hget_in; auto|auto].
  - injection H as <- <-. destruct v2 as [b|l2].
    + intros v w Hw Ev. exists b, w. rewrite rget_set, key_eqb_refl. auto.
    + intros n v Hh. exists l2. rewrite rget_set, key_eqb_refl. auto.
Qed.
Lemma merge_loop_adds : forall c2 h m m' h' k v2, merge_loop f h m c2 = (Ok m', h') -> In (k, v2) c2 ->
  match v2 with
  | RDict l2 => forall n v, has (h l2) n v -> exists l, rget m' k = Some (RDict l) /\ has (h' l) n v
  | RIter b => forall v w, In w (hv_items b) -> v_eq w = v_eq v -> shas m' k v
  end.
Proof.
  induction c2 as [|kv c2 IH]; intros h m m' h' k v2 H Hin; cbn [merge_loop] in H; [destruct Hin|].
  destruct (merge_alg f h m kv) as [[m1|] h1] eqn:E; [|discriminate]. destruct Hin as [-> |Hin].
  - pose proof (merge_alg_adds _ _ _ _ _ _ E) as A. pose proof (merge_loop_keeps _ _ _ _ _ H) as [K1 K2]. pose proof (merge_loop_grow _ _ _ _ _ H) as Gr.
    destruct v2 as [b|l2].
    + intros v w Hw Ev. apply K2. eapply A; eauto.
    + intros n v Hh. destruct (A n v Hh) as (l & R & X). exists l. split; auto.
  - pose proof (IH _ _ _ _ _ _ H Hin) as A. pose proof (merge_alg_grow _ _ _ _ _ E) as Gr. destruct v2 as [b|l2]; auto.
Qed.

(** ** with separate dictionaries: exactly the union, c2 untouched *)
Definition refs (c : rconfig) : list nat := flat_map (fun kv => match snd kv with RDict l => [l] | RIter _ => [] end) c.
Lemma rget_ref c k l : rget c k = Some (RDict l) -> In l (refs c).
Proof. intros H. apply rget_in in H as (k' & Hin & _). apply in_flat_map. exists (k', RDict l). simpl; auto. Qed.
Lemma merge_alg_frame h m kv r h' : merge_alg f h m kv = (r, h') -> forall x, ~ In x (refs m) -> h' x = h x.
Proof.
  destruct kv as [k v2]. unfold merge_alg. intros H x Hx. destruct (rget m k) as [[a|l]|] eqn:G.
  - destruct v2 as [b|l2].
    + destruct (kind_eqb (hv_kind a) HList && kind_eqb (hv_kind b) HList); injection H as <- <-; auto.
    + destruct (h l2); injection H as <- <-; auto.
  - destruct v2 as [b|l2]; [injection H as <- <-; auto|].
    assert (N : x <> l) by (intros ->; apply Hx; eapply rget_ref; eauto).
    assert (K : forall nvs h r h', merge_hps f h l nvs = (r, h') -> h' x = h x).
    { clear - N. induction nvs as [|[nm hv] nvs IH]; intros h r h' H; cbn [merge_hps] in H; [injection H as <- <-; auto|].
      destruct (merge_hp f h l (nm, hv)) as [h1|] eqn:E; [|injection H as <- <-; auto]. rewrite (IH _ _ _ H).
      unfold merge_hp in E. destruct (hget (h l) nm); [destruct (_ && _); [|destruct (_ && _); [|discriminate]]|]; injection E as <-; apply dh_other; auto. }
    destruct (merge_hps f h l (h l2)) as [[u|] h1] eqn:E; injection H as <- <-; eapply K; eauto.
  - injection H as <- <-. auto.
Qed.
End M.

From Verif Require Import Base Gp_Model Gp_Spec Str_Spec Conf_Model Conf_Spec Ship_Model Ship_Spec Gp_Proofs Str_Proofs Conf_Proofs Conf_Proofs2 Conf_Main Ship_Proofs Ship_Proofs2 Ship_Proofs3.
Require Import Ascii Permutation Sorted Lia.
Open Scope string_scope.
Open Scope list_scope.
Open Scope nat_scope.

(** What GamaReport computes when it is imported, and with [dedup] for set. *)
Notation report_merge f meta := (merge_configurations f (loaded meta) (clf_refs meta) (reg_refs meta)).
Definition merged_of (r : res rconfig * dheap) : rconfig := match fst r with Ok m => m | Err _ => [] end.

Lemma report_merge_ok f meta : report_merge f meta = (Ok (merged_of (report_merge f meta)), snd (report_merge f meta)).
Proof. vm_compute. reflexivity. Qed.

Ltac sim_items LS :=
  repeat first [ apply Forall2_nil
               | apply Forall2_cons; [split; [reflexivity|first [apply hv_sim_refl | apply set_sim; [exact LS|vm_compute; reflexivity]]]|] ].
Ltac sim_entries LS :=
  repeat first [ apply Forall2_nil
               | apply Forall2_cons; [split; [reflexivity|split; [reflexivity|first [exact Logic.I | sim_items LS]]]|] ].

Lemma report_view_sim f meta : lists_set f ->
  Forall2 entry_sim (view (snd (report_merge f meta)) (merged_of (report_merge f meta)))
                    (view (snd (report_merge dedup meta)) (merged_of (report_merge dedup meta))).
Proof.
  intros LS. match goal with |- Forall2 _ ?a ?b => let a' := eval vm_compute in a in assert (Ea : a = a') by (vm_compute; reflexivity); rewrite Ea; clear Ea end.
  cbv -[dedup entry_sim]. sim_entries LS.
Qed.

Lemma report_clf_first f meta : firstn (length (clf_refs meta)) (merged_of (report_merge f meta)) = clf_refs meta.
Proof. vm_compute. reflexivity. Qed.
Lemma view_firstn h c n : view h (firstn n c) = firstn n (view h c).
Proof. unfold view. apply eq_sym, firstn_map. Qed.
Lemma Forall2_firstn {A B} (R : A -> B -> Prop) n l l' : Forall2 R l l' -> Forall2 R (firstn n l) (firstn n l').
Proof. intros F. revert n. induction F; intros [|n]; simpl; constructor; auto. Qed.
Lemma firstn_sim n c (R R' : res rconfig * dheap) : Forall2 entry_sim (view (snd R) (merged_of R)) (view (snd R') (merged_of R')) ->
  firstn n (merged_of R) = c -> firstn n (merged_of R') = c -> Forall2 entry_sim (view (snd R) c) (view (snd R') c).
Proof. intros F E E'. rewrite <- E at 1. rewrite <- E'. rewrite !view_firstn. apply Forall2_firstn. exact F. Qed.
Lemma report_clf_sim f meta : lists_set f ->
  Forall2 entry_sim (view (snd (report_merge f meta)) (clf_refs meta)) (view (snd (report_merge dedup meta)) (clf_refs meta)).
Proof. intros LS. exact (firstn_sim _ _ _ _ (report_view_sim f meta LS) (report_clf_first f meta) (report_clf_first dedup meta)). Qed.
Lemma report_usable f meta : lists_set f -> usable (view (snd (report_merge f meta)) (merged_of (report_merge f meta))).
Proof. intros LS. eapply usable_transfer; [apply report_view_sim; exact LS|]. apply usableb_ok. vm_compute. reflexivity. Qed.
Lemma report_clf_usable f meta : lists_set f -> usable (view (snd (report_merge f meta)) (clf_refs meta)).
Proof. intros LS. eapply usable_transfer; [apply report_clf_sim; exact LS|]. apply usableb_ok. vm_compute. reflexivity. Qed.

(** * One configuration offering everything another one does *)
Definition items_cover (i j : list (string * hval)) : Prop :=
  forall n v, In (n, v) i -> exists v', In (n, v') j /\ incl (hv_items v) (hv_items v') /\ (shared v <-> shared v').
Definition entry_covered (M : config) (ke : ckey * entry) : Prop :=
  match fst ke with
  | KeyStr s => exists e' vs', In (KeyStr s, e') M /\ e_iter e' = Some vs' /\ forall vs, e_iter (snd ke) = Some vs -> incl vs vs'
  | KeyClass c => exists e' items items', In (KeyClass c, e') M /\ e_dict (snd ke) = Some items /\ e_dict e' = Some items' /\
                    (forall k, prim_of_class c k items = prim_of_class c k items') /\ items_cover items items'
  | KeyOther _ _ => False
  end.
Definition covers (M A : config) : Prop := Forall (entry_covered M) A.

Definition inclb (l l' : list value) : bool := forallb (fun v => existsb (value_same v) l') l.
Definition items_coverb (i j : list (string * hval)) : bool :=
  forallb (fun nv => existsb (fun nv' => String.eqb (fst nv) (fst nv') && inclb (hv_items (snd nv)) (hv_items (snd nv')) &&
                                       Bool.eqb (is_empty_list (snd nv)) (is_empty_list (snd nv'))) j) i.
Lemma inclb_ok l l' : inclb l l' = true -> incl l l'.
Proof.
  unfold inclb. rewrite forallb_forall. intros H x Hx. specialize (H _ Hx). apply existsb_exists in H as (y & Hy & E). apply value_same_eq in E. subst; auto.
Qed.
Lemma items_coverb_ok i j : items_coverb i j = true -> items_cover i j.
Proof.
  unfold items_coverb. rewrite forallb_forall. intros H n v Hn. specialize (H _ Hn). apply existsb_exists in H as ([n' v'] & Hn' & E). cbn [fst snd] in E.
  rewrite !Bool.andb_true_iff in E. destruct E as ((E1 & E2) & E3). apply String.eqb_eq in E1. subst n'. exists v'. split; auto. split; [apply inclb_ok; auto|].
  apply Bool.eqb_prop in E3. rewrite <- !empty_shared, E3. reflexivity.
Qed.

Lemma covers_sim M B A : Forall2 entry_sim M B -> covers B A -> covers M A.
Proof.
  intros S C. unfold covers in *. rewrite Forall_forall in *. intros [k e] H. specialize (C _ H). unfold entry_covered in *. cbn [fst snd] in *. destruct k as [s|c|t i]; auto.
  - destruct C as (e' & vs' & H' & E & I). destruct (Forall2_r _ _ _ _ S H') as ([k2 e2] & H2 & (Ek & Ei & _)). cbn [fst snd] in *. subst k2. exists e2, vs'. split; auto. split; [congruence|auto].
  - destruct C as (e' & items & items' & H' & E & E' & Ep & IC). destruct (Forall2_r _ _ _ _ S H') as ([k2 e2] & H2 & (Ek & Ei & D)). cbn [fst snd] in *. subst k2.
    rewrite E' in D. destruct (e_dict e2) as [items2|] eqn:E2; [|destruct D]. exists e2, items, items2. split; auto. split; auto. split; auto. split.
    + intros k. rewrite Ep. symmetry. apply sim_prim. exact D.
    + intros n v Hn. destruct (IC _ _ Hn) as (v' & Hn' & I & Sh). destruct (Forall2_r _ _ _ _ D Hn') as ([n2 v2] & Hn2 & (En & Sv)). cbn [fst snd] in *. subst n2.
      exists v2. split; auto. split; [intros x Hx; apply Sv; apply I; exact Hx|]. rewrite Sh. symmetry. apply sim_shared. exact Sv.
Qed.

(** Everything generated in the smaller space is in the larger one. *)
Lemma covers_pipeline A M dA chA dM chM ss : pset_from_config A = Ok (dA, chA) -> pset_from_config M = Ok (dM, chM) -> covers M A ->
  pipeline_ok (pset_of dA) ss -> pipeline_ok (pset_of dM) ss.
Proof.
  intros PA PM C. unfold covers in C. rewrite Forall_forall in C.
  assert (Pr : forall k p, In p (prims_of (pset_of dA) k) -> In p (prims_of (pset_of dM) k)).
  { intros k p Hp. apply (in_prims _ _ _ _ _ PA) in Hp as (c & e & items & Hin & E & R & ->). destruct (C _ Hin) as (e' & i0 & items' & H' & E0 & E' & Ep & _). cbn [fst snd] in *.
    assert (i0 = items) by congruence. subst i0. rewrite Ep. apply (in_prims _ _ _ _ _ PM). exists c, e', items'. auto. }
  assert (Te : forall k t, In t (terms_of (pset_of dA) k) -> In t (terms_of (pset_of dM) k)).
  { intros k t Ht. apply (in_terms _ _ _ _ _ PM). apply (in_terms _ _ _ _ _ PA) in Ht as [(e & vs & x & Hin & E & Hx & ->)|(c & e & items & n & v & x & Hin & E & Hn & Ns & Np & -> & Hx & ->)].
    - left. destruct (C _ Hin) as (e' & vs' & H' & E' & I). cbn [fst snd] in *. exists e', vs', x. split; auto. split; auto. split; auto. apply (I vs E). exact Hx.
    - right. destruct (C _ Hin) as (e' & i0 & items' & H' & E0 & E' & _ & IC). cbn [fst snd] in *. assert (i0 = items) by congruence. subst i0.
      destruct (IC _ _ Hn) as (v' & Hn' & I & Sh). exists c, e', items', n, v', x. split; auto. split; auto. split; auto. split; [rewrite <- Sh; auto|]. split; auto. }
  assert (St : forall k s, step_ok (pset_of dA) k s -> step_ok (pset_of dM) k s).
  { intros k s (Hp & ts & Pm & F). split; [auto|]. exists ts. split; auto. clear Pm. induction F; constructor; auto. }
  destruct ss as [|m rest]; [intros []|]. intros (Hm & F). split; [auto|]. eapply Forall_impl; [|exact F]. intros s. apply St.
Qed.

(** Deciding [covers] when both sides use the same class objects. *)
Definition found (M : config) (k : ckey) : option (ckey * entry) := find (fun ke => key_eqb k (fst ke)) M.
Definition same_keys (M A : config) : Prop := map (fun ke => option_map fst (found M (fst ke))) A = map (fun ke => Some (fst ke)) A.
Definition coveredb (M : config) (ke : ckey * entry) : bool :=
  match found M (fst ke) with
  | None => false
  | Some (_, e') =>
    match fst ke with
    | KeyStr s => match e_iter (snd ke), e_iter e' with Some vs, Some vs' => inclb vs vs' | _, _ => false end
    | KeyClass c => match e_dict (snd ke), e_dict e' with
                    | Some i, Some j => items_coverb i j && strs_eqb (p_input (prim_of_class c "" i)) (p_input (prim_of_class c "" j))
                    | _, _ => false
                    end
    | KeyOther _ _ => false
    end
  end.
Lemma strs_eqb_ok a : forall b, strs_eqb a b = true -> a = b.
Proof. induction a as [|x a IH]; intros [|y b]; simpl; try discriminate; auto. intros H. apply andb_prop in H as (H1 & H2). apply String.eqb_eq in H1. f_equal; auto. Qed.
Lemma covers_ok M A : same_keys M A -> forallb (coveredb M) A = true -> covers M A.
Proof.
  unfold same_keys, covers. intros K F. rewrite forallb_forall in F. apply Forall_forall. intros [k e] H. specialize (F _ H).
  assert (Kk : option_map fst (found M k) = Some k).
  { clear F. induction A as [|a A IH]; [destruct H|]. simpl in K. injection K as K1 K2. destruct H as [-> |H]; auto. }
  unfold coveredb in F. cbn [fst snd] in *. destruct (found M k) as [[k' e']|] eqn:Fd; [|discriminate]. simpl in Kk. injection Kk as ->.
  unfold found in Fd. apply find_some in Fd as (Hin & _). unfold entry_covered. cbn [fst snd]. destruct k as [s|c|t i]; [| |discriminate].
  - destruct (e_iter e) as [vs|]; [|discriminate]. destruct (e_iter e') as [vs'|] eqn:E'; [|discriminate]. exists e', vs'. split; auto. split; auto. intros w Ew. injection Ew as <-. apply inclb_ok; auto.
  - destruct (e_dict e) as [i|]; [|discriminate]. destruct (e_dict e') as [j|] eqn:E'; [|discriminate]. apply andb_prop in F as (F1 & F2). exists e', i, j. split; auto. split; auto. split; auto. split.
    + intros q. apply strs_eqb_ok in F2. unfold prim_of_class in *. cbn [p_input] in F2. rewrite F2. reflexivity.
    + apply items_coverb_ok. exact F1.
Qed.
Lemma report_covers f meta A : lists_set f -> In A [clf_config meta; reg_config meta] ->
  covers (view (snd (report_merge f meta)) (merged_of (report_merge f meta))) (as_config A).
Proof.
  intros LS H. eapply covers_sim; [apply report_view_sim; exact LS|].
  destruct H as [<-|[<-|[]]]; (apply covers_ok; [vm_compute; reflexivity|vm_compute; reflexivity]).
Qed.

Lemma report_clf_covers f meta : lists_set f -> covers (view (snd (report_merge f meta)) (clf_refs meta)) (as_config (clf_config meta)).
Proof.
  intros LS. eapply covers_sim; [apply report_clf_sim; exact LS|]. apply covers_ok; [vm_compute|vm_compute]; reflexivity.
Qed.
Lemma report_reg_same f meta : view (snd (report_merge f meta)) (reg_refs meta) = as_config (reg_config meta).
Proof. vm_compute. reflexivity. Qed.

Lemma report_twice f meta : fst (merge_configurations f (snd (report_merge f meta)) (clf_refs meta) (reg_refs meta)) = Err TypeError.
Proof. vm_compute. reflexivity. Qed.

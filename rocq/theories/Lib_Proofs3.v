From Verif Require Import Base Num Num_Proofs Heap_Model Heap_Proofs Nsga_Model Nsga_Proofs5 Lib_Model Lib_Spec Lib_Proofs Lib_Proofs2 Gp_Proofs.
Require Import Permutation Sorting.
Open Scope nat_scope.

(** * Histories *)
Lemma distinct_app S e es : distinct (S ++ e :: es) -> success e -> ~ In (ev_ind e) (map ev_ind (filter successb S)).
Proof.
  unfold distinct. intros H Su. rewrite filter_app, map_app in H. simpl in H. apply successb_iff in Su. rewrite Su in H. simpl in H.
  apply NoDup_remove_2 in H. intros K. apply H, in_or_app; auto.
Qed.
Lemma distinct_drop S e es : distinct (S ++ e :: es) -> distinct (S ++ es).
Proof.
  unfold distinct. rewrite !filter_app, !map_app. simpl. destruct (successb e); auto. simpl. apply NoDup_remove_1.
Qed.
Lemma saves_inv : forall es l S r l' out, inv l S -> Forall ordinary es -> distinct (S ++ es) ->
  saves l es r = (l', out) -> inv l' (S ++ saved out).
Proof.
  induction es as [|e es IH]; intros l S r l' out I O D E; simpl in E.
  - inversion E; subst. simpl. rewrite app_nil_r. auto.
  - destruct (save l e r) as [[l1 x] r1] eqn:ES. destruct (saves l1 es r1) as [l2 xs] eqn:EV. inversion E; subst.
    inversion O; subst.
    destruct (save_inv l S e r l1 x r1 I H1 (distinct_app _ _ _ D) ES) as [[-> I1]|(y & -> & I1 & _)].
    + replace (S ++ saved ((e, Ok tt) :: xs)) with ((S ++ [e]) ++ saved xs) by (rewrite <- app_assoc; auto).
      eapply IH; eauto. rewrite <- app_assoc. auto.
    + change (saved ((e, Err y) :: xs)) with (saved xs). eapply IH; eauto. eapply distinct_drop; eauto.
Qed.
Lemma inv_empty l : empty_lib l -> inv l [].
Proof.
  intros (E1 & E2 & E3 & E4 & E5). split; rewrite ?E1, ?E2, ?E3, ?E5; simpl; auto; try (intros; lia); try (intros; tauto).
  - constructor.
  - intros i H1 H2. simpl in H2. lia.
  - destruct (l_m l); auto. rewrite Nat.min_0_r. auto.
Qed.

Lemma save_m_n l e r l' x r' : save l e r = (l', x, r') -> l_m l' = l_m l /\ l_n l' = l_n l.
Proof.
  intros E. unfold save in E. destruct (process l e r) as [[l1 p] r1] eqn:EP.
  destruct (process_ok _ _ _ _ _ _ EP) as (s & -> & _).
  destruct p as [e1|y]; [|inversion E; subst; auto].
  destruct (ev_error e1); [inversion E; subst; auto|].
  destruct (match l_m (add_obj e1 (set_sample s l)) with None => true | Some m => length (l_top (add_obj e1 (set_sample s l))) <? m end);
    [inversion E; subst; auto|].
  destruct (heappushpop _ _ _ _) as [rm t]. destruct (tuple_eq _ _); [inversion E; subst; auto|].
  unfold remove_from_disk in E. destruct (ev_file _) as [f|]; [|inversion E; subst; auto].
  destruct (find_file _ _); inversion E; subst; auto.
Qed.
Lemma saves_m_n : forall es l r l' out, saves l es r = (l', out) -> l_m l' = l_m l /\ l_n l' = l_n l.
Proof.
  induction es as [|e es IH]; intros l r l' out E; simpl in E; [inversion E; auto|].
  destruct (save l e r) as [[l1 x] r1] eqn:ES. destruct (saves l1 es r1) as [l2 xs] eqn:EV. inversion E; subst.
  apply save_m_n in ES. apply IH in EV. intuition congruence.
Qed.

(** * No exceptions *)
Lemma process_fine k l e r : rows_below k (l_sample l) -> rows_of k e ->
  exists l1 e1 r1, process l e r = (l1, Ok e1, r1) /\ rows_below k (l_sample l1).
Proof.
  intros HS HR. unfold process.
  set (e0 := match l_n l with Some 0 => with_pred None e | _ => e end).
  assert (HR0 : rows_of k e0) by (unfold e0; destruct (l_n l) as [[|]|]; auto; exact I).
  clearbody e0. unfold rows_of in HR0. destruct (ev_pred e0) as [p|] eqn:EP; [|eauto 6].
  assert (HD : forall s, rows_below k s -> exists l1 e1 r1,
    match s with Rows rows => match pick rows p with Err x => (set_sample s l, Err x, r) | Ok p' => (set_sample s l, Ok (with_pred (Some p') e0), r) end
    | _ => (set_sample s l, Ok e0, r) end = (l1, Ok e1, r1) /\ rows_below k (l_sample l1)).
  { intros [| |rows] H; eauto 6. rewrite rmap_pick; [eauto 6|]. simpl in H. rewrite Forall_forall in H. intros i Hi. rewrite HR0. auto. }
  destruct (l_sample l) as [| |rows] eqn:ES.
  - unfold determine. destruct (l_n l) as [n|] eqn:En.
    + destruct (Nat.ltb_spec n (length p)) as [L|L].
      * destruct (rsample_ok n (seq 0 (length p)) r) as (xs & r' & E & _ & _ & I); [apply seq_NoDup|rewrite seq_length; lia|].
        rewrite E. cbn [set_sample l_sample]. assert (Forall (fun i => i < k) xs).
        { apply Forall_forall. intros i Hi. apply I, in_seq in Hi. lia. }
        rewrite rmap_pick; [eauto 6|]. intros i Hi. apply I, in_seq in Hi. lia.
      * cbn [set_sample l_sample]. eexists _, _, _. split; [reflexivity|exact Logic.I].
    + cbn [set_sample l_sample]. eexists _, _, _. split; [reflexivity|exact Logic.I].
  - rewrite ES. eexists _, _, _. split; [reflexivity|]. rewrite ES. exact Logic.I.
  - rewrite ES. destruct (HD (Rows rows) HS) as (l1 & e1 & r1 & H & H').
    assert (EL : set_sample (Rows rows) l = l) by (rewrite <- ES; apply set_sample_same). rewrite EL in H. eauto.
Qed.
Lemma save_sample l e r l' x r' : save l e r = (l', x, r') -> l_sample l' = l_sample (fst (fst (process l e r))).
Proof.
  intros E. unfold save in E. destruct (process l e r) as [[l1 p] r1] eqn:EP. simpl.
  destruct p as [e1|y]; [|inversion E; subst; auto].
  destruct (ev_error e1); [inversion E; subst; auto|].
  destruct (match l_m (add_obj e1 l1) with None => true | Some m => length (l_top (add_obj e1 l1)) <? m end);
    [inversion E; subst; auto|].
  destruct (heappushpop _ _ _ _) as [rm t]. destruct (tuple_eq _ _); [inversion E; subst; auto|].
  unfold remove_from_disk in E. destruct (ev_file _) as [f|]; [|inversion E; subst; auto].
  destruct (find_file _ _); inversion E; subst; auto.
Qed.
Lemma saves_fine k : forall es l S r l' out, inv l S -> Forall ordinary es -> distinct (S ++ es) ->
  rows_below k (l_sample l) -> Forall (rows_of k) es ->
  saves l es r = (l', out) -> out = map (fun e => (e, Ok tt)) es.
Proof.
  induction es as [|e es IH]; intros l S r l' out I O D RB RO E; simpl in E.
  - inversion E; subst. auto.
  - destruct (save l e r) as [[l1 x] r1] eqn:ES. destruct (saves l1 es r1) as [l2 xs] eqn:EV. inversion E; subst.
    inversion O; subst. inversion RO; subst.
    destruct (process_fine k l e r RB H3) as (lp & ep & rp & EP & RP).
    destruct (save_inv l S e r l1 x r1 I H1 (distinct_app _ _ _ D) ES) as [[-> I1]|(y & -> & I1 & Q)].
    + simpl. f_equal. apply (IH l1 (S ++ [e]) r1 l' xs); auto. rewrite <- app_assoc. auto.
      rewrite (save_sample _ _ _ _ _ _ ES), EP. auto.
    + rewrite EP in Q. discriminate.
Qed.

(** * Sorting without NaN *)
Lemma insert_ss {A} (P : A -> Prop) (leb : A -> A -> bool)
  (tot : forall a b, P a -> P b -> leb a b = true \/ leb b a = true)
  (tr : forall a b c, P a -> P b -> P c -> leb a b = true -> leb b c = true -> leb a c = true) x l :
  P x -> Forall P l -> StronglySorted (fun a b => leb a b = true) l ->
  StronglySorted (fun a b => leb a b = true) (insert_sorted leb x l).
Proof.
  intros Px HP S. induction S as [|y l S IH F]; simpl.
  - constructor; constructor.
  - inversion HP as [|? ? Py Pl]; subst. destruct (leb x y) eqn:E.
    + constructor; [constructor; auto|]. constructor; auto.
      rewrite Forall_forall in *. intros z Hz. apply (tr x y z); auto.
    + constructor; auto.
      assert (Hyx : leb y x = true) by (destruct (tot x y); auto; congruence).
      eapply Permutation_Forall; [apply insert_sorted_perm|]. constructor; auto.
Qed.
Lemma sorted_ss {A} (P : A -> Prop) (leb : A -> A -> bool)
  (tot : forall a b, P a -> P b -> leb a b = true \/ leb b a = true)
  (tr : forall a b c, P a -> P b -> P c -> leb a b = true -> leb b c = true -> leb a c = true) l :
  Forall P l -> StronglySorted (fun a b => leb a b = true) (py_sorted leb l).
Proof.
  induction 1; simpl; [constructor|]. apply (insert_ss P); auto.
  eapply Permutation_Forall; [apply py_sorted_perm|]. auto.
Qed.
Lemma SS_app_inv {A} (R : A -> A -> Prop) l1 l2 : StronglySorted R (l1 ++ l2) ->
  StronglySorted R l1 /\ forall x y, In x l1 -> In y l2 -> R x y.
Proof.
  induction l1 as [|a l1 IH]; simpl; intros H; [split; [constructor|intros ? ? []]|].
  inversion H; subst. destruct (IH H2) as [H4 H5]. rewrite Forall_app in H3. destruct H3 as [H3 H3']. split.
  - constructor; auto.
  - intros x y [<-|Hx] Hy; auto. rewrite Forall_forall in H3'. auto.
Qed.
Lemma SS_snoc {A} (R : A -> A -> Prop) l x : StronglySorted R l -> Forall (fun y => R y x) l -> StronglySorted R (l ++ [x]).
Proof.
  induction 1; intros F; simpl; [repeat constructor|]. inversion F; subst. constructor; auto.
  apply Forall_app. auto.
Qed.
Lemma SS_rev {A} (R : A -> A -> Prop) l : StronglySorted R l -> StronglySorted (fun a b => R b a) (rev l).
Proof.
  induction 1; simpl; [constructor|]. apply SS_snoc; auto. apply Forall_rev. auto.
Qed.

(** * The best ones *)
Lemma best_of (t q : list item) n : Permutation t q -> Forall okitem t ->
  StronglySorted (fun a b => item_lt a b = false) q ->
  Permutation (firstn n q ++ skipn n q) t /\ length (firstn n q) = Nat.min n (length t) /\
  StronglySorted (fun a b => item_lt a b = false) (firstn n q) /\
  forall x y, In x (firstn n q) -> In y (skipn n q) -> item_lt x y = false.
Proof.
  intros P F S. split; [rewrite firstn_skipn; apply Permutation_sym; auto|].
  split; [rewrite firstn_length, (Permutation_length P); auto|].
  rewrite <- (firstn_skipn n q) in S. apply SS_app_inv in S. auto.
Qed.

(** * Lookup *)
Lemma last_with_app k S e : last_with k (S ++ [e]) = if String.eqb (ev_key e) k then Some (length S) else last_with k S.
Proof.
  induction S as [|a S IH]; simpl; auto. rewrite IH. destruct (String.eqb (ev_key e) k); auto.
Qed.
Lemma save_lookup l e r l' x r' : save l e r = (l', x, r') ->
  match x with
  | Ok _ => l_lookup l' = (ev_key e, length (l_objs l)) :: l_lookup l /\ length (l_objs l') = S (length (l_objs l)) /\
            same_id (obj l' (length (l_objs l))) e
  | Err _ => l_lookup l' = l_lookup l /\ length (l_objs l) <= length (l_objs l')
  end /\ forall v, v < length (l_objs l) -> same_id (obj l' v) (obj l v).
Proof.
  intros E. unfold save in E. destruct (process l e r) as [[l1 p] r1] eqn:EP.
  destruct (process_ok _ _ _ _ _ _ EP) as (s & -> & _ & PE).
  destruct p as [e1|y].
  2:{ inversion E; subst. split; [auto|]. intros; repeat split; auto. }
  destruct (PE e1 eq_refl) as [He1 _]. clear PE EP.
  set (u := length (l_objs (set_sample s l))) in *. change (length (l_objs l)) with u.
  assert (Se1 : same_id e1 e) by (subst e1; destruct e; repeat split; auto).
  assert (Hk : ev_key e1 = ev_key e) by apply Se1.
  set (L := add_obj e1 (set_sample s l)) in *.
  assert (OB : forall v, obj L v = if v =? u then e1 else obj l v) by (intros v; apply obj_app).
  assert (LL : length (l_objs L) = S u) by (unfold L; simpl; rewrite app_length; simpl; fold u; unfold u; simpl; lia).
  assert (SU : same_id (obj L u) e) by (rewrite OB, Nat.eqb_refl; auto).
  assert (SV : forall v, v < u -> same_id (obj L v) (obj l v)).
  { intros v Hv. rewrite OB. destruct (Nat.eqb_spec v u); [lia|]. repeat split; auto. }
  assert (STEP : forall f os v w, (forall o, same_id (f o) o) -> same_id (nth v (on_obj w f os) de) (nth v os de)).
  { intros f os v w Hf. destruct (Nat.lt_ge_cases w (length os)) as [Hw|Hw].
    - rewrite nth_on_obj by auto. destruct (Nat.eqb_spec v w) as [->|]; [apply Hf|]. repeat split; auto.
    - unfold on_obj. rewrite (proj2 (nth_error_None os w)) by lia. repeat split; auto. }
  assert (TR : forall a b c, same_id a b -> same_id b c -> same_id a c).
  { intros a b c (A1 & A2 & A3 & A4) (B1 & B2 & B3 & B4). repeat split; congruence. }
  assert (C1 : forall o, same_id (cleared o) o) by (intros []; repeat split; auto).
  assert (C2 : forall o, same_id (with_file (Some (ev_ind o)) (cleared o)) o) by (intros []; repeat split; auto).
  assert (C3 : forall o, same_id (with_file None o) o) by (intros []; repeat split; auto).
  destruct (ev_error e1) as [err|].
  { inversion E; subst l' x r'. clear E. cbn [add_lookup l_lookup l_objs]. rewrite Hk. split.
    - split; [auto|]. split; [cbn; rewrite on_obj_length, app_length; simpl; fold u; unfold u; simpl; lia|].
      eapply TR; [|exact SU]. apply STEP; auto.
    - intros v Hv. eapply TR; [|apply SV; auto]. apply STEP; auto. }
  destruct (match l_m L with None => true | Some m => length (l_top L) <? m end).
  { inversion E; subst l' x r'. clear E. cbn [add_lookup l_lookup l_objs]. rewrite Hk. split.
    - split; [auto|]. split; [cbn; rewrite on_obj_length, app_length; simpl; fold u; unfold u; simpl; lia|].
      eapply TR; [|exact SU]. apply (STEP _ (l_objs L)); auto.
    - intros v Hv. eapply TR; [|apply SV; auto]. apply (STEP _ (l_objs L)); auto. }
  destruct (heappushpop item_lt dummy (l_top L) (ev_score e1, u)) as [rm t].
  destruct (tuple_eq (fst rm) (ev_score e1)).
  { inversion E; subst l' x r'. clear E. cbn [add_lookup l_lookup l_objs]. rewrite Hk. split.
    - split; [auto|]. split; [cbn; rewrite on_obj_length, app_length; simpl; fold u; unfold u; simpl; lia|].
      eapply TR; [|exact SU]. apply (STEP _ (l_objs L)); auto.
    - intros v Hv. eapply TR; [|apply SV; auto]. apply (STEP _ (l_objs L)); auto. }
  unfold remove_from_disk in E. set (l3 := to_disk u e1 (set_top t L)) in *.
  assert (S3 : forall v, same_id (obj l3 v) (obj L v)) by (intros v; apply (STEP _ (l_objs L)); auto).
  assert (L3 : length (l_objs l3) = S u).
  { cbn. rewrite on_obj_length, app_length. simpl. fold u. unfold u. simpl. lia. }
  destruct (ev_file (obj l3 (snd rm))) as [f|].
  2:{ inversion E; subst l' x r'. split; [split; auto; rewrite L3; lia|]. intros v Hv. eapply TR; [apply S3|]. auto. }
  destruct (find_file f (l_disk l3)).
  2:{ inversion E; subst l' x r'. split; [split; auto; rewrite L3; lia|]. intros v Hv. eapply TR; [apply S3|]. auto. }
  inversion E; subst l' x r'. clear E. cbn [add_lookup add_other l_lookup l_objs]. rewrite Hk. split.
  - split; [auto|]. split; [rewrite on_obj_length; auto|].
    eapply TR; [apply (STEP _ (l_objs l3)); auto|]. eapply TR; [apply S3|]. auto.
  - intros v Hv. eapply TR; [apply (STEP _ (l_objs l3)); auto|]. eapply TR; [apply S3|]. auto.
Qed.

(** the table, for any history *)
Definition lookup_inv (l : lib) (S : list ev) : Prop :=
  forall k, match find_key k (l_lookup l), last_with k S with
            | None, None => True
            | Some u, Some i => u < length (l_objs l) /\ same_id (obj l u) (nth i S de)
            | _, _ => False
            end.
Lemma last_with_lt k : forall S i, last_with k S = Some i -> i < length S.
Proof.
  induction S as [|e S IH]; simpl; intros i H; [discriminate|]. destruct (last_with k S) as [j|].
  - inversion H; subst. specialize (IH j eq_refl). lia.
  - destruct (String.eqb (ev_key e) k); inversion H; subst. lia.
Qed.
Lemma lookup_save l S e r l' x r' : lookup_inv l S -> save l e r = (l', x, r') ->
  lookup_inv l' (match x with Ok _ => S ++ [e] | Err _ => S end).
Proof.
  intros I E. destruct (save_lookup _ _ _ _ _ _ E) as [H1 H2]. intros k. specialize (I k).
  assert (TR : forall a b c, same_id a b -> same_id b c -> same_id a c).
  { intros a b c (A1 & A2 & A3 & A4) (B1 & B2 & B3 & B4). repeat split; congruence. }
  destruct x as [[]|y].
  - destruct H1 as (-> & HL & HS). rewrite last_with_app. simpl. destruct (String.eqb (ev_key e) k) eqn:EK.
    + split; [lia|]. rewrite nth_snoc, Nat.eqb_refl. auto.
    + destruct (find_key k (l_lookup l)) as [u|], (last_with k S) as [i|] eqn:EL; auto.
      destruct I as [A B]. split; [lia|]. apply last_with_lt in EL. rewrite nth_snoc. destruct (Nat.eqb_spec i (length S)); [lia|].
      eapply TR; [apply H2; auto|auto].
  - destruct H1 as [-> HL]. destruct (find_key k (l_lookup l)) as [u|], (last_with k S) as [i|]; auto.
    destruct I as [A B]. split; [lia|]. eapply TR; [apply H2; auto|auto].
Qed.
Lemma lookup_saves : forall es l S r l' out, lookup_inv l S -> saves l es r = (l', out) -> lookup_inv l' (S ++ saved out).
Proof.
  induction es as [|e es IH]; intros l S r l' out I E; simpl in E.
  - inversion E; subst. simpl. rewrite app_nil_r. auto.
  - destruct (save l e r) as [[l1 x] r1] eqn:ES. destruct (saves l1 es r1) as [l2 xs] eqn:EV. inversion E; subst.
    apply (lookup_save _ _ _ _ _ _ _ I) in ES. destruct x as [[]|y].
    + replace (S ++ saved ((e, Ok tt) :: xs)) with ((S ++ [e]) ++ saved xs) by (rewrite <- app_assoc; auto). eauto.
    + change (saved ((e, Err y) :: xs)) with (saved xs). eauto.
Qed.
(** and its positions, when every failing call failed before the object was stored *)
Lemma positions_save l S e r l' x r' : length (l_objs l) = length S -> (forall k, find_key k (l_lookup l) = last_with k S) ->
  save l e r = (l', x, r') ->
  forall k, find_key k (l_lookup l') = last_with k (match x with Ok _ => S ++ [e] | Err _ => S end).
Proof.
  intros HL I E k. destruct (save_lookup _ _ _ _ _ _ E) as [H1 _]. destruct x as [[]|y].
  - destruct H1 as (-> & _ & _). rewrite last_with_app. simpl. rewrite I, HL. auto.
  - destruct H1 as [-> _]. auto.
Qed.
Lemma positions_saves : forall es l S r l' out, inv l S -> Forall ordinary es -> distinct (S ++ es) ->
  (forall k, find_key k (l_lookup l) = last_with k S) ->
  saves l es r = (l', out) -> forall k, find_key k (l_lookup l') = last_with k (S ++ saved out).
Proof.
  induction es as [|e es IH]; intros l S r l' out I O D F E; simpl in E.
  - inversion E; subst. simpl. rewrite app_nil_r. auto.
  - destruct (save l e r) as [[l1 x] r1] eqn:ES. destruct (saves l1 es r1) as [l2 xs] eqn:EV. inversion E; subst.
    inversion O; subst. pose proof (positions_save _ _ _ _ _ _ _ (v_len _ _ I) F ES) as PF.
    destruct (save_inv l S e r l1 x r1 I H1 (distinct_app _ _ _ D) ES) as [[-> I1]|(y & -> & I1 & _)].
    + replace (S ++ saved ((e, Ok tt) :: xs)) with ((S ++ [e]) ++ saved xs) by (rewrite <- app_assoc; auto).
      eapply IH; eauto. rewrite <- app_assoc. auto.
    + change (saved ((e, Err y) :: xs)) with (saved xs). eapply IH; eauto. eapply distinct_drop; eauto.
Qed.

From Verif Require Import Base Num Num_Proofs Heap_Model Heap_Proofs Nsga_Model Lib_Model Lib_Spec Lib_Proofs.
Require Import Permutation.
Open Scope nat_scope.

Definition de := new_ev 0 "" [] None [] None.
(** [o] is the object of the saved evaluation [e]. *)
Definition same_id (o e : ev) : Prop :=
  ev_ind o = ev_ind e /\ ev_key o = ev_key e /\ ev_score o = ev_score e /\ ev_error o = ev_error e.
Definition gone (o : ev) : Prop := ev_est o = [] /\ ev_pred o = None /\ ev_file o = None.
Definition on_disk (l : lib) (o e : ev) : Prop :=
  ev_est o = [] /\ ev_pred o = None /\ ev_file o = Some (ev_ind e) /\
  find_file (ev_ind e) (l_disk l) = Some (ev_est e, kept (l_n l) (l_sample l) (ev_pred e)).

Record inv (l : lib) (S : list ev) : Prop := {
  v_len : length (l_objs l) = length S;
  v_same : forall u, u < length S -> same_id (obj l u) (nth u S de);
  v_ok : Forall ordinary S;
  v_dist : distinct S;
  v_heap : heap item_lt dummy (l_top l);
  v_item : forall x, In x (l_top l) -> snd x < length S /\ fst x = ev_score (nth (snd x) S de) /\ success (nth (snd x) S de);
  v_perm : Permutation (map snd (l_top l) ++ l_other l) (seq 0 (length S));
  v_size : length (l_top l) = match l_m l with None => successes S | Some m => Nat.min m (successes S) end;
  v_best : forall x u, In x (l_top l) -> In u (l_other l) -> success (nth u S de) -> tuple_lt (fst x) (ev_score (nth u S de)) = false;
  v_disk : forall u, In u (map snd (l_top l)) -> on_disk l (obj l u) (nth u S de);
  v_gone : forall u, In u (l_other l) -> gone (obj l u);
  v_files : Permutation (map fst (l_disk l)) (map (fun u => ev_ind (nth u S de)) (map snd (l_top l)));
  v_nopred : l_sample l = NotSet -> Forall (no_pred (l_n l)) S }.

Lemma inv_new m n s : inv (new_lib m n s) [].
Proof.
  split; simpl; auto; try (intros; lia); try (intros; tauto).
  - constructor.
  - intros i H1 H2. simpl in H2. lia.
  - destruct m; auto. rewrite Nat.min_0_r. auto.
Qed.

(** moving to another sample keeps the invariant *)
Lemma inv_sample l S s : inv l S -> (l_sample l <> NotSet -> s = l_sample l) -> s = l_sample l \/ s <> NotSet ->
  inv (set_sample s l) S.
Proof.
  intros [V1 V2 V3 V4 V5 V6 V7 V8 V9 V10 V11 V12 V13] H H'. split; auto.
  - intros u Hu. destruct (V10 u Hu) as (A & B & C & D). split; auto. split; auto. split; auto. cbn [set_sample l_disk l_n l_sample].
    change (obj (set_sample s l) u) with (obj l u). rewrite D. f_equal. f_equal.
    destruct (l_sample l) eqn:E; try (rewrite H by discriminate; auto).
    specialize (V13 eq_refl). rewrite Forall_forall in V13.
    assert (Hin : In (nth u S de) S).
    { apply nth_In. apply in_map_iff in Hu as (x & <- & Hx). apply V6 in Hx. tauto. }
    rewrite !kept_no_pred; auto.
  - cbn [set_sample l_sample l_n]. intros ->. destruct H' as [H'|H']; [|congruence]. apply V13; auto.
Qed.

Lemma successes_app S e : successes (S ++ [e]) = successes S + (if successb e then 1 else 0).
Proof. unfold successes. rewrite filter_app, app_length. simpl. destruct (successb e); simpl; lia. Qed.
Lemma successb_iff e : successb e = true <-> success e.
Proof. unfold successb, success. destruct (ev_error e); split; congruence. Qed.

Lemma obj_app l e u : nth u (l_objs l ++ [e]) de = if u =? length (l_objs l) then e else nth u (l_objs l) de.
Proof.
  destruct (Nat.eqb_spec u (length (l_objs l))) as [->|N].
  - rewrite app_nth2, Nat.sub_diag by lia. auto.
  - destruct (Nat.lt_ge_cases u (length (l_objs l))); [apply app_nth1; auto|].
    rewrite !nth_overflow; auto. rewrite app_length; simpl; lia.
Qed.
Lemma nth_snoc (S : list ev) e u : nth u (S ++ [e]) de = if u =? length S then e else nth u S de.
Proof.
  destruct (Nat.eqb_spec u (length S)) as [->|N].
  - rewrite app_nth2, Nat.sub_diag by lia. auto.
  - destruct (Nat.lt_ge_cases u (length S)); [apply app_nth1; auto|].
    rewrite !nth_overflow; auto. rewrite app_length; simpl; lia.
Qed.

Lemma distinct_inj S u v : distinct S -> u < length S -> v < length S -> success (nth u S de) -> success (nth v S de) ->
  ev_ind (nth u S de) = ev_ind (nth v S de) -> u = v.
Proof.
  unfold distinct. revert u v. induction S as [|e S IH]; intros u v ND Hu Hv Su Sv E; [simpl in Hu; lia|].
  assert (HIN : forall w, w < length S -> success (nth w S de) -> In (ev_ind (nth w S de)) (map ev_ind (filter successb S))).
  { intros w Hw Sw. apply in_map, filter_In. split; [apply nth_In; auto|apply successb_iff; auto]. }
  simpl in ND. destruct u as [|u], v as [|v]; simpl in *; auto.
  - apply successb_iff in Su. rewrite Su in ND. simpl in ND. inversion ND; subst. exfalso. apply H1. rewrite E. apply HIN; auto. lia.
  - apply successb_iff in Sv. rewrite Sv in ND. simpl in ND. inversion ND; subst. exfalso. apply H1. rewrite <- E. apply HIN; auto. lia.
  - f_equal. apply IH; auto; try lia. destruct (successb e); auto. inversion ND; auto.
Qed.
Lemma distinct_snoc S e : distinct S -> (success e -> ~ In (ev_ind e) (map ev_ind (filter successb S))) -> distinct (S ++ [e]).
Proof.
  unfold distinct. intros H1 H2. rewrite filter_app, map_app. simpl. destruct (successb e) eqn:E; simpl.
  - apply successb_iff in E. eapply Permutation_NoDup; [apply Permutation_cons_append|]. constructor; auto.
  - rewrite app_nil_r. auto.
Qed.

Lemma top_all_ok l S : inv l S -> all_P okitem (l_top l).
Proof.
  intros I. apply Forall_forall. intros x Hx. destruct (v_item _ _ I x Hx) as (H1 & H2 & _). unfold okitem. rewrite H2.
  pose proof (v_ok _ _ I) as H. rewrite Forall_forall in H. apply H. apply nth_In; auto.
Qed.

Lemma nodup_top_other l S : inv l S -> NoDup (map snd (l_top l) ++ l_other l).
Proof. intros I. eapply Permutation_NoDup; [apply Permutation_sym, (v_perm _ _ I)|apply seq_NoDup]. Qed.
Lemma in_range l S u : inv l S -> In u (map snd (l_top l) ++ l_other l) <-> u < length S.
Proof.
  intros I. split; intros H.
  - assert (In u (seq 0 (length S))) by (eapply Permutation_in; [apply (v_perm _ _ I)|auto]). rewrite in_seq in *; lia.
  - eapply Permutation_in; [apply Permutation_sym, (v_perm _ _ I)|]. apply in_seq. lia.
Qed.

(** the outcome of a call after [process] *)
Lemma save_inv l S e r l' x r' : inv l S -> ordinary e ->
  (success e -> ~ In (ev_ind e) (map ev_ind (filter successb S))) ->
  save l e r = (l', x, r') ->
  (x = Ok tt /\ inv l' (S ++ [e])) \/ (exists y, x = Err y /\ inv l' S /\ snd (fst (process l e r)) = Err y).
Proof.
  intros I0 Oe De E. unfold save in E.
  destruct (process l e r) as [[l1 p] r1] eqn:EP. cbn [fst snd].
  destruct (process_ok _ _ _ _ _ _ EP) as (s & -> & PS & PE).
  destruct p as [e1|y].
  2:{ inversion E; subst. right. exists y. split; auto. split; auto.
      apply inv_sample; auto. destruct s; auto; try (right; discriminate).
      destruct (l_sample l) eqn:ES; auto; left; apply PS; left; discriminate. }
  destruct (PE e1 eq_refl) as [He1 HNS]. clear PE.
  assert (I : inv (set_sample s l) S).
  { apply inv_sample; auto. destruct s; auto; try (right; discriminate). }
  set (l1 := set_sample s l) in *.
  assert (En : l_n l1 = l_n l) by auto. assert (Esm : l_sample l1 = s) by auto.
  assert (Em : l_m l1 = l_m l) by auto.
  clearbody l1. clear EP I0 PS.
  pose proof I as [V1 V2 V3 V4 V5 V6 V7 V8 V9 V10 V11 V12 V13].
  assert (De' : distinct (S ++ [e])) by (apply distinct_snoc; auto).
  assert (Oe' : Forall ordinary (S ++ [e])) by (apply Forall_app; auto).
  assert (NP' : l_sample l1 = NotSet -> Forall (no_pred (l_n l1)) (S ++ [e])).
  { intros H. apply Forall_app. split; auto. constructor; auto. rewrite En. apply HNS. congruence. }
  assert (Se1 : same_id e1 e) by (subst e1; destruct e; repeat split; auto).
  assert (Fe1 : ev_file e1 = None) by (subst e1; destruct Oe as [H _]; destruct e; auto).
  set (u := length (l_objs l1)) in *. set (L := add_obj e1 l1) in *.
  assert (Hu : u = length S) by auto.
  assert (OB : forall v, obj L v = if v =? u then e1 else obj l1 v) by (intros v; apply obj_app).
  assert (LL : length (l_objs L) = Datatypes.S u) by (unfold L; simpl; rewrite app_length; simpl; lia).
  assert (RNG : forall v, In v (map snd (l_top l1) ++ l_other l1) <-> v < u) by (intros v; rewrite (in_range l1 S v I), Hu; tauto).
  assert (PMN : forall (t : list item) (o : list nat), Permutation (u :: map snd (l_top l1) ++ l_other l1) (map snd t ++ o) -> Permutation (map snd t ++ o) (seq 0 (length (S ++ [e])))).
  { intros t o H. eapply perm_trans; [apply Permutation_sym; exact H|]. rewrite app_length. simpl.
    rewrite Nat.add_1_r, seq_S. simpl. eapply perm_trans; [|apply Permutation_cons_append]. rewrite <- Hu. constructor. rewrite Hu. auto. }
  assert (NS : forall v, v < u -> nth v (S ++ [e]) de = nth v S de).
  { intros v Hv. rewrite nth_snoc. destruct (Nat.eqb_spec v (length S)); [lia|auto]. }
  assert (NSu : nth u (S ++ [e]) de = e) by (rewrite nth_snoc, <- Hu, Nat.eqb_refl; auto).
  assert (TOPU : forall v, In v (map snd (l_top l1)) -> v < u) by (intros; apply RNG, in_or_app; auto).
  assert (OTHU : forall v, In v (l_other l1) -> v < u) by (intros; apply RNG, in_or_app; auto).
  assert (FEXT : map (fun v => ev_ind (nth v S de)) (map snd (l_top l1)) = map (fun v => ev_ind (nth v (S ++ [e]) de)) (map snd (l_top l1))).
  { apply map_ext_in. intros v Hv. rewrite NS; auto. }
  destruct (ev_error e1) as [err|] eqn:EE.
  - (* a failed evaluation *)
    inversion E; subst l' x r'. clear E. left. split; auto.
    assert (Fe : ~ success e) by (destruct Se1 as (_ & _ & _ & H); unfold success; congruence).
    assert (OB2 : forall v, obj (add_lookup (ev_key e1) u (add_other u (clear_obj u L))) v = if v =? u then cleared e1 else obj l1 v).
    { intros v. unfold obj, add_lookup, add_other, clear_obj; simpl l_objs. rewrite nth_on_obj by (rewrite app_length; simpl; fold u; lia).
      change (nth ?x (l_objs l1 ++ [e1]) _) with (obj L x). rewrite !OB, Nat.eqb_refl.
      destruct (v =? u); auto. }
    split.
    + cbn. rewrite on_obj_length, !app_length. simpl. lia.
    + intros v Hv. rewrite app_length in Hv. simpl in Hv. rewrite OB2. destruct (Nat.eqb_spec v u) as [->|Nv].
      * rewrite NSu. destruct Se1 as (A & B & C & D). destruct e1; repeat split; auto.
      * rewrite NS by lia. apply V2. lia.
    + auto. + auto. + exact V5.
    + cbn. intros y Hy. destruct (V6 y Hy) as (A & B & C). rewrite app_length. rewrite NS by lia. repeat split; auto; lia.
    + cbn. apply PMN. rewrite app_assoc. apply Permutation_cons_append.
    + cbn. rewrite V8, successes_app. destruct (successb e) eqn:Q; [apply successb_iff in Q; tauto|]. rewrite Nat.add_0_r. auto.
    + cbn. intros y v Hy Hv Sv. apply in_app_or in Hv as [Hv|[<-|[]]].
      * rewrite NS in * by auto. auto.
      * rewrite NSu in Sv. tauto.
    + intros v Hv. cbn in Hv. pose proof (TOPU v Hv). rewrite OB2. destruct (Nat.eqb_spec v u); [lia|].
      rewrite NS by auto. destruct (V10 v Hv) as (A & B & C & D). repeat split; auto.
    + intros v Hv. cbn in Hv. rewrite OB2. apply in_app_or in Hv as [Hv|[<-|[]]].
      * pose proof (OTHU v Hv). destruct (Nat.eqb_spec v u); [lia|]. auto.
      * rewrite Nat.eqb_refl. destruct e1; repeat split; auto.
    + cbn. eapply perm_trans; [apply V12|]. 
      rewrite FEXT. apply Permutation_refl.
    + exact NP'.
  - assert (Su : success e) by (destruct Se1 as (_ & _ & _ & H); unfold success; congruence).
    assert (SCR : ev_score e1 = ev_score e) by apply Se1.
    assert (IND : ev_ind e1 = ev_ind e) by apply Se1.
    assert (EST : ev_est e1 = ev_est e) by (subst e1; destruct e; auto).
    assert (PRD : ev_pred e1 = kept (l_n l1) (l_sample l1) (ev_pred e)) by (rewrite En, Esm; subst e1; destruct e; auto).
    assert (OKE : okitem (ev_score e1, u)) by (unfold okitem; simpl; rewrite SCR; apply Oe).
    assert (NEWFILE : ~ In (ev_ind e) (map fst (l_disk l1))).
    { intros H. apply (Permutation_in _ V12) in H. apply in_map_iff in H as (v & Ev & Hv).
      pose proof (TOPU v Hv). apply in_map_iff in Hv as (y & <- & Hy). destruct (V6 y Hy) as (A & B & C).
      apply (De Su). rewrite <- Ev. apply in_map, filter_In. split; [apply nth_In; lia|apply successb_iff; auto]. }
    assert (SUC : successes (S ++ [e]) = Datatypes.S (successes S)).
    { rewrite successes_app. apply successb_iff in Su. rewrite Su. lia. }
    destruct (match l_m L with None => true | Some m => length (l_top L) <? m end) eqn:EM.
    + (* room in the top *)
      inversion E; subst l' x r'. clear E. left. split; auto.
      set (l2 := to_disk u e1 L) in *. change (l_top l2) with (l_top l1) in *.
      destruct (heappush_ok item_lt dummy okitem item_asym item_trans (l_top l1) (ev_score e1, u) (top_all_ok _ _ I) OKE V5) as [HP1 HP2].
      set (t := heappush item_lt dummy (l_top l1) (ev_score e1, u)) in *.
      assert (HP3 : Permutation (u :: map snd (l_top l1)) (map snd t)) by (apply (Permutation_map snd) in HP2; exact HP2).
      assert (OB2 : forall v, obj (add_lookup (ev_key e1) u (set_top t l2)) v = if v =? u then with_file (Some (ev_ind e1)) (cleared e1) else obj l1 v).
      { intros v. unfold obj, add_lookup, set_top, l2, to_disk; simpl l_objs. rewrite nth_on_obj by (rewrite app_length; simpl; fold u; lia).
        change (nth ?x (l_objs l1 ++ [e1]) _) with (obj L x). rewrite !OB, Nat.eqb_refl. destruct (v =? u); auto. }
      assert (DSK : l_disk (add_lookup (ev_key e1) u (set_top t l2)) = write (ev_ind e) (ev_est e, kept (l_n l1) (l_sample l1) (ev_pred e)) (l_disk l1))
        by (cbn; rewrite IND, EST, PRD; auto).
      split.
      * cbn. rewrite on_obj_length, !app_length. simpl. lia.
      * intros v Hv. rewrite app_length in Hv. simpl in Hv. rewrite OB2. destruct (Nat.eqb_spec v u) as [->|Nv].
        { rewrite NSu. destruct Se1 as (A & B & C & D). destruct e1; repeat split; auto. }
        { rewrite NS by lia. apply V2. lia. }
      * auto. * auto. * exact HP1.
      * cbn. intros y Hy. apply (Permutation_in _ (Permutation_sym HP2)) in Hy. rewrite app_length. destruct Hy as [<-|Hy].
        { simpl snd. simpl fst. rewrite NSu. repeat split; auto. simpl. lia. }
        { destruct (V6 y Hy) as (A & B & C). rewrite NS by lia. repeat split; auto; lia. }
      * change (Permutation (map snd t ++ l_other l1) (seq 0 (length (S ++ [e])))). apply PMN. apply (Permutation_app_tail (l_other l1)) in HP3. exact HP3.
      * change (length t = match l_m l1 with None => successes (S ++ [e]) | Some m => Nat.min m (successes (S ++ [e])) end).
        rewrite <- (Permutation_length HP2). simpl length. rewrite V8, SUC. change (l_m L) with (l_m l1) in EM. change (l_top L) with (l_top l1) in EM.
        destruct (l_m l1) as [m|]; auto. apply Nat.ltb_lt in EM. lia.
      * intros y v Hy Hv Sv. cbn in Hy, Hv. pose proof (OTHU v Hv). rewrite NS in * by auto.
        apply (Permutation_in _ (Permutation_sym HP2)) in Hy. destruct Hy as [<-|Hy]; [|auto].
        (* room, so nothing successful was ever discarded *)
        exfalso.
        assert (HC : length (l_top l1) = successes S).
        { change (l_m L) with (l_m l1) in EM. change (l_top L) with (l_top l1) in EM. rewrite V8 in *.
          destruct (l_m l1) as [m|]; auto. apply Nat.ltb_lt in EM. lia. }
        assert (HALL : incl (v :: map snd (l_top l1)) (filter (fun w => successb (nth w S de)) (seq 0 (length S)))).
        { intros w [<-|Hw]; apply filter_In.
          - split; [apply in_seq; lia|apply successb_iff; auto].
          - split; [apply in_seq; specialize (TOPU w Hw); lia|]. apply in_map_iff in Hw as (y & <- & Hy). apply successb_iff. apply V6; auto. }
        apply NoDup_incl_length in HALL.
        2:{ pose proof (nodup_top_other _ _ I) as ND. constructor.
            - intros H'. clear - ND Hv H'. induction (map snd (l_top l1)) as [|w q IH]; [destruct H'|]. simpl in ND. inversion ND; subst.
              destruct H' as [->|H']; auto. apply H1, in_or_app; auto.
            - clear - ND. induction (map snd (l_top l1)) as [|w q IH]; [constructor|]. simpl in ND. inversion ND; subst.
              constructor; auto. intros H'. apply H1, in_or_app; auto. }
        cbn [length] in HALL. assert (HC2 : length (map snd (l_top l1)) = successes S) by (rewrite map_length; exact HC).
        assert (HF : length (filter (fun w => successb (nth w S de)) (seq 0 (length S))) = successes S).
        { clear. unfold successes. assert (HH : forall k S, length (filter (fun w => successb (nth (w - k) S de)) (seq k (length S))) = length (filter successb S)).
          { intros k S'. revert k. induction S' as [|a S' IH]; intros k; simpl; auto. rewrite Nat.sub_diag.
            assert (EQ : filter (fun w => successb (nth (w - k) (a :: S') de)) (seq (Datatypes.S k) (length S')) =
                         filter (fun w => successb (nth (w - Datatypes.S k) S' de)) (seq (Datatypes.S k) (length S'))).
            { apply filter_ext_in. intros w Hw. apply in_seq in Hw. replace (w - k) with (Datatypes.S (w - Datatypes.S k)) by lia. auto. }
            simpl in EQ. destruct (successb a); simpl; rewrite EQ, IH; auto. }
          rewrite <- (HH 0 S). f_equal. apply filter_ext. intros w. rewrite Nat.sub_0_r. auto. }
        lia.
      * intros v Hv. cbn in Hv. rewrite OB2. apply (Permutation_in _ (Permutation_sym HP3)) in Hv.
        unfold on_disk. rewrite DSK. destruct (Nat.eqb_spec v u) as [->|Nv].
        { rewrite NSu. rewrite find_file_write, Nat.eqb_refl. split; [auto|]. split; [auto|]. split; [|auto]. cbn. congruence. }
        { destruct Hv as [Hv|Hv]; [congruence|]. pose proof (TOPU v Hv). rewrite NS by auto.
          destruct (V10 v Hv) as (A & B & C & D). repeat split; auto. rewrite find_file_write.
          destruct (Nat.eqb_spec (ev_ind (nth v S de)) (ev_ind e)) as [Eq|]; [|exact D].
          exfalso. apply NEWFILE. rewrite <- Eq. eapply find_file_in; eauto. }
      * intros v Hv. cbn in Hv. rewrite OB2. pose proof (OTHU v Hv). destruct (Nat.eqb_spec v u); [lia|]. auto.
      * rewrite DSK. unfold write. cbn [map fst]. rewrite filter_keys, filter_absent by auto.
        eapply perm_trans; [apply perm_skip, V12|]. cbn [add_lookup set_top l_top].
        eapply perm_trans; [|apply Permutation_map, HP3]. cbn [map]. rewrite NSu. constructor.
        rewrite FEXT. apply Permutation_refl.
      * exact NP'.
    + (* the top is full *)
      change (l_top L) with (l_top l1) in *. change (l_m L) with (l_m l1) in *.
      destruct (heappushpop item_lt dummy (l_top l1) (ev_score e1, u)) as [rm t] eqn:EH.
      destruct (heappushpop_ok item_lt dummy okitem item_asym item_trans (l_top l1) (ev_score e1, u) rm t (top_all_ok _ _ I) OKE V5 EH)
        as (HP1 & HP2 & HP3 & HP4).
      assert (FULL : exists m, l_m l1 = Some m /\ length (l_top l1) = m /\ m <= successes S).
      { destruct (l_m l1) as [m|]; [|discriminate]. apply Nat.ltb_ge in EM. exists m. split; auto. lia. }
      destruct FULL as (m & FM & FL & FS).
      destruct HP4 as [(-> & -> & HR)|(h & Hh & -> & Hlt)].
      * (* the new evaluation is not good enough *)
        simpl fst in E. simpl snd in E. rewrite tuple_eq_refl in E by exact OKE.
        inversion E; subst l' x r'. clear E. left. split; auto.
        assert (OB2 : forall v, obj (add_lookup (ev_key e1) u (add_other u (clear_obj u (set_top (l_top l1) L)))) v = if v =? u then cleared e1 else obj l1 v).
        { intros v. unfold obj, add_lookup, add_other, clear_obj, set_top; simpl l_objs. rewrite nth_on_obj by (rewrite app_length; simpl; fold u; lia).
          change (nth ?x (l_objs l1 ++ [e1]) _) with (obj L x). rewrite !OB, Nat.eqb_refl. destruct (v =? u); auto. }
        split.
        { cbn. rewrite on_obj_length, !app_length. simpl. lia. }
        { intros v Hv. rewrite app_length in Hv. simpl in Hv. rewrite OB2. destruct (Nat.eqb_spec v u) as [->|Nv].
          - rewrite NSu. destruct Se1 as (A & B & C & D). destruct e1; repeat split; auto.
          - rewrite NS by lia. apply V2. lia. }
        { auto. } { auto. } { exact V5. }
        { cbn. intros y Hy. destruct (V6 y Hy) as (A & B & C). rewrite app_length. rewrite NS by lia. repeat split; auto; lia. }
        { cbn. apply PMN. rewrite app_assoc. apply Permutation_cons_append. }
        { cbn. rewrite FM, FL, SUC. lia. }
        { cbn. intros y v Hy Hv Sv. apply in_app_or in Hv as [Hv|[<-|[]]].
          - rewrite NS in * by auto. auto.
          - rewrite NSu, <- SCR. apply (HP3 y Hy). }
        { intros v Hv. cbn in Hv. pose proof (TOPU v Hv). rewrite OB2. destruct (Nat.eqb_spec v u); [lia|].
          rewrite NS by auto. destruct (V10 v Hv) as (A & B & C & D). repeat split; auto. }
        { intros v Hv. cbn in Hv. rewrite OB2. apply in_app_or in Hv as [Hv|[<-|[]]].
          - pose proof (OTHU v Hv). destruct (Nat.eqb_spec v u); [lia|]. auto.
          - rewrite Nat.eqb_refl. destruct e1; repeat split; auto. }
        { cbn. eapply perm_trans; [apply V12|].
          rewrite FEXT. apply Permutation_refl. }
        { exact NP'. }
      * (* the worst of the top is replaced *)
        assert (NEQ : tuple_eq (fst h) (ev_score e1) = false).
        { destruct (tuple_eq (fst h) (ev_score e1)) eqn:Q; auto. apply tuple_eq_lt in Q. unfold item_lt in Hlt. simpl in Hlt. congruence. }
        rewrite NEQ in E.
        assert (Ht : In h (l_top l1)) by (destruct (l_top l1); [discriminate|]; inversion Hh; subst; simpl; auto).
        destruct (V6 h Ht) as (Hhu & Hhs & Hhok). set (w := snd h) in *.
        assert (Hw : In w (map snd (l_top l1))) by (apply in_map; auto). pose proof (TOPU w Hw) as Hwu.
        destruct (V10 w Hw) as (Wa & Wb & Wc & Wd).
        set (l3 := to_disk u e1 (set_top t L)) in *.
        assert (OB3 : forall v, obj l3 v = if v =? u then with_file (Some (ev_ind e1)) (cleared e1) else obj l1 v).
        { intros v. unfold obj, l3, to_disk, set_top; simpl l_objs. rewrite nth_on_obj by (rewrite app_length; simpl; fold u; lia).
          change (nth ?x (l_objs l1 ++ [e1]) _) with (obj L x). rewrite !OB, Nat.eqb_refl. destruct (v =? u); auto. }
        assert (DSK3 : l_disk l3 = write (ev_ind e) (ev_est e, kept (l_n l1) (l_sample l1) (ev_pred e)) (l_disk l1))
          by (cbn; rewrite IND, EST, PRD; auto).
        assert (IW : ev_ind (nth w S de) <> ev_ind e).
        { intros Eq. apply NEWFILE. rewrite <- Eq. eapply find_file_in; eauto. }
        unfold remove_from_disk in E. rewrite OB3 in E.
        destruct (Nat.eqb_spec w u); [lia|]. rewrite Wc in E.
        rewrite DSK3, find_file_write in E. destruct (Nat.eqb_spec (ev_ind (nth w S de)) (ev_ind e)); [congruence|].
        rewrite Wd in E. inversion E; subst l' x r'. clear E. left. split; auto.
        match goal with |- inv ?X _ => set (l5 := X) end.
        assert (OB5 : forall v, obj l5 v = if v =? w then with_file None (obj l1 w) else if v =? u then with_file (Some (ev_ind e1)) (cleared e1) else obj l1 v).
        { intros v. unfold obj at 1. unfold l5, add_lookup, add_other. simpl l_objs.
          change (on_obj u (fun e => with_file (Some (ev_ind e)) (cleared e)) (l_objs l1 ++ [e1])) with (l_objs l3).
          assert (LL3 : w < length (l_objs l3)) by (unfold l3; simpl; rewrite on_obj_length, app_length; simpl; fold u; lia).
          rewrite nth_on_obj by auto. change (nth ?x (l_objs l3) _) with (obj l3 x). rewrite !OB3.
          destruct (Nat.eqb_spec w u); [lia|]. destruct (v =? w); auto. }
        assert (PT : Permutation (u :: map snd (l_top l1)) (w :: map snd t)) by (apply (Permutation_map snd) in HP2; exact HP2).
        pose proof (nodup_top_other _ _ I) as NDT.
        assert (NDt : NoDup (w :: map snd t)).
        { eapply Permutation_NoDup; [exact PT|]. constructor.
          - intros H'. apply TOPU in H'. lia.
          - clear - NDT. induction (map snd (l_top l1)) as [|z q IH]; [constructor|]. simpl in NDT. inversion NDT; subst.
            constructor; auto. intros H'. apply H1, in_or_app; auto. }
        assert (Hwt : ~ In w (map snd t)) by (inversion NDt; auto).
        assert (TIN : forall v, In v (map snd t) -> v <> w /\ (v = u \/ In v (map snd (l_top l1)))).
        { intros v Hv. split; [intros ->; auto|]. assert (H' : In v (u :: map snd (l_top l1))).
          { eapply Permutation_in; [apply Permutation_sym; exact PT|simpl; auto]. } simpl in H'. destruct H'; auto. }
        assert (DSK5 : l_disk l5 = filter (fun x => negb (fst x =? ev_ind (nth w S de))) (write (ev_ind e) (ev_est e, kept (l_n l1) (l_sample l1) (ev_pred e)) (l_disk l1)))
          by (unfold l5; cbn [add_lookup add_other l_disk]; rewrite ?DSK3; auto).
        split.
        { unfold l5. cbn. rewrite !on_obj_length, !app_length. simpl. lia. }
        { intros v Hv. rewrite app_length in Hv. simpl in Hv. rewrite OB5. destruct (Nat.eqb_spec v w) as [->|Nv].
          - rewrite NS by auto. destruct (V2 w Hhu) as (A & B & C & D). destruct (obj l1 w); repeat split; auto.
          - destruct (Nat.eqb_spec v u) as [->|Nv2].
            + rewrite NSu. destruct Se1 as (A & B & C & D). destruct e1; repeat split; auto.
            + rewrite NS by lia. apply V2. lia. }
        { auto. } { auto. } { exact HP1. }
        { intros y Hy. change (In y t) in Hy. rewrite app_length.
          assert (Hy' : In y (h :: t)) by (simpl; auto). apply (Permutation_in _ (Permutation_sym HP2)) in Hy'. destruct Hy' as [<-|Hy'].
          - simpl snd. simpl fst. rewrite NSu. repeat split; auto. simpl. lia.
          - destruct (V6 y Hy') as (A & B & C). rewrite NS by lia. repeat split; auto; lia. }
        { change (Permutation (map snd t ++ l_other l1 ++ [w]) (seq 0 (length (S ++ [e])))). apply PMN.
          apply (Permutation_app_tail (l_other l1)) in PT. eapply perm_trans; [exact PT|]. simpl.
          rewrite app_assoc. apply Permutation_cons_append. }
        { change (length t = match l_m l1 with None => successes (S ++ [e]) | Some m => Nat.min m (successes (S ++ [e])) end).
          rewrite FM, SUC. apply Permutation_length in HP2. simpl in HP2. lia. }
        { intros y v Hy Hv Sv. change (In y t) in Hy. change (In v (l_other l1 ++ [w])) in Hv.
          assert (Hy' : In y (h :: t)) by (simpl; auto). apply (Permutation_in _ (Permutation_sym HP2)) in Hy'.
          pose proof (top_all_ok _ _ I) as TOK. unfold all_P in TOK. rewrite Forall_forall in TOK.
          assert (OKy : okitem y) by (destruct Hy' as [<-|Hy']; auto).
          assert (OKh : okitem h) by auto.
          apply in_app_or in Hv as [Hv|[<-|[]]].
          - pose proof (OTHU v Hv). rewrite NS in * by auto.
            assert (OKv : okn (ev_score (nth v S de))).
            { rewrite Forall_forall in V3. apply V3. apply nth_In. lia. }
            apply (tuple_nlt_trans (fst y) (fst h) _); auto. apply (HP3 y Hy).
          - rewrite NS by auto. rewrite <- Hhs. apply (HP3 y Hy). }
        { intros v Hv. change (In v (map snd t)) in Hv. rewrite OB5. destruct (TIN v Hv) as [Nv Hv']. destruct (Nat.eqb_spec v w); [congruence|].
          unfold on_disk. rewrite DSK5, find_file_filter, find_file_write. destruct (Nat.eqb_spec v u) as [->|Nv2].
          - rewrite NSu. destruct (Nat.eqb_spec (ev_ind e) (ev_ind (nth w S de))); [congruence|]. rewrite Nat.eqb_refl.
            split; [auto|]. split; [auto|]. split; [|auto]. cbn. congruence.
          - destruct Hv' as [?|Hv']; [congruence|]. pose proof (TOPU v Hv'). rewrite NS by auto.
            destruct (V10 v Hv') as (A & B & C & D). split; auto. split; auto. split; auto.
            destruct (Nat.eqb_spec (ev_ind (nth v S de)) (ev_ind (nth w S de))) as [Eq|].
            + exfalso. apply Nv. apply (distinct_inj S); auto; try lia.
              apply in_map_iff in Hv' as (y & <- & Hy). apply V6; auto.
            + destruct (Nat.eqb_spec (ev_ind (nth v S de)) (ev_ind e)) as [Eq|]; [|exact D].
              exfalso. apply NEWFILE. rewrite <- Eq. eapply find_file_in; eauto. }
        { intros v Hv. change (In v (l_other l1 ++ [w])) in Hv. rewrite OB5. apply in_app_or in Hv as [Hv|[<-|[]]].
          - pose proof (OTHU v Hv). destruct (Nat.eqb_spec v w) as [->|Nv].
            + exfalso. clear - NDT Hw Hv. induction (map snd (l_top l1)) as [|z q IH]; [destruct Hw|]. simpl in NDT. inversion NDT; subst.
              destruct Hw as [->|Hw]; auto. apply H1, in_or_app; auto.
            + destruct (Nat.eqb_spec v u); [lia|]. auto.
          - rewrite Nat.eqb_refl. destruct (obj l1 w); cbn in *; repeat split; auto. }
        { rewrite DSK5, filter_keys. unfold write. cbn [map fst]. rewrite filter_keys, (filter_absent (ev_ind e)) by auto.
          change (l_top l5) with t. simpl filter.
          destruct (Nat.eqb_spec (ev_ind e) (ev_ind (nth w S de))); [congruence|]. simpl.
          assert (PF : Permutation (ev_ind e :: map fst (l_disk l1)) (ev_ind (nth w S de) :: map (fun v => ev_ind (nth v (S ++ [e]) de)) (map snd t))).
          { eapply perm_trans; [apply perm_skip, V12|].
            apply (Permutation_map (fun v => ev_ind (nth v (S ++ [e]) de))) in PT. simpl in PT. rewrite NSu in PT. rewrite NS in PT by auto.
            eapply perm_trans; [|exact PT]. constructor. rewrite FEXT. apply Permutation_refl. }
          apply (filter_perm (fun x => negb (x =? ev_ind (nth w S de)))) in PF. simpl in PF. rewrite Nat.eqb_refl in PF. simpl in PF.
          destruct (Nat.eqb_spec (ev_ind e) (ev_ind (nth w S de))); [congruence|]. simpl in PF.
          eapply perm_trans; [exact PF|]. rewrite filter_absent; auto.
          intros H'. apply in_map_iff in H' as (v & Ev & Hv). destruct (TIN v Hv) as [Nv Hv'].
          destruct Hv' as [->|Hv']; [rewrite NSu in Ev; congruence|]. pose proof (TOPU v Hv'). rewrite NS in Ev by auto.
          apply Nv. apply (distinct_inj S); auto; try lia. apply in_map_iff in Hv' as (y & <- & Hy). apply V6; auto. }
        { exact NP'. }
Qed.

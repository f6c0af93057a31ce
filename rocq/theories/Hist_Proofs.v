From Verif Require Import Base Num Heap_Model Nsga_Model Lib_Model Lib_Spec Lib_Proofs Lib_Proofs2 Lib_Proofs3 Ens_Model Hist_Model Hist_Spec.
Open Scope nat_scope.

(** * Where the estimators in a library come from *)
Section Prov.
Context (P : nat -> Prop).
Definition prov (l : lib) : Prop :=
  (forall f c, find_file f (l_disk l) = Some c -> Forall P (fst c)) /\ Forall (fun o => Forall P (ev_est o)) (l_objs l).
Lemma prov_on_obj u f os : Forall (fun o => Forall P (ev_est o)) os -> (forall o, Forall P (ev_est o) -> Forall P (ev_est (f o))) ->
  Forall (fun o => Forall P (ev_est o)) (on_obj u f os).
Proof.
  intros H F. apply Forall_forall. intros o Ho. unfold on_obj in Ho. rewrite Forall_forall in H.
  destruct (nth_error os u) as [e|] eqn:E; auto. apply nth_error_In in E. revert Ho. generalize (F e (H e E)). clear E. intros FE Ho.
  apply (In_nth _ _ de) in Ho as (i & _ & <-). clear F.
  assert (G : forall os u, (forall o, In o os -> Forall P (ev_est o)) -> Forall P (ev_est (nth i (set_nth u (f e) os) de))); auto.
  clear - FE. induction i as [|i IH]; intros os u H.
  - destruct os as [|a os], u; simpl; auto; apply H; simpl; auto.
  - destruct os as [|a os], u; simpl; auto.
    + destruct (Nat.lt_ge_cases i (length os)) as [L|L]; [apply H; right; apply nth_In; auto|]. rewrite nth_overflow by auto. constructor.
    + apply IH. intros; apply H; simpl; auto.
Qed.
Lemma prov_disk f g c disk : (forall f c, find_file f disk = Some c -> Forall P (fst c)) -> Forall P (fst c) ->
  forall c', find_file f (write g c disk) = Some c' -> Forall P (fst c').
Proof. intros H Hc c' E. rewrite find_file_write in E. destruct (f =? g); [inversion E; subst; auto|eauto]. Qed.
Lemma prov_save l e r l' x r' : prov l -> (success e -> Forall P (ev_est e)) -> save l e r = (l', x, r') -> prov l'.
Proof.
  intros [D O] He E. unfold save in E. destruct (process l e r) as [[l1 p] r1] eqn:EP.
  destruct (process_ok _ _ _ _ _ _ EP) as (s & -> & _ & PE). clear EP.
  destruct p as [e1|y]; [|inversion E; subst; split; auto].
  destruct (PE e1 eq_refl) as [He1 _]. clear PE.
  assert (A1 : ev_est e1 = ev_est e) by (subst e1; destruct e; auto).
  assert (A2 : ev_error e1 = ev_error e) by (subst e1; destruct e; auto). clear He1.
  set (u := length (l_objs (set_sample s l))) in *.
  assert (CL : forall o, Forall P (ev_est o) -> Forall P (ev_est (cleared o))) by (intros; constructor).
  destruct (ev_error e1) as [er|] eqn:EE.
  - inversion E; subst. split; [exact D|]. cbn. unfold on_obj. rewrite nth_error_app2 by (unfold u; cbn; lia).
    unfold u. cbn. rewrite Nat.sub_diag. cbn. replace (set_nth (length (l_objs l)) (cleared e1) (l_objs l ++ [e1])) with (l_objs l ++ [cleared e1]).
    + apply Forall_app. split; auto. repeat constructor.
    + clear. induction (l_objs l) as [|a os IH]; simpl; auto. rewrite <- IH. auto.
  - assert (Pe : Forall P (ev_est e1)) by (rewrite A1; apply He; unfold success; congruence).
    assert (O2 : Forall (fun o => Forall P (ev_est o)) (l_objs l ++ [e1])) by (apply Forall_app; split; auto).
    assert (D2 : forall f c, find_file f (write (ev_ind e1) (ev_est e1, ev_pred e1) (l_disk l)) = Some c -> Forall P (fst c)).
    { intros f c. apply prov_disk; auto. }
    destruct (match l_m (add_obj e1 (set_sample s l)) with None => true | Some m => length (l_top (add_obj e1 (set_sample s l))) <? m end).
    { inversion E; subst. split; [exact D2|]. cbn. apply prov_on_obj; auto; intros; constructor. }
    destruct (heappushpop _ _ _ _) as [rm t]. destruct (tuple_eq _ _).
    { inversion E; subst. split; [exact D|]. cbn. apply prov_on_obj; auto. }
    assert (O3 : Forall (fun o => Forall P (ev_est o)) (l_objs (to_disk u e1 (set_top t (add_obj e1 (set_sample s l)))))).
    { cbn. apply prov_on_obj; auto; intros; constructor. }
    unfold remove_from_disk in E.
    destruct (ev_file _) as [f|]; [|inversion E; subst; split; [exact D2|exact O3]].
    destruct (find_file f _); inversion E; subst; [|split; [exact D2|exact O3]].
    split.
    + intros g c. change (find_file g (filter (fun x => negb (fst x =? f)) (write (ev_ind e1) (ev_est e1, ev_pred e1) (l_disk l))) = Some c -> Forall P (fst c)). rewrite find_file_filter. destruct (g =? f); [discriminate|]. apply D2.
    + cbn [add_lookup add_other l_objs]. apply prov_on_obj; auto.
Qed.
Lemma prov_saves : forall es l r l' out, prov l -> (forall e, In e es -> success e -> Forall P (ev_est e)) ->
  saves l es r = (l', out) -> prov l'.
Proof.
  induction es as [|e es IH]; intros l r l' out I H E; simpl in E; [inversion E; subst; auto|].
  destruct (save l e r) as [[l1 x] r1] eqn:ES. destruct (saves l1 es r1) as [l2 xs] eqn:EV. inversion E; subst.
  eapply IH; [eapply prov_save; [exact I| |exact ES]; intros; apply H; simpl; auto| |exact EV]. intros; apply H; simpl; auto.
Qed.
Lemma prov_set l s : prov l -> prov (set_sample s l). Proof. intros [A B]. split; auto. Qed.
Lemma prov_get l u es : prov l -> get_estimators l u = Ok es -> Forall P es.
Proof.
  intros [D O] E. unfold get_estimators in E.
  assert (Q : Forall P (ev_est (obj l u))).
  { unfold obj. destruct (Nat.lt_ge_cases u (length (l_objs l))) as [L|L]; [|rewrite nth_overflow by auto; constructor].
    rewrite Forall_forall in O. apply O, nth_In. auto. }
  destruct (ev_est (obj l u)) eqn:EE.
  - destruct (ev_file _); [|inversion E; subst; auto]. destruct (find_file _ _) eqn:F; inversion E; subst. eauto.
  - inversion E; subst; auto.
Qed.

(** * and in an ensemble *)
Context (raw : list entry) (tr : option (mat -> res mat)) (smp : option (list nat)) (score : mat -> res num).
Definition qm (m : mdl) : Prop := forall es, m_est m = Ok es -> Forall P es.
Definition ens_ok (s : ens) : Prop :=
  Forall qm (e_lib s) /\ (forall d, e_models s = Some d -> Forall (fun x => qm (fst (snd x))) d) /\
  (forall l, e_fit s = Some l -> Forall (fun ew => P (fst ew)) l).
Context (HR : forall en es, In en raw -> n_est en = Ok es -> Forall P es).
Lemma fetch_qm en m : In en raw -> fetch tr smp en = Ok m -> qm m.
Proof.
  intros Hin H es. unfold fetch, rbind in H. repeat match type of H with match ?x with _ => _ end = _ => destruct x; try discriminate end.
  inversion H; subst. simpl. eauto.
Qed.
Lemma fill_qm : forall es acc l x, incl es raw -> Forall qm acc -> fill tr smp es acc = (l, x) -> Forall qm l.
Proof.
  induction es as [|en es IH]; intros acc l x I A E; simpl in E; [inversion E; subst; auto|].
  destruct (fetch tr smp en) as [m|] eqn:F; [|inversion E; subst; auto].
  eapply IH; [|apply Forall_app; split; [exact A|repeat constructor]|exact E]; [intros y Hy; apply I; simpl; auto|].
  eapply fetch_qm; [|exact F]. apply I; simpl; auto.
Qed.
Lemma library_ok s s' x : ens_ok s -> model_library raw tr smp s = (s', x) -> ens_ok s' /\ forall l, x = Ok l -> Forall qm l.
Proof.
  intros (A & B & C) E. unfold model_library in E. destruct (e_lib s) eqn:EL.
  - destruct (fill tr smp raw []) as [l y] eqn:F. assert (Q : Forall qm l) by (eapply fill_qm; [apply incl_refl|constructor|exact F]).
    inversion E; subst. split; [repeat split; auto|]. intros l0. destruct y; simpl; [|discriminate]. intros H; inversion H; subst; auto.
  - injection E as <- <-. split; [|intros l1 H; injection H as <-; auto].
    split; [rewrite EL; auto|split; auto].
Qed.
Lemma pop_qm k : forall d o r, Forall (fun x => qm (fst (snd x))) d -> pop k d = (o, r) ->
  Forall (fun x => qm (fst (snd x))) r /\ forall y, o = Some y -> qm (fst y).
Proof.
  induction d as [|[i x] d IH]; intros o r A E; simpl in E; [inversion E; subst; split; auto; discriminate|].
  inversion A; subst. destruct (i =? k).
  - inversion E; subst. split; auto. intros y H; inversion H; subst; auto.
  - destruct (pop k d) as [y r0] eqn:EP. inversion E; subst. destruct (IH _ _ H2 eq_refl). split; auto.
Qed.
Lemma add_qm m d : qm m -> Forall (fun x => qm (fst (snd x))) d -> Forall (fun x => qm (fst (snd x))) (add_model m d).
Proof.
  intros A B. unfold add_model. destruct (pop (m_id m) d) as [o r] eqn:E. destruct (pop_qm _ _ _ _ B E) as [C D].
  destruct o as [[m0 w]|]; apply Forall_app; split; auto; repeat constructor; simpl; auto. apply (D _ eq_refl).
Qed.
Lemma fold_add_qm : forall ms d, Forall qm ms -> Forall (fun x => qm (fst (snd x))) d ->
  Forall (fun x => qm (fst (snd x))) (fold_left (fun d m => add_model m d) ms d).
Proof. induction ms as [|m ms IH]; intros d A B; simpl; auto. inversion A; subst. apply IH; auto. apply add_qm; auto. Qed.
Lemma Forall_firstn {A} (Q : A -> Prop) n l : Forall Q l -> Forall Q (firstn n l).
Proof. intros H. rewrite <- (firstn_skipn n l) in H. apply Forall_app in H. tauto. Qed.
Lemma models_ok s d : ens_ok s -> Forall (fun x => qm (fst (snd x))) d -> ens_ok (set_models d s).
Proof. intros (A & B & C) D. repeat split; auto. simpl. intros d0 H; inversion H; subst; auto. Qed.
Lemma build_initial_prov n s s' x : ens_ok s -> build_initial raw tr smp score n s = (s', x) -> ens_ok s'.
Proof.
  intros I E. unfold build_initial in E. destruct (n <=? 0)%Z; [inversion E; subst; auto|].
  set (s0 := match e_models s with Some (_ :: _) => set_models [] s | _ => s end) in *.
  assert (I0 : ens_ok s0) by (unfold s0; destruct (e_models s) as [[|]|]; auto; apply models_ok; auto).
  clearbody s0. clear I. destruct (model_library raw tr smp s0) as [s1 y] eqn:ML.
  destruct (library_ok _ _ _ I0 ML) as [I1 L]. destruct y as [lib|]; [|inversion E; subst; auto].
  specialize (L lib eq_refl). destruct (e_models s1) as [old|] eqn:EM.
  - assert (G : ens_ok (set_models (fold_left (fun d m => add_model m d) (firstn (Z.to_nat n) lib) old) s1)).
    { apply models_ok; auto. apply fold_add_qm; [apply Forall_firstn; auto|]. apply I1. auto. }
    destruct (firstn (Z.to_nat n) lib); inversion E; subst; auto.
  - destruct (firstn (Z.to_nat n) lib); inversion E; subst; auto.
Qed.
Lemma scan_qm : forall lib avg w best bs b x, Forall qm lib -> (forall m, best = Some m -> qm m) ->
  scan score lib avg w best bs = Ok (b, x) -> forall m, b = Some m -> qm m.
Proof.
  induction lib as [|a lib IH]; intros avg w best bs b x A B E; simpl in E; [inversion E; subst; auto|].
  inversion A; subst. destruct (m_pred a) as [p|]; [|discriminate]. unfold rbind in E.
  destruct (mzip Qcminus p avg) as [z|]; [|discriminate]. destruct (mzip Qcplus avg _) as [c|]; [|discriminate]. destruct (score c) as [sc|]; [|discriminate].
  destruct (nltb bs sc).
  - eapply (IH avg w (Some a) sc b x); auto. intros m2 H; inversion H; subst; auto.
  - eapply (IH avg w best bs b x); auto.
Qed.
Lemma expand_loop_prov : forall n best s s' x, ens_ok s -> (forall m, best = Some m -> qm m) ->
  expand_loop raw tr smp score n best s = (s', x) -> ens_ok s'.
Proof.
  induction n as [|n IH]; intros best s s' x I B E; simpl in E; [inversion E; subst; auto|].
  destruct (e_models s) as [d|] eqn:EM; [|inversion E; subst; auto]. destruct (average d); [|inversion E; subst; auto].
  destruct (model_library raw tr smp s) as [s1 y] eqn:ML. destruct (library_ok _ _ _ I ML) as [I1 L].
  destruct y as [lib|]; [|inversion E; subst; auto]. specialize (L lib eq_refl).
  destruct (scan score lib a (total (weights d)) best NInf) as [[b z]|] eqn:SC; [|inversion E; subst; auto].
  pose proof (scan_qm _ _ _ _ _ _ _ L B SC) as Q. destruct b as [m|]; [|inversion E; subst; auto].
  assert (G : ens_ok (set_models (add_model m d) s1)). { apply models_ok; auto. apply add_qm; auto. destruct I as (_ & I & _). auto. }
  assert (G2 : ens_ok (set_score z (set_models (add_model m d) s1))). { destruct G as (G1 & G2 & G3). split; [exact G1|split; [exact G2|exact G3]]. }
  apply (IH (Some m) _ s' x G2); [|exact E]. intros m0 H. injection H as <-. auto.
Qed.
Lemma fit_prov left s s' x : ens_ok s -> fit left s = (s', x) -> ens_ok s'.
Proof.
  intros I E. unfold fit in E. destruct (e_models s) as [[|a d]|] eqn:EM; try (inversion E; subst; auto; fail).
  destruct (nleb left (Fin 0)); [inversion E; subst; auto|].
  destruct (rmap _ _) as [ls|] eqn:R in E; [|inversion E; subst; auto]. inversion E; subst. clear E.
  destruct I as (A & B & C). repeat split; auto. simpl. intros l H. inversion H; subst; clear H. specialize (B _ EM). clear EM.
  clear - B R. revert ls R. induction (a :: d) as [|b t IH]; intros ls R; cbn [rmap] in R; [inversion R; constructor|].
  inversion B as [|? ? B1 B2]; subst. unfold rbind in R at 1. unfold rbind in R at 1. destruct (m_est (fst (snd b))) as [es|] eqn:EE; [|discriminate]. cbn iota in R.
  unfold rbind in R. destruct (rmap _ t) as [ls0|] eqn:R0; [|discriminate]. inversion R; subst. simpl. apply Forall_app. split; [|apply IH; auto].
  apply Forall_forall. intros [x w] Hx. apply in_map_iff in Hx as (e & EQ & He). inversion EQ; subst. simpl. specialize (B1 es EE). rewrite Forall_forall in B1. auto.
Qed.
Lemma build_fit_prov size left s s' x : ens_ok s -> build_fit raw tr smp score size left s = (s', x) -> ens_ok s'.
Proof.
  intros I E. unfold build_fit in E. destruct (build_initial _ _ _ _ _ s) as [s1 x1] eqn:B. apply build_initial_prov in B; auto.
  destruct x1; [|inversion E; subst; auto].
  match type of E with context [if ?c then _ else _] => destruct c end.
  - unfold expand in E. destruct (_ <=? 0)%Z in E; [inversion E; subst; auto|].
    destruct (expand_loop _ _ _ _ _ _ _) as [s2 x2] eqn:L in E. apply expand_loop_prov in L; auto; [|discriminate].
    destruct x2; [|inversion E; subst; auto]. eapply fit_prov; eauto.
  - eapply fit_prov; eauto.
Qed.
End Prov.

Lemma determine_set {B} (split : nat -> list B -> rng -> res (list nat) * rng) l n p y r l' x r' :
  determine split l n p y r = (l', x, r') -> exists s, l' = set_sample s l.
Proof.
  intros E. unfold determine in E.
  assert (K : l = set_sample (l_sample l) l) by (symmetry; apply set_sample_same).
  destruct p, y; try (inversion E; subst; eauto; fail).
  - destruct (match n with Some _ => n | None => l_n l end); [|inversion E; subst; eauto].
    destruct (_ <? _); [|inversion E; subst; eauto]. destruct (rsample _ _ _) as [[|] ?]; inversion E; subst; eauto.
  - destruct (match n with Some _ => n | None => l_n l end); [|inversion E; subst; eauto].
    destruct (_ <? _); [|inversion E; subst; eauto]. destruct (split _ _ _) as [[|] ?]; inversion E; subst; eauto.
Qed.
Lemma fits_prov {B} P split classifier : forall (fs : list (fit_run (B := B))) l,
  prov P l -> (forall f e, In f fs -> In e (f_evs f) -> success e -> Forall P (ev_est e)) -> prov P (fits split classifier l fs).
Proof.
  induction fs as [|f fs IH]; intros l I H; simpl; auto. apply IH; [|intros; eapply H; eauto; simpl; auto].
  assert (HF : forall e, In e (f_evs f) -> success e -> Forall P (ev_est e)) by (intros; eapply H; eauto; simpl; auto).
  unfold fit_library. destruct classifier.
  - destruct (determine _ _ _ _ _ _) as [[l1 x] r1] eqn:E. destruct (determine_set _ _ _ _ _ _ _ _ _ E) as (s & ->).
    destruct x; [|apply prov_set; auto]. destruct (saves _ _ _) as [l2 out] eqn:S. simpl. eapply prov_saves; [apply prov_set; eauto|eauto|eauto].
  - destruct (saves _ _ _) as [l2 out] eqn:S. simpl. eapply prov_saves; eauto.
Qed.

From Verif Require Import Base Num Num_Proofs Par_Model Par_Spec.
Require Import Permutation.
Open Scope nat_scope.

Lemma le_all_trans a b c : le_all a b -> le_all b c -> le_all a c.
Proof.
  intros H. revert c. induction H as [|x y a b Hxy _ IH]; intros c H2; inversion H2; subst; constructor.
  - eapply nle_trans; eauto.
  - apply IH; auto.
Qed.
Lemma all_le_spec a b : length a = length b -> (all_le a b = true <-> le_all a b).
Proof.
  revert b. induction a as [|x a IH]; intros [|y b] H; simpl in *; try discriminate.
  - split; [constructor|auto].
  - rewrite andb_true_iff, IH by lia. split.
    + intros [H1 H2]. constructor; auto.
    + intros H2. inversion H2; subst; auto.
Qed.

Section Front.
Context {A : Type} (vals : A -> list num) (eqb : A -> A -> bool) (has_len : A -> bool).
Hypothesis EQ : item_eq eqb.
Notation update := (update vals eqb has_len).
Notation scan := (scan vals).

(* the front as a list in which later items are incomparable with earlier ones *)
Inductive anti : list A -> Prop :=
| anti_nil : anti []
| anti_cons x l : Forall (fun y => ~ le_all (vals x) (vals y) /\ ~ le_all (vals y) (vals x)) l -> anti l -> anti (x :: l).

Lemma anti_antichain l : anti l -> antichain vals l.
Proof.
  induction 1 as [|x l F A0 IH]; intros i j u v Hij Hi Hj.
  - destruct i; discriminate.
  - rewrite Forall_forall in F. destruct i as [|i], j as [|j]; simpl in *; try congruence.
    + inversion Hi; subst. apply nth_error_In in Hj. apply F; auto.
    + inversion Hj; subst. apply nth_error_In in Hi. apply F; auto.
    + apply (IH i j); auto.
Qed.
Lemma anti_app_last l x : anti l -> Forall (fun y => ~ le_all (vals x) (vals y) /\ ~ le_all (vals y) (vals x)) l ->
  anti (l ++ [x]).
Proof.
  induction 1 as [|y l F A0 IH]; intros Hx; simpl.
  - constructor; [constructor|constructor].
  - inversion Hx; subst. constructor; [|auto]. apply Forall_app. split; auto. constructor; [tauto|constructor].
Qed.
Lemma anti_filter f l : anti l -> anti (filter f l).
Proof.
  induction 1 as [|x l F A0 IH]; simpl; [constructor|]. destruct (f x); auto. constructor; auto.
  rewrite Forall_forall in *. intros y Hy. apply filter_In in Hy. apply F; tauto.
Qed.

Definition same_arity (k : nat) (l : list A) : Prop := Forall (fun x => length (vals x) = k) l.

Lemma scan_spec v l : same_arity (length v) l ->
  match scan v l with
  | None => exists y, In y l /\ le_all v (vals y)
  | Some rm => rm = filter (fun y => all_le (vals y) v) l /\ Forall (fun y => ~ le_all v (vals y)) l
  end.
Proof.
  induction l as [|y l IH]; intros H; cbn [Par_Model.scan filter].
  - auto.
  - inversion H; subst. destruct (all_le v (vals y)) eqn:E.
    + exists y. split; [left; auto|]. apply all_le_spec; auto.
    + specialize (IH ltac:(auto)). destruct (scan v l) as [rm|].
      * destruct IH as [-> F]. split; [reflexivity|]. constructor; auto.
        rewrite <- all_le_spec by auto. congruence.
      * destruct IH as (z & Hz & Lz). exists z. simpl; auto.
Qed.

Lemma remove_skip (x : A) pre l : ~ In x pre ->
  remove_first (fun y => eqb y x) (pre ++ l) =
  match remove_first (fun y => eqb y x) l with None => None | Some r => Some (pre ++ r) end.
Proof.
  induction pre as [|z pre IH]; intros H; simpl.
  - destruct (remove_first _ l); auto.
  - destruct (eqb z x) eqn:E; [exfalso; apply EQ in E; subst; apply H; simpl; auto|].
    rewrite IH by (intros HH; apply H; simpl; auto). destruct (remove_first _ l); auto.
Qed.
Lemma eqb_refl x : eqb x x = true. Proof. apply EQ; auto. Qed.

(* removing a list of items selected in order by [f] *)
Lemma remove_filter f : forall l pre,
  (forall x, In x l -> f x = true -> ~ In x pre) ->
  remove_all eqb (filter f l) (pre ++ l) = Ok (pre ++ filter (fun x => negb (f x)) l).
Proof.
  induction l as [|x l IH]; intros pre H; simpl.
  - reflexivity.
  - destruct (f x) eqn:E; simpl.
    + rewrite remove_skip by (apply H; simpl; auto). simpl. rewrite eqb_refl.
      apply IH. intros y Hy Hf. apply H; simpl; auto.
    + change (pre ++ x :: l) with (pre ++ [x] ++ l). rewrite app_assoc, IH, <- app_assoc; auto.
      intros y Hy Hf HI. apply in_app_or in HI as [HI|[<-|[]]]; [|congruence].
      apply (H y); simpl; auto.
Qed.

(** What update does. *)
Lemma update_spec k front new : anti front -> same_arity k front -> front <> [] ->
  (length (vals new) <> k /\
   exists first rest, front = first :: rest /\
   update front new = (front, Err (if has_len first then ValueError else TypeError))) \/
  (length (vals new) = k /\ (exists y, In y front /\ le_all (vals new) (vals y)) /\
   update front new = (front, Ok false)) \/
  (length (vals new) = k /\ Forall (fun y => ~ le_all (vals new) (vals y)) front /\
   update front new = (filter (fun y => negb (all_le (vals y) (vals new))) front ++ [new], Ok true)).
Proof.
  intros AN SA NE. destruct front as [|first rest]; [congruence|].
  pose proof SA as SA'. inversion SA as [|? ? Hk SA1]; subst. unfold Par_Model.update.
  destruct (Nat.eqb_spec (length (vals first)) (length (vals new))) as [Ek|Ek].
  - right. rewrite Ek in SA'. pose proof (scan_spec (vals new) (first :: rest) SA') as HS.
    destruct (scan (vals new) (first :: rest)) as [rm|].
    + right. destruct HS as [-> F]. split; auto. split; auto.
      pose proof (remove_filter (fun y => all_le (vals y) (vals new)) (first :: rest) []) as R.
      simpl app in R. rewrite R by (simpl; auto). reflexivity.
    + left. split; auto.
  - left. split; auto. exists first, rest. auto.
Qed.

Definition finv (front offered : list A) : Prop :=
  anti front /\ (exists k, same_arity k front) /\ incl front offered.

Lemma update_inv front new : anti front -> (exists k, same_arity k front) ->
  anti (fst (update front new)) /\ (exists k, same_arity k (fst (update front new))) /\
  incl (fst (update front new)) (front ++ [new]) /\
  (forall x, covered vals front x -> covered vals (fst (update front new)) x) /\
  (forall b, snd (update front new) = Ok b -> covered vals (fst (update front new)) new).
Proof.
  intros AN [k SA]. destruct front as [|f0 fr] eqn:EF.
  - simpl. split; [repeat constructor|]. split; [exists (length (vals new)); repeat constructor|].
    split; [intros x H; auto|]. split.
    + intros x [[]|(y & [] & _)].
    + intros _ _. left. simpl. auto.
  - rewrite <- EF in *. assert (NE : front <> []) by (subst; discriminate). clear EF.
    destruct (update_spec k front new AN SA NE) as [(H1 & f & r & E & ->)|[(H1 & (y & Hy & Ly) & ->)|(H1 & F & ->)]]; simpl.
    + split; auto. split; [eauto|]. split; [intros x Hx; apply in_or_app; auto|]. split; auto. discriminate.
    + split; auto. split; [eauto|]. split; [intros x Hx; apply in_or_app; auto|]. split; auto.
      intros _ _. right. eauto.
    + split.
      { apply anti_app_last; [apply anti_filter; auto|]. rewrite Forall_forall in *. intros y Hy.
        apply filter_In in Hy as [Hy1 Hy2]. split; auto. rewrite <- all_le_spec.
        - apply negb_true_iff in Hy2. congruence.
        - unfold same_arity in SA. rewrite Forall_forall in SA. rewrite (SA _ Hy1). auto. }
      split.
      { exists k. apply Forall_app. split; [|constructor; auto].
        unfold same_arity in SA. rewrite Forall_forall in *. intros y Hy. apply filter_In in Hy. apply SA; tauto. }
      split.
      { intros x Hx. apply in_app_or in Hx as [Hx|Hx]; apply in_or_app; auto. apply filter_In in Hx. tauto. }
      assert (KEEP : forall y, In y front -> covered vals (filter (fun y => negb (all_le (vals y) (vals new))) front ++ [new]) y).
      { intros y Hy. destruct (all_le (vals y) (vals new)) eqn:E.
        - right. exists new. split; [apply in_or_app; simpl; auto|]. apply all_le_spec; auto.
          unfold same_arity in SA. rewrite Forall_forall in SA. rewrite (SA _ Hy). auto.
        - left. apply in_or_app. left. apply filter_In. rewrite E. auto. }
      split.
      * intros x [Hx|(y & Hy & Ly)]; [auto|]. destruct (KEEP y Hy) as [Hk|(z & Hz & Lz)].
        { right. eauto. } right. exists z. split; auto. eapply le_all_trans; eauto.
      * intros _ _. left. apply in_or_app. simpl; auto.
Qed.

Notation run := (run vals eqb has_len).
Lemma run_inv ops : anti (run ops) /\ (exists k, same_arity k (run ops)) /\
  (forall x, In x (run ops) -> In (Update x) ops).
Proof.
  unfold Par_Model.run. rewrite <- (rev_involutive ops). generalize (rev ops). clear ops. intros ops.
  induction ops as [|o ops IH]; simpl.
  - split; [constructor|]. split; [exists 0; constructor|intros x []].
  - rewrite fold_left_app. simpl. destruct IH as (I1 & I2 & I3). destruct o as [x|]; simpl.
    + destruct (update_inv (fold_left (run_op vals eqb has_len) (rev ops) []) x I1 I2) as (U1 & U2 & U3 & _).
      split; auto. split; auto. intros y Hy. apply U3 in Hy. apply in_app_or in Hy as [Hy|[<-|[]]]; apply in_or_app.
      * left. apply I3; auto.
      * simpl; auto.
    + split; [constructor|]. split; [exists 0; constructor|intros x []].
Qed.
Lemma run_covers ops : forall front x, anti front -> (exists k, same_arity k front) ->
  ~ In Clear ops -> covered vals front x -> covered vals (fold_left (run_op vals eqb has_len) ops front) x.
Proof.
  induction ops as [|o ops IH]; intros front x AN SA NC C; simpl; auto.
  destruct o as [y|]; [|exfalso; apply NC; simpl; auto]. simpl.
  destruct (update_inv front y AN SA) as (U1 & U2 & U3 & U4 & _).
  apply IH; auto. intros H; apply NC; simpl; auto.
Qed.

Lemma updates_ok items : forall front front',
  anti front -> (exists k, same_arity k front) ->
  updates vals eqb has_len front items = Ok front' ->
  anti front' /\ incl front' (front ++ items) /\
  (forall x, covered vals front x \/ In x items -> covered vals front' x).
Proof.
  induction items as [|x items IH]; intros front front' AN SA E; simpl in E.
  - inversion E; subst. split; auto. split; [intros y Hy; apply in_or_app; auto|]. intros y [H|[]]; auto.
  - pose proof (update_inv front x AN SA) as (U1 & U2 & U3 & U4 & U5).
    destruct (update front x) as [f1 [b|e]] eqn:Eu; [|discriminate]. simpl in *.
    destruct (IH f1 front' U1 U2 E) as (I1 & I2 & I3). split; auto. split.
    + intros y Hy. apply I2 in Hy. apply in_app_or in Hy as [Hy|Hy].
      * apply U3 in Hy. apply in_app_or in Hy as [Hy|[<-|[]]]; apply in_or_app; simpl; auto.
      * apply in_or_app; simpl; auto.
    + intros y [Hy|[<-|Hy]]; apply I3; eauto.
Qed.
Lemma updates_nonempty items : forall front front',
  updates vals eqb has_len front items = Ok front' -> items <> [] \/ front <> [] -> front' <> [].
Proof.
  assert (UN : forall front x f1 b, update front x = (f1, Ok b) -> f1 <> []).
  { intros front x f1 b E. unfold Par_Model.update in E. destruct front as [|f r]; [inversion E; discriminate|].
    destruct (Nat.eqb _ _); [|discriminate]. destruct (scan _ _) as [rm|].
    - destruct (remove_all _ _ _) as [f'|]; inversion E. destruct f'; discriminate.
    - inversion E. discriminate. }
  induction items as [|x items IH]; intros front front' E H; simpl in E.
  - inversion E; subst. destruct H; auto.
  - destruct (update front x) as [f1 [b|e]] eqn:Eu; [|discriminate]. eapply IH; eauto.
Qed.
(* items of the same arity never raise *)
Lemma updates_total k items : forall front, anti front -> same_arity k front -> same_arity k items ->
  exists front', updates vals eqb has_len front items = Ok front'.
Proof.
  induction items as [|x items IH]; intros front AN SA SI; simpl; eauto.
  inversion SI; subst.
  destruct (update_inv front x AN ltac:(eauto)) as (U1 & [k2 U2] & U3 & _).
  assert (HU : same_arity (length (vals x)) (fst (update front x))).
  { unfold same_arity in *. rewrite Forall_forall in *. intros y Hy. apply U3 in Hy.
    apply in_app_or in Hy as [Hy|[<-|[]]]; auto. }
  destruct front as [|f0 fr] eqn:EF.
  - simpl in *. apply IH; auto.
  - rewrite <- EF in *. assert (NE : front <> []) by (subst; discriminate). clear EF.
    destruct (update_spec _ front x AN SA NE) as [(H1' & _)|[(_ & _ & E)|(_ & _ & E)]]; [congruence| |];
      rewrite E in *; simpl in *; apply IH; auto.
Qed.
End Front.

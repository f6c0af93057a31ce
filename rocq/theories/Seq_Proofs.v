Require Import Ascii Permutation.
From Verif Require Import Base Num Par_Model Par_Spec Par_Proofs Gp_Model Gp_Spec Gp_Proofs Str_Model Str_Spec Str_Proofs Seq_Model Seq_Spec.
From Verif Require Lib_Model Lib_Spec Lib_Proofs Lib_Proofs2 Lib_Proofs3 Heap_Model Twice_Proofs.
Open Scope nat_scope.
Open Scope list_scope.

(** * Subsequences *)
Lemma subseq_refl {A} (l : list A) : subseq l l.
Proof. induction l; constructor; auto. Qed.
Lemma subseq_app {A} (a b c d : list A) : subseq a b -> subseq c d -> subseq (a ++ c) (b ++ d).
Proof. induction 1; intros; simpl; auto; constructor; auto. Qed.
Lemma subseq_trans {A} (b c : list A) : subseq b c -> forall a, subseq a b -> subseq a c.
Proof.
  induction 1; intros a Ha; auto.
  - inversion Ha; subst; constructor; auto.
  - apply ss_skip. auto.
Qed.
Lemma subseq_nil {A} (l : list A) : subseq [] l.
Proof. induction l; constructor; auto. Qed.
Lemma subseq_in {A} (a b : list A) x : subseq a b -> In x a -> In x b.
Proof. induction 1; simpl; intros; tauto. Qed.
Lemma subseq_before {A} (k l : list A) x y : subseq k l -> before k x y -> before l x y.
Proof.
  induction 1 as [|z k l H IH|z k l H IH]; intros (i & j & L & A1 & A2).
  - destruct i; discriminate.
  - destruct i as [|i].
    + destruct j as [|j]; [lia|]. simpl in *. apply nth_error_In in A2. apply (subseq_in _ _ _ H) in A2.
      apply In_nth_error in A2 as (j' & A2). exists 0, (S j'). repeat split; auto. lia.
    + destruct j as [|j]; [lia|]. simpl in *. destruct IH as (i' & j' & L' & B1 & B2); [exists i, j; repeat split; auto; lia|].
      exists (S i'), (S j'). repeat split; auto. lia.
  - destruct IH as (i' & j' & L' & B1 & B2); [exists i, j; auto|]. exists (S i'), (S j'). repeat split; auto. lia.
Qed.
Lemma remove_first_subseq {A} (f : A -> bool) : forall l r, remove_first f l = Some r -> subseq r l.
Proof.
  induction l as [|x l IH]; intros r E; simpl in E; [discriminate|]. destruct (f x).
  - injection E as <-. apply ss_skip, subseq_refl.
  - destruct (remove_first f l) as [r'|]; [|discriminate]. injection E as <-. constructor. auto.
Qed.
Section Order.
Context {A : Type} (vals : A -> list num) (eqb : A -> A -> bool) (has_len : A -> bool).
Lemma remove_all_subseq : forall rm front front', remove_all eqb rm front = Ok front' -> subseq front' front.
Proof.
  induction rm as [|x rm IH]; intros front front' E; simpl in E; [injection E as <-; apply subseq_refl|].
  destruct (remove_first _ front) as [f1|] eqn:R; [|discriminate]. apply remove_first_subseq in R. apply IH in E. eapply subseq_trans; eauto.
Qed.
Lemma update_subseq front x : subseq (fst (update vals eqb has_len front x)) (front ++ [x]).
Proof.
  assert (K : subseq front (front ++ [x])) by (rewrite <- (app_nil_r front) at 1; apply subseq_app; [apply subseq_refl|apply subseq_nil]).
  unfold update. destruct front as [|f fr]; [apply subseq_refl|]. destruct (Nat.eqb _ _); [|exact K].
  destruct (scan _ _ _) as [rm|]; [|exact K]. destruct (remove_all _ _ _) as [f'|] eqn:E; [|exact K].
  apply remove_all_subseq in E. apply subseq_app; [exact E|apply subseq_refl].
Qed.
Lemma run_subseq : forall ops front seen, ~ In Clear ops -> subseq front seen ->
  subseq (fold_left (run_op vals eqb has_len) ops front) (seen ++ offers ops).
Proof.
  induction ops as [|o ops IH]; intros front seen NC S; simpl.
  - rewrite app_nil_r. auto.
  - destruct o as [x|]; [|exfalso; apply NC; left; auto]. cbn [offers flat_map]. change (flat_map _ ops) with (offers ops). rewrite app_assoc.
    apply IH; [intros H; apply NC; right; auto|]. eapply subseq_trans; [|apply update_subseq]. apply subseq_app; [exact S|apply subseq_refl].
Qed.
Lemma updates_run : forall items front front', updates vals eqb has_len front items = Ok front' ->
  fold_left (run_op vals eqb has_len) (map Update items) front = front'.
Proof.
  induction items as [|x items IH]; intros front front' E; cbn [updates] in E; [injection E as <-; reflexivity|].
  cbn [map fold_left run_op]. destruct (update vals eqb has_len front x) as [f1 [b|e]] eqn:U; [|discriminate]. apply IH. auto.
Qed.
End Order.

(** * The sequence interface *)
Lemma item_nth {A} (front : list A) i x : nth_error front i = Some x -> front_item front (Z.of_nat i) = Ok x.
Proof.
  intros H. unfold front_item. assert ((Z.of_nat i <? 0)%Z = false) as -> by (apply Z.ltb_ge; lia).
  rewrite (proj2 (Z.ltb_ge _ _)) by lia. rewrite Nat2Z.id, H. reflexivity.
Qed.
Lemma item_end {A} (front : list A) i : length front <= i -> front_item front (Z.of_nat i) = Err IndexError.
Proof.
  intros H. unfold front_item. assert ((Z.of_nat i <? 0)%Z = false) as -> by (apply Z.ltb_ge; lia).
  rewrite (proj2 (Z.ltb_ge _ _)) by lia. rewrite Nat2Z.id. apply nth_error_None in H. rewrite H. reflexivity.
Qed.
Lemma iterate_all {A} (front : list A) : forall rest i fuel, skipn i front = rest -> i <= length front -> length rest < fuel ->
  iterate fuel front i = Ok rest.
Proof.
  induction rest as [|x rest IH]; intros i fuel E L F; (destruct fuel as [|fuel]; [lia|]); cbn [iterate].
  - rewrite item_end; auto. pose proof (skipn_length i front). rewrite E in H. simpl in H. lia.
  - assert (N : nth_error front i = Some x).
    { rewrite <- (firstn_skipn i front), E. rewrite nth_error_app2 by (rewrite firstn_length; lia).
      rewrite firstn_length, Nat.min_l, Nat.sub_diag by lia. reflexivity. }
    rewrite (item_nth _ _ _ N), (IH (S i) fuel); auto.
    + clear - E. revert front E. induction i as [|i IH]; intros [|y front] E; try discriminate; simpl in *; [congruence|]. apply IH. auto.
    + apply nth_error_Some. congruence.
    + simpl in F. lia.
Qed.
Lemma reversed_all {A} (front : list A) : front_reversed front = Ok (rev front).
Proof.
  unfold front_reversed, front_len.
  assert (G : forall n, n <= length front -> rmap (fun i => front_item front (Z.of_nat i)) (rev (seq 0 n)) = Ok (rev (firstn n front))).
  { induction n as [|n IH]; intros L; [reflexivity|]. rewrite seq_S, rev_app_distr. cbn [rev app plus rmap].
    destruct (nth_error front n) as [x|] eqn:N; [|apply nth_error_None in N; lia]. rewrite (item_nth _ _ _ N). cbn [rbind]. rewrite IH by lia. cbn [rbind].
    assert (firstn (S n) front = firstn n front ++ [x]) as ->.
    { clear - N. revert front N. induction n as [|n IH]; intros [|y front] N; try discriminate; simpl in *; [injection N as ->; reflexivity|].
      f_equal. apply IH. auto. }
    rewrite rev_app_distr. reflexivity. }
  rewrite G by lia. rewrite firstn_all. reflexivity.
Qed.

(** * The list of evaluations *)
Section Listed.
Import Lib_Model Lib_Spec Lib_Proofs Lib_Proofs2 Lib_Proofs3 Heap_Model.
Lemma push_perm l x : Permutation (x :: l) (heappush item_lt dummy l x).
Proof.
  unfold heappush. eapply perm_trans; [apply Permutation_cons_append|]. apply Twice_Proofs.siftdown_perm. rewrite app_length. simpl. lia.
Qed.
Lemma save_listed l e r l' r' : save l e r = (l', Ok tt, r') -> Permutation (length (l_objs l) :: evaluations l) (evaluations l').
Proof.
  intros E. unfold save in E. destruct (process l e r) as [[l1 p] r1] eqn:EP. destruct p as [e1|y]; [|discriminate].
  destruct (process_ok _ _ _ _ _ _ EP) as (s & -> & _ & _). clear EP. cbn [set_sample l_objs] in E.
  set (L := add_obj e1 (set_sample s l)) in E. set (u := length (l_objs l)) in *. unfold evaluations.
  destruct (ev_error e1) as [err|].
  { injection E as <- _. cbn. rewrite app_assoc. apply Permutation_cons_append. }
  destruct (match l_m L with None => true | Some m => length (l_top L) <? m end).
  { injection E as <- _. cbn [add_lookup set_top l_top l_other]. change (l_top (to_disk u e1 L)) with (l_top l). change (l_other (to_disk u e1 L)) with (l_other l).
    change (u :: map snd (l_top l) ++ l_other l) with ((map snd ((ev_score e1, u) :: l_top l)) ++ l_other l).
    apply Permutation_app_tail. apply Permutation_map. apply push_perm. }
  destruct (heappushpop item_lt dummy (l_top L) (ev_score e1, u)) as [rm t] eqn:HP. apply Twice_Proofs.pushpop_perm in HP.
  change (l_top L) with (l_top l) in HP.
  assert (G : forall o, o = l_other l ++ [snd rm] -> Permutation (u :: map snd (l_top l) ++ l_other l) (map snd t ++ o)).
  { intros o ->. change (u :: map snd (l_top l) ++ l_other l) with ((map snd ((ev_score e1, u) :: l_top l)) ++ l_other l).
    eapply perm_trans; [apply Permutation_app_tail, Permutation_map; exact HP|]. cbn [map app].
    eapply perm_trans; [apply Permutation_cons_append|]. rewrite app_assoc. reflexivity. }
  destruct (tuple_eq (fst rm) (ev_score e1)); [injection E as <- _; apply G; reflexivity|].
  unfold remove_from_disk in E. destruct (ev_file _) as [f|]; [|discriminate]. destruct (find_file _ _); [|discriminate].
  injection E as <- _. apply G. reflexivity.
Qed.
Lemma saves_listed : forall es l r l' out, saves l es r = (l', out) -> Forall (fun x => snd x = Ok tt) out ->
  Permutation (evaluations l) (seq 0 (length (l_objs l))) ->
  length (l_objs l') = length (l_objs l) + length es /\
  Permutation (evaluations l') (seq 0 (length (l_objs l'))) /\
  (forall v, v < length (l_objs l) -> same_report (obj l' v) (obj l v)) /\
  (forall i, i < length es -> same_report (obj l' (length (l_objs l) + i)) (nth_ev es i)).
Proof.
  induction es as [|e es IH]; intros l r l' out E F P; cbn [saves] in E.
  - injection E as <- <-. split; [simpl; lia|]. split; auto. split; [intros; repeat split; auto|]. simpl. intros; lia.
  - destruct (save l e r) as [[l1 x] r1] eqn:E1. destruct (saves l1 es r1) as [l2 xs] eqn:E2. injection E as <- <-.
    inversion F as [|? ? F1 F2]; subst. cbn [snd] in F1. subst x. pose proof (save_listed _ _ _ _ _ E1) as Q.
    destruct (save_lookup _ _ _ _ _ _ E1) as ((_ & LN & SU) & SV).
    destruct (IH l1 r1 l2 xs E2 F2) as (A1 & A2 & A3 & A4).
    + rewrite LN, seq_S. eapply perm_trans; [apply Permutation_sym; exact Q|]. eapply perm_trans; [apply perm_skip; exact P|]. apply Permutation_cons_append.
    + assert (TR : forall a b c, same_report a b -> same_report b c -> same_report a c).
      { intros a b c (C1 & C2 & C3 & C4) (B1 & B2 & B3 & B4). repeat split; congruence. }
      split; [simpl; lia|]. split; auto. split.
      * intros v Hv. eapply TR; [apply A3; lia|]. apply SV. auto.
      * intros [|i] Hi; simpl in Hi.
        -- rewrite Nat.add_0_r. eapply TR; [apply A3; lia|]. exact SU.
        -- replace (length (l_objs l) + S i) with (length (l_objs l1) + i) by lia. apply (A4 i). lia.
Qed.
End Listed.

(** * Texts of individuals *)
Lemma chain_cells s : forall d ls ss, chain (s_heap s) d ls ss -> exists cs, Forall2 (fun l c => mread l s = (Ok c, s)) ls cs /\ map cell_step cs = ss.
Proof.
  induction 1 as [|l c ls ss H C IH].
  - exists []. split; constructor.
  - destruct IH as (cs & A & B). exists (c :: cs). split; [constructor; auto; unfold mread; rewrite H; reflexivity|]. simpl. rewrite B. reflexivity.
Qed.
Lemma mread_all_cells s ls cs : Forall2 (fun l c => mread l s = (Ok c, s)) ls cs -> mread_all ls s = (Ok cs, s).
Proof. induction 1 as [|l c ls cs H _ IH]; [reflexivity|]. cbn [mread_all]. unfold mbind, mret. rewrite H, IH. reflexivity. Qed.
Lemma fa2_rev' {X Y} (R : X -> Y -> Prop) l k : Forall2 R l k -> Forall2 R (rev l) (rev k).
Proof. induction 1; simpl; auto. apply Forall2_app; auto. Qed.
Lemma short_name_ok sep ind s ls ss : wf_heap (s_heap s) -> pipeline (s_heap s) ind ls ss ->
  short_name sep ind s = (Ok (String.concat sep (map (fun st => p_name (fst st)) (rev ss))), s).
Proof.
  intros W P. unfold short_name, mbind. rewrite (primitives_ok ind s ls ss W P). destruct (chain_cells s _ _ _ P) as (cs & A & B).
  rewrite (mread_all_cells s (rev ls) (rev cs)) by (apply fa2_rev'; auto). unfold mret. rewrite <- B, <- map_rev, map_map. reflexivity.
Qed.
Lemma split_concat c names : names <> [] -> Forall (fun x => ~ contains (String c "") x) names ->
  split (String c "") (String.concat (String c "") names) = names.
Proof.
  induction names as [|x names IH]; intros N F; [congruence|]. inversion F; subst. destruct names as [|y names].
  - simpl. apply split_none. auto.
  - change (String.concat (String c "") (x :: y :: names)) with (x ++ String c "" ++ String.concat (String c "") (y :: names))%string.
    change (String c "" ++ String.concat (String c "") (y :: names))%string with (String c (String.concat (String c "") (y :: names))).
    rewrite split_char by auto. rewrite IH; auto. discriminate.
Qed.
Lemma first_line c a a' b b' : ~ contains (String c "") a -> ~ contains (String c "") a' ->
  (a ++ String c b)%string = (a' ++ String c b')%string -> a = a' /\ b = b'.
Proof.
  revert a'. induction a as [|x a IH]; intros [|x' a'] H H' E; simpl in E.
  - injection E as ->. auto.
  - exfalso. injection E as -> _. apply H'. exists ""%string, a'. reflexivity.
  - exfalso. injection E as -> _. apply H. exists ""%string, a. reflexivity.
  - injection E as -> E. destruct (IH a') as [-> ->]; auto; intros K; [apply H|apply H']; apply contains_cons; auto.
Qed.

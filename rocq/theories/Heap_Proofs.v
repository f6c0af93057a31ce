From Verif Require Import Base Heap_Model.
Require Import Permutation.
Open Scope nat_scope.

Lemma set_nth_len {A} i (x : A) l : length (set_nth i x l) = length l.
Proof. revert i. induction l; intros [|i]; simpl; auto. Qed.
Lemma nth_set_eq {A} i (x d : A) l : i < length l -> nth i (set_nth i x l) d = x.
Proof. revert i. induction l; intros [|i] H; simpl in *; try lia; auto. apply IHl; lia. Qed.
Lemma nth_set_neq {A} i j (x d : A) l : i <> j -> nth j (set_nth i x l) d = nth j l d.
Proof. revert i j. induction l; intros [|i] [|j] H; simpl in *; try congruence; auto. Qed.

Lemma parent_lt i : 0 < i -> parent i < i.
Proof. intros H. unfold parent. apply Nat.div_lt_upper_bound; lia. Qed.
Lemma parent_child i p : 0 < i -> parent i = p -> i = 2 * p + 1 \/ i = 2 * p + 2.
Proof.
  intros H <-. unfold parent. pose proof (Nat.div_mod (i - 1) 2 ltac:(lia)).
  pose proof (Nat.mod_upper_bound (i - 1) 2 ltac:(lia)). lia.
Qed.
Lemma child_parent p : parent (2 * p + 1) = p /\ parent (2 * p + 2) = p.
Proof.
  unfold parent. split.
  - replace (2 * p + 1 - 1) with (p * 2) by lia. apply Nat.div_mul. lia.
  - replace (2 * p + 2 - 1) with (1 + p * 2) by lia. rewrite Nat.div_add by lia. auto.
Qed.

Section Heap.
Context {T : Type} (lt : T -> T -> bool) (d : T) (P : T -> Prop).
Hypothesis asym : forall x y, P x -> P y -> lt x y = true -> lt y x = false.
(** "not smaller" is transitive *)
Hypothesis trans : forall x y z, P x -> P y -> P z -> lt x y = false -> lt y z = false -> lt x z = false.
Lemma irrefl x : P x -> lt x x = false.
Proof. intros H. destruct (lt x x) eqn:E; auto. rewrite <- E. apply asym; auto. Qed.

Notation swap := (swap d).
Lemma swap_len i j l : length (swap i j l) = length l.
Proof. unfold Heap_Model.swap. rewrite !set_nth_len. auto. Qed.
Lemma nth_swap i j l k : i < length l -> j < length l ->
  nth k (swap i j l) d = if k =? i then nth j l d else if k =? j then nth i l d else nth k l d.
Proof.
  intros Hi Hj. unfold Heap_Model.swap. destruct (Nat.eqb_spec k i) as [->|N1].
  - apply nth_set_eq. rewrite set_nth_len. auto.
  - rewrite nth_set_neq by auto. destruct (Nat.eqb_spec k j) as [->|N2].
    + apply nth_set_eq; auto.
    + apply nth_set_neq; auto.
Qed.
Lemma swap_perm i j l : i < length l -> j < length l -> Permutation l (swap i j l).
Proof.
  intros Hi Hj. apply Permutation_nth with (d := d).
  split; [apply swap_len|].
  exists (fun k => if k =? i then j else if k =? j then i else k). split; [|split].
  - intros k Hk. destruct (k =? i); auto. destruct (k =? j); auto.
  - intros x y Hx Hy. destruct (Nat.eqb_spec x i), (Nat.eqb_spec x j), (Nat.eqb_spec y i), (Nat.eqb_spec y j); subst; lia.
  - intros k Hk. rewrite nth_swap by auto. destruct (k =? i); auto. destruct (k =? j); auto.
Qed.

Definition all_P (l : list T) : Prop := Forall P l.
Lemma nth_P l i : all_P l -> i < length l -> P (nth i l d).
Proof. intros H Hi. apply (proj1 (Forall_forall P l) H). apply nth_In; auto. Qed.

Definition heap (l : list T) : Prop :=
  forall i, 0 < i -> i < length l -> lt (nth i l d) (nth (parent i) l d) = false.
Definition up_inv (pos : nat) (l : list T) : Prop :=
  (forall i, 0 < i -> i < length l -> i <> pos -> lt (nth i l d) (nth (parent i) l d) = false) /\
  (forall i, 0 < i -> i < length l -> parent i = pos -> 0 < pos -> lt (nth i l d) (nth (parent pos) l d) = false).

Lemma siftdown_ok : forall fuel pos l, all_P l -> pos < length l -> pos < fuel -> up_inv pos l ->
  heap (siftdown lt d fuel pos l) /\ Permutation l (siftdown lt d fuel pos l).
Proof.
  induction fuel as [|fuel IH]; intros pos l HP Hl Hf [U1 U2]; [lia|]. cbn [siftdown].
  destruct (Nat.eqb_spec pos 0) as [->|Hp].
  - split; auto. intros i Hi Hil. apply U1; auto. lia.
  - pose proof (parent_lt pos ltac:(lia)) as Hpl.
    destruct (lt (nth pos l d) (nth (parent pos) l d)) eqn:E.
    + set (p := parent pos) in *. set (l' := swap pos p l).
      assert (L' : length l' = length l) by apply swap_len.
      assert (PM : Permutation l l') by (apply swap_perm; lia).
      assert (N : forall k, nth k l' d = if k =? pos then nth p l d else if k =? p then nth pos l d else nth k l d)
        by (intros; apply nth_swap; lia).
      assert (Pn : forall i, i < length l -> P (nth i l d)) by (intros; apply nth_P; auto).
      destruct (IH p l') as [IH1 IH2].
      { unfold all_P in *. eapply Permutation_Forall; eauto. }
      { lia. } { lia. }
      { split.
        - intros i Hi Hil Hip. rewrite L' in Hil. rewrite !N. pose proof (parent_lt i Hi) as Hpi.
          destruct (Nat.eqb_spec i pos) as [->|Nip].
          + fold p. destruct (Nat.eqb_spec p pos); [lia|]. rewrite Nat.eqb_refl. apply asym; auto; apply Pn; lia.
          + destruct (Nat.eqb_spec i p); [lia|].
            destruct (Nat.eqb_spec (parent i) pos) as [Ep|Np].
            * apply U2; auto. lia.
            * destruct (Nat.eqb_spec (parent i) p) as [Ep|Np2].
              { apply trans with (nth p l d); try (apply Pn; lia).
                - rewrite <- Ep. apply U1; auto.
                - apply asym; auto; apply Pn; lia. }
              { apply U1; auto. }
        - intros i Hi Hil Hpi Hp0. rewrite L' in Hil. rewrite !N. pose proof (parent_lt p Hp0) as Hpp.
          destruct (Nat.eqb_spec (parent p) pos); [lia|]. destruct (Nat.eqb_spec (parent p) p); [lia|].
          assert (Gp : lt (nth p l d) (nth (parent p) l d) = false) by (apply U1; lia).
          destruct (Nat.eqb_spec i pos) as [->|Nip]; auto.
          pose proof (parent_lt i Hi). destruct (Nat.eqb_spec i p); [lia|].
          apply trans with (nth p l d); try (apply Pn; lia); auto.
          rewrite <- Hpi. apply U1; auto. }
      split; auto. eapply perm_trans; eauto.
    + split; auto. intros i Hi Hil. destruct (Nat.eq_dec i pos) as [->|]; auto.
Qed.

Definition down_inv (pos : nat) (l : list T) : Prop :=
  (forall i, 0 < i -> i < length l -> i <> pos -> parent i <> pos -> lt (nth i l d) (nth (parent i) l d) = false) /\
  (forall i, 0 < i -> i < length l -> parent i = pos -> 0 < pos -> lt (nth i l d) (nth (parent pos) l d) = false).

Lemma to_leaf_ok : forall fuel pos l pos' l', all_P l -> pos < length l -> length l - pos <= fuel -> down_inv pos l ->
  to_leaf lt d fuel pos l = (pos', l') ->
  up_inv pos' l' /\ pos' < length l' /\ Permutation l l'.
Proof.
  induction fuel as [|fuel IH]; intros pos l pos' l' HP Hl Hf [D1 D2] E; [lia|]. cbn [to_leaf] in E.
  set (ch := 2 * pos + 1) in *.
  destruct (Nat.ltb_spec ch (length l)) as [Hc|Hc].
  - set (c := if (ch + 1 <? length l) && negb (lt (nth ch l d) (nth (ch + 1) l d)) then ch + 1 else ch) in *.
    assert (Hcc : c < length l /\ pos < c /\ parent c = pos /\
       forall s, s < length l -> 0 < s -> parent s = pos -> s <> c -> lt (nth s l d) (nth c l d) = false).
    { destruct (child_parent pos) as [Q1 Q2]. fold ch in Q1. replace (2 * pos + 2) with (ch + 1) in Q2 by (unfold ch; lia).
      assert (SB : forall s, 0 < s -> parent s = pos -> s = ch \/ s = ch + 1).
      { intros s Hs Hps. destruct (parent_child s pos Hs Hps); unfold ch; lia. }
      unfold c. destruct (Nat.ltb_spec (ch + 1) (length l)) as [H1|H1]; simpl.
      - destruct (lt (nth ch l d) (nth (ch + 1) l d)) eqn:EL; simpl.
        + repeat split; auto; [unfold ch; lia|]. intros s Hs Hs0 Hps Hn. destruct (SB s Hs0 Hps) as [->| ->]; [congruence|].
          apply asym; auto; apply nth_P; auto.
        + repeat split; auto; [unfold ch; lia|]. intros s Hs Hs0 Hps Hn. destruct (SB s Hs0 Hps) as [->| ->]; [auto|congruence].
      - repeat split; auto; [unfold ch; lia|]. intros s Hs Hs0 Hps Hn. destruct (SB s Hs0 Hps) as [->| ->]; [congruence|lia]. }
    destruct Hcc as (Hcl & Hpc & Hpar & Hsib).
    set (l1 := swap pos c l) in *.
    assert (L1 : length l1 = length l) by apply swap_len.
    assert (PM : Permutation l l1) by (apply swap_perm; lia).
    assert (N : forall k, nth k l1 d = if k =? pos then nth c l d else if k =? c then nth pos l d else nth k l d)
      by (intros; apply nth_swap; lia).
    destruct (IH c l1 pos' l') as (I1 & I2 & I3); auto.
    { unfold all_P in *. eapply Permutation_Forall; eauto. }
    { lia. } { lia. }
    { split.
      - intros i Hi Hil Hic Hpi. rewrite L1 in Hil. rewrite !N. pose proof (parent_lt i Hi).
        destruct (Nat.eqb_spec i pos) as [->|Nip].
        + destruct (Nat.eqb_spec (parent pos) pos); [lia|]. destruct (Nat.eqb_spec (parent pos) c); [lia|].
          apply D2; auto. lia.
        + destruct (Nat.eqb_spec i c); [congruence|].
          destruct (Nat.eqb_spec (parent i) pos) as [Ep|Np].
          * apply Hsib; auto.
          * destruct (Nat.eqb_spec (parent i) c); [congruence|]. apply D1; auto.
      - intros i Hi Hil Hpi Hc0. rewrite L1 in Hil. rewrite !N. rewrite Hpar, Nat.eqb_refl. pose proof (parent_lt i Hi).
        destruct (Nat.eqb_spec i pos); [lia|]. destruct (Nat.eqb_spec i c); [lia|].
        rewrite <- Hpi. apply D1; auto. lia. }
    split; auto. split; auto. eapply perm_trans; eauto.
  - inversion E; subst pos' l'. split; auto. split.
    + intros i Hi Hil Hn. apply D1; auto. intros Hp. destruct (parent_child i pos Hi Hp); unfold ch in *; lia.
    + intros i Hi Hil Hp. destruct (parent_child i pos Hi Hp); unfold ch in *; lia.
Qed.

Lemma heap_root l : all_P l -> heap l -> forall i, i < length l -> lt (nth i l d) (nth 0 l d) = false.
Proof.
  intros HP H i. induction i as [i IH] using lt_wf_ind. intros Hi.
  destruct (Nat.eq_dec i 0) as [->|Hn]; [apply irrefl, nth_P; auto|].
  pose proof (parent_lt i ltac:(lia)).
  apply trans with (nth (parent i) l d); try (apply nth_P; auto; lia).
  - apply H; auto; lia.
  - apply IH; lia.
Qed.
Lemma heap_root_in l h l' : l = h :: l' -> all_P l -> heap l -> forall x, In x l -> lt x h = false.
Proof.
  intros -> HP H x Hx. apply In_nth with (d := d) in Hx as (i & Hi & <-). apply (heap_root _ HP H i Hi).
Qed.

Lemma heappush_ok l x : all_P l -> P x -> heap l ->
  heap (heappush lt d l x) /\ Permutation (x :: l) (heappush lt d l x).
Proof.
  intros HP Px H. unfold heappush.
  assert (PA : Permutation (x :: l) (l ++ [x])) by (apply Permutation_cons_append).
  destruct (siftdown_ok (S (length l)) (length l) (l ++ [x])) as [S1 S2].
  - unfold all_P in *. eapply Permutation_Forall; [exact PA|]. constructor; auto.
  - rewrite app_length. simpl. lia.
  - lia.
  - split.
    + intros i Hi Hil Hn. rewrite app_length in Hil. simpl in Hil. pose proof (parent_lt i Hi).
      rewrite !app_nth1 by lia. apply H; auto. lia.
    + intros i Hi Hil Hp _. rewrite app_length in Hil. simpl in Hil. pose proof (parent_lt i Hi). lia.
  - split; auto. eapply perm_trans; eauto.
Qed.

Lemma heappushpop_ok l x y l' : all_P l -> P x -> heap l -> heappushpop lt d l x = (y, l') ->
  heap l' /\ Permutation (x :: l) (y :: l') /\ (forall z, In z l' -> lt z y = false) /\
  ((y = x /\ l' = l /\ (forall h, hd_error l = Some h -> lt h x = false)) \/
   (exists h, hd_error l = Some h /\ y = h /\ lt h x = true)).
Proof.
  intros HP Px H E. unfold heappushpop in E. destruct l as [|h l0].
  - inversion E; subst. split; auto. split; auto. split; [intros z []|]. left. split; auto. split; auto. discriminate.
  - inversion HP as [|? ? Ph HP']; subst. destruct (lt h x) eqn:EL.
    + destruct (to_leaf lt d (S (length l0)) 0 (x :: l0)) as [pos l2] eqn:ET. inversion E; subst y l'. clear E.
      destruct (to_leaf_ok (S (length l0)) 0 (x :: l0) pos l2) as (T1 & T2 & T3); auto.
      { constructor; auto. } { simpl; lia. }
      { split.
        - intros i Hi Hil Hn Hp. destruct i as [|i]; [lia|]. simpl nth at 1.
          assert (Hpp : parent (S i) <> 0) by auto. specialize (H (S i) ltac:(lia) ltac:(simpl in *; lia)).
          destruct (parent (S i)) eqn:Ep; [congruence|]. exact H.
        - intros; lia. }
      assert (A2 : all_P l2) by (unfold all_P; eapply Permutation_Forall; [exact T3|constructor; auto]).
      destruct (siftdown_ok (S (length l2)) pos l2) as [S1 S2]; auto.
      assert (PM : Permutation (x :: l0) (siftdown lt d (S (length l2)) pos l2)) by (eapply perm_trans; eauto).
      split; auto. split; [|split].
      * eapply perm_trans; [apply perm_swap|]. constructor. auto.
      * intros z Hz. apply Permutation_in with (l' := x :: l0) in Hz; [|apply Permutation_sym; auto].
        destruct Hz as [->|Hz]; [apply asym; auto|]. eapply heap_root_in; eauto. simpl; auto.
      * right. exists h. auto.
    + inversion E; subst y l'. split; auto. split; auto. split.
      * intros z Hz. apply trans with h; auto.
        { apply (proj1 (Forall_forall P (h :: l0)) HP); auto. }
        eapply heap_root_in; eauto.
      * left. split; auto. split; auto. intros h' Hh. inversion Hh; subst. auto.
Qed.
End Heap.

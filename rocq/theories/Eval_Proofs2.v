(** Evaluations that return, and evaluations that succeed. *)
From Verif Require Import Base Num Gp_Model Eval_Model Eval_Spec Eval_Proofs.
Require Import Permutation.
Open Scope nat_scope.

Section Ev2.
Context {E P : Type}.
Context (rows : nat) (index : list nat) (splits : nat -> res (list (list nat * list nat)))
  (sample : list nat -> list nat -> res (list nat))
  (fit : list nat -> res E) (score : E -> nat -> list nat -> res num)
  (predict : E -> bool -> list nat -> res (nat * list P)) (metrics : list bool)
  (sub : subsample) (hit : option (nat * strike)).
Notation C := (@C E P).
Notation ST := (locals E P * (nat * bool))%type.

(** * Exceptions *)
Definition safe {A} (m : C A) : Prop := forall s r s', m s = (Err r, s') ->
  ordinary r \/ own_timer hit = true /\ r = TimeoutException /\ snd (snd s') = true.
Lemma sf_ret {A} (a : A) : safe (cret a). Proof. intros s r s' H. discriminate. Qed.
Lemma sf_lift {A} (x : res A) : (forall e, x = Err e -> ordinary e) -> safe (lift x).
Proof. intros H s r s' K. injection K as -> <-. auto. Qed.
Lemma sf_bind {A B} (m : C A) (f : A -> C B) : safe m -> (forall a, safe (f a)) -> safe (cbind m f).
Proof.
  intros Q R s r s' H. unfold cbind in H. destruct (m s) as [[a|e] s1] eqn:Em; [apply (R a _ _ _ H)|].
  injection H as <- <-. apply (Q _ _ _ Em).
Qed.
Lemma sf_cmap {A B} (f : A -> C B) l : (forall a, In a l -> safe (f a)) -> safe (cmap f l).
Proof.
  induction l as [|x l IH]; simpl; intros H; [apply sf_ret|]. apply sf_bind; [apply H; auto|]. intros y.
  apply sf_bind; [apply IH; auto|]. intros; apply sf_ret.
Qed.
Lemma sf_set f : safe (set_local f). Proof. intros s r s' H. discriminate. Qed.
Hypothesis HH : match hit with Some (_, x) => x = OwnTimer | None => True end.
Lemma sf_tick : safe (tick hit).
Proof.
  intros s r s' H. unfold tick in H. unfold own_timer. destruct hit as [[k x]|]; [|discriminate]. subst x.
  destruct (_ =? k); [|discriminate]. injection H as <- <-. auto.
Qed.
Hypothesis H1 : forall k e, splits k = Err e -> ordinary e.
Hypothesis H2 : forall a b e, sample a b = Err e -> ordinary e.
Hypothesis H3 : forall a e, fit a = Err e -> ordinary e.
Hypothesis H4 : forall a b c e, score a b c = Err e -> ordinary e.
Hypothesis H5 : forall a b c e, predict a b c = Err e -> ordinary e.
Lemma ord_key : ordinary KeyError. Proof. split; discriminate. Qed.
Lemma ord_value : ordinary ValueError. Proof. split; discriminate. Qed.
Lemma ord_index : ordinary IndexError. Proof. split; discriminate. Qed.
Lemma rmap_err {A B} (f : A -> res B) l e : rmap f l = Err e -> exists a, In a l /\ f a = Err e.
Proof.
  induction l as [|x l IH]; simpl; [discriminate|]. destruct (f x) eqn:F; cbn [rbind].
  - destruct (rmap f l) eqn:R; cbn [rbind]; [discriminate|]. intros K. injection K as ->. destruct IH as (a' & ? & ?); eauto.
  - intros K. injection K as ->. eauto.
Qed.
Lemma draw_err train e : draw index sample train = Err e -> ordinary e.
Proof.
  unfold draw, by_label. destruct (forallb _ train); cbn [rbind]; [|intros K; injection K as <-; apply ord_key].
  destruct (_ =? _); [apply H2|]. intros K; injection K as <-; apply ord_value.
Qed.
Lemma put_err {A} : forall idx xs (arr : list (option A)) e, put arr idx xs = Err e -> ordinary e.
Proof.
  induction idx as [|i idx IH]; intros [|x xs] arr e K; simpl in K; try discriminate; try (injection K as <-; apply ord_value).
  destruct (i <? length arr); [apply (IH _ _ _ K)|]. injection K as <-. apply ord_index.
Qed.
Lemma sf_store te fp : safe (store (E := E) (P := P) rows te fp).
Proof.
  intros s r s' K. unfold store in K. destruct (match v_pred (fst s) with Some a => a | None => _ end) as [cols arr].
  destruct (cols =? fst fp).
  - destruct (put arr te (snd fp)) eqn:EP; [discriminate|]. injection K as <- <-. left. apply (put_err _ _ _ _ EP).
  - injection K as <- <-. left. apply ord_value.
Qed.
Lemma sf_preds : forall ests folds, safe (fold_predictions rows predict metrics hit ests folds).
Proof.
  induction ests as [|e ests IH]; intros [|[tr te] folds]; cbn [fold_predictions]; try apply sf_ret.
  apply sf_bind; [apply sf_tick|]. intros _. apply sf_bind; [apply sf_lift; apply H5|]. intros fp. apply sf_bind; [apply sf_tick|].
  intros _. apply sf_bind; [apply sf_store|]. auto.
Qed.
Lemma sf_body : safe (body rows index splits sample fit score predict metrics sub hit).
Proof.
  unfold body. apply sf_bind.
  { unfold training_sets. apply sf_bind; [apply sf_tick|]. intros _. apply sf_bind; [apply sf_lift; intros; eapply H1; eauto|]. intros folds.
    destruct (require_subsample sub rows); [|apply sf_ret]. apply sf_cmap. intros f _. apply sf_bind; [apply sf_tick|]. intros _.
    apply sf_bind; [apply sf_lift; intros; eapply draw_err; eauto|]. intros; apply sf_ret. }
  intros folds. apply sf_bind; [apply sf_tick|]. intros _. apply sf_bind.
  { unfold cross_validate. apply sf_cmap. intros f _. apply sf_bind; [apply sf_tick|]. intros _.
    apply sf_bind; [apply sf_lift; intros; eapply H3; eauto|]. intros e. apply sf_bind; [apply sf_tick|]. intros _.
    apply sf_bind; [|intros; apply sf_ret]. apply sf_lift. intros x K. apply rmap_err in K as (m & _ & K). eapply H4; eauto. }
  intros result. do 2 (apply sf_bind; [apply sf_tick|]; intros _; apply sf_bind; [apply sf_set|]; intros _).
  apply sf_bind; [apply sf_tick|]. intros _.
  apply sf_bind; [destruct (require_subsample sub rows); [apply sf_ret|apply sf_lift; intros; eapply H1; eauto]|]. intros; apply sf_preds.
Qed.
End Ev2.

Section Labels.
Context (rows : nat) (index : list nat).
Lemma by_label_perm train : Permutation index (seq 0 rows) -> Forall (fun i => i < rows) train ->
  exists ys, by_label index train = Ok ys /\ length ys = length train.
Proof.
  intros PI FT. unfold by_label.
  assert (N : NoDup index) by (eapply Permutation_NoDup; [apply Permutation_sym; exact PI|apply seq_NoDup]).
  assert (IN : forall t, t < rows -> In t index).
  { intros t Ht. eapply Permutation_in; [apply Permutation_sym; exact PI|]. apply in_seq. lia. }
  assert (F : forallb (fun t => existsb (Nat.eqb t) index) train = true).
  { apply forallb_forall. rewrite Forall_forall in FT. intros t Ht. apply existsb_exists. exists t. split; [auto|apply Nat.eqb_refl]. }
  rewrite F. eexists. split; [reflexivity|]. clear F.
  assert (ONE : forall t, In t index -> length (filter (fun p => nth p index 0 =? t) (seq 0 (length index))) = 1).
  { clear - N. intros t Ht. induction index as [|a l IH]; [destruct Ht|]. inversion N; subst. cbn [length seq filter nth].
    rewrite <- seq_shift. assert (G : forall k, length (filter (fun p => nth p (a :: l) 0 =? t) (map S k)) = length (filter (fun p => nth p l 0 =? t) k)).
    { induction k as [|x k IHk]; simpl; auto. destruct (nth x l 0 =? t); simpl; auto. }
    destruct (Nat.eqb_spec a t) as [-> |NE].
    - cbn [length]. rewrite G. f_equal.
      assert (Z : forall k, Forall (fun p => p < length l) k -> length (filter (fun p => nth p l 0 =? t) k) = 0).
      { induction k as [|x k IHk]; simpl; intros F; auto. inversion F; subst. destruct (Nat.eqb_spec (nth x l 0) t) as [E|]; auto.
        destruct H1. rewrite <- E. apply nth_In; auto. }
      apply Z. apply Forall_forall. intros x Hx. apply in_seq in Hx. lia.
    - rewrite G. apply IH; auto. destruct Ht; [congruence|auto]. }
  induction FT as [|t train Ht FT IH]; simpl; auto. rewrite app_length, ONE, IH; auto.
Qed.
Lemma by_label_default train : index = seq 0 rows -> Forall (fun i => i < rows) train -> by_label index train = Ok train.
Proof.
  intros -> FT. unfold by_label.
  assert (F : forallb (fun t => existsb (Nat.eqb t) (seq 0 rows)) train = true).
  { apply forallb_forall. rewrite Forall_forall in FT. intros t Ht. apply existsb_exists. exists t. split; [apply in_seq; specialize (FT t Ht); lia|apply Nat.eqb_refl]. }
  rewrite F. f_equal. clear F. rewrite seq_length.
  assert (ONE : forall t, t < rows -> filter (fun p => nth p (seq 0 rows) 0 =? t) (seq 0 rows) = [t]).
  { intros t Ht. set (u := fun p => nth p (seq 0 rows) 0 =? t).
    assert (SE : seq 0 rows = seq 0 t ++ t :: seq (S t) (rows - S t)).
    { change (t :: seq (S t) (rows - S t)) with (seq (0 + t) (S (rows - S t))). rewrite <- seq_app. f_equal. lia. }
    assert (U : forall p, p < rows -> u p = (p =? t)) by (intros p Hp; unfold u; rewrite seq_nth by auto; reflexivity).
    rewrite SE.
    assert (Z : forall k, Forall (fun p => p < rows /\ p <> t) k -> filter u k = []).
    { induction 1 as [|x k [A B] F IH]; simpl; auto. rewrite U by auto. destruct (Nat.eqb_spec x t); [congruence|auto]. }
    rewrite filter_app. cbn [filter]. rewrite U, Nat.eqb_refl by auto.
    rewrite !Z; auto; apply Forall_forall; intros x Hx; apply in_seq in Hx; lia. }
  induction FT as [|t train Ht FT IH]; simpl; auto. rewrite ONE, IH; auto.
Qed.
Lemma by_label_pos train ys : NoDup index -> by_label index train = Ok ys -> length ys = length train ->
  Forall2 (fun t p => nth_error index p = Some t) train ys.
Proof.
  intros N. unfold by_label. destruct (forallb _ train) eqn:F; [|discriminate]. intros K _. injection K as <-.
  rewrite forallb_forall in F.
  assert (ONE : forall t, In t index -> exists p, filter (fun p => nth p index 0 =? t) (seq 0 (length index)) = [p] /\ nth_error index p = Some t).
  { intros t Ht. apply (In_nth _ _ 0) in Ht as (p & Hp & Ep). exists p. split; [|rewrite <- Ep; apply nth_error_nth'; auto].
    replace (seq 0 (length index)) with (seq 0 p ++ p :: seq (S p) (length index - S p)).
    2:{ change (p :: seq (S p) (length index - S p)) with (seq (0 + p) (S (length index - S p))). rewrite <- seq_app. f_equal. lia. }
    assert (Z : forall k, Forall (fun q => q < length index /\ q <> p) k -> filter (fun p => nth p index 0 =? t) k = []).
    { induction 1 as [|x k [A B] FF IH]; simpl; auto. destruct (Nat.eqb_spec (nth x index 0) t); auto.
      destruct B. apply (proj1 (NoDup_nth index 0) N x p A Hp). congruence. }
    rewrite filter_app. simpl. rewrite Ep, Nat.eqb_refl. rewrite !Z; auto; apply Forall_forall; intros x Hx; apply in_seq in Hx; lia. }
  induction train as [|t train IH]; simpl; [constructor|].
  destruct (ONE t) as (p & -> & NP).
  { specialize (F t (or_introl eq_refl)). apply existsb_exists in F as (x & Hx & Ex). apply Nat.eqb_eq in Ex. subst; auto. }
  simpl. constructor; auto. apply IH. intros x Hx. apply F. simpl; auto.
Qed.
End Labels.

Section Succ.
Context {E P : Type}.
Context (rows : nat) (index : list nat) (splits : nat -> res (list (list nat * list nat)))
  (sample : list nat -> list nat -> res (list nat))
  (fit : list nat -> res E) (score : E -> nat -> list nat -> res num)
  (predict : E -> bool -> list nat -> res (nat * list P)) (metrics : list bool)
  (sub : subsample) (cols : nat) (folds : list (list nat * list nat)).
Notation C := (@C E P).
Notation ST := (locals E P * (nat * bool))%type.
Hypothesis S0 : splits 0 = Ok folds.
Hypothesis S1 : splits 1 = Ok folds.
Hypothesis SR : Forall (fun f => Forall (fun i => i < rows) (snd f)) folds.
Hypothesis SD : require_subsample sub rows = true -> Forall (fun f => exists idx, draw index sample (fst f) = Ok idx) folds.
Hypothesis SF : forall a, exists e, fit a = Ok e.
Hypothesis SS : forall a b c, exists x, score a b c = Ok x.
Hypothesis SP : forall e b test, exists ps, predict e b test = Ok (cols, ps) /\ length ps = length test.
Lemma put_total {A} : forall idx xs (arr : list (option A)), length xs = length idx -> Forall (fun i => i < length arr) idx ->
  exists arr', put arr idx xs = Ok arr' /\ length arr' = length arr.
Proof.
  induction idx as [|i idx IH]; intros [|x xs] arr L F; simpl in *; try discriminate; [eauto|]. inversion F; subst.
  destruct (Nat.ltb_spec i (length arr)); [|lia].
  assert (SL : length (set_nth i (Some x) arr) = length arr) by (clear; revert i; induction arr; intros [|i]; simpl; auto).
  destruct (IH xs (set_nth i (Some x) arr)) as (arr' & A1 & A2); [lia|rewrite SL; auto|]. exists arr'. split; auto. congruence.
Qed.
Lemma cmap_total {A B} (f : A -> C B) l : (forall a, In a l -> forall s, exists b s', f a s = (Ok b, s')) ->
  forall s, exists bs s', cmap f l s = (Ok bs, s').
Proof.
  induction l as [|x l IH]; simpl; intros H s; [eexists _, _; reflexivity|].
  destruct (H x (or_introl eq_refl) s) as (b & s1 & E1). destruct (IH (fun a Ha => H a (or_intror Ha)) s1) as (bs & s2 & E2).
  unfold cbind. rewrite E1, E2. eexists _, _. reflexivity.
Qed.
Lemma tick_none (s : ST) : tick None s = (Ok tt, (fst s, (S (fst (snd s)), snd (snd s)))).
Proof. reflexivity. Qed.
Lemma preds_total : forall ests fs (s : ST), Forall (fun f => Forall (fun i => i < rows) (snd f)) fs ->
  (forall c arr, v_pred (fst s) = Some (c, arr) -> c = cols /\ length arr = rows) ->
  exists s', fold_predictions rows predict metrics None ests fs s = (Ok tt, s').
Proof.
  induction ests as [|e ests IH]; intros [|[tr te] fs] s F V; cbn [fold_predictions]; try (eexists; reflexivity).
  inversion F as [|? ? F1 F2]; subst. unfold cbind at 1. rewrite tick_none. cbn [fst snd].
  destruct (SP e (existsb (fun b => b) metrics) te) as (ps & Ep & Lp). unfold cbind at 1, lift. rewrite Ep.
  unfold cbind at 1. rewrite tick_none. cbn [fst snd]. unfold cbind at 1, store. cbn [fst snd].
  set (ca := match v_pred (fst s) with Some a => a | None => (cols, repeat None rows) end).
  assert (CA : fst ca = cols /\ length (snd ca) = rows).
  { unfold ca. destruct (v_pred (fst s)) as [[c arr]|] eqn:EV; [apply V; auto|]. simpl. rewrite repeat_length. auto. }
  destruct ca as [c arr]. cbn [fst snd] in CA. destruct CA as [-> LA]. rewrite Nat.eqb_refl. cbn [snd].
  destruct (put_total te ps arr Lp) as (arr' & Ea & La); [rewrite LA; exact F1|]. rewrite Ea. unfold set_pred, set_local. cbn [fst snd].
  apply IH; auto. cbn [fst v_pred]. intros c' arr2 K. injection K as <- <-. split; auto. congruence.
Qed.
Lemma body_total (s : ST) : v_pred (fst s) = None ->
  exists s', body rows index splits sample fit score predict metrics sub None s = (Ok tt, s').
Proof.
  intros V. unfold body.
  assert (T : exists used s1, training_sets rows index splits sample sub None s = (Ok used, s1) /\ map snd used = map snd folds).
  { unfold training_sets. unfold cbind at 1. rewrite tick_none. unfold cbind at 1, lift at 1. rewrite S0.
    destruct (require_subsample sub rows) eqn:RS; [|eexists _, _; split; reflexivity]. specialize (SD eq_refl).
    match goal with |- context [cmap ?f folds ?s0] => set (g := f); generalize s0 end. clear - SD. intros s0.
    revert s0. revert SD. induction folds as [|f fs IH]; intros SD s0; [|inversion SD as [|? ? (idx & D) SD']; subst; specialize (IH SD')]; cbn [cmap]; [eexists _, _; split; reflexivity|].
    destruct (IH (fst s0, (S (fst (snd s0)), snd (snd s0)))) as (used & s1 & E1 & M1).
    exists ((idx, snd f) :: used), s1. split; [|simpl; congruence].
    unfold cbind at 1. unfold g at 1. unfold cbind at 1. rewrite tick_none. unfold cbind at 1, lift at 1. rewrite D. cbn [cret].
    unfold cret at 1. unfold cbind at 1. rewrite E1. reflexivity. }
  destruct T as (used & s1 & T & MU). pose proof (q_training _ _ _ _ _ _ _ _ _ T) as Q1.
  unfold cbind at 1. rewrite T. unfold cbind at 1. rewrite tick_none.
  match goal with |- context [cbind (cross_validate fit score metrics None used) _ ?s0] => set (s2 := s0) end.
  assert (CV : exists result s3, cross_validate fit score metrics None used s2 = (Ok result, s3)).
  { unfold cross_validate. apply cmap_total. intros f _ s0. unfold cbind at 1. rewrite tick_none. destruct (SF (fst f)) as (e & Ee).
    unfold cbind at 1, lift at 1. rewrite Ee. unfold cbind at 1. rewrite tick_none. unfold cbind at 1, lift at 1.
    assert (R : exists xs, rmap (fun m => score e m (snd f)) (seq 0 (length metrics)) = Ok xs).
    { clear - SS. induction (seq 0 (length metrics)) as [|m l IH]; simpl; eauto. destruct (SS e m (snd f)) as (x & ->). cbn [rbind].
      destruct IH as (xs & ->). cbn [rbind]. eauto. }
    destruct R as (xs & ->). eexists _, _. reflexivity. }
  destruct CV as (result & s3 & CV). pose proof (q_cv _ _ _ _ _ _ _ _ CV) as Q3.
  unfold cbind at 1. rewrite CV. unfold cbind at 1. rewrite tick_none. unfold cbind at 1. unfold set_scores at 1, set_local at 1.
  unfold cbind at 1. rewrite tick_none. unfold cbind at 1. unfold set_ests at 1, set_local at 1. unfold cbind at 1. rewrite tick_none.
  cbn [fst snd].
  assert (SU : Forall (fun f => Forall (fun i => i < rows) (snd f)) used).
  { clear - MU SR. revert used MU. induction SR as [|f fs F SR' IH]; intros [|u us] M; simpl in M; try discriminate; constructor.
    - injection M as -> _. auto.
    - apply IH; auto. congruence. }
  assert (VN : v_pred (fst s3) = None).
  { rewrite Q3. unfold s2. cbn [fst]. rewrite Q1. auto. }
  destruct (require_subsample sub rows); unfold cbind, cret, lift; rewrite ?S1; (apply preds_total; [auto|]; cbn [fst v_pred]; rewrite VN; discriminate).
Qed.
End Succ.

(** * Means and folds *)
Lemma fa2_map_r {A B} (R : A -> B -> Prop) (f : A -> B) l : (forall a, In a l -> R a (f a)) -> Forall2 R l (map f l).
Proof. induction l; simpl; intros H; constructor; auto. Qed.
Lemma mean_of_spec l : is_mean_of l (mean_of l).
Proof.
  unfold mean_of. split.
  - intros qs -> _. assert (G : exists q, fold_right nadd (Fin 0) (map Fin qs) = Fin q /\ (q == fold_right Qplus 0 qs)%Q).
    { induction qs as [|x qs (q & Eq & IH)]; simpl; [exists 0%Q; split; reflexivity|]. rewrite Eq. simpl. eexists. split; [reflexivity|]. rewrite IH. reflexivity. }
    destruct G as (q & -> & Q). simpl. rewrite map_length. eexists. split; [reflexivity|]. rewrite Q. reflexivity.
  - intros I. assert (G : fold_right nadd (Fin 0) l = NaN).
    { induction l as [|x l IH]; [destruct I|]. simpl. destruct I as [-> |I]; [reflexivity|]. rewrite IH by auto. destruct x; reflexivity. }
    rewrite G. reflexivity.
Qed.
Lemma k_fold_test rows folds : k_fold rows folds -> Forall (fun f => Forall (fun i => i < rows) (snd f)) folds.
Proof.
  intros (_ & K & _). apply Forall_forall. intros f If. apply Forall_forall. intros i Ii. apply K. apply in_concat. exists (snd f). split; auto. apply in_map. auto.
Qed.
Lemma fa2_len {A B} (R : A -> B -> Prop) l l' : Forall2 R l l' -> length l = length l'.
Proof. induction 1; simpl; auto. Qed.

Lemma part_true s rows : require_subsample s rows = true <-> part_of_rows s rows.
Proof.
  destruct s as [|n|q]; simpl; [split; [discriminate|intros []]|apply Z.ltb_lt|].
  unfold qltb. rewrite Bool.negb_true_iff. split; intros H.
  - apply Qnot_le_lt. intros K. apply Qle_bool_iff in K. congruence.
  - destruct (Qle_bool 1 q) eqn:B; auto. apply Qle_bool_iff in B. exfalso. eapply Qlt_not_le; eauto.
Qed.
Lemma part_false s rows : require_subsample s rows = false <-> ~ part_of_rows s rows.
Proof. rewrite <- part_true. destruct (require_subsample s rows); split; intros H; auto; congruence. Qed.

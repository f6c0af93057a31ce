(*IMPORTS*)
From Verif Require Import Base Num Par_Model Par_Spec.
Open Scope nat_scope.
(*END*)
From Verif Require Import Num_Proofs Par_Proofs.

(** C22: after any history no item of the front is component-wise <= another. *)
Lemma C22_no_dominated_item_main :
  forall (A : Type) (vals : A -> list num) (eqb : A -> A -> bool) (has_len : A -> bool) (ops : list op),
    item_eq eqb -> antichain vals (run vals eqb has_len ops).
Proof.
  intros A vals eqb has_len ops EQ. apply anti_antichain.
  apply (run_inv vals eqb has_len EQ ops).
Qed.
(** C23: every item offered (and not rejected with an exception) is in the front
    or matched by one in it, until the front is cleared; and the front holds
    nothing else. *)
Lemma C23_front_covers_main :
  forall (A : Type) (vals : A -> list num) (eqb : A -> A -> bool) (has_len : A -> bool) (before after : list op) (x : A) (b : bool),
    item_eq eqb -> ~ In Clear after ->
    snd (update vals eqb has_len (run vals eqb has_len before) x) = Ok b ->
    covered vals (run vals eqb has_len (before ++ Update x :: after)) x.
Proof.
  intros A vals eqb has_len before after x b EQ NC E. unfold run. rewrite fold_left_app. simpl.
  destruct (run_inv vals eqb has_len EQ before) as (I1 & I2 & _).
  destruct (update_inv vals eqb has_len EQ (run vals eqb has_len before) x I1 I2) as (U1 & U2 & _ & _ & U5).
  apply (run_covers vals eqb has_len EQ); eauto.
Qed.
Lemma C23_front_from_offers_main :
  forall (A : Type) (vals : A -> list num) (eqb : A -> A -> bool) (has_len : A -> bool) (ops : list op) (x : A),
    item_eq eqb -> In x (run vals eqb has_len ops) -> In (Update x) ops.
Proof. intros A vals eqb has_len ops x EQ. apply (run_inv vals eqb has_len EQ ops). Qed.
(** clearing forgets: after a clear the front holds only items offered since, and
    is the front those later offers would have produced on their own *)
Lemma C23_since_clear_main :
  forall (A : Type) (vals : A -> list num) (eqb : A -> A -> bool) (has_len : A -> bool) (before after : list op) (x : A),
    item_eq eqb ->
    (In x (run vals eqb has_len (before ++ Clear :: after)) -> In (Update x) after) /\
    run vals eqb has_len (before ++ Clear :: after) = run vals eqb has_len after.
Proof.
  intros A vals eqb has_len before after x EQ.
  assert (E : run vals eqb has_len (before ++ Clear :: after) = run vals eqb has_len after).
  { unfold run. rewrite fold_left_app. reflexivity. }
  split; [|exact E]. rewrite E. apply C23_front_from_offers_main. exact EQ.
Qed.
(** items of one arity are never rejected *)
Lemma C23_same_arity_accepted_main :
  forall (A : Type) (vals : A -> list num) (eqb : A -> A -> bool) (has_len : A -> bool) (ops : list op) (x : A) (k : nat),
    item_eq eqb -> (forall y, In (Update y) ops -> length (vals y) = k) -> length (vals x) = k ->
    exists b, snd (update vals eqb has_len (run vals eqb has_len ops) x) = Ok b.
Proof.
  intros A vals eqb has_len ops x k EQ HA Hx.
  destruct (run_inv vals eqb has_len EQ ops) as (I1 & _ & I3).
  set (front := run vals eqb has_len ops) in *.
  assert (SA : same_arity vals k front) by (apply Forall_forall; auto).
  destruct front as [|f0 fr] eqn:EF; [simpl; eauto|]. rewrite <- EF in *.
  assert (NE : front <> []) by (rewrite EF; discriminate).
  destruct (update_spec vals eqb has_len EQ k front x I1 SA NE) as [(H1' & _)|[(_ & _ & ->)|(_ & _ & ->)]];
    [congruence| |]; simpl; eauto.
Qed.

(** C24: what update returns. *)
Lemma C24_update_result_main :
  forall (A : Type) (vals : A -> list num) (eqb : A -> A -> bool) (has_len : A -> bool) (ops : list op) (x : A) (k : nat),
    item_eq eqb -> (forall y, In y (run vals eqb has_len ops) -> length (vals y) = k) -> length (vals x) = k ->
    let front := run vals eqb has_len ops in
    let (front', result) := update vals eqb has_len front x in
    (result = Ok false /\ front' = front /\ exists y, In y front /\ le_all (vals x) (vals y)) \/
    (result = Ok true /\ In x front' /\ (forall y, In y front -> ~ le_all (vals x) (vals y)) /\
     (forall y, In y front -> (In y front' <-> ~ le_all (vals y) (vals x)))).
Proof.
  intros A vals eqb has_len ops x k EQ HA Hx front.
  destruct (run_inv vals eqb has_len EQ ops) as (I1 & _ & I3). fold front in I1, I3, HA.
  assert (SA : same_arity vals k front) by (apply Forall_forall; auto).
  destruct front as [|f0 fr] eqn:EF.
  - simpl. right. split; auto. split; auto. split; intros y [].
  - rewrite <- EF in *. assert (NE : front <> []) by (rewrite EF; discriminate).
    destruct (update_spec vals eqb has_len EQ k front x I1 SA NE) as [(H1' & _)|[(_ & H & ->)|(_ & F & ->)]];
      [congruence|left; auto|right].
    rewrite Forall_forall in F.
    split; auto. split; [apply in_or_app; simpl; auto|]. split; auto.
    intros y Hy. rewrite in_app_iff, filter_In, negb_true_iff.
    assert (LY : length (vals y) = length (vals x)) by (rewrite (HA _ Hy); auto).
    rewrite <- (all_le_spec _ _ LY). split.
    + intros [[_ H]|[<-|[]]]; [congruence|]. intros HH. apply all_le_spec in HH; auto.
      apply (F x Hy); auto.
    + intros H. left. split; auto. destruct (all_le (vals y) (vals x)); congruence.
Qed.
(** An item of another arity is refused and the front unchanged ... *)
Lemma C24_other_arity_partial_main :
  forall (A : Type) (vals : A -> list num) (eqb : A -> A -> bool) (has_len : A -> bool) (ops : list op) (x y : A),
    item_eq eqb -> In y (run vals eqb has_len ops) -> length (vals x) <> length (vals y) ->
    exists e, update vals eqb has_len (run vals eqb has_len ops) x = (run vals eqb has_len ops, Err e) /\
      (e = ValueError \/ e = TypeError) /\ ((forall i, has_len i = true) -> e = ValueError).
Proof.
  intros A vals eqb has_len ops x y EQ Hy Hl.
  destruct (run_inv vals eqb has_len EQ ops) as (I1 & [k SA] & I3).
  set (front := run vals eqb has_len ops) in *.
  assert (NE : front <> []) by (intros E; rewrite E in Hy; destruct Hy).
  pose proof SA as SA'. unfold same_arity in SA'. rewrite Forall_forall in SA'. specialize (SA' _ Hy).
  destruct (update_spec vals eqb has_len EQ k front x I1 SA NE)
    as [(_ & f & r & _ & ->)|[(H1' & _)|(H1' & _)]]; [|congruence|congruence].
  eexists. split; [reflexivity|]. split; [destruct (has_len f); auto|]. intros H. rewrite H. auto.
Qed.
(** ... but not always with ValueError: for items without [len] the error message
    itself fails, with TypeError. *)
Lemma C24_other_arity_error_refuted_main :
  exists (vals : nat -> list num) (x y : nat),
    update vals Nat.eqb (fun _ => false) (run vals Nat.eqb (fun _ => false) [Update y]) x
    = ([y], Err TypeError).
Proof. exists (fun n => repeat (Fin 1) n), 1, 2. reflexivity. Qed.

Definition ex_vals (i : nat) : list num :=
  match i with
  | 0 => [Fin 1; Fin 5] | 1 => [Fin 2; Fin 4] | 2 => [Fin 1; Fin 4]
  | 3 => [NInf; PInf] | 4 => [NaN; Fin 9] | _ => [Fin 3; Fin 6] end.
Lemma nat_item_eq : item_eq Nat.eqb.
Proof. intros x y. apply Nat.eqb_eq. Qed.
Example C22_ex_main :
  item_eq Nat.eqb /\
  run ex_vals Nat.eqb (fun _ => true) (map Update [2; 0; 1; 2; 3; 4]) = [0; 1; 3; 4] /\
  run ex_vals Nat.eqb (fun _ => true) (map Update [2; 0; 1; 2; 3; 4; 5]) = [3; 4; 5] /\
  snd (update ex_vals Nat.eqb (fun _ => true) [0; 1; 3; 4] 2) = Ok false.
Proof. split; [apply nat_item_eq|]. split; [|split]; reflexivity. Qed.

(** C25: elimination.  [fitness] gives the objectives, all of the same number. *)
Lemma C25_eliminate_main :
  forall (A : Type) (eqb : A -> A -> bool) (fitness : A -> list num) (pop : list A) (k : nat) (r : rng),
    item_eq eqb -> (forall x, In x pop -> length (fitness x) = k) -> pop <> [] ->
    exists x r', eliminate eqb fitness pop 1 r = (Ok [x], r') /\ In x pop /\
      (forall y, In y pop -> ~ pareto_dominates (fitness x) (fitness y)).
Proof.
  intros A eqb fitness pop k r EQ HA NE. unfold eliminate. simpl Z.eqb. cbv iota.
  set (vals := fun i => map nopp (fitness i)).
  destruct (updates_total vals eqb (fun _ => false) EQ k pop [] (anti_nil _) ltac:(constructor)) as (front & E).
  { apply Forall_forall. intros x Hx. unfold vals. rewrite map_length. auto. }
  rewrite E.
  destruct (updates_ok vals eqb (fun _ => false) EQ pop [] front (anti_nil _) ltac:(exists 0; constructor) E) as (AN & IN & CV).
  pose proof (updates_nonempty vals eqb (fun _ => false) pop [] front E ltac:(auto)) as NF.
  destruct (rchoice front r) as [c r'] eqn:Er.
  assert (exists x, c = Ok x /\ In x front) as (x & -> & Hx).
  { unfold rchoice in Er. destruct front as [|f0 fr]; [congruence|]. destruct (draw r) as [d r1].
    destruct (nth_error (f0 :: fr) (d mod length (f0 :: fr))) as [x|] eqn:En.
    - inversion Er; subst. exists x. split; auto. eapply nth_error_In; eauto.
    - exfalso. apply nth_error_None in En. pose proof (Nat.mod_upper_bound d (length (f0 :: fr))). simpl in *. lia. }
  exists x, r'. split; [reflexivity|]. split; [apply IN in Hx; auto|].
  intros y Hy [LE (i & a & b & Ha & Hb & LT)].
  assert (XY : le_all (vals x) (vals y)).
  { unfold vals. clear - LE. induction LE as [|u v l1 l2 H _ IH]; simpl; constructor; auto.
    unfold nle. rewrite nle_opp. auto. }
  destruct (CV y ltac:(auto)) as [Hf|(z & Hz & Lz)].
  - destruct (In_nth_error _ _ Hx) as (ix & Ex). destruct (In_nth_error _ _ Hf) as (iy & Ey).
    destruct (Nat.eq_dec ix iy) as [->|Hne].
    + rewrite Ex in Ey. inversion Ey; subst. rewrite Ha in Hb. inversion Hb; subst. apply (nlt_irrefl b); auto.
    + eapply (anti_antichain vals front AN ix iy); eauto.
  - assert (XZ : le_all (vals x) (vals z)) by (eapply le_all_trans; eauto).
    destruct (In_nth_error _ _ Hx) as (ix & Ex). destruct (In_nth_error _ _ Hz) as (iz & Ez).
    destruct (Nat.eq_dec ix iz) as [->|Hne].
    + rewrite Ex in Ez. inversion Ez; subst.
      assert (L2 : forall l1 l2, Forall2 nle l1 l2 -> forall i u v, nth_error l1 i = Some u -> nth_error l2 i = Some v -> nle u v).
      { induction 1; intros [|j] u v Hu Hv; simpl in *; try discriminate; [inversion Hu; inversion Hv; subst; auto|eauto]. }
      assert (NL : nle (nopp b) (nopp a)).
      { eapply (L2 _ _ Lz i); unfold vals; apply map_nth_error; auto. }
      unfold nle in NL. rewrite nle_opp in NL. apply (nle_not_lt _ _ NL). auto.
    + eapply (anti_antichain vals front AN ix iz); eauto.
Qed.
Lemma C25_only_one_main :
  forall (A : Type) (eqb : A -> A -> bool) (fitness : A -> list num) (pop : list A) (n : Z) (r : rng),
    n <> 1%Z -> eliminate eqb fitness pop n r = (Err NotImplementedError, r).
Proof. intros. unfold eliminate. destruct (Z.eqb_spec n 1); congruence. Qed.
Example C25_ex_main :
  exists r', eliminate Nat.eqb ex_vals [0; 1; 2; 3; 5] 1 [1] = (Ok [3], r').
Proof. eexists. reflexivity. Qed.

(** C26 is false: with (score, -length) the best scoring individual can go. *)
Definition ex_fit (i : nat) : list num :=
  match i with 0 => [Fin (9 # 10); Fin (-3)] | 1 => [Fin (8 # 10); Fin (-2)] | _ => [Fin (7 # 10); Fin (-1)] end.
Lemma C26_best_survives_refuted_main :
  exists r r', eliminate Nat.eqb ex_fit [0; 1; 2] 1 r = (Ok [0], r') /\
    forall i, In i [1; 2] -> exists x y, hd_error (ex_fit 0) = Some x /\ hd_error (ex_fit i) = Some y /\ nlt y x.
Proof.
  exists [0], []. split; [reflexivity|]. intros i [<-|[<-|[]]]; do 2 eexists; repeat split; reflexivity.
Qed.
(** It holds with a single objective, and for whoever is not worse than someone
    else in any objective. *)
Lemma C26_best_survives_partial_main :
  forall (A : Type) (eqb : A -> A -> bool) (fitness : A -> list num) (pop : list A) (k : nat) (r : rng) (best other : A) (b o : num),
    item_eq eqb -> (forall x, In x pop -> length (fitness x) = k) ->
    In best pop -> In other pop -> le_all (fitness other) (fitness best) ->
    hd_error (fitness best) = Some b -> hd_error (fitness other) = Some o -> nlt o b ->
    forall x r', eliminate eqb fitness pop 1 r = (Ok [x], r') -> x <> best.
Proof.
  intros A eqb fitness pop k r best other b o EQ HA HB HO LE Hb Ho LT x r' E ->.
  destruct (C25_eliminate_main A eqb fitness pop k r EQ HA) as (x & r2 & E2 & Hx & ND).
  { intros ->. destruct HB. }
  rewrite E in E2. inversion E2; subst. apply (ND _ HO). split; auto.
  exists 0, b, o. destruct (fitness x), (fitness other); simpl in *; try discriminate. auto.
Qed.
Example C26_ex_main :
  le_all (ex_vals 2) (ex_vals 1) /\ exists r', eliminate Nat.eqb ex_vals [0; 1; 2] 1 [] = (Ok [2], r').
Proof. split; [repeat constructor|]. eexists. reflexivity. Qed.

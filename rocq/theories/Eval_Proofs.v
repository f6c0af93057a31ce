(** Lemmas on compilation and evaluation. *)
From Verif Require Import Base Num Gp_Model Gp_Spec Gp_Proofs Eval_Model Eval_Spec.
Require Import DecimalString DecimalNat Permutation.
Open Scope nat_scope.

(** * Compilation *)
Lemma nat_str_inj a b : nat_str a = nat_str b -> a = b.
Proof.
  unfold nat_str. intros H. assert (K : Some (Nat.to_uint a) = Some (Nat.to_uint b)) by (rewrite <- !NilEmpty.usu, H; reflexivity).
  injection K as K. apply Unsigned.to_uint_inj; auto.
Qed.
Lemma dict_set_new {V} k (v : V) d : ~ In k (map fst d) -> dict_set k v d = d ++ [(k, v)].
Proof.
  induction d as [|[k' v'] d IH]; simpl; intros H; auto. destruct (String.eqb_spec k' k) as [-> |N]; [destruct H; auto|].
  rewrite IH; auto.
Qed.
Lemma dict_of_go {V} : forall (l : list (string * V)) d, NoDup (map fst (d ++ l)) ->
  fold_left (fun d kv => dict_set (fst kv) (snd kv) d) l d = d ++ l.
Proof.
  induction l as [|[k v] l IH]; intros d H; simpl; [rewrite app_nil_r; auto|].
  assert (E : (d ++ [(k, v)]) ++ l = d ++ (k, v) :: l) by (rewrite <- app_assoc; reflexivity).
  rewrite dict_set_new.
  - rewrite IH; rewrite E; auto.
  - rewrite map_app in H. simpl in H. apply NoDup_remove in H as [_ H]. intros K. apply H, in_or_app; auto.
Qed.
Lemma dict_of_id {V} (l : list (string * V)) : NoDup (map fst l) -> dict_of l = l.
Proof. intros H. unfold dict_of. rewrite dict_of_go; auto. Qed.
Lemma says_own ts : NoDup (map t_output ts) -> says (dict_of (map (fun t => (t_output t, t_value t)) ts)) ts.
Proof.
  intros H. rewrite dict_of_id by (rewrite map_map; exact H). split; [rewrite map_map; exact H|].
  intros name v. rewrite in_map_iff. split.
  - intros (t & E & I). injection E as <- <-. eauto.
  - intros (t & I & <- & <-). eauto.
Qed.
Lemma rmap_inv2 {A B} (f : A -> res B) : forall l ys, rmap f l = Ok ys <-> Forall2 (fun x y => f x = Ok y) l ys.
Proof.
  induction l as [|x l IH]; simpl; intros ys; split; intros H.
  - injection H as <-; constructor.
  - inversion H; auto.
  - destruct (f x) eqn:E; [|discriminate]. simpl in H. destruct (rmap f l) eqn:E2; [|discriminate]. simpl in H. injection H as <-.
    constructor; auto. apply IH; auto.
  - inversion H; subst. rewrite H2. simpl. apply IH in H4. rewrite H4. auto.
Qed.
Lemma fa2_rev {A B} (P : A -> B -> Prop) l ys : Forall2 P l ys -> Forall2 P (rev l) (rev ys).
Proof. induction 1; simpl; [constructor|]. apply Forall2_app; auto. Qed.
Section Comp.
Context {E : Type} (build : nat -> list (string * value) -> res E).
Lemma enum_steps : forall cs k ys,
  rmap (fun ic => do e <- to_sklearn build (snd ic); Ok (nat_str (fst ic), e)) (enum_from k cs) = Ok ys ->
  map fst ys = map nat_str (seq k (length cs)) /\ Forall2 (fun c ne => to_sklearn build c = Ok (snd ne)) cs ys.
Proof.
  induction cs as [|c cs IH]; simpl; intros k ys H; [injection H as <-; split; constructor|].
  destruct (to_sklearn build c) as [e|] eqn:T; [|discriminate]. cbn [rbind] in H.
  destruct (rmap _ (enum_from (S k) cs)) as [zs|] eqn:R; [|discriminate]. cbn [rbind] in H. injection H as <-.
  destruct (IH (S k) zs R) as [A B]. split; simpl; [rewrite A; reflexivity|constructor; auto].
Qed.
Lemma enum_ok : forall cs k, Forall (fun c => exists e, to_sklearn build c = Ok e) cs ->
  exists ys, rmap (fun ic => do e <- to_sklearn build (snd ic); Ok (nat_str (fst ic), e)) (enum_from k cs) = Ok ys.
Proof.
  induction cs as [|c cs IH]; simpl; intros k H; [eauto|]. inversion H as [|? ? (e & Ee) F]; subst. rewrite Ee. cbn [rbind].
  destruct (IH (S k) F) as (ys & ->). simpl. eauto.
Qed.
Lemma compile_eq ind pp s ls ss : wf_heap (s_heap s) -> pipeline (s_heap s) ind ls ss ->
  exists cs, map cell_step cs = ss /\
  compile build ind pp s = (do steps <- rmap (fun ic => do e <- to_sklearn build (snd ic); Ok (nat_str (fst ic), e)) (enumerate cs);
             Ok (match pp with Some l => l | None => [] end ++ rev steps), s).
Proof.
  intros W P. destruct (mread_all_ok s _ _ _ P) as (cs & Ec & Em). exists cs. split; auto.
  unfold compile, mbind. rewrite (primitives_ok ind s ls ss W P), Ec. f_equal.
  destruct (rmap _ (enumerate cs)) as [ys|]; cbn [rbind]; auto. f_equal.
  destruct pp as [[|x l]|]; auto. rewrite rev_app_distr, rev_involutive. reflexivity.
Qed.
End Comp.

(** * Evaluation *)
Section Ev.
Context {E P : Type}.
Context (rows : nat) (index : list nat) (splits : nat -> res (list (list nat * list nat)))
  (sample : list nat -> list nat -> res (list nat))
  (fit : list nat -> res E) (score : E -> nat -> list nat -> res num)
  (predict : E -> bool -> list nat -> res (nat * list P)) (metrics : list bool)
  (sub : subsample) (hit : option (nat * strike)).
Notation C := (@C E P).
Notation ST := (locals E P * (nat * bool))%type.
(** Does not touch the locals. *)
Definition quiet {A} (m : C A) : Prop := forall s r s', m s = (r, s') -> fst s' = fst s.
Lemma q_tick : quiet (tick hit).
Proof. intros s r s' H. unfold tick in H. destruct hit as [[k x]|]; [destruct (_ =? k)|]; injection H as <- <-; auto. Qed.
Lemma q_lift {A} (x : res A) : quiet (lift x).
Proof. intros s r s' H. injection H as <- <-. auto. Qed.
Lemma q_ret {A} (x : A) : quiet (cret x).
Proof. intros s r s' H. injection H as <- <-. auto. Qed.
Lemma q_bind {A B} (m : C A) (f : A -> C B) : quiet m -> (forall a, quiet (f a)) -> quiet (cbind m f).
Proof.
  intros Q R s r s' H. unfold cbind in H. destruct (m s) as [[a|e] s1] eqn:Em.
  - rewrite (R a _ _ _ H). apply (Q _ _ _ Em).
  - injection H as <- <-. apply (Q _ _ _ Em).
Qed.
Lemma q_cmap {A B} (f : A -> C B) l : (forall a, quiet (f a)) -> quiet (cmap f l).
Proof. intros H. induction l as [|x l IH]; simpl; [apply q_ret|]. repeat (apply q_bind; intros; auto). apply q_ret. Qed.
Lemma cmap_ok {A B} (f : A -> C B) (R : A -> B -> Prop) : (forall a s b s', f a s = (Ok b, s') -> R a b) ->
  forall l s ys s', cmap f l s = (Ok ys, s') -> Forall2 R l ys.
Proof.
  intros H. induction l as [|x l IH]; simpl; intros s ys s' K; [injection K as <- <-; constructor|].
  unfold cbind in K. destruct (f x s) as [[y|] s1] eqn:F; [|discriminate]. destruct (cmap f l s1) as [[zs|] s2] eqn:G; [|discriminate].
  injection K as <- <-. constructor; eauto.
Qed.
Lemma q_training : quiet (training_sets rows index splits sample sub hit).
Proof.
  unfold training_sets. apply q_bind; [apply q_tick|]. intros _. apply q_bind; [apply q_lift|]. intros folds.
  destruct (require_subsample sub rows); [|apply q_ret]. apply q_cmap. intros a. apply q_bind; [apply q_tick|]. intros _.
  apply q_bind; [apply q_lift|]. intros; apply q_ret.
Qed.
Lemma q_cv folds : quiet (cross_validate fit score metrics hit folds).
Proof.
  unfold cross_validate. apply q_cmap. intros a. apply q_bind; [apply q_tick|]. intros _. apply q_bind; [apply q_lift|]. intros e.
  apply q_bind; [apply q_tick|]. intros _. apply q_bind; [apply q_lift|]. intros; apply q_ret.
Qed.
Lemma cbind_ok {A B} (m : C A) (f : A -> C B) s b s' : cbind m f s = (Ok b, s') -> exists a s1, m s = (Ok a, s1) /\ f a s1 = (Ok b, s').
Proof. unfold cbind. destruct (m s) as [[a|] s1]; [eauto|discriminate]. Qed.
(** The training sets. *)
Definition trained_on (folds used : list (list nat * list nat)) : Prop :=
  if require_subsample sub rows
  then Forall2 (fun f u => draw index sample (fst f) = Ok (fst u) /\ snd u = snd f) folds used
  else used = folds.
Lemma training_ok (s : ST) used s' : training_sets rows index splits sample sub hit s = (Ok used, s') ->
  exists folds, splits 0 = Ok folds /\ trained_on folds used /\ fst s' = fst s.
Proof.
  intros H. pose proof (q_training _ _ _ H) as Q. unfold training_sets in H.
  apply cbind_ok in H as (u & s1 & T & H). apply cbind_ok in H as (folds & s2 & L & H).
  unfold lift in L. injection L as L <-. exists folds. split; auto. split; auto. unfold trained_on.
  destruct (require_subsample sub rows).
  - revert H. apply cmap_ok. clear. intros [tr te] s b s' H. apply cbind_ok in H as (u & s1 & T & H).
    apply cbind_ok in H as (idx & s2 & L & H). unfold lift in L. injection L as L <-. injection H as <- <-. auto.
  - injection H as <- <-. auto.
Qed.
(** Fitting and scoring of the folds. *)
Definition fold_result (u : list nat * list nat) (ex : E * list num) : Prop :=
  fit (fst u) = Ok (fst ex) /\ Forall2 (fun m x => score (fst ex) m (snd u) = Ok x) (seq 0 (length metrics)) (snd ex).
Lemma cv_ok used (s : ST) result s' : cross_validate fit score metrics hit used s = (Ok result, s') -> Forall2 fold_result used result.
Proof.
  apply cmap_ok. clear. intros [tr te] s b s' H. apply cbind_ok in H as (u & s1 & T & H). apply cbind_ok in H as (e & s2 & L & H).
  unfold lift in L. injection L as L <-. apply cbind_ok in H as (u' & s3 & T' & H). apply cbind_ok in H as (xs & s4 & L' & H).
  unfold lift in L'. injection L' as L' <-. injection H as <- <-. split; auto. apply rmap_inv2; auto.
Qed.
Definition means (result : list (E * list num)) : list num :=
  map (fun m => mean_of (map (fun ex => nth m (snd ex) NaN) result)) (seq 0 (length metrics)).
(** Storing predictions keeps scores and estimators. *)
Lemma fold_predictions_keeps : forall ests folds (s : ST) r s', fold_predictions rows predict metrics hit ests folds s = (r, s') ->
  v_scores (fst s') = v_scores (fst s) /\ v_ests (fst s') = v_ests (fst s).
Proof.
  induction ests as [|e ests IH]; intros [|[tr te] folds] s r s' H; cbn [fold_predictions] in H; try (injection H as <- <-; auto; fail).
  unfold cbind in H. destruct (tick hit s) as [[u|x] s1] eqn:T; pose proof (q_tick _ _ _ T) as Q1; [|injection H as <- <-; rewrite Q1; auto].
  cbn [lift] in H. unfold lift in H. destruct (predict _ _ _) as [fp|x] eqn:Ep; [|injection H as <- <-; rewrite Q1; auto].
  destruct (tick hit s1) as [[u2|x] s2] eqn:T2; pose proof (q_tick _ _ _ T2) as Q2; [|injection H as <- <-; rewrite Q2, Q1; auto].
  rewrite <- Q1, <- Q2. clear - H IH. unfold store in H. destruct (match v_pred (fst s2) with Some a => a | None => (fst fp, repeat None rows) end) as [cols arr].
  destruct (cols =? fst fp).
  - destruct (put arr te (snd fp)) as [arr'|x]; [|injection H as <- <-; auto]. unfold set_pred, set_local in H.
    apply IH in H. simpl in H. auto.
  - injection H as <- <-. auto.
Qed.
(** Every run: the scores are the defaults, or all folds were fitted and scored. *)
Lemma body_cases (s : ST) r s' : body rows index splits sample fit score predict metrics sub hit s = (r, s') ->
  fst s' = fst s \/
  exists folds used result, splits 0 = Ok folds /\ trained_on folds used /\ Forall2 fold_result used result /\
    v_scores (fst s') = means result /\ (v_ests (fst s') = v_ests (fst s) \/ v_ests (fst s') = Some (map fst result)) /\
    (r = Ok tt -> v_ests (fst s') = Some (map fst result)).
Proof.
  intros H. unfold body in H. unfold cbind in H at 1.
  destruct (training_sets _ _ _ _ _ _ s) as [[used|x] s1] eqn:T; pose proof (q_training _ _ _ T) as Q1; [|injection H as <- <-; auto].
  apply training_ok in T as (folds & F1 & F2 & _).
  unfold cbind in H at 1. destruct (tick hit s1) as [[u|x] s2] eqn:T2; pose proof (q_tick _ _ _ T2) as Q2; [|injection H as <- <-; left; congruence].
  unfold cbind in H at 1. destruct (cross_validate _ _ _ _ used s2) as [[result|x] s3] eqn:CV; pose proof (q_cv _ _ _ _ CV) as Q3; [|injection H as <- <-; left; congruence].
  apply cv_ok in CV.
  unfold cbind in H at 1. destruct (tick hit s3) as [[u2|x] s4] eqn:T4; pose proof (q_tick _ _ _ T4) as Q4; [|injection H as <- <-; left; congruence].
  fold (means result) in H.
  assert (B : fst s4 = fst s) by congruence. clear Q1 Q2 Q3 Q4 T2 T4.
  right. exists folds, used, result. split; auto. split; auto. split; auto.
  unfold cbind in H at 1. unfold set_scores at 1, set_local at 1 in H.
  set (s5 := (mkLocals (v_pred (fst s4)) (means result) (v_ests (fst s4)), snd s4)) in H.
  assert (B1 : v_scores (fst s5) = means result) by auto. assert (B2 : v_ests (fst s5) = v_ests (fst s)) by (simpl; congruence).
  clearbody s5. clear B s4.
  unfold cbind in H at 1. destruct (tick hit s5) as [[u3|x] s6] eqn:T6; pose proof (q_tick _ _ _ T6) as Q6.
  2:{ injection H as <- <-. rewrite Q6. split; auto. split; auto. discriminate. }
  unfold cbind in H at 1. unfold set_ests at 1, set_local at 1 in H.
  set (s7 := (mkLocals (v_pred (fst s6)) (v_scores (fst s6)) (Some (map fst result)), snd s6)) in H.
  assert (B3 : v_scores (fst s7) = means result) by (simpl; congruence).
  assert (B4 : v_ests (fst s7) = Some (map fst result)) by auto. clearbody s7. clear B1 B2 Q6 T6 s6.
  assert (D : forall s8 : ST, v_scores (fst s8) = v_scores (fst s7) -> v_ests (fst s8) = v_ests (fst s7) ->
    v_scores (fst s8) = means result /\ (v_ests (fst s8) = v_ests (fst s) \/ v_ests (fst s8) = Some (map fst result)) /\
    (r = Ok tt -> v_ests (fst s8) = Some (map fst result))).
  { intros s8 D1 D2. rewrite D1, D2. auto. }
  unfold cbind in H at 1. destruct (tick hit s7) as [[u4|x] s8] eqn:T8; pose proof (q_tick _ _ _ T8) as Q8.
  2:{ injection H as <- <-. apply D; congruence. }
  unfold cbind in H at 1. destruct ((if require_subsample sub rows then cret used else lift (splits 1)) s8) as [[folds2|x] s9] eqn:G.
  - assert (Q9 : fst s9 = fst s8) by (destruct (require_subsample sub rows); injection G as _ <-; auto).
    apply fold_predictions_keeps in H as [H1 H2]. apply D; congruence.
  - assert (Q9 : fst s9 = fst s8) by (destruct (require_subsample sub rows); injection G as _ <-; auto).
    injection H as <- <-. apply D; congruence.
Qed.
Lemma body_ok (s s' : ST) : body rows index splits sample fit score predict metrics sub hit s = (Ok tt, s') ->
  exists folds used result s7 folds2, splits 0 = Ok folds /\ trained_on folds used /\ Forall2 fold_result used result /\
    v_scores (fst s') = means result /\ v_ests (fst s') = Some (map fst result) /\ v_pred (fst s7) = v_pred (fst s) /\
    (if require_subsample sub rows then folds2 = used else splits 1 = Ok folds2) /\
    fold_predictions rows predict metrics hit (map fst result) folds2 s7 = (Ok tt, s').
Proof.
  intros H. unfold body in H.
  apply cbind_ok in H as (used & s1 & T & H). pose proof (q_training _ _ _ T) as Q1. apply training_ok in T as (folds & F1 & F2 & _).
  apply cbind_ok in H as (u & s2 & T2 & H). apply q_tick in T2. apply cbind_ok in H as (result & s3 & CV & H).
  pose proof (q_cv _ _ _ _ CV) as Q3. apply cv_ok in CV.
  apply cbind_ok in H as (u3 & s4 & T4 & H). apply q_tick in T4. apply cbind_ok in H as (u4 & s5 & S5 & H).
  unfold set_scores, set_local in S5. injection S5 as _ S5. fold (means result) in S5.
  apply cbind_ok in H as (u5 & s6 & T6 & H). apply q_tick in T6. apply cbind_ok in H as (u6 & s7 & S7 & H).
  unfold set_ests, set_local in S7. injection S7 as _ S7.
  apply cbind_ok in H as (u7 & s8 & T8 & H). apply q_tick in T8. apply cbind_ok in H as (folds2 & s9 & G & H).
  assert (Q9 : fst s9 = fst s8) by (destruct (require_subsample sub rows); injection G as _ <-; auto).
  pose proof (fold_predictions_keeps _ _ _ _ _ H) as [K1 K2].
  exists folds, used, result, s9, folds2.
  split; [auto|]. split; [auto|]. split; [auto|].
  split; [rewrite K1, Q9, T8, <- S7; simpl; rewrite T6, <- S5; auto|].
  split; [rewrite K2, Q9, T8, <- S7; auto|].
  split; [rewrite Q9, T8, <- S7; simpl; rewrite T6, <- S5; simpl; congruence|].
  split; [destruct (require_subsample sub rows); injection G; auto|auto].
Qed.

(** Where the predictions go. *)
Lemma put_len {A} : forall idx xs (arr arr' : list (option A)), put arr idx xs = Ok arr' -> length arr' = length arr.
Proof.
  induction idx as [|i idx IH]; intros [|x xs] arr arr' H; simpl in H; try discriminate; [injection H as <-; auto|].
  destruct (i <? length arr); [|discriminate]. apply IH in H. rewrite H. clear. revert i. induction arr as [|a arr IH]; intros [|i]; simpl; auto.
Qed.
Lemma set_nth_nth {A} : forall (l : list A) i x j, nth_error (set_nth i x l) j = if (i =? j) && (j <? length l) then Some x else nth_error l j.
Proof.
  induction l as [|a l IH]; intros [|i] x [|j]; simpl; auto.
  - rewrite andb_false_r. auto.
  - rewrite IH. destruct (i =? j); simpl; auto.
Qed.
Lemma put_out {A} : forall idx xs (arr arr' : list (option A)) j, put arr idx xs = Ok arr' -> ~ In j idx -> nth_error arr' j = nth_error arr j.
Proof.
  induction idx as [|i idx IH]; intros [|x xs] arr arr' j H N; simpl in H; try discriminate; [injection H as <-; auto|].
  destruct (i <? length arr); [|discriminate]. rewrite (IH _ _ _ j H); [|intros K; apply N; simpl; auto].
  rewrite set_nth_nth. destruct (Nat.eqb_spec i j); simpl; auto. subst. destruct N; simpl; auto.
Qed.
Lemma put_in {A} : forall idx xs (arr arr' : list (option A)) q, put arr idx xs = Ok arr' -> NoDup idx -> q < length idx ->
  exists x, nth_error xs q = Some x /\ nth_error arr' (nth q idx 0) = Some (Some x).
Proof.
  induction idx as [|i idx IH]; intros [|x xs] arr arr' q H N L; simpl in H, L; try discriminate; try lia.
  destruct (i <? length arr) eqn:B; [|discriminate]. inversion N; subst. destruct q as [|q]; simpl.
  - exists x. split; auto. rewrite (put_out _ _ _ _ i H); auto. rewrite set_nth_nth, Nat.eqb_refl, B. auto.
  - destruct (IH _ _ _ q H) as (y & A1 & A2); [auto|lia|]. exists y. auto.
Qed.
Lemma store_ok te fp (s s' : ST) : store rows te fp s = (Ok tt, s') ->
  exists arr arr', put arr te (snd fp) = Ok arr' /\ v_pred (fst s') = Some (fst fp, arr') /\
    (v_pred (fst s) = Some (fst fp, arr) \/ v_pred (fst s) = None /\ arr = repeat None rows).
Proof.
  unfold store. destruct (v_pred (fst s)) as [[cols arr]|].
  - destruct (Nat.eqb_spec cols (fst fp)) as [-> |]; [|discriminate]. destruct (put arr te (snd fp)) as [arr'|] eqn:Ep; [|discriminate].
    unfold set_pred, set_local. intros H. injection H as <-. exists arr, arr'. auto.
  - rewrite Nat.eqb_refl. destruct (put _ te (snd fp)) as [arr'|] eqn:Ep; [|discriminate].
    unfold set_pred, set_local. intros H. injection H as <-. exists (repeat None rows), arr'. auto.
Qed.
(** All folds have been stored in [arr]: every row of every test set holds the
    prediction of the estimator of that fold. *)
Definition proba : bool := existsb (fun b => b) metrics.
Lemma fold_predictions_ok : forall ests folds (s s' : ST), fold_predictions rows predict metrics hit ests folds s = (Ok tt, s') ->
  length ests = length folds -> NoDup (concat (map snd folds)) ->
  (folds = [] /\ v_pred (fst s') = v_pred (fst s)) \/
  exists cols arr0 arr, v_pred (fst s') = Some (cols, arr) /\ length arr = length arr0 /\
    (v_pred (fst s) = Some (cols, arr0) \/ v_pred (fst s) = None /\ arr0 = repeat None rows) /\
    (forall j, ~ In j (concat (map snd folds)) -> nth_error arr j = nth_error arr0 j) /\
    Forall2 (fun e f => exists ps, predict e proba (snd f) = Ok (cols, ps) /\
      forall q, q < length (snd f) -> exists x, nth_error ps q = Some x /\ nth_error arr (nth q (snd f) 0) = Some (Some x)) ests folds.
Proof.
  induction ests as [|e ests IH]; intros [|[tr te] folds] s s' H L N; simpl in L; try lia; cbn [fold_predictions] in H.
  - injection H as <-. auto.
  - right. apply cbind_ok in H as (u & s1 & T & H). apply q_tick in T. apply cbind_ok in H as (fp & s2 & G & H).
    unfold lift in G. injection G as G <-. apply cbind_ok in H as (u2 & s3 & T3 & H). apply q_tick in T3.
    apply cbind_ok in H as ([] & s4 & S4 & H). apply store_ok in S4 as (arr & arr' & PU & V4 & V3).
    cbn [map concat snd] in *. fold proba in G.
    assert (N1 : NoDup te /\ NoDup (concat (map snd folds)) /\ forall j, In j te -> ~ In j (concat (map snd folds))).
    { clear - N. induction te as [|a te IHt]; simpl in *; [repeat split; auto; constructor|]. inversion N; subst. destruct (IHt H2) as (A & B & D).
      repeat split; auto; [constructor; auto; intros K; apply H1, in_or_app; auto|].
      intros j [<- |K]; auto. intros K; apply H1, in_or_app; auto. }
    destruct N1 as (N1 & N2 & N3). pose proof (put_len _ _ _ _ PU) as LP.
    assert (V0 : v_pred (fst s) = Some (fst fp, arr) \/ v_pred (fst s) = None /\ arr = repeat None rows) by (rewrite T3, T in V3; exact V3).
    destruct (IH folds s4 s' H) as [[-> EV]|(cols & arr0 & arr2 & E1 & E2 & E3 & E4 & E5)]; auto.
    + exists (fst fp), arr, arr'. rewrite EV. split; auto. split; auto. split; auto. split.
      * intros j Hj. rewrite app_nil_r in Hj. apply (put_out _ _ _ _ j PU); auto.
      * destruct ests; [|simpl in L; lia]. constructor; [|constructor]. exists (snd fp). simpl. split; [rewrite G; f_equal; apply surjective_pairing|].
        intros q Hq. apply (put_in _ _ _ _ q PU); auto.
    + rewrite V4 in E3. destruct E3 as [E3|[E3 _]]; [|discriminate]. injection E3 as <- <-.
      exists (fst fp), arr, arr2. split; auto. split; [congruence|]. split; auto. split.
      * intros j Hj. rewrite E4, (put_out _ _ _ _ j PU); auto; intros K; apply Hj, in_or_app; auto.
      * constructor; auto. exists (snd fp). cbn [snd]. split; [rewrite G; f_equal; apply surjective_pairing|]. simpl. intros q Hq.
        destruct (put_in _ _ _ _ q PU N1 Hq) as (x & X1 & X2). exists x. split; auto. rewrite E4; auto. apply N3, nth_In; auto.
Qed.
End Ev.

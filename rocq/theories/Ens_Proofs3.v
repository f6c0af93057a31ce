(** Fitting, predictions and hillclimb targets. *)
From Verif Require Import Base Num Num_Proofs Nsga_Model Lib_Model Ens_Model Ens_Spec Ens_Proofs Ens_Proofs2.
Require Import Permutation.
Open Scope nat_scope.

Lemma rmap_ok {A B} (f : A -> res B) (P : A -> B -> Prop) : forall l, (forall x, In x l -> exists y, f x = Ok y /\ P x y) ->
  exists ys, rmap f l = Ok ys /\ Forall2 P l ys.
Proof.
  induction l as [|x l IH]; intros H; simpl; [exists []; auto|].
  destruct (H x) as (y & E & Py); [simpl; auto|]. rewrite E. destruct IH as (ys & Es & F); [intros; apply H; simpl; auto|].
  simpl. rewrite Es. exists (y :: ys). simpl. auto.
Qed.
Lemma rmap_inv {A B} (f : A -> res B) : forall l ys, rmap f l = Ok ys -> Forall2 (fun x y => f x = Ok y) l ys.
Proof.
  induction l as [|x l IH]; simpl; intros ys H; [injection H as <-; constructor|].
  destruct (f x) eqn:E; [|discriminate]. simpl in H. destruct (rmap f l) eqn:E2; [|discriminate]. simpl in H. injection H as <-. constructor; auto.
Qed.
Lemma fit_ok lib left d s : e_models s = Some d -> dok lib d -> d <> [] -> nleb left (Fin 0) = false ->
  (forall m, In m lib -> exists es, m_est m = Ok es /\ es <> []) ->
  exists l, fit left s = (set_fit l s, Ok tt) /\ l <> [] /\
    forall e w, In (e, w) l <-> exists m es, In (m, w) (map snd d) /\ m_est m = Ok es /\ In e es.
Proof.
  intros E D N L H. unfold fit. rewrite E. destruct d as [|x0 d0] eqn:Ed; [congruence|]. rewrite <- Ed in *. rewrite L. clear x0 d0 Ed.
  set (f := fun x : nat * (mdl * nat) => do es <- m_est (fst (snd x)); Ok (map (fun e => (e, snd (snd x))) es)).
  destruct (rmap_ok f (fun x l => exists es, m_est (fst (snd x)) = Ok es /\ es <> [] /\ l = map (fun e => (e, snd (snd x))) es) d) as (ls & El & F).
  { intros [k [m w]] Hx. destruct (d_each _ _ D k m w Hx) as (_ & Hm & _). destruct (H m Hm) as (es & Ee & Ne).
    exists (map (fun e => (e, w)) es). split; [unfold f; simpl; rewrite Ee; reflexivity|]. exists es. auto. }
  rewrite El. exists (concat ls). split; auto. clear - F N. split.
  - destruct F as [|x l d ls (es & Ee & Ne & ->)]; [congruence|]. destruct es; [congruence|]. discriminate.
  - clear N. induction F as [|[k [m w]] l d ls (es & Ee & Ne & ->) F IH]; simpl; intros e w0.
    { split; [intros []|]. intros (m & es & [] & _). }
    rewrite in_app_iff, IH, in_map_iff. simpl in Ee. split.
    + intros [(e0 & [= <- <-] & H0)|(m0 & es0 & A & B & C)]; [exists m, es; auto|exists m0, es0; auto].
    + intros (m0 & es0 & [[= -> ->]|A] & B & C).
      * left. exists e. split; [reflexivity|]. simpl in Ee. congruence.
      * right. exists m0, es0. auto.
Qed.

(** Bounds. *)
Lemma Qc_inv_pos w : 0 < w -> (0 <= / qn w)%Qc.
Proof.
  intros H. unfold Qcle, Qcinv. change (this 0%Qc) with 0%Q. change (this (Q2Qc (/ qn w)%Q)) with (Qred (/ qn w)). rewrite Qred_correct.
  apply Qinv_le_0_compat. apply (qn_nonneg w).
Qed.
Lemma mul_le a b c : (a <= b)%Qc -> (0 <= c)%Qc -> (a * c <= b * c)%Qc.
Proof. intros. apply Qcmult_le_compat_r; auto. Qed.
Lemma qsum_bound {A} (f : A -> Qc) (g : A -> nat) lo : forall l, (forall x, In x l -> (lo <= f x)%Qc) ->
  (lo * qn (wsum (map g l)) <= qsum (map (fun x => f x * qn (g x)) l))%Qc.
Proof.
  induction l as [|x l IH]; intros H; simpl.
  - rewrite qn_0. replace (lo * 0)%Qc with 0%Qc by ring. apply Qcle_refl.
  - fold (wsum (map g l)). rewrite qn_add. fold (qsum (map (fun x => (f x * qn (g x))%Qc) l)).
    replace (lo * (qn (g x) + qn (wsum (map g l))))%Qc with (lo * qn (g x) + lo * qn (wsum (map g l)))%Qc by ring.
    apply Qcplus_le_compat; [apply mul_le; [apply H; simpl; auto|apply qn_nonneg]|apply IH; intros; apply H; simpl; auto].
Qed.
Lemma qsum_bound_hi {A} (f : A -> Qc) (g : A -> nat) hi : forall l, (forall x, In x l -> (f x <= hi)%Qc) ->
  (qsum (map (fun x => f x * qn (g x)) l) <= hi * qn (wsum (map g l)))%Qc.
Proof.
  induction l as [|x l IH]; intros H; simpl.
  - rewrite qn_0. replace (hi * 0)%Qc with 0%Qc by ring. apply Qcle_refl.
  - fold (wsum (map g l)). rewrite qn_add. fold (qsum (map (fun x => (f x * qn (g x))%Qc) l)).
    replace (hi * (qn (g x) + qn (wsum (map g l))))%Qc with (hi * qn (g x) + hi * qn (wsum (map g l)))%Qc by ring.
    apply Qcplus_le_compat; [apply mul_le; [apply H; simpl; auto|apply qn_nonneg]|apply IH; intros; apply H; simpl; auto].
Qed.
Lemma div_ge lo s w : 0 < w -> (lo * qn w <= s)%Qc -> (lo <= s / qn w)%Qc.
Proof.
  intros W H. apply (mul_le _ _ (/ qn w)%Qc) in H; [|apply Qc_inv_pos; auto].
  replace (lo * qn w * / qn w)%Qc with lo in H; [exact H|]. field. apply qn_nz; auto.
Qed.
Lemma div_le hi s w : 0 < w -> (s <= hi * qn w)%Qc -> (s / qn w <= hi)%Qc.
Proof.
  intros W H. apply (mul_le _ _ (/ qn w)%Qc) in H; [|apply Qc_inv_pos; auto].
  replace (hi * qn w * / qn w)%Qc with hi in H; [exact H|]. field. apply qn_nz; auto.
Qed.
Lemma mean_between r c l m i j lo hi : is_mean r c l m -> 0 < wsum (map snd l) -> i < r -> j < c ->
  (forall p w, In (p, w) l -> (lo <= at_ p i j)%Qc /\ (at_ p i j <= hi)%Qc) -> (lo <= at_ m i j)%Qc /\ (at_ m i j <= hi)%Qc.
Proof.
  intros [_ E] W Hi Hj H. rewrite (E i j Hi Hj). split.
  - apply div_ge; auto. apply (qsum_bound (fun pw : mat * nat => at_ (fst pw) i j) snd). intros [p w] Hx. apply (H p w Hx).
  - apply div_le; auto. apply (qsum_bound_hi (fun pw : mat * nat => at_ (fst pw) i j) snd). intros [p w] Hx. apply (H p w Hx).
Qed.

(** Row sums. *)
Lemma qsum_ext {A} (f g : A -> Qc) l : (forall x, In x l -> f x = g x) -> qsum (map f l) = qsum (map g l).
Proof. intros H. f_equal. apply map_ext_in. auto. Qed.
Lemma qsum_mul {A} (f : A -> Qc) k l : qsum (map (fun x => (f x * k)%Qc) l) = (qsum (map f l) * k)%Qc.
Proof. induction l as [|x l IH]; simpl; [ring|]. unfold qsum in *. rewrite IH. ring. Qed.
Lemma qsum_add {A} (f g : A -> Qc) l : qsum (map (fun x => (f x + g x)%Qc) l) = (qsum (map f l) + qsum (map g l))%Qc.
Proof. induction l as [|x l IH]; simpl; [ring|]. unfold qsum in *. rewrite IH. ring. Qed.
Lemma qsum_swap {A B} (f : A -> B -> Qc) (la : list A) (lb : list B) :
  qsum (map (fun a => qsum (map (f a) lb)) la) = qsum (map (fun b => qsum (map (fun a => f a b) la)) lb).
Proof.
  induction la as [|a la IH]; simpl.
  - clear. induction lb as [|b lb IH]; simpl; auto. unfold qsum in *. rewrite <- IH. ring.
  - fold (qsum (map (fun a => qsum (map (f a) lb)) la)). rewrite IH.
    rewrite <- (qsum_add (fun b => f a b) (fun b => qsum (map (fun a => f a b) la))). reflexivity.
Qed.
Lemma row_entries (row : list Qc) : forall n, length row = n -> row = map (fun j => nth j row 0%Qc) (seq 0 n).
Proof.
  induction row as [|x row IH]; intros [|n] H; simpl in *; try lia; auto. f_equal.
  rewrite <- seq_shift, map_map. apply IH. lia.
Qed.
Lemma row_len r c p i : shape r c p -> i < r -> length (nth i p []) = c.
Proof. intros [A B] H. rewrite Forall_forall in B. apply B, nth_In. lia. Qed.
Lemma wsum_qn {A} (g : A -> nat) l : qsum (map (fun x => qn (g x)) l) = qn (wsum (map g l)).
Proof. induction l as [|x l IH]; simpl; [rewrite qn_0; auto|]. fold (wsum (map g l)). rewrite qn_add. unfold qsum in *. rewrite IH. reflexivity. Qed.
Lemma mean_row_sum r c l m i : is_mean r c l m -> 0 < wsum (map snd l) -> i < r ->
  (forall p w, In (p, w) l -> shape r c p /\ qsum (nth i p []) = 1%Qc) -> qsum (nth i m []) = 1%Qc.
Proof.
  intros [S E] W Hi H. rewrite (row_entries (nth i m []) c (row_len r c m i S Hi)).
  rewrite (qsum_ext _ (fun j => (qsum (map (fun pw : mat * nat => (at_ (fst pw) i j * qn (snd pw))%Qc) l) * / qn (wsum (map snd l)))%Qc)).
  2:{ intros j Hj. apply in_seq in Hj. apply (E i j Hi). lia. }
  rewrite qsum_mul, (qsum_swap (fun j (pw : mat * nat) => (at_ (fst pw) i j * qn (snd pw))%Qc) (seq 0 c) l).
  rewrite (qsum_ext _ (fun pw : mat * nat => qn (snd pw))).
  2:{ intros [p w] Hx. simpl. rewrite (qsum_mul (fun j => at_ p i j)). destruct (H p w Hx) as [Sp Ep].
      unfold at_. rewrite <- (row_entries (nth i p []) c (row_len r c p i Sp Hi)), Ep. ring. }
  rewrite wsum_qn. field. apply qn_nz; auto.
Qed.

(** The prediction of the ensemble. *)
Lemma predict_mean_ok {X} (call : nat -> X -> res mat) x s l r c :
  e_fit s = Some l -> l <> [] -> (forall e w, In (e, w) l -> exists p, call e x = Ok p /\ shape r c p) ->
  exists ps m, predict_mean None call x s = Ok m /\ is_mean r c ps m /\
    Forall2 (fun ew pw => call (fst ew) x = Ok (fst pw) /\ snd ew = snd pw /\ shape r c (fst pw)) l ps.
Proof.
  intros E N H. unfold predict_mean. rewrite E.
  destruct (rmap_ok (fun ew : nat * nat => do p <- call (fst ew) x; do q <- Ok p; Ok (q, snd ew))
    (fun ew pw => call (fst ew) x = Ok (fst pw) /\ snd ew = snd pw /\ shape r c (fst pw)) l) as (ps & Eps & F).
  { intros [e w] Hx. destruct (H e w Hx) as (p & Ep & Sp). exists (p, w). simpl. rewrite Ep. auto. }
  rewrite Eps. cbn [rbind]. destruct (mean_ok r c ps) as (m & Em & Mm).
  { destruct F; [congruence|discriminate]. }
  { clear - F. induction F; constructor; auto. apply H. }
  exists ps, m. auto.
Qed.
Lemma fa2_wsum {X} (call : nat -> X -> res mat) x r c (l : list (nat * nat)) (ps : list (mat * nat)) :
  Forall2 (fun ew pw => call (fst ew) x = Ok (fst pw) /\ snd ew = snd pw /\ shape r c (fst pw)) l ps ->
  map snd ps = map snd l.
Proof. induction 1 as [|ew pw l ps (A & B & C) F IH]; simpl; congruence. Qed.
Lemma fa2_in {A B} (P : A -> B -> Prop) l ps y : Forall2 P l ps -> In y ps -> exists x, In x l /\ P x y.
Proof. induction 1; simpl; [intros []|]. intros [<- |K]; [exists x; auto|]. destruct (IHForall2 K) as (z & A1 & B1). exists z; auto. Qed.
Lemma pos_wsum (l : list (nat * nat)) : l <> [] -> Forall (fun ew => 1 <= snd ew) l -> 0 < wsum (map snd l).
Proof. intros N F. destruct F; [congruence|]. unfold wsum. simpl. lia. Qed.

(** One-hot rows. *)
Lemma one_hot_len cats y : length (one_hot cats y) = length cats.
Proof. induction cats; simpl; auto. Qed.
Lemma one_hot_nth cats y : forall j, j < length cats -> nth j (one_hot cats y) 0%Qc = if nth j cats 0 =? y then 1%Qc else 0%Qc.
Proof. induction cats as [|c cats IH]; simpl; intros [|j] H; try lia; auto. apply IH; lia. Qed.
Lemma one_hot_nonneg cats y : Forall (fun x => (0 <= x)%Qc) (one_hot cats y).
Proof. induction cats as [|c cats IH]; simpl; constructor; auto. destruct (c =? y); unfold Qcle; simpl; unfold Qle; simpl; lia. Qed.
Lemma one_hot_out cats y : ~ In y cats -> qsum (one_hot cats y) = 0%Qc.
Proof.
  induction cats as [|c cats IH]; simpl; intros H; auto. destruct (Nat.eqb_spec c y) as [-> |K]; [destruct H; auto|].
  unfold qsum in *. rewrite IH by tauto. ring.
Qed.
Lemma one_hot_sum cats y : NoDup cats -> In y cats -> qsum (one_hot cats y) = 1%Qc.
Proof.
  induction cats as [|c cats IH]; simpl; intros N H; [destruct H|]. inversion N; subst.
  destruct (Nat.eqb_spec c y) as [-> |K].
  - pose proof (one_hot_out cats y H2) as E. unfold qsum in *. rewrite E. ring.
  - unfold qsum in *. destruct H as [H|H]; [congruence|]. rewrite (IH H3 H). ring.
Qed.
Lemma encode_ok cats : forall ys, Forall (fun y => In y cats) ys -> encode cats ys = Ok (map (one_hot cats) ys).
Proof.
  induction ys as [|y ys IH]; intros H; auto. inversion H; subst. unfold encode in *. simpl.
  replace (existsb (Nat.eqb y) cats) with true; [cbn [rbind]; rewrite IH; auto|].
  symmetry. apply existsb_exists. exists y. split; auto. apply Nat.eqb_refl.
Qed.

(** argmax. *)
Lemma qltc_le a b : qltc a b = false -> (b <= a)%Qc.
Proof. unfold qltc, qltb. intros H. apply negb_false_iff in H. apply Qle_bool_iff in H. exact H. Qed.
Lemma qltc_lt a b : qltc a b = true -> (a <= b)%Qc.
Proof.
  unfold qltc, qltb. intros H. apply negb_true_iff in H. unfold Qcle. destruct (Qlt_le_dec a b) as [L|L]; [apply Qlt_le_weak; auto|].
  apply Qle_bool_iff in L. congruence.
Qed.
Lemma argmax_from_ok : forall row pre best bi, bi < length pre -> nth bi pre 0%Qc = best ->
  (forall j, j < length pre -> (nth j pre 0 <= best)%Qc) ->
  let k := argmax_from best bi (length pre) row in
  k < length (pre ++ row) /\ forall j, j < length (pre ++ row) -> (nth j (pre ++ row) 0 <= nth k (pre ++ row) 0)%Qc.
Proof.
  induction row as [|x row IH]; intros pre best bi H1 H2 H3; simpl.
  - rewrite app_nil_r. split; auto. intros j Hj. rewrite H2. auto.
  - replace (pre ++ x :: row) with ((pre ++ [x]) ++ row) by (rewrite <- app_assoc; auto).
    replace (S (length pre)) with (length (pre ++ [x])) by (rewrite app_length; simpl; lia).
    assert (NX : nth (length pre) (pre ++ [x]) 0%Qc = x) by (rewrite app_nth2, Nat.sub_diag; auto).
    destruct (qltc best x) eqn:E; apply IH.
    + rewrite app_length. simpl. lia.
    + auto.
    + intros j Hj. rewrite app_length in Hj. simpl in Hj. destruct (Nat.eq_dec j (length pre)) as [-> |K]; [rewrite NX; apply Qcle_refl|].
      rewrite app_nth1 by lia. apply Qcle_trans with best; [apply H3; lia|apply qltc_lt; auto].
    + rewrite app_length. lia.
    + rewrite app_nth1 by lia. auto.
    + intros j Hj. rewrite app_length in Hj. simpl in Hj. destruct (Nat.eq_dec j (length pre)) as [-> |K]; [rewrite NX; apply qltc_le; auto|].
      rewrite app_nth1 by lia. apply H3; lia.
Qed.
Lemma argmax_ok row : row <> [] -> argmax row < length row /\ forall j, j < length row -> (nth j row 0 <= nth (argmax row) row 0)%Qc.
Proof.
  destruct row as [|x row]; [congruence|]. intros _. unfold argmax.
  apply (argmax_from_ok row [x] x 0); simpl; auto. intros [|j] H; [apply Qcle_refl|lia].
Qed.

(** The votes for one class. *)
Lemma vote_sum (k : nat) (l : list (nat * nat)) (lab : nat -> nat) :
  qsum (map (fun ew => ((if k =? lab (fst ew) then 1 else 0) * qn (snd ew))%Qc) l) =
  qn (wsum (map snd (filter (fun ew => k =? lab (fst ew)) l))).
Proof.
  induction l as [|[e w] l IH]; simpl; [rewrite qn_0; auto|]. unfold qsum in *. rewrite IH.
  destruct (k =? lab e); simpl; [|ring]. fold (wsum (map snd (filter (fun ew : nat * nat => k =? lab (fst ew)) l))). rewrite qn_add. ring.
Qed.
Lemma qn_le a b w : 0 < w -> (qn a / qn w <= qn b / qn w)%Qc -> a <= b.
Proof.
  intros W H. apply (mul_le _ _ (qn w)) in H; [|apply qn_nonneg].
  replace (qn a / qn w * qn w)%Qc with (qn a) in H by (field; apply qn_nz; auto).
  replace (qn b / qn w * qn w)%Qc with (qn b) in H by (field; apply qn_nz; auto).
  unfold Qcle in H. change (this (qn a)) with (Qred (inject_Z (Z.of_nat a))) in H.
  change (this (qn b)) with (Qred (inject_Z (Z.of_nat b))) in H. rewrite !Qred_correct, <- Zle_Qle in H. lia.
Qed.

(** Hillclimb targets. *)
Lemma ypick_ok {A} (d : A) rows y : Forall (fun i => i < length y) rows -> ypick rows y = Ok (map (fun i => nth i y d) rows).
Proof.
  induction 1 as [|i rows Hi F IH]; auto. unfold ypick in *. cbn [rmap map].
  rewrite (nth_error_nth' y d Hi). cbn [rbind]. rewrite IH. reflexivity.
Qed.
Lemma ypick_length {A} rows (y y' : list A) : ypick rows y = Ok y' -> length y' = length rows.
Proof. intros H. apply rmap_inv in H. induction H; simpl; auto. Qed.

(** Proofs for Pred_Main. *)
Require Import QArith Qcanon Permutation.
From Verif Require Import Base Num Data_Model Data_Spec Pred_Model Pred_Spec Data_Proofs Data_Proofs2.
Open Scope string_scope.
Open Scope list_scope.
Open Scope nat_scope.

Lemma quot_spec a b : (0 < b)%Z -> ((0 <= a -> b * Z.quot a b <= a < b * (Z.quot a b + 1)) /\ (a <= 0 -> b * (Z.quot a b - 1) < a <= b * Z.quot a b))%Z.
Proof.
  intros Hb. pose proof (Z.quot_rem' a b) as Q. split; intros Ha.
  - pose proof (Z.rem_bound_pos a b Ha Hb). lia.
  - pose proof (Z.rem_bound_pos (- a) b ltac:(lia) Hb) as R. rewrite Z.rem_opp_l in R by lia. lia.
Qed.
Lemma trunc_spec q : exists z, towards_zero q z /\ trunc q = Q2Qc (inject_Z z).
Proof.
  exists (Z.quot (Qnum q) (Zpos (Qden q))). split; [|reflexivity].
  destruct q as [[a b] C]. unfold towards_zero, Qcle. cbn [this Qnum Qden].
  destruct (quot_spec a (Zpos b) eq_refl) as [P N]. split; intros H; unfold Qle, Qlt in *; cbn [Qnum Qden inject_Z] in *.
  - change (this 0%Qc) with 0%Q in H. cbn [Qnum Qden] in H. lia.
  - change (this 0%Qc) with 0%Q in H. cbn [Qnum Qden] in H. lia.
Qed.
Lemma towards_unique q z z' : towards_zero q z -> towards_zero q z' -> z = z'.
Proof.
  intros [P1 N1] [P2 N2]. destruct (Qclt_le_dec q 0%Qc) as [H|H].
  - apply Qclt_le_weak in H. destruct (N1 H) as [A B], (N2 H) as [C D]. destruct q as [[a b] ?]. unfold Qle, Qlt in *; cbn [this Qnum Qden inject_Z] in *. nia.
  - destruct (P1 H) as [A B], (P2 H) as [C D]. destruct q as [[a b] ?]. unfold Qle, Qlt in *; cbn [this Qnum Qden inject_Z] in *. nia.
Qed.
Lemma trunc_whole c q : c = CNum q -> whole c -> trunc q = q.
Proof.
  intros -> (z & E). injection E as ->. unfold trunc. rewrite this_inject. cbn [inject_Z Qnum Qden]. rewrite Z.quot_1_r. reflexivity.
Qed.
Lemma same_refl c : same_value c c.
Proof. apply same_key. reflexivity. Qed.
Lemma same_bool b : same_value (CBool b) (CNum (bool_num b)).
Proof. apply same_key. reflexivity. Qed.

Section P.
Context (parse_float parse_int : string -> res cell) (other : dtype -> cell -> res cell).
Notation astype := (astype_cell parse_float parse_int other).
Lemma astype_used t c d : astype t c = Ok d -> used_as parse_float parse_int (Some t) c d.
Proof.
  intros H. destruct t as [cats|[]]; simpl in *; auto.
  - injection H as <-. destruct (find (cell_eqb c) cats) as [e|] eqn:F.
    + left. apply find_some in F as [I E]. split; auto. apply same_eqb; auto.
    + right. split; auto. intros d I S. pose proof (find_none _ _ F _ I). apply same_eqb in S. congruence.
  - congruence.
  - destruct c; try discriminate; auto.
    + injection H as <-. destruct (trunc_spec q) as (z & Z1 & ->). eauto.
    + injection H as <-. apply same_bool.
  - injection H as <-. eexists. split; [reflexivity|]. destruct c as [|q|p|b|s].
    + split; [discriminate|intros [K|[K|K]]; discriminate].
    + destruct (Qc_eq_dec q 0%Qc) as [->|N]; [tauto|]. split; [discriminate|intros [K|[K|K]]; congruence].
    + split; [discriminate|intros [K|[K|K]]; discriminate].
    + split; [intros ->; auto|intros [K|[K|K]]; congruence].
    + destruct (String.eqb_spec s "") as [->|N]; simpl; [tauto|]. split; [discriminate|intros [K|[K|K]]; congruence].
  - destruct c; auto; injection H as <-; try apply same_refl. apply same_bool.
Qed.
(** dtypes for which a conversion looks at one cell only and the typed cells of a
    numpy column of that dtype stay the same *)
Lemma enum_nth {A} (l : list A) : forall k i, nth_error (enum_from k l) i = match nth_error l i with Some x => Some (k + i, x) | None => None end.
Proof.
  induction l as [|x l IH]; intros k [|i]; simpl; auto; [rewrite Nat.add_0_r; auto|]. rewrite IH. destruct (nth_error l i); auto. f_equal. f_equal. lia.
Qed.
Lemma match_nth types : forall k cols cs, match_columns parse_float parse_int other k types cols = Ok cs ->
  length cs = length cols /\ length types <= length cols /\
  forall i d cells, nth_error cols i = Some (d, cells) ->
    exists c, nth_error cs i = Some c /\ c_cname c = NInt (k + i) /\
      c_dtype c = match nth_error types i with Some t => dtype_of t | None => d end /\
      match nth_error types i with Some t => rmap (astype t) cells = Ok (c_cells c) | None => c_cells c = cells end.
Proof.
  induction types as [|t ts IH]; intros k cols cs H.
  - simpl in H. injection H as <-. split.
    { rewrite map_length. unfold enumerate. clear. generalize 0. induction cols as [|c cols IHc]; intros n; simpl; auto. }
    split; [simpl; lia|]. intros i d cells E. rewrite nth_error_map. unfold enumerate. rewrite enum_nth, E. simpl. eexists. split; [reflexivity|].
    cbn [c_cname c_dtype c_cells]. destruct i; simpl; auto.
  - destruct cols as [|[d0 c0] cols]; [discriminate|]. cbn [match_columns] in H.
    destruct (rmap (astype t) c0) as [cells'|] eqn:R; [|discriminate]. cbn [rbind] in H.
    destruct (match_columns _ _ _ (S k) ts cols) as [r|] eqn:M; [|discriminate]. cbn [rbind] in H. injection H as <-.
    apply IH in M as (L1 & L2 & N). split; [simpl; lia|]. split; [simpl; lia|]. intros [|i] d cells E; simpl in E.
    + injection E as -> ->. simpl. eexists. split; [reflexivity|]. cbn [c_cname c_dtype c_cells]. rewrite Nat.add_0_r. auto.
    + destruct (N i d cells E) as (c & C1 & C2 & C3). exists c. split; auto. split; [rewrite C2; f_equal; lia|]. auto.
Qed.
Lemma match_total types : forall k cols, length types <= length cols ->
  (forall i t d cells, nth_error types i = Some t -> nth_error cols i = Some (d, cells) -> exists cells', rmap (astype t) cells = Ok cells') ->
  exists cs, match_columns parse_float parse_int other k types cols = Ok cs.
Proof.
  induction types as [|t ts IH]; intros k cols L H; [simpl; eauto|]. destruct cols as [|[d c] cols]; [simpl in L; lia|]. cbn [match_columns].
  destruct (H 0 t d c eq_refl eq_refl) as (c' & ->). cbn [rbind]. destruct (IH (S k) cols) as (r & ->); [simpl in L; lia| |cbn [rbind]; eauto].
  intros i. apply (H (S i)).
Qed.
Lemma match_short types : forall k cols, length cols < length types ->
  exists e, match_columns parse_float parse_int other k types cols = Err e.
Proof.
  induction types as [|t ts IH]; intros k cols L; [simpl in L; lia|]. destruct cols as [|[d c] cols]; simpl; [eauto|].
  destruct (rmap (astype t) c); cbn [rbind]; [|eauto]. simpl in L. destruct (IH (S k) cols) as (e & ->); [lia|]. simpl. eauto.
Qed.
Lemma match_key types : forall k cols, length cols < length types ->
  (forall i t d cells, nth_error types i = Some t -> nth_error cols i = Some (d, cells) -> exists cells', rmap (astype t) cells = Ok cells') ->
  match_columns parse_float parse_int other k types cols = Err KeyError.
Proof.
  induction types as [|t ts IH]; intros k cols L H; [simpl in L; lia|]. destruct cols as [|[d c] cols]; [reflexivity|]. cbn [match_columns].
  destruct (H 0 t d c eq_refl eq_refl) as (c' & ->). cbn [rbind]. rewrite IH; [reflexivity|simpl in L; lia|]. intros i. apply (H (S i)).
Qed.
Lemma castable_ok t cells : Forall (castable t) cells -> exists cells', rmap (astype t) cells = Ok cells'.
Proof.
  intros H. induction H as [|c cells Hc _ (cells' & IH)]; [exists []; reflexivity|].
  cbn [rmap]. assert (A : exists d, astype t c = Ok d).
  { destruct t as [cats|[]]; simpl in Hc; try contradiction; simpl; eauto; destruct c; try contradiction; eauto. }
  destruct A as (d & ->). rewrite IH. simpl. eauto.
Qed.
Lemma rmap_nth {A B} (f : A -> res B) l l' i a : rmap f l = Ok l' -> nth_error l i = Some a -> exists b, nth_error l' i = Some b /\ f a = Ok b.
Proof. intros H E. apply rmap_forall2 in H. apply (Forall2_nth _ _ _ _ _ H E). Qed.
Lemma rmap_length {A B} (f : A -> res B) l l' : rmap f l = Ok l' -> length l' = length l.
Proof. intros H. apply rmap_forall2 in H. induction H; simpl; auto. Qed.

(** * Training data again *)
Lemma astype_typed d c cells : length cells = length cells -> Forall (typed d) cells ->
  infer_column (mkCol (NInt 0) d cells) = Ok c ->
  exists cells', rmap (astype (coltype_of c)) cells = Ok cells' /\ Forall2 same_value (c_cells c) cells' /\ c_cells c = cells /\
     dtype_of (coltype_of c) = c_dtype c.
Proof.
  intros _ T H.
  assert (EC : c_cells c = cells /\ (c_dtype c = DCategory \/ c_dtype c = d)).
  { unfold infer_column in H. destruct (looks_categorical _) as [b|]; [|discriminate]. cbn [rbind] in H. injection H as <-. destruct b; simpl; auto. }
  destruct EC as [EC ED]. assert (DD : dtype_of (coltype_of c) = c_dtype c) by (unfold coltype_of; destruct (c_dtype c); reflexivity).
  assert (KEY : forall x, In x cells -> exists y, astype (coltype_of c) x = Ok y /\ same_value x y).
  { intros x Hx. rewrite Forall_forall in T. specialize (T x Hx). unfold coltype_of. destruct ED as [-> | ->].
    - simpl. eexists. split; [reflexivity|]. rewrite EC. destruct (find (cell_eqb x) (distinct cells)) as [e|] eqn:F.
      + apply find_some in F as [_ E]. apply same_eqb. exact E.
      + destruct x; try apply same_refl;
          (destruct (distinct_spec cells) as (_ & _ & D3); destruct (D3 _ Hx) as (e & I & K); [discriminate|];
           pose proof (find_none _ _ F _ I) as N; apply cell_eqb_key in K; congruence).
    - destruct d; simpl in T; try contradiction; simpl.
      + eexists. split; [reflexivity|apply same_refl].
      + destruct T as (z & ->). eexists. split; [reflexivity|]. rewrite (trunc_whole _ _ eq_refl) by (eexists; reflexivity). apply same_refl.
      + destruct T as [-> |[(q & ->)|(b & ->)]]; eexists; (split; [reflexivity|apply same_refl]). }
  destruct (rmap_ok (astype (coltype_of c)) cells) as (cells' & R). { intros a Ha. destruct (KEY a Ha) as (y & Y & _). eauto. }
  exists cells'. split; auto. split; [|auto]. rewrite EC. apply rmap_forall2 in R. clear - R KEY.
  induction R; constructor; [|apply IHR; intros; apply KEY; right; auto]. destruct (KEY x (or_introl eq_refl)) as (y' & E1 & E2). congruence.
Qed.
Lemma infer_name k k' d cells c : infer_column (mkCol k d cells) = Ok c ->
  exists c', infer_column (mkCol k' d cells) = Ok c' /\ c_dtype c' = c_dtype c /\ c_cells c' = c_cells c /\ c_cname c = k.
Proof.
  unfold infer_column. change (looks_categorical (mkCol k' d cells)) with (looks_categorical (mkCol k d cells)).
  destruct (looks_categorical _) as [b|]; [|discriminate]. cbn [rbind]. intros H. injection H as <-. eexists. split; [reflexivity|]. destruct b; auto.
Qed.

Lemma header_ext (a b : list column) : length a = length b ->
  (forall i c, nth_error a i = Some c -> exists d, nth_error b i = Some d /\ c_cname c = c_cname d /\ c_dtype c = c_dtype d) ->
  map (fun c => (c_cname c, c_dtype c)) a = map (fun c => (c_cname c, c_dtype c)) b.
Proof.
  revert b. induction a as [|x a IH]; intros [|y b] L H; simpl in *; try discriminate; auto.
  destruct (H 0 x eq_refl) as (d & E & N & D). simpl in E. injection E as <-. rewrite N, D. f_equal. apply IH; [lia|]. intros i. apply (H (S i)).
Qed.
Lemma numpy_nth n cols f : numpy_to_dataframe n cols = Ok f ->
  f_index f = map Z.of_nat (seq 0 n) /\ length (f_cols f) = length cols /\
  forall i d cells, nth_error cols i = Some (d, cells) -> exists c, nth_error (f_cols f) i = Some c /\ infer_column (mkCol (NInt i) d cells) = Ok c.
Proof.
  unfold numpy_to_dataframe, infer_categoricals. cbn [f_index f_cols].
  destruct (rmap infer_column _) as [cs|] eqn:R; [|discriminate]. cbn [rbind]. intros H. injection H as <-. cbn [f_index f_cols]. split; auto.
  assert (LE : forall k, length (enum_from k cols) = length cols) by (clear; induction cols; intros k; simpl; auto).
  split; [rewrite (rmap_length _ _ _ R), map_length; apply LE|]. intros i d cells E.
  eapply rmap_nth in R; [exact R|]. rewrite nth_error_map. unfold enumerate. rewrite enum_nth, E. reflexivity.
Qed.
Lemma training_frame n cols f : array_ok n cols -> numpy_to_dataframe n cols = Ok f ->
  exists g, np_to_matching parse_float parse_int other (map coltype_of (f_cols f)) n cols = Ok g /\
    f_index g = f_index f /\ header g = header f /\ rectangular f /\ rectangular g /\
    forall i, i < n -> same_row (row f i) (row g i).
Proof.
  intros A H. apply numpy_nth in H as (I & L & N). unfold array_ok in A. rewrite Forall_forall in A.
  assert (COL : forall i d cells, nth_error cols i = Some (d, cells) -> exists c cells', nth_error (f_cols f) i = Some c /\ c_cname c = NInt i /\
     rmap (astype_cell parse_float parse_int other (coltype_of c)) cells = Ok cells' /\ Forall2 same_value (c_cells c) cells' /\ c_cells c = cells /\
     dtype_of (coltype_of c) = c_dtype c /\ length cells = n).
  { intros i d cells E. destruct (N i d cells E) as (c & C1 & C2). apply nth_error_In in E as IE. destruct (A _ IE) as [LC TC]. cbn [fst snd] in LC, TC.
    destruct (infer_name (NInt i) (NInt 0) d cells c C2) as (c' & C3 & C4 & C5 & C6).
    destruct (astype_typed d c' cells eq_refl TC C3) as (cells' & R & F & EC & ED).
    assert (TT : coltype_of c' = coltype_of c) by (unfold coltype_of; rewrite C4, C5; reflexivity).
    exists c, cells'. rewrite TT in R, ED. rewrite C5 in F, EC. rewrite C4 in ED.
    split; [exact C1|]. split; [exact C6|]. split; [exact R|]. split; [exact F|]. split; [exact EC|]. split; [exact ED|exact LC]. }
  destruct (match_total (map coltype_of (f_cols f)) 0 cols) as (cs & M).
  { rewrite map_length. lia. }
  { intros i t d cells E1 E2. rewrite nth_error_map in E1. destruct (COL i d cells E2) as (c & cells' & C1 & _ & C3 & _). rewrite C1 in E1. injection E1 as <-. eauto. }
  exists (mkFrame (map Z.of_nat (seq 0 n)) cs). unfold np_to_matching. rewrite M. cbn [rbind]. split; auto. cbn [f_index f_cols].
  apply match_nth in M as (L1 & _ & M).
  assert (BOTH : forall i c, nth_error (f_cols f) i = Some c -> exists d cells g, nth_error cols i = Some (d, cells) /\ nth_error cs i = Some g /\
     c_cname c = c_cname g /\ c_dtype c = c_dtype g /\ Forall2 same_value (c_cells c) (c_cells g) /\ length (c_cells c) = n).
  { intros i c E. assert (Hi : i < length cols) by (rewrite <- L; apply nth_error_Some; congruence). apply nth_error_Some in Hi.
    destruct (nth_error cols i) as [[d cells]|] eqn:EC; [|congruence]. destruct (COL i d cells EC) as (c' & cells' & C1 & C2 & C3 & C4 & C5 & C6 & C7).
    assert (c' = c) by congruence. subst c'. destruct (M i d cells EC) as (g & G1 & G2 & G3 & G4). rewrite nth_error_map, C1 in G3, G4. simpl in G3, G4.
    rewrite C3 in G4. injection G4 as G4. exists d, cells, g. split; auto. split; auto. split; [rewrite G2; exact C2|].
    split; [rewrite G3; auto|]. split; [rewrite <- G4; exact C4|]. congruence. }
  split; auto. split.
  { unfold header. cbn [f_cols]. symmetry. apply header_ext; [lia|]. intros i c E. destruct (BOTH i c E) as (_ & _ & g & _ & G1 & G2 & G3 & _). eauto. }
  assert (RF : rectangular f).
  { unfold rectangular. rewrite I, map_length, seq_length. apply Forall_forall. intros c Hc. apply In_nth_error in Hc as (i & E). destruct (BOTH i c E) as (_ & _ & _ & _ & _ & _ & _ & _ & K). auto. }
  split; auto. split.
  { unfold rectangular. cbn [f_index f_cols]. rewrite map_length, seq_length. apply Forall_forall. intros g Hg. apply In_nth_error in Hg as (i & E).
    assert (Hi : i < length (f_cols f)) by (rewrite L, <- L1; apply nth_error_Some; congruence). apply nth_error_Some in Hi.
    destruct (nth_error (f_cols f) i) as [c|] eqn:EC; [|congruence]. destruct (BOTH i c EC) as (_ & _ & g' & _ & G1 & _ & _ & F & K).
    assert (g' = g) by congruence. subst g'. rewrite <- K. clear - F. induction F; simpl; auto. }
  intros i Hi. unfold same_row, row. cbn [f_cols].
  assert (G : forall a b, length a = length b -> (forall j c, nth_error a j = Some c -> exists g, nth_error b j = Some g /\ Forall2 same_value (c_cells c) (c_cells g) /\ length (c_cells c) = n) ->
     Forall2 (fun x y => match x with Some c => match y with Some d => same_value c d | None => False end | None => False end)
       (map (fun c => nth_error (c_cells c) i) a) (map (fun c => nth_error (c_cells c) i) b)).
  { induction a as [|x a IH]; intros [|y b] LL H; simpl in *; try discriminate; constructor.
    - destruct (H 0 x eq_refl) as (g & E & F & K). simpl in E. injection E as <-. rewrite <- K in Hi. apply nth_error_Some in Hi.
      destruct (nth_error (c_cells x) i) as [u|] eqn:EU; [|congruence]. destruct (Forall2_nth _ _ _ _ _ F EU) as (v & -> & S). exact S.
    - apply IH; [lia|]. intros j. apply (H (S j)). }
  apply G; [lia|]. intros j c E. destruct (BOTH j c E) as (_ & _ & g & _ & G1 & _ & _ & F & K). eauto.
Qed.
Lemma align_length index mask m : align_mask index mask = Ok m -> length m = length index.
Proof.
  unfold align_mask. destruct (zlist_eqb (map fst mask) index) eqn:Z.
  - intros H. injection H as <-. apply zlist_eqb_eq in Z. rewrite <- Z, !map_length. reflexivity.
  - destruct (forallb _ index); [|discriminate]. destruct (Nat.eqb_spec (length (flat_map (fun i => map snd (filter (fun im => Z.eqb i (fst im)) mask)) index)) (length index)); [|discriminate].
    intros H. injection H as <-. auto.
Qed.
Lemma remove_selects f y f' y' : remove_unlabeled_rows f y = Ok (f', y') -> f' = f \/ exists m, f' = select_rows m f.
Proof.
  unfold remove_unlabeled_rows. destruct (match y with OSeries _ => _ | OFrame _ _ => _ | OScalar _ => _ end) as [unl|]; [|discriminate]. cbn [rbind].
  destruct (existsb snd unl).
  2:{ intros H. injection H as <- _. auto. }
  destruct (align_mask (f_index f) _) as [mx|]; [|discriminate]. cbn [rbind]. right. exists mx.
  destruct y; try discriminate; (destruct (align_mask _ _); [|discriminate]); cbn [rbind] in H; injection H as <- _; auto.
Qed.
Lemma select_row n f m k i : f_index f = map Z.of_nat (seq 0 n) -> rectangular f ->
  nth_error (f_index (select_rows m f)) k = Some (Z.of_nat i) -> i < n /\ row (select_rows m f) k = row f i.
Proof.
  intros I R. unfold select_rows. cbn [f_index]. rewrite (select_nth m (f_index f) 0 k n) by (rewrite I, map_length, seq_length; auto).
  destruct (nth_error (select m (seq 0 n)) k) as [j|] eqn:E; [|discriminate]. rewrite Nat.sub_0_r, I, nth_error_map. intros H.
  destruct (nth_error (seq 0 n) j) as [j'|] eqn:J; [|discriminate]. injection H as H. apply Nat2Z.inj in H. subst j'.
  assert (Hj : j < n) by (rewrite <- (seq_length n 0); apply nth_error_Some; congruence).
  assert (j = i). { apply (nth_error_nth _ _ 0) in J. rewrite seq_nth in J by auto. auto. } subst j. split; auto.
  unfold row. cbn [f_cols]. rewrite map_map. apply map_ext_in. intros c Hc. cbn [c_cells]. unfold rectangular in R. rewrite Forall_forall in R.
  rewrite (select_nth m (c_cells c) 0 k n) by (rewrite (R c Hc), I, map_length, seq_length; auto). rewrite E, Nat.sub_0_r. reflexivity.
Qed.
End P.

(** * Rows one by one *)
Lemma decode_rows y classes y' raw :
  classifier_labels y = Ok (classes, y') -> raw <> [] -> (forall r, In r raw -> In r y' /\ r <> LMissing) ->
  exists out, classifier_predict classes raw = Ok out /\ length out = length raw /\
    forall i r, nth_error raw i = Some r -> exists d, nth_error out i = Some d /\ In d y /\ classifier_predict classes [r] = Ok [d].
Proof.
  intros H N HR. destruct (predict_decodes y classes y' raw H N HR) as (out & E & F). exists out. split; auto.
  split; [clear - F; induction F; simpl; auto|]. intros i r Ei. destruct (Forall2_nth _ _ _ _ _ F Ei) as (d & Ed & Id & Jd). exists d. split; auto. split; auto.
  destruct (predict_decodes y classes y' [r] H) as (out1 & E1 & F1); [discriminate|intros r' [<- |[]]; apply HR; eapply nth_error_In; eauto|].
  inversion F1 as [|? d1 ? t1 [I1 J1] F2]; subst. inversion F2; subst. rewrite E1. f_equal. f_equal.
  destruct (HR r) as [Hy _]; [eapply nth_error_In; eauto|]. apply In_nth_error in Hy as (j & Ej). pose proof (Jd j Ej). pose proof (J1 j Ej). congruence.
Qed.
Lemma nth_error_nth_some {A} (l : list A) i d : i < length l -> nth_error l i = Some (nth i l d).
Proof. intros H. apply nth_error_nth'. auto. Qed.
Lemma only_row_frame_ok f i : rectangular f -> i < length (f_index f) ->
  rectangular (only_row_frame i f) /\ header (only_row_frame i f) = header f /\ rows (only_row_frame i f) = [row f i].
Proof.
  intros R Hi. split; [|split].
  - unfold rectangular, only_row_frame. cbn [f_cols f_index]. apply Forall_map, Forall_forall. auto.
  - unfold header, only_row_frame. cbn [f_cols]. rewrite map_map. reflexivity.
  - unfold rows, only_row_frame. cbn [f_index length seq map]. f_equal. unfold row. cbn [f_cols]. rewrite map_map. apply map_ext_in. intros c Hc. cbn [c_cells nth_error].
    unfold rectangular in R. rewrite Forall_forall in R. symmetry. apply nth_error_nth_some. rewrite (R c Hc). auto.
Qed.
Lemma rows_nth f i : i < length (f_index f) -> nth_error (rows f) i = Some (row f i).
Proof.
  intros H. unfold rows. rewrite nth_error_map, (nth_error_nth_some _ i 0) by (rewrite seq_length; auto). rewrite seq_nth by auto. reflexivity.
Qed.
Section G.
Context (parse_float parse_int : string -> res cell) (other : dtype -> cell -> res cell).
Lemma predict_rowwise g h answer f : rowwise g h answer -> rectangular f -> header f = h ->
  (do x <- (match g_transform g with None => Ok f | Some t => t f end); predict_frame g x) =
  match g_classes g with None => Ok (map answer (rows f)) | Some classes => classifier_predict classes (map answer (rows f)) end.
Proof.
  intros (m & M & H) R E. specialize (H f R E). unfold predict_frame. rewrite M.
  destruct (match g_transform g with Some t => t f | None => Ok f end) as [x|e]; cbn [rbind] in *; [|discriminate].
  rewrite H. cbn [rbind]. reflexivity.
Qed.
Lemma matching_row types n cols f i : (forall dc, In dc cols -> length (snd dc) = n) -> i < n ->
  np_to_matching parse_float parse_int other types n cols = Ok f ->
  length (f_index f) = n /\ rectangular f /\
  exists f1, np_to_matching parse_float parse_int other types 1 (only_row i cols) = Ok f1 /\ rectangular f1 /\ header f1 = header f /\ rows f1 = [row f i].
Proof.
  intros LC Hi H. unfold np_to_matching in *. destruct (match_columns _ _ _ 0 types cols) as [cs|] eqn:M; [|discriminate]. cbn [rbind] in H. injection H as <-.
  cbn [f_index]. split; [rewrite map_length, seq_length; auto|].
  pose proof M as M0. apply match_nth in M as (L1 & L2 & M).
  assert (COLS : forall j c, nth_error cs j = Some c -> exists d cells, nth_error cols j = Some (d, cells) /\ length cells = n /\ length (c_cells c) = n /\
    c_cname c = NInt j /\ c_dtype c = match nth_error types j with Some t => dtype_of t | None => d end /\
    match nth_error types j with Some t => rmap (astype_cell parse_float parse_int other t) cells = Ok (c_cells c) | None => c_cells c = cells end).
  { intros j c E. assert (Hj : j < length cols) by (rewrite <- L1; apply nth_error_Some; congruence). apply nth_error_Some in Hj.
    destruct (nth_error cols j) as [[d cells]|] eqn:EC; [|congruence]. destruct (M j d cells EC) as (c' & C1 & C2 & C3 & C4). assert (c' = c) by congruence. subst c'.
    assert (length cells = n) by (apply nth_error_In in EC; apply (LC _ EC)). exists d, cells. repeat split; auto.
    destruct (nth_error types j); [apply rmap_length in C4; lia|congruence]. }
  split.
  { unfold rectangular. cbn [f_index f_cols]. rewrite map_length, seq_length. apply Forall_forall. intros c Hc. apply In_nth_error in Hc as (j & E).
    destruct (COLS j c E) as (_ & _ & _ & _ & K & _). auto. }
  assert (ROW1 : forall j dc, nth_error (only_row i cols) j = Some dc -> exists c, nth_error cs j = Some c /\
     c_dtype c = match nth_error types j with Some t => dtype_of t | None => fst dc end /\ c_cname c = NInt j /\
     match nth_error types j with Some t => rmap (astype_cell parse_float parse_int other t) (snd dc) = Ok [nth i (c_cells c) CMissing] | None => snd dc = [nth i (c_cells c) CMissing] end /\
     length (c_cells c) = n).
  { intros j dc E. unfold only_row in E. rewrite nth_error_map in E. destruct (nth_error cols j) as [[d cells]|] eqn:EC; [|discriminate]. injection E as <-. cbn [fst snd].
    destruct (M j d cells EC) as (c & C1 & C2 & C3 & C4). exists c. split; auto. split; auto. split; auto. destruct (COLS j c C1) as (d' & cells' & D1 & D2 & D3 & _).
    assert (cells' = cells) by congruence. subst cells'. split; auto. destruct (nth_error types j) as [t|].
    - destruct (rmap_nth _ _ _ i _ C4 (nth_error_nth_some cells i CMissing ltac:(lia))) as (b & B1 & B2). simpl. rewrite B2. simpl.
      apply (nth_error_nth _ _ CMissing) in B1. rewrite B1. reflexivity.
    - rewrite C4. reflexivity. }
  destruct (match_total parse_float parse_int other types 0 (only_row i cols)) as (cs1 & M1).
  { unfold only_row. rewrite map_length. auto. }
  { intros j t d cells E1 E2. destruct (ROW1 j _ E2) as (c & _ & _ & _ & K & _). rewrite E1 in K. cbn [snd] in K. eauto. }
  rewrite M1. cbn [rbind]. eexists. split; [reflexivity|]. apply match_nth in M1 as (K1 & _ & M1). unfold only_row in K1. rewrite map_length in K1.
  assert (BOTH : forall j c1, nth_error cs1 j = Some c1 -> exists c, nth_error cs j = Some c /\ c_cname c1 = c_cname c /\ c_dtype c1 = c_dtype c /\ c_cells c1 = [nth i (c_cells c) CMissing] /\ length (c_cells c) = n).
  { intros j c1 E. assert (Hj : j < length (only_row i cols)) by (unfold only_row; rewrite map_length, <- K1; apply nth_error_Some; congruence). apply nth_error_Some in Hj.
    destruct (nth_error (only_row i cols) j) as [[d cells]|] eqn:EC; [|congruence]. destruct (M1 j d cells EC) as (c1' & A1 & A2 & A3 & A4). assert (c1' = c1) by congruence. subst c1'.
    destruct (ROW1 j _ EC) as (c & B1 & B2 & B3 & B4 & B5). cbn [fst snd] in *. exists c. split; auto. split; [rewrite A2, B3; reflexivity|]. split; [congruence|]. split; auto.
    destruct (nth_error types j); congruence. }
  split.
  { unfold rectangular. cbn [f_cols f_index]. apply Forall_forall. intros c Hc. apply In_nth_error in Hc as (j & E). destruct (BOTH j c E) as (c0 & _ & _ & _ & K & _). rewrite K. reflexivity. }
  split.
  { unfold header. cbn [f_cols]. apply header_ext; [lia|]. intros j c E. destruct (BOTH j c E) as (c' & E1 & E2 & E3 & _). eauto. }
  unfold rows. cbn [f_index length seq map]. f_equal. unfold row. cbn [f_cols].
  apply nth_error_ext. intros j. rewrite !nth_error_map. destruct (nth_error cs1 j) as [c1|] eqn:E.
  - destruct (BOTH j c1 E) as (c & -> & _ & _ & CC & LL). cbn [option_map]. rewrite CC. cbn [nth_error]. f_equal. symmetry. apply nth_error_nth_some. lia.
  - assert (nth_error cs j = None) as ->; auto. apply nth_error_None. apply nth_error_None in E. lia.
Qed.
End G.

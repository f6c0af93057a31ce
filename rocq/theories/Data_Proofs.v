(** Proofs for Data_Main. *)
From Verif Require Import Base Data_Model Data_Spec.
Require Import Ascii Qcanon Permutation.
Open Scope string_scope.
Open Scope list_scope.
Open Scope nat_scope.

(** * Selecting rows *)
Lemma nth_error_ext {A} : forall (l1 l2 : list A), (forall i, nth_error l1 i = nth_error l2 i) -> l1 = l2.
Proof.
  induction l1 as [|x l1 IH]; intros [|y l2] H; auto.
  - specialize (H 0). discriminate.
  - specialize (H 0). discriminate.
  - pose proof (H 0) as H0. simpl in H0. injection H0 as <-. f_equal. apply IH. intros i. apply (H (S i)).
Qed.
Lemma select_length {A B} : forall m (l : list A) (l' : list B), length l = length l' -> length (select m l) = length (select m l').
Proof. induction m as [|b m IH]; intros [|x l] [|y l'] H; simpl in *; try discriminate; auto. destruct b; simpl; auto. Qed.
Lemma select_map {A B} (g : A -> B) : forall m l, select m (map g l) = map g (select m l).
Proof. induction m as [|b m IH]; intros [|x l]; simpl; auto. destruct b; simpl; f_equal; auto. Qed.
Lemma select_nth {A} : forall m (l : list A) a i n, length l = n ->
  nth_error (select m l) i = match nth_error (select m (seq a n)) i with Some j => nth_error l (j - a) | None => None end.
Proof.
  induction m as [|b m IH]; intros [|x l] a i [|n] H; simpl in *; try discriminate; try (destruct i; reflexivity).
  injection H as H. assert (R : forall i0, match nth_error (select m (seq (S a) n)) i0 with Some j => nth_error l (j - S a) | None => None end
    = match nth_error (select m (seq (S a) n)) i0 with Some j => nth_error (x :: l) (j - a) | None => None end).
  { intros i0. destruct (nth_error (select m (seq (S a) n)) i0) as [j|] eqn:E; auto.
    assert (Hj : S a <= j). { apply nth_error_In in E. revert E. generalize (seq (S a) n) (fun j => proj1 (in_seq n (S a) j)). intros q Hq E.
      assert (In j q). { clear - E. revert q E. induction m as [|b m IH]; intros [|y q]; simpl; try tauto. destruct b; simpl; intros; intuition eauto. }
      apply Hq in H0. lia. }
    replace (j - a) with (S (j - S a)) by lia. reflexivity. }
  destruct b; simpl.
  - destruct i; simpl; [replace (a - a) with 0 by lia; reflexivity|]. rewrite (IH l (S a) i n H). apply R.
  - rewrite (IH l (S a) i n H). apply R.
Qed.
Lemma rows_select f m : rectangular f -> length m = length (f_index f) -> rows (select_rows m f) = select m (rows f).
Proof.
  intros R L. unfold rows, select_rows. cbn [f_index f_cols]. rewrite (select_map (row f)).
  apply nth_error_ext. intros i. rewrite !nth_error_map.
  set (n := length (f_index f)) in *. set (S0 := select m (seq 0 n)).
  assert (LS : length (select m (f_index f)) = length S0) by (unfold S0; apply select_length; rewrite seq_length; reflexivity).
  rewrite LS. destruct (nth_error S0 i) as [j|] eqn:E.
  - assert (Hi : i < length S0) by (apply nth_error_Some; congruence).
    assert (Es : nth_error (seq 0 (length S0)) i = Some i).
    { rewrite (nth_error_nth' _ 0) by (rewrite seq_length; auto). rewrite seq_nth by auto. reflexivity. }
    rewrite Es. simpl. f_equal. unfold row, select_rows. cbn [f_cols]. rewrite map_map. apply map_ext_in. intros c Hc. cbn [c_cells].
    unfold rectangular in R. rewrite Forall_forall in R. pose proof (select_nth m (c_cells c) 0 i n (R c Hc)) as K. rewrite K.
    fold S0. rewrite E. rewrite Nat.sub_0_r. reflexivity.
  - assert (Es : nth_error (seq 0 (length S0)) i = None).
    { apply nth_error_None in E. apply nth_error_None. rewrite seq_length. exact E. }
    rewrite Es. reflexivity.
Qed.
Lemma rows_length f : length (rows f) = length (f_index f).
Proof. unfold rows. rewrite map_length, seq_length. reflexivity. Qed.
Lemma select_filter {A} : forall (ls : list label) (rs : list A), length rs = length ls ->
  combine (select (map (fun l => negb (unlabelled l)) ls) rs) (select (map (fun l => negb (unlabelled l)) ls) ls) =
  filter (fun rl => match snd rl with LMissing => false | _ => true end) (combine rs ls).
Proof.
  induction ls as [|l ls IH]; intros [|r rs] H; simpl in *; try discriminate; auto. injection H as H. rewrite <- (IH rs H).
  destruct l; simpl; reflexivity.
Qed.
Lemma zlist_eqb_refl l : zlist_eqb l l = true.
Proof. induction l as [|x l IH]; simpl; auto. rewrite Z.eqb_refl. exact IH. Qed.
Lemma zlist_eqb_eq : forall a b, zlist_eqb a b = true -> a = b.
Proof. induction a as [|x a IH]; intros [|y b] H; simpl in H; try discriminate; auto. apply andb_true_iff in H as [E H]. apply Z.eqb_eq in E. f_equal; auto. Qed.
Lemma rect_select m f : rectangular f -> rectangular (select_rows m f).
Proof.
  unfold rectangular. rewrite !Forall_forall. intros R c Hc. unfold select_rows in *. cbn [f_cols f_index] in *.
  apply in_map_iff in Hc as (d & <- & Hd). cbn [c_cells]. apply select_length. auto.
Qed.
Lemma select_all {A} : forall (l : list A) m, length m = length l -> forallb (fun b => b) m = true -> select m l = l.
Proof. induction l as [|x l IH]; intros [|b m] L H; simpl in *; try discriminate; auto. apply andb_true_iff in H as [-> H]. f_equal. apply IH; auto. Qed.
Lemma filter_id {A} (p : A -> bool) l : (forall x, In x l -> p x = true) -> filter p l = l.
Proof. induction l as [|x l IH]; intros H; simpl; auto. rewrite (H x (or_introl eq_refl)). f_equal. apply IH. intros; apply H; right; auto. Qed.


Lemma existsb_map {A B} (f : A -> B) p l : existsb p (map f l) = existsb (fun x => p (f x)) l.
Proof. induction l; simpl; f_equal; auto. Qed.
Lemma align_same index mask : map fst mask = index -> align_mask index mask = Ok (map snd mask).
Proof. intros <-. unfold align_mask. rewrite zlist_eqb_refl. reflexivity. Qed.
Lemma no_missing {A} : forall (rs : list A) ls, existsb unlabelled ls = false ->
  filter (fun rl => match snd rl with LMissing => false | _ => true end) (combine rs ls) = combine rs ls.
Proof.
  intros rs ls H. apply filter_id. intros [r l] Hin. simpl. destruct l; auto. apply in_combine_r in Hin.
  assert (K : existsb unlabelled ls = true) by (apply existsb_exists; exists LMissing; auto). congruence.
Qed.
Lemma header_select m f : header (select_rows m f) = header f.
Proof. unfold header, select_rows. cbn [f_cols]. rewrite map_map. reflexivity. Qed.

Lemma remove_spec x y : rectangular x -> is_target y -> y_index y = f_index x ->
  exists x' y', remove_unlabeled_rows x y = Ok (x', y') /\ rectangular x' /\ is_target y' /\ header x' = header x /\ y_index y' = f_index x' /\
    length (labels y') = length (rows x') /\
    combine (rows x') (labels y') = filter labelled (combine (rows x) (labels y)).
Proof.
  intros R T I. assert (L : length (rows x) = length (labels y)).
  { rewrite rows_length, <- I. destruct y; simpl; rewrite ?map_length; auto. }
  destruct (existsb unlabelled (labels y)) eqn:Hex.
  2:{ exists x, y. split.
      { unfold remove_unlabeled_rows. destruct y as [s|w rs|l]; [|destruct w as [|w]; [simpl in T; lia|]|destruct T]; simpl in Hex |- *; rewrite existsb_map in Hex; rewrite existsb_map; simpl; rewrite Hex; reflexivity. }
      repeat (split; auto). unfold labelled. rewrite no_missing; auto. }
  set (m := map (fun l => negb (unlabelled l)) (labels y)).
  assert (Lm : length m = length (f_index x)) by (unfold m; rewrite map_length, <- L, rows_length; reflexivity).
  exists (select_rows m x).
  assert (Lsel : forall (ls : list label), length ls = length (f_index x) -> length (select m ls) = length (rows (select_rows m x))).
  { intros ls Hls. rewrite rows_select by auto. apply select_length. rewrite rows_length. auto. }
  destruct y as [s|w rs|l]; [| |destruct T].
  - exists (OSeries (select m s)). split.
    { unfold remove_unlabeled_rows. cbn [rbind]. rewrite existsb_map. simpl in Hex. rewrite existsb_map in Hex. simpl. rewrite Hex, map_map. cbn [fst snd].
      rewrite !align_same by (rewrite map_map; simpl in *; auto). cbn [rbind]. unfold m. simpl. rewrite !map_map. reflexivity. }
    split; [apply rect_select; auto|]. split; [exact Logic.I|]. split; [apply header_select|]. simpl. rewrite <- !select_map. simpl in I. rewrite I.
    split; [reflexivity|]. split; [apply Lsel; rewrite <- I, !map_length; reflexivity|]. rewrite rows_select by auto. apply select_filter. rewrite L. reflexivity.
  - simpl in T. destruct w as [|w]; [lia|]. exists (OFrame (S w) (select m rs)). split.
    { unfold remove_unlabeled_rows. cbn [rbind]. rewrite existsb_map. simpl in Hex. rewrite existsb_map in Hex. simpl. rewrite Hex, map_map. cbn [fst snd].
      rewrite !align_same by (rewrite map_map; simpl in *; auto). cbn [rbind]. unfold m. simpl. rewrite !map_map. reflexivity. }
    split; [apply rect_select; auto|]. split; [simpl; lia|]. split; [apply header_select|]. simpl. rewrite <- !select_map. simpl in I. rewrite I.
    split; [reflexivity|]. split; [apply Lsel; rewrite <- I, !map_length; reflexivity|]. rewrite rows_select by auto. apply select_filter. rewrite L. reflexivity.
Qed.

(** * Distinct values *)
Definition key (c : cell) : cell := match c with CBool b => CNum (bool_num b) | c => c end.
Lemma bool_num_inj a b : bool_num a = bool_num b -> a = b.
Proof. destruct a, b; auto; intros H; exfalso; apply (f_equal (fun q => Qnum (this q))) in H; discriminate. Qed.
Lemma cell_eqb_key a b : cell_eqb a b = true <-> key a = key b.
Proof.
  destruct a as [|p|p|p|p], b as [|q|q|q|q]; simpl; try (split; [discriminate|intros K; discriminate K]); try tauto;
    try (destruct (Qc_eq_dec _ _); split; intros K; try discriminate; congruence).
  - rewrite Bool.eqb_true_iff. split; congruence.
  - rewrite Bool.eqb_true_iff. split; [congruence|]. intros K. injection K as K. apply bool_num_inj. apply Qc_is_canon. rewrite K. reflexivity.
  - rewrite String.eqb_eq. split; congruence.
Qed.
Lemma same_key a b : same_value a b <-> key a = key b.
Proof.
  split.
  - intros [->|(q & A & B)]; [reflexivity|]. destruct a as [|p|p|[]|p], b as [|r|r|[]|r]; simpl in *; try discriminate; congruence.
  - destruct a as [|p|p|p|p], b as [|r|r|r|r]; simpl; intros H; try discriminate; try (left; congruence).
    + injection H as ->. right. exists (bool_num r). destruct r; auto.
    + injection H as <-. right. exists (bool_num p). destruct p; auto.
    + injection H as H. left. f_equal. apply bool_num_inj. apply Qc_is_canon. rewrite H. reflexivity.
Qed.
Lemma same_eqb a b : same_value a b <-> cell_eqb a b = true.
Proof. rewrite same_key, cell_eqb_key. tauto. Qed.
Lemma distinct_spec : forall l,
  (forall d, In d (distinct l) -> In d l /\ d <> CMissing) /\ NoDup (map key (distinct l)) /\
  (forall x, In x l -> x <> CMissing -> exists d, In d (distinct l) /\ key x = key d).
Proof.
  induction l as [|c l (I1 & I2 & I3)]; simpl; [split; [intros d []|split; [constructor|intros x []]]|].
  destruct (missing c) eqn:M; simpl.
  { destruct c; try discriminate. split; [intros d Hd; destruct (I1 d Hd); auto|]. split; auto. intros x [<-|Hx] Hm; [congruence|auto]. }
  destruct (existsb (cell_eqb c) (distinct l)) eqn:E; simpl.
  - split; [intros d Hd; destruct (I1 d Hd); auto|]. split; auto. intros x [<-|Hx] Hm; auto. apply existsb_exists in E as (d & Hd & Ed). apply cell_eqb_key in Ed. eauto.
  - split; [intros d [<-|Hd]; [split; auto; intros ->; discriminate|destruct (I1 d Hd); auto]|]. split.
    + constructor; auto. intros K. apply in_map_iff in K as (d & Ed & Hd). assert (X : existsb (cell_eqb c) (distinct l) = true) by (apply existsb_exists; exists d; split; auto; apply cell_eqb_key; auto). congruence.
    + intros x [<-|Hx] Hm; [exists c; auto|]. destruct (I3 x Hx Hm) as (d & Hd & Ed). eauto.
Qed.
Lemma ordpairs_nodup ds : ForallOrdPairs (fun a b => ~ same_value a b) ds <-> NoDup (map key ds).
Proof.
  split.
  - induction 1 as [|a l Ha _ IH]; simpl; constructor; auto. rewrite Forall_forall in Ha. intros K. apply in_map_iff in K as (d & Ed & Hd).
    apply (Ha d Hd). apply same_key. auto.
  - induction ds as [|a l IH]; intros H; constructor; inversion H; subst; auto. apply Forall_forall. intros d Hd K. apply same_key in K.
    apply H2. rewrite K. apply in_map. auto.
Qed.
Lemma factors_nunique c : factors c (nunique c).
Proof.
  destruct (distinct_spec (c_cells c)) as (I1 & I2 & I3). exists (distinct (c_cells c)). split; [reflexivity|]. split; [exact I1|].
  split; [apply ordpairs_nodup; auto|]. intros x Hx Hm. destruct (I3 x Hx Hm) as (d & Hd & Ed). exists d. split; auto. apply same_key; auto.
Qed.
Lemma factors_unique c n : factors c n -> n = nunique c.
Proof.
  intros (ds & <- & A1 & A2 & A3). destruct (distinct_spec (c_cells c)) as (I1 & I2 & I3). apply ordpairs_nodup in A2. unfold nunique.
  rewrite <- (map_length key ds), <- (map_length key (distinct _)). apply Nat.le_antisymm; apply NoDup_incl_length; auto; intros k Hk; apply in_map_iff in Hk as (d & <- & Hd).
  - destruct (A1 d Hd) as [Y Z]. destruct (I3 d Y Z) as (e & He & ->). apply in_map. auto.
  - destruct (I1 d Hd) as [Y Z]. destruct (A3 d Y Z) as (e & He & Ee). apply same_key in Ee. rewrite Ee. apply in_map; auto.
Qed.

(** * Inferring categorical columns *)
Lemma this_inject z : this (Q2Qc (inject_Z z)) = inject_Z z.
Proof. unfold Q2Qc. cbn [this]. apply Qred_identity. cbn [Qnum Qden inject_Z]. apply Z.gcd_1_r. Qed.
Lemma is_integer_whole c : is_integer c = true <-> whole c.
Proof.
  split.
  - destruct c as [|q|b|b|s]; unfold is_integer; try discriminate. intros H. apply Pos.eqb_eq in H. exists (Qnum (this q)). f_equal. apply Qc_is_canon.
    rewrite this_inject. unfold inject_Z, Qeq. simpl. rewrite H. reflexivity.
  - intros (z & ->). unfold is_integer. rewrite this_inject. reflexivity.
Qed.
Lemma values_in c x : In x (filter (fun x => negb (missing x)) (c_cells c)) <-> In x (c_cells c) /\ x <> CMissing.
Proof. rewrite filter_In. split; intros [A B]; split; auto; [intros ->; discriminate|destruct x; auto; congruence]. Qed.
Lemma all_integer_float c : c_dtype c = DFloat -> exists b, all_is_integer c = Ok b /\ (b = true <-> forall x, In x (c_cells c) -> x <> CMissing -> whole x).
Proof.
  intros D. unfold all_is_integer. rewrite D. destruct (filter _ (c_cells c)) as [|v vs] eqn:E.
  - exists true. split; auto. split; auto. intros _ x Hx Hm. assert (K : In x []) by (rewrite <- E; apply values_in; auto). destruct K.
  - exists (forallb is_integer (v :: vs)). split; auto. rewrite forallb_forall. rewrite <- E. split.
    + intros H x Hx Hm. apply is_integer_whole. apply H. apply values_in; auto.
    + intros H x Hx. apply is_integer_whole. apply values_in in Hx as [A B]. auto.
Qed.
Lemma few c : (exists n, factors c n /\ n <= 10) <-> (nunique c <=? 10) = true.
Proof.
  rewrite Nat.leb_le. split; [intros (n & F & H); apply factors_unique in F; lia|]. intros H. exists (nunique c). split; auto. apply factors_nunique.
Qed.
Lemma infer_ok c : ~ no_is_integer (c_dtype c) ->
  exists c', infer_column c = Ok c' /\ c_cname c' = c_cname c /\ c_cells c' = c_cells c /\ (c_dtype c' = DCategory <-> categorical_when c) /\ (c_dtype c' <> DCategory -> c' = c).
Proof.
  intros N. unfold infer_column, looks_categorical, categorical_when. unfold no_is_integer in N. 
  assert (G : forall b, (b = true <-> categorical_when c) \/ (c_dtype c = DCategory /\ b = false) -> exists c', Ok (if b then mkCol (c_cname c) DCategory (c_cells c) else c) = Ok c' /\ c_cname c' = c_cname c /\ c_cells c' = c_cells c /\ (c_dtype c' = DCategory <-> categorical_when c) /\ (c_dtype c' <> DCategory -> c' = c)).
  { intros b [Hb|[D ->]].
    - destruct b; eexists; (split; [reflexivity|]); cbn [c_cname c_cells c_dtype]; (split; [reflexivity|]); (split; [reflexivity|]); split.
      + split; auto. intros _. apply Hb. reflexivity.
      + intros K. congruence.
      + split; intros K; [left; exact K|]. apply Hb in K. discriminate.
      + reflexivity.
    - exists c. split; [reflexivity|]. split; [reflexivity|]. split; [reflexivity|]. split; [|reflexivity]. split; intros K; [left; exact K|exact D]. }
  fold (categorical_when c). destruct (c_dtype c) eqn:D; try tauto; cbn [is_numeric rbind].
  - apply (G true). left. split; auto. intros _. right. left. auto.
  - apply (G ((nunique c <=? 10) && true)). left. rewrite andb_true_r, <- few. unfold categorical_when. rewrite D. split; [auto|]. intros [K|[K|[_ K]]]; auto; discriminate.
  - destruct (all_integer_float c D) as (b & E & Hb). rewrite E. cbn [rbind]. apply G. left. rewrite andb_true_iff, <- few, Hb. unfold categorical_when. rewrite D.
    split; [intros [A B]; right; right; split; auto|]. intros [K|[K|[[K|[_ K]] F]]]; try discriminate; auto.
  - apply (G false). right. auto.
  - apply (G false). left. unfold categorical_when. rewrite D. split; [discriminate|]. intros [K|[K|[[K|[K _]] _]]]; discriminate.
Qed.
Lemma infer_attribute_error c : no_is_integer (c_dtype c) -> (exists x, In x (c_cells c) /\ x <> CMissing) -> infer_column c = Err AttributeError.
Proof.
  intros N (x & Hx). apply values_in in Hx. unfold infer_column, looks_categorical, all_is_integer.
  destruct N as [-> |[-> | ->]]; cbn [is_numeric rbind]; destruct (filter _ (c_cells c)); auto; destruct Hx.
Qed.

(** * Encoders *)
Lemma cname_eqb_eq a b : cname_eqb a b = true <-> a = b.
Proof. destruct a, b; simpl; try (split; [discriminate|intros K; discriminate K]); [rewrite String.eqb_eq|rewrite Nat.eqb_eq]; split; congruence. Qed.
Lemma cname_eqb_refl a : cname_eqb a a = true. Proof. apply cname_eqb_eq. reflexivity. Qed.
Definition picks (lo hi : option nat) (c : column) : bool := of_category c && opt_leb lo (nunique c) && leb_opt (nunique c) hi.
Lemma select_categorical_ok f lo hi l : select_categorical f lo hi = Ok l ->
  distinct_columns f /\ l = map c_cname (filter (picks lo hi) (f_cols f)).
Proof.
  unfold select_categorical. intros H. destruct (rmap _ (f_cols f)) as [pk|] eqn:E; [|discriminate]. injection H as <-.
  assert (G : forall cs pk, rmap (fun c => if length (filter (fun d => cname_eqb (c_cname d) (c_cname c)) (f_cols f)) =? 1
      then Ok (if is_category c && opt_leb lo (nunique c) && leb_opt (nunique c) hi then [c_cname c] else []) else Err AttributeError) cs = Ok pk ->
      (forall c, In c cs -> length (filter (fun d => cname_eqb (c_cname d) (c_cname c)) (f_cols f)) = 1) /\ concat pk = map c_cname (filter (picks lo hi) cs)).
  { induction cs as [|c cs IH]; intros p H; simpl in H; [injection H as <-; split; [intros c []|reflexivity]|].
    destruct (length (filter _ (f_cols f)) =? 1) eqn:L; [|discriminate]. cbn [rbind] in H. destruct (rmap _ cs) as [q|] eqn:R; [|discriminate]. injection H as <-.
    destruct (IH q eq_refl) as [A B]. split; [intros d [<-|Hd]; auto; apply Nat.eqb_eq; auto|]. simpl. rewrite B. unfold picks at 2. change is_category with of_category. destruct (of_category c && _ && _); reflexivity. }
  destruct (G _ _ E) as [A ->]. split; auto. clear - A. unfold distinct_columns. revert A. generalize (f_cols f). intros cs A.
  assert (B : forall cs', (forall c, In c cs' -> length (filter (fun d => cname_eqb (c_cname d) (c_cname c)) cs') <= 1) -> NoDup (map c_cname cs')).
  { induction cs' as [|c cs' IH]; intros H; simpl; constructor.
    - intros K. apply in_map_iff in K as (d & Ed & Hd). specialize (H c (or_introl eq_refl)). simpl in H. rewrite cname_eqb_refl in H. simpl in H.
      assert (F : In d (filter (fun d => cname_eqb (c_cname d) (c_cname c)) cs')) by (apply filter_In; split; auto; apply cname_eqb_eq; auto).
      destruct (filter _ cs'); [destruct F|simpl in H; lia].
    - apply IH. intros d Hd. specialize (H d (or_intror Hd)). simpl in H. destruct (cname_eqb (c_cname c) (c_cname d)); simpl in H; lia. }
  apply B. intros c Hc. rewrite A; auto.
Qed.
(** how often a name is listed *)
Definition occ (n : cname) (l : list cname) : nat := length (filter (cname_eqb n) l).
Lemma occ_app n a b : occ n (a ++ b) = occ n a + occ n b.
Proof. unfold occ. rewrite filter_app, app_length. reflexivity. Qed.
Lemma occ_picked cs p c : NoDup (map c_cname cs) -> In c cs -> occ (c_cname c) (map c_cname (filter p cs)) = if p c then 1 else 0.
Proof.
  unfold occ. induction cs as [|d cs IH]; intros N Hc; [destruct Hc|]. simpl in N. inversion N; subst. destruct Hc as [<-|Hc].
  - assert (Z : length (filter (cname_eqb (c_cname d)) (map c_cname (filter p cs))) = 0).
    { destruct (filter (cname_eqb (c_cname d)) (map c_cname (filter p cs))) as [|x l] eqn:E; auto. exfalso. assert (K : In x (x :: l)) by (simpl; auto). rewrite <- E in K.
      apply filter_In in K as [K1 K2]. apply cname_eqb_eq in K2. apply in_map_iff in K1 as (e & Ee & He). apply filter_In in He as [He _]. apply H1. apply in_map_iff. exists e. split; auto. congruence. }
    simpl. destruct (p d); simpl; [rewrite cname_eqb_refl; simpl; lia|exact Z].
  - simpl. destruct (p d); simpl; [|apply IH; auto]. destruct (cname_eqb (c_cname c) (c_cname d)) eqn:E; [|apply IH; auto].
    apply cname_eqb_eq in E. exfalso. apply H1. rewrite <- E. apply in_map. auto.
Qed.
Lemma occ_none cs p n : (forall c, In c cs -> c_cname c = n -> p c = false) -> occ n (map c_cname (filter p cs)) = 0.
Proof.
  intros H. unfold occ. destruct (filter (cname_eqb n) (map c_cname (filter p cs))) as [|x l] eqn:E; auto. exfalso. assert (K : In x (x :: l)) by (simpl; auto). rewrite <- E in K.
  apply filter_In in K as [K1 K2]. apply cname_eqb_eq in K2. apply in_map_iff in K1 as (e & Ee & He). apply filter_In in He as [He1 He2]. rewrite (H e He1) in He2; [discriminate|congruence].
Qed.
Lemma encoders_step n s steps : encoders_of n (s :: steps) = repeat (st_enc s) (occ n (st_columns s)) ++ encoders_of n steps.
Proof. unfold encoders_of, occ. simpl. f_equal. induction (filter _ (st_columns s)); simpl; f_equal; auto. Qed.
Lemma not_listed n l : existsb (cname_eqb n) l = true <-> occ n l <> 0.
Proof.
  unfold occ. split.
  - intros H K. apply existsb_exists in H as (x & Hx & Ex). assert (F : In x (filter (cname_eqb n) l)) by (apply filter_In; auto). destruct (filter _ l); [destruct F|discriminate].
  - intros H. destruct (filter (cname_eqb n) l) as [|x q] eqn:E; [simpl in H; lia|]. assert (K : In x (x :: q)) by (simpl; auto). rewrite <- E in K. apply filter_In in K. apply existsb_exists. eauto.
Qed.
Lemma filter_filter {A} (p q : A -> bool) l : filter p (filter q l) = filter (fun x => q x && p x) l.
Proof. induction l as [|x l IH]; simpl; auto. destruct (q x); simpl; [destruct (p x); rewrite IH; reflexivity|exact IH]. Qed.

Section Enc.
  Context (ft : enc_step -> frame -> res frame).
  Hypothesis Hft : forall s f f', ft s f = Ok f' -> encodes s f f'.
  Lemma preprocess_spec x clf x' s1 s2 : preprocess ft x clf = Ok (x', s1, s2) ->
    (forall c n, In c (f_cols x) -> factors c n -> encoders_of (c_cname c) (s1 ++ s2) = if of_category c then [encoder_for clf n] else []) /\
    (forall n, ~ In n (map c_cname (f_cols x)) -> encoders_of n (s1 ++ s2) = []).
  Proof.
    unfold preprocess, basic_encoding, basic_pipeline_extension. intros H.
    destruct (select_categorical x None (Some 2)) as [o1|] eqn:E1; [|discriminate]. cbn [rbind] in H.
    destruct (if clf then select_categorical x (Some 11) None else Ok []) as [o2|] eqn:E2; [|discriminate]. cbn [rbind] in H.
    destruct (select_categorical x (Some 3) (Some 10)) as [o3|] eqn:E3; [|discriminate]. cbn [rbind] in H.
    cbn [run_steps] in H. destruct (ft (mkStep "ord-enc" Ordinal (o1 ++ o2)) x) as [xa|] eqn:Ea; [|discriminate]. cbn [rbind] in H.
    destruct (ft (mkStep "oh-enc" OneHot o3) xa) as [xb|] eqn:Eb; [|discriminate]. cbn [rbind] in H.
    apply Hft in Ea, Eb. unfold encodes in Ea, Eb. cbn [st_columns] in Ea, Eb.
    apply select_categorical_ok in E1 as [D ->]. apply select_categorical_ok in E3 as [_ ->].
    assert (Cat : filter of_category (f_cols xb) = filter (fun c => of_category c && (negb (existsb (cname_eqb (c_cname c)) (map c_cname (filter (picks None (Some 2)) (f_cols x)) ++ o2)) && negb (existsb (cname_eqb (c_cname c)) (map c_cname (filter (picks (Some 3) (Some 10)) (f_cols x)))))) (f_cols x)).
    { rewrite Eb. transitivity (filter (fun c => negb (existsb (cname_eqb (c_cname c)) (map c_cname (filter (picks (Some 3) (Some 10)) (f_cols x))))) (filter of_category (f_cols xa))).
      - rewrite filter_filter. reflexivity.
      - rewrite Ea, filter_filter. apply filter_ext. intros c. rewrite andb_assoc. reflexivity. }
    assert (O2 : o2 = if clf then map c_cname (filter (picks (Some 11) None) (f_cols x)) else []).
    { destruct clf; [apply select_categorical_ok in E2 as [_ ->]; reflexivity|injection E2 as <-; reflexivity]. }
    clear E2 Ea Eb. 
    assert (S2 : exists tl, s2 = tl ++ [mkStep "imputation" Imputer []] /\ s1 = [mkStep "ord-enc" Ordinal (map c_cname (filter (picks None (Some 2)) (f_cols x)) ++ o2); mkStep "oh-enc" OneHot (map c_cname (filter (picks (Some 3) (Some 10)) (f_cols x)))] /\
      (forall n, encoders_of n tl = if clf then [] else repeat Target (occ n (map c_cname (filter (picks (Some 11) None) (f_cols xb)))))).
    { destruct clf; cbn [rbind] in H.
      - injection H as <- <- <-. exists []. auto.
      - destruct (select_categorical xb (Some 11) None) as [t|] eqn:Et; [|discriminate]. cbn [rbind] in H. injection H as <- <- <-.
        apply select_categorical_ok in Et as [_ ->]. exists [mkStep "target_enc" Target (map c_cname (filter (picks (Some 11) None) (f_cols xb)))]. split; [reflexivity|]. split; [reflexivity|]. intros n. rewrite encoders_step. cbn [st_enc st_columns]. apply app_nil_r. }
    clear H. destruct S2 as (tl & -> & -> & Htl).
    assert (EQ : forall n, encoders_of n ([mkStep "ord-enc" Ordinal (map c_cname (filter (picks None (Some 2)) (f_cols x)) ++ o2); mkStep "oh-enc" OneHot (map c_cname (filter (picks (Some 3) (Some 10)) (f_cols x)))] ++ tl ++ [mkStep "imputation" Imputer []])
       = repeat Ordinal (occ n (map c_cname (filter (picks None (Some 2)) (f_cols x))) + occ n o2) ++ repeat OneHot (occ n (map c_cname (filter (picks (Some 3) (Some 10)) (f_cols x)))) ++ encoders_of n tl).
    { intros n. rewrite <- !app_comm_cons, !encoders_step. cbn [st_enc st_columns app]. rewrite occ_app. do 2 f_equal. unfold encoders_of. rewrite flat_map_app. simpl. rewrite !app_nil_r. reflexivity. }
    set (q := fun c => of_category c && (negb (existsb (cname_eqb (c_cname c)) (map c_cname (filter (picks None (Some 2)) (f_cols x)) ++ o2)) && negb (existsb (cname_eqb (c_cname c)) (map c_cname (filter (picks (Some 3) (Some 10)) (f_cols x)))))) in *.
    assert (XB : filter (picks (Some 11) None) (f_cols xb) = filter (fun c => q c && (11 <=? nunique c)) (f_cols x)).
    { transitivity (filter (fun c => 11 <=? nunique c) (filter of_category (f_cols xb))).
      - rewrite filter_filter. apply filter_ext. intros c. unfold picks, opt_leb, leb_opt. rewrite andb_true_r. reflexivity.
      - rewrite Cat, filter_filter. reflexivity. }
    split.
    - intros c n Hc F. apply factors_unique in F. subst n. rewrite EQ, Htl, XB. rewrite !occ_picked by auto.
      assert (OC2 : occ (c_cname c) o2 = if clf then if picks (Some 11) None c then 1 else 0 else 0).
      { rewrite O2. destruct clf; [apply occ_picked; auto|reflexivity]. }
      assert (Q : q c = of_category c && (negb (picks None (Some 2) c) && negb (clf && picks (Some 11) None c) && negb (picks (Some 3) (Some 10) c))).
      { unfold q. f_equal. f_equal.
        - rewrite <- negb_orb. f_equal. apply eq_iff_eq_true. rewrite not_listed, occ_app, occ_picked, OC2 by auto. rewrite orb_true_iff, andb_true_iff.
          destruct (picks None (Some 2) c), clf, (picks (Some 11) None c); simpl; intuition (try discriminate; try lia).
        - f_equal. apply eq_iff_eq_true. rewrite not_listed, occ_picked by auto. destruct (picks (Some 3) (Some 10) c); simpl; intuition (try discriminate; try lia). }
      rewrite OC2, Q. unfold picks, opt_leb, leb_opt, encoder_for. destruct (of_category c); cbn [andb]; [|destruct clf; reflexivity].
      destruct (Nat.leb_spec (nunique c) 2), (Nat.leb_spec 3 (nunique c)), (Nat.leb_spec (nunique c) 10), (Nat.leb_spec 11 (nunique c)); try lia; destruct clf; reflexivity.
    - intros n Hn. rewrite EQ, Htl, XB. rewrite !occ_none; [|intros c Hc <-; exfalso; apply Hn; apply in_map; auto..].
      assert (OC2 : occ n o2 = 0).
      { rewrite O2. destruct clf; [|reflexivity]. apply occ_none. intros c Hc <-. exfalso; apply Hn; apply in_map; auto. }
      rewrite OC2. destruct clf; reflexivity.
  Qed.
End Enc.

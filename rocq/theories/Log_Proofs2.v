From Verif Require Import Base Str_Model Str_Spec Str_Proofs Misc_Model Log_Model Log_Spec Log_Proofs Data_Proofs2.
Require Import Ascii.
Open Scope string_scope.
Open Scope list_scope.
Open Scope nat_scope.

Lemma semi_nl : ascii_of_nat 59 <> ascii_of_nat 10.
Proof. discriminate. Qed.
Lemma length_append a b : String.length (a ++ b) = String.length a + String.length b.
Proof. induction a; simpl; auto. Qed.

(** what the report can read, in terms of its own functions *)
Section M.
Context {num ind : Type} (float_of : string -> res num) (parse : string -> res ind).
(** the metrics and the individual of a row *)
Definition row_metrics_m (m : nat) (names row : list string) (q : list num) : Prop :=
  length q = m /\ exists s, cell_of names row "score" = Ok s /\ tuple_to_metrics float_of s = Ok q.
Definition row_ind_m (names row : list string) (p : string * ind) : Prop :=
  cell_of names row "id" = Ok (fst p) /\ exists s, cell_of names row "pipeline" = Ok s /\ parse s = Ok (snd p).
(** a row the report can read *)
Definition readable_m (m : nat) (names row : list string) : Prop :=
  Forall (clean ";") row /\ length row = length names /\
  (exists q, row_metrics_m m names row q) /\ (exists p, row_ind_m names row p).
End M.

Section R.
Context {num ind : Type} (float_of : string -> res num) (parse : string -> res ind) (m : nat) (names : list string).
Hypothesis names_clean : Forall (clean ";") names.
Hypothesis names_two : 2 <= length names.
Notation good := (readable_m float_of parse m names).
Notation upd := (update float_of parse m true).

Lemma good_row r : good r -> r <> [] /\ Forall (clean ";") r /\ length r = length names.
Proof. intros (A & B & _). split; [|auto]. destruct r; [simpl in B; lia|discriminate]. Qed.
Lemma join_blank r : 2 <= length r -> String.eqb (join ";" r) "" = false.
Proof.
  destruct r as [|x [|y r]]; simpl length; intros L; try lia. rewrite join_cons by discriminate. destruct x; reflexivity.
Qed.
Lemma no_nl r : Forall (clean ";") r -> ~ contains nl (join ";" r).
Proof. intros F. apply join_not_contains; [apply nl_sep; exact semi_nl|]. eapply Forall_impl; [|exact F]. intros v (_ & H). exact H. Qed.
Lemma read_rows rows : rows <> [] -> Forall good rows -> read_csv (text ";" rows) = Ok rows.
Proof.
  intros N F. unfold read_csv. rewrite lines_text by (eapply Forall_impl; [|exact F]; intros r G; apply no_nl; apply (good_row r G)).
  assert (E : filter (fun l => negb (l =? "")%string) (map (join ";") rows) = map (join ";") rows).
  { clear N. induction F as [|r rows G F IH]; auto. cbn [map filter]. rewrite join_blank by (destruct (good_row r G) as (_ & _ & ->); exact names_two). simpl. f_equal. exact IH. }
  rewrite E. destruct rows as [|r rows]; [congruence|]. cbn [map].
  assert (S : forall r, good r -> split ";" (join ";" r) = r).
  { intros x G. destruct (good_row x G) as (A & B & _). apply split_join; auto. eapply Forall_impl; [|exact B]. intros v (H & _). exact H. }
  assert (L : length (split ";" (join ";" r)) = length names) by (inversion F; subst; rewrite S by auto; apply good_row; auto).
  rewrite L. change (join ";" r :: map (join ";") rows) with (map (join ";") (r :: rows)). clear L E N.
  induction F as [|x l G F IH]; [reflexivity|]. cbn [map rmap]. rewrite (S x G). destruct (good_row x G) as (_ & _ & Lx). rewrite Lx, Nat.leb_refl, Nat.sub_diag. cbn [repeat rbind]. rewrite IH, app_nil_r. reflexivity.
Qed.
Lemma read_none : read_csv "" = Err (OtherError 1).
Proof. reflexivity. Qed.

Definition file_of (rows : list (list string)) : string := (join ";" names ++ nl ++ text ";" rows)%string.
Lemma file_write rows r : log_line ";" r (file_of rows) = file_of (rows ++ [r]).
Proof. unfold log_line, file_of. rewrite text_app. cbn [text]. rewrite !append_assoc, append_nil_r. reflexivity. Qed.
Lemma first_line_of rows : first_line (file_of rows) = join ";" names.
Proof. unfold first_line, file_of. rewrite split_nl by (apply no_nl; exact names_clean). reflexivity. Qed.
Definition pos (rows : list (list string)) : nat := String.length (join ";" names) + 1 + String.length (text ";" rows).
Lemma drop_rest a b : drop (pos a) (file_of (a ++ b)) = text ";" b.
Proof.
  unfold file_of, pos. rewrite text_app.
  replace (join ";" names ++ nl ++ text ";" a ++ text ";" b)%string with ((join ";" names ++ nl ++ text ";" a) ++ text ";" b)%string by (rewrite !append_assoc; reflexivity).
  replace (String.length (join ";" names) + 1 + String.length (text ";" a)) with (String.length (join ";" names ++ nl ++ text ";" a)) by (rewrite !length_append; simpl; lia).
  apply drop_self.
Qed.
Lemma file_length rows : String.length (file_of rows) = pos rows.
Proof. unfold file_of, pos. rewrite !length_append. simpl. lia. Qed.
Lemma names_split : split ";" (join ";" names) = names.
Proof. apply split_join; [destruct names; [simpl in names_two; lia|discriminate]|]. eapply Forall_impl; [|exact names_clean]. intros v (H & _). exact H. Qed.

(** what the report holds of the rows it has seen *)
Definition holds (seen : list (list string)) (r : report num ind) : Prop :=
  Nat.max (r_tell r) (String.length (join ";" names) + 1) = pos seen /\
  map fst (r_evals r) = seq 0 (length seen) /\
  Forall2 (fun row e => fst (snd e) = row /\ row_metrics_m float_of m names row (snd (snd e))) seen (r_evals r) /\
  exists ps, Forall2 (row_ind_m parse names) seen ps /\ r_inds r = fold_left (fun d p => dict_set (fst p) (snd p) d) ps [].
Lemma rmap_metrics rows : Forall good rows -> exists qs,
  rmap (fun row => do s <- cell_of names row "score"; do q <- tuple_to_metrics float_of s; if length q =? m then Ok q else Err ValueError) rows = Ok qs /\
  Forall2 (row_metrics_m float_of m names) rows qs.
Proof.
  induction 1 as [|r rows (_ & _ & (q & L & s & A & B) & _) F (qs & E & F2)]; [exists []; auto|].
  exists (q :: qs). split; [|constructor; auto; split; eauto]. cbn [rmap]. rewrite A. cbn [rbind]. rewrite B. cbn [rbind]. rewrite L, Nat.eqb_refl. cbn [rbind]. rewrite E. reflexivity.
Qed.
Lemma rmap_inds rows : Forall good rows -> exists ps,
  rmap (fun row => do i <- cell_of names row "id"; do p <- cell_of names row "pipeline"; do x <- parse p; Ok (i, x)) rows = Ok ps /\
  Forall2 (row_ind_m parse names) rows ps.
Proof.
  induction 1 as [|r rows (_ & _ & _ & ((i & x) & A & s & B & C)) F (ps & E & F2)]; [exists []; auto|].
  exists ((i, x) :: ps). split; [|constructor; auto; split; eauto]. simpl in A, C. cbn [rmap]. rewrite A. cbn [rbind]. rewrite B. cbn [rbind]. rewrite C. cbn [rbind]. rewrite E. reflexivity.
Qed.
Lemma list_max_seq n a : list_max (seq a (S n)) = a + n.
Proof. revert a. induction n as [|n IH]; intros a; [simpl; lia|]. change (seq a (S (S n))) with (a :: seq (S a) (S n)). cbn [list_max fold_right]. unfold list_max in IH. rewrite IH. lia. Qed.
Lemma enum_combine (rows : list (list string)) (qs : list (list num)) k : Forall2 (row_metrics_m float_of m names) rows qs ->
  map fst (enum_from k (combine rows qs)) = seq k (length rows) /\
  Forall2 (fun row e => fst (snd e) = row /\ row_metrics_m float_of m names row (snd (snd e))) rows (enum_from k (combine rows qs)).
Proof.
  intros F. revert k. induction F as [|r q rows qs H F IH]; intros k; simpl; [auto|]. destruct (IH (S k)) as (A & B). split; [f_equal; exact A|]. constructor; auto.
Qed.
Lemma holds_update seen rest r force : Forall good (seen ++ rest) -> holds seen r ->
  exists b r', upd force (file_of (seen ++ rest)) r = (Ok b, r') /\ holds (seen ++ rest) r' /\ (b = true <-> rest <> []).
Proof.
  intros G (T & N & F & ps & P & D). unfold update. rewrite andb_false_r. cbn [negb]. rewrite first_line_of, T, drop_rest, names_split.
  apply Forall_app in G. destruct G as (Gs & Gr). destruct rest as [|x rest].
  - cbn [text]. rewrite read_none. eexists _, _. split; [reflexivity|]. rewrite app_nil_r. split; [|split; [discriminate|congruence]].
    split; [cbn [r_tell]; unfold pos; lia|]. split; [exact N|]. split; [exact F|]. exists ps. auto.
  - rewrite read_rows by (auto; discriminate).
    assert (W : forallb (fun row => length row =? length names) (x :: rest) = true).
    { apply forallb_forall. intros y I. rewrite Forall_forall in Gr. apply Nat.eqb_eq. apply (good_row y (Gr y I)). }
    rewrite W. cbn [negb]. destruct (rmap_metrics _ Gr) as (qs & Eq & Fq). rewrite Eq. destruct (rmap_inds _ Gr) as (ps' & Ep & Fp). rewrite Ep.
    eexists _, _. split; [reflexivity|]. split; [|split; [discriminate|reflexivity]].
    assert (K : match r_evals r with [] => 0 | e => list_max (map fst e) + 1 end = length seen).
    { destruct (r_evals r) as [|e es] eqn:Ee; [inversion F; reflexivity|]. rewrite N. destruct seen as [|y seen]; [inversion F|]. simpl length. rewrite list_max_seq. lia. }
    assert (K' : match r_evals r with [] => 0 | (_ :: _) as e => list_max (map fst e) + 1 end = length seen) by exact K.
    unfold holds. cbn [r_tell r_evals r_inds]. rewrite K'. destruct (enum_combine _ _ (length seen) Fq) as (A & B).
    split; [rewrite file_length; unfold pos; lia|]. split; [rewrite map_app, N, A, app_length, seq_app; reflexivity|].
    split; [apply Forall2_app; auto|]. exists (ps ++ ps'). split; [apply Forall2_app; auto|]. rewrite fold_left_app, D. reflexivity.
Qed.
Lemma holds0 : holds [] report0.
Proof. split; [unfold pos; simpl; lia|]. split; [reflexivity|]. split; [constructor|]. exists []. auto. Qed.
Lemma run_inv : forall ops seen rest r, Forall good (seen ++ rest ++ writes ops) -> holds seen r ->
  exists seen' rest' r', fold_left (op_step float_of parse m) ops (file_of (seen ++ rest), r) = (file_of (seen' ++ rest'), r') /\
    seen' ++ rest' = seen ++ rest ++ writes ops /\ holds seen' r' /\
    (forall ops' f, ops = ops' ++ [OUpdate f] -> rest' = []).
Proof.
  induction ops as [|o ops IH]; intros seen rest r G H; cbn [fold_left].
  - exists seen, rest, r. simpl. rewrite app_nil_r. split; [reflexivity|]. split; [reflexivity|]. split; auto. intros [|] f E; discriminate.
  - destruct o as [row|force]; cbn [op_step fst snd].
    + rewrite file_write, <- app_assoc. destruct (IH seen (rest ++ [row]) r) as (s' & t' & r' & A & B & C & D); auto.
      { cbn [writes] in G. rewrite <- app_assoc. exact G. }
      exists s', t', r'. split; [exact A|]. split; [cbn [writes]; rewrite B, <- app_assoc; reflexivity|]. split; auto.
      intros [|o ops'] f E; [discriminate|]. injection E as _ E. eapply D; eauto.
    + assert (G1 : Forall good (seen ++ rest)) by (rewrite app_assoc in G; apply Forall_app in G; tauto).
      destruct (holds_update seen rest r force G1 H) as (b & r1 & E & H1 & _). rewrite E. cbn [snd].
      destruct (IH (seen ++ rest) [] r1) as (s' & t' & r' & A & B & C & D); auto.
      { cbn [writes] in G. simpl. rewrite <- app_assoc. exact G. }
      rewrite app_nil_r in A. exists s', t', r'. split; [exact A|]. split; [cbn [writes]; rewrite B, <- app_assoc; reflexivity|]. split; auto.
      intros [|o ops'] f Eo; [|injection Eo as _ Eo; eapply D; eauto]. injection Eo as _ ->. cbn [fold_left writes] in *. rewrite app_nil_r in B. simpl in B.
      rewrite ?app_nil_r in B. injection A as A1 A2. subst r'. destruct H1 as (_ & N1 & _), C as (_ & N2 & _). rewrite N1 in N2. apply (f_equal (@length nat)) in N2. rewrite !seq_length in N2.
      apply (f_equal (@length (list string))) in B. rewrite app_length in B. destruct t'; [reflexivity|]. simpl in B. lia.
Qed.
Lemma run_report ops f : Forall good (writes ops) ->
  exists r, run_ops float_of parse m names (ops ++ [OUpdate f]) = (file_of (writes ops), r) /\ holds (writes ops) r.
Proof.
  intros G. assert (W : writes (ops ++ [OUpdate f]) = writes ops). { clear. induction ops as [|[r|b] ops IH]; simpl; auto. f_equal. exact IH. }
  destruct (run_inv (ops ++ [OUpdate f]) [] [] report0) as (s & t & r & A & B & C & D); [rewrite W; exact G|exact holds0|].
  rewrite (D ops f eq_refl) in *. simpl in B. rewrite app_nil_r, W in B. subst s. rewrite !app_nil_r in A. exists r. split; [unfold run_ops; exact A|exact C].
Qed.
End R.
Definition lookup {ind} (d : list (string * ind)) (k : string) : option ind := option_map snd (find (fun p => String.eqb k (fst p)) d).
Lemma lookup_set {ind} (d : list (string * ind)) k v k' : lookup (dict_set k v d) k' = if String.eqb k' k then Some v else lookup d k'.
Proof.
  unfold lookup. induction d as [|[a b] d IH]; simpl; [destruct (String.eqb k' k); reflexivity|]. destruct (String.eqb_spec k a) as [->|N]; simpl.
  - destruct (String.eqb k' a); reflexivity.
  - destruct (String.eqb_spec k' a) as [->|]; [destruct (String.eqb_spec a k); [congruence|reflexivity]|]. exact IH.
Qed.
Lemma lookup_fold {ind} : forall (ps d : list (string * ind)) k,
  lookup (fold_left (fun d p => dict_set (fst p) (snd p) d) ps d) k = fold_left (fun acc p => if String.eqb k (fst p) then Some (snd p) else acc) ps (lookup d k).
Proof. induction ps as [|p ps IH]; intros d k; simpl; auto. rewrite IH, lookup_set. reflexivity. Qed.

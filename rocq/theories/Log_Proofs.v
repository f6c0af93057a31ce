From Verif Require Import Base Str_Model Str_Spec Str_Proofs Misc_Model Log_Model Log_Spec Data_Proofs2.
Require Import Ascii.
Open Scope string_scope.
Open Scope list_scope.
Open Scope nat_scope.

Lemma contains_app_l p a b : contains p a -> contains p (a ++ b).
Proof. intros (x & y & ->). exists x, (y ++ b)%string. rewrite !append_assoc. reflexivity. Qed.
Lemma contains_app_r p a b : contains p b -> contains p (a ++ b).
Proof. intros (x & y & ->). exists (a ++ x)%string, y. rewrite !append_assoc. reflexivity. Qed.
Lemma not_contains_nil c : ~ contains (String c "") "".
Proof. intros (a & b & E). destruct a; discriminate. Qed.
Lemma contains_char c d : contains (String c "") (String d "") -> c = d.
Proof. intros (a & b & E). destruct a as [|x a]; [injection E; congruence|]. destruct a; discriminate. Qed.
Lemma append_nil_r s : (s ++ "")%string = s.
Proof. induction s; simpl; congruence. Qed.

(** joining and splitting at one character *)
Lemma join_cons sep x r : r <> [] -> join sep (x :: r) = (x ++ sep ++ join sep r)%string.
Proof. destruct r; [congruence|reflexivity]. Qed.
Lemma split_join c row : row <> [] -> Forall (fun v => ~ contains (String c "") v) row -> split (String c "") (join (String c "") row) = row.
Proof.
  induction row as [|x row IH]; intros N F; [congruence|]. inversion F as [|? ? H F']; subst. destruct row as [|y row].
  - simpl. apply split_none. exact H.
  - rewrite join_cons by discriminate. change (String c "" ++ join (String c "") (y :: row))%string with (String c (join (String c "") (y :: row))).
    rewrite split_char by exact H. f_equal. apply IH; [discriminate|exact F'].
Qed.
Lemma join_not_contains c sep row : ~ contains (String c "") sep -> Forall (fun v => ~ contains (String c "") v) row -> ~ contains (String c "") (join sep row).
Proof.
  intros S. induction row as [|x row IH]; intros F; [apply not_contains_nil|]. inversion F as [|? ? H F']; subst. destruct row as [|y row]; [exact H|].
  rewrite join_cons by discriminate. intros C. apply contains_app_char in C. destruct C as [C|C]; [tauto|]. apply contains_app_char in C. destruct C as [C|C]; [tauto|]. exact (IH F' C).
Qed.
Fixpoint text (sep : string) (rows : list (list string)) : string :=
  match rows with [] => "" | r :: rows' => (join sep r ++ nl ++ text sep rows')%string end.
Lemma text_app sep a b : text sep (a ++ b) = (text sep a ++ text sep b)%string.
Proof. induction a as [|r a IH]; simpl; auto. rewrite IH, !append_assoc. reflexivity. Qed.
Lemma logged_from sep : forall rows f, fold_left (fun f row => log_line sep row f) rows f = (f ++ text sep rows)%string.
Proof.
  induction rows as [|r rows IH]; intros f; simpl; [rewrite append_nil_r; reflexivity|]. rewrite IH. unfold log_line. rewrite !append_assoc. reflexivity.
Qed.
Lemma logged_text sep rows : logged sep rows = text sep rows.
Proof. unfold logged. rewrite logged_from. reflexivity. Qed.
Lemma split_nl x r : ~ contains nl x -> split nl (x ++ nl ++ r) = x :: split nl r.
Proof. intros H. exact (split_char (ascii_of_nat 10) x r H). Qed.
Lemma lines_text sep rows : Forall (fun r => ~ contains nl (join sep r)) rows -> lines (text sep rows) = map (join sep) rows.
Proof.
  intros F. assert (E : split nl (text sep rows) = map (join sep) rows ++ [""]).
  { induction F as [|r rows H F IH]; [reflexivity|]. cbn [text map]. rewrite split_nl by exact H. rewrite IH. reflexivity. }
  unfold lines. rewrite E, last_last, removelast_last. reflexivity.
Qed.
Lemma nl_sep c : c <> ascii_of_nat 10 -> ~ contains nl (String c "").
Proof. intros H C. apply contains_char in C. congruence. Qed.
Lemma rows_read c rows : c <> ascii_of_nat 10 -> Forall (fun r => r <> [] /\ Forall (clean (String c "")) r) rows -> map (split (String c "")) (lines (text (String c "") rows)) = rows.
Proof.
  intros C F. rewrite lines_text.
  - rewrite map_map. rewrite <- (map_id rows) at 2. apply map_ext_in. intros r I. rewrite Forall_forall in F. destruct (F r I) as (N & G). apply split_join; auto.
    eapply Forall_impl; [|exact G]. intros v (H & _). exact H.
  - eapply Forall_impl; [|exact F]. intros r (N & G). apply join_not_contains; [apply nl_sep; exact C|]. eapply Forall_impl; [|exact G]. intros v (_ & H). exact H.
Qed.
(** pieces *)
Lemma split_piece_char c : forall s x, In x (split (String c "") s) -> ~ contains (String c "") x.
Proof.
  unfold split. induction s as [|d s IH]; intros x I; cbn [split_go] in I; [destruct I as [<- | []]; apply not_contains_nil|].
  destruct (String.prefix (String c "") (String d s)) eqn:P.
  - destruct I as [<- | I]; [apply not_contains_nil|]. apply IH. simpl in I. exact I.
  - destruct (split_go (String c "") 0 s) as [|h t] eqn:E; [destruct I|]. destruct I as [<- | I]; [|apply IH; right; exact I].
    intros (a & b & E2). destruct a as [|a0 a].
    + simpl in E2. injection E2 as -> _. simpl in P. destruct (ascii_dec c c); [destruct s; discriminate|congruence].
    + simpl in E2. injection E2 as _ E2. apply (IH h); [left; reflexivity|]. exists a, b. exact E2.
Qed.
Lemma split_piece_in c : forall s x, In x (split (String c "") s) -> contains x s.
Proof.
  intros s x I. assert (exists l, l = split (String c "") s) as (l & E) by eauto. rewrite <- E in I.
  assert (J : s = join (String c "") l).
  { subst l. clear I. unfold split. induction s as [|d s IH]; [reflexivity|]. cbn [split_go]. destruct (String.prefix (String c "") (String d s)) eqn:P.
    - apply prefix_cons in P. destruct P as (<- & _). simpl String.length. cbn [Nat.sub]. 
      rewrite join_cons by apply split_nonempty. simpl. f_equal. exact IH.
    - destruct (split_go (String c "") 0 s) as [|h t] eqn:E; [exfalso; exact (split_nonempty _ _ _ E)|].
      rewrite IH. destruct t; [reflexivity|]. rewrite !join_cons by discriminate. reflexivity. }
  rewrite J. clear J E s. induction l as [|y l IH]; [destruct I|]. destruct l as [|z l].
  - destruct I as [-> | []]. exists "", "". rewrite append_nil_r. reflexivity.
  - rewrite join_cons by discriminate. destruct I as [-> | I].
    + exists "". eexists. reflexivity.
    + apply contains_app_r, contains_app_r, IH. exact I.
Qed.

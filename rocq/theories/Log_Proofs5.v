(** Files a report refuses. *)
From Verif Require Import Base Str_Model Str_Spec Misc_Model Log_Model Log_Spec Str_Proofs Log_Proofs Log_Proofs2 Log_Proofs3 Log_Proofs4.
Require Import Ascii.
Open Scope string_scope.
Open Scope list_scope.
Open Scope nat_scope.

Lemma blank2 r : 2 <= length r -> String.eqb (join ";" r) "" = false.
Proof. intros H. apply (join_blank ["a"; "b"]); simpl; auto. Qed.
Lemma read_any row rows : Forall (fun r => Forall (clean ";") r /\ 2 <= length r) (row :: rows) ->
  read_csv (text ";" (row :: rows)) =
  rmap (fun f => if length f <=? length row then Ok (f ++ repeat "" (length row - length f)) else Err (OtherError 2)) (row :: rows).
Proof.
  intros F. unfold read_csv. rewrite lines_text by (eapply Forall_impl; [|exact F]; intros r (G & _); apply no_nl; exact G).
  assert (E : forall l, Forall (fun r => Forall (clean ";") r /\ 2 <= length r) l -> filter (fun l => negb (l =? "")%string) (map (join ";") l) = map (join ";") l).
  { intros l H. induction H as [|r l (G & Lr) H IH]; auto. cbn [map filter]. rewrite blank2 by exact Lr. simpl. f_equal. exact IH. }
  rewrite E by exact F. cbn [map].
  assert (S : forall r, Forall (clean ";") r -> 2 <= length r -> split ";" (join ";" r) = r).
  { intros x B Lx. apply split_join; [destruct x; [simpl in Lx; lia|discriminate]|]. eapply Forall_impl; [|exact B]. intros v (H & _). exact H. }
  assert (L : split ";" (join ";" row) = row) by (inversion F as [|? ? [A B] ?]; subst; apply S; auto). rewrite L.
  change (join ";" row :: map (join ";") rows) with (map (join ";") (row :: rows)). clear L E. generalize (length row). intros n.
  induction F as [|x l [Gx Lx] F IH]; [reflexivity|]. cbn [map rmap]. rewrite (S x Gx Lx). destruct (length x <=? n); cbn [rbind]; [rewrite IH|]; reflexivity.
Qed.
Section U.
Context {num ind : Type} (float_of : string -> res num) (parse : string -> res ind) (m : nat) (names : list string).
Hypothesis names_clean : Forall (clean ";") names.
Hypothesis names_two : 2 <= length names.
Lemma update_new force rows : update float_of parse m true force (file_of names rows) report0 =
  match read_csv (text ";" rows) with
    | Err (OtherError 1) => (Ok false, mkRep (pos names []) [] [])
    | Err e => (Err e, mkRep (pos names []) [] [])
    | Ok rs => if negb (forallb (fun row => length row =? length names) rs) then (Err ValueError, mkRep (pos names rows) [] []) else update float_of parse m true force (file_of names rows) report0
  end.
Proof.
  unfold update. rewrite andb_false_r. cbn [negb].
  assert (T : Nat.max (r_tell (@report0 num ind)) (String.length (join ";" names) + 1) = pos names []) by (unfold pos; simpl; lia).
  rewrite (first_line_of names names_clean), T. rewrite (drop_rest names names_two [] rows : drop (pos names []) (file_of names rows) = text ";" rows). rewrite (names_split names names_clean names_two), (file_length names names_two).
  destruct (read_csv (text ";" rows)) as [rs|e]; [|reflexivity]. destruct (negb _); reflexivity.
Qed.
Lemma update_longer row rows r force : Forall (fun r => Forall (clean ";") r /\ 2 <= length r) (row :: rows) -> In r rows -> length row < length r ->
  update float_of parse m true force (file_of names (row :: rows)) report0 = (Err (OtherError 2), mkRep (pos names []) [] []).
Proof.
  intros F I L. rewrite update_new, read_any by exact F.
  assert (E : rmap (fun f => if length f <=? length row then Ok (f ++ repeat "" (length row - length f)) else Err (OtherError 2)) (row :: rows) = Err (OtherError 2)).
  { assert (G : forall l, In r l -> rmap (fun f => if length f <=? length row then Ok (f ++ repeat "" (length row - length f)) else Err (OtherError 2)) l = Err (OtherError 2)).
    { induction l as [|x l IH]; intros H; [destruct H|]. cbn [rmap]. destruct (Nat.leb_spec (length x) (length row)); [|reflexivity]. cbn [rbind].
      destruct H as [->|H]; [lia|]. rewrite (IH H). reflexivity. }
    apply G. right. exact I. }
  rewrite E. reflexivity.
Qed.
Lemma update_width row rows force : Forall (fun r => Forall (clean ";") r /\ 2 <= length r /\ length r <= length row) (row :: rows) -> length row <> length names ->
  update float_of parse m true force (file_of names (row :: rows)) report0 = (Err ValueError, mkRep (pos names (row :: rows)) [] []).
Proof.
  intros F N. rewrite update_new, read_any by (eapply Forall_impl; [|exact F]; intros x (A & B & _); auto).
  assert (E : rmap (fun f => if length f <=? length row then Ok (f ++ repeat "" (length row - length f)) else Err (OtherError 2)) (row :: rows) =
              Ok (map (fun f => f ++ repeat "" (length row - length f)) (row :: rows))).
  { clear N. revert F. generalize (length row) as n, (row :: rows) as l. intros n l F. induction F as [|x l (_ & _ & L) F IH]; [reflexivity|]. cbn [rmap map]. rewrite (proj2 (Nat.leb_le _ _) L). cbn [rbind]. rewrite IH. reflexivity. }
  rewrite E. cbn [map forallb]. rewrite Nat.sub_diag, app_nil_r, (proj2 (Nat.eqb_neq _ _) N). reflexivity.
Qed.
End U.
Lemma find_none_fst (h : list (string * string)) k : ~ In k (map fst h) -> hp_get h k = None.
Proof.
  intros N. unfold hp_get. destruct (find (fun p => String.eqb k (fst p)) (rev h)) as [[a b]|] eqn:E; [|reflexivity]. apply find_some in E as [I E].
  apply String.eqb_eq in E. subst. exfalso. apply N. apply in_rev in I. apply (in_map fst) in I. exact I.
Qed.
Lemma split_absent sub : sub <> "" -> forall s, ~ contains sub s -> split sub s = [s].
Proof. intros. apply split_none; auto. Qed.

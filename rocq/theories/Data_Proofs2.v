(** Proofs for Data_Main: class labels, file headers. *)
From Verif Require Import Base Data_Model Data_Spec Data_Proofs.
Require Import Ascii Qcanon Permutation Sorted.
Open Scope string_scope.
Open Scope list_scope.
Open Scope nat_scope.

(** * Labels *)
Lemma label_eqb_eq a b : label_eqb a b = true <-> a = b.
Proof.
  destruct a as [|p|s], b as [|q|t]; simpl; try (split; [discriminate|intros K; discriminate K]); try tauto.
  - destruct (Qc_eq_dec p q); split; intros K; try discriminate; congruence.
  - rewrite String.eqb_eq. split; congruence.
Qed.
Lemma label_eqb_refl a : label_eqb a a = true. Proof. apply label_eqb_eq. reflexivity. Qed.
Lemma num_of_nat_inj i j : num_of_nat i = num_of_nat j -> i = j.
Proof.
  intros H. apply (f_equal (fun l => match l with LNum q => this q | _ => 0%Q end)) in H. unfold num_of_nat in H. rewrite !this_inject in H. injection H as H. lia.
Qed.
Lemma insert_perm {A} (leb : A -> A -> bool) x l : Permutation (insert_sorted leb x l) (x :: l).
Proof. induction l as [|y l IH]; simpl; auto. destruct (leb x y); auto. rewrite IH. apply perm_swap. Qed.
Lemma sorted_perm' {A} (leb : A -> A -> bool) l : Permutation (py_sorted leb l) l.
Proof. induction l as [|x l IH]; simpl; auto. rewrite insert_perm. auto. Qed.
Lemma nodup_in l x : In x (nodup_label l) <-> In x l.
Proof.
  induction l as [|y l IH]; simpl; [tauto|]. destruct (existsb (label_eqb y) l) eqn:E.
  - rewrite IH. split; auto. intros [<-|H]; auto. apply existsb_exists in E as (z & Hz & Ez). apply label_eqb_eq in Ez. subst. auto.
  - simpl. rewrite IH. tauto.
Qed.
Lemma classes_in y classes x : label_classes y = Ok classes -> In x classes <-> In x y.
Proof.
  unfold label_classes. destruct (existsb is_str y && existsb is_num y); [discriminate|]. intros H. injection H as <-.
  rewrite in_app_iff. split.
  - intros [H|H].
    + apply (Permutation_in _ (sorted_perm' _ _)) in H. apply filter_In in H as [H _]. exact (proj1 (nodup_in _ _) H).
    + destruct (existsb unlabelled y) eqn:E; [|destruct H]. destruct H as [<-|[]]. apply existsb_exists in E as (z & Hz & Ez). destruct z; try discriminate. auto.
  - intros H. destruct (unlabelled x) eqn:U.
    + right. assert (E : existsb unlabelled y = true) by (apply existsb_exists; eauto). rewrite E. destruct x; try discriminate. simpl; auto.
    + left. apply (Permutation_in _ (Permutation_sym (sorted_perm' _ _))). apply filter_In. split; [apply nodup_in; auto|rewrite U; reflexivity].
Qed.
Lemma position_nth l cs i : position l cs = Some i -> nth_error cs i = Some l.
Proof.
  revert i. induction cs as [|c cs IH]; intros i H; simpl in H; [discriminate|]. destruct (label_eqb l c) eqn:E.
  - injection H as <-. apply label_eqb_eq in E. subst. reflexivity.
  - destruct (position l cs) as [j|]; [|discriminate]. injection H as <-. simpl. auto.
Qed.
Lemma position_in l cs : In l cs -> exists i, position l cs = Some i.
Proof.
  induction cs as [|c cs IH]; intros H; [destruct H|]. simpl. destruct (label_eqb l c) eqn:E; [eauto|]. destruct H as [->|H]; [rewrite label_eqb_refl in E; discriminate|].
  destruct (IH H) as (i & ->). eauto.
Qed.
Lemma decode_nth cs : forall i k l, nth_error cs k = Some l -> decode_from i cs (num_of_nat (i + k)) = Ok l.
Proof.
  induction cs as [|c cs IH]; intros i [|k] l H; cbn [nth_error decode_from] in *; try discriminate.
  - injection H as <-. rewrite Nat.add_0_r, label_eqb_refl. reflexivity.
  - destruct (label_eqb (num_of_nat (i + S k)) (num_of_nat i)) eqn:E.
    + apply label_eqb_eq, num_of_nat_inj in E. lia.
    + replace (i + S k) with (S i + k) by lia. apply IH. auto.
Qed.
Lemma rmap_forall2 {A B} (f : A -> res B) l l' : rmap f l = Ok l' -> Forall2 (fun a b => f a = Ok b) l l'.
Proof.
  revert l'. induction l as [|a l IH]; intros l' H; simpl in H; [injection H as <-; constructor|].
  destruct (f a) eqn:E; [|discriminate]. cbn [rbind] in H. destruct (rmap f l); [|discriminate]. injection H as <-. constructor; auto.
Qed.
Lemma rmap_ok {A B} (f : A -> res B) l : (forall a, In a l -> exists b, f a = Ok b) -> exists l', rmap f l = Ok l'.
Proof.
  induction l as [|a l IH]; intros H; simpl; [eauto|]. destruct (H a (or_introl eq_refl)) as (b & ->). destruct IH as (l' & ->); [intros; apply H; right; auto|]. simpl. eauto.
Qed.
Lemma Forall2_nth {A B} (R : A -> B -> Prop) l l' i a : Forall2 R l l' -> nth_error l i = Some a -> exists b, nth_error l' i = Some b /\ R a b.
Proof. intros H. revert i. induction H; intros [|i] E; simpl in *; try discriminate; eauto. injection E as <-. eauto. Qed.
Lemma Forall2_nth_r {A B} (R : A -> B -> Prop) l l' i b : Forall2 R l l' -> nth_error l' i = Some b -> exists a, nth_error l i = Some a /\ R a b.
Proof. intros H. revert i. induction H; intros [|i] E; simpl in *; try discriminate; eauto. injection E as <-. eauto. Qed.

Lemma predict_decodes y classes y' raw :
  classifier_labels y = Ok (classes, y') -> raw <> [] -> (forall r, In r raw -> In r y' /\ r <> LMissing) ->
  exists out, classifier_predict classes raw = Ok out /\
    Forall2 (fun r d => In d y /\ forall i, nth_error y' i = Some r -> nth_error y i = Some d) raw out.
Proof.
  intros H Hr HR. unfold classifier_labels in H. destruct (label_classes y) as [cs|] eqn:C; [|discriminate]. cbn [rbind] in H.
  pose proof (classes_in y cs) as CI.
  destruct (existsb is_str y) eqn:S.
  - destruct (rmap (encode_label cs) y) as [ys|] eqn:R; [|discriminate]. injection H as -> <-. apply rmap_forall2 in R.
    assert (NN : existsb is_num y = false).
    { unfold label_classes in C. rewrite S in C. destruct (existsb is_num y); [discriminate|reflexivity]. }
    assert (Enc : forall r, In r ys -> exists k d, r = num_of_nat k /\ nth_error classes k = Some d /\ In d y /\ (forall i, nth_error ys i = Some r -> nth_error y i = Some d)).
    { intros r Hin. apply In_nth_error in Hin as (i & Hi). destruct (Forall2_nth_r _ _ _ _ _ R Hi) as (d & Hd & E).
      unfold encode_label in E. destruct (position d classes) as [k|] eqn:P; [|discriminate]. injection E as <-. exists k, d. split; [reflexivity|]. split; [apply position_nth; auto|].
      split; [eapply nth_error_In; eauto|]. intros j Hj. destruct (Forall2_nth_r _ _ _ _ _ R Hj) as (e & He & E). unfold encode_label in E.
      destruct (position e classes) as [k'|] eqn:P'; [|discriminate]. assert (k' = k) by (apply num_of_nat_inj; congruence). subst k'.
      rewrite He. f_equal. apply position_nth in P, P'. congruence. }
    destruct raw as [|r0 raw]; [congruence|]. unfold classifier_predict.
    assert (NI : existsb (label_eqb r0) classes = false).
    { destruct (existsb (label_eqb r0) classes) eqn:E; auto. apply existsb_exists in E as (c & Hc & Ec). apply label_eqb_eq in Ec. subst c.
      apply (CI r0 C) in Hc. destruct (Enc r0) as (k & d & -> & _); [apply HR; left; auto|].
      assert (K : existsb is_num y = true) by (apply existsb_exists; eexists; split; [exact Hc|reflexivity]). congruence. }
    rewrite NI. destruct (rmap_ok (decode_label classes) (r0 :: raw)) as (out & Ho).
    { intros r Hin. destruct (HR r Hin) as [Hy _]. destruct (Enc r Hy) as (k & d & -> & Hk & _). exists d. apply (decode_nth classes 0 k d Hk). }
    exists out. split; auto. apply rmap_forall2 in Ho. revert HR Ho. generalize (r0 :: raw). intros l HR Ho. induction Ho as [|r d l l' E Ho IH]; constructor; [|apply IH; intros; apply HR; right; auto].
    destruct (HR r (or_introl eq_refl)) as [Hy _]. destruct (Enc r Hy) as (k & d' & -> & Hk & Hd & Hi). 
    pose proof (decode_nth classes 0 k d' Hk) as D. simpl in D. unfold decode_label in E. rewrite D in E. injection E as <-. auto.
  - injection H as -> <-. exists raw. destruct raw as [|r0 raw]; [congruence|]. unfold classifier_predict.
    assert (NI : existsb (label_eqb r0) classes = true).
    { apply existsb_exists. exists r0. split; [apply (CI r0 C); apply HR; left; auto|apply label_eqb_refl]. }
    rewrite NI. split; auto. revert HR. generalize (r0 :: raw). intros l HR. induction l as [|r l IH]; constructor; [|apply IH; intros; apply HR; right; auto].
    split; [apply HR; left; auto|]. auto.
Qed.
Lemma encoding_total y : ~ (existsb is_str y = true /\ existsb is_num y = true) -> exists r, classifier_labels y = Ok r.
Proof.
  intros N. unfold classifier_labels. destruct (label_classes y) as [cs|] eqn:C.
  2:{ exfalso. apply N. unfold label_classes in C. destruct (existsb is_str y), (existsb is_num y); simpl in C; try discriminate; auto. }
  cbn [rbind]. destruct (existsb is_str y); eauto. destruct (rmap_ok (encode_label cs) y) as (ys & ->); [|simpl; eauto].
  intros l Hl. unfold encode_label. destruct (position_in l cs) as (i & ->); [apply (classes_in y cs l C); auto|]. eauto.
Qed.

(** * Splitting off the target *)
Lemma split_last data : f_cols data <> [] -> exists c, split_frame data None = Ok (mkFrame (f_index data) (removelast (f_cols data)), [c]) /\ f_cols data = removelast (f_cols data) ++ [c].
Proof.
  intros H. destruct (exists_last H) as (l & c & E). exists c. unfold split_frame. rewrite E, rev_app_distr. simpl. rewrite removelast_last. auto.
Qed.
Lemma filter_none {A} (p : A -> bool) l : (forall x, In x l -> p x = false) -> filter p l = [].
Proof. induction l as [|x l IH]; intros H; simpl; auto. rewrite (H x (or_introl eq_refl)). apply IH. intros; apply H; right; auto. Qed.
Lemma filter_one cs n c : NoDup (map c_cname cs) -> In c cs -> c_cname c = n -> filter (fun d => cname_eqb (c_cname d) n) cs = [c].
Proof.
  intros N Hc <-. induction cs as [|d cs IH]; [destruct Hc|]. simpl in *. inversion N; subst. destruct Hc as [<-|Hc].
  - rewrite cname_eqb_refl. f_equal. apply filter_none. intros e He. destruct (cname_eqb (c_cname e) (c_cname d)) eqn:E; auto.
    apply cname_eqb_eq in E. exfalso. apply H1. rewrite <- E. apply in_map. auto.
  - destruct (cname_eqb (c_cname d) (c_cname c)) eqn:E; [|apply IH; auto]. apply cname_eqb_eq in E. exfalso. apply H1. rewrite E. apply in_map. auto.
Qed.

(** * ARFF *)
Lemma chop_sub s : chop s = substring 0 (String.length s - 1) s.
Proof.
  induction s as [|c s IH]; [reflexivity|]. cbn [chop]. destruct s as [|d s]; [reflexivity|]. rewrite IH.
  cbn [String.length]. rewrite !Nat.sub_succ, !Nat.sub_0_r. reflexivity.
Qed.
Lemma seen_chop l rest : seen (l :: rest) = l :: map chop rest.
Proof. simpl. f_equal. apply map_ext. intros s. symmetry. apply chop_sub. Qed.
Lemma letter_lower w c : ~ (65 <= nat_of_ascii w <= 90) -> letter w c <-> lower_char c = w.
Proof.
  intros N. unfold letter, lower_char. pose proof (nat_ascii_bounded c) as B. destruct ((65 <=? nat_of_ascii c) && (nat_of_ascii c <=? 90)) eqn:E.
  - apply andb_true_iff in E as [E1 E2]. apply Nat.leb_le in E1, E2. split.
    + intros [->|[L E]]; [lia|]. rewrite E. apply ascii_nat_embedding.
    + intros <-. right. rewrite nat_ascii_embedding by lia. lia.
  - apply andb_false_iff in E. rewrite !Nat.leb_gt in E. split; [|auto]. intros [->|[L E']]; [reflexivity|lia].
Qed.
Fixpoint small (s : string) : Prop := match s with "" => True | String c s' => ~ (65 <= nat_of_ascii c <= 90) /\ small s' end.
Lemma begins_iff : forall w l, small w -> begins w l <-> starts_with w (lower l) = true.
Proof.
  induction w as [|c w IH]; intros [|d l] S; cbn [begins starts_with lower]; try tauto; [split; [tauto|discriminate]|].
  destruct S as [S1 S2]. rewrite andb_true_iff, Ascii.eqb_eq, (letter_lower c d S1), (IH l S2). intuition congruence.
Qed.
Lemma data_iff l : data_line l <-> starts_with "@data" (lower l) = true.
Proof. apply begins_iff. repeat split; vm_compute; lia. Qed.
Lemma decl_iff l : declaration_line l <-> starts_with "@attribute" (lower l) = true.
Proof. apply begins_iff. repeat split; vm_compute; lia. Qed.
Lemma data_no l : ~ data_line l <-> starts_with "@data" (lower l) = false.
Proof. rewrite data_iff. destruct (starts_with _ _); split; congruence. Qed.
Lemma decl_no l : ~ declaration_line l <-> starts_with "@attribute" (lower l) = false.
Proof. rewrite decl_iff. destruct (starts_with _ _); split; congruence. Qed.
Lemma data_empty : ~ data_line "". Proof. intros []. Qed.
Lemma decl_empty : ~ declaration_line "". Proof. intros []. Qed.
Lemma split_once_err sep : forall s e, split_once sep s = Err e -> e = ValueError.
Proof.
  induction s as [|c s IH]; intros e; cbn [split_once].
  - destruct (starts_with sep ""); congruence.
  - destruct (starts_with sep (String c s)); [discriminate|]. destruct (split_once sep s) as [[a b]|]; simpl; [discriminate|]. intros H. injection H as <-. auto.
Qed.
Lemma parse_err line e : parse_attribute line = Err e -> e = ValueError.
Proof.
  unfold parse_attribute. destruct (split_once " " line) as [[a b]|e1] eqn:E; cbn [rbind].
  - destruct (starts_with quote b); apply split_once_err.
  - intros H. injection H as <-. eapply split_once_err; eauto.
Qed.
(** no infinite loop once a line that starts the data is seen *)
Lemma arff_terminates : forall rest fuel line attrs, length rest < fuel -> Exists data_line (line :: map chop rest) -> arff_loop fuel line rest attrs <> Err Diverges.
Proof.
  induction rest as [|l rest IH]; intros [|fuel] line attrs Hf Hex; simpl in Hf; try lia; cbn [arff_loop].
  - destruct (starts_with "@data" (lower line)) eqn:E; [discriminate|]. inversion Hex as [? ? K|? ? K]; subst; [apply data_iff in K; congruence|inversion K].
  - destruct (starts_with "@data" (lower line)) eqn:E; [discriminate|].
    inversion Hex as [? ? K|? ? K]; subst; [apply data_iff in K; congruence|].
    destruct (starts_with "@attribute" (lower line)).
    + destruct (parse_attribute line) as [[n t]|e] eqn:P; cbn [rbind]; [apply IH; [lia|exact K]|]. apply parse_err in P. congruence.
    + cbn [rbind]. apply IH; [lia|exact K].
Qed.
(** without one it never stops by itself *)
Lemma arff_diverges : forall fuel rest line attrs, ~ Exists data_line (line :: map chop rest) ->
  arff_loop fuel line rest attrs = Err Diverges \/ arff_loop fuel line rest attrs = Err ValueError.
Proof.
  induction fuel as [|fuel IH]; intros rest line attrs N; [left; reflexivity|]. cbn [arff_loop].
  destruct (starts_with "@data" (lower line)) eqn:E; [exfalso; apply N; constructor; apply data_iff; exact E|].
  assert (Nx : forall a, (match rest with [] => arff_loop fuel "" [] a | l :: rest' => arff_loop fuel (chop l) rest' a end) = Err Diverges \/
                         (match rest with [] => arff_loop fuel "" [] a | l :: rest' => arff_loop fuel (chop l) rest' a end) = Err ValueError).
  { intros a. destruct rest as [|l rest]; apply IH.
    - intros K. inversion K as [? ? K'|? ? K']; subst; [destruct K'|inversion K'].
    - intros K. apply N. simpl. right. exact K. }
  destruct (starts_with "@attribute" (lower line)); [|cbn [rbind]; apply Nx].
  destruct (parse_attribute line) as [[n t]|e] eqn:P; cbn [rbind]; [apply Nx|]. apply parse_err in P. subst. auto.
Qed.
Lemma arff_plain_diverges : forall fuel rest line attrs, ~ Exists data_line (line :: map chop rest) ->
  Forall (fun l => ~ declaration_line l) (line :: map chop rest) -> arff_loop fuel line rest attrs = Err Diverges.
Proof.
  induction fuel as [|fuel IH]; intros rest line attrs N F; [reflexivity|]. cbn [arff_loop].
  destruct (starts_with "@data" (lower line)) eqn:E; [exfalso; apply N; constructor; apply data_iff; exact E|]. inversion F as [|? ? F1 F2]; subst. apply decl_no in F1. rewrite F1. cbn [rbind].
  destruct rest as [|l rest]; apply IH.
  - intros K. inversion K as [? ? K'|? ? K']; subst; [destruct K'|inversion K'].
  - repeat constructor. apply decl_empty.
  - intros K. apply N. simpl. right. exact K.
  - exact F2.
Qed.
(** the declarations are read *)
Lemma append_cons c a b : (String c a ++ b)%string = String c (a ++ b). Proof. reflexivity. Qed.
Lemma chop_newline s : chop (s ++ newline) = s.
Proof.
  induction s as [|c s IH]; [reflexivity|]. rewrite append_cons. cbn [chop]. rewrite IH. destruct s; reflexivity.
Qed.
Lemma sub_all s : substring 0 (String.length s) s = s.
Proof. induction s as [|c s IH]; simpl; auto. rewrite IH. reflexivity. Qed.
Lemma has_char_cons c d s : ~ has_char c (String d s) -> c <> d /\ ~ has_char c s.
Proof.
  intros N. split.
  - intros <-. apply N. exists "", s. reflexivity.
  - intros (x & y & ->). apply N. exists (String d x), y. reflexivity.
Qed.
Lemma starts_app sep t : starts_with sep (sep ++ t) = true.
Proof. induction sep as [|c s IH]; [reflexivity|]. rewrite append_cons. cbn [starts_with]. rewrite Ascii.eqb_refl. exact IH. Qed.
Lemma sub_app sep t : substring (String.length sep) (String.length (sep ++ t) - String.length sep) (sep ++ t) = t.
Proof.
  induction sep as [|c s IH].
  - change ("" ++ t)%string with t. cbn [String.length]. rewrite Nat.sub_0_r. apply sub_all.
  - rewrite append_cons. cbn [String.length substring]. rewrite Nat.sub_succ. exact IH.
Qed.
Lemma split_sep c sep n t : ~ has_char c n -> split_once (String c sep) (n ++ String c sep ++ t) = Ok (n, t).
Proof.
  induction n as [|d n IH]; intros H.
  - change ("" ++ String c sep ++ t)%string with (String c sep ++ t)%string. rewrite append_cons. cbn [split_once]. rewrite <- append_cons, starts_app, sub_app. reflexivity.
  - apply has_char_cons in H as [H1 H2]. rewrite append_cons. cbn [split_once starts_with].
    rewrite (proj2 (Ascii.eqb_neq c d) H1). cbn [andb]. rewrite (IH H2). reflexivity.
Qed.
Lemma split_space n t : ~ has_char " " n -> split_once " " (n ++ " " ++ t) = Ok (n, t).
Proof. apply (split_sep " " ""). Qed.
Lemma append_assoc (a b c : string) : ((a ++ b) ++ c)%string = (a ++ b ++ c)%string.
Proof. induction a as [|x a IH]; [reflexivity|]. rewrite !append_cons, IH. reflexivity. Qed.
Lemma parse_written n w t : written n w -> parse_attribute ("@attribute " ++ w ++ " " ++ t) = Ok (n, t).
Proof.
  intros W. unfold parse_attribute. change ("@attribute " ++ w ++ " " ++ t)%string with ("@attribute" ++ " " ++ (w ++ " " ++ t))%string. rewrite split_space.
  2:{ intros (x & y & E). do 10 (destruct x as [|? x]; [discriminate E|]; injection E as _ E). destruct x; discriminate E. }
  cbn [rbind]. destruct W as [(-> & P1 & P2 & P3)|(-> & P)].
  - assert (Q : starts_with quote (n ++ " " ++ t) = false).
    { destruct n as [|c n]; [congruence|]. rewrite append_cons. unfold quote. cbn [starts_with]. destruct (Ascii.eqb (ascii_of_nat 34) c) eqn:K; [|reflexivity].
      apply Ascii.eqb_eq in K. exfalso. apply (P3 n). rewrite <- K. reflexivity. }
    rewrite Q. apply split_space. auto.
  - rewrite !append_cons. unfold quote. cbn [starts_with]. rewrite Ascii.eqb_refl. cbn [andb String.length substring]. rewrite Nat.sub_succ, Nat.sub_0_r, sub_all.
    rewrite append_assoc. exact (split_sep quote_char " " n t P).
Qed.
Lemma odict_new : forall d n v, ~ In n (map fst d) -> odict_set d n v = d ++ [(n, v)].
Proof.
  induction d as [|[m w] d IH]; intros n v H; simpl in *; auto. destruct (String.eqb_spec m n); [exfalso; apply H; auto|]. f_equal. apply IH. tauto.
Qed.
Lemma arff_reads : forall decls lines fuel line attrs tail, ~ data_line line -> ~ declaration_line line ->
  Forall2 declared decls lines -> NoDup (map fst (attrs ++ decls)) -> S (length decls) < fuel ->
  arff_loop fuel line (lines ++ ("@data" ++ newline)%string :: tail) attrs = Ok (attrs ++ decls).
Proof.
  assert (D : forall fuel tail attrs, 0 < fuel -> arff_loop fuel (chop ("@data" ++ newline)) tail attrs = Ok attrs).
  { intros [|fuel] tail attrs H; [lia|]. reflexivity. }
  assert (G : forall decls lines fuel attrs tail, Forall2 declared decls lines -> NoDup (map fst (attrs ++ decls)) -> length decls < fuel ->
     match lines ++ ("@data" ++ newline)%string :: tail with [] => arff_loop fuel "" [] attrs | l :: rest' => arff_loop fuel (chop l) rest' attrs end = Ok (attrs ++ decls)).
  { intros decls lines fuel attrs tail F. revert fuel attrs. induction F as [|[n t] l decls lines (w & W & ->) F IH]; intros fuel attrs N L.
    - cbn [map app]. rewrite D by (simpl in L; lia). rewrite app_nil_r. reflexivity.
    - cbn [map app]. cbn [fst snd] in *.
      replace (("@attribute " ++ w ++ " " ++ t ++ newline)%string) with ((("@attribute " ++ w ++ " " ++ t) ++ newline)%string) by (rewrite !append_assoc; reflexivity).
      rewrite chop_newline. simpl in L. destruct fuel as [|fuel]; [lia|]. cbn [arff_loop].
      replace (starts_with "@data" (lower ("@attribute " ++ w ++ " " ++ t))) with false by reflexivity.
      replace (starts_with "@attribute" (lower ("@attribute " ++ w ++ " " ++ t))) with true by reflexivity.
      rewrite (parse_written n w t) by auto. cbn [rbind]. rewrite odict_new.
      + rewrite IH; auto; [rewrite <- app_assoc; reflexivity|rewrite <- app_assoc; exact N|lia].
      + rewrite map_app in N. simpl in N. apply NoDup_remove_2 in N. intros K. apply N. apply in_or_app. auto. }
  intros decls lines fuel line attrs tail H1 H2 F N L. apply data_no in H1. apply decl_no in H2. destruct fuel as [|fuel]; [lia|]. cbn [arff_loop]. rewrite H1, H2. cbn [rbind]. apply G; auto. lia.
Qed.

(** * The order of the classes *)
Lemma label_leb_total a b : label_leb a b = true \/ label_leb b a = true.
Proof.
  destruct a as [|p|s], b as [|q|t]; simpl; auto.
  - destruct (Qccompare p q) eqn:E; auto. right. change (Qccompare q p) with (Qcompare q p). change (Qccompare p q) with (Qcompare p q) in E. rewrite <- Qcompare_antisym, E. reflexivity.
  - destruct (String.compare s t) eqn:E; auto. right. rewrite String.compare_antisym, E. reflexivity.
Qed.
Lemma nodup_labels l : NoDup (nodup_label l).
Proof.
  induction l as [|x l IH]; simpl; [constructor|]. destruct (existsb (label_eqb x) l) eqn:E; auto. constructor; auto. rewrite nodup_in. intros K.
  assert (X : existsb (label_eqb x) l = true) by (apply existsb_exists; exists x; split; [auto|apply label_eqb_refl]). congruence.
Qed.
Definition alike (y : list label) (l : label) : Prop := In l y /\ l <> LMissing.
Lemma insert_ordered x : forall l, (forall a, In a l -> a <> x) -> (forall a b, In a (x :: l) -> In b (x :: l) -> a <> b -> label_leb a b = true -> label_before a b) ->
  (forall a b c, label_before a b -> label_before b c -> label_before a c) ->
  StronglySorted label_before l -> StronglySorted label_before (insert_sorted label_leb x l).
Proof.
  induction l as [|y l IH]; intros D P T S; simpl; [constructor; constructor|]. apply StronglySorted_inv in S as [S F]. destruct (label_leb x y) eqn:E.
  - assert (XY : label_before x y). { apply P; simpl; auto. intros ->. apply (D y); simpl; auto. }
    constructor; [constructor; auto|]. constructor; auto. eapply Forall_impl; [|exact F]. intros z Hz. eapply T; eauto.
  - constructor.
    + apply IH; auto; [intros a Ha; apply D; right; auto|]. intros a b [<-|Ha] [<-|Hb]; apply P; simpl; auto.
    + eapply Permutation_Forall; [apply Permutation_sym, insert_perm|]. constructor; auto. apply P; simpl; auto; [apply D; simpl; auto|].
      destruct (label_leb_total x y); congruence.
Qed.
Lemma str_lt_trans a b c : String.compare a b = Lt -> String.compare b c = Lt -> String.compare a c = Lt.
Proof.
  revert b c. induction a as [|x a IH]; intros [|y b] [|z c]; simpl; try discriminate; auto.
  unfold Ascii.compare. destruct (N.compare_spec (N_of_ascii x) (N_of_ascii y)) as [E1|E1|E1]; try discriminate; destruct (N.compare_spec (N_of_ascii y) (N_of_ascii z)) as [E2|E2|E2]; try discriminate; intros H1 H2.
  - rewrite E1, E2, N.compare_refl. eauto.
  - rewrite E1, (proj2 (N.compare_lt_iff _ _) E2). auto.
  - rewrite <- E2, (proj2 (N.compare_lt_iff _ _) E1). auto.
  - rewrite (proj2 (N.compare_lt_iff _ _) (N.lt_trans _ _ _ E1 E2)). auto.
Qed.
Lemma before_trans a b c : label_before a b -> label_before b c -> label_before a c.
Proof.
  destruct a as [|p|s], b as [|q|t], c as [|r|u]; simpl; try tauto; [apply Qclt_trans|apply str_lt_trans].
Qed.
Lemma leb_before a b : a <> LMissing -> b <> LMissing -> (is_str a = is_str b) -> a <> b -> label_leb a b = true -> label_before a b.
Proof.
  destruct a as [|p|s], b as [|q|t]; simpl; try congruence; intros _ _ _ N.
  - destruct (Qccompare p q) eqn:E; try discriminate; intros _; [exfalso; apply N; f_equal; apply Qc_is_canon, Qeq_alt; exact E|]. unfold Qclt. apply Qlt_alt. exact E.
  - destruct (String.compare s t) eqn:E; try discriminate; auto. apply String.compare_eq_iff in E. congruence.
Qed.
Lemma ss_nth {A} (R : A -> A -> Prop) l : StronglySorted R l -> forall i j a b, i < j -> nth_error l i = Some a -> nth_error l j = Some b -> R a b.
Proof.
  induction 1 as [|x l S IH F]; intros [|i] [|j] a b L A1 B; simpl in *; try discriminate; try lia.
  - injection A1 as <-. rewrite Forall_forall in F. apply F. eapply nth_error_In; eauto.
  - eapply IH; [|eauto|eauto]. lia.
Qed.
Lemma ss_app_last {A} (R : A -> A -> Prop) l x : StronglySorted R l -> (forall a, In a l -> R a x) -> StronglySorted R (l ++ [x]).
Proof.
  induction 1 as [|y l S IH F]; intros H; simpl; [constructor; constructor|]. constructor; [apply IH; intros; apply H; right; auto|].
  apply Forall_app. split; auto. constructor; auto. apply H. left. auto.
Qed.
Lemma classes_sorted y cs : label_classes y = Ok cs -> StronglySorted label_before cs.
Proof.
  unfold label_classes. destruct (existsb is_str y && existsb is_num y) eqn:M; [discriminate|]. intros H. injection H as <-.
  set (l := filter (fun l => negb (unlabelled l)) (nodup_label y)).
  assert (N : NoDup l) by (apply NoDup_filter, nodup_labels).
  assert (I : forall a, In a l -> In a y /\ a <> LMissing). { intros a Ha. apply filter_In in Ha as [Ha U]. split; [apply nodup_in; auto|]. intros ->. discriminate. }
  assert (K : forall a b, In a l -> In b l -> is_str a = is_str b).
  { intros a b Ha Hb. destruct (I a Ha) as [A1 A2], (I b Hb) as [B1 B2]. destruct (is_str a) eqn:E1, (is_str b) eqn:E2; auto; exfalso; apply andb_false_iff in M.
    - assert (X : existsb is_str y = true) by (apply existsb_exists; eauto). assert (Y : existsb is_num y = true) by (apply existsb_exists; exists b; split; auto; destruct b; auto; congruence). intuition congruence.
    - assert (X : existsb is_str y = true) by (apply existsb_exists; eauto). assert (Y : existsb is_num y = true) by (apply existsb_exists; exists a; split; auto; destruct a; auto; congruence). intuition congruence. }
  assert (S : StronglySorted label_before (py_sorted label_leb l)).
  { clearbody l. clear M. induction l as [|x l IH]; simpl; [constructor|]. inversion N; subst.
    assert (P : forall a, In a (py_sorted label_leb l) -> In a l) by (intros a; apply Permutation_in, sorted_perm').
    apply insert_ordered; [intros a Ha ->; auto| |apply before_trans|apply IH; auto; intros; [apply I|apply K]; right; auto].
    intros a b Ha Hb Nab. assert (Ha' : In a (x :: l)) by (destruct Ha; [left|right]; auto). assert (Hb' : In b (x :: l)) by (destruct Hb; [left|right]; auto).
    apply leb_before; auto; [apply I; auto|apply I; auto]. }
  destruct (existsb unlabelled y); [|rewrite app_nil_r; auto]. apply ss_app_last; auto. intros a Ha. apply (Permutation_in _ (sorted_perm' _ _)) in Ha. destruct (I a Ha) as [_ B]. destruct a; simpl; auto.
Qed.

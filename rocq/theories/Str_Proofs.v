From Verif Require Import Base Gp_Model Gp_Spec Gp_Proofs Gp_Proofs2 Gp_Proofs3 Gp_Proofs4 Str_Model Str_Spec.
Require Import Ascii Permutation Sorted.
Open Scope string_scope.
Open Scope list_scope.
Open Scope nat_scope.

(** * Strings *)
Lemma contains_cons p c s : contains p s -> contains p (String c s).
Proof. intros (a & b & ->). exists (String c a), b. reflexivity. Qed.
Lemma prefix_contains p s : String.prefix p s = true -> contains p s.
Proof.
  intros H. exists ""%string. simpl. revert s H. induction p as [|c p IH]; intros s H; [exists s; reflexivity|].
  destruct s as [|d s]; simpl in H; [discriminate|]. destruct (ascii_dec c d); [subst|discriminate].
  destruct (IH _ H) as (b & ->). exists b. reflexivity.
Qed.
Lemma prefix_cons a p b s : String.prefix (String a p) (String b s) = true -> a = b /\ String.prefix p s = true.
Proof. cbn [String.prefix]. destruct (ascii_dec a b); [auto|discriminate]. Qed.
Lemma prefix_self p s : String.prefix p (p ++ s) = true.
Proof. induction p; simpl; [destruct s; auto|]. destruct (ascii_dec a a); congruence. Qed.
Lemma drop_self p s : drop (String.length p) (p ++ s) = s.
Proof. induction p; simpl; auto. Qed.

(* a pattern cannot extend beyond a character it does not contain *)
Lemma prefix_stop p x c r : ~ contains (String c "") p ->
  String.prefix p (x ++ String c r) = true -> contains p x.
Proof.
  revert x. induction p as [|a p IH]; intros x Hc H; [exists ""%string, x; reflexivity|].
  destruct x as [|b x]; simpl in H.
  - destruct (ascii_dec a c); [subst|discriminate]. exfalso. apply Hc. exists ""%string, p. reflexivity.
  - destruct (ascii_dec a b); [subst|discriminate]. 
    assert (Hp : String.prefix p x = true).
    { clear - Hc H. assert (Hc' : ~ contains (String c "") p) by (intros HH; apply Hc, contains_cons; auto).
      clear Hc. revert x H. induction p as [|e p IH]; intros x H; [destruct x; reflexivity|].
      destruct x as [|f x]; simpl in *.
      - destruct (ascii_dec e c); [subst|discriminate]. exfalso. apply Hc'. exists ""%string, p. reflexivity.
      - destruct (ascii_dec e f); [|discriminate]. apply IH; auto. intros HH. apply Hc', contains_cons; auto. }
    apply prefix_contains. simpl. destruct (ascii_dec b b); congruence.
Qed.

Lemma after_first_skip p x c r : ~ contains (String c "") p -> ~ contains p x -> p <> ""%string ->
  after_first p (x ++ String c r) = after_first p r.
Proof.
  intros Hc. induction x as [|b x IH]; intros Hx Hp.
  - simpl append. cbn [after_first]. destruct (String.prefix p (String c r)) eqn:E; auto.
    exfalso. apply (prefix_stop p "" c r) in E; auto.
  - simpl append. cbn [after_first]. destruct (String.prefix p (String b (x ++ String c r))) eqn:E.
    + exfalso. apply Hx. apply (prefix_stop p (String b x) c r) in E; auto.
    + apply IH; auto. intros H. apply Hx, contains_cons; auto.
Qed.
Lemma after_first_here p r : after_first p (p ++ r) = Some r.
Proof.
  destruct (p ++ r)%string eqn:E; cbn [after_first]; rewrite <- E, prefix_self, drop_self; auto.
Qed.

Lemma after_first_none p s : after_first p s = None -> ~ contains p s.
Proof.
  induction s as [|c s IH]; cbn [after_first].
  - destruct (String.prefix p "") eqn:E; [discriminate|]. intros _ (a & b & Ec).
    destruct a; [|discriminate]. simpl in Ec. rewrite Ec, prefix_self in E. discriminate.
  - destruct (String.prefix p (String c s)) eqn:E; [discriminate|]. intros H (a & b & Ec).
    destruct a as [|a0 a]; simpl in Ec.
    + rewrite Ec, prefix_self in E. discriminate.
    + inversion Ec; subst. apply IH; auto. exists a, b. auto.
Qed.

Lemma split_nonempty sep k s : split_go sep k s <> [].
Proof.
  revert k. induction s as [|c s IH]; intros k; cbn [split_go]; [discriminate|].
  destruct k; auto. destruct (String.prefix sep (String c s)); [discriminate|].
  destruct (split_go sep 0 s) eqn:E; [|discriminate]. exfalso. exact (IH _ E).
Qed.

Lemma split_none sep x : ~ contains sep x -> split sep x = [x].
Proof.
  unfold split. induction x as [|c x IH]; intros H; cbn [split_go]; auto.
  destruct (String.prefix sep (String c x)) eqn:E.
  - exfalso. apply H, prefix_contains; auto.
  - rewrite IH; auto. intros Hc. apply H, contains_cons; auto.
Qed.

(* one-character separator *)
Lemma split_char c x r : ~ contains (String c "") x ->
  split (String c "") (x ++ String c r) = x :: split (String c "") r.
Proof.
  unfold split. induction x as [|b x IH]; intros H.
  - simpl. destruct (ascii_dec c c); [|congruence]. destruct r; reflexivity.
  - simpl append. cbn [split_go]. destruct (String.prefix (String c "") (String b (x ++ String c r))) eqn:E.
    + exfalso. simpl in E. destruct (ascii_dec c b); [subst|discriminate]. apply H. exists ""%string, x. reflexivity.
    + rewrite IH; auto. intros Hc. apply H, contains_cons; auto.
Qed.

(* the separator ", " *)
Lemma split_comma x r : ~ contains ", " x ->
  split ", " (x ++ ", " ++ r) = x :: split ", " r.
Proof.
  unfold split. induction x as [|b x IH]; intros H.
  - simpl. destruct r; reflexivity.
  - simpl append. cbn [split_go].
    destruct (String.prefix ", " (String b (x ++ String "," (String " " r)))) eqn:E.
    + exfalso. apply prefix_cons in E as [<- E].
      destruct x as [|e x]; simpl append in E.
      * apply prefix_cons in E as [E _]. discriminate.
      * apply prefix_cons in E as [<- E]. apply H. exists ""%string, x. reflexivity.
    + change (String "," (String " " r)) with (", " ++ r)%string. rewrite IH; auto.
      intros Hc. apply H, contains_cons; auto.
Qed.

Lemma contains_app_char c x y : contains (String c "") (x ++ y) ->
  contains (String c "") x \/ contains (String c "") y.
Proof.
  induction x as [|b x IH]; simpl; auto. intros (a & e & E). destruct a as [|a0 a]; simpl in E.
  - inversion E; subst. left. exists ""%string, x. reflexivity.
  - inversion E; subst. destruct IH as [H|H]; [exists a, e; auto|left; apply contains_cons; auto|auto].
Qed.

Lemma contains_around p c x y : ~ contains (String c "") p -> p <> ""%string ->
  contains p (x ++ String c y) -> contains p x \/ contains p y.
Proof.
  intros Hc Hp. induction x as [|b x IH]; simpl append; intros (a & e & E).
  - destruct a as [|a0 a]; simpl in E.
    + exfalso. destruct p as [|p0 p]; [congruence|]. simpl in E. inversion E; subst.
      apply Hc. exists ""%string, p. reflexivity.
    + inversion E; subst. right. exists a, e. auto.
  - destruct a as [|a0 a].
    + left. simpl in E. apply (prefix_stop p (String b x) c y); auto. simpl append. rewrite E. apply prefix_self.
    + simpl in E. inversion E; subst. destruct IH as [H|H]; [exists a, e; auto|left; apply contains_cons; auto|auto].
Qed.

(** * Text of a pipeline in pieces *)
Fixpoint heads (ss : list step) : string :=
  match ss with [] => "" | (p, _) :: rest => p_name p ++ String "(" (heads rest) end%string.
Fixpoint tails (ss : list step) : string :=
  match ss with [] => "" | (_, ts) :: rest => tails rest ++ arguments ts ++ ")" end%string.

Lemma text_pieces ss : text ss = (heads ss ++ "data" ++ tails ss)%string.
Proof.
  induction ss as [|[p ts] ss IH]; [reflexivity|].
  cbn [text heads tails]. rewrite IH. rewrite !str_app_assoc. reflexivity.
Qed.

Lemma not_contains_app c x y : ~ contains (String c "") x -> ~ contains (String c "") y ->
  ~ contains (String c "") (x ++ y).
Proof. intros H1 H2 H. apply contains_app_char in H as [H|H]; auto. Qed.

Lemma contains_char_in c s : contains (String c "") s <-> has_char c s = true.
Proof.
  induction s as [|d s IH]; simpl.
  - split; [|discriminate]. intros (a & b & E). destruct a; discriminate.
  - rewrite orb_true_iff, <- IH. split.
    + intros (a & b & E). destruct a as [|a0 a]; simpl in E; inversion E; subst.
      * left. apply Ascii.eqb_refl.
      * right. exists a, b. auto.
    + intros [H|H]; [|apply contains_cons; auto]. apply Ascii.eqb_eq in H. subst. exists ""%string, s. reflexivity.
Qed.
Ltac nochar := rewrite contains_char_in; vm_compute; discriminate.

Section Read.
Variable ps : pset.

Lemma args_no c ts : Forall (term_readable ps) ts -> c = "("%char \/ c = ")"%char ->
  ~ contains (String c "") (arguments ts).
Proof.
  intros H Hc. induction H as [|t ts Ht _ IH]; cbn [arguments].
  - rewrite contains_char_in. simpl. discriminate.
  - destruct Ht as (_ & Hs & _).
    destruct (Hs (t_ident t)) as (A1 & A2 & _); auto. destruct (Hs (format_value (t_value t))) as (B1 & B2 & _); auto.
    destruct Hc as [-> | ->]; repeat apply not_contains_app; auto; nochar.
Qed.

Lemma tails_no_open ss : Forall (step_readable ps) ss -> ~ contains "(" (tails ss).
Proof.
  induction 1 as [|[p ts] ss [_ Ht] _ IH]; cbn [tails].
  - nochar.
  - repeat apply not_contains_app; auto; [|nochar]. apply args_no; auto.
Qed.

Lemma split_heads ss last : Forall (step_readable ps) ss -> ~ contains "(" last ->
  split "(" (heads ss ++ last) = map (fun s => p_name (fst s)) ss ++ [last].
Proof.
  intros H Hl. induction H as [|[p ts] ss [Hp _] _ IH]; cbn [heads map fst app].
  - apply split_none; auto.
  - rewrite str_app_assoc. simpl append. rewrite split_char; [rewrite IH; reflexivity|]. apply Hp.
Qed.

Lemma split_tails ss rest : Forall (step_readable ps) ss ->
  split ")" (tails ss ++ rest) = rev (map (fun s => arguments (snd s)) ss) ++ split ")" rest.
Proof.
  intros H. revert rest. induction H as [|[p ts] ss [_ Ht] _ IH]; intros rest; cbn [tails map snd rev].
  - reflexivity.
  - rewrite str_app_assoc, IH, str_app_assoc. simpl append.
    rewrite split_char; [|apply args_no; auto]. rewrite <- app_assoc. reflexivity.
Qed.

Lemma after_heads ss rest : Forall (step_readable ps) ss ->
  after_first DATA (heads ss ++ "data" ++ rest) = Some rest.
Proof.
  induction 1 as [|[p ts] ss [Hp _] _ IH]; cbn [heads].
  - change (after_first "data" ("data" ++ rest) = Some rest). apply after_first_here.
  - rewrite str_app_assoc. simpl append at 2. rewrite after_first_skip; [exact IH| | |discriminate].
    + unfold DATA. nochar.
    + apply Hp.
Qed.

Lemma combine_map {A B C} (f : A -> B) (g : A -> C) l : combine (map f l) (map g l) = map (fun x => (f x, g x)) l.
Proof. induction l; simpl; congruence. Qed.

(** * Lookup *)
Lemma find_primitive_ok p : prim_readable ps p -> find_primitive ps (p_name p) = Ok p.
Proof.
  intros (Hin & _ & _ & Hu). unfold find_primitive.
  destruct (find _ _) as [q|] eqn:E.
  - apply find_some in E as [Hq Hn]. apply String.eqb_eq in Hn. apply in_app_or in Hq.
    rewrite (Hu _ Hq Hn). reflexivity.
  - exfalso. assert (HH := find_none _ _ E p ltac:(apply in_or_app; auto)). simpl in HH.
    rewrite String.eqb_refl in HH. discriminate.
Qed.

Lemma find_terminal_ok t : term_readable ps t -> find_terminal ps (term_repr t) = Ok t.
Proof.
  intros (Hin & Hs & _ & _ & Hu). unfold find_terminal, term_repr.
  destruct (Hs (t_ident t)) as (_ & _ & A); auto. destruct (Hs (format_value (t_value t))) as (_ & _ & B); auto.
  simpl append. rewrite split_char; auto. rewrite split_none; auto.
  destruct (find _ _) as [q|] eqn:E.
  - apply find_some in E as [Hq Hn]. apply String.eqb_eq in Hn.
    rewrite (Hu _ Hq Hn). reflexivity.
  - exfalso. assert (HH := find_none _ _ E t Hin). simpl in HH. unfold term_repr in HH. simpl append in HH.
    rewrite String.eqb_refl in HH. discriminate.
Qed.
End Read.

Section Parse.
Variable ps : pset.
Lemma term_repr_no_comma t : ~ contains ", " (t_ident t) -> ~ contains ", " (format_value (t_value t)) ->
  ~ contains ", " (term_repr t).
Proof.
  intros H1 H2 H. unfold term_repr in H. simpl append in H. apply contains_around in H as [H|H]; auto.
  - nochar.
  - discriminate.
Qed.

Lemma parse_terminals_ok ts : Forall (term_readable ps) ts -> parse_terminals ps (arguments ts) = Ok ts.
Proof.
  intros H. unfold parse_terminals. destruct ts as [|t ts]; [reflexivity|].
  replace (String.eqb (arguments (t :: ts)) "") with false by reflexivity.
  rewrite args_concat. cbn [append drop].
  assert (E : split ", " (String.concat ", " (map term_repr (t :: ts))) = map term_repr (t :: ts)).
  { clear - H. revert t H. induction ts as [|u ts IH]; intros t H; inversion H as [|? ? Ht Hts]; subst.
    - simpl. apply split_none. destruct Ht as (_ & Hs & C1 & C2 & _). apply term_repr_no_comma; auto.
    - change (String.concat ", " (map term_repr (t :: u :: ts)))
        with (term_repr t ++ ", " ++ String.concat ", " (map term_repr (u :: ts)))%string.
      rewrite split_comma; [rewrite IH; auto|].
      destruct Ht as (_ & Hs & C1 & C2 & _). apply term_repr_no_comma; auto. }
  rewrite E. clear E. revert H. generalize (t :: ts). intros l H.
  induction H as [|x l Hx _ IH]; simpl; auto. rewrite find_terminal_ok; auto. simpl. rewrite IH. reflexivity.
Qed.

Lemma has_missing_spec p ts : has_missing p ts = false <-> complete (p, ts).
Proof.
  unfold has_missing, complete. simpl. split.
  - intros H i Hi. destruct (existsb (fun t => String.eqb (t_ident t) i) ts) eqn:E.
    + apply existsb_exists in E as (t & Ht & Et). apply String.eqb_eq in Et. eauto.
    + exfalso. assert (HH : existsb (fun i => negb (existsb (fun t => String.eqb (t_ident t) i) ts)) (p_input p) = true).
      { apply existsb_exists. exists i. rewrite E. auto. } congruence.
  - intros H. destruct (existsb _ (p_input p)) eqn:E; auto. exfalso.
    apply existsb_exists in E as (i & Hi & Ei). apply negb_true_iff in Ei.
    destruct (H i Hi) as (t & Ht & Et).
    assert (HH : existsb (fun t => String.eqb (t_ident t) i) ts = true).
    { apply existsb_exists. exists t. split; auto. apply String.eqb_eq; auto. } congruence.
Qed.

Definition item (s : step) : string * string := (p_name (fst s), arguments (snd s)).

(** Building the nodes of [todo] (deepest first) on top of [done]. *)
Lemma build_nodes_ok strict : forall todo s d ls done,
  wf_heap (s_heap s) -> chain (s_heap s) d ls done -> Forall (step_readable ps) todo ->
  (strict = false \/ Forall complete todo ->
   exists s' d' new, build_nodes ps strict (map item todo) d s = (Ok d', s') /\
     chain (s_heap s') d' (new ++ ls) (rev (map resort todo) ++ done) /\
     all_new (s_heap s) new /\ extends s s' /\ s_uid s' = s_uid s /\ s_rng s' = s_rng s) /\
  (strict = true -> ~ Forall complete todo ->
   exists s', build_nodes ps strict (map item todo) d s = (Err ValueError, s') /\ extends s s').
Proof.
  induction todo as [|[p ts] todo IH]; intros s d ls done W C R.
  - split; [|intros _ H; exfalso; auto].
    intros _. exists s, d, []. simpl. split; auto. split; auto. split; [constructor|].
    split; [apply extends_refl; auto|auto].
  - inversion R as [|? ? [Hp Ht] R']; subst. cbn [map build_nodes item fst snd] in *.
    unfold mbind, mlift. rewrite (find_primitive_ok ps _ Hp), (parse_terminals_ok _ Ht).
    destruct (has_missing p ts && strict) eqn:Em.
    { apply andb_true_iff in Em as [Em ->]. split; [intros [H|H]; [discriminate|]|].
      - exfalso. inversion H as [|? ? Hc _]; subst. apply has_missing_spec in Hc. congruence.
      - intros _ _. exists s. split; [reflexivity|]. apply extends_refl; auto. }
    rewrite new_node_ok. set (c := mkCell p d (py_sorted term_leb ts)).
    set (s1 := mkSt (alloc (s_heap s) c) (s_rng s) (s_uid s)).
    assert (W1 : wf_heap (s_heap s1)).
    { intros l Hl. simpl in Hl. change (h_get (alloc (s_heap s) c) l = None). rewrite alloc_other by lia.
      apply W. lia. }
    assert (X1 : extends s s1) by (split; [exact W1|split; [apply same_alloc|reflexivity]]).
    assert (C1 : chain (s_heap s1) (DRef (h_next (s_heap s))) (h_next (s_heap s) :: ls) (resort (p, ts) :: done)).
    { change (resort (p, ts)) with (c_prim c, c_terms c). apply chain_node.
      - change (h_get (alloc (s_heap s) c) (h_next (s_heap s)) = Some c). simpl. rewrite Nat.eqb_refl. reflexivity.
      - eapply chain_frame; [exact C|]. intros l Hl. change (h_get (alloc (s_heap s) c) l = h_get (s_heap s) l).
        apply alloc_other. pose proof (chain_lt _ _ _ _ W C _ Hl). lia. }
    destruct (IH s1 _ _ _ W1 C1 R') as [IH1 IH2]. split.
    + intros Hs. destruct IH1 as (s' & d' & new & E & C' & N & X & U & G).
      { destruct Hs as [Hs|Hs]; auto. inversion Hs; auto. }
      exists s', d', (new ++ [h_next (s_heap s)]). split; [exact E|]. split.
      { rewrite <- app_assoc. simpl. rewrite <- app_assoc. exact C'. }
      split; [|split; [eapply extends_trans; eauto|auto]].
      apply Forall_app. split; [|constructor; auto].
      eapply Forall_impl; [|exact N]. simpl. intros; lia.
    + intros -> Hn. apply andb_false_iff in Em as [Em|Em]; [|discriminate]. apply has_missing_spec in Em.
      destruct IH2 as (s' & E & X); auto. exists s'. split; [exact E|]. eapply extends_trans; eauto.
Qed.

Lemma items_of_text ss : Forall (step_readable ps) ss ->
  exists rest, after_first DATA (text ss) = Some rest /\
    combine (rev (removelast (split "(" (text ss)))) (removelast (split ")" rest)) = map item (rev ss).
Proof.
  intros R. rewrite text_pieces. exists (tails ss). split; [apply (after_heads ps); auto|].
  rewrite (split_heads ps); auto.
  2: { change (~ contains "(" ("data" ++ tails ss)). apply not_contains_app; [nochar|apply (tails_no_open ps); auto]. }
  rewrite removelast_last. rewrite <- (str_app_nil (tails ss)). rewrite (split_tails ps); auto.
  change (split ")" "") with [""%string]. rewrite removelast_last.
  rewrite <- !map_rev, combine_map. reflexivity.
Qed.

Lemma from_string_ok strict ss s :
  wf_heap (s_heap s) -> ss <> [] -> Forall (step_readable ps) ss ->
  (strict = false \/ Forall complete ss ->
   exists ind s' ls, individual_from_string (text ss) ps strict s = (Ok ind, s') /\
     pipeline (s_heap s') ind ls (map resort ss) /\ all_new (s_heap s) ls /\ extends s s' /\
     s_uid s <= i_id ind < s_uid s') /\
  (strict = true -> ~ Forall complete ss ->
   exists s', individual_from_string (text ss) ps strict s = (Err ValueError, s') /\ extends s s').
Proof.
  intros W Hne R. destruct (items_of_text ss R) as (rest & E1 & E2).
  unfold individual_from_string, node_from_string. rewrite E1, E2.
  destruct (build_nodes_ok strict (rev ss) s DData [] [] W (chain_data _)) as [B1 B2].
  { apply Forall_rev; auto. }
  split.
  - intros H. destruct B1 as (s' & d' & new & E & C & N & X & U & _).
    { destruct H; auto. right. apply Forall_rev; auto. }
    rewrite !app_nil_r, map_rev, rev_involutive in C. unfold mbind. rewrite E.
    destruct ss as [|s0 ss]; [congruence|]. simpl in C. destruct d' as [|l]; [inversion C|].
    exists (mkInd l (s_uid s') [] ""%string), (mkSt (s_heap s') (s_rng s') (S (s_uid s'))), new.
    split; [reflexivity|]. split; [exact C|]. split; [auto|].
    destruct X as (W' & F' & U'). split; [split; [exact W'|split; [exact F'|simpl; lia]]|]. simpl. lia.
  - intros Hs Hn. destruct B2 as (s' & E & X); auto.
    { intros H. apply Hn. rewrite <- (rev_involutive ss). apply Forall_rev; auto. }
    unfold mbind. rewrite E. eauto.
Qed.
End Parse.

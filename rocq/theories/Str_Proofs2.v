(** Texts that name something the search space does not have. *)
From Verif Require Import Base Gp_Model Gp_Spec Str_Model Str_Spec Gp_Proofs Gp_Proofs2 Gp_Proofs3 Gp_Proofs4 Str_Proofs.
Require Import Lia Ascii.
Open Scope nat_scope.

Lemma build_nodes_app ps strict a : forall b d s,
  build_nodes ps strict (a ++ b) d s =
  match build_nodes ps strict a d s with
  | (Ok d', s') => build_nodes ps strict b d' s'
  | (Err e, s') => (Err e, s')
  end.
Proof.
  induction a as [|[n t] a IH]; intros b d s; [reflexivity|].
  cbn [app build_nodes]. unfold mbind, mlift.
  destruct (find_primitive ps n); [|reflexivity]. destruct (parse_terminals ps t); [|reflexivity].
  destruct (_ && strict); [reflexivity|]. rewrite new_node_ok. apply IH.
Qed.

Lemma find_primitive_unknown ps n :
  (forall q, In q (prims_of ps DATA) \/ In q (prims_of ps PREDICTION) -> p_name q <> n) ->
  find_primitive ps n = Err IndexError.
Proof.
  intros H. unfold find_primitive. destruct (find _ _) as [q|] eqn:E; auto. exfalso.
  apply find_some in E as [Hq En]. apply String.eqb_eq in En. apply in_app_or in Hq. eapply H; eauto.
Qed.
Lemma find_primitive_known ps n :
  (exists q, (In q (prims_of ps DATA) \/ In q (prims_of ps PREDICTION)) /\ p_name q = n) ->
  exists p, find_primitive ps n = Ok p.
Proof.
  intros (q & Hq & En). unfold find_primitive. destruct (find _ _) as [p|] eqn:E; eauto. exfalso.
  apply in_or_app in Hq. pose proof (find_none _ _ E q Hq) as HH. simpl in HH.
  rewrite En, String.eqb_refl in HH. discriminate.
Qed.

Lemma find_terminal_legible ps0 ps t : term_readable ps0 t ->
  find_terminal ps (term_repr t) =
    match find (fun u => String.eqb (term_repr u) (term_repr t)) (terms_of ps (t_ident t)) with
    | Some u => Ok u
    | None => Err RuntimeError
    end.
Proof.
  intros (Hin & Hs & _ & _ & Hu). unfold find_terminal, term_repr.
  destruct (Hs (t_ident t)) as (_ & _ & A); auto. destruct (Hs (format_value (t_value t))) as (_ & _ & B); auto.
  simpl append. rewrite split_char; auto. rewrite split_none; auto.
Qed.

Lemma parse_terminals_legible ps0 ps ts : Forall (term_readable ps0) ts ->
  parse_terminals ps (arguments ts) = rmap (fun t => find_terminal ps (term_repr t)) ts.
Proof.
  intros H. unfold parse_terminals. destruct ts as [|t ts]; [reflexivity|].
  replace (String.eqb (arguments (t :: ts)) "") with false by reflexivity.
  rewrite args_concat. cbn [append drop].
  assert (E : split ", " (String.concat ", " (map term_repr (t :: ts))) = map term_repr (t :: ts)).
  { clear - H. revert t H. induction ts as [|u ts IH]; intros t H; inversion H as [|? ? Ht Hts]; subst.
    - simpl. apply split_none. destruct Ht as (_ & Hs & C1 & C2 & _). apply term_repr_no_comma; auto.
    - change (String.concat ", " (map term_repr (t :: u :: ts)))
        with (term_repr t ++ ", " ++ String.concat ", " (map term_repr (u :: ts)))%string.
      rewrite split_comma; [rewrite IH; auto|].
      destruct Ht as (_ & Hs & C1 & C2 & _). apply term_repr_no_comma; auto. }
  rewrite E. clear E H. generalize (t :: ts). intros l. induction l as [|x l IH]; simpl; auto.
  rewrite IH. reflexivity.
Qed.

Lemma parse_terminals_unknown ps0 ps ts : Forall (term_readable ps0) ts ->
  Exists (fun t => forall u, In u (terms_of ps (t_ident t)) -> term_text u <> term_text t) ts ->
  parse_terminals ps (arguments ts) = Err RuntimeError.
Proof.
  intros R X. rewrite (parse_terminals_legible ps0); auto.
  induction X as [t ts H|t ts X IH]; inversion R as [|? ? Rt Rts]; subst; cbn [rmap].
  - rewrite (find_terminal_legible ps0); auto.
    destruct (find _ _) as [u|] eqn:E; [exfalso|reflexivity].
    apply find_some in E as [Hu Eu]. apply String.eqb_eq in Eu. apply (H u Hu). exact Eu.
  - rewrite (find_terminal_legible ps0); auto. destruct (find _ _); [|reflexivity].
    cbn. rewrite IH; auto.
Qed.

Lemma after_first_absent p : forall s, ~ contains p s -> after_first p s = None.
Proof.
  induction s as [|c s IH]; intros H; simpl.
  - destruct p; simpl; auto. exfalso. apply H. exists ""%string, ""%string. reflexivity.
  - destruct (String.prefix p (String c s)) eqn:E.
    + exfalso. apply H. clear -E. revert p E. generalize (String c s) as t.
      intros t. assert (G : forall t p, String.prefix p t = true -> exists b, t = (p ++ b)%string).
      { clear. induction t as [|c t IH]; intros [|a p] E; simpl in *; try discriminate.
        - exists ""%string; reflexivity.
        - exists (String c t). reflexivity.
        - destruct (ascii_dec a c); [|discriminate]. subst. destruct (IH _ E) as (b & ->). exists b. reflexivity. }
      intros p E. destruct (G _ _ E) as (b & ->). exists ""%string, b. reflexivity.
    + change (match p with EmptyString => true | String a s' => if ascii_dec a c then String.prefix s' s else false end)
        with (String.prefix p (String c s)). rewrite E.
      apply IH. intros (a & b & Ec). apply H. exists (String c a), b. rewrite Ec. reflexivity.
Qed.

Lemma extends_new s c : wf_heap (s_heap s) ->
  extends s (mkSt (alloc (s_heap s) c) (s_rng s) (s_uid s)).
Proof.
  intros W. split; [|split; [apply same_alloc|reflexivity]].
  intros l Hl. simpl in Hl. change (h_get (alloc (s_heap s) c) l = None). rewrite alloc_other by lia. apply W. lia.
Qed.

(** Whatever is read, the nodes that existed stay as they were. *)
Lemma build_nodes_extends ps strict items : forall d s, wf_heap (s_heap s) ->
  extends s (snd (build_nodes ps strict items d s)).
Proof.
  induction items as [|[n t] items IH]; intros d s W; cbn [build_nodes].
  - apply extends_refl; auto.
  - unfold mbind, mlift. destruct (find_primitive ps n); [|apply extends_refl; auto].
    destruct (parse_terminals ps t); [|apply extends_refl; auto].
    destruct (_ && strict); [apply extends_refl; auto|]. rewrite new_node_ok.
    match goal with |- extends s (snd (build_nodes _ _ _ _ ?s1)) => assert (X : extends s s1) by (apply extends_new; auto) end.
    eapply extends_trans; [exact X|]. apply IH. apply X.
Qed.

Lemma parse_terminals_err ps0 ps ts e : Forall (term_readable ps0) ts ->
  parse_terminals ps (arguments ts) = Err e -> e = RuntimeError.
Proof.
  intros R. rewrite (parse_terminals_legible ps0); auto. revert e.
  induction R as [|t ts Rt R IH]; intros e; cbn [rmap]; [discriminate|].
  rewrite (find_terminal_legible ps0); auto. destruct (find _ _); [|cbn; congruence].
  cbn. destruct (rmap _ ts) as [|e']; [discriminate|]. intros E. apply IH. inversion E; reflexivity.
Qed.

Section Other.
Context (ps0 ps : pset).
Definition unknown_name (p : primitive) : Prop :=
  forall q, In q (prims_of ps DATA) \/ In q (prims_of ps PREDICTION) -> p_name q <> p_name p.
Definition unknown_term (t : terminal) : Prop :=
  forall u, In u (terms_of ps (t_ident t)) -> term_text u <> term_text t.

Lemma build_nodes_bad strict todo : forall d s,
  Forall (step_readable ps0) todo ->
  Exists (fun x => unknown_name (fst x) \/ Exists unknown_term (snd x)) todo ->
  exists e s', build_nodes ps strict (map item todo) d s = (Err e, s') /\
    (e = IndexError \/ e = RuntimeError \/ (strict = true /\ e = ValueError)).
Proof.
  induction todo as [|[p ts] todo IH]; intros d s R X; [inversion X|].
  inversion R as [|? ? [Rp Rt] R']; subst. cbn [map item fst snd build_nodes] in *. unfold mbind, mlift.
  destruct (find_primitive ps (p_name p)) as [q|e] eqn:EP.
  2: { exists e, s. split; auto. unfold find_primitive in EP. destruct (find _ _); [discriminate|]. left. congruence. }
  destruct (parse_terminals ps (arguments ts)) as [l|e] eqn:ET.
  2: { exists e, s. split; auto. right. left. eapply parse_terminals_err; eauto. }
  destruct (_ && strict) eqn:EM.
  { exists ValueError, s. split; auto. right. right. apply andb_true_iff in EM. intuition. }
  rewrite new_node_ok. inversion X as [? ? [U|U]|? ? X']; subst.
  - rewrite find_primitive_unknown in EP; [discriminate|exact U].
  - rewrite (parse_terminals_unknown ps0) in ET; [discriminate| |]; auto.
  - apply IH; auto.
Qed.
End Other.

Lemma from_string_text ps0 ps strict ss s : Forall (step_readable ps0) ss ->
  individual_from_string (text ss) ps strict s =
  mbind (build_nodes ps strict (map item (rev ss)) DData)
    (fun d => match d with DRef l => new_individual l | DData => mraise (OtherError 0) end) s.
Proof.
  intros R. destruct (items_of_text ps0 ss R) as (rest & E1 & E2).
  unfold individual_from_string, node_from_string. rewrite E1, E2. reflexivity.
Qed.

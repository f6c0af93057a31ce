From Verif Require Import Base Gp_Model Str_Model Data_Model Misc_Model Misc_Spec Data_Proofs2.
From Verif Require Str_Proofs Log_Proofs Log_Proofs3.
From Verif Require Import Str_Spec.
Open Scope string_scope.
Open Scope list_scope.

(** hyperparameters *)
Definition eff (s d : pyval) : pyval := if is_none s then d else s.
Lemma hp_in : forall h n s d, NoDup (map fst h) -> In (n, (s, d)) h -> hp h n = Some (eff s d).
Proof.
  unfold hp. induction h as [|[m [s' d']] h IH]; intros n s d ND I; simpl in *; [tauto|]. inversion ND as [|? ? N ND']; subst.
  destruct I as [E | I].
  - injection E as <- <- <-. rewrite String.eqb_refl. reflexivity.
  - destruct (String.eqb_spec n m) as [->|]; [exfalso; apply N; apply in_map_iff; exists (m, (s, d)); auto|]. apply IH; auto.
Qed.
Lemma overwrite_ok : forall h n v h', overwrite n v h = Ok h' -> map fst h' = map fst h /\
  forall m s d, NoDup (map fst h) -> In (m, (s, d)) h -> In (m, (s, if String.eqb m n then v else d)) h'.
Proof.
  induction h as [|[m [s d]] h IH]; intros n v h' E; simpl in E; [discriminate|].
  destruct (String.eqb_spec n m) as [->|N].
  - injection E as <-. split; [reflexivity|]. intros m' s' d' ND [E | I].
    + injection E as <- <- <-. rewrite String.eqb_refl. left. reflexivity.
    + inversion ND as [|? ? NI ND']; subst. destruct (String.eqb_spec m' m) as [->|]; [exfalso; apply NI; apply in_map_iff; exists (m, (s', d')); auto|]. right. exact I.
  - destruct (overwrite n v h) as [r|] eqn:R; [|discriminate]. injection E as <-. destruct (IH _ _ _ R) as (A & B). split; [simpl; f_equal; exact A|].
    intros m' s' d' ND [E | I].
    + injection E as <- <- <-. destruct (String.eqb_spec m n) as [->|]; [congruence|]. left. reflexivity.
    + right. apply B; auto. inversion ND; auto.
Qed.
Lemma overwrites_ok : forall ops h h', overwrites ops h = Ok h' -> NoDup (map fst h) -> map fst h' = map fst h /\
  forall m s d, In (m, (s, d)) h -> In (m, (s, last_set m ops d)) h'.
Proof.
  induction ops as [|[n v] ops IH]; intros h h' E ND; simpl in E; [injection E as <-; auto|].
  destruct (overwrite n v h) as [h1|] eqn:E1; [|discriminate]. destruct (overwrite_ok _ _ _ _ E1) as (A & B).
  assert (ND1 : NoDup (map fst h1)) by (rewrite A; auto). destruct (IH _ _ E ND1) as (A' & B'). split; [congruence|].
  intros m s d I. apply (B m s d ND) in I. apply B' in I. exact I.
Qed.
Lemma precedence h ops h' n s d : NoDup (map fst h) -> In (n, (s, d)) h -> overwrites ops h = Ok h' -> hp h' n = Some (effective s d n ops).
Proof.
  intros ND I E. destruct (overwrites_ok _ _ _ E ND) as (A & B). apply B in I. rewrite (hp_in _ _ _ _ (eq_ind_r (fun l => NoDup l) ND A) I).
  destruct s; reflexivity.
Qed.
Lemma overwrite_unknown : forall h n v, ~ In n (map fst h) -> overwrite n v h = Err KeyError.
Proof.
  induction h as [|[m [s d]] h IH]; intros n v N; simpl in *; auto. destruct (String.eqb_spec n m) as [->|]; [tauto|]. rewrite IH; auto.
Qed.

(** metrics *)
Lemma mem_in s l : mem s l = true <-> In s l.
Proof.
  unfold mem. rewrite existsb_exists. split; [intros (x & I & E); apply String.eqb_eq in E; subst; exact I|]. intros I. exists s. split; auto. apply String.eqb_refl.
Qed.
Lemma names_c : classification_metrics = classification_names. Proof. reflexivity. Qed.
Lemma names_r n : In n regression_metrics <-> In n regression_names.
Proof. unfold regression_metrics, regression_names. cbn [In]. tauto. Qed.
Lemma names_apart n : In n regression_names -> ~ In n classification_names.
Proof.
  assert (H : forallb (fun n => negb (mem n classification_names)) regression_names = true) by reflexivity.
  rewrite forallb_forall in H. intros I C. apply H in I. apply mem_in in C. rewrite C in I. discriminate.
Qed.
Lemma metric_of_name_ok scorers n : known scorers n -> exists m, metric_of_name scorers n = Ok m.
Proof.
  intros (I & K). unfold metric_of_name. destruct (find _ scorers) as [[n' p]|] eqn:F.
  - destruct (mem n classification_metrics) eqn:C; [eauto|]. destruct (mem n regression_metrics) eqn:R; [eauto|].
    exfalso. rewrite <- names_c, <- names_r in K. destruct K as [K|K]; apply mem_in in K; congruence.
  - exfalso. apply in_map_iff in I. destruct I as ((n' & p) & E & I). simpl in E. subst n'. apply (find_none _ _ F) in I. simpl in I. rewrite String.eqb_refl in I. discriminate.
Qed.
Lemma metric_of_name_bad scorers n : ~ known scorers n -> metric_of_name scorers n = Err ValueError.
Proof.
  intros K. unfold metric_of_name. destruct (find _ scorers) as [[n' p]|] eqn:F; auto. apply find_some in F. destruct F as (I & E). simpl in E. apply String.eqb_eq in E. subst n'.
  destruct (mem n classification_metrics) eqn:C; [exfalso; apply K; split; [apply in_map_iff; exists (n, p); auto|left; rewrite <- names_c; apply mem_in; exact C]|].
  destruct (mem n regression_metrics) eqn:R; [exfalso; apply K; split; [apply in_map_iff; exists (n, p); auto|right; apply names_r, mem_in; exact R]|]. reflexivity.
Qed.
Lemma nodup_pair (scorers : list (string * bool)) n p q : NoDup (map fst scorers) -> In (n, p) scorers -> In (n, q) scorers -> p = q.
Proof.
  induction scorers as [|[m b] l IH]; intros ND I J; [destruct I|]. inversion ND as [|? ? NI ND']; subst.
  destruct I as [I|I], J as [J|J].
  - congruence.
  - injection I as -> ->. exfalso. apply NI. apply in_map_iff. exists (n, q). auto.
  - injection J as -> ->. exfalso. apply NI. apply in_map_iff. exists (n, p). auto.
  - auto.
Qed.
Lemma metric_of_name_is scorers n m : metric_of_name scorers n = Ok m -> is_metric_of scorers (IName n) m.
Proof.
  unfold metric_of_name. destruct (find _ scorers) as [[n' p]|] eqn:F; [|discriminate].
  apply find_some in F. destruct F as (I & E). cbn [fst] in E. apply String.eqb_eq in E. subst n'.
  assert (P : NoDup (map fst scorers) -> (p || String.eqb n "roc_auc" = true <-> n = "roc_auc" \/ In (n, true) scorers)).
  { intros ND. rewrite orb_true_iff, String.eqb_eq. split; [intros [-> | ->]; auto|]. intros [-> | J]; auto. left. eapply nodup_pair; eauto. }
  destruct (mem n classification_metrics) eqn:C.
  - intros E. injection E as <-. unfold is_metric_of; cbn [m_name m_task m_proba]. apply mem_in in C. rewrite names_c in C.
    split; [reflexivity|]. split; [tauto|]. split; [|exact P]. split; [discriminate|]. intros R. destruct (names_apart _ R C).
  - destruct (mem n regression_metrics) eqn:R; [|discriminate]. intros E. injection E as <-. unfold is_metric_of; cbn [m_name m_task m_proba]. apply mem_in, names_r in R.
    assert (N : ~ In n classification_names) by (apply names_apart; auto). split; [reflexivity|]. split; [split; [discriminate|tauto]|]. split; [tauto|exact P].
Qed.
Lemma items_ok scorers l : Forall (good_item scorers) l -> exists ms, rmap (item_metric scorers) l = Ok ms /\ Forall2 (is_metric_of scorers) l ms.
Proof.
  induction l as [|i l IH]; intros H; [exists []; split; auto|]. inversion H as [|? ? G F]; subst. destruct (IH F) as (ms & E & F2).
  destruct i as [n|m|]; [|exists (m :: ms)|destruct G].
  - destruct (metric_of_name_ok _ _ G) as (m & M). exists (m :: ms). split; [simpl; rewrite M; simpl; rewrite E; reflexivity|]. constructor; auto. apply (metric_of_name_is _ _ _ M).
  - split; [simpl; rewrite E; reflexivity|]. constructor; auto. reflexivity.
Qed.
Lemma good_item_ok scorers l : Forall (good_item scorers) l -> forallb item_ok l = true.
Proof. intros F. apply forallb_forall. intros i I. rewrite Forall_forall in F. specialize (F i I). destruct i; auto. Qed.

(** search space *)
Definition keepb {B} (p : key * B) : bool := match fst p with KClass _ true (Ok false) => false | _ => true end.
Lemma keep_filter {B} : forall (l l' : list (key * B)), keep_proba l = Ok l' -> l' = filter keepb l /\
  forall k v, In (k, v) l' -> forall id new, k = KClass id true new -> new = Ok true.
Proof.
  induction l as [|[k v] l IH]; intros l' E; [injection E as <-; split; [reflexivity|simpl; tauto]|]. cbn [keep_proba] in E. cbn [filter].
  destruct (lacks_proba k) as [b|] eqn:L; [|discriminate]. simpl in E. destruct (keep_proba l) as [r|] eqn:R; [|discriminate]. simpl in E. injection E as <-.
  destruct (IH r eq_refl) as (A & B'). subst r.
  assert (K : keepb (k, v) = negb b).
  { unfold keepb, lacks_proba in *. simpl. destruct k as [s|id [|] new]; try (injection L as <-; reflexivity). destruct new as [[|]|]; simpl in L; try discriminate; injection L as <-; reflexivity. }
  rewrite K. destruct b; simpl; split; auto.
  intros k' v' [E | I] id new N; [|eapply B'; eauto]. injection E as -> ->. subst k'. simpl in L. destruct new as [[|]|]; simpl in L; try discriminate. reflexivity.
Qed.
Lemma keep_total {B} : forall (l : list (key * B)), (forall id e v, ~ In (KClass id true (Err e), v) l) -> exists l', keep_proba l = Ok l'.
Proof.
  induction l as [|[k v] l IH]; intros H; [exists []; reflexivity|]. destruct IH as (r & R); [intros id e v' I; apply (H id e v'); right; exact I|].
  simpl. rewrite R. destruct k as [s|id [|] new]; simpl; eauto. destruct new as [b|e]; simpl; eauto. exfalso. apply (H id e v). left. reflexivity.
Qed.

(** export *)
Lemma enum_from_map {A B} (f : A -> B) : forall l i, map (fun ip => (fst ip, f (snd ip))) (enum_from i l) = enum_from i (map f l).
Proof. induction l as [|x l IH]; intros i; simpl; auto. f_equal. apply IH. Qed.
Lemma dset_new d k v : ~ In k (map fst d) -> dset k v d = d ++ [(k, v)].
Proof.
  induction d as [|[k' v'] d IH]; intros N; simpl in *; auto. destruct (String.eqb_spec k k') as [->|]; [tauto|]. f_equal. apply IH. tauto.
Qed.
Lemma dict_fold : forall l d, NoDup (map fst d ++ map fst l) -> fold_left (fun d p => dset (fst p) (snd p) d) l d = d ++ l.
Proof.
  induction l as [|[k v] l IH]; intros d ND; simpl; [rewrite app_nil_r; reflexivity|]. simpl in ND.
  rewrite dset_new by (apply NoDup_remove_2 in ND; rewrite in_app_iff in ND; tauto).
  rewrite IH; [rewrite <- app_assoc; reflexivity|]. rewrite map_app. simpl. rewrite <- app_assoc. exact ND.
Qed.
Lemma dict_nodup l : NoDup (map fst l) -> dict_of l = l.
Proof. intros ND. unfold dict_of. rewrite dict_fold; auto. Qed.
Lemma node_text n : NoDup (map t_output (snd n)) -> est_text (node_to_est n) = str_nonrecursive n.
Proof.
  intros ND. unfold node_to_est, est_text, str_nonrecursive. rewrite dict_nodup by (rewrite map_map; exact ND). rewrite map_map. reflexivity.
Qed.
Lemma texts_of_nodes i : distinct_args i -> step_texts (pipeline i) = fixed_texts (b_pre i) ++ map (fun ip => (str_of_nat (fst ip), str_nonrecursive (snd ip))) (rev (enumerate (b_nodes i))).
Proof.
  intros D. unfold pipeline, compile, step_texts. rewrite rev_app_distr, rev_involutive, map_app. f_equal.
  - rewrite map_map. reflexivity.
  - rewrite <- map_rev, map_map. apply map_ext_in. intros [j n] I. simpl. f_equal. apply node_text.
    unfold distinct_args in D. rewrite Forall_forall in D. apply D. apply in_rev in I. unfold enumerate in I. revert I. generalize 0. induction (b_nodes i) as [|x l IH]; intros k I; [destruct I|].
    simpl in I. destruct I as [E | I]; [injection E as _ <-; left; reflexivity|]. right. eapply IH; [|exact I].
    intros y Hy. apply D. right. exact Hy.
Qed.
Lemma combine_fixed l : combine (map fst l) (map (fun p => tr_str (snd p)) l) = fixed_texts l.
Proof. induction l as [|[n t] l IH]; simpl; auto. f_equal. exact IH. Qed.
Lemma applied_texts enc i : distinct_args i -> step_texts (applied enc i) = fixed_texts (enc ++ b_pre i) ++ map (fun ip => (str_of_nat (fst ip), str_nonrecursive (snd ip))) (rev (enumerate (b_nodes i))).
Proof.
  intros D. unfold applied, step_texts. rewrite map_app. fold (step_texts (pipeline i)). rewrite (texts_of_nodes i D). unfold fixed_texts. rewrite map_app, <- app_assoc. f_equal. rewrite map_map. reflexivity.
Qed.
(** imports *)
Lemma join_snoc sep l x : l <> [] -> join sep (l ++ [x]) = (join sep l ++ sep ++ x)%string.
Proof.
  induction l as [|y l IH]; intros N; [congruence|]. destruct l as [|z l]; [reflexivity|].
  change (join sep ((y :: z :: l) ++ [x])) with (y ++ sep ++ join sep ((z :: l) ++ [x]))%string. rewrite IH by discriminate.
  change (join sep (y :: z :: l)) with (y ++ sep ++ join sep (z :: l))%string. rewrite !Data_Proofs2.append_assoc. reflexivity.
Qed.
Lemma starts_underscore s : starts_with "_" s = true <-> exists r, s = ("_" ++ r)%string.
Proof.
  destruct s as [|c s]; cbn [starts_with].
  - split; [discriminate|intros (r & E); discriminate].
  - destruct (Ascii.eqb_spec (Ascii.ascii_of_nat 95) c) as [<-|N].
    + split; [exists s; reflexivity|]. intros _. destruct s; reflexivity.
    + change (Ascii.ascii_of_nat 95) with (Ascii.Ascii true true true true true false true false) in N.
      destruct (Ascii.eqb_spec (Ascii.Ascii true true true true true false true false) c); [congruence|]. split; [discriminate|]. intros (r & E). injection E as -> _. congruence.
Qed.
Lemma no_dot_pieces m : Forall (fun x => ~ contains "." x) (split "." m).
Proof. apply Forall_forall. intros x I. exact (Log_Proofs.split_piece_char _ _ _ I). Qed.
Lemma split_private p rest : ~ contains "." rest -> split "." (p ++ "._" ++ rest)%string = split "." p ++ [("_" ++ rest)%string].
Proof.
  intros N. change ("._" ++ rest)%string with (String (Ascii.ascii_of_nat 46) (String (Ascii.ascii_of_nat 95) rest)). apply Log_Proofs3.split_last.
  intros C. change (String (Ascii.ascii_of_nat 95) rest) with ("_" ++ rest)%string in C. apply Str_Proofs.contains_app_char in C. destruct C as [C|C]; auto.
  apply Str_Proofs.contains_char_in in C. discriminate.
Qed.
Lemma split_nn m : split "." m <> []. Proof. apply Str_Proofs.split_nonempty. Qed.
Lemma import_ok m c : ~ top_private m -> imports_class (m, c) (format_import m c).
Proof.
  intros T. unfold imports_class, format_import. cbn [fst snd].
  pose proof (Log_Proofs3.join_split (Ascii.ascii_of_nat 46) m) as J. pose proof (no_dot_pieces m) as D. pose proof (split_nn m) as N.
  change (String (Ascii.ascii_of_nat 46) "") with "." in J. set (l := split "." m) in *. pose proof (app_removelast_last "" N) as L.
  assert (DL : ~ contains "." (last l "")). { rewrite Forall_forall in D. apply D. rewrite L at 2. apply in_or_app. right. left. reflexivity. }
  destruct (starts_with "_" (last l "")) eqn:S.
  - apply starts_underscore in S. destruct S as (r & R). exists (join "." (removelast l)). split; [reflexivity|]. left. exists r.
    assert (Nr : ~ contains "." r). { intros (a & b & K). apply DL. rewrite R, K. exists ("_" ++ a)%string, b. reflexivity. }
    split; [|exact Nr]. assert (RN : removelast l <> []).
    { intros E. apply T. exists r. split; [|exact Nr]. rewrite <- J, L, E, R. reflexivity. }
    rewrite <- J at 1. rewrite L at 1. rewrite join_snoc by exact RN. rewrite R. reflexivity.
  - exists m. split; [reflexivity|]. right. split; [reflexivity|]. intros (p & rest & E & Nr).
    assert (X : l = split "." p ++ [("_" ++ rest)%string]) by (unfold l; rewrite E; apply split_private; exact Nr).
    rewrite X, last_last in S. cbn in S. destruct rest; discriminate.
Qed.
Lemma import_top m c : top_private m -> format_import m c = ("from  import " ++ c)%string.
Proof.
  intros (r & -> & N). unfold format_import. rewrite Str_Proofs.split_none.
  - cbn. destruct r; reflexivity.
  - intros C. apply Str_Proofs.contains_app_char in C. destruct C as [C|C]; auto. apply Str_Proofs.contains_char_in in C. discriminate.
Qed.
Lemma format_pipeline_text steps name : format_pipeline steps name = pipeline_text name steps. Proof. reflexivity. Qed.
Lemma est_import_class cm e : est_import cm e = format_import (fst (est_class cm e)) (snd (est_class cm e)).
Proof. destruct e; reflexivity. Qed.
Section E.
Context (cm : nat -> string) (vm : value -> string).
Lemma export_shape order enc i : distinct_args i -> reorders order ->
  exists imports,
    export_script cm vm order true (Some i) (Some enc) (b_pre i) =
      Ok (join "
" imports ++ "

" ++ pipeline_text "pipeline" (step_texts (applied enc i)))%string /\
    (forall s, In s (applied enc i) -> In (est_import cm (snd s)) imports) /\
    (forall n t, In n (b_nodes i) -> In t (snd n) -> forall x, In x (callable_import vm t) -> In x imports) /\
    In "from numpy import nan" imports /\ In "from sklearn.pipeline import Pipeline" imports.
Proof.
  intros D O. unfold export_script, best_fit_code. destruct (imports_and_steps cm vm i) as [im st] eqn:IS. unfold imports_and_steps in IS. injection IS as IM ST.
  eexists. split; [rewrite (applied_texts enc i D), combine_fixed, ST, format_pipeline_text; reflexivity|]. subst im.
  assert (M : forall l x, In x (as_set order l) <-> In x l). { intros l x. unfold as_set. rewrite (O (nodup string_dec l) x). apply nodup_In. }
  repeat split; intros; rewrite M.
  - unfold applied in H. apply in_app_or in H. apply in_or_app. destruct H as [H|H].
    + right. apply in_map_iff in H. destruct H as ((n & t) & E & H). subst s. simpl. apply in_map_iff. exists (n, t). split; auto. apply in_or_app. left. exact H.
    + left. right. right. apply in_or_app. left. apply in_map_iff. exists s. auto.
  - apply in_or_app. left. right. right. apply in_or_app. right. apply in_flat_map.
    assert (exists j, In (j, n) (enumerate (b_nodes i))) as (j & J).
    { clear -H. unfold enumerate. generalize 0. induction (b_nodes i) as [|y l IH]; [destruct H|]. intros k. destruct H as [<- | H]; [exists k; left; reflexivity|]. destruct (IH H (S k)) as (j & J). exists j. right. exact J. }
    exists (j, n). split; [apply -> in_rev; exact J|]. simpl. apply in_flat_map. exists t. auto.
  - simpl. auto.
  - simpl. auto.
Qed.
End E.
Lemma created_first ext : forall i, created ext [] i -> b_pre i = ext.
Proof. intros i H. induction H as [i I|ns|i ns H IH]; [destruct I|reflexivity|exact IH]. Qed.
Lemma created_same ext start : Forall (fun i => b_pre i = ext) start -> forall i, created ext start i -> b_pre i = ext.
Proof. intros F i H. induction H as [i I|ns|i ns H IH]; [rewrite Forall_forall in F; auto|reflexivity|exact IH]. Qed.

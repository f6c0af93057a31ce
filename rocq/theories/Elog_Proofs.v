(** Proofs about the evaluation logger. *)
From Verif Require Import Base Gp_Model Str_Model Misc_Model Log_Model Log_Spec Elog_Model Elog_Spec.
Require Import Lia.
Open Scope list_scope.
Open Scope nat_scope.

Lemma app_str_assoc a b c : ((a ++ b) ++ c = a ++ (b ++ c))%string.
Proof. induction a; simpl; congruence. Qed.
Lemma app_str_nil a : (a ++ "" = a)%string.
Proof. induction a; simpl; congruence. Qed.

Section P.
Context (strftime : nat -> string) (str_of : obj -> string) (call : obj -> res obj).
Notation do_call := (do_call strftime str_of call).
Notation do_calls := (do_calls strftime str_of call).
Notation log_ev := (log_evaluation_of strftime str_of).
Notation row_for := (row_for strftime str_of).

Lemma format_shown v : shown strftime str_of v (format_cell strftime str_of v).
Proof. destruct v; simpl; constructor. Qed.
Lemma shown_format v s : shown strftime str_of v s -> s = format_cell strftime str_of v.
Proof. intros H. destruct H; reflexivity. Qed.

Lemma rmap_row cols e vs : rmap (fun kv : string * getter => snd kv e) cols = Ok vs ->
  row_for cols e (map (format_cell strftime str_of) vs).
Proof.
  revert vs. induction cols as [|c cols IH]; intros vs; cbn [rmap].
  - intros E. inversion E. constructor.
  - destruct (snd c e) as [v|x] eqn:Ec; cbn; [|discriminate].
    destruct (rmap _ cols) as [ws|x] eqn:Er; cbn; [|discriminate]. intros E. inversion E; subst.
    constructor; [exists v; split; auto; apply format_shown|]. apply IH. reflexivity.
Qed.
Lemma row_rmap cols e row : row_for cols e row ->
  exists vs, rmap (fun kv : string * getter => snd kv e) cols = Ok vs /\ row = map (format_cell strftime str_of) vs.
Proof.
  intros H. induction H as [|c s cols row (v & Ev & S) _ (vs & E & ->)].
  - exists []. auto.
  - exists (v :: vs). simpl. rewrite Ev. cbn. rewrite E. cbn. apply shown_format in S. subst. auto.
Qed.
Lemma rmap_no_row cols e x : rmap (fun kv : string * getter => snd kv e) cols = Err x -> no_row_for cols e.
Proof.
  induction cols as [|c cols IH]; cbn [rmap]; [discriminate|].
  destruct (snd c e) as [v|y] eqn:Ec; cbn.
  - destruct (rmap _ cols) as [ws|y] eqn:Er; cbn; [discriminate|]. intros E. inversion E; subst. right. apply IH. reflexivity.
  - intros _. left. eauto.
Qed.
Lemma rmap_first pre k g post e x :
  Forall (fun c : string * getter => exists v, snd c e = Ok v) pre -> g e = Err x ->
  rmap (fun kv : string * getter => snd kv e) (pre ++ (k, g) :: post) = Err x.
Proof.
  intros F E. induction F as [|c pre (v & Ev) _ IH]; simpl.
  - cbn. rewrite E. reflexivity.
  - rewrite Ev. cbn. rewrite IH. reflexivity.
Qed.

Lemma set_nth_length {A} i (x : A) l : length (set_nth i x l) = length l.
Proof. revert i. induction l; intros [|i]; simpl; auto. Qed.
Lemma set_nth_same {A} i (x d : A) l : i < length l -> nth i (set_nth i x l) d = x.
Proof. revert i. induction l; intros [|i]; simpl; intros; auto; try lia. apply IHl. lia. Qed.
Lemma set_nth_other {A} i j (x d : A) l : i <> j -> nth j (set_nth i x l) d = nth j l d.
Proof. revert i j. induction l; intros [|i] [|j]; simpl; intros; auto; try lia. Qed.

(** * The invariant of one table *)
Section Table.
Context (path sep : string) (i d : nat) (cols : dict).
Definition inv (w : world) : Prop :=
  nth_error (w_loggers w) i = Some (mkLogger path sep d) /\
  (forall j l, nth_error (w_loggers w) j = Some l -> j <> i -> l_path l <> path) /\
  d < length (w_dicts w) /\ nth d (w_dicts w) [] = cols.

Lemma write_other p q c fs : q <> p -> write_file p c fs q = fs q.
Proof. intros H. unfold write_file. destruct (String.eqb_spec q p); congruence. Qed.
Lemma write_same p c fs : write_file p c fs p = c.
Proof. unfold write_file. rewrite String.eqb_refl. reflexivity. Qed.

Lemma calls_table cs : forall w, inv w -> Forall (leaves_alone path d) cs ->
  exists rows, rows_logged strftime str_of i cols cs rows /\
    w_files (do_calls w cs) path = (w_files w path ++ table_text sep rows)%string.
Proof.
  induction cs as [|c cs IH]; intros w I A.
  { exists []. split; [constructor|]. simpl. rewrite app_str_nil. reflexivity. }
  inversion A as [|? ? Ac A']; subst. destruct I as (IL & IO & ID & IC).
  change (do_calls w (c :: cs)) with (do_calls (do_call w c) cs).
  destruct c as [nd|p s f x|j e].
  - destruct (IH (do_call w (NewDict nd))) as (rows & R & E); auto.
    { split; [exact IL|split; [exact IO|]]. simpl. rewrite app_length. split; [lia|]. rewrite app_nth1; auto. }
    exists rows. split; [apply rl_other; [discriminate|auto]|exact E].
  - destruct Ac as [NP NX].
    destruct (IH (do_call w (NewLogger p s f x))) as (rows & R & E); auto.
    { unfold inv. cbn [Elog_Model.do_call]. unfold new_logger.
      destruct f as [d'|]; cbn [w_loggers w_dicts].
      - split; [rewrite nth_error_app1; auto; apply nth_error_Some; congruence|]. split.
        { intros j l Hj Hn. destruct (Nat.lt_ge_cases j (length (w_loggers w))).
          - rewrite nth_error_app1 in Hj by auto. eauto.
          - rewrite nth_error_app2 in Hj by auto. destruct (j - length (w_loggers w)) as [|k]; simpl in Hj.
            + inversion Hj; subst. exact NP.
            + destruct k; discriminate. }
        destruct x as [x|]; [|split; auto].
        rewrite set_nth_length. split; auto. rewrite set_nth_other; auto.
        intros ->. specialize (NX eq_refl). discriminate.
      - split; [rewrite nth_error_app1; auto; apply nth_error_Some; congruence|]. split.
        { intros j l Hj Hn. destruct (Nat.lt_ge_cases j (length (w_loggers w))).
          - rewrite nth_error_app1 in Hj by auto. eauto.
          - rewrite nth_error_app2 in Hj by auto. destruct (j - length (w_loggers w)) as [|k]; simpl in Hj.
            + inversion Hj; subst. exact NP.
            + destruct k; discriminate. }
        destruct x as [x|].
        + rewrite set_nth_length, app_length. split; [lia|]. rewrite set_nth_other by lia. rewrite app_nth1; auto.
        + rewrite app_length. split; [lia|]. rewrite app_nth1; auto. }
    exists rows. split; [apply rl_other; [discriminate|auto]|]. rewrite E. f_equal.
    cbn [Elog_Model.do_call]. unfold new_logger. destruct f; cbn [w_files]; apply write_other; congruence.
  - cbn [Elog_Model.do_call]. destruct (Nat.eq_dec j i) as [->|NJ].
    + rewrite IL. unfold log_evaluation_of. cbn [l_fields l_path l_sep]. rewrite IC.
      match goal with |- context [rmap ?f cols] => destruct (rmap f cols) as [vs|x] eqn:Er end; cbn [snd].
      * match goal with |- context [do_calls ?w1 cs] => destruct (IH w1) as (rows & R & E); auto end.
        { split; [exact IL|split; [exact IO|split; auto]]. }
        exists (map (format_cell strftime str_of) vs :: rows). split.
        { apply rl_row; auto. apply rmap_row; auto. }
        rewrite E. cbn [w_files]. rewrite write_same. unfold log_line. cbn [table_text]. unfold line.
        rewrite !app_str_assoc. reflexivity.
      * destruct (IH w) as (rows & R & E); auto. { split; auto. }
        exists rows. split; [apply rl_none; auto; eapply rmap_no_row; eauto|exact E].
    + destruct (nth_error (w_loggers w) j) as [l|] eqn:Ej.
      * unfold log_evaluation_of. match goal with |- context [rmap ?f ?g] => destruct (rmap f g) as [vs|x] end; cbn [snd].
        -- match goal with |- context [do_calls ?w1 cs] => destruct (IH w1) as (rows & R & E); auto end.
           { split; [exact IL|split; [exact IO|split; auto]]. }
           exists rows. split; [apply rl_other; [congruence|auto]|]. rewrite E. cbn [w_files].
           rewrite write_other; auto. apply not_eq_sym. eauto.
        -- destruct (IH w) as (rows & R & E); auto. { split; auto. }
           exists rows. split; [apply rl_other; [congruence|auto]|exact E].
      * destruct (IH w) as (rows & R & E); auto. { split; auto. }
        exists rows. split; [apply rl_other; [congruence|auto]|exact E].
Qed.
End Table.
End P.

Lemma dict_nth (l : list dict) k : k < length l -> nth_error l k = Some (nth k l []).
Proof. apply nth_error_nth'. Qed.
Lemma nth_dict (l : list dict) k d : nth_error l k = Some d -> nth k l [] = d.
Proof. apply nth_error_nth. Qed.

(** * Updating a dictionary *)
Lemma dict_set_names k v d :
  map fst (dict_set k v d) = if existsb (String.eqb k) (map fst d) then map fst d else map fst d ++ [k].
Proof.
  induction d as [|[k' w] d IH]; simpl; auto. rewrite (String.eqb_sym k k').
  destruct (String.eqb k' k); simpl; auto. rewrite IH. destruct (existsb _ _); reflexivity.
Qed.
Lemma dict_set_lookup k v d q : lookup q (dict_set k v d) = if String.eqb k q then Some v else lookup q d.
Proof.
  induction d as [|[k' w] d IH]; simpl; [destruct (String.eqb k q); reflexivity|].
  destruct (String.eqb_spec k' k).
  - subst. simpl. destruct (String.eqb k q); reflexivity.
  - simpl. rewrite IH. destruct (String.eqb_spec k' q), (String.eqb_spec k q); congruence.
Qed.
Lemma dict_set_nodup k v d : NoDup (map fst d) -> NoDup (map fst (dict_set k v d)).
Proof.
  intros H. rewrite dict_set_names. destruct (existsb _ _) eqn:E; auto.
  clear -H E. induction (map fst d) as [|x l IH]; simpl in *; [constructor; auto; constructor|].
  apply orb_false_iff in E as [E1 E2]. inversion H; subst. constructor; auto.
  intros X. apply in_app_or in X as [X|[X|[]]]; auto. subst. rewrite String.eqb_refl in E1. discriminate.
Qed.

Lemma lookup_in {A} k (l : list (string * A)) v : lookup k l = Some v -> In k (map fst l).
Proof.
  induction l as [|[k' w] l IH]; simpl; [discriminate|]. destruct (String.eqb_spec k' k); auto.
Qed.
Lemma lookup_none {A} k (l : list (string * A)) : ~ In k (map fst l) -> lookup k l = None.
Proof.
  intros H. destruct (lookup k l) eqn:E; auto. apply lookup_in in E. tauto.
Qed.
Lemma dict_update_lookup e : forall d q, NoDup (map fst e) ->
  lookup q (dict_update d e) = match lookup q e with Some v => Some v | None => lookup q d end.
Proof.
  unfold dict_update. induction e as [|[k v] e IH]; intros d q N; [reflexivity|].
  cbn [fold_left map fst snd] in *. inversion N as [|? ? N1 N2]; subst. rewrite IH by auto. cbn [lookup].
  rewrite dict_set_lookup. destruct (String.eqb_spec k q); subst; auto.
  rewrite (lookup_none q e); auto.
Qed.
Lemma existsb_in k l : existsb (String.eqb k) l = true <-> In k l.
Proof.
  rewrite existsb_exists. split.
  - intros (x & H & E). apply String.eqb_eq in E. subst. auto.
  - intros H. exists k. rewrite String.eqb_refl. auto.
Qed.
Lemma dict_update_names e : forall d, NoDup (map fst e) ->
  map fst (dict_update d e) =
  map fst d ++ filter (fun k => negb (existsb (String.eqb k) (map fst d))) (map fst e).
Proof.
  unfold dict_update. induction e as [|[k v] e IH]; intros d N.
  { simpl. rewrite app_nil_r. reflexivity. }
  cbn [fold_left map fst snd filter] in *. inversion N as [|? ? N1 N2]; subst. rewrite IH by auto. rewrite dict_set_names.
  destruct (existsb (String.eqb k) (map fst d)) eqn:E; cbn [negb]; [reflexivity|].
  rewrite <- app_assoc. cbn [app]. do 2 f_equal. apply filter_ext_in. intros q Hq.
  rewrite existsb_app. cbn [existsb]. destruct (String.eqb_spec q k); [subst; tauto|]. rewrite !orb_false_r. reflexivity.
Qed.
Lemma dict_update_nodup e : forall d, NoDup (map fst d) -> NoDup (map fst (dict_update d e)).
Proof.
  unfold dict_update. induction e as [|[k v] e IH]; intros d N; auto. cbn [fold_left]. apply IH. apply dict_set_nodup. auto.
Qed.

(** * Attributes *)
Lemma getattrs_reaches o path v : reaches o path v -> getattrs o path = Ok v.
Proof.
  intros H. induction H as [|s attrs a v path o L _ IH]; [reflexivity|]. cbn [getattrs]. unfold getattr. rewrite L. exact IH.
Qed.
Lemma reaches_getattrs path : forall o v, getattrs o path = Ok v -> reaches o path v.
Proof.
  induction path as [|a path IH]; intros o v; cbn [getattrs].
  - intros E. inversion E. constructor.
  - unfold getattr. destruct o; cbn; try discriminate. destruct (lookup a attrs) eqn:L; cbn; [|discriminate].
    intros E. econstructor; eauto.
Qed.
Lemma getattrs_err path : forall o x, getattrs o path = Err x -> x = AttributeError.
Proof.
  induction path as [|a path IH]; intros o x; cbn [getattrs]; [discriminate|].
  unfold getattr. destruct o; cbn; try congruence. destruct (lookup a attrs); cbn; [eauto|congruence].
Qed.

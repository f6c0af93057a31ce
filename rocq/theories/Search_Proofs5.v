(** In which order ASHA starts the given candidates. *)
From Verif Require Import Base Num Nsga_Model Search_Model Search_Spec Search_Proofs Search_Proofs3 Search_Proofs4.
Open Scope nat_scope.

Section Order.
Context (o : ops) (eta : nat) (min_res max_res : Q) (first_rung : nat) (max_rung : Z) (start : nat) (l0 : list ind).
Definition order (L : list (list ind)) (bottom : list ind) : Prop :=
  start < length L /\ exists rest, bottom ++ rev (nth start L []) = rev l0 ++ rest /\ (rest = [] \/ nth start L [] = []).
(** some candidates were started, or all and then others *)
Definition in_order (bottom : list ind) : Prop := (exists k, bottom = firstn k (rev l0)) \/ exists rest, bottom = rev l0 ++ rest.
Definition B (w : world) : Prop := order (w_lists w) (started_on first_rung (w_trace w)) /\ Forall (fun r => first_rung <= r_no r) (w_rungs w).
Definition EB (_ : exn) (w : world) : Prop := in_order (started_on first_rung (w_trace w)).
Lemma order_in L b : order L b -> in_order b.
Proof.
  intros (_ & rest & E & [->|H]).
  - rewrite app_nil_r in E. left. exists (length b). rewrite <- E, firstn_app, Nat.sub_diag, firstn_all. simpl. rewrite app_nil_r. auto.
  - rewrite H in E. simpl in E. rewrite app_nil_r in E. right. eauto.
Qed.
Lemma B_EB e w : B w -> EB e w.
Proof. intros [H _]. eapply order_in; eauto. Qed.
Lemma started_app r t t' : started_on r (t ++ t') = started_on r t ++ started_on r t'.
Proof. apply flat_map_app. Qed.
Lemma b_tick : triple B tick (fun _ => B) EB.
Proof. intros w Hw. unfold tick. destruct (w_stop w) as [[[|j] e]|]; auto. apply (B_EB e w Hw). Qed.
Lemma b_random {A} (f : rng -> res A * rng) : triple B (random f) (fun _ => B) EB.
Proof. intros w Hw. unfold random. destruct (f (w_rng w)) as [[a|e] r]; auto. apply (B_EB e w Hw). Qed.
Lemma b_note x : (match x with TSubmit _ _ _ => False | _ => True end) -> triple B (note x) (fun _ => B) EB.
Proof. intros NS w [H1 H2]. simpl. split; auto. simpl. rewrite started_app. destruct x; simpl in *; try tauto; rewrite app_nil_r; auto. Qed.
Lemma set_rung_first r R : first_rung <= r_no r -> Forall (fun r => first_rung <= r_no r) R -> Forall (fun r => first_rung <= r_no r) (set_rung r R).
Proof. intros H1 H2. unfold set_rung. rewrite Forall_forall in *. intros x Hx. apply in_map_iff in Hx as (y & <- & Hy). destruct (_ =? _); auto. Qed.
(** a job for the lowest rung is in hand *)
Definition B1 (j : ind * nat) (w : world) : Prop :=
  if snd j =? first_rung then
    start < length (w_lists w) /\ (exists rest, started_on first_rung (w_trace w) ++ fst j :: rev (nth start (w_lists w) []) = rev l0 ++ rest /\ (rest = [] \/ nth start (w_lists w) [] = [])) /\
    in_order (started_on first_rung (w_trace w)) /\ Forall (fun r => first_rung <= r_no r) (w_rungs w)
  else B w.
Lemma B1_EB j e w : B1 j w -> EB e w.
Proof. unfold B1. destruct (snd j =? first_rung); [intros (_ & _ & H & _); exact H|apply B_EB]. Qed.
Lemma b_promote : forall l, Forall (fun r => first_rung <= r_no r) l ->
  triple B (promote_from eta l) (fun x w => match x with None => B w | Some j => snd j <> first_rung /\ B w end) EB.
Proof.
  induction l as [|r l IH]; intros F; cbn [promote_from]; [apply t_ret; auto|]. inversion F; subst.
  destruct (_ <? _); [|apply IH; auto]. destruct (not_promoted r) as [|y ys]; [apply IH; auto|].
  eapply t_bind; [apply b_random|intros x].
  eapply t_bind with (R := fun all w => B w /\ Forall (fun r => first_rung <= r_no r) all); [intros w Hw; simpl; split; auto; apply Hw|intros all].
  intros w [Hw HA]. revert w Hw. change (triple B (note (TPromote (r_no r) x (r_inds r) (r_prom r)) ;; put_rungs (set_rung (mkRung (r_no r) (r_inds r) (r_prom r ++ [x])) all) ;; tick ;; ret (Some (snd x, S (r_no r))))
     (fun x w => match x with None => B w | Some j => snd j <> first_rung /\ B w end) EB).
  eapply t_bind; [apply b_note; exact Logic.I|intros ?]. eapply t_bind with (R := fun _ => B).
  { intros w [Hw _]. simpl. split; auto. simpl. apply set_rung_first; auto. }
  intros ?. eapply t_bind; [apply b_tick|intros ?]. apply t_ret. intros w Hw. split; auto. simpl. lia.
Qed.
Lemma b_get_job : triple B (get_job o eta first_rung start) B1 EB.
Proof.
  unfold get_job. eapply t_bind with (R := fun all w => B w /\ Forall (fun r => first_rung <= r_no r) all); [intros w Hw; simpl; split; auto; apply Hw|intros all].
  intros w [Hw HA]. revert w Hw. assert (HT : Forall (fun r => first_rung <= r_no r) (tl all)) by (destruct HA; simpl; auto).
  eapply t_bind; [apply b_promote; auto|]. intros [j|].
  - apply t_ret. intros w [N Hw]. unfold B1. destruct (Nat.eqb_spec (snd j) first_rung); [congruence|auto].
  - eapply t_bind with (R := fun l w => B w /\ l = nth start (w_lists w) []); [intros w Hw; simpl; auto|intros l].
    destruct (rev l) as [|i l'] eqn:ER.
    + assert (l = []) by (destruct l; auto; simpl in ER; destruct (rev l); discriminate). subst l.
      eapply t_bind with (R := fun _ w => B w /\ [] = nth start (w_lists w) []).
      { unfold new_individual, random, fresh. intros w [Hw Hl]. unfold bind. destruct (o_individual o (w_rng w)) as [[a|e] r]; simpl; auto. apply (B_EB e w Hw). }
      intros i. apply t_ret. intros w [[(S1 & rest & E & H) F] HE]. unfold B1. cbn [fst snd]. rewrite Nat.eqb_refl. split; auto. rewrite <- HE in *. simpl in *. rewrite app_nil_r in E.
      split; [exists (rest ++ [i]); split; auto; rewrite E, <- app_assoc; auto|]. split; auto. right. eauto.
    + assert (El : l = rev l' ++ [i]) by (rewrite <- (rev_involutive l), ER; auto).
      eapply t_bind with (R := fun _ => B1 (i, first_rung)).
      { intros w [[(S1 & rest & E & H) F] HE]. simpl. unfold B1. cbn [fst snd]. rewrite Nat.eqb_refl. simpl. rewrite length_set_nth. split; auto.
        rewrite nth_set_nth by auto. rewrite <- HE, El in *. rewrite rev_app_distr in E. simpl in E. rewrite rev_involutive in E. rewrite ?rev_involutive.
        assert (R0 : rest = []) by (destruct H as [H|H]; auto; destruct (rev l'); discriminate). subst rest.
        split; [exists []; split; auto|]. split; auto. left. rewrite app_nil_r in E. exists (length (started_on first_rung (w_trace w))).
        rewrite <- E, firstn_app, Nat.sub_diag, firstn_all. simpl. rewrite app_nil_r. auto. }
      intros ?. eapply t_bind with (R := fun _ => B1 (i, first_rung)); [|intros ?; apply t_ret; auto].
      intros w Hw. unfold tick. destruct (w_stop w) as [[[|j] e]|]; auto. apply (B1_EB _ e w Hw).
Qed.
Lemma b_start : triple B (start_new_job o eta min_res max_res first_rung max_rung start) (fun _ => B) EB.
Proof.
  unfold start_new_job. eapply t_bind; [apply b_tick|intros ?]. eapply t_bind; [apply b_get_job|intros j].
  destruct (existsb _ _); [|apply t_fail; intros w Hw; eapply B1_EB; eauto].
  eapply t_bind with (R := fun _ => B1 j).
  { intros w Hw. unfold tick. destruct (w_stop w) as [[[|k] e]|]; auto. apply (B1_EB _ e w Hw). }
  intros ? w Hw. simpl. unfold B1 in Hw. unfold B. simpl. rewrite started_app. simpl. destruct (snd j =? first_rung).
  - destruct Hw as (S1 & (rest & E & H) & H2 & F). split; auto. split; auto. exists rest. simpl. rewrite <- app_assoc. simpl. auto.
  - simpl. rewrite app_nil_r. auto.
Qed.
Lemma b_starts n : triple B (start_jobs o eta min_res max_res first_rung max_rung start n) (fun _ => B) EB.
Proof. induction n; cbn [start_jobs]; [apply t_ret; auto|]. eapply t_bind; [apply b_start|intros ?]. auto. Qed.
Lemma b_wait : triple B wait_next (fun _ => B) EB.
Proof.
  intros w [H1 H2]. assert (Hw : B w) by (split; auto). unfold wait_next. destruct (w_jobs w) as [|j js]; [apply (B_EB RuntimeError w Hw)|]. destruct (w_events w) as [|e es]; [apply (B_EB Diverges w Hw)|].
  set (kk := e_pick e mod _). set (i := result_ind _ _).
  assert (K : B (mkW (w_lists w) (remove_nth kk (j :: js)) (w_n w) es (w_rng w) (w_uid w) (w_stop w) (w_rungs w) (w_trace w ++ [TDone i (j_rung (nth kk (j :: js) (mkJob (mkI 0 None None) None))) (e_out e)]))).
  { split; auto. simpl. rewrite started_app. simpl. rewrite app_nil_r. auto. }
  destruct (e_out e); [exact K|]. destruct (e_callback e); [|exact K]. apply (B_EB e0 _ K).
Qed.
Lemma b_record x : triple B (record_result x) (fun _ => B) EB.
Proof.
  unfold record_result. destruct x as [[i [r|]] [|[|s ss] f]]; try (apply t_ret; auto; fail); [apply t_fail; intros w Hw; eapply B_EB; eauto|].
  eapply t_bind; [apply b_tick|intros ?]. eapply t_bind with (R := fun all w => B w /\ Forall (fun r => first_rung <= r_no r) all); [intros w Hw; simpl; split; auto; apply Hw|intros all].
  intros w [Hw HA]. destruct (find (fun y => r_no y =? r) all) as [y|] eqn:EF; [|simpl; eapply B_EB; eauto].
  apply find_some in EF as [F1 F2]. apply Nat.eqb_eq in F2. rewrite Forall_forall in HA. pose proof (HA y F1). simpl. destruct Hw as [H1 H2]. split; auto. simpl.
  apply set_rung_first; [simpl; lia|]. apply Forall_forall. auto.
Qed.
Lemma b_loop max_full f : triple B (asha_loop o eta min_res max_res first_rung max_rung start max_full f) (fun _ => B) EB.
Proof.
  induction f as [|f IH]; cbn [asha_loop]; [apply t_fail; intros w Hw; eapply B_EB; eauto|].
  eapply t_bind with (R := fun _ => B); [intros w Hw; simpl; auto|intros all]. destruct (top_full _ _ _) as [[|]|e]; [apply t_ret; auto| |apply t_fail; intros w Hw; eapply B_EB; eauto].
  eapply t_bind; [apply b_tick|intros ?]. eapply t_bind; [apply b_wait|intros x]. eapply t_bind; [apply b_record|intros ?]. eapply t_bind; [apply b_start|intros ?]. exact IH.
Qed.
Lemma asha_order max_full lists nw events r uid stop x w : start < length lists -> nth start lists [] = l0 ->
  asha_run o eta min_res max_res first_rung max_rung start max_full (start_world lists nw events r uid stop) = (x, w) ->
  in_order (started_on first_rung (w_trace w)).
Proof.
  intros HL E0 E. unfold asha_run, leave in E. cbn [w_lists w_jobs w_n w_events w_rng w_uid w_stop w_trace start_world] in E.
  set (w0 := mkW lists [] nw events r uid stop (empty_rungs first_rung max_rung) []) in *.
  assert (G : triple B (start_jobs o eta min_res max_res first_rung max_rung start 8 ;; tick ;; asha_loop o eta min_res max_res first_rung max_rung start max_full (length events + 1)) (fun _ => B) EB).
  { eapply t_bind; [apply b_starts|intros ?]. eapply t_bind; [apply b_tick|intros ?]. apply b_loop. }
  specialize (G w0). assert (B0 : B w0).
  { split. - split; auto. exists []. simpl. rewrite E0, app_nil_r. auto.
    - unfold w0, empty_rungs. simpl. apply Forall_forall. intros z Hz. apply in_map_iff in Hz as (n & <- & Hn). apply in_rev in Hn. apply in_seq in Hn. simpl. lia. }
  specialize (G B0). destruct ((_ ;; _) w0) as [[[]|e] w1]; injection E as _ <-; [apply (B_EB Diverges w1 G)|exact G].
Qed.
End Order.

(** Proofs for C155: the scores asha sees are those of the events. *)
From Verif Require Import Base Num Gp_Model Gp_Spec Evo_Model Evo_Spec Rnd_Model Rnd_Spec Mix_Spec.
Open Scope nat_scope.
Open Scope list_scope.

Section Scores.
Context (ps : pset) (mx : option Z) (eta f : nat) (R : Z).
Definition scored_ok (t : list hitem) : Prop := forall i r sc b, In (Finished i r (Evaluated sc b)) t -> sc <> [].
(** Code that leaves the history alone. *)
Definition silent {A} (m : MH A) : Prop := forall w x w', m w = (x, w') -> q_trace w' = q_trace w.
Definition keeps {A} (m : MH A) : Prop := forall w x w', scored_ok (q_trace w) -> m w = (x, w') -> scored_ok (q_trace w').
Lemma silent_keeps {A} (m : MH A) : silent m -> keeps m.
Proof. intros H w x w' K E. rewrite (H w x w' E). auto. Qed.
Lemma silent_bind {A B} (m : MH A) (k : A -> MH B) : silent m -> (forall a, silent (k a)) -> silent (hbind m k).
Proof.
  intros H1 H2 w x w' E. unfold hbind in E. destruct (m w) as [[a|e] w1] eqn:E1; [rewrite (H2 a w1 x w' E)|injection E as _ <-]; apply (H1 _ _ _ E1).
Qed.
Lemma keeps_bind {A B} (m : MH A) (k : A -> MH B) : keeps m -> (forall a, keeps (k a)) -> keeps (hbind m k).
Proof.
  intros H1 H2 w x w' K E. unfold hbind in E. destruct (m w) as [[a|e] w1] eqn:E1; [apply (H2 a w1 x w' (H1 _ _ _ K E1) E)|injection E as _ <-; apply (H1 _ _ _ K E1)].
Qed.
Lemma silent_ret {A} (a : A) : silent (hret a). Proof. intros w x w' [= _ <-]. auto. Qed.
Lemma silent_raise {A} e : silent (@hraise A e). Proof. intros w x w' [= _ <-]. auto. Qed.
Lemma silent_gp {A} (m : M A) : silent (hgp m).
Proof. intros w x w' E. unfold hgp in E. destruct (m (q_st w)). injection E as _ <-. auto. Qed.
Lemma silent_get : silent get_rungs. Proof. intros w x w' [= _ <-]. auto. Qed.
Lemma silent_set l : silent (set_rungs l). Proof. intros w x w' [= _ <-]. auto. Qed.
Hint Resolve silent_ret silent_raise silent_gp silent_get silent_set : core.
Lemma silent_promote l : silent (promote_from eta l).
Proof.
  induction l as [|y l IH]; cbn [promote_from]; auto. destruct (_ <? _); auto. destruct (not_promoted y); auto.
  repeat (apply silent_bind; auto; intros).
Qed.
Lemma silent_pop : silent pop_candidate.
Proof. intros w x w' E. unfold pop_candidate in E. destruct (rev (q_start w)); injection E as _ <-; auto. Qed.
Lemma silent_job : silent (get_job ps mx eta f).
Proof.
  unfold get_job. apply silent_bind; auto. intros all. apply silent_bind; [apply silent_promote|]. intros [j|]; auto.
  apply silent_bind; [apply silent_pop|]. intros [i|]; auto. apply silent_bind; auto.
Qed.
Lemma keeps_job : keeps (start_new_job ps mx eta f R).
Proof.
  unfold start_new_job. apply keeps_bind; [apply silent_keeps, silent_job|]. intros j. destruct (existsb _ _); [|apply silent_keeps; auto].
  intros w x w' K E. injection E as _ <-. cbn [q_trace]. intros i r sc b H. apply in_app_or in H as [H|[H|[]]]; [eapply K; eauto|discriminate].
Qed.
Lemma keeps_jobs n : keeps (start_jobs ps mx eta f R n).
Proof. induction n as [|n IH]; cbn [start_jobs]; [apply silent_keeps; auto|]. apply keeps_bind; auto. apply keeps_job. Qed.
Lemma silent_record x : silent (record_result x).
Proof.
  destruct x as [[i r] [|sc b]]; simpl; auto. destruct sc; auto. apply silent_bind; auto. intros all. destruct (find _ all); auto.
Qed.
Lemma keeps_wait e : has_score e -> keeps (hwait e).
Proof.
  intros HS w x w' K E. unfold hwait in E. destruct (q_jobs w) as [|j0 js]; [injection E as _ <-; auto|].
  set (j := nth _ _ _) in *. set (q := remove_nth _ _) in *. unfold has_score in HS. destruct (e_out e) as [|sc b].
  - injection E as _ <-. cbn [q_trace]. intros i r sc b H. apply in_app_or in H as [H|[H|[]]]; [eapply K; eauto|discriminate].
  - unfold hbind in E. destruct (hgp (unpickle (fst j)) _) as [[i|ex] w2] eqn:E2; apply silent_gp in E2; cbn [q_trace] in E2.
    + injection E as _ <-. cbn [q_trace]. rewrite E2. intros i' r sc' b' H. apply in_app_or in H as [H|[H|[]]]; [eapply K; eauto|]. injection H as _ _ <- _. intros ->. exact HS.
    + injection E as _ <-. rewrite E2. auto.
Qed.
Lemma keeps_turns mf es : Forall has_score es -> keeps (asha_turns ps mx eta f R mf es).
Proof.
  induction es as [|e es IH]; intros HS w x w' K E; cbn [asha_turns] in E; destruct (top_below R mf (q_rungs w)) as [[|]|ex]; try (injection E as _ <-; auto; fail).
  - destruct (q_jobs w); injection E as _ <-; auto.
  - inversion HS; subst. revert E. apply keeps_bind; auto; [apply keeps_wait; auto|]. intros y. apply keeps_bind; [apply silent_keeps, silent_record|]. intros _.
    apply keeps_bind; [apply keeps_job|]. auto.
Qed.
Lemma asha_scores mf es w x w' : Forall has_score es -> scored_ok (q_trace w) -> asha ps mx eta f R mf es w = (x, w') -> scored_ok (q_trace w').
Proof.
  intros HS K E. revert E. unfold asha. apply keeps_bind; auto; [apply silent_keeps; auto|]. intros _. apply keeps_bind; [apply keeps_jobs|]. intros _. apply keeps_turns. auto.
Qed.
End Scores.

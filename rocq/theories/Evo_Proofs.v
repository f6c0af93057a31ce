(** C144-C147: breeding one individual, on the objects of [Gp_Model.v]. *)
From Verif Require Import Base Num Nsga_Model Nsga_Main Par_Model Gp_Model Gp_Spec Gp_Proofs Gp_Proofs2 Gp_Proofs3 Gp_Proofs4 Gp_Main
  Cov_Spec Evo_Model Evo_Spec.
Open Scope nat_scope.
Open Scope list_scope.

Lemma is_pipeline_extends s s' i ss : wf_heap (s_heap s) -> extends s s' -> is_pipeline (s_heap s) i ss -> is_pipeline (s_heap s') i ss.
Proof. intros W X [ls C]. exists ls. eapply extends_pipeline; eauto. Qed.
Lemma is_pipeline_fun h i ss ss' : is_pipeline h i ss -> is_pipeline h i ss' -> ss = ss'.
Proof. intros [ls C] [ls' C']. unfold pipeline in *. destruct (chain_fun _ _ _ _ C _ _ C') as [_ ->]. reflexivity. Qed.
Lemma is_pipeline_str s i ss : wf_heap (s_heap s) -> is_pipeline (s_heap s) i ss -> pipeline_str i s = (Ok (text ss), s).
Proof. intros W [ls C]. eapply pipeline_str_ok; eauto. Qed.

(** * A copy made by pickling *)
Lemma new_object_ok c s : new_object c s = (Ok (h_next (s_heap s)), mkSt (alloc (s_heap s) c) (s_rng s) (s_uid s)).
Proof. reflexivity. Qed.
Lemma unpickle_node_ok s d ls ss : wf_heap (s_heap s) -> chain (s_heap s) d ls ss ->
  forall l f, d = DRef l -> length ls <= f ->
  exists h' l', unpickle_node f l s = (Ok l', mkSt h' (s_rng s) (s_uid s)) /\
    wf_heap h' /\ same_except [] (s_heap s) h' /\ exists ls', chain h' (DRef l') ls' ss.
Proof.
  intros W. induction 1 as [|l0 c ls ss G C IH]; intros l f Hd Hf; [discriminate|].
  inversion Hd; subst l0. destruct f as [|f]; simpl in Hf; [lia|].
  simpl unpickle_node. unfold mbind. rewrite (mread_ok _ _ _ G).
  destruct (c_data c) as [|l1] eqn:Ed.
  - rewrite new_object_ok. inversion C; subst.
    eexists _, _. split; [reflexivity|]. split; [apply wf_alloc; auto|]. split; [apply same_alloc|].
    exists [h_next (s_heap s)]. econstructor; [apply alloc_same|]. rewrite Ed. constructor.
  - destruct (IH l1 f eq_refl ltac:(lia)) as (h' & l' & -> & W' & F & ls' & C').
    rewrite new_object_ok. simpl. eexists _, _. split; [reflexivity|].
    split; [apply wf_alloc; auto|]. split; [eapply same_trans; [exact F|apply same_alloc]|].
    exists (h_next h' :: ls').
    change (c_prim c, c_terms c) with (c_prim (mkCell (c_prim c) (DRef l') (c_terms c)), c_terms (mkCell (c_prim c) (DRef l') (c_terms c))).
    econstructor; [apply alloc_same|]. simpl.
    eapply chain_frame; [exact C'|]. intros x Hx. apply alloc_other.
    pose proof (chain_lt _ _ _ _ W' C' _ Hx). lia.
Qed.
Lemma unpickle_ok s i ss : wf_heap (s_heap s) -> is_pipeline (s_heap s) i ss ->
  exists i' s', unpickle i s = (Ok i', s') /\ extends s s' /\ s_uid s' = s_uid s /\ is_pipeline (s_heap s') i' ss /\
    i_id i' = i_id i /\ i_parents i' = i_parents i /\ i_origin i' = i_origin i.
Proof.
  intros W [ls C]. unfold unpickle, mbind, mget.
  destruct (unpickle_node_ok s _ ls ss W C (i_main i) (S (h_next (s_heap s))) eq_refl) as (h' & l' & E & W' & F & ls' & C').
  { pose proof (chain_bound _ _ _ _ W C). lia. }
  rewrite E. unfold mret. eexists _, _. split; [reflexivity|]. split; [|split; [reflexivity|split; [|auto]]].
  - split; [exact W'|]. split; auto.
  - exists ls'. exact C'.
Qed.

(** * Attempts *)
Section Attempts.
Context (op : M individual) (s0 : st) (R : individual -> list step -> Prop).
Definition made (s s' : st) (i : individual) : Prop :=
  extends s s' /\ s_uid s <= i_id i < s_uid s' /\ exists ss, is_pipeline (s_heap s') i ss /\ R i ss.
Hypothesis OP : forall s i s', extends s0 s -> op s = (Ok i, s') -> made s s' i.
Lemma attempts_facts : forall s l s', attempts op s l s' -> extends s0 s ->
  extends s s' /\ NoDup (map (fun p => i_id (fst p)) l) /\
  Forall (fun p => s_uid s <= i_id (fst p) < s_uid s' /\ exists ss, is_pipeline (s_heap s') (fst p) ss /\ R (fst p) ss /\ snd p = text ss) l.
Proof.
  induction 1 as [s|s i s1 str l s2 E P A IH]; intros X.
  - split; [apply extends_refl; apply X|]. split; constructor.
  - destruct (OP _ _ _ X E) as (X1 & I1 & ss & C & HR).
    assert (X0 : extends s0 s1) by (eapply extends_trans; eauto).
    destruct (IH X0) as (X2 & N & F). split; [exact (extends_trans _ _ _ X1 X2)|].
    assert (U : s_uid s1 <= s_uid s2) by apply X2.
    assert (U1 : s_uid s <= s_uid s1) by apply X1. simpl. split.
    + constructor; auto. rewrite in_map_iff. intros (p & Ep & Hp). rewrite Forall_forall in F. apply F in Hp as (Hp & _). lia.
    + constructor.
      * simpl. split; [lia|]. exists ss. split; [eapply is_pipeline_extends; eauto; apply X1|]. split; auto.
        rewrite (is_pipeline_str s1 i ss) in P; [|apply X1|auto]. congruence.
      * eapply Forall_impl; [|exact F]. simpl. intros p (Hp & Q). split; [lia|auto].
Qed.
(** Either new, or every attempt gave something evaluated before. *)
Definition novel (done : completed) (n : nat) (h : heap) (i : individual) (ss : list step) : Prop :=
  ~ In (text ss) done \/
  exists tries, length tries = n /\ In i tries /\ NoDup (map i_id tries) /\
    Forall (fun j => exists ss', is_pipeline h j ss' /\ R j ss' /\ In (text ss') done) tries.
Lemma try_novel done n s i s' : 0 < n -> extends s0 s -> try_until_new n done op None s = (Ok i, s') ->
  extends s s' /\ s_uid s <= i_id i < s_uid s' /\ exists ss, is_pipeline (s_heap s') i ss /\ R i ss /\ novel done n (s_heap s') i ss.
Proof.
  intros Hn X E. apply try_sound in E as [(-> & _)|(prev & str & A & L & F & Hc)]; [lia|].
  destruct (attempts_facts _ _ _ A X) as (X' & N & F'). split; auto.
  rewrite Forall_forall in F'. pose proof (F' (i, str) ltac:(apply in_or_app; simpl; auto)) as (I & ss & C & HR & Es0). simpl in Es0. subst str. simpl in *.
  split; auto. exists ss. split; auto. split; auto.
  destruct (in_dec string_dec (text ss) done) as [Y|Y]; [|left; auto].
  destruct Hc as [Hc|Hc]; [tauto|]. right. exists (map fst (prev ++ [(i, text ss)])). rewrite map_length, app_length. simpl.
  split; [lia|]. split; [rewrite map_app; apply in_or_app; simpl; auto|]. split; [rewrite map_map; exact N|].
  apply Forall_forall. intros j Hj. apply in_map_iff in Hj as ([j' str'] & <- & Hj). pose proof (F' _ Hj) as (_ & ss' & C' & R' & Es).
  exists ss'. simpl in *. split; auto. split; auto. rewrite <- Es. apply in_app_or in Hj as [Hj|[Hj|[]]].
  - rewrite Forall_forall in F. apply F in Hj. exact Hj.
  - injection Hj as <- <-. auto.
Qed.
End Attempts.

(** * mutate and mate *)
Section Breed.
Context (ps : pset) (mx : option Z) (n : nat).
Hypothesis T : pset_typed ps.
Hypothesis HN : 0 < n.
(** a mutation of [p], recorded as such *)
Definition by_mutation (p : individual) (old : list step) (i : individual) (ss : list step) : Prop :=
  i_parents i = [i_id p] /\ within mx old /\ within mx ss /\
  exists m copy, same_pipeline old copy /\ mutated ps m copy ss /\ logged_as m (i_origin i).
Definition by_crossover (p q : individual) (old1 old2 : list step) (i : individual) (ss : list step) : Prop :=
  i_parents i = [i_id p; i_id q] /\ i_origin i = "cx"%string /\ within mx old1 /\ within mx old2 /\
  exists copy1 copy2 other, same_pipeline old1 copy1 /\ same_pipeline old2 copy2 /\ crossed copy1 copy2 ss other.

Lemma named_logged m o : mutator_name m = Ok o -> logged_as m o.
Proof. destruct m; simpl; intros H; try discriminate; injection H as <-; constructor. Qed.
Lemma mutate_made p s old done i s' : wf_heap (s_heap s) -> is_pipeline (s_heap s) p old ->
  op_mutate n done ps mx p s = (Ok i, s') ->
  extends s s' /\ s_uid s <= i_id i < s_uid s' /\ exists ss, is_pipeline (s_heap s') i ss /\ by_mutation p old i ss /\
    novel (by_mutation p old) done n (s_heap s') i ss.
Proof.
  intros W C. apply (try_novel _ s (by_mutation p old)); auto; [|apply extends_refl; auto].
  intros s1 j s2 X E. destruct (is_pipeline_extends _ _ _ _ W X C) as [ls1 C1].
  pose proof (wp_ok _ _ _ _ _ _ E (wp_mutate_with_log ps mx p s1 ls1 old (proj1 X) C1 T)) as (X2 & I & P & Wi & m & ls' & ss0 & ss' & Q & _ & Nm & S & _ & Mu & Wi').
  split; auto. split; auto. exists ss'. split; [exists ls'; exact Q|]. split; auto. split; auto. split; auto.
  exists m, ss0. split; auto. split; auto. apply named_logged. auto.
Qed.
Lemma mate_made p q s old1 old2 done i s' : wf_heap (s_heap s) -> is_pipeline (s_heap s) p old1 -> is_pipeline (s_heap s) q old2 ->
  op_mate n done mx p q s = (Ok i, s') ->
  extends s s' /\ s_uid s <= i_id i < s_uid s' /\ exists ss, is_pipeline (s_heap s') i ss /\ by_crossover p q old1 old2 i ss /\
    novel (by_crossover p q old1 old2) done n (s_heap s') i ss.
Proof.
  intros W C C'. apply (try_novel _ s (by_crossover p q old1 old2)); auto; [|apply extends_refl; auto].
  intros s1 j s2 X E. destruct (is_pipeline_extends _ _ _ _ W X C) as [ls1 C1]. destruct (is_pipeline_extends _ _ _ _ W X C') as [ls2 C2].
  pose proof (wp_ok _ _ _ _ _ _ E (wp_mate_with_log mx p q s1 ls1 old1 ls2 old2 (proj1 X) C1 C2))
    as (X2 & I & P & O & Wi1 & Wi2 & ls' & a & b & ss' & other & Q & _ & S1 & _ & S2 & _ & Cr).
  split; auto. split; auto. exists ss'. split; [exists ls'; exact Q|]. split; auto. split; auto. split; auto. split; auto.
  exists a, b, other. auto.
Qed.
Lemma mutate_fails p s old done e s' : wf_heap (s_heap s) -> is_pipeline (s_heap s) p old ->
  op_mutate n done ps mx p s = (Err e, s') -> extends s s' /\ mutate_error ps mx old e.
Proof. intros W [ls C] E. exact (wp_fail _ _ _ _ _ _ E (wp_op_mutate n done ps mx p s ls old W C T HN)). Qed.
Lemma mate_fails p q s old1 old2 done e s' : wf_heap (s_heap s) -> is_pipeline (s_heap s) p old1 -> is_pipeline (s_heap s) q old2 ->
  op_mate n done mx p q s = (Err e, s') -> extends s s' /\ cross_error mx old1 old2 e.
Proof. intros W [ls1 C1] [ls2 C2] E. exact (wp_fail _ _ _ _ _ _ E (wp_op_mate n done mx p q s ls1 old1 ls2 old2 W C1 C2 HN)). Qed.

(** * One new individual from a population *)
Definition from_pair (p q : individual) (old1 old2 : list step) (i : individual) (ss : list step) : Prop :=
  by_mutation p old1 i ss \/ by_crossover p q old1 old2 i ss.
Lemma novel_mono (R R' : individual -> list step -> Prop) done k h i ss : (forall j ss', R j ss' -> R' j ss') -> novel R done k h i ss -> novel R' done k h i ss.
Proof.
  intros H [N|(tries & L & I & N & F)]; [left; auto|]. right. exists tries. split; auto. split; auto. split; auto.
  eapply Forall_impl; [|exact F]. simpl. intros j (ss' & C & HR & D). eauto.
Qed.
Lemma rng_extends s r : wf_heap (s_heap s) -> extends s (mkSt (s_heap s) r (s_uid s)).
Proof. intros W. split; auto. split; auto. apply same_refl. Qed.

Definition breed_fails (old1 old2 : list step) (e : exn) : Prop :=
  mutate_error ps mx old1 e \/ (e = ValueError /\ (~ within mx old1 \/ ~ within mx old2)).
Lemma breed_made p q s old1 old2 done x s' : wf_heap (s_heap s) -> is_pipeline (s_heap s) p old1 -> is_pipeline (s_heap s) q old2 ->
  breed ps mx n done p q s = (x, s') ->
  extends s s' /\
  match x with
  | Ok i => s_uid s <= i_id i < s_uid s' /\ exists ss, is_pipeline (s_heap s') i ss /\ from_pair p q old1 old2 i ss /\
      novel (from_pair p q old1 old2) done n (s_heap s') i ss
  | Err e => breed_fails old1 old2 e
  end.
Proof.
  intros W C1 C2 E. unfold breed, mbind, mrandom in E. destruct (rcoin (s_rng s)) as [c r1].
  set (s1 := mkSt (s_heap s) r1 (s_uid s)) in *. assert (X1 : extends s s1) by (apply rng_extends; auto).
  assert (MUT : forall x s', op_mutate n done ps mx p s1 = (x, s') -> extends s s' /\
    match x with
    | Ok i => s_uid s <= i_id i < s_uid s' /\ exists ss, is_pipeline (s_heap s') i ss /\ from_pair p q old1 old2 i ss /\
        novel (from_pair p q old1 old2) done n (s_heap s') i ss
    | Err e => breed_fails old1 old2 e
    end).
  { intros y s2 H. destruct y as [i|e].
    - destruct (mutate_made p s1 old1 done i s2 W C1 H) as (X & I & ss & P & B & N). split; [exact (extends_trans _ _ _ X1 X)|]. split; [exact I|].
      exists ss. split; auto. split; [left; auto|]. eapply novel_mono; [|exact N]. intros; left; auto.
    - destruct (mutate_fails p s1 old1 done e s2 W C1 H) as (X & He). split; [exact (extends_trans _ _ _ X1 X)|]. left. auto. }
  destruct c; [|unfold mret in E; apply MUT; auto].
  destruct C1 as [ls1 C1]. destruct C2 as [ls2 C2].
  destruct (C18_valid_crossovers_main p q s1 ls1 old1 ls2 old2 W C1 C2) as (xs & Ex & HT & HP). rewrite Ex in E.
  destruct xs as [|c xs]; [apply MUT; auto|].
  destruct x as [i|e].
  - destruct (mate_made p q s1 old1 old2 done i s') as (X & I & ss & P & B & N); auto; [exists ls1; auto|exists ls2; auto|].
    split; [exact (extends_trans _ _ _ X1 X)|]. split; [exact I|]. exists ss. split; auto. split; [right; auto|]. eapply novel_mono; [|exact N]. intros; right; auto.
  - destruct (mate_fails p q s1 old1 old2 done e s') as (X & He & Hx); auto; [exists ls1; auto|exists ls2; auto|].
    split; [exact (extends_trans _ _ _ X1 X)|]. right. split; auto. destruct Hx as [Hx|[Hx|[Hx Hy]]]; auto. exfalso.
    destruct c; [apply Hx, HT|apply Hy, HP]; simpl; auto.
Qed.

(** the members of a population are pipelines *)
Definition pop_pipes (h : heap) (pop : list member) : Prop := forall m, In m pop -> exists ss, is_pipeline h (m_ind m) ss.
Definition select_fails (pop : list member) (e : exn) : Prop :=
  (length pop < 3 /\ e = ValueError) \/ (3 <= length pop /\ metric_error pop = Some e).
Lemma create_made pop s done x s' : wf_heap (s_heap s) -> pop_pipes (s_heap s) pop ->
  create_one ps mx n done pop s = (x, s') ->
  extends s s' /\
  match x with
  | Ok i => exists a b p q old1 old2, nth_error pop a = Some p /\ nth_error pop b = Some q /\ a <> b /\
      is_pipeline (s_heap s) (m_ind p) old1 /\ is_pipeline (s_heap s) (m_ind q) old2 /\
      s_uid s <= i_id i < s_uid s' /\ exists ss, is_pipeline (s_heap s') i ss /\ from_pair (m_ind p) (m_ind q) old1 old2 i ss /\
        novel (from_pair (m_ind p) (m_ind q) old1 old2) done n (s_heap s') i ss
  | Err e => select_fails pop e \/ exists p q old1 old2, In p pop /\ In q pop /\
      is_pipeline (s_heap s) (m_ind p) old1 /\ is_pipeline (s_heap s) (m_ind q) old2 /\ breed_fails old1 old2 e
  end.
Proof.
  intros W C E. unfold create_one in E. destruct (Nat.ltb_spec (length pop) 3) as [L|L].
  { injection E as <- <-. split; [apply extends_refl; auto|]. left. left. auto. }
  destruct (metric_error pop) as [e|] eqn:Em.
  { injection E as <- <-. split; [apply extends_refl; auto|]. left. right. auto. }
  unfold mbind, mrandom in E. destruct (C29_pairs_main member [metric 0; metric 1] pop 1 (s_rng s) ltac:(discriminate) L) as (prs & r' & Es & Lp & Hp).
  rewrite Es in E. destruct prs as [|[a b] [|]]; try discriminate. destruct (Hp a b ltac:(simpl; auto)) as (Ha & Hb & Hab).
  destruct (nth_error pop a) as [p|] eqn:Ea; [|apply nth_error_None in Ea; lia].
  destruct (nth_error pop b) as [q|] eqn:Eb; [|apply nth_error_None in Eb; lia].
  pose proof (nth_error_In _ _ Ea) as Ip. pose proof (nth_error_In _ _ Eb) as Iq.
  destruct (C p Ip) as [old1 C1]. destruct (C q Iq) as [old2 C2].
  set (s1 := mkSt (s_heap s) r' (s_uid s)) in *. assert (X1 : extends s s1) by (apply rng_extends; auto).
  destruct (breed_made (m_ind p) (m_ind q) s1 old1 old2 done x s' W C1 C2 E) as (X & Hx). split; [exact (extends_trans _ _ _ X1 X)|].
  destruct x as [i|e].
  - destruct Hx as (I & ss & Hx). exists a, b, p, q, old1, old2. do 5 (split; [assumption|]). split; [exact I|]. exists ss. exact Hx.
  - right. exists p, q, old1, old2. auto.
Qed.
End Breed.

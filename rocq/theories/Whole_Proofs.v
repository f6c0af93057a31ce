(** Lemmas about fit from the data to the model. *)
Require Import ZArith.
From Verif Require Import Base Num Data_Model Gp_Model Gp_Spec Eval_Model Evo_Model Evo_Spec Rnd_Model Rnd_Spec End_Model End_Spec Lib_Spec Pred_Model Fit_Model Fit_Spec Whole_Model Whole_Spec.
From Verif Require Async_Model Sys_Model Proc_Model Fac_Model Rnd_Proofs Gp_Proofs4 Fit_Proofs Fit_Proofs2 Proc_Main Fac_Main Eval_Main End_Proofs Num_Proofs.
Require Permutation Sorted.
Open Scope nat_scope.
Open Scope list_scope.

(** * The best object *)
Definition obj_of (fixed : nat -> list enc_step) (mem : st) (m : member) : obj :=
  Obj (m_ind m) (Some (m_fit m)) (Some (fixed (i_id (m_ind m)))) mem.
Section Post.
Context {E : Type} (build : nat -> list (string * value) -> res E) (estimator : enc_step -> string * E)
  (train : list (string * E) -> frame -> yout -> res model).
(** what was trained *)
Lemma post_best ps ml fixed mem l x y rest best m : wf_heap (s_heap mem) -> clear_names ps ->
  (forall m, In m l -> numeric m) -> (forall m, In m l -> exists ss, is_pipeline (s_heap mem) (m_ind m) ss /\ pipeline_ok ps ss /\ within ml ss) ->
  best_first fitness_of (as_objects fixed mem l) best ->
  best_fit_post (train_object build estimator train) x y rest best = Ok m ->
  exists m0 ss steps model, m = Some model /\ In m0 l /\ (forall m', In m' l -> ~ lex_lt (m_fit m0) (m_fit m')) /\
    is_pipeline (s_heap mem) (m_ind m0) ss /\ pipeline_ok ps ss /\ within ml ss /\
    made_from build (map estimator (fixed (i_id (m_ind m0)))) ss steps /\ train steps x y = Ok model.
Proof.
  intros W CN NU G (P & _ & S) H. unfold best_fit_post, Fac_Model.best_fit in H. destruct best as [|o best]; [discriminate|]. cbn [rbind] in H.
  assert (HO : In o (as_objects fixed mem l)) by (apply (Permutation.Permutation_in _ P); left; reflexivity).
  apply in_map_iff in HO as (m0 & <- & H0).
  destruct (train_object build estimator train _ x y) as [model|] eqn:ET; [|discriminate]. cbn [rbind] in H. injection H as <-.
  unfold train_object in ET. destruct (compile build (m_ind m0) (Some (map estimator (fixed (i_id (m_ind m0))))) mem) as [[steps|e] s1] eqn:EC; [|discriminate].
  cbn [fst rbind] in ET. destruct (G m0 H0) as (ss & (ls & C) & O1 & O2).
  destruct (Eval_Main.C58_steps_main E build (m_ind m0) (Some (map estimator (fixed (i_id (m_ind m0))))) mem ls ss steps s1 W C (End_Proofs.clear_unambiguous _ _ CN O1) EC) as (_ & own & -> & F & _).
  exists m0, ss, (map estimator (fixed (i_id (m_ind m0))) ++ own), model. split; auto. split; auto. split; [|split; [exists ls; auto|split; auto; split; auto; split; [exists own; auto|auto]]].
  intros m' Hm'. assert (NN : forall i v, In i (as_objects fixed mem l) -> fitness_of i = Some v -> Forall (fun n => n <> NaN) v).
  { intros i v Hi Ev. apply in_map_iff in Hi as (m1 & <- & H1). injection Ev as <-. exact (NU m1 H1). }
  specialize (S NN). apply Sorted.StronglySorted_inv in S as [_ S]. rewrite Forall_forall in S.
  assert (HM : In (obj_of fixed mem m') (obj_of fixed mem m0 :: best)).
  { apply (Permutation.Permutation_in _ (Permutation.Permutation_sym P)). apply in_map_iff. exists m'. auto. }
  destruct HM as [HM|HM].
  - injection HM as _ HM _. rewrite HM. intros (k & _ & [(_ & _ & L)|(L1 & L2)]); [exact (Num_Proofs.nlt_irrefl _ L)|lia].
  - exact (S _ HM _ _ eq_refl eq_refl).
Qed.
End Post.

(** * The start *)
Lemma individuals_map {A} (f : A -> individual) fit fixed mem l : individuals_of (map (fun a => Obj (f a) (fit a) (fixed a) mem) l) = map f l.
Proof. induction l as [|a l IH]; [reflexivity|]. cbn. rewrite IH. reflexivity. Qed.
Lemma fresh_list ml mem ps : wf_heap (s_heap mem) ->
  (exists ex rest, map (fresh ml mem ps) (seq 0 50) = Unmade ex :: rest /\ Gp_Proofs4.creation_error ps ml ex) \/
  (exists l s, map (fresh ml mem ps) (seq 0 50) = map (fun i => Obj i None None s) l /\ length l = 50 /\ usable ps ml (map (fun i => Obj i None None s) l)).
Proof.
  intros W. unfold fresh. destruct (random_individuals ps ml 50 (fresh_h mem)) as [x w] eqn:ER.
  destruct (Rnd_Proofs.random_individuals_ok ps ml 50 (fresh_h mem) x w W ER) as (s & -> & X & H). destruct x as [l|ex].
  - right. destruct H as (L & ND & F & _). exists l, s. cbn [Rnd_Proofs.with_state q_st]. split; [|split; auto].
    + clear - L. assert (G : forall k j, k + j = 50 -> map (fun k => match nth_error l k with Some i => Obj i None None s | None => Unmade IndexError end) (seq k j) = map (fun i => Obj i None None s) (skipn k l)).
      { intros k j. revert k. induction j as [|j IH]; intros k Hk.
        - rewrite skipn_all2 by lia. reflexivity.
        - cbn [seq map]. rewrite IH by lia. destruct (nth_error l k) as [i|] eqn:EN; [|apply nth_error_None in EN; lia].
          assert (SK : skipn k l = i :: skipn (S k) l).
          { clear - EN. revert l EN. induction k as [|k IH]; intros [|a l] EN; try discriminate; cbn in *; [injection EN as ->; reflexivity|]. apply IH. exact EN. }
          rewrite SK. reflexivity. }
      exact (G 0 50 eq_refl).
    + exists s. split; [exact (proj1 X)|]. split; [|split].
      * intros o Ho. apply in_map_iff in Ho as (i & <- & _). eauto.
      * rewrite (individuals_map (fun i => i)), map_id. eapply Forall_impl; [|exact F]. intros i (G & _). exact G.
      * rewrite (individuals_map (fun i => i)), map_id. exact ND.
  - left. exists ex, (map (fun _ => Unmade ex) (seq 1 49)). split; [reflexivity|exact H].
Qed.
(** the start population is usable, unless new individuals could not be made *)
Lemma start_usable E (build : nat -> list (string * value) -> res E) estimator train how ml n log d e g ps pop :
  ready ps ml e g -> started_from (this_call build estimator train how ml n log d e) g ps pop ->
  (usable ps ml pop /\ pop <> []) \/ (exists ex rest, pop = Unmade ex :: rest /\ Gp_Proofs4.creation_error ps ml ex).
Proof.
  intros (W & R1 & R2) (S0 & S1 & S2 & S3). cbn [this_call c_warm c_fresh] in *. destruct (e_warm e) as [l|] eqn:EW.
  - destruct (S0 l eq_refl) as (l' & ->). destruct l' as [|o l'].
    + specialize (S3 (or_introl eq_refl)). destruct (fresh_list ml (e_mem e) ps W) as [(ex & rest & A & B)|(l & s & A & L & B)].
      * right. exists ex, rest. rewrite S3. auto.
      * left. rewrite S3, A. split; auto. destruct l; discriminate.
    + left. assert (NE : o :: l' <> []) by discriminate. rewrite (S1 _ eq_refl NE). split; auto.
  - destruct (i_final g) as [|o f] eqn:EF.
    + specialize (S3 (or_intror (conj eq_refl eq_refl))). destruct (fresh_list ml (e_mem e) ps W) as [(ex & rest & A & B)|(l & s & A & L & B)].
      * right. exists ex, rest. rewrite S3. auto.
      * left. rewrite S3, A. split; auto. destruct l; discriminate.
    + left. assert (NE : o :: f <> []) by discriminate. rewrite (S2 eq_refl NE). split; auto.
Qed.
Lemma usable_head ps ml pop : usable ps ml pop -> pop <> [] ->
  exists i f x s pop', pop = Obj i f x s :: pop' /\ wf_heap (s_heap s) /\ start_ok ps ml s (individuals_of pop) /\ NoDup (map i_id (individuals_of pop)).
Proof.
  intros (s & W & O & S & N) NE. destruct pop as [|o pop]; [congruence|]. destruct (O o (or_introl eq_refl)) as (i & f & x & ->). exists i, f, x, s, pop. auto.
Qed.
(** * Fixed steps *)
Definition steps_allowed (ext : list enc_step) (pop : list obj) (fixed : list enc_step) : Prop := fixed = ext \/ steps_of_start pop fixed.
Lemma bound_allowed ext pop id : steps_allowed ext pop (bound ext pop id).
Proof.
  induction pop as [|o pop IH]; [left; reflexivity|].
  assert (IH' : steps_allowed ext (o :: pop) (bound ext pop id)) by (destruct IH as [IH|(i & f & m & H)]; [left; auto|right; exists i, f, m; right; auto]).
  destruct o as [i f [x|] s|e]; cbn [bound]; auto.
  - destruct (i_id i =? id); auto. right. exists i, f, s. left. reflexivity.
  - destruct (i_id i =? id); auto. left. reflexivity.
Qed.
Lemma inherited_allowed ext pop t : forall fixed, (forall id, steps_allowed ext pop (fixed id)) -> forall id, steps_allowed ext pop (inherited fixed t id).
Proof.
  induction t as [|x t IH]; intros fixed H id; [apply H|]. destruct x as [i p|i|i o|]; cbn [inherited]; apply IH; auto.
  destruct (i_parents i) as [|q l]; auto. intros id'. destruct (id' =? i_id i); apply H.
Qed.
(** new individuals are not bound yet *)
Lemma anew_unbound E (build : nat -> list (string * value) -> res E) estimator train how ml n log d e g ps pop fixed :
  starts_anew e g -> started_from (this_call build estimator train how ml n log d e) g ps pop -> ~ steps_of_start pop fixed.
Proof.
  intros A (_ & _ & _ & S). specialize (S A). subst pop. intros (i & f & m & H). apply in_map_iff in H as (k & H & _). cbn [this_call c_fresh] in H. unfold fresh in H.
  destruct (random_individuals ps ml 50 (fresh_h (e_mem e))) as [[l|ex] w]; [|discriminate]. destruct (nth_error l k); discriminate.
Qed.

(** C150-C152: from the search to the model. *)
Require Import Permutation.
From Verif Require Import Base Num Gp_Model Gp_Spec Gp_Proofs Gp_Proofs2 Gp_Proofs3 Gp_Proofs4 Nsga_Model Par_Model Lib_Spec Lib_Proofs Eval_Model Eval_Spec Eval_Main
  Evo_Model Evo_Spec Evo_Proofs Evo_Proofs2 Rnd_Model Rnd_Spec End_Model End_Spec.
From Verif Require Fac_Model Fac_Proofs.
Open Scope nat_scope.
Open Scope list_scope.

(** * The model *)
Lemma clear_unambiguous ps ss : clear_names ps -> pipeline_ok ps ss -> Forall unambiguous ss.
Proof.
  intros C O. assert (ST : forall k st, step_ok ps k st -> unambiguous st).
  { intros k st (Hp & ts & P & F). unfold unambiguous. eapply Permutation_NoDup; [apply Permutation_map, Permutation_sym, P|]. eapply C; eauto. }
  destruct ss as [|a l]; [constructor|]. destruct O as (A & B). constructor; [eauto|]. eapply Forall_impl; [|exact B]. simpl. eauto.
Qed.
Section Model.
Context {E : Type} (build : nat -> list (string * value) -> res E) (fixed : list (string * E)).
Lemma best_model_ok pop s steps s' (Q : list step -> Prop) : wf_heap (s_heap s) ->
  (forall m, In m pop -> okn (m_fit m)) ->
  (forall m, In m pop -> exists ss, is_pipeline (s_heap s) (m_ind m) ss /\ Forall unambiguous ss /\ Q ss) ->
  best_model build fixed pop s = (Ok steps, s') ->
  s' = s /\ exists m ss, In m pop /\ (forall m', In m' pop -> ~ lex_lt (m_fit m) (m_fit m')) /\
    is_pipeline (s_heap s) (m_ind m) ss /\ Q ss /\ made_from build fixed ss steps.
Proof.
  intros W OK G H. unfold best_model in H. destruct (Fac_Model.best_fit (Fac_Model.best_individuals m_fit pop)) as [m|e] eqn:EB; [|discriminate].
  destruct (Fac_Proofs.best_max m_fit pop m OK EB) as (Hm & Mx). destruct (G m Hm) as (ss & (ls & C) & U & HQ).
  destruct (C58_steps_main E build (m_ind m) (Some fixed) s ls ss steps s' W C U H) as (-> & own & -> & F & _).
  split; auto. exists m, ss. split; auto. split; auto. split; [exists ls; auto|]. split; auto. exists own. auto.
Qed.
Lemma best_model_total pop s : wf_heap (s_heap s) ->
  (forall m, In m pop -> exists ss, is_pipeline (s_heap s) (m_ind m) ss) ->
  (forall c kwargs, exists e, build c kwargs = Ok e) ->
  (pop = [] /\ best_model build fixed pop s = (Err IndexError, s)) \/ (pop <> [] /\ exists steps, best_model build fixed pop s = (Ok steps, s)).
Proof.
  intros W G B. destruct pop as [|m0 pop]; [left; auto|]. right. split; [discriminate|]. unfold best_model.
  destruct (Fac_Model.best_fit (Fac_Model.best_individuals m_fit (m0 :: pop))) as [m|e] eqn:EB.
  - assert (Hm : In m (m0 :: pop)).
    { unfold Fac_Model.best_fit in EB. destruct (Fac_Model.best_individuals m_fit (m0 :: pop)) as [|y l] eqn:EL; [discriminate|]. injection EB as <-.
      assert (Hy : In y (Fac_Model.best_individuals m_fit (m0 :: pop))) by (rewrite EL; left; auto).
      unfold Fac_Model.best_individuals in Hy. apply in_rev in Hy.
      eapply Permutation_in; [apply Permutation_sym, py_sorted_perm|exact Hy]. }
    destruct (G m Hm) as (ss & ls & C). exact (C58_total_main E build (m_ind m) (Some fixed) s ls ss W C B).
  - exfalso. assert (e = IndexError) by (unfold Fac_Model.best_fit in EB; destruct (Fac_Model.best_individuals m_fit (m0 :: pop)); congruence). subst.
    apply Fac_Proofs.best_empty in EB. discriminate.
Qed.
End Model.

(** * The final population of the evolutionary search *)
Definition since (w : evo) : list member := successes (since_restart (v_trace w)).
(** these elements, each at most as often *)
Definition part {A} (a b : list A) : Prop := exists rest, Permutation b (a ++ rest).
Lemma part_incl {A} (a b : list A) : part a b -> incl a b.
Proof. intros (r & P) x Hx. apply (Permutation_in _ (Permutation_sym P)), in_or_app. auto. Qed.
Lemma part_refl {A} (a : list A) : part a a.
Proof. exists []. rewrite app_nil_r. auto. Qed.
Lemma part_trans {A} (a b c : list A) : part a b -> part b c -> part a c.
Proof. intros (r & P) (r' & P'). exists (r ++ r'). rewrite P', P, app_assoc. auto. Qed.
Lemma part_snoc {A} (a b : list A) x : part a b -> part (a ++ [x]) (b ++ [x]).
Proof. intros (r & P). exists r. rewrite P, <- !app_assoc. apply Permutation_app_head, Permutation_app_comm. Qed.
Lemma part_removed {A} (f : A -> bool) l l' : remove_first f l = Some l' -> part l' l.
Proof.
  revert l'. induction l as [|y l IH]; cbn [remove_first]; intros l' H; [discriminate|]. destruct (f y).
  - injection H as <-. exists [y]. apply Permutation_cons_append.
  - destruct (remove_first f l) as [r|]; [|discriminate]. injection H as <-. destruct (IH r eq_refl) as (q & P). exists q. simpl. constructor. auto.
Qed.
Lemma removed_length {A} (f : A -> bool) l l' : remove_first f l = Some l' -> length l = S (length l').
Proof.
  revert l'. induction l as [|y l IH]; cbn [remove_first]; intros l' H; [discriminate|]. destruct (f y); [injection H as <-; auto|].
  destruct (remove_first f l) as [r|]; [|discriminate]. injection H as <-. simpl. rewrite (IH r eq_refl). auto.
Qed.
Definition all_kept (pop_size : nat) (w : evo) : Prop := part (v_pop w) (since w) /\ (length (since w) <= pop_size -> v_pop w = since w) /\ Nat.min pop_size (length (since w)) <= length (v_pop w).
(** ended without one of these *)
Definition stopped (x : res unit) : Prop := x <> Err ValueError /\ x <> Err IndexError /\ x <> Err RuntimeError.
Lemma since_more w w' t : v_trace w' = v_trace w ++ t -> successes t = [] -> ~ In Restarted t -> since w' = since w.
Proof.
  unfold since. intros ->. revert w. induction t as [|y t IH] using rev_ind; intros w E N; [rewrite app_nil_r; auto|].
  rewrite app_assoc, since_snoc. rewrite successes_app in E. apply app_eq_nil in E as (E1 & E2).
  assert (Hy : y <> Restarted) by (intros ->; apply N, in_or_app; simpl; auto).
  assert (N' : ~ In Restarted t) by (intros H; apply N, in_or_app; auto).
  destruct y; try congruence; rewrite successes_app, E2, app_nil_r; apply IH; auto.
Qed.
Lemma wait_trace e w w' i o : wait_next e w = (Ok (i, o), w') -> v_trace w' = v_trace w ++ [Collected i o] /\ v_pop w' = v_pop w.
Proof.
  unfold wait_next. destruct (v_jobs w) as [|j0 js]; [discriminate|]. destruct (e_out e) as [|sc f].
  - unfold ebind, note, eret. intros [= <- <- <-]. auto.
  - unfold ebind at 1, gp. destruct (unpickle _ _) as [[i'|ex] s1]; [|discriminate]. unfold ebind, note, eret, save. cbn [v_st v_pop v_jobs v_saved v_trace].
    destruct (pipeline_str i' s1) as [[tx|ex] s2]; [|discriminate]. intros [= <- <- <-]. auto.
Qed.
Lemma add_kept pop_size i sc w w' x : all_kept pop_size w -> forall w0, v_trace w0 = v_trace w ++ [Collected i (Evaluated sc false)] -> v_pop w0 = v_pop w ->
  add_to_population pop_size (mkMem i sc) w0 = (x, w') -> all_kept pop_size w' /\ v_trace w' = v_trace w0.
Proof.
  intros (K1 & K2 & K3) w0 T0 P0 H. unfold add_to_population in H. unfold ebind at 1 in H. unfold population in H. unfold ebind at 1 in H. unfold set_population at 1 in H.
  assert (S0 : since w0 = since w ++ [mkMem i sc]). { unfold since. rewrite T0, since_snoc, successes_app. auto. }
  assert (IC : part (v_pop w0 ++ [mkMem i sc]) (since w0)). { rewrite S0, P0. apply part_snoc. exact K1. }
  destruct (Nat.ltb_spec pop_size (length (v_pop w0 ++ [mkMem i sc]))) as [L|L].
  - assert (BIG : pop_size < length (since w0)).
    { destruct (le_lt_dec (length (since w0)) pop_size) as [Q|Q]; auto. exfalso. rewrite S0, app_length in Q. simpl in Q.
      rewrite P0, K2, app_length in L by lia. simpl in L. lia. }
    assert (FIN : forall w1, v_trace w1 = v_trace w0 -> part (v_pop w1) (v_pop w0 ++ [mkMem i sc]) -> pop_size <= length (v_pop w1) -> all_kept pop_size w1 /\ v_trace w1 = v_trace w0).
    { intros w1 T1 P1 L1. split; auto. assert (S1 : since w1 = since w0) by (unfold since; rewrite T1; auto). split.
      - rewrite S1. eapply part_trans; eauto.
      - rewrite S1. split; lia. }
    unfold ebind at 1, gp, mrandom in H. destruct (eliminate same_id m_fit _ 1 _) as [y r].
    destruct y as [[|d l]|ex]; [injection H as <- <-; apply FIN; cbn [v_pop v_trace]; auto; [apply part_refl|lia]| |injection H as <- <-; apply FIN; cbn [v_pop v_trace]; auto; [apply part_refl|lia]].
    destruct (remove_first (same_id d) (v_pop w0 ++ [mkMem i sc])) as [pop'|] eqn:ER; [|injection H as <- <-; apply FIN; cbn [v_pop v_trace]; auto; [apply part_refl|lia]].
    injection H as <- <-. apply FIN; cbn [v_pop v_trace]; auto; [eapply part_removed; eauto|]. apply removed_length in ER. lia.
  - injection H as <- <-. simpl. split; auto. split; simpl; auto. split; [|change (since (mkEvo (v_st w0) (v_pop w0 ++ [mkMem i sc]) (v_jobs w0) (v_saved w0) (v_trace w0))) with (since w0); rewrite S0, !app_length, P0; simpl; lia]. intros Q. unfold since in Q |- *. cbn [v_trace] in *. fold (since w0) in Q |- *.
    rewrite S0, app_length in Q. simpl in Q. rewrite S0, P0, K2 by lia. reflexivity.
Qed.
Section Turns.
Context (seen : list string).
Context (ps : pset) (mx : option Z) (n workers pop_size : nat) (max_n : option Z) (restart : bool).
Hypothesis T : pset_typed ps.
Hypothesis HN : 0 < n.
Context (P : list step -> Prop).
Hypothesis PMUT : forall m old copy ss, P old -> within mx old -> within mx ss -> same_pipeline old copy -> mutated ps m copy ss -> P ss.
Hypothesis PCROSS : forall old1 old2 copy1 copy2 ss other, P old1 -> P old2 -> within mx old1 -> within mx old2 ->
  same_pipeline old1 copy1 -> same_pipeline old2 copy2 -> crossed copy1 copy2 ss other -> P ss.
Hypothesis PNEW : forall ss, pipeline_ok ps ss -> (1 <= Z.of_nat (length ss) <= max_start_length mx)%Z -> P ss.
Context (start : list individual).
Notation Inv := (Inv seen ps n restart P start).
Lemma refill_trace w w' x : refill ps mx n workers w = (x, w') -> since w' = since w /\ v_pop w' = v_pop w.
Proof.
  unfold refill. destruct (_ <=? 1)%Z; [|intros [= <- <-]; auto]. unfold ebind at 1, gp. destruct (create_one ps mx n (v_saved w) (v_pop w) (v_st w)) as [[i|ex] s1]; [|intros [= <- <-]; auto].
  unfold ebind, note, submit. cbn [v_st v_pop v_jobs v_saved v_trace]. intros [= <- <-]. split; auto.
  apply (since_more w _ [Bred i (v_pop w); Submitted i]); simpl; auto; [rewrite <- app_assoc; auto|]. intros [|[|[]]]; discriminate.
Qed.
Lemma submit_all_trace l : forall w w' x, submit_all l w = (x, w') -> x = Ok tt /\ v_trace w' = v_trace w ++ map Submitted l /\ v_pop w' = v_pop w.
Proof.
  induction l as [|i l IH]; intros w w' x H.
  - injection H as <- <-. rewrite app_nil_r. auto.
  - cbn [submit_all] in H. unfold ebind, submit in H. apply IH in H as (-> & H & H'). simpl in *. rewrite H, H', <- app_assoc. auto.
Qed.
Lemma begin_kept l w w' x : (since w = []) -> begin l w = (x, w') -> x = Ok tt /\ all_kept pop_size w'.
Proof.
  intros S0 H. unfold begin, ebind, set_population in H. apply submit_all_trace in H as (-> & H & H'). simpl in *.
  assert (S' : since w' = []).
  { rewrite <- S0. apply (since_more w w' (map Submitted l)); auto.
    - clear. induction l; simpl; auto.
    - intros Hin. apply in_map_iff in Hin as (? & Hin & _). discriminate. }
  split; auto. unfold all_kept. rewrite H', S'. split; [apply part_refl|]. split; auto. simpl. rewrite Nat.min_0_r. auto.
Qed.
Lemma turn_kept e w w' x : Inv w -> all_kept pop_size w -> turn ps mx n workers pop_size restart e w = (x, w') ->
  stopped x -> all_kept pop_size w'.
Proof.
  intros I K H X. assert (PO : popok w) by exact (part_incl _ _ (proj1 K)). unfold turn in H. unfold ebind at 1 in H. destruct (wait_next e w) as [y w1] eqn:E1.
  destruct (wait_inv _ ps n restart HN P start e w w1 y I PO E1) as (I1 & P1 & Ep & Hy).
  destruct y as [[i o]|ex]; [|injection H as <- <-; destruct Hy as (_ & -> & _); destruct X as (_ & _ & X); congruence].
  destruct (wait_trace e w w1 i o E1) as (T1 & _). unfold ebind at 1 in H.
  assert (H2 : exists z w2, (match o with Evaluated scores false => add_to_population pop_size (mkMem i scores) | _ => eret tt end) w1 = (z, w2) /\ Inv w2 /\ all_kept pop_size w2).
  { assert (KEEP : successes [Collected i o] = [] -> all_kept pop_size w1).
    { intros E0. assert (S1 : since w1 = since w) by (apply (since_more w w1 [Collected i o]); auto; intros [|[]]; discriminate). unfold all_kept. rewrite S1, Ep. exact K. }
    destruct o as [|sc []]; try (exists (Ok tt), w1; split; [reflexivity|auto]).
    destruct (add_to_population pop_size (mkMem i sc) w1) as [z w2] eqn:E2. exists z, w2. split; auto.
    assert (HS : In (mkMem i sc) (successes (since_restart (v_trace w1)))) by apply Hy.
    destruct (add_inv _ ps n pop_size restart HN P start _ _ _ _ I1 P1 HS E2) as (A & _). split; auto.
    exact (proj1 (add_kept pop_size i sc w w2 z K w1 T1 Ep E2)). }
  destruct H2 as (z & w2 & E2 & I2 & K2).
  match type of H with (match ?t with _ => _ end) = _ => change t with ((match o with Evaluated scores false => add_to_population pop_size (mkMem i scores) | _ => eret tt end) w1) in H end.
  rewrite E2 in H. destruct z as [[]|ex]; [|injection H as <- <-; auto].
  unfold ebind at 1 in H. destruct (refill ps mx n workers w2) as [z w3] eqn:E3.
  destruct (refill_inv _ ps mx n workers restart T HN P PMUT PCROSS start w2 w3 z I2 (part_incl _ _ (proj1 K2)) E3) as (I3 & P3 & _ & _).
  destruct (refill_trace w2 w3 z E3) as (S3 & Q3). assert (K3 : all_kept pop_size w3) by (unfold all_kept; rewrite S3, Q3; exact K2).
  destruct z as [[]|ex]; [|injection H as <- <-; auto].
  unfold ebind at 1 in H.
  assert (HB : exists b w4, (if restart then gp (mrandom (fun r => let (b, r') := rcoin r in (Ok b, r'))) else eret false) w3 = (Ok b, w4) /\ all_kept pop_size w4 /\ wf_heap (objects w4)).
  { destruct restart; [|exists false, w3; split; [reflexivity|split; [auto|apply I3]]]. unfold gp, mrandom. destruct (rcoin (s_rng (v_st w3))) as [b r'].
    exists b. eexists. split; [reflexivity|]. split; [exact K3|]. apply I3. }
  destruct HB as (b & w4 & E4 & K4 & W4). rewrite E4 in H.
  destruct b; [|injection H as <- <-; auto].
  unfold ebind at 1 in H. unfold note in H. set (w5 := mkEvo (v_st w4) (v_pop w4) (v_jobs w4) (v_saved w4) (v_trace w4 ++ [Restarted])) in *.
  unfold ebind at 1 in H. destruct (individuals ps mx pop_size w5) as [z w6] eqn:E6.
  assert (H6 : v_trace w6 = v_trace w5 /\ forall ex, z = Err ex -> creation_error ps mx ex).
  { clear - E6 W4. assert (W5 : wf_heap (objects w5)) by exact W4. clearbody w5. clear W4. revert w5 w6 z W5 E6. induction pop_size as [|k IH]; intros w w' x W H.
    { injection H as <- <-. split; auto. discriminate. }
    cbn [individuals] in H. unfold ebind at 1, gp in H. pose proof (wp_op_individual ps mx (v_st w) W) as WP. unfold wp in WP.
    destruct (op_individual ps mx (v_st w)) as [[i|ex] s1]; [|injection H as <- <-; split; auto; intros ? [= <-]; apply WP].
    unfold ebind in H. destruct (individuals ps mx k _) as [y w1] eqn:E1. apply IH in E1 as (A & B); [|apply WP].
    destruct y; injection H as <- <-; auto. split; auto. discriminate. }
  destruct H6 as (T6 & Hz).
  destruct z as [l|ex].
  - destruct (begin_kept l w6 w' x) as (_ & ?); auto. unfold since. rewrite T6. simpl. rewrite since_snoc. reflexivity.
  - injection H as <- <-. exfalso. specialize (Hz ex eq_refl). destruct X as (X1 & X2 & _).
    destruct Hz as [(-> & _)|(-> & _)]; congruence.
Qed.
Lemma turns_kept es : forall k w w' x, Inv w -> all_kept pop_size w -> turns ps mx n workers pop_size max_n restart k es w = (x, w') ->
  stopped x -> all_kept pop_size w'.
Proof.
  induction es as [|e es IH]; intros k w w' x I K H X; cbn [turns] in H; destruct (below max_n k); try (injection H as <- <-; auto; fail).
  - destruct (v_jobs w); injection H as <- <-; auto.
  - unfold ebind in H. destruct (turn ps mx n workers pop_size restart e w) as [y w1] eqn:E1.
    destruct (turn_inv _ ps mx n workers pop_size restart T HN P PMUT PCROSS PNEW start e w w1 y I (part_incl _ _ (proj1 K)) E1) as (I1 & _).
    pose proof (turn_kept e w w1 y I K E1) as K1. destruct y as [[]|ex]; [|injection H as <- <-; apply K1; exact X].
    eapply IH; eauto. apply K1. repeat split; discriminate.
Qed.
Lemma ea_kept (s : setting) es w' x : seen_before s = seen -> wf_heap (s_heap s) -> Forall (good_new P s) start ->
  async_ea ps mx n workers pop_size max_n restart start es (fresh_search s) = (x, w') -> stopped x -> all_kept pop_size w'.
Proof.
  intros SB W G H X. unfold async_ea in H. destruct (match max_n with Some m => (m <=? 0)%Z | None => false end).
  { injection H as <- <-. destruct X as (X & _). congruence. }
  unfold ebind in H. destruct (begin start (fresh_search s)) as [y w1] eqn:E1.
  destruct (begin_inv _ ps n restart P start start (fresh_search s) w1 y (fresh_inv ps n restart P start s W)) as (I1 & P1 & -> & _); auto; try rewrite SB in I1.
  - right. split; auto. split; [apply incl_refl|auto].
  - simpl. intros [].
  - eapply turns_kept; eauto. eapply begin_kept; [|exact E1]. reflexivity.
Qed.
End Turns.

(** C150-C152: the model is the best pipeline found. *)
(*IMPORTS*)
Require Import Permutation QArith.
From Verif Require Import Base Num Gp_Model Gp_Spec Gp_Examples Lib_Spec Eval_Model Evo_Model Evo_Spec Evo_Main Rnd_Model Rnd_Spec End_Model End_Spec.
Open Scope nat_scope.
Open Scope list_scope.
(*END*)
From Verif Require Import Nsga_Model Gp_Proofs Gp_Proofs2 Gp_Proofs3 Gp_Proofs4 Gp_Main Lib_Proofs Eval_Main Evo_Proofs Evo_Proofs2 Rnd_Proofs Rnd_Proofs2 Rnd_Proofs3 Rnd_Main End_Proofs.

Lemma hgp_same {A} (m : M A) w x w' : hgp m w = (x, w') -> exists s', m (q_st w) = (x, s') /\ (s' = q_st w -> w' = w) /\ h_objects w' = s_heap s' /\ q_trace w' = q_trace w.
Proof. unfold hgp. destruct (m (q_st w)) as [y s'] eqn:E. intros [= <- <-]. exists s'. split; auto. split; auto. intros ->. destruct w. reflexivity. Qed.
Lemma gp_same {A} (m : M A) w x w' : gp m w = (x, w') -> exists s', m (v_st w) = (x, s') /\ (s' = v_st w -> w' = w).
Proof. unfold gp. destruct (m (v_st w)) as [y s'] eqn:E. intros [= <- <-]. exists s'. split; auto. intros ->. destruct w. reflexivity. Qed.
Lemma in_results t m : In m (results t) -> exists r b, In (Finished (m_ind m) r (Evaluated (m_fit m) b)) t.
Proof.
  induction t as [|[i r|i r [|sc b]] t IH]; simpl; try tauto.
  - intros H. destruct (IH H) as (r' & b & H'). eauto.
  - intros H. destruct (IH H) as (r' & b & H'). eauto.
  - intros [<-|H]; [exists r, b; auto|]. destruct (IH H) as (r' & b' & H'). eauto.
Qed.
Lemma in_scored t r e : In e (scored r t) -> exists l b, In (Finished (m_ind (snd e)) r (Evaluated (m_fit (snd e)) b)) t /\ m_fit (snd e) = fst e :: l.
Proof.
  unfold scored. intros H. apply in_flat_map in H as (x & Hx & H). destruct x as [|i r' [|[|sc l] b]]; try destruct H.
  destruct (Nat.eqb_spec r' r) as [->|N]; [|destruct H]. destruct H as [<-|[]]. exists l, b. auto.
Qed.

(** * The end of the searches *)
Lemma over_stopped x : x = Err Diverges \/ x = Ok tt -> stopped x.
Proof. intros [-> | ->]; repeat split; discriminate. Qed.
Lemma over_cases x a : search_over x = Ok a -> x = Err Diverges \/ x = Ok tt.
Proof. destruct x as [[]|[]]; simpl; auto; discriminate. Qed.
Lemma search_kept ps mx n workers pop_size max_n restart warm es (s : setting) x w : pset_typed ps -> 0 < n -> wf_heap (s_heap s) -> start_ok ps None s warm ->
  search ps mx n workers pop_size max_n restart warm es (fresh_search s) = (x, w) -> stopped x -> all_kept pop_size w.
Proof.
  intros T HN W S H X. pose proof (Evo_Main.start_good ps s warm S) as G. destruct warm as [|i0 warm].
  - cbv delta [search] in H. cbv beta iota in H. unfold ebind in H.
    remember 50 as fifty eqn:E50 in H. clear E50. destruct (individuals ps mx fifty (fresh_search s)) as [y w1] eqn:E1.
    destruct (individuals_inv _ ps mx n restart HN (pipeline_ok ps) (fun ss O _ => O) [] fifty (fresh_search s) w1 y (Evo_Proofs2.fresh_inv ps n restart (pipeline_ok ps) [] s W) E1) as (I1 & W1 & U1 & X1 & Hy).
    destruct y as [l|ex].
    + destruct Hy as (_ & ND & FA). assert (EW : w1 = fresh_search (mkSetting (v_st w1) (seen_before s))) by (rewrite W1 at 1; reflexivity). rewrite EW in H.
      refine (ea_kept _ ps mx n workers pop_size max_n restart T HN (pipeline_ok ps) (ok_mut ps mx T) (ok_cross ps mx T) (fun ss O _ => O) l (mkSetting (v_st w1) (seen_before s)) es w x eq_refl (proj1 X1) _ H X).
      eapply Forall_impl; [|exact FA]. simpl. intros j Hj. apply Hj.
    + injection H as <- <-. exfalso. destruct X as (XA & XB & _). destruct Hy as [(-> & _)|(-> & _)]; congruence.
  - exact (ea_kept _ ps mx n workers pop_size max_n restart T HN (pipeline_ok ps) (ok_mut ps mx T) (ok_cross ps mx T) (fun ss O _ => O) (i0 :: warm) s es w x eq_refl W G H X).
Qed.
Section Rungs.
Context (ps : pset) (mx : option Z) (eta f : nat) (R : Z) (max_full : option Z) (warm : list individual) (es : list event) (s : st).
Hypothesis W : wf_heap (s_heap s).
Hypothesis S : start_ok ps mx s warm.
Hypothesis C : calm_world ps mx f R es.
Lemma asha_end : exists l s1 x w1, Rnd_Model.candidates ps mx warm (fresh_h s) = (Ok l, fresh_h s1) /\
  asha ps mx eta f R max_full es (mkH s1 [] l [] [] []) = (x, w1) /\ Inv ps mx (asha_allowed eta f R l) w1 /\ RI f R l [] w1 /\ OI f R l w1 /\
  ((x = Ok tt /\ full R max_full w1) \/ (x = Err Diverges /\ ~ full R max_full w1)).
Proof.
  destruct (Rnd_Model.candidates ps mx warm (fresh_h s)) as [y w0] eqn:E1. destruct (candidates_ok ps mx warm s y w0 W S E1) as (s1 & -> & W1 & Hy).
  destruct y as [l|e]; [|exfalso; destruct C as (C1 & C2 & _), Hy as (CE & _); eapply no_creation; eauto].
  destruct Hy as (G & _). exists l, s1. destruct (asha ps mx eta f R max_full es (mkH s1 [] l [] [] [])) as [x w1] eqn:E2.
  exists x, w1. split; auto. split; auto. destruct (asha_ok ps mx eta f R l max_full es s1 x w1 W1 G E2) as (I & O & K). split; auto. destruct (K C) as (K1 & _ & K2). split; auto. split; auto.
  destruct K2 as [K2|(K2 & K3 & _)]; auto.
Qed.
End Rungs.
Lemma highest_some l y : highest_reached l = Some y -> In y l /\ g_inds y <> [].
Proof.
  induction l as [|a l IH]; [discriminate|]. simpl. destruct (g_inds a) eqn:E; [intros H; destruct (IH H); auto|]. intros [= <-]. rewrite E. split; [auto|discriminate].
Qed.
Lemma highest_top l y nums : map g_no l = nums -> (forall l1 a l2 b, nums = l1 ++ a :: l2 -> In b l2 -> b < a) -> highest_reached l = Some y ->
  forall z, In z l -> g_no y < g_no z -> g_inds z = [].
Proof.
  revert nums. induction l as [|a l IH]; [discriminate|]. simpl. intros nums E D H z Hz L.
  assert (D0 : forall b, In b (map g_no l) -> b < g_no a) by (intros b; apply (D [] (g_no a) (map g_no l)); auto).
  destruct (g_inds a) eqn:EA.
  - destruct Hz as [<-|Hz]; auto. eapply (IH (map g_no l)); eauto. intros l1 a' l2 b E' Hb. apply (D (g_no a :: l1) a' l2 b); auto. rewrite <- E, E'. reflexivity.
  - injection H as <-. exfalso. destruct Hz as [<-|Hz]; [lia|]. apply in_map with (f := g_no) in Hz. apply D0 in Hz. lia.
Qed.
Lemma highest_none l : highest_reached l = None -> forall y, In y l -> g_inds y = [].
Proof. induction l as [|a l IH]; simpl; [intros _ y []|]. destruct (g_inds a) eqn:E; [|discriminate]. intros H y [<-|Hy]; auto. Qed.
Lemma seq_decreasing f k : forall l1 a l2 b, rev (seq f k) = l1 ++ a :: l2 -> In b l2 -> b < a.
Proof.
  induction k as [|k IH]; intros l1 a l2 b H Hb; [destruct l1; discriminate|]. rewrite seq_S, rev_app_distr in H. simpl in H. destruct l1 as [|c l1].
  - injection H as <- <-. apply in_rev, in_seq in Hb. lia.
  - injection H as _ H. eapply IH; eauto.
Qed.
Section Ends.
Context (ps : pset) (mx : option Z) (eta f : nat) (R : Z) (l : list individual) (w : hst).
Hypothesis I : Inv ps mx (asha_allowed eta f R l) w.
Hypothesis RR : RI f R l [] w.
Hypothesis O : OI f R l w.
Lemma scored_rung r : scored r (q_trace w) <> [] -> exists y, In y (q_rungs w) /\ g_no y = r /\ g_inds y = scored r (q_trace w).
Proof.
  intros H. destruct (scored r (q_trace w)) as [|e t] eqn:ES; [congruence|]. assert (He : In e (scored r (q_trace w))) by (rewrite ES; left; auto).
  apply in_scored in He as (sc & b & He & _). apply in_split in He as (t1 & t2 & He).
  destruct (h_answers _ _ _ w I _ _ _ _ _ He) as (j & ss & Hj & _). assert (HS : In (Started j r) (q_trace w)) by (rewrite He; apply in_or_app; auto).
  apply (oi_rungs _ _ _ w O) in HS. destruct RR as [A B _]. assert (HM : In r (map g_no (q_rungs w))) by (rewrite A; apply in_rev; rewrite rev_involutive; auto).
  apply in_map_iff in HM as (y & Ey & Hy). exists y. split; auto. split; auto. destruct (B y Hy) as (B1 & _). congruence.
Qed.
Lemma rung_scored y : In y (q_rungs w) -> g_inds y = scored (g_no y) (q_trace w).
Proof. intros H. apply (ri_all _ _ _ _ w RR y H). Qed.
Lemma scored_pipeline r m : In m (map snd (scored r (q_trace w))) -> exists ss, is_pipeline (h_objects w) (m_ind m) ss /\ pipeline_ok ps ss /\ within mx ss.
Proof.
  intros H. apply in_map_iff in H as (e & <- & He). apply in_scored in He as (sc & b & He & _).
  destruct (h_seen _ _ _ w I (m_ind (snd e))) as (_ & G); [exists r; right; eauto|exact G].
Qed.
Lemma highest_ok y : highest_reached (q_rungs w) = Some y ->
  rung_inds y = map snd (scored (g_no y) (q_trace w)) /\ scored (g_no y) (q_trace w) <> [] /\ forall r, g_no y < r -> scored r (q_trace w) = [].
Proof.
  intros H. destruct (highest_some _ _ H) as (H1 & H2). rewrite (rung_scored y H1) in H2. split; [unfold rung_inds; rewrite (rung_scored y H1); auto|]. split; auto.
  intros r L. destruct (scored r (q_trace w)) as [|e t] eqn:ES; auto. exfalso. destruct (scored_rung r) as (z & Hz & <- & Ez); [congruence|].
  rewrite (highest_top (q_rungs w) y _ (ri_nos _ _ _ _ w RR) (seq_decreasing _ _) H z Hz L) in Ez. congruence.
Qed.
Lemma none_ok : highest_reached (q_rungs w) = None -> forall r, scored r (q_trace w) = [].
Proof.
  intros H r. destruct (scored r (q_trace w)) as [|e t] eqn:ES; auto. exfalso. destruct (scored_rung r) as (z & Hz & <- & Ez); [congruence|].
  rewrite (highest_none _ H z Hz) in Ez. congruence.
Qed.
Lemma top_is y l' : q_rungs w = y :: l' -> g_inds y <> [] -> highest_reached (q_rungs w) = Some y.
Proof. intros -> H. simpl. destruct (g_inds y); [congruence|auto]. Qed.
End Ends.

(** C150.  fit with random search: the model's steps are those of one of the pipelines
    evaluated (failed evaluations included), from the search space and within the limit,
    and no other had a better score: by the first metric, then the second, and so on. *)
Lemma C150_best_main :
  forall E (build : nat -> list (string * value) -> res E) fixed ps max_length max_n warm_start events s steps w,
  wf_heap (s_heap s) -> start_ok ps max_length s warm_start -> clear_names ps ->
  fit_random build fixed ps max_length max_n warm_start events (fresh_h s) = (Ok steps, w) ->
  Forall numeric (results (q_trace w)) ->
  exists m ss, In m (results (q_trace w)) /\ (forall m', In m' (results (q_trace w)) -> ~ lex_lt (m_fit m) (m_fit m')) /\
    is_pipeline (h_objects w) (m_ind m) ss /\ pipeline_ok ps ss /\ within max_length ss /\
    made_from build fixed ss steps.
Proof.
  intros E build fixed ps mx max_n warm es s steps w W S CN H NU. unfold fit_random in H.
  destruct (rs_phase ps mx max_n warm es (fresh_h s)) as [x w1] eqn:ER. destruct (rs_ok ps mx max_n warm es s x w1 W S ER) as ((start & I) & _ & O & _).
  destruct (search_over x) as [a|e]; [|discriminate]. apply hgp_same in H as (s' & H & SAME & _ & TR). rewrite TR in *. unfold out_ok in O. rewrite O in H.
  destruct (best_model_ok build fixed (results (q_trace w1)) (q_st w1) steps s' (fun ss => pipeline_ok ps ss /\ within mx ss)) as (-> & m & ss & Hm & Mx & C & (O1 & O2) & MF); auto.
  - apply I.
  - intros m Hm. rewrite Forall_forall in NU. exact (NU m Hm).
  - intros m Hm. apply in_results in Hm as (r & b & Hm). destruct (h_seen _ _ _ w1 I (m_ind m)) as (_ & ss & C & O1 & O2); [exists r; right; eauto|].
    exists ss. split; auto. split; [eapply clear_unambiguous; eauto|auto].
  - rewrite (SAME eq_refl). exists m, ss. auto 8.
Qed.
(** C150: with a search space from which pipelines can be made and estimators that can be
    constructed, fit with random search fails only if no evaluation was finished in time. *)
Lemma C150_always_main :
  forall E (build : nat -> list (string * value) -> res E) fixed ps max_length max_n warm_start events s x w,
  wf_heap (s_heap s) -> start_ok ps max_length s warm_start -> pset_rich ps -> allows_one max_length ->
  (forall c kwargs, exists e, build c kwargs = Ok e) ->
  fit_random build fixed ps max_length max_n warm_start events (fresh_h s) = (x, w) ->
  (results (q_trace w) = [] /\ x = Err IndexError) \/ (results (q_trace w) <> [] /\ exists steps, x = Ok steps).
Proof.
  intros E build fixed ps mx max_n warm es s x w W S R1 R2 B H. unfold fit_random in H.
  destruct (rs_phase ps mx max_n warm es (fresh_h s)) as [y w1] eqn:ER. destruct (rs_ok ps mx max_n warm es s y w1 W S ER) as ((start & I) & _ & O & _ & K).
  destruct (K R1 R2) as (_ & K2). assert (SO : search_over y = Ok tt). { destruct max_n; [destruct K2 as [(-> & _)|(-> & _)]|destruct K2 as (-> & _)]; reflexivity. }
  rewrite SO in H. apply hgp_same in H as (s' & H & SAME & _ & TR). rewrite TR in *. unfold out_ok in O. rewrite O in H.
  destruct (best_model_total build fixed (results (q_trace w1)) (q_st w1)) as [(E0 & H')|(E0 & steps & H')]; auto.
  - apply I.
  - intros m Hm. apply in_results in Hm as (r & b & Hm). destruct (h_seen _ _ _ w1 I (m_ind m)) as (_ & ss & C & O1 & O2); [exists r; right; eauto|]. eauto.
  - left. split; auto. congruence.
  - right. split; auto. exists steps. congruence.
Qed.

(** C151.  fit with the evolutionary search: the model's steps are those of a pipeline of
    the search space that was evaluated successfully, and the best of the final
    population; it is the best of all successes since the last restart if they were at most
    as many as the population can hold.  Missing: the best of all successes. *)
Lemma C151_best_partial_main :
  forall E (build : nat -> list (string * value) -> res E) fixed ps max_length max_retry workers pop_size max_n restart warm_start events (s : setting) steps w,
  pset_typed ps -> 0 < max_retry -> wf_heap (s_heap s) -> start_ok ps None s warm_start -> clear_names ps ->
  fit_evo build fixed ps max_length max_retry workers pop_size max_n restart warm_start events (fresh_search s) = (Ok steps, w) ->
  let found := successes (since_restart (v_trace w)) in
  Forall numeric found ->
  incl (v_pop w) found /\
  exists m ss, In m (v_pop w) /\ (forall m', In m' (v_pop w) -> ~ lex_lt (m_fit m) (m_fit m')) /\
    (length found <= pop_size -> forall m', In m' found -> ~ lex_lt (m_fit m) (m_fit m')) /\
    is_pipeline (objects w) (m_ind m) ss /\ pipeline_ok ps ss /\ made_from build fixed ss steps.
Proof.
  intros E build fixed ps mx n workers pop_size max_n restart warm es s steps w T HN W S CN H found NU. unfold found in *. clear found. unfold fit_evo in H.
  destruct (search ps mx n workers pop_size max_n restart warm es (fresh_search s)) as [x w1] eqn:ER.
  destruct (search_ok _ _ _ _ _ _ _ _ _ _ _ _ T HN W S ER) as (start & I & _).
  destruct (search_over x) as [a|e] eqn:SO; [|discriminate]. apply over_cases in SO.
  destruct (search_kept _ _ _ _ _ _ _ _ _ _ _ _ T HN W S ER (over_stopped _ SO)) as (K0 & K2 & _). pose proof (part_incl _ _ K0) as K1. unfold since in K1, K2.
  assert (TR : v_trace w = v_trace w1). { unfold gp in H. destruct (best_model build fixed (v_pop w1) (v_st w1)). injection H as _ <-. reflexivity. }
  apply gp_same in H as (s' & H & SAME). rewrite TR in NU. rewrite Forall_forall in NU.
  destruct (best_model_ok build fixed (v_pop w1) (v_st w1) steps s' (pipeline_ok ps)) as (-> & m & ss & Hm & Mx & C & O1 & MF); auto.
  - apply I.
  - intros m Hm. exact (NU m (K1 m Hm)).
  - intros m Hm. destruct (n_known _ _ _ _ _ _ w1 I (m_ind m)) as (_ & ss & C & O1).
    + apply K1, in_successes, since_incl in Hm. eexists. split; [exact Hm|reflexivity].
    + exists ss. split; auto. split; auto. eapply clear_unambiguous; eauto.
  - rewrite (SAME eq_refl). split; auto. exists m, ss. split; auto. split; auto. split; [|auto]. intros L m' Hm'. apply Mx. rewrite K2; auto.
Qed.
(** C151: it need not be the best: elimination from the population can remove the one with
    the best score. *)
Definition ex_scores (a b : Z) : event := mkEv 0 (Evaluated [Fin (a # 1); Fin (b # 1)] false).
Definition ex_class (c : nat) (kwargs : list (string * value)) : res nat := Ok c.
Notation ex_lost := (fit_evo ex_class [("imp"%string, 9)] ex_ps None 50 1 5 None false ex_start (ex_scores 9 (-3) :: repeat (ex_scores 1 (-2)) 5) (fresh_search (first_fit (ex_begin [])))).
Lemma ex_clear : clear_names ex_ps.
Proof.
  intros k p ts Hp F. unfold prims_of, ex_ps in Hp. simpl in Hp.
  assert (HT : forall i t, In t (terms_of ex_ps i) -> (i = "alpha" /\ t_output t = "alpha" \/ i = "BNB.fit_prior" /\ t_output t = "fit_prior" \/ i = "Bin.threshold" /\ t_output t = "threshold")%string).
  { intros i t H. unfold terms_of, ex_ps in H. simpl in H. destruct (String.eqb_spec i "alpha") as [->|_]; [left; split; auto; simpl in H; destruct H as [<-|[<-|[]]]; reflexivity|].
    destruct (String.eqb_spec i "BNB.fit_prior") as [->|_]; [right; left; split; auto; simpl in H; destruct H as [<-|[<-|[]]]; reflexivity|].
    destruct (String.eqb_spec i "Bin.threshold") as [->|_]; [right; right; split; auto; simpl in H; destruct H as [<-|[<-|[]]]; reflexivity|]. destruct H. }
  assert (HP : p = ex_bnb \/ p = ex_gnb \/ p = ex_bin \/ p = ex_pca).
  { destruct (String.eqb k "prediction"); [simpl in Hp; intuition|]. destruct (String.eqb k "data"); [simpl in Hp; intuition|]. destruct Hp. }
  destruct HP as [HP | [HP | [HP | HP]]]; subst p; simpl in F.
  - inversion F as [|? t1 ? l1 A1 F1]; subst. inversion F1 as [|? t2 ? l2 A2 F2]; subst. inversion F2; subst.
    apply HT in A1, A2. destruct A1 as [(_ & A1)|[(A1 & _)|(A1 & _)]]; try discriminate. destruct A2 as [(A2 & _)|[(_ & A2)|(A2 & _)]]; try discriminate.
    simpl. rewrite A1, A2. repeat constructor; simpl; intuition discriminate.
  - inversion F; subst. constructor.
  - inversion F as [|? t1 ? l1 A1 F1]; subst. inversion F1; subst. simpl. repeat constructor. intros [].
  - inversion F; subst. constructor.
Qed.
Lemma C151_best_refuted_main :
  ~ (forall E (build : nat -> list (string * value) -> res E) fixed ps max_length max_retry workers pop_size max_n restart warm_start events (s : setting) steps w,
     pset_typed ps -> pset_rich ps -> 0 < max_retry -> 3 <= pop_size -> wf_heap (s_heap s) -> start_ok ps None s warm_start -> clear_names ps ->
     fit_evo build fixed ps max_length max_retry workers pop_size max_n restart warm_start events (fresh_search s) = (Ok steps, w) ->
     let found := successes (since_restart (v_trace w)) in
     Forall numeric found ->
     exists m ss, In m found /\ (forall m', In m' found -> ~ lex_lt (m_fit m) (m_fit m')) /\
       is_pipeline (objects w) (m_ind m) ss /\ made_from build fixed ss steps).
Proof.
  intros H. assert (E1 := surjective_pairing ex_lost).
  assert (E2 : fst ex_lost = Ok [("imp", 9); ("2", 3); ("1", 2); ("0", 1)]%string) by (vm_compute; reflexivity). rewrite E2 in E1. clear E2.
  specialize (H _ _ _ _ _ _ _ _ _ _ _ _ (first_fit _) _ _ ex_typed ex_rich (Nat.lt_0_succ 49) (le_n_S 2 4 (le_S _ _ (le_S _ _ (le_n 2)))) (ex_begin_wf ex_p1 _ eq_refl) (start_none _ _ _ _ (ex_start_ok 3 _ (Z.le_refl 3))) ex_clear E1).
  cbv zeta in H. clear E1.
  assert (EF : successes (since_restart (v_trace (snd ex_lost))) =
    mkMem (mkInd 14 0 [] "new") [Fin (9 # 1); Fin ((-3) # 1)] :: map (fun i => mkMem i [Fin (1 # 1); Fin ((-2) # 1)]) (map m_ind (tl (successes (since_restart (v_trace (snd ex_lost))))))) by (vm_compute; reflexivity).
  assert (EL : length (tl (successes (since_restart (v_trace (snd ex_lost))))) = 5) by (vm_compute; reflexivity).
  remember (tl (successes (since_restart (v_trace (snd ex_lost))))) as rest. clear Heqrest. rewrite EF in H. clear EF.
  destruct H as (m & ss & Hm & Mx & C & (own & Es & F)).
  { constructor; [repeat constructor; discriminate|]. apply Forall_forall. intros m Hm. apply in_map_iff in Hm as (i & <- & _). repeat constructor; discriminate. }
  assert (Em : m = mkMem (mkInd 14 0 [] "new") [Fin (9 # 1); Fin ((-3) # 1)]).
  { destruct Hm as [<-|Hm]; auto. exfalso. apply in_map_iff in Hm as (i & <- & _). apply (Mx (mkMem (mkInd 14 0 [] "new") [Fin (9 # 1); Fin ((-3) # 1)])); [left; auto|].
    exists 0. split; [intros j L; lia|]. left. simpl. split; [lia|]. split; [lia|]. reflexivity. }
  subst m. cbn [m_ind] in C. clear Hm Mx.
  assert (C' : is_pipeline (objects (snd ex_lost)) (mkInd 14 0 [] "new") ex_p1) by (apply read_ok; vm_compute; reflexivity).
  rewrite (is_pipeline_fun _ _ _ _ C C') in F. simpl in Es. injection Es as <-. unfold ex_p1 in F. simpl in F.
  inversion F as [|? ? ? ? _ F1]; subst. inversion F1 as [|? ? ? ? _ F2]; subst. inversion F2 as [|? ? ? ? (kw & K & _) _]; subst. discriminate.
Qed.
(** C151: without a length limit, or with one the operators can respect, enough start
    candidates and enough successes among the first results, fit with the evolutionary
    search returns a model. *)
Lemma C151_always_partial_main :
  forall E (build : nat -> list (string * value) -> res E) fixed ps max_length max_retry workers pop_size warm_start events k (s : setting) x w,
  pset_typed ps -> pset_rich ps -> roomy ps max_length -> 0 < max_retry -> 2 <= k -> 3 <= pop_size ->
  wf_heap (s_heap s) -> start_ok ps max_length s warm_start -> workers + 4 <= length warm_start -> Forall (calm k) events ->
  (forall l1 l2, events = l1 ++ l2 -> length warm_start - workers - 1 <= length l1 -> 3 <= n_succeeded l1) ->
  (forall c kwargs, exists e, build c kwargs = Ok e) ->
  fit_evo build fixed ps max_length max_retry workers pop_size None false warm_start events (fresh_search s) = (x, w) ->
  (n_succeeded events = 0 /\ x = Err IndexError) \/ (0 < n_succeeded events /\ exists steps, x = Ok steps).
Proof.
  intros E build fixed ps mx n workers pop_size warm es k s x w T R1 R2 HN K2 P3 W S S4 CA H3 B H.
  destruct (C147_keeps_running_partial_main ps mx n workers pop_size None warm es k s T R1 R2 HN K2 P3 W S S4 CA H3) as (w1 & ER & _ & _ & LP).
  unfold fit_evo in H. rewrite ER in H. cbn [search_over] in H. pose proof (start_none _ _ _ _ S) as S0.
  destruct (search_ok _ _ _ _ _ _ _ _ _ _ _ _ T HN W S0 ER) as (start & I & _).
  destruct (search_kept _ _ _ _ _ _ _ _ _ _ _ _ T HN W S0 ER (over_stopped _ (or_introl eq_refl))) as (K0 & _). pose proof (part_incl _ _ K0) as K1. unfold since in K1.
  apply gp_same in H as (s' & H & _).
  destruct (best_model_total build fixed (v_pop w1) (v_st w1)) as [(E0 & H')|(E0 & steps & H')]; auto.
  - apply I.
  - intros m Hm. destruct (n_known _ _ _ _ _ _ w1 I (m_ind m)) as (_ & ss & C & _); [|eauto].
    apply K1, in_successes, since_incl in Hm. eexists. split; [exact Hm|reflexivity].
  - left. rewrite E0 in LP. simpl in LP. split; [lia|congruence].
  - right. destruct (v_pop w1); [congruence|]. simpl in LP. split; [lia|]. exists steps. congruence.
Qed.

(** C152.  fit with ASHA: the model's steps are those of a pipeline evaluated on the
    highest rung with any result, and the best of those; from the search space and within
    the limit. *)
Lemma C152_best_main :
  forall E (build : nat -> list (string * value) -> res E) fixed ps max_length eta first_rung max_rung max_full warm_start events s steps w,
  wf_heap (s_heap s) -> start_ok ps max_length s warm_start -> pset_rich ps -> allows_one max_length -> clear_names ps ->
  (Z.of_nat first_rung <= max_rung)%Z -> Forall has_score events ->
  fit_asha build fixed ps max_length eta first_rung max_rung max_full warm_start events (fresh_h s) = (Ok steps, w) ->
  (forall r, Forall numeric (map snd (scored r (q_trace w)))) ->
  exists r m ss, In m (map snd (scored r (q_trace w))) /\ (forall r', r < r' -> scored r' (q_trace w) = []) /\
    (forall m', In m' (map snd (scored r (q_trace w))) -> ~ lex_lt (m_fit m) (m_fit m')) /\
    is_pipeline (h_objects w) (m_ind m) ss /\ pipeline_ok ps ss /\ within max_length ss /\
    made_from build fixed ss steps.
Proof.
  intros E build fixed ps mx eta f R mf warm es s steps w W S R1 R2 CN R3 R4 H NU.
  destruct (asha_end ps mx eta f R mf warm es s W S) as (l & s1 & x & w1 & E1 & E2 & I & RR & O & CA); [split; auto|].
  unfold fit_asha in H. unfold hbind in H. rewrite E1 in H. cbn [q_st q_jobs q_start q_rungs q_out q_trace fresh_h] in H. rewrite E2 in H.
  destruct (asha_output x (q_rungs w1)) as [pop|e] eqn:EO; [|discriminate].
  assert (TR : q_trace w = q_trace w1) by (apply hgp_same in H as (s' & _ & _ & _ & TR); exact TR). rewrite TR in *.
  apply hgp_same in H as (s' & H & SAME & _ & _).
  assert (NE : pop <> []) by (intros ->; unfold best_model in H; simpl in H; discriminate).
  assert (HR : exists r, pop = map snd (scored r (q_trace w1)) /\ forall r', r < r' -> scored r' (q_trace w1) = []).
  { assert (HH : exists y, highest_reached (q_rungs w1) = Some y /\ pop = rung_inds y).
    { destruct CA as [(-> & _)|(-> & _)]; simpl in EO.
      - destruct (q_rungs w1) as [|y l'] eqn:EQ; [discriminate|]. injection EO as <-. exists y. split; auto. simpl. destruct (g_inds y) eqn:EY; auto. exfalso. apply NE. unfold rung_inds. rewrite EY. reflexivity.
      - destruct (highest_reached (q_rungs w1)) as [y|]; [|discriminate]. injection EO as <-. exists y. auto. }
    destruct HH as (y & HH & ->). destruct (highest_ok ps mx eta f R l w1 I RR O y HH) as (A & _ & B). exists (g_no y). auto. }
  destruct HR as (r & -> & HR). specialize (NU r). rewrite Forall_forall in NU.
  destruct (best_model_ok build fixed (map snd (scored r (q_trace w1))) (q_st w1) steps s' (fun ss => pipeline_ok ps ss /\ within mx ss)) as (-> & m & ss & Hm & Mx & C & (O1 & O2) & MF); auto.
  - apply I.
  - intros m Hm. destruct (scored_pipeline ps mx eta f R l w1 I r m Hm) as (ss & C & O1 & O2). exists ss. split; auto. split; [eapply clear_unambiguous; eauto|auto].
  - rewrite (SAME eq_refl). exists r, m, ss. auto 9.
Qed.
(** C152: with a search space from which pipelines can be made and estimators that can be
    constructed, fit with ASHA fails only if there is no result on any rung. *)
Lemma C152_always_main :
  forall E (build : nat -> list (string * value) -> res E) fixed ps max_length eta first_rung max_rung max_full warm_start events s x w,
  wf_heap (s_heap s) -> start_ok ps max_length s warm_start -> pset_rich ps -> allows_one max_length ->
  (Z.of_nat first_rung <= max_rung)%Z -> Forall has_score events ->
  (match max_full with None => True | Some m => (0 < m)%Z end) ->
  (forall c kwargs, exists e, build c kwargs = Ok e) ->
  fit_asha build fixed ps max_length eta first_rung max_rung max_full warm_start events (fresh_h s) = (x, w) ->
  ((forall r, scored r (q_trace w) = []) /\ x = Err UnboundLocalError) \/
  ((exists r, scored r (q_trace w) <> []) /\ exists steps, x = Ok steps).
Proof.
  intros E build fixed ps mx eta f R mf warm es s x w W S R1 R2 R3 R4 MF B H.
  destruct (asha_end ps mx eta f R mf warm es s W S) as (l & s1 & y & w1 & E1 & E2 & I & RR & O & CA); [split; auto|].
  unfold fit_asha in H. unfold hbind in H. rewrite E1 in H. cbn [q_st q_jobs q_start q_rungs q_out q_trace fresh_h] in H. rewrite E2 in H.
  assert (HH : (exists z, highest_reached (q_rungs w1) = Some z /\ asha_output y (q_rungs w1) = Ok (rung_inds z)) \/ (highest_reached (q_rungs w1) = None /\ asha_output y (q_rungs w1) = Err UnboundLocalError)).
  { destruct CA as [(-> & FU)|(-> & _)]; simpl.
    - left. destruct (q_rungs w1) as [|z l'] eqn:EQ.
      + exfalso. pose proof (ri_nos _ _ _ _ w1 RR) as A. rewrite EQ in A. simpl in A. apply (f_equal (@length nat)) in A. rewrite rev_length in A. unfold rung_numbers in A. rewrite seq_length in A. simpl in A. lia.
      + exists z. split; auto. simpl. destruct (g_inds z) eqn:EZ; auto. exfalso.
        pose proof (ri_nos _ _ _ _ w1 RR) as A. rewrite EQ in A. unfold rung_numbers in A. replace (Z.to_nat (R + 1 - Z.of_nat f)) with (Datatypes.S (Z.to_nat R - f)) in A by lia.
        rewrite seq_S, rev_app_distr in A. simpl in A. injection A as A _.
        rewrite (rung_scored f R l w1 RR z) in EZ by (rewrite EQ; left; auto). replace (g_no z) with (Z.to_nat R) in EZ by lia.
        unfold full in FU. destruct mf as [m|]; [|contradiction]. rewrite EZ in FU. simpl in FU. lia.
    - destruct (highest_reached (q_rungs w1)) as [z|]; [left; exists z; auto|right; auto]. }
  destruct HH as [(z & HZ & EO)|(HZ & EO)]; rewrite EO in H.
  - right. destruct (highest_ok ps mx eta f R l w1 I RR O z HZ) as (A & A2 & _). rewrite A in H. apply hgp_same in H as (s' & H & _ & _ & TR). rewrite TR. split; [eauto|].
    destruct (best_model_total build fixed (map snd (scored (g_no z) (q_trace w1))) (q_st w1)) as [(E0 & _)|(E0 & steps & H')]; auto.
    + apply I.
    + intros m Hm. destruct (scored_pipeline ps mx eta f R l w1 I (g_no z) m Hm) as (ss & C & _). eauto.
    + exfalso. apply map_eq_nil in E0. auto.
    + exists steps. congruence.
  - left. injection H as <- <-. split; auto. exact (none_ok ps mx eta f R l w1 I RR O HZ).
Qed.

(** * Examples *)
Notation ex_fit_rs := (fit_random ex_class [("imp"%string, 9)] ex_ps (Some 3%Z) (Some 3%Z) ex_start
  [ex_win 1; ex_crash; mkEv 2 (Evaluated [Fin (0 # 1); Fin (0 # 1)] true); ex_win 2; ex_win 3]
  (fresh_h (ex_begin [4; 0; 2; 6; 1; 3; 0; 2; 5; 7; 1; 2; 3]))).
Example C150_ex_main :
  clear_names ex_ps /\ fst ex_fit_rs = Ok [("imp", 9); ("2", 2); ("1", 3); ("0", 1)]%string /\
  map (fun m => (i_id (m_ind m), m_fit m)) (results (q_trace (snd ex_fit_rs))) = [(0, [Fin 1; Fin (-3 # 1)]); (4, [Fin 0; Fin 0]); (2, [Fin (2 # 1); Fin (-3 # 1)])] /\
  Forall numeric (results (q_trace (snd ex_fit_rs))) /\
  (* nothing evaluated *)
  fst (fit_random ex_class [] ex_ps (Some 3%Z) None ex_start [ex_crash] (fresh_h (ex_begin []))) = Err IndexError.
Proof.
  split; [apply ex_clear|]. split; [vm_compute; reflexivity|]. split; [vm_compute; reflexivity|]. split; [|vm_compute; reflexivity].
  vm_compute. repeat (constructor; try discriminate).
Qed.
Notation ex_fit_evo := (fit_evo ex_class [("imp"%string, 9)] ex_ps None 50 1 5 None false ex_start (map ex_win [1; 4; 3; 2]%Z) (fresh_search (first_fit (ex_begin [])))).
Example C151_ex_main :
  fst ex_fit_evo = Ok [("imp", 9); ("2", 3); ("1", 2); ("0", 0)]%string /\
  map (fun m => (i_id (m_ind m), m_fit m)) (successes (since_restart (v_trace (snd ex_fit_evo)))) =
    [(0, [Fin 1; Fin (-3 # 1)]); (1, [Fin (4 # 1); Fin (-3 # 1)]); (2, [Fin (3 # 1); Fin (-3 # 1)]); (3, [Fin (2 # 1); Fin (-3 # 1)])] /\
  Forall numeric (successes (since_restart (v_trace (snd ex_fit_evo)))).
Proof.
  split; [vm_compute; reflexivity|]. split; [vm_compute; reflexivity|]. vm_compute. repeat (constructor; try discriminate).
Qed.
Notation ex_fit_asha n := (fit_asha ex_class [("imp"%string, 9)] ex_ps (Some 3%Z) 3 0 2 (Some 1%Z) ex_start
  (map ex_win (firstn n [5; 1; 2; 3; 4; 6; 7; 8; 9; 10; 11; 12; 13; 14; 15; 16; 17; 18; 19; 20; 21; 22; 23; 24; 25; 26]%Z))
  (fresh_h (ex_begin [4; 0; 2; 6; 1; 3; 0; 2; 5; 7; 1; 2; 3]))).
Example C152_ex_main :
  (* to the end, stopped on the middle rung, on the first, and before any result *)
  (exists steps, fst (ex_fit_asha 26) = Ok steps) /\ map (fun e => i_id (m_ind (snd e))) (scored 2 (q_trace (snd (ex_fit_asha 26)))) = [8] /\
  (exists steps, fst (ex_fit_asha 20) = Ok steps) /\ scored 2 (q_trace (snd (ex_fit_asha 20))) = [] /\
  map (fun e => (i_id (m_ind (snd e)), fst e)) (scored 1 (q_trace (snd (ex_fit_asha 20)))) = [(4, Fin (11 # 1)); (5, Fin (14 # 1)); (8, Fin (17 # 1))] /\
  (exists steps, fst (ex_fit_asha 2) = Ok steps) /\ fst (ex_fit_asha 0) = Err UnboundLocalError /\
  Forall numeric (map snd (scored 1 (q_trace (snd (ex_fit_asha 20))))).
Proof.
  split; [eexists; vm_compute; reflexivity|]. split; [vm_compute; reflexivity|]. split; [eexists; vm_compute; reflexivity|]. split; [vm_compute; reflexivity|].
  split; [vm_compute; reflexivity|]. split; [eexists; vm_compute; reflexivity|]. split; [vm_compute; reflexivity|]. vm_compute. repeat (constructor; try discriminate).
Qed.

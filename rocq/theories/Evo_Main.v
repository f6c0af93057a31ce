(** C144-C147: the evolutionary search on pipelines. *)
(*IMPORTS*)
Require Import Permutation QArith.
From Verif Require Import Base Num Gp_Model Gp_Spec Gp_Examples Cov_Spec Evo_Model Evo_Spec.
Open Scope nat_scope.
Open Scope list_scope.
(*END*)
From Verif Require Import Nsga_Model Par_Model Gp_Proofs Gp_Proofs2 Gp_Proofs3 Gp_Proofs4 Evo_Proofs Evo_Proofs2 Evo_Proofs3 Evo_Proofs4.

(** * Example: five candidates, limit 3, one worker *)
Definition ex_p1 : list step := [(ex_bnb, [ex_alpha1; ex_fit1]); (ex_bin, [ex_thr1]); (ex_pca, [])].
Definition ex_p2 : list step := [(ex_bnb, [ex_alpha2; ex_fit1]); (ex_bin, [ex_thr2]); (ex_pca, [])].
Definition ex_p3 : list step := [(ex_gnb, []); (ex_pca, []); (ex_bin, [ex_thr1])].
Definition ex_p4 : list step := [(ex_bnb, [ex_alpha2; ex_fit2])].
Definition ex_p5 : list step := [(ex_gnb, []); (ex_pca, [])].
Definition ex_start : list individual :=
  [mkInd 0 0 [] "new"; mkInd 3 1 [] "new"; mkInd 6 2 [] "new"; mkInd 9 3 [] "new"; mkInd 10 4 [] "new"].
Definition ex_begin (r : rng) : st := mkSt (ex_heap [ex_p1; ex_p2; ex_p3; ex_p4; ex_p5]) r 5.
Definition ex_win (z : Z) : event := mkEv 0 (Evaluated [Fin (z # 1); Fin ((-3) # 1)] false).
Definition ex_fail : event := mkEv 0 (Evaluated [Fin (0 # 1); Fin (0 # 1)] true).
Definition ex_crash : event := mkEv 0 Raised.
Definition ex_wins : list event := map ex_win [1; 2; 3; 4; 5; 6]%Z.
Notation ex_run3 := (search ex_ps (Some 3%Z) 50 1 5 None false ex_start ex_wins
  (fresh_search (first_fit (ex_begin [3; 7; 1; 11; 1; 7; 5; 8; 7; 6; 5; 11; 5; 9; 7; 9; 11; 11; 10; 8; 11; 1; 4; 8; 9; 4; 5; 6; 5; 7; 0; 4; 6; 8; 1; 10; 8; 9; 10; 6; 2; 8])))).
Definition ex_p6 : list step := [(ex_bnb, [ex_alpha1; ex_fit1]); (ex_pca, []); (ex_bin, [ex_thr1])].
Notation ex_run6 := (search ex_ps None 50 1 5 None false ex_start (map ex_win [1; 2; 3]%Z)
  (fresh_search (first_fit (mkSt (ex_heap [ex_p6; ex_p2; ex_p3; ex_p4; ex_p5]) [] 5)))).
Definition ex_later_rng : rng := [3; 7; 1; 11; 1; 7; 5; 8; 7; 6; 5; 11; 5; 9; 7; 9; 11; 11; 10; 8; 11; 1; 4; 8; 9; 4; 5; 6; 5; 7; 0; 4; 6; 8; 1; 10; 8; 9; 10; 6; 2; 8].
(** the text of a pipeline that an earlier fit evaluated *)
Definition ex_seen : string := "BNB(Bin(PCA(Bin(data, Bin.threshold=0.5)), Bin.threshold=0.5), alpha=0.1, BNB.fit_prior=True)".
Notation ex_later seen := (search ex_ps None 50 1 5 None false ex_start (map ex_win [1; 2; 3]%Z ++ [ex_fail]) (fresh_search (mkSetting (ex_begin ex_later_rng) seen))).
Notation ex_run7 := (search ex_ps None 50 1 5 None false ex_start (map ex_win [1; 2; 3]%Z ++ [ex_fail]) (fresh_search (first_fit (ex_begin [])))).
Notation ex_run8 := (search ex_ps None 50 1 5 None true ex_start (map ex_win [1; 2; 3; 4; 5; 6]%Z ++ [ex_fail; ex_crash]) (fresh_search (first_fit (ex_begin [4; 0; 2; 6; 1; 3; 0; 2; 5; 7; 1; 2; 3])))).

Fixpoint read_steps (f : nat) (h : heap) (d : dref) : option (list step) :=
  match f, d with
  | _, DData => Some []
  | O, _ => None
  | S f', DRef l =>
    match h_get h l with
    | None => None
    | Some c => match read_steps f' h (c_data c) with None => None | Some ss => Some ((c_prim c, c_terms c) :: ss) end
    end
  end.
Lemma read_chain f h : forall d ss, read_steps f h d = Some ss -> exists ls, chain h d ls ss.
Proof.
  induction f as [|f IH]; intros d ss H.
  - destruct d; simpl in H; [injection H as <-; exists []; constructor|discriminate].
  - destruct d as [|l]; simpl in H; [injection H as <-; exists []; constructor|].
    destruct (h_get h l) as [c|] eqn:G; [|discriminate]. destruct (read_steps f h (c_data c)) as [ss'|] eqn:R; [|discriminate].
    injection H as <-. destruct (IH _ _ R) as [ls C]. exists (l :: ls). econstructor; eauto.
Qed.
Lemma read_ok h i ss : read_steps 9 h (DRef (i_main i)) = Some ss -> is_pipeline h i ss.
Proof. intros H. apply read_chain in H as [ls C]. exists ls. exact C. Qed.
Lemma ex_begin_wf p r : length p = 3 -> wf_heap (s_heap (mkSt (ex_heap [p; ex_p2; ex_p3; ex_p4; ex_p5]) r 5)).
Proof.
  intros L l H. destruct p as [|[? ?] [|[? ?] [|[? ?] [|]]]]; try discriminate. change (12 <= l) in H.
  do 12 (destruct l as [|l]; [lia|]). reflexivity.
Qed.
Ltac ok_tac := split; [step_ok_tac|]; repeat (constructor; [step_ok_tac|]); constructor.
Lemma ex_p_ok : pipeline_ok ex_ps ex_p1 /\ pipeline_ok ex_ps ex_p2 /\ pipeline_ok ex_ps ex_p3 /\ pipeline_ok ex_ps ex_p4 /\ pipeline_ok ex_ps ex_p5 /\ pipeline_ok ex_ps ex_p6.
Proof. do 5 (split; [ok_tac|]). ok_tac. Qed.
Lemma ex_start_ok m r : (3 <= m)%Z -> start_ok ex_ps (Some m) (ex_begin r) ex_start.
Proof.
  intros M. destruct ex_p_ok as (A & B & C & D & E & F). unfold start_ok, ex_start. 
  repeat (apply Forall_cons); try apply Forall_nil; (split; [simpl; lia|]); eexists; (split; [apply read_ok; vm_compute; reflexivity|]).
  - split; [exact A|simpl; lia].
  - split; [exact B|simpl; lia].
  - split; [exact C|simpl; lia].
  - split; [exact D|simpl; lia].
  - split; [exact E|simpl; lia].
Qed.
Lemma start_none ps m s l : start_ok ps m s l -> start_ok ps None s l.
Proof. apply Forall_impl. intros i (L & ss & C & O & _). split; auto. exists ss. simpl. auto. Qed.
Lemma ex_start_ok6 : start_ok ex_ps None (mkSt (ex_heap [ex_p6; ex_p2; ex_p3; ex_p4; ex_p5]) [] 5) ex_start.
Proof.
  destruct ex_p_ok as (A & B & C & D & E & F). unfold start_ok, ex_start.
  repeat (apply Forall_cons); try apply Forall_nil; (split; [simpl; lia|]); eexists; (split; [apply read_ok; vm_compute; reflexivity|]).
  - split; [exact F|exact Logic.I].
  - split; [exact B|exact Logic.I].
  - split; [exact C|exact Logic.I].
  - split; [exact D|exact Logic.I].
  - split; [exact E|exact Logic.I].
Qed.

Lemma none_evaluated h t str : forallb (fun x => match x with
    | Collected i (Evaluated _ _) => match read_steps 9 h (DRef (i_main i)) with Some ss => negb (String.eqb (text ss) str) | None => false end
    | _ => true end) t = true -> forall ss, evaluated h t ss -> text ss <> str.
Proof.
  intros H ss (i & sc & f & Hi & C). rewrite forallb_forall in H. apply H in Hi. destruct (read_steps 9 h (DRef (i_main i))) as [ss'|] eqn:E; [|discriminate].
  apply read_ok in E. rewrite (is_pipeline_fun _ _ _ _ C E). apply negb_true_iff in Hi. apply String.eqb_neq. exact Hi.
Qed.

(** * The whole search phase *)
Section Whole.
Context (ps : pset) (mx : option Z) (n workers pop_size : nat) (max_n : option Z) (restart : bool).
Hypothesis T : pset_typed ps.
Hypothesis HN : 0 < n.
Context (P : list step -> Prop).
Hypothesis PMUT : forall m old copy ss, P old -> within mx old -> within mx ss -> same_pipeline old copy -> mutated ps m copy ss -> P ss.
Hypothesis PCROSS : forall old1 old2 copy1 copy2 ss other, P old1 -> P old2 -> within mx old1 -> within mx old2 ->
  same_pipeline old1 copy1 -> same_pipeline old2 copy2 -> crossed copy1 copy2 ss other -> P ss.
Hypothesis PNEW : forall ss, pipeline_ok ps ss -> (1 <= Z.of_nat (length ss) <= max_start_length mx)%Z -> P ss.
Lemma search_inv warm es (s : setting) x w : wf_heap (s_heap s) -> Forall (good_new P s) warm ->
  search ps mx n workers pop_size max_n restart warm es (fresh_search s) = (x, w) ->
  exists start, Inv (seen_before s) ps n restart P start w /\ (warm <> [] -> start = warm) /\
    (warm = [] -> Forall (fun i => i_parents i = [] /\ i_origin i = "new"%string) start /\ NoDup (map i_id start)).
Proof.
  intros W G H. destruct warm as [|i0 warm].
  - cbv delta [search] in H. cbv beta iota in H. unfold ebind in H.
    remember 50 as fifty eqn:E50 in H. clear E50. destruct (individuals ps mx fifty (fresh_search s)) as [y w1] eqn:E1.
    destruct (individuals_inv _ ps mx n restart HN P PNEW [] fifty (fresh_search s) w1 y (fresh_inv ps n restart P [] s W) E1) as (I1 & W1 & U1 & X1 & Hy).
    destruct y as [l|ex].
    + destruct Hy as (_ & ND & FA). exists l. split; [|split; [congruence|]].
      * assert (EW : w1 = fresh_search (mkSetting (v_st w1) (seen_before s))) by (rewrite W1 at 1; reflexivity).
        rewrite EW in H. apply (ea_inv_seen _ ps mx n workers pop_size max_n restart T HN P PMUT PCROSS PNEW l (mkSetting (v_st w1) (seen_before s)) es w x); auto.
        -- apply X1.
        -- eapply Forall_impl; [|exact FA]. simpl. intros j Hj. apply Hj.
      * intros _. split; auto. eapply Forall_impl; [|exact FA]. simpl. intros j Hj. apply Hj.
    + injection H as <- <-. exists []. split; auto. split; [congruence|]. intros _. split; constructor.
  - exists (i0 :: warm). split; [|split; [auto|discriminate]]. eapply (ea_inv_seen _ ps mx n workers pop_size max_n restart T HN P PMUT PCROSS PNEW (i0 :: warm)); eauto.
Qed.
End Whole.
Lemma start_good ps s l : start_ok ps None s l -> Forall (good_new (pipeline_ok ps) s) l.
Proof. apply Forall_impl. intros i (L & ss & C & O & _). split; eauto. Qed.
Lemma ok_mut ps mx : pset_typed ps -> forall m old copy ss, pipeline_ok ps old -> within mx old -> within mx ss -> same_pipeline old copy -> mutated ps m copy ss -> pipeline_ok ps ss.
Proof. intros T m old copy ss O _ _ S Mu. exact (mutated_ok ps m copy ss T (same_pipeline_ok _ _ _ S O) Mu). Qed.
Lemma ok_cross ps mx : pset_typed ps -> forall old1 old2 copy1 copy2 ss other, pipeline_ok ps old1 -> pipeline_ok ps old2 -> within mx old1 -> within mx old2 ->
  same_pipeline old1 copy1 -> same_pipeline old2 copy2 -> crossed copy1 copy2 ss other -> pipeline_ok ps ss.
Proof. intros T o1 o2 c1 c2 ss o O1 O2 _ _ S1 S2 C. exact (proj1 (crossed_ok ps _ _ _ _ T (same_pipeline_ok _ _ _ S1 O1) (same_pipeline_ok _ _ _ S2 O2) C)). Qed.
Lemma search_ok ps mx n workers pop_size max_n restart warm es (s : setting) x w : pset_typed ps -> 0 < n -> wf_heap (s_heap s) -> start_ok ps None s warm ->
  search ps mx n workers pop_size max_n restart warm es (fresh_search s) = (x, w) ->
  exists start, Inv (seen_before s) ps n restart (pipeline_ok ps) start w /\ (warm <> [] -> start = warm) /\
    (warm = [] -> Forall (fun i => i_parents i = [] /\ i_origin i = "new"%string) start /\ NoDup (map i_id start)).
Proof.
  intros T HN W S H. eapply (search_inv ps mx n workers pop_size max_n restart T HN (pipeline_ok ps) (ok_mut ps mx T) (ok_cross ps mx T)); eauto.
  apply start_good. auto.
Qed.

(** C144.  Whatever the search space, the options, the results of evaluations and their
    order, and the random numbers: every pipeline given to a worker is a predictor
    followed by preprocessors of the search space. *)
Lemma C144_in_search_space_main :
  forall ps max_length max_retry workers pop_size max_n restart warm_start events (s : setting) x w i,
  pset_typed ps -> 0 < max_retry -> wf_heap (s_heap s) -> start_ok ps None s warm_start ->
  search ps max_length max_retry workers pop_size max_n restart warm_start events (fresh_search s) = (x, w) ->
  In (Submitted i) (v_trace w) ->
  exists steps, is_pipeline (objects w) i steps /\ pipeline_ok ps steps.
Proof.
  intros ps mx n workers pop_size max_n restart warm es s x w i T HN W S H Hi.
  destruct (search_ok _ _ _ _ _ _ _ _ _ _ _ _ T HN W S H) as (start & I & _).
  apply (n_known _ _ _ _ _ _ _ I). apply mentioned_submitted. auto.
Qed.
(** C144: the individual in a result is a copy of one submitted before: same id, parents
    and origin, same steps. *)
Lemma C144_results_main :
  forall ps max_length max_retry workers pop_size max_n restart warm_start events (s : setting) x w t1 i o t2,
  pset_typed ps -> 0 < max_retry -> wf_heap (s_heap s) -> start_ok ps None s warm_start ->
  search ps max_length max_retry workers pop_size max_n restart warm_start events (fresh_search s) = (x, w) ->
  v_trace w = t1 ++ Collected i o :: t2 ->
  exists j steps, In (Submitted j) t1 /\ is_pipeline (objects w) j steps /\ is_pipeline (objects w) i steps /\
    i_id i = i_id j /\ i_parents i = i_parents j /\ i_origin i = i_origin j.
Proof.
  intros ps mx n workers pop_size max_n restart warm es s x w t1 i o t2 T HN W S H Hi.
  destruct (search_ok _ _ _ _ _ _ _ _ _ _ _ _ T HN W S H) as (start & I & _).
  exact (n_items _ _ _ _ _ _ _ I _ _ _ Hi).
Qed.
(** C144: with max_pipeline_length = m no pipeline has more than max(m, 2m - 2) steps.
    Missing: at most m.  For m = 1 and m = 2 it is the same. *)
Lemma C144_length_partial_main :
  forall ps m max_retry workers pop_size max_n restart warm_start events (s : setting) x w i,
  pset_typed ps -> 0 < max_retry -> wf_heap (s_heap s) -> start_ok ps (Some m) s warm_start ->
  search ps (Some m) max_retry workers pop_size max_n restart warm_start events (fresh_search s) = (x, w) ->
  In (Submitted i) (v_trace w) ->
  exists steps, is_pipeline (objects w) i steps /\ (1 <= Z.of_nat (length steps) <= Z.max m (2 * m - 2))%Z.
Proof.
  intros ps m n workers pop_size max_n restart warm es s x w i T HN W S H Hi.
  assert (G : Forall (good_new (fine ps (Some m)) s) warm).
  { eapply Forall_impl; [|exact S]. simpl. intros j (L & ss & C & O & Wi). split; auto. exists ss. split; auto. split; auto. apply within_bounded. auto. }
  destruct (search_inv ps (Some m) n workers pop_size max_n restart T HN (fine ps (Some m)) (fine_mut ps (Some m) T) (fine_cross ps (Some m) T) (fine_new ps (Some m)) warm es s x w W G H) as (start & I & _).
  destruct (n_known _ _ _ _ _ _ _ I _ (mentioned_submitted _ _ Hi)) as (_ & ss & C & O & B). exists ss. split; auto. split; [|exact B].
  destruct ss; [destruct O|simpl; lia].
Qed.
(** C144: the limit is not kept: two pipelines of three steps have a child of four. *)
Lemma C144_length_refuted_main :
  ~ (forall ps m max_retry workers pop_size max_n restart warm_start events (s : setting) x w i,
     pset_typed ps -> pset_rich ps -> 0 < max_retry -> wf_heap (s_heap s) -> start_ok ps (Some m) s warm_start ->
     search ps (Some m) max_retry workers pop_size max_n restart warm_start events (fresh_search s) = (x, w) ->
     In (Submitted i) (v_trace w) ->
     exists steps, is_pipeline (objects w) i steps /\ within (Some m) steps).
Proof.
  intros H. assert (E1 := surjective_pairing ex_run3).
  specialize (H _ _ _ _ _ _ _ _ _ (first_fit _) _ _ (mkInd 23 5 [0; 2] "cx") ex_typed ex_rich (Nat.lt_0_succ 49) (ex_begin_wf ex_p1 _ eq_refl) (ex_start_ok 3 _ (Z.le_refl 3)) E1).
  assert (N : nth_error (v_trace (snd ex_run3)) 9 = Some (Submitted (mkInd 23 5 [0; 2] "cx"))) by (vm_compute; reflexivity).
  destruct (H (nth_error_In _ _ N)) as (ss & C & B). clear E1 N H.
  assert (C' : is_pipeline (objects (snd ex_run3)) (mkInd 23 5 [0; 2] "cx") [(ex_bnb, [ex_alpha1; ex_fit1]); (ex_bin, [ex_thr1]); (ex_pca, []); (ex_bin, [ex_thr1])]).
  { apply read_ok. vm_compute. reflexivity. }
  rewrite (is_pipeline_fun _ _ _ _ C C') in B. vm_compute in B. congruence.
Qed.
Example C144_in_search_space_ex_main :
  pset_typed ex_ps /\ wf_heap (s_heap (ex_begin [])) /\ start_ok ex_ps None (ex_begin []) ex_start /\
  length (submitted (v_trace (snd ex_run3))) = 8 /\ length (collected (v_trace (snd ex_run3))) = 6 /\
  (* without start candidates: fifty random ones *)
  length (submitted (v_trace (snd (search ex_ps (Some 2%Z) 50 1 5 (Some 48%Z) false [] (repeat (ex_win 1) 48) (fresh_search (first_fit (ex_begin [1; 0; 1; 2; 3]))))))) = 51.
Proof.
  split; [apply ex_typed|]. split; [apply (ex_begin_wf ex_p1); auto|]. split; [eapply start_none, (ex_start_ok 3); lia|].
  vm_compute. auto.
Qed.
Example C144_length_ex_main :
  start_ok ex_ps (Some 3%Z) (ex_begin []) ex_start /\ pset_rich ex_ps /\
  exists i, In (Submitted i) (v_trace (snd ex_run3)) /\ exists steps, is_pipeline (objects (snd ex_run3)) i steps /\ length steps = 4.
Proof.
  split; [apply ex_start_ok; lia|]. split; [apply ex_rich|]. exists (mkInd 23 5 [0; 2] "cx"). split; [apply (nth_error_In _ 9); vm_compute; reflexivity|].
  eexists. split; [apply read_ok; vm_compute; reflexivity|reflexivity].
Qed.

(** C145.  An individual made from the population has as parents members of the population
    then, each the result of a successful evaluation since the last restart; it is one
    mutation of its parent, or one crossover of its two parents (at different places of
    the population), under the name recorded for it; its id is new. *)
Lemma C145_bred_main :
  forall ps max_length max_retry workers pop_size max_n restart warm_start events (s : setting) x w t1 i pop t2,
  pset_typed ps -> 0 < max_retry -> wf_heap (s_heap s) -> start_ok ps None s warm_start ->
  search ps max_length max_retry workers pop_size max_n restart warm_start events (fresh_search s) = (x, w) ->
  v_trace w = t1 ++ Bred i pop :: t2 ->
  (forall m, In m pop -> In m (successes (since_restart t1))) /\
  (forall j, mentioned t1 j -> i_id j < i_id i) /\
  exists steps, is_pipeline (objects w) i steps /\
    (mutant_of ps (objects w) pop i steps \/ child_of (objects w) pop i steps).
Proof.
  intros ps mx n workers pop_size max_n restart warm es s x w t1 i pop t2 T HN W S H Hi.
  destruct (search_ok _ _ _ _ _ _ _ _ _ _ _ _ T HN W S H) as (start & I & _).
  destruct (n_items _ _ _ _ _ _ _ I _ _ _ Hi) as (A & B & ss & C & D & _). split; auto. split; auto. exists ss. auto.
Qed.
(** C145: what is given to the workers is a start candidate, or was made from the
    population just before, or is a new random pipeline without parents; the latter only
    without start candidates or after a restart. *)
Lemma C145_submitted_main :
  forall ps max_length max_retry workers pop_size max_n restart warm_start events (s : setting) x w t1 i t2,
  pset_typed ps -> 0 < max_retry -> wf_heap (s_heap s) -> start_ok ps None s warm_start ->
  search ps max_length max_retry workers pop_size max_n restart warm_start events (fresh_search s) = (x, w) ->
  v_trace w = t1 ++ Submitted i :: t2 ->
  In i warm_start \/ (exists t pop, t1 = t ++ [Bred i pop]) \/
  (i_parents i = [] /\ i_origin i = "new"%string /\ (warm_start = [] \/ (restart = true /\ In Restarted t1))).
Proof.
  intros ps mx n workers pop_size max_n restart warm es s x w t1 i t2 T HN W S H Hi.
  destruct (search_ok _ _ _ _ _ _ _ _ _ _ _ _ T HN W S H) as (start & I & A & B).
  destruct (n_items _ _ _ _ _ _ _ I _ _ _ Hi) as [D|[D|(D & E1 & E2)]]; auto.
  - destruct warm as [|i0 warm]; [|rewrite <- A by discriminate; auto]. right. right. destruct (B eq_refl) as (B1 & _).
    rewrite Forall_forall in B1. destruct (B1 i D). auto.
  - right. right. split; auto. split; auto. right. split; auto. apply in_split in D as (u1 & u2 & ->).
    rewrite <- app_assoc in Hi. exact (n_items _ _ _ _ _ _ _ I _ _ _ Hi).
Qed.
(** C145: nothing is submitted twice under the same id, and every submission is either
    still outstanding or answered once. *)
Lemma C145_once_main :
  forall ps max_length max_retry workers pop_size max_n restart warm_start events (s : setting) x w,
  pset_typed ps -> 0 < max_retry -> wf_heap (s_heap s) -> start_ok ps None s warm_start -> NoDup (map i_id warm_start) ->
  search ps max_length max_retry workers pop_size max_n restart warm_start events (fresh_search s) = (x, w) ->
  NoDup (map i_id (submitted (v_trace w))) /\
  Permutation (map i_id (submitted (v_trace w))) (map i_id (collected (v_trace w)) ++ map i_id (v_jobs w)).
Proof.
  intros ps mx n workers pop_size max_n restart warm es s x w T HN W S ND H.
  destruct (search_ok _ _ _ _ _ _ _ _ _ _ _ _ T HN W S H) as (start & I & A & B). split; [|apply I].
  apply (n_once _ _ _ _ _ _ _ I). destruct warm as [|i0 warm]; [apply B; auto|rewrite A; auto; discriminate].
Qed.
Example C145_bred_ex_main :
  NoDup (map i_id ex_start) /\
  exists t1 i pop t2, v_trace (snd ex_run8) = t1 ++ Bred i pop :: t2 /\ i_parents i = [0; 2] /\ i_origin i = "cx"%string /\ length pop = 3 /\
    In Restarted t2 /\ length (submitted t2) = 6 /\ length (successes (since_restart (v_trace (snd ex_run8)))) = 3 /\
    length (collected (v_trace (snd ex_run8))) = 8 /\ map i_id (v_jobs (snd ex_run8)) = [9; 10; 11].
Proof.
  split; [repeat constructor; simpl; intuition discriminate|].
  remember (v_trace (snd ex_run8)) as t eqn:E. remember (map i_id (v_jobs (snd ex_run8))) as l eqn:E2. vm_compute in E, E2. subst.
  match goal with |- context [?a :: ?b :: ?c :: ?d :: ?e :: ?f :: ?g :: ?h :: Bred ?i ?p :: ?t] =>
    exists [a; b; c; d; e; f; g; h], i, p, t end.
  split; [reflexivity|]. simpl. auto 12.
Qed.

(** C146.  A pipeline made from the population is not one evaluated before, or each of the
    max_retry attempts (50), all recorded as made from this population, gave a pipeline
    already evaluated. *)
Lemma C146_not_evaluated_before_partial_main :
  forall ps max_length max_retry workers pop_size max_n restart warm_start events (s : setting) x w t1 i pop t2,
  pset_typed ps -> 0 < max_retry -> wf_heap (s_heap s) -> start_ok ps None s warm_start ->
  search ps max_length max_retry workers pop_size max_n restart warm_start events (fresh_search s) = (x, w) ->
  v_trace w = t1 ++ Bred i pop :: t2 ->
  (exists steps, is_pipeline (objects w) i steps /\
     ~ In (text steps) (seen_before s) /\
     forall steps', evaluated (objects w) t1 steps' -> text steps' <> text steps) \/
  (exists tries, length tries = max_retry /\ In i tries /\ NoDup (map i_id tries) /\
     forall j, In j tries -> exists steps, is_pipeline (objects w) j steps /\
       (mutant_of ps (objects w) pop j steps \/ child_of (objects w) pop j steps) /\
       (In (text steps) (seen_before s) \/ exists steps', evaluated (objects w) t1 steps' /\ text steps' = text steps)).
Proof.
  intros ps mx n workers pop_size max_n restart warm es s x w t1 i pop t2 T HN W S H Hi.
  destruct (search_ok _ _ _ _ _ _ _ _ _ _ _ _ T HN W S H) as (start & I & _).
  destruct (n_items _ _ _ _ _ _ _ I _ _ _ Hi) as (_ & _ & ss & C & _ & [N|(tries & L & It & ND & F)]).
  { left. exists ss. split; [exact C|]. split; [intros HI; apply N; left; exact HI|]. intros ss' E EQ. apply N. right. exists ss'. auto. }
  right. exists tries. split; auto. split; auto. split; auto. rewrite Forall_forall in F. intros j Hj. destruct (F j Hj) as (ss' & C' & R' & A).
  exists ss'. split; [exact C'|]. split; [exact R'|]. destruct A as [A|(ss'' & E & EQ)]; [left; exact A|right; exists ss''; auto].
Qed.
(** C146: the attempts can run out. *)
Lemma C146_not_evaluated_before_refuted_main :
  ~ (forall ps max_length workers pop_size max_n restart warm_start events (s : setting) x w t1 i pop t2,
     pset_typed ps -> pset_rich ps -> wf_heap (s_heap s) -> start_ok ps None s warm_start ->
     search ps max_length 50 workers pop_size max_n restart warm_start events (fresh_search s) = (x, w) ->
     v_trace w = t1 ++ Bred i pop :: t2 ->
     exists steps, is_pipeline (objects w) i steps /\
       forall steps', evaluated (objects w) t1 steps' -> text steps' <> text steps).
Proof.
  intros H. assert (E1 := surjective_pairing ex_run6).
  specialize (H _ _ _ _ _ _ _ _ (first_fit _) _ _ (firstn 8 (v_trace (snd ex_run6))) (mkInd 318 54 [2] "mut_replace_primitive") (v_pop (snd ex_run6)) (skipn 9 (v_trace (snd ex_run6)))
    ex_typed ex_rich (ex_begin_wf ex_p6 _ eq_refl) ex_start_ok6 E1).
  destruct H as (ss & C & N).
  { clear E1. remember (v_trace (snd ex_run6)) as t eqn:E. remember (v_pop (snd ex_run6)) as p eqn:E2. vm_compute in E, E2. subst. reflexivity. }
  clear E1.
  assert (C' : is_pipeline (objects (snd ex_run6)) (mkInd 318 54 [2] "mut_replace_primitive") ex_p6) by (apply read_ok; vm_compute; reflexivity).
  rewrite (is_pipeline_fun _ _ _ _ C C') in N. apply (N ex_p6); auto.
  exists (mkInd 14 0 [] "new"), [Fin (1 # 1); Fin ((-3) # 1)], false. split; [|apply read_ok; vm_compute; reflexivity].
  apply (nth_error_In _ 5). vm_compute. reflexivity.
Qed.
(** C146: pipelines still being evaluated are not taken into account: the same one can be
    submitted twice. *)
Lemma C146_in_flight_refuted_main :
  ~ (forall ps max_length workers pop_size max_n restart warm_start events (s : setting) x w t1 i pop t2,
     pset_typed ps -> pset_rich ps -> wf_heap (s_heap s) -> start_ok ps None s warm_start ->
     search ps max_length 50 workers pop_size max_n restart warm_start events (fresh_search s) = (x, w) ->
     v_trace w = t1 ++ Bred i pop :: t2 ->
     (exists steps, is_pipeline (objects w) i steps /\
       forall steps', evaluated (objects w) t1 steps' -> text steps' <> text steps) ->
     forall j, In (Submitted j) t1 -> exists steps steps', is_pipeline (objects w) i steps /\ is_pipeline (objects w) j steps' /\ text steps' <> text steps).
Proof.
  intros H. assert (E1 := surjective_pairing ex_run7).
  specialize (H _ _ _ _ _ _ _ _ (first_fit _) _ _ (firstn 11 (v_trace (snd ex_run7))) (mkInd 31 6 [2] "mut_replace_primitive") (v_pop (snd ex_run7)) (skipn 12 (v_trace (snd ex_run7)))
    ex_typed ex_rich (ex_begin_wf ex_p1 _ eq_refl) (start_none _ _ _ _ (ex_start_ok 3 _ (Z.le_refl 3))) E1).
  clear E1.
  assert (C6 : is_pipeline (objects (snd ex_run7)) (mkInd 31 6 [2] "mut_replace_primitive") ex_p6) by (apply read_ok; vm_compute; reflexivity).
  assert (C5 : is_pipeline (objects (snd ex_run7)) (mkInd 24 5 [2] "mut_replace_primitive") ex_p6) by (apply read_ok; vm_compute; reflexivity).
  destruct (H ltac:(remember (v_trace (snd ex_run7)) as t eqn:E; remember (v_pop (snd ex_run7)) as p eqn:E2; vm_compute in E, E2; subst; reflexivity)) with (j := mkInd 24 5 [2] "mut_replace_primitive") as (ss & ss' & A & B & N).
  - exists ex_p6. split; [exact C6|]. apply none_evaluated. vm_compute. reflexivity.
  - apply (nth_error_In _ 9). vm_compute. reflexivity.
  - apply N. rewrite (is_pipeline_fun _ _ _ _ A C6), (is_pipeline_fun _ _ _ _ B C5). auto.
Qed.
(** C146: the evaluations of earlier calls of fit count too: a later fit on the same object,
    with the same start, random numbers and results, need not do what a new object does. *)
Lemma C146_later_fit_refuted_main :
  ~ (forall ps max_length workers pop_size max_n restart warm_start events s earlier x w x' w',
     pset_typed ps -> pset_rich ps -> wf_heap (s_heap s) -> start_ok ps None s warm_start ->
     search ps max_length 50 workers pop_size max_n restart warm_start events (fresh_search (first_fit s)) = (x, w) ->
     search ps max_length 50 workers pop_size max_n restart warm_start events (fresh_search (mkSetting s earlier)) = (x', w') ->
     v_trace w' = v_trace w).
Proof.
  intros H.
  assert (D : nth_error (v_trace (snd (ex_later [ex_seen]))) 8 <> nth_error (v_trace (snd (ex_later []))) 8) by (vm_compute; discriminate).
  apply D. f_equal. eapply (H ex_ps None 1 5 None false ex_start (map ex_win [1; 2; 3]%Z ++ [ex_fail]) (ex_begin ex_later_rng) [ex_seen]);
    [apply ex_typed|apply ex_rich|apply (ex_begin_wf ex_p1 _ eq_refl)|eapply start_none, (ex_start_ok 3); apply Z.le_refl|apply surjective_pairing|apply surjective_pairing].
Qed.
Example C146_not_evaluated_before_ex_main :
  (exists t1 i pop t2 steps, v_trace (snd (ex_later [ex_seen])) = t1 ++ Bred i pop :: t2 /\
     is_pipeline (objects (snd (ex_later [ex_seen]))) i steps /\ text steps <> ex_seen) /\
  (exists t1 i pop t2 steps, v_trace (snd (ex_later [])) = t1 ++ Bred i pop :: t2 /\
     is_pipeline (objects (snd (ex_later []))) i steps /\ text steps = ex_seen) /\
  (exists t1 i pop t2, v_trace (snd ex_run7) = t1 ++ Bred i pop :: t2 /\ length (collected t1) = 4 /\ length (successes t1) = 3) /\
  (exists t1 i pop t2, v_trace (snd ex_run6) = t1 ++ Bred i pop :: t2 /\ i_id i = 54 /\ exists steps, is_pipeline (objects (snd ex_run6)) i steps /\ evaluated (objects (snd ex_run6)) t1 steps).
Proof.
  split; [|split; [|split]].
  - exists (firstn 8 (v_trace (snd (ex_later [ex_seen])))), (mkInd 29 7 [0; 2] "cx"), (v_pop (snd (ex_later [ex_seen]))), (skipn 9 (v_trace (snd (ex_later [ex_seen])))).
    exists [(ex_bnb, [ex_alpha1; ex_fit1]); (ex_bin, [ex_thr1]); (ex_bin, [ex_thr1])]. split; [|split; [apply read_ok; vm_compute; reflexivity|vm_compute; discriminate]].
    remember (v_trace (snd (ex_later [ex_seen]))) as t eqn:E. remember (v_pop (snd (ex_later [ex_seen]))) as p eqn:E2. vm_compute in E, E2. subst. reflexivity.
  - exists (firstn 8 (v_trace (snd (ex_later [])))), (mkInd 23 5 [0; 2] "cx"), (v_pop (snd (ex_later []))), (skipn 9 (v_trace (snd (ex_later [])))).
    exists [(ex_bnb, [ex_alpha1; ex_fit1]); (ex_bin, [ex_thr1]); (ex_pca, []); (ex_bin, [ex_thr1])]. split; [|split; [apply read_ok; vm_compute; reflexivity|vm_compute; reflexivity]].
    remember (v_trace (snd (ex_later []))) as t eqn:E. remember (v_pop (snd (ex_later []))) as p eqn:E2. vm_compute in E, E2. subst. reflexivity.
  - exists (firstn 11 (v_trace (snd ex_run7))), (mkInd 31 6 [2] "mut_replace_primitive"), (v_pop (snd ex_run7)), (skipn 12 (v_trace (snd ex_run7))).
    remember (v_trace (snd ex_run7)) as t eqn:E. remember (v_pop (snd ex_run7)) as p eqn:E2. vm_compute in E, E2. subst. repeat split; reflexivity.
  - exists (firstn 8 (v_trace (snd ex_run6))), (mkInd 318 54 [2] "mut_replace_primitive"), (v_pop (snd ex_run6)), (skipn 9 (v_trace (snd ex_run6))). split; [|split; [reflexivity|]].
    + remember (v_trace (snd ex_run6)) as t eqn:E. remember (v_pop (snd ex_run6)) as p eqn:E2. vm_compute in E, E2. subst. reflexivity.
    + exists ex_p6. split; [apply read_ok; vm_compute; reflexivity|]. exists (mkInd 14 0 [] "new"), [Fin (1 # 1); Fin ((-3) # 1)], false.
      split; [apply (nth_error_In _ 5); vm_compute; reflexivity|apply read_ok; vm_compute; reflexivity].
Qed.

(** C147.  No limit, or a limit the operators can respect ([roomy]), a search space with
    alternatives, evaluations that yield at least two scores (always as many): the only
    exception that ends the search is that of selecting from fewer than three pipelines,
    when no more than workers + 1 evaluations are outstanding; with restarts too. *)
Lemma C147_exceptions_partial_main :
  forall ps max_length max_retry workers pop_size max_n restart warm_start events k (s : setting) x w,
  pset_typed ps -> pset_rich ps -> roomy ps max_length -> 0 < max_retry -> 2 <= k ->
  wf_heap (s_heap s) -> start_ok ps max_length s warm_start -> Forall (calm k) events ->
  (match max_n with Some m => (0 < m)%Z | None => True end) ->
  search ps max_length max_retry workers pop_size max_n restart warm_start events (fresh_search s) = (x, w) ->
  x = Ok tt \/ x = Err Diverges \/
  (x = Err ValueError /\ length (v_pop w) < 3 /\ length (v_jobs w) <= workers + 1).
Proof.
  intros ps mx n workers pop_size max_n restart warm es k s x w T RI R HN K2 W S CA HM H.
  assert (G : Forall (good_new (fits_in ps mx) s) warm).
  { eapply Forall_impl; [|exact S]. simpl. intros j (L & ss & C & O & Wi). split; auto. exists ss. split; auto. split; auto. }
  destruct warm as [|i0 warm].
  - cbv delta [search] in H. cbv beta iota in H. unfold ebind in H.
    remember 50 as fifty eqn:E50 in H. destruct (individuals ps mx fifty (fresh_search s)) as [y w1] eqn:E1.
    destruct (individuals_inv _ ps mx n restart HN (fits_in ps mx) (fits_new ps mx R) [] fifty (fresh_search s) w1 y (fresh_inv ps n restart (fits_in ps mx) [] s W) E1) as (I1 & W1 & U1 & X1 & Hy).
    destruct y as [l|ex]; [|exfalso; eapply no_creation_error; eauto].
    destruct Hy as (L & ND & FA). assert (EW : w1 = fresh_search (mkSetting (v_st w1) (seen_before s))) by (rewrite W1 at 1; reflexivity). rewrite EW in H.
    refine (ea_raise _ ps mx n workers pop_size k max_n restart l T HN R RI K2 (mkSetting (v_st w1) (seen_before s)) es w x eq_refl (proj1 X1) _ _ CA HM H).
    + eapply Forall_impl; [|exact FA]. simpl. intros j Hj. apply Hj.
    + intros ->. rewrite E50 in L. discriminate.
  - refine (ea_raise _ ps mx n workers pop_size k max_n restart (i0 :: warm) T HN R RI K2 s es w x eq_refl W G _ CA HM H). discriminate.
Qed.
(** C147, for all limits and numbers of scores: the search ends with an exception only when
    it selects from fewer than three pipelines or in one of the ways listed in [breakdown]. *)
Lemma C147_breakdown_main :
  forall ps max_length max_retry workers pop_size max_n restart warm_start events k (s : setting) x w,
  pset_typed ps -> pset_rich ps -> match max_length with None => True | Some m => (1 <= m)%Z end -> 0 < max_retry ->
  wf_heap (s_heap s) -> start_ok ps max_length s warm_start -> Forall (calm k) events ->
  (match max_n with Some m => (0 < m)%Z | None => True end) ->
  search ps max_length max_retry workers pop_size max_n restart warm_start events (fresh_search s) = (x, w) ->
  x = Ok tt \/ x = Err Diverges \/
  (x = Err ValueError /\ length (v_pop w) < 3 /\ length (v_jobs w) <= workers + 1) \/ breakdown ps max_length k w x.
Proof.
  intros ps mx n workers pop_size max_n restart warm es k s x w T RI A1 HN W S CA HM H.
  assert (G : Forall (good_new (fine ps mx) s) warm).
  { eapply Forall_impl; [|exact S]. simpl. intros j (L & ss & C & O & Wi). split; auto. exists ss. split; auto. split; auto using within_bounded. }
  destruct warm as [|i0 warm].
  - cbv delta [search] in H. cbv beta iota in H. unfold ebind in H.
    remember 50 as fifty eqn:E50 in H. destruct (individuals ps mx fifty (fresh_search s)) as [y w1] eqn:E1.
    destruct (individuals_inv _ ps mx n restart HN (fine ps mx) (fine_new ps mx) [] fifty (fresh_search s) w1 y (fresh_inv ps n restart (fine ps mx) [] s W) E1) as (I1 & W1 & U1 & X1 & Hy).
    destruct y as [l|ex]; [|exfalso; eapply no_new_error; eauto].
    destruct Hy as (L & ND & FA). assert (EW : w1 = fresh_search (mkSetting (v_st w1) (seen_before s))) by (rewrite W1 at 1; reflexivity). rewrite EW in H.
    refine (ea_any _ ps mx n workers pop_size k max_n restart l T HN RI A1 (mkSetting (v_st w1) (seen_before s)) es w x eq_refl (proj1 X1) _ _ CA HM H).
    + eapply Forall_impl; [|exact FA]. simpl. intros j Hj. apply Hj.
    + intros ->. rewrite E50 in L. discriminate.
  - refine (ea_any _ ps mx n workers pop_size k max_n restart (i0 :: warm) T HN RI A1 s es w x eq_refl W G _ CA HM H). discriminate.
Qed.
(** C147: with at least four candidates more than workers, a population of at least
    three, and at least three successes among the first results (as many as there are
    candidates beyond workers + 1) the search without restarts goes on as long as there are
    results, or to max_n_evaluations. *)
Lemma C147_keeps_running_partial_main :
  forall ps max_length max_retry workers pop_size max_n warm_start events k (s : setting),
  pset_typed ps -> pset_rich ps -> roomy ps max_length -> 0 < max_retry -> 2 <= k -> 3 <= pop_size ->
  wf_heap (s_heap s) -> start_ok ps max_length s warm_start -> workers + 4 <= length warm_start -> Forall (calm k) events ->
  (forall l1 l2, events = l1 ++ l2 -> length warm_start - workers - 1 <= length l1 -> 3 <= n_succeeded l1) ->
  let run := search ps max_length max_retry workers pop_size max_n false warm_start events (fresh_search s) in
  match max_n with
  | Some m => (0 < m <= Z.of_nat (length events))%Z -> exists w, run = (Ok tt, w)
  | None => exists w, run = (Err Diverges, w) /\ length (collected (v_trace w)) = length events /\
      workers + 2 <= length (v_jobs w) /\ length (v_pop w) = Nat.min pop_size (n_succeeded events)
  end.
Proof.
  intros ps mx n workers pop_size max_n warm es k s T RI R HN K2 P3 W S S4 CA H3. cbv zeta.
  assert (G : Forall (good_new (fits_in ps mx) s) warm).
  { eapply Forall_impl; [|exact S]. simpl. intros j (L & ss & C & O & Wi). split; auto. exists ss. split; auto. split; auto. }
  assert (ES : search ps mx n workers pop_size max_n false warm es (fresh_search s) = async_ea ps mx n workers pop_size max_n false warm es (fresh_search s)).
  { destruct warm; [simpl in S4; lia|reflexivity]. }
  rewrite ES. pose proof (ea_live _ ps mx n workers pop_size k max_n false warm T HN R RI K2 eq_refl P3 S4 s es eq_refl W G CA H3) as L.
  destruct max_n as [m|]; auto. destruct L as (w & E & (_ & _ & _ & LJ & LP & LC)). exists w. split; auto. split; auto. split; auto. lia.
Qed.
(** C147: with max_pipeline_length = 3 and nothing else wrong, a search can end with an
    exception: crossover makes a pipeline of four steps, which becomes a member of the
    population, and from which no mutation and no crossover is possible. *)
Lemma C147_keeps_running_refuted_main :
  ~ (forall ps max_length max_retry workers pop_size warm_start events (s : setting) x w,
     pset_typed ps -> pset_rich ps -> match max_length with None => True | Some m => (1 <= m)%Z end -> 0 < max_retry -> 3 <= pop_size ->
     wf_heap (s_heap s) -> start_ok ps max_length s warm_start -> workers + 4 <= length warm_start ->
     Forall (calm 2) events -> Forall (fun e => succeeded e = true) events ->
     search ps max_length max_retry workers pop_size None false warm_start events (fresh_search s) = (x, w) ->
     x = Err Diverges).
Proof.
  intros H. assert (E1 := surjective_pairing ex_run3).
  apply H in E1; [| | |lia|lia|lia|apply (ex_begin_wf ex_p1); auto|apply ex_start_ok; lia|simpl; lia| |].
  - clear H. remember (fst ex_run3) as x eqn:E. vm_compute in E. congruence.
  - apply ex_typed.
  - apply ex_rich.
  - unfold ex_wins. simpl. repeat constructor.
  - unfold ex_wins. simpl. repeat constructor.
Qed.
Example C147_exceptions_ex_main :
  (* the exception of the refutation, the one of a starved search, and none *)
  fst ex_run3 = Err AttributeError /\
  fst (search ex_ps (Some 2%Z) 50 4 5 None false [mkInd 9 3 [] "new"; mkInd 10 4 [] "new"] [ex_win 1] (fresh_search (first_fit (ex_begin [])))) = Err ValueError /\
  fst (search ex_ps (Some 2%Z) 50 4 5 (Some 60%Z) true [] (repeat (ex_win 1) 60) (fresh_search (first_fit (ex_begin [3; 1; 4; 1; 5])))) = Ok tt /\
  roomy ex_ps (Some 2%Z) /\ roomy ex_ps None /\ pset_rich ex_ps.
Proof. split; [vm_compute; reflexivity|]. split; [vm_compute; reflexivity|]. split; [vm_compute; reflexivity|]. split; [right; left; reflexivity|]. split; [left; reflexivity|apply ex_rich]. Qed.
Definition ex_one_score (z : Z) : event := mkEv 0 (Evaluated [Fin (z # 1)] false).
Notation ex_same := (search ex_ps (Some 1%Z) 50 1 5 None false [mkInd 0 0 [] "new"; mkInd 1 1 [] "new"; mkInd 2 2 [] "new"; mkInd 3 3 [] "new"; mkInd 4 4 [] "new"] (map ex_win [1; 2; 3]%Z)
  (fresh_search (first_fit (mkSt (ex_heap [[(ex_gnb, [])]; [(ex_gnb, [])]; [(ex_gnb, [])]; [(ex_gnb, [])]; [(ex_gnb, [])]]) [] 5)))).
Example C147_breakdown_ex_main :
  (* an over-long member, a single score, no alternatives *)
  (fst ex_run3 = Err AttributeError /\ exists m steps, In m (v_pop (snd ex_run3)) /\ is_pipeline (objects (snd ex_run3)) (m_ind m) steps /\ length steps = 4) /\
  fst (search ex_ps None 50 1 5 None false ex_start (map ex_one_score [1; 2; 3]%Z) (fresh_search (first_fit (ex_begin [])))) = Err IndexError /\
  (fst ex_same = Err IndexError /\ length (v_pop (snd ex_same)) = 3).
Proof.
  split; [|split; [vm_compute; reflexivity|split; vm_compute; reflexivity]]. split; [vm_compute; reflexivity|].
  exists (mkMem (mkInd 44 5 [0; 2] "cx") [Fin (6 # 1); Fin ((-3) # 1)]).
  assert (L : option_map (@length step) (read_steps 9 (objects (snd ex_run3)) (DRef 44)) = Some 4) by (vm_compute; reflexivity).
  destruct (read_steps 9 (objects (snd ex_run3)) (DRef 44)) as [ss|] eqn:E; [|discriminate]. exists ss.
  split; [|split; [apply read_ok; exact E|injection L; auto]]. clear. apply (nth_error_In _ 4). vm_compute. reflexivity.
Qed.
Example C147_keeps_running_ex_main :
  exists events, Forall (calm 2) events /\ (forall l1 l2, events = l1 ++ l2 -> length ex_start - 1 - 1 <= length l1 -> 3 <= n_succeeded l1) /\
    1 + 4 <= length ex_start /\ start_ok ex_ps None (ex_begin []) ex_start /\
    exists w, search ex_ps None 50 1 5 None false ex_start events (fresh_search (first_fit (ex_begin []))) = (Err Diverges, w) /\ length (submitted (v_trace w)) = 9 /\ length (v_pop w) = 4.
Proof.
  exists [ex_win 1; ex_win 2; ex_win 3; ex_fail; ex_crash; ex_win 4]. split; [repeat constructor|]. split.
  { intros l1 l2 E L. do 7 (destruct l1 as [|? l1]; [simpl in *; try lia; injection E; intros; subst; vm_compute; lia|]). simpl in E. discriminate. }
  split; [simpl; lia|]. split; [eapply start_none, (ex_start_ok 3); lia|].
  exists (snd (search ex_ps None 50 1 5 None false ex_start [ex_win 1; ex_win 2; ex_win 3; ex_fail; ex_crash; ex_win 4] (fresh_search (first_fit (ex_begin []))))).
  split; [|split; vm_compute; reflexivity].
  match goal with |- ?r = _ => rewrite (surjective_pairing r) at 1 end. f_equal.
Qed.

(** The evolutionary search with a number of workers that changes from turn to turn: the
    invariants of [Evo_Proofs2.v] and [End_Proofs.v], which hold for any number. *)
Require Import Permutation.
From Verif Require Import Base Num Gp_Model Gp_Spec Gp_Proofs Gp_Proofs2 Gp_Proofs3 Gp_Proofs4 Evo_Model Evo_Spec Evo_Proofs Evo_Proofs2 Evo_Main End_Proofs End_Main Limit_Proofs4.
Open Scope nat_scope.
Open Scope list_scope.

Section Vary.
Context (ps : pset) (mx : option Z) (n pop_size : nat) (max_n : option Z) (restart : bool).
Hypothesis T : pset_typed ps.
Hypothesis HN : 0 < n.
Context (P : list step -> Prop).
Hypothesis PMUT : forall m old copy ss, P old -> within mx old -> within mx ss -> same_pipeline old copy -> mutated ps m copy ss -> P ss.
Hypothesis PCROSS : forall old1 old2 copy1 copy2 ss other, P old1 -> P old2 -> within mx old1 -> within mx old2 ->
  same_pipeline old1 copy1 -> same_pipeline old2 copy2 -> crossed copy1 copy2 ss other -> P ss.
Hypothesis PNEW : forall ss, pipeline_ok ps ss -> (1 <= Z.of_nat (length ss) <= max_start_length mx)%Z -> P ss.
Lemma vturns_inv seen start es : forall k w w' x, Inv seen ps n restart P start w -> all_kept pop_size w -> vturns ps mx n pop_size max_n restart k es w = (x, w') ->
  Inv seen ps n restart P start w' /\ ((x = Err Diverges \/ x = Ok tt) -> all_kept pop_size w').
Proof.
  induction es as [|[workers e] es IH]; intros k w w' x I K H; cbn [vturns] in H; destruct (below max_n k); try (injection H as <- <-; auto; fail).
  - destruct (v_jobs w); injection H as <- <-; auto.
  - unfold ebind in H. destruct (turn ps mx n workers pop_size restart e w) as [y w1] eqn:E1.
    destruct (turn_inv _ ps mx n workers pop_size restart T HN P PMUT PCROSS PNEW start e w w1 y I (part_incl _ _ (proj1 K)) E1) as (I1 & _).
    pose proof (turn_kept _ ps mx n workers pop_size restart T HN P PMUT PCROSS start e w w1 y I K E1) as K1.
    destruct y as [[]|ex]; [|injection H as <- <-; split; auto; intros X; apply K1; destruct X as [[= ->]|]; [repeat split|]; discriminate].
    eapply IH; eauto. apply K1. repeat split; discriminate.
Qed.
Lemma v_ea_inv start (s : setting) es w' x : wf_heap (s_heap s) -> Forall (good_new P s) start ->
  v_async_ea ps mx n pop_size max_n restart start es (fresh_search s) = (x, w') ->
  Inv (seen_before s) ps n restart P start w' /\ ((x = Err Diverges \/ x = Ok tt) -> all_kept pop_size w').
Proof.
  intros W G H. unfold v_async_ea in H. destruct (match max_n with Some m => (m <=? 0)%Z | None => false end).
  { injection H as <- <-. split; [apply fresh_inv; auto|]. intros [X|X]; discriminate. }
  unfold ebind in H. destruct (begin start (fresh_search s)) as [y w1] eqn:E1.
  destruct (begin_inv _ ps n restart P start start (fresh_search s) w1 y (fresh_inv ps n restart P start s W)) as (I1 & P1 & -> & _); auto.
  - right. split; auto. split; [apply incl_refl|auto].
  - simpl. intros [].
  - apply (vturns_inv (seen_before s) start es 0 w1 w' x I1); auto. eapply begin_kept; [|exact E1]. reflexivity.
Qed.
Lemma v_search_inv warm es (s : setting) x w : wf_heap (s_heap s) -> Forall (good_new P s) warm ->
  v_search ps mx n pop_size max_n restart warm es (fresh_search s) = (x, w) ->
  (exists start, Inv (seen_before s) ps n restart P start w /\ (warm <> [] -> start = warm) /\
    (warm = [] -> Forall (fun i => i_parents i = [] /\ i_origin i = "new"%string) start /\ NoDup (map i_id start))) /\
  ((x = Err Diverges \/ x = Ok tt) -> all_kept pop_size w).
Proof.
  intros W G H. destruct warm as [|i0 warm].
  - cbv delta [v_search] in H. cbv beta iota in H. unfold ebind in H.
    remember 50 as fifty eqn:E50 in H. clear E50. destruct (individuals ps mx fifty (fresh_search s)) as [y w1] eqn:E1.
    destruct (individuals_inv _ ps mx n restart HN P PNEW [] fifty (fresh_search s) w1 y (fresh_inv ps n restart P [] s W) E1) as (I1 & W1 & U1 & X1 & Hy).
    destruct y as [l|ex].
    + destruct Hy as (_ & ND & FA). assert (EW : w1 = fresh_search (mkSetting (v_st w1) (seen_before s))) by (rewrite W1 at 1; reflexivity). rewrite EW in H.
      destruct (v_ea_inv l (mkSetting (v_st w1) (seen_before s)) es w x (proj1 X1)) as (A & B); auto.
      { eapply Forall_impl; [|exact FA]. simpl. intros j Hj. apply Hj. }
      split; auto. exists l. split; auto. split; [congruence|]. intros _. split; auto. eapply Forall_impl; [|exact FA]. simpl. intros j Hj. apply Hj.
    + injection H as <- <-. split.
      * exists []. split; auto. split; [congruence|]. intros _. split; constructor.
      * intros X. exfalso. destruct X as [[= ->]|X]; [|discriminate]. destruct Hy as [(Hz & _)|(Hz & _)]; discriminate.
  - destruct (v_ea_inv (i0 :: warm) s es w x W G H) as (A & B). split; auto. exists (i0 :: warm). split; auto. split; [auto|discriminate].
Qed.
End Vary.
Lemma v_search_ok ps mx n pop_size max_n restart warm es (s : setting) x w : pset_typed ps -> 0 < n -> wf_heap (s_heap s) -> start_ok ps None s warm ->
  v_search ps mx n pop_size max_n restart warm es (fresh_search s) = (x, w) ->
  (exists start, Inv (seen_before s) ps n restart (pipeline_ok ps) start w /\ (warm <> [] -> start = warm) /\
    (warm = [] -> Forall (fun i => i_parents i = [] /\ i_origin i = "new"%string) start /\ NoDup (map i_id start))) /\
  ((x = Err Diverges \/ x = Ok tt) -> all_kept pop_size w).
Proof.
  intros T HN W S H. apply (v_search_inv ps mx n pop_size max_n restart T HN (pipeline_ok ps) (ok_mut ps mx T) (ok_cross ps mx T) (fun ss O _ => O) warm es s x w W (start_good ps s warm S) H).
Qed.

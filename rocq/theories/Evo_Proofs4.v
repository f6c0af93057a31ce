(** C147: the exceptions of the evolutionary search, with any limit and any number of scores. *)
Require Import Permutation.
From Verif Require Import Base Num Nsga_Model Nsga_Main Par_Model Gp_Model Gp_Spec Gp_Proofs Gp_Proofs2 Gp_Proofs3 Gp_Proofs4 Gp_Main
  Cov_Spec Evo_Model Evo_Spec Evo_Proofs Evo_Proofs2 Evo_Proofs3.
Open Scope nat_scope.
Open Scope list_scope.

Section Any.
Context (seen : list string).
Context (ps : pset) (mx : option Z) (n workers pop_size k : nat) (max_n : option Z) (restart : bool) (start : list individual).
Hypothesis T : pset_typed ps.
Hypothesis HN : 0 < n.
Hypothesis RI : pset_rich ps.
Hypothesis A1 : match mx with None => True | Some m => (1 <= m)%Z end.
Notation Inv := (Inv seen ps n restart (fine ps mx) start).
Notation fits := (fits k).
Definition reason (w : evo) (x : res unit) : Prop :=
  (x = Err ValueError /\ length (v_pop w) < 3 /\ length (v_jobs w) <= workers + 1) \/ breakdown ps mx k w x.
Lemma few_metric l e : (forall m, In m l -> length (m_fit m) = k) -> metric_error l = Some e -> e = IndexError /\ k < 2.
Proof.
  induction l as [|m l IH]; intros H E; [discriminate|]. cbn in E. pose proof (H m (or_introl eq_refl)) as L. destruct (m_fit m) as [|a [|b v]]; simpl in L.
  - injection E as <-. split; [auto|lia].
  - injection E as <-. split; [auto|lia].
  - apply IH; auto. intros y Hy. apply H. right; auto.
Qed.
Lemma no_new_error e : ~ creation_error ps mx e.
Proof.
  destruct RI as (Hi & Hp & Hd & _). intros [(_ & H)|(_ & [H|(_ & H)])]; [|exact (rich_node ps Hi PREDICTION Hp H)|exact (rich_node ps Hi DATA Hd H)].
  unfold max_start_length in H. destruct mx; lia.
Qed.
Lemma add_any m w : fits w -> length (m_fit m) = k ->
  exists w', add_to_population pop_size m w = (Ok tt, w') /\ fits w' /\ v_jobs w' = v_jobs w /\
    length (v_pop w') = (if pop_size <? S (length (v_pop w)) then length (v_pop w) else S (length (v_pop w))).
Proof.
  intros F Lm. unfold add_to_population. unfold ebind at 1. unfold population. unfold ebind at 1. unfold set_population at 1.
  assert (F1 : forall y, In y (v_pop w ++ [m]) -> length (m_fit y) = k) by (intros y Hy; apply in_app_or in Hy as [Hy|[<-|[]]]; auto).
  assert (L1 : length (v_pop w ++ [m]) = S (length (v_pop w))) by (rewrite app_length; simpl; lia). rewrite L1.
  destruct (pop_size <? S (length (v_pop w))).
  2:{ eexists. split; [reflexivity|]. simpl. auto. }
  unfold ebind at 1. unfold gp, mrandom.
  destruct (m_eliminate (v_pop w ++ [m]) k (s_rng (v_st w)) F1 ltac:(intros H; apply app_eq_nil in H as [_ H]; discriminate)) as (d & r' & E & Hd).
  cbn [v_st]. rewrite E. destruct (m_remove_self d _ Hd) as (l' & E2 & I2 & L2). rewrite E2. eexists. split; [reflexivity|]. simpl. split; [|split; auto; lia].
  intros y Hy. apply F1. apply I2. exact Hy.
Qed.
Lemma breed_reason w p o1 ex o2 q : fine ps mx o1 -> fine ps mx o2 -> In p (v_pop w) -> In q (v_pop w) ->
  is_pipeline (objects w) (m_ind p) o1 -> is_pipeline (objects w) (m_ind q) o2 -> breed_fails ps mx o1 o2 ex -> reason w (Err ex).
Proof.
  intros (O1 & B1) (O2 & B2) Ip Iq C1 C2 B. right. right.
  assert (LONG : forall m ss, In m (v_pop w) -> is_pipeline (objects w) (m_ind m) ss -> bounded mx ss -> ~ within mx ss -> (ex = AttributeError \/ ex = ValueError) ->
    exists m ss limit, In m (v_pop w) /\ is_pipeline (objects w) (m_ind m) ss /\ mx = Some limit /\
    ((3 <= limit < Z.of_nat (length ss))%Z /\ (@Err unit ex = Err AttributeError \/ @Err unit ex = Err ValueError) \/
     limit = 1%Z /\ length ss = 1 /\ tunable ps ss <= 1 /\ @Err unit ex = Err IndexError)).
  { intros m ss Hm C Bd NW E. unfold within, bounded in *. destruct mx as [b|]; [|exfalso; auto]. exists m, ss, b. split; auto. split; auto. split; auto.
    left. split; [lia|]. destruct E as [-> | ->]; auto. }
  destruct B as [[H|(-> & b & E & Hb)]|(-> & [H|H])].
  - apply rich_mut_error in H as [(-> & E & L & Tn)|(_ & b & E & Hb)]; auto.
    + exists p, o1, 1%Z. split; [exact Ip|]. split; [exact C1|]. split; [exact E|]. right. auto.
    + rewrite E in A1. lia.
  - apply (LONG p o1); auto. rewrite E. simpl. lia.
  - apply (LONG p o1); auto.
  - apply (LONG q o2); auto.
Qed.
Lemma refill_any w w' x : Inv w -> popok w -> fits w -> refill ps mx n workers w = (x, w') ->
  (x = Ok tt /\ (v_jobs w' = [] -> False)) \/ reason w' x.
Proof.
  intros I PO F H. assert (H0 := H).
  destruct (refill_inv _ ps mx n workers restart T HN (fine ps mx) (fine_mut ps mx T) (fine_cross ps mx T) start w w' x I PO H) as (I' & P' & Ep & Hx).
  destruct x as [[]|ex].
  { left. split; auto. unfold refill in H0. destruct (Z.leb_spec (Z.of_nat (length (v_jobs w)) - Z.of_nat workers) 1).
    - unfold ebind in H0. destruct (gp (create_one ps mx n (v_saved w) (v_pop w)) w) as [[i|?] w1]; [|discriminate]. unfold note, submit in H0. injection H0 as <-. simpl.
      intros E. apply app_eq_nil in E as [_ E]. discriminate.
    - injection H0 as <-. intros E. rewrite E in *. simpl in *. lia. }
  right. destruct Hx as (LE & s' & EC).
  assert (EW : w' = mkEvo s' (v_pop w) (v_jobs w) (v_saved w) (v_trace w)).
  { unfold refill in H0. destruct (Z.of_nat (length (v_jobs w)) - Z.of_nat workers <=? 1)%Z; [|discriminate]. unfold ebind at 1 in H0. unfold gp in H0. rewrite EC in H0.
    pose proof (f_equal snd H0) as H1. simpl in H1. auto. }
  destruct (create_made ps mx n T HN (v_pop w) (v_st w) (v_saved w) (Err ex) s' (n_wf _ _ _ _ _ _ _ I)
    (pop_pipes_of _ _ _ _ _ _ w I PO) EC) as (X & [[(L & ->)|(L & He)]|(p & q & o1 & o2 & Ip & Iq & C1 & C2 & B)]).
  - left. rewrite EW. simpl. auto.
  - right. left. destruct (few_metric _ _ F He) as (-> & Hk). auto.
  - destruct (n_known _ _ _ _ _ _ _ I _ (pop_known _ _ _ _ _ _ w p I PO Ip)) as (_ & o1' & C1' & F1).
    destruct (n_known _ _ _ _ _ _ _ I _ (pop_known _ _ _ _ _ _ w q I PO Iq)) as (_ & o2' & C2' & F2).
    rewrite (is_pipeline_fun _ _ _ _ C1' C1) in F1. rewrite (is_pipeline_fun _ _ _ _ C2' C2) in F2.
    assert (W : wf_heap (s_heap (v_st w))) by apply I.
    subst w'. apply (breed_reason _ p o1 ex o2 q); auto; unfold objects; simpl; eapply is_pipeline_extends; eauto.
Qed.
Lemma turn_any e w w' x : Inv w -> popok w -> fits w -> calm k e -> v_jobs w <> [] ->
  turn ps mx n workers pop_size restart e w = (x, w') ->
  (x = Ok tt /\ Inv w' /\ popok w' /\ fits w' /\ v_jobs w' <> []) \/ reason w' x.
Proof.
  intros I PO F CA NJ H. assert (HT := H).
  destruct (turn_inv _ ps mx n workers pop_size restart T HN (fine ps mx) (fine_mut ps mx T) (fine_cross ps mx T) (fine_new ps mx) start e w w' x I PO HT) as (I' & PO').
  unfold turn in H. unfold ebind at 1 in H. destruct (wait_next e w) as [y w1] eqn:E1.
  destruct (wait_inv _ ps n restart HN (fine ps mx) start e w w1 y I PO E1) as (I1 & P1 & Ep & Hy).
  destruct y as [[i o]|ex]; [|destruct Hy as (Hy & _); congruence].
  destruct Hy as (_ & Eo & LJ & HS). unfold ebind at 1 in H. assert (F1 : fits w1) by (intros m Hm; rewrite Ep in Hm; auto).
  match type of H with (match ?t with _ => _ end) = _ => change t with ((match o with Evaluated scores false => add_to_population pop_size (mkMem i scores) | _ => eret tt end) w1) in H end.
  assert (H2 : exists w2, (match o with Evaluated scores false => add_to_population pop_size (mkMem i scores) | _ => eret tt end) w1 = (Ok tt, w2) /\ Inv w2 /\ popok w2 /\ fits w2).
  { unfold calm in CA. rewrite <- Eo in *. destruct o as [|sc []]; try (exists w1; split; [reflexivity|auto]; fail).
    destruct (add_any (mkMem i sc) w1 F1 CA) as (w2 & E2 & F2 & _). exists w2. split; auto.
    destruct (add_inv _ ps n pop_size restart HN (fine ps mx) start (mkMem i sc) w1 w2 (Ok tt) I1 P1 HS E2) as (I2 & P2 & _). auto. }
  destruct H2 as (w2 & E2 & I2 & P2 & F2). rewrite E2 in H.
  unfold ebind at 1 in H. destruct (refill ps mx n workers w2) as [z w3] eqn:E3.
  destruct (refill_inv _ ps mx n workers restart T HN (fine ps mx) (fine_mut ps mx T) (fine_cross ps mx T) start w2 w3 z I2 P2 E3) as (I3 & P3 & Ep3 & _).
  destruct (refill_any w2 w3 z I2 P2 F2 E3) as [(-> & NJ3)|RE].
  2:{ destruct z as [[]|ex]; [destruct RE as [(RE & _)|[(RE & _)|(? & ? & ? & _ & _ & _ & [(_ & [RE|RE])|(_ & _ & _ & RE)])]]; discriminate|]. injection H as <- <-. right. exact RE. }
  left. unfold ebind at 1 in H. assert (F3 : fits w3) by (intros m Hm; rewrite Ep3 in Hm; auto).
  assert (HB : exists b w4, (if restart then gp (mrandom (fun r => let (b, r') := rcoin r in (Ok b, r'))) else eret false) w3 = (Ok b, w4) /\ Inv w4 /\ popok w4 /\
     v_jobs w4 = v_jobs w3 /\ v_pop w4 = v_pop w3 /\ (restart = false -> b = false) /\ v_trace w4 = v_trace w3).
  { destruct restart; [|exists false, w3; split; [reflexivity|auto 8]]. unfold gp, mrandom. destruct (rcoin (s_rng (v_st w3))) as [b r'].
    exists b. eexists. split; [reflexivity|]. split; [|split; auto]. apply (inv_extends _ ps n true HN (fine ps mx) start w3); auto. apply rng_extends, I3. repeat split; auto. discriminate. }
  destruct HB as (b & w4 & E4 & I4 & P4 & J4 & Ep4 & B4 & T4). rewrite E4 in H.
  destruct b.
  2:{ injection H as <- <-. split; auto. split; auto. split; auto. split; [intros m Hm; rewrite Ep4 in Hm; auto|]. rewrite J4. exact NJ3. }
  assert (NR : restart = true) by (destruct restart; auto; discriminate (B4 eq_refl)).
  unfold ebind at 1 in H. unfold note in H. set (w5 := mkEvo (v_st w4) (v_pop w4) (v_jobs w4) (v_saved w4) (v_trace w4 ++ [Restarted])) in *.
  assert (I5 : Inv w5).
  { destruct I4 as [A1' B1 B1' C1' D1 E1' F1']. constructor; simpl; auto.
    - rewrite submitted_app, collected_app, !map_app. simpl. rewrite !app_nil_r. exact B1.
    - intros j Hj. apply in_or_app. auto.
    - intros z. rewrite C1'. symmetry. apply already_snoc. discriminate.
    - apply known_snoc; auto. intros j M. apply mentioned_one in M as [].
    - apply items_snoc; auto.
    - rewrite submitted_app, app_nil_r. exact F1'. }
  unfold ebind at 1 in H. destruct (individuals ps mx pop_size w5) as [z w6] eqn:E6.
  destruct (individuals_inv _ ps mx n restart HN (fine ps mx) (fine_new ps mx) start _ _ _ _ I5 E6) as (I6 & W6 & U6 & X6 & H6).
  destruct z as [l|ex]; [|exfalso; eapply no_new_error; eauto].
  destruct (begin_live l w6) as (w7 & E7 & P7 & J7). rewrite E7 in H. injection H as <- <-.
  split; auto. split; auto. split; [apply PO' with tt; auto|]. split; [intros m Hm; rewrite P7 in Hm; destruct Hm|].
  rewrite J7, W6. simpl. rewrite J4. intros H0. apply app_eq_nil in H0 as [H0 _]. exact (NJ3 H0).
Qed.
Lemma turns_any es : forall c w w' x, Inv w -> popok w -> fits w -> v_jobs w <> [] -> Forall (calm k) es ->
  turns ps mx n workers pop_size max_n restart c es w = (x, w') ->
  x = Ok tt \/ x = Err Diverges \/ reason w' x.
Proof.
  induction es as [|e es IH]; intros c w w' x I PO F NJ CA H; cbn [turns] in H; destruct (below max_n c); try (injection H as <- <-; auto; fail).
  - destruct (v_jobs w); [congruence|]. injection H as <- <-. auto.
  - unfold ebind in H. destruct (turn ps mx n workers pop_size restart e w) as [y w1] eqn:E1. inversion CA as [|? ? C1 C2]; subst.
    destruct (turn_any e w w1 y I PO F C1 NJ E1) as [(-> & I1 & P1 & F1 & N1)|RE].
    + exact (IH (S c) w1 w' x I1 P1 F1 N1 C2 H).
    + destruct y as [[]|ex]; [destruct RE as [(RE & _)|[(RE & _)|(? & ? & ? & _ & _ & _ & [(_ & [RE|RE])|(_ & _ & _ & RE)])]]; discriminate|]. injection H as <- <-. right. right. exact RE.
Qed.
Lemma begin_any (s : setting) : seen_before s = seen -> wf_heap (s_heap s) -> Forall (good_new (fine ps mx) s) start ->
  exists w, begin start (fresh_search s) = (Ok tt, w) /\ Inv w /\ popok w /\ fits w /\ v_pop w = [] /\ v_jobs w = start.
Proof.
  intros SB W G. destruct (begin_live start (fresh_search s)) as (w & E & P & J). exists w. split; auto.
  destruct (begin_inv _ ps n restart (fine ps mx) start start (fresh_search s) w (Ok tt) (fresh_inv ps n restart (fine ps mx) start s W)) as (I1 & P1 & _); auto; try (rewrite SB in I1).
  - right. split; auto. split; [apply incl_refl|auto].
  - simpl. intros [].
  - split; auto. split; auto. split; [intros m Hm; rewrite P in Hm; destruct Hm|auto].
Qed.
Lemma ea_any (s : setting) es w' x : seen_before s = seen -> wf_heap (s_heap s) -> Forall (good_new (fine ps mx) s) start -> start <> [] -> Forall (calm k) es ->
  (match max_n with Some m => (0 < m)%Z | None => True end) ->
  async_ea ps mx n workers pop_size max_n restart start es (fresh_search s) = (x, w') ->
  x = Ok tt \/ x = Err Diverges \/ reason w' x.
Proof.
  intros SB W G NE CA HM H. unfold async_ea in H.
  replace (match max_n with Some m => (m <=? 0)%Z | None => false end) with false in H.
  2:{ destruct max_n as [m|]; auto. symmetry. apply Z.leb_gt. auto. }
  destruct (begin_any s SB W G) as (w1 & E1 & I1 & P1 & F1 & _ & J1). unfold ebind in H. rewrite E1 in H.
  eapply turns_any; eauto. rewrite J1. auto.
Qed.

End Any.

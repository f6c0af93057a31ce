(** More results: the same search goes on.  The evolutionary search. *)
Require Import ZArith Lia Permutation.
From Verif Require Import Base Num Gp_Model Gp_Spec Gp_Proofs Gp_Proofs2 Gp_Proofs4 Evo_Model Evo_Spec Evo_Proofs Evo_Proofs2 Evo_Main Again_Spec.
From Verif Require Again_Proofs3.
Open Scope nat_scope.
Open Scope list_scope.

Definition egrow (w w' : evo) : Prop := extends (v_st w) (v_st w') /\ exists t, v_trace w' = v_trace w ++ t.
Lemma egrow_refl w : wf_heap (s_heap (v_st w)) -> egrow w w.
Proof. intros W. split; [apply extends_refl; auto|exists []; rewrite app_nil_r; auto]. Qed.
Lemma egrow_trans w1 w2 w3 : egrow w1 w2 -> egrow w2 w3 -> egrow w1 w3.
Proof. intros (A & t & B) (C & u & D). split; [eapply extends_trans; eauto|]. exists (t ++ u). rewrite D, B, app_assoc. auto. Qed.
Definition ecount (w : evo) : nat := length (collected (v_trace w)).
Lemma egrow_n w1 w2 : egrow w1 w2 -> ecount w1 <= ecount w2.
Proof. intros (_ & t & E). unfold ecount. rewrite E, collected_app, app_length. lia. Qed.
Definition gre {A} (m : ME A) : Prop := forall w x w', wf_heap (s_heap (v_st w)) -> m w = (x, w') -> egrow w w'.
Lemma ge_same {A} (m : ME A) : (forall w x w', m w = (x, w') -> v_st w' = v_st w /\ v_trace w' = v_trace w) -> gre m.
Proof. intros H w x w' W E. apply H in E as (E1 & E2). split; [rewrite E1; apply extends_refl; auto|exists []; rewrite app_nil_r; auto]. Qed.
Lemma ge_bind {A B} (m : ME A) (f : A -> ME B) : gre m -> (forall a, gre (f a)) -> gre (ebind m f).
Proof.
  intros H1 H2 w x w' W E. unfold ebind in E. destruct (m w) as [[a|e] w1] eqn:E1; pose proof (H1 _ _ _ W E1) as G.
  - eapply egrow_trans; [exact G|]. eapply H2; [apply G|eauto].
  - injection E as <- <-. auto.
Qed.
Lemma ge_gp {A} (m : M A) : (forall s x s', wf_heap (s_heap s) -> m s = (x, s') -> extends s s') -> gre (gp m).
Proof.
  intros H w x w' W E. unfold gp in E. destruct (m (v_st w)) as [y s] eqn:E1. injection E as <- <-. split; [eapply H; eauto|]. exists []. rewrite app_nil_r. auto.
Qed.
Lemma ge_ret {A} (a : A) : gre (eret a). Proof. apply ge_same. intros w x w' [= <- <-]. auto. Qed.
Lemma ge_raise {A} e : gre (@eraise A e). Proof. apply ge_same. intros w x w' [= <- <-]. auto. Qed.
Lemma ge_pop : gre population. Proof. apply ge_same. intros w x w' [= <- <-]. auto. Qed.
Lemma ge_set_pop l : gre (set_population l). Proof. apply ge_same. intros w x w' [= <- <-]. auto. Qed.
Lemma ge_submit i : gre (submit i).
Proof. intros w x w' W [= <- <-]. split; [apply extends_refl; auto|simpl; eauto]. Qed.
Lemma ge_note t : gre (note t).
Proof. intros w x w' W [= <- <-]. split; [apply extends_refl; auto|simpl; eauto]. Qed.
Lemma ge_rng {A} (f : rng -> res A * rng) : gre (gp (mrandom f)).
Proof. apply ge_gp. intros s x s' W E. unfold mrandom in E. destruct (f (s_rng s)) as [y r]. injection E as <- <-. apply rng_extends; auto. Qed.
Lemma ge_new ps mx : gre (gp (op_individual ps mx)).
Proof.
  apply ge_gp. intros s x s' W E. pose proof (wp_op_individual ps mx s W) as WP. unfold wp in WP. rewrite E in WP. destruct x; apply WP.
Qed.
Ltac ge := repeat (first [apply ge_bind; [|intros ?] | apply ge_ret | apply ge_raise | apply ge_submit | apply ge_note | apply ge_new | apply ge_rng
  | apply ge_pop | apply ge_set_pop
  | match goal with |- gre (match ?x with _ => _ end) => destruct x end
  | match goal with |- gre (if ?x then _ else _) => destruct x end]).
Lemma ge_add z m : gre (add_to_population z m).
Proof. unfold add_to_population. ge. Qed.
Lemma ge_individuals ps mx k : gre (individuals ps mx k).
Proof. induction k; cbn [individuals]; ge. auto. Qed.
Lemma ge_submit_all l : gre (submit_all l).
Proof. induction l; cbn [submit_all]; [apply ge_ret|]. apply ge_bind; [apply ge_submit|auto]. Qed.
Lemma ge_begin l : gre (begin l).
Proof. apply ge_bind; [apply ge_set_pop|intros _; apply ge_submit_all]. Qed.

Section EA.
Context (seen : list string).
Context (ps : pset) (mx : option Z) (n workers pop_size : nat) (max_n : option Z) (restart : bool).
Hypothesis T : pset_typed ps.
Hypothesis HN : 0 < n.
Context (start : list individual).
Notation IV := (Inv seen ps n restart (pipeline_ok ps) start).
Notation rest_of := (b <~ (if restart then gp (mrandom (fun r => let (b, r') := rcoin r in (Ok b, r'))) else eret false) ;;
  if b then note Restarted ;;~ l <~ individuals ps mx pop_size ;; begin l else eret tt).
Lemma ge_rest : gre rest_of.
Proof. apply ge_bind; [ge|]. intros []; [|ge]. apply ge_bind; [ge|]. intros _. apply ge_bind; [apply ge_individuals|]. intros l. apply ge_begin. Qed.
Lemma refill_grow w x w' : IV w -> popok w -> refill ps mx n workers w = (x, w') -> egrow w w'.
Proof.
  intros I PO H. unfold refill in H. destruct (_ <=? 1)%Z; [|injection H as <- <-; apply egrow_refl; apply I].
  unfold ebind at 1 in H. unfold gp in H. destruct (create_one ps mx n (v_saved w) (v_pop w) (v_st w)) as [y s'] eqn:EC.
  destruct (create_made ps mx n T HN (v_pop w) (v_st w) (v_saved w) y s' (n_wf _ _ _ _ _ _ w I) (pop_pipes_of _ _ _ _ _ _ w I PO) EC) as (X & _).
  assert (G : egrow w (mkEvo s' (v_pop w) (v_jobs w) (v_saved w) (v_trace w))) by (split; [exact X|exists []; rewrite app_nil_r; auto]).
  destruct y as [i|ex]; [|injection H as <- <-; auto].
  eapply egrow_trans; [exact G|]. refine (ge_bind _ _ (ge_note _) (fun _ => ge_submit _) _ _ _ _ H). apply X.
Qed.
Lemma wait_grow e w x w' : IV w -> popok w -> wait_next e w = (x, w') -> egrow w w' /\ (v_jobs w <> [] -> ecount w < ecount w').
Proof.
  intros I PO E. destruct (wait_inv _ ps n restart HN _ start e w w' x I PO E) as (I1 & _ & _ & Hx). unfold wait_next in E.
  destruct (v_jobs w) as [|j0 js] eqn:EJ; [injection E as <- <-; split; [apply egrow_refl; apply I|congruence]|].
  cbv zeta in E. match type of E with context [mkEvo ?s ?p ?j ?sv ?t] => set (w1 := mkEvo s p j sv t) in *; assert (G : egrow w w1) by (split; [apply extends_refl; apply I|exists []; rewrite app_nil_r; auto]) end.
  assert (W1 : wf_heap (s_heap (v_st w1))) by apply I. assert (T1 : v_trace w1 = v_trace w) by reflexivity. clearbody w1.
  destruct (e_out e) as [|sc f].
  - unfold ebind, note, eret in E. injection E as <- <-. split.
    + destruct G as (G & _). split; [exact G|]. cbn [v_trace]. rewrite T1. eauto.
    + intros _. unfold ecount. cbn [v_trace]. rewrite T1, collected_app, app_length. simpl. lia.
  - unfold ebind at 1 in E. destruct (gp (unpickle _) w1) as [y w2] eqn:E2.
    assert (G2 : egrow w1 w2) by (eapply ge_gp; [|exact W1|exact E2]; intros; eapply Again_Proofs3.unpickle_extends; eauto).
    assert (T2 : v_trace w2 = v_trace w1) by (unfold gp in E2; destruct (unpickle _ (v_st w1)); injection E2 as _ <-; auto).
    destruct y as [i|ex]; [|injection E as <- <-; destruct Hx as (Hx & _); discriminate].
    unfold ebind at 1, note in E. unfold ebind at 1 in E.
    match type of E with context [save i ?w] => set (w3 := w) in *; assert (T3 : v_trace w3 = v_trace w2 ++ [Collected i (Evaluated sc f)]) by reflexivity; assert (S3 : v_st w3 = v_st w2) by reflexivity; clearbody w3 end.
    destruct (save i w3) as [z w4] eqn:E4. assert (K : w' = w4) by (destruct z; unfold eret in E; injection E as _ <-; auto). subst w'.
    assert (K : v_st w4 = v_st w3 /\ v_trace w4 = v_trace w3).
    { unfold save, pipeline_str in E4. destruct (str_dref _ _ _); injection E4 as _ <-; auto. }
    destruct K as (K1 & K2). split.
    + eapply egrow_trans; [exact G|]. eapply egrow_trans; [exact G2|]. split; [rewrite K1, S3; apply extends_refl; apply G2|]. rewrite K2, T3. eauto.
    + intros _. unfold ecount. rewrite K2, T3, T2, T1, collected_app, app_length. simpl. lia.
Qed.
Notation turn := (turn ps mx n workers pop_size restart).
Notation turns := (turns ps mx n workers pop_size max_n restart).
Lemma turn_grow e w x w' : IV w -> popok w -> turn e w = (x, w') -> egrow w w' /\ (v_jobs w <> [] -> ecount w < ecount w').
Proof.
  intros I PO H. unfold Evo_Model.turn in H. unfold ebind at 1 in H. destruct (wait_next e w) as [y w1] eqn:E1.
  destruct (wait_grow e w y w1 I PO E1) as (G1 & C1).
  destruct (wait_inv _ ps n restart HN _ start e w w1 y I PO E1) as (I1 & P1 & Ep & Hy).
  destruct y as [[i o]|ex]; [|injection H as <- <-; auto].
  destruct Hy as (NJ & Eo & LJ & HS). unfold ebind at 1 in H.
  assert (H2 : exists z w2, (match o with Evaluated scores false => add_to_population pop_size (mkMem i scores) | _ => eret tt end) w1 = (z, w2) /\ IV w2 /\ popok w2 /\ egrow w1 w2).
  { destruct o as [|sc []]; try (exists (Ok tt), w1; split; [reflexivity|split; [auto|split; [auto|apply egrow_refl; apply I1]]]).
    destruct (add_to_population pop_size (mkMem i sc) w1) as [z w2] eqn:E2. exists z, w2. split; auto.
    destruct (add_inv _ ps n pop_size restart HN _ start _ _ _ _ I1 P1 HS E2) as (A & B & _ & D). split; auto. split; auto. eapply ge_add; eauto. apply I1. }
  destruct H2 as (z & w2 & E2 & I2 & P2 & G2).
  match type of H with (match ?t with _ => _ end) = _ => change t with ((match o with Evaluated scores false => add_to_population pop_size (mkMem i scores) | _ => eret tt end) w1) in H end.
  rewrite E2 in H. pose proof (egrow_trans _ _ _ G1 G2) as G12. assert (FIN : egrow w2 w' -> egrow w w' /\ (v_jobs w <> [] -> ecount w < ecount w')).
  { intros G. split; [eapply egrow_trans; eauto|]. intros NJ'. specialize (C1 NJ'). pose proof (egrow_n _ _ G2). pose proof (egrow_n _ _ G). lia. }
  destruct z as [[]|ex]; [|injection H as <- <-; apply FIN; apply egrow_refl; apply I2].
  unfold ebind at 1 in H. destruct (refill ps mx n workers w2) as [z w3] eqn:E3.
  pose proof (refill_grow w2 z w3 I2 P2 E3) as G3. apply FIN.
  destruct z as [[]|ex]; [|injection H as <- <-; auto].
  eapply egrow_trans; [exact G3|]. exact (ge_rest _ _ _ (proj1 (proj1 G3)) H).
Qed.

(** the loop, with its counter as part of the state *)
Definition e_inv (y : nat * evo) : Prop := IV (snd y) /\ popok (snd y).
Definition e_stop (y : nat * evo) : option (res unit) := if below max_n (fst y) then None else Some (Ok tt).
Definition e_turn (e : event) (y : nat * evo) : res unit * (nat * evo) :=
  match turn e (snd y) with (Ok u, w') => (Ok u, (S (fst y), w')) | (Err ex, w') => (Err ex, (fst y, w')) end.
Fixpoint e_loop (es : list event) (y : nat * evo) : res unit * (nat * evo) :=
  match e_stop y with
  | Some x => (x, y)
  | None =>
    match es with
    | [] => (Err (match v_jobs (snd y) with [] => RuntimeError | _ => Diverges end), y)
    | e :: es' => match e_turn e y with (Ok _, y') => e_loop es' y' | (Err ex, y') => (Err ex, y') end
    end
  end.
Lemma loop_turns es : forall k w, turns k es w = let (x, y) := e_loop es (k, w) in (x, snd y).
Proof.
  induction es as [|e es IH]; intros k w; cbn [Evo_Model.turns e_loop]; unfold e_stop; cbn [fst snd]; destruct (below max_n k); auto.
  - destruct (v_jobs w); auto.
  - unfold ebind, e_turn. cbn [fst snd]. destruct (turn e w) as [[u|ex] w1]; auto.
Qed.
Lemma ea_more (ev : nat -> event) k m1 m2 w x1 w1 x2 w2 : IV w -> popok w ->
  turns k (map ev (seq 0 m1)) w = (x1, w1) -> turns k (map ev (seq 0 m2)) w = (x2, w2) -> ecount w1 <= ecount w2 ->
  (egrow w1 w2 \/ w1 = w2) /\ (ecount w1 = ecount w2 -> x1 = x2 /\ w1 = w2).
Proof.
  intros I PO. rewrite !loop_turns. destruct (e_loop (map ev (seq 0 m1)) (k, w)) as [x1' [k1 w1']] eqn:E1. destruct (e_loop (map ev (seq 0 m2)) (k, w)) as [x2' [k2 w2']] eqn:E2.
  cbn [snd]. intros [= -> ->] [= -> ->] L.
  destruct (Again_Proofs3.loop_both e_stop (fun y : nat * evo => v_jobs (snd y)) e_turn e_loop) with
    (inv := e_inv) (grow := fun y1 y2 : nat * evo => egrow (snd y1) (snd y2)) (n := fun y : nat * evo => ecount (snd y)) (ev := ev) (m1 := m1) (m2 := m2) (w := (k, w)) (x1 := x1) (w1 := (k1, w1)) (x2 := x2) (w2 := (k2, w2)) as (A & B); auto.
  - intros e [k0 w0] EJ. unfold e_turn. cbn [fst snd] in *. unfold Evo_Model.turn, ebind, wait_next. rewrite EJ. auto.
  - intros [k0 w0] (I0 & _). apply egrow_refl. apply I0.
  - intros y1 y2 y3. apply egrow_trans.
  - intros y1 y2. apply egrow_n.
  - intros e [k0 w0] x [k' w'] (I0 & P0) E. unfold e_turn in E. cbn [fst snd] in *. destruct (turn e w0) as [z wz] eqn:ET.
    destruct (turn_grow e w0 z wz I0 P0 ET) as (G & C).
    destruct (turn_inv _ ps mx n workers pop_size restart T HN _ (ok_mut ps mx T) (ok_cross ps mx T) (fun ss O _ => O) start e w0 wz z I0 P0 ET) as (I1 & P1).
    destruct z as [u|ex]; injection E as <- <- <-; split; auto; split; auto; [intros v _; split; eauto; cbn; eauto|discriminate].
  - split; auto.
  - split; [destruct A as [A|A]; [auto|injection A as _ ->; auto]|]. intros EC. destruct (B EC) as (-> & [= _ ->]). auto.
Qed.
End EA.

(** * Whole searches *)
Lemma search_more ps mx n workers pop_size max_n restart (ev : nat -> event) m1 m2 warm (s : setting) x1 w1 x2 w2 :
  pset_typed ps -> 0 < n -> wf_heap (s_heap s) -> start_ok ps None s warm ->
  search ps mx n workers pop_size max_n restart warm (map ev (seq 0 m1)) (fresh_search s) = (x1, w1) ->
  search ps mx n workers pop_size max_n restart warm (map ev (seq 0 m2)) (fresh_search s) = (x2, w2) -> ecount w1 <= ecount w2 ->
  (egrow w1 w2 \/ w1 = w2) /\ (ecount w1 = ecount w2 -> x1 = x2 /\ w1 = w2).
Proof.
  intros T HN W S. apply start_good in S.
  assert (EA : forall start (s : setting), wf_heap (s_heap s) -> Forall (good_new (pipeline_ok ps) s) start ->
    async_ea ps mx n workers pop_size max_n restart start (map ev (seq 0 m1)) (fresh_search s) = (x1, w1) ->
    async_ea ps mx n workers pop_size max_n restart start (map ev (seq 0 m2)) (fresh_search s) = (x2, w2) -> ecount w1 <= ecount w2 ->
    (egrow w1 w2 \/ w1 = w2) /\ (ecount w1 = ecount w2 -> x1 = x2 /\ w1 = w2)).
  { clear - T HN. intros start s W G H1 H2 L. unfold async_ea in *. destruct (match max_n with Some m => (m <=? 0)%Z | None => false end).
    { injection H1 as <- <-. injection H2 as <- <-. auto. }
    unfold ebind in *. destruct (begin start (fresh_search s)) as [y w0] eqn:E1.
    destruct (begin_inv _ ps n restart (pipeline_ok ps) start start (fresh_search s) w0 y (fresh_inv ps n restart (pipeline_ok ps) start s W)) as (I1 & P1 & -> & _); auto.
    - right. split; auto. split; [apply incl_refl|auto].
    - simpl. intros [].
    - eapply ea_more; eauto. }
  destruct warm as [|i0 warm]; [|apply EA; auto].
  unfold search, ebind. remember 50 as fifty eqn:E50. clear E50. destruct (individuals ps mx fifty (fresh_search s)) as [y w0] eqn:E1.
  destruct (individuals_inv _ ps mx n restart HN (pipeline_ok ps) (fun ss O _ => O) [] fifty (fresh_search s) w0 y (fresh_inv ps n restart _ [] s W) E1) as (I1 & W1 & U1 & X1 & Hy).
  destruct y as [l|ex].
  - destruct Hy as (_ & ND & FA). assert (EW : w0 = fresh_search (mkSetting (v_st w0) (seen_before s))) by (rewrite W1 at 1; reflexivity). rewrite EW. apply EA.
    + apply X1.
    + eapply Forall_impl; [|exact FA]. simpl. intros j Hj. apply Hj.
  - intros [= <- <-] [= <- <-] _. auto.
Qed.

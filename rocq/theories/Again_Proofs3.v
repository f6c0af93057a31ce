(** More results: the same search goes on.  Random search and ASHA. *)
Require Import ZArith Lia Permutation.
From Verif Require Import Base Num Gp_Model Gp_Spec Gp_Proofs Gp_Proofs2 Gp_Proofs4 Evo_Model Evo_Spec Evo_Proofs Rnd_Model Rnd_Spec Rnd_Proofs Rnd_Proofs2 Rnd_Proofs3 Again_Spec.
Open Scope nat_scope.
Open Scope list_scope.

(** * Loops that consume events *)
Section Loop.
Context {W J E : Type} (stop : W -> option (res unit)) (jobs : W -> list J) (turn : E -> W -> res unit * W) (loop : list E -> W -> res unit * W).
Hypothesis L0 : forall w, loop [] w = match stop w with Some x => (x, w) | None => (Err (match jobs w with [] => RuntimeError | _ => Diverges end), w) end.
Hypothesis L1 : forall e es w, loop (e :: es) w = match stop w with Some x => (x, w) | None =>
  match turn e w with (Ok _, w') => loop es w' | (Err ex, w') => (Err ex, w') end end.
Hypothesis LE : forall e w, jobs w = [] -> turn e w = (Err RuntimeError, w).
Context (inv : W -> Prop) (grow : W -> W -> Prop) (n : W -> nat).
Hypothesis GR : forall w, inv w -> grow w w.
Hypothesis GT : forall w1 w2 w3, grow w1 w2 -> grow w2 w3 -> grow w1 w3.
Hypothesis GN : forall w1 w2, grow w1 w2 -> n w1 <= n w2.
Hypothesis TI : forall e w x w', inv w -> turn e w = (x, w') -> grow w w' /\ (forall u, x = Ok u -> inv w') /\ (jobs w <> [] -> n w < n w').
Lemma loop_cont es1 : forall w x w1, inv w -> loop es1 w = (x, w1) ->
  (forall es2, loop (es1 ++ es2) w = (x, w1)) \/
  (inv w1 /\ x = Err Diverges /\ stop w1 = None /\ jobs w1 <> [] /\ forall es2, loop (es1 ++ es2) w = loop es2 w1).
Proof.
  induction es1 as [|e es1 IH]; intros w x w1 I H.
  - rewrite L0 in H. destruct (stop w) as [y|] eqn:ES.
    + injection H as <- <-. left. intros [|e es2]; [cbn [app]; rewrite L0, ES|cbn [app]; rewrite L1, ES]; auto.
    + destruct (jobs w) as [|j js] eqn:EJ; injection H as <- <-.
      * left. intros [|e es2]; cbn [app]; [rewrite L0, ES, EJ; auto|]. rewrite L1, ES, LE; auto.
      * right. split; auto. split; auto. split; auto. split; [rewrite EJ; discriminate|auto].
  - rewrite L1 in H. destruct (stop w) as [y|] eqn:ES.
    + injection H as <- <-. left. intros es2. cbn [app]. rewrite L1, ES. auto.
    + destruct (turn e w) as [[u|ex] w2] eqn:ET.
      * destruct (TI _ _ _ _ I ET) as (_ & I2 & _). destruct (IH w2 x w1 (I2 _ eq_refl) H) as [A1|(A1 & A2 & A3 & A4 & A5)].
        -- left. intros es2. cbn [app]. rewrite L1, ES, ET. auto.
        -- right. split; auto. split; auto. split; auto. split; auto. intros es2. cbn [app]. rewrite L1, ES, ET. auto.
      * injection H as <- <-. left. intros es2. cbn [app]. rewrite L1, ES, ET. auto.
Qed.
Lemma loop_grow es : forall w x w', inv w -> loop es w = (x, w') -> grow w w'.
Proof.
  induction es as [|e es IH]; intros w x w' I H.
  - rewrite L0 in H. destruct (stop w); injection H as <- <-; auto.
  - rewrite L1 in H. destruct (stop w); [injection H as <- <-; auto|]. destruct (turn e w) as [[u|ex] w2] eqn:ET; destruct (TI _ _ _ _ I ET) as (A1 & A2 & _).
    + eapply GT; eauto.
    + injection H as <- <-. auto.
Qed.
Lemma loop_more es1 es2 w x1 w1 x2 w2 : inv w -> loop es1 w = (x1, w1) -> loop (es1 ++ es2) w = (x2, w2) ->
  grow w1 w2 /\ (n w1 = n w2 -> x1 = x2 /\ w1 = w2) \/ (x1 = x2 /\ w1 = w2).
Proof.
  intros I H1 H2. destruct (loop_cont _ _ _ _ I H1) as [A|(A1 & A2 & A3 & A4 & A5)].
  - right. rewrite A in H2. injection H2 as <- <-. auto.
  - left. rewrite A5 in H2. destruct es2 as [|e es2].
    + rewrite L0, A3 in H2. destruct (jobs w1); [congruence|]. injection H2 as <- <-. auto.
    + rewrite L1, A3 in H2. destruct (turn e w1) as [[u|ex] w3] eqn:ET; destruct (TI _ _ _ _ A1 ET) as (B1 & B2 & B3); specialize (B3 A4).
      * pose proof (loop_grow _ _ _ _ (B2 _ eq_refl) H2) as B4. split; [eapply GT; eauto|]. intros EN. pose proof (GN _ _ B4). lia.
      * injection H2 as <- <-. split; auto. lia.
Qed.
Lemma loop_both (ev : nat -> E) m1 m2 w x1 w1 x2 w2 : inv w ->
  loop (map ev (seq 0 m1)) w = (x1, w1) -> loop (map ev (seq 0 m2)) w = (x2, w2) -> n w1 <= n w2 ->
  (grow w1 w2 \/ w1 = w2) /\ (n w1 = n w2 -> x1 = x2 /\ w1 = w2).
Proof.
  intros I H1 H2 HN. destruct (Nat.le_ge_cases m1 m2) as [L|L].
  - replace m2 with (m1 + (m2 - m1)) in H2 by lia. rewrite seq_app, map_app in H2.
    destruct (loop_more _ _ _ _ _ _ _ I H1 H2) as [(A & B)|(A & B)]; auto.
  - replace m1 with (m2 + (m1 - m2)) in H1 by lia. rewrite seq_app, map_app in H1.
    destruct (loop_more _ _ _ _ _ _ _ I H2 H1) as [(A & B)|(A & B)]; [|split; auto].
    pose proof (GN _ _ A). assert (EN : n w2 = n w1) by lia. destruct (B EN) as (-> & ->). auto.
Qed.
End Loop.

(** * Objects are only added *)
Lemma unpickle_extends i s x s' : wf_heap (s_heap s) -> unpickle i s = (x, s') -> extends s s'.
Proof.
  intros W E. assert (N : forall f l s x s', wf_heap (s_heap s) -> unpickle_node f l s = (x, s') -> extends s s').
  { clear. induction f as [|f IH]; intros l s x s' W E; [injection E as <- <-; apply extends_refl; auto|]. cbn [unpickle_node] in E. unfold mbind at 1, mread in E.
    destruct (h_get (s_heap s) l) as [c|]; [|injection E as <- <-; apply extends_refl; auto].
    assert (K : forall c s x s', wf_heap (s_heap s) -> new_object c s = (x, s') -> extends s s').
    { clear. intros c s x s' W E. rewrite new_object_ok in E. injection E as <- <-. split; [apply wf_alloc; auto|]. split; [apply same_alloc|]. auto. }
    destruct (c_data c) as [|l']; [eauto|]. unfold mbind in E. destruct (unpickle_node f l' s) as [y s1] eqn:E1. pose proof (IH _ _ _ _ W E1) as X.
    destruct y as [l''|e]; [|injection E as <- <-; auto]. eapply extends_trans; [exact X|]. eapply K; [apply X|eauto]. }
  unfold unpickle, mbind, mget in E. destruct (unpickle_node (S (h_next (s_heap s))) (i_main i) s) as [y s1] eqn:E1. apply N in E1; auto. destruct y; injection E as <- <-; auto.
Qed.
Definition hgrow (w w' : hst) : Prop := extends (q_st w) (q_st w') /\ exists t, q_trace w' = q_trace w ++ t.
Lemma hgrow_refl w : wf_heap (s_heap (q_st w)) -> hgrow w w.
Proof. intros W. split; [apply extends_refl; auto|exists []; rewrite app_nil_r; auto]. Qed.
Lemma hgrow_trans w1 w2 w3 : hgrow w1 w2 -> hgrow w2 w3 -> hgrow w1 w3.
Proof. intros (A & t & B) (C & u & D). split; [eapply extends_trans; eauto|]. exists (t ++ u). rewrite D, B, app_assoc. auto. Qed.
Lemma hgrow_n w1 w2 : hgrow w1 w2 -> length (finished (q_trace w1)) <= length (finished (q_trace w2)).
Proof. intros (_ & t & ->). rewrite finished_app, app_length. lia. Qed.
Definition gro {A} (m : MH A) : Prop := forall w x w', wf_heap (s_heap (q_st w)) -> m w = (x, w') -> hgrow w w'.
Lemma g_same {A} (m : MH A) : (forall w x w', m w = (x, w') -> q_st w' = q_st w /\ q_trace w' = q_trace w) -> gro m.
Proof. intros H w x w' W E. apply H in E as (-> & ->) || (apply H in E; destruct E as (E1 & E2)). unfold hgrow. rewrite ?E1, ?E2. apply hgrow_refl in W. exact W. Qed.
Lemma g_bind {A B} (m : MH A) (f : A -> MH B) : gro m -> (forall a, gro (f a)) -> gro (hbind m f).
Proof.
  intros H1 H2 w x w' W E. unfold hbind in E. destruct (m w) as [[a|e] w1] eqn:E1; pose proof (H1 _ _ _ W E1) as G.
  - eapply hgrow_trans; [exact G|]. eapply H2; [apply G|eauto].
  - injection E as <- <-. auto.
Qed.
Lemma g_gp {A} (m : M A) : (forall s x s', wf_heap (s_heap s) -> m s = (x, s') -> extends s s') -> gro (hgp m).
Proof.
  intros H w x w' W E. unfold hgp in E. destruct (m (q_st w)) as [y s] eqn:E1. injection E as <- <-. split; [eapply H; eauto|]. exists []. rewrite app_nil_r. auto.
Qed.
Lemma g_ret {A} (a : A) : gro (hret a). Proof. apply g_same. intros w x w' [= <- <-]. auto. Qed.
Lemma g_raise {A} e : gro (@hraise A e). Proof. apply g_same. intros w x w' [= <- <-]. auto. Qed.
Lemma g_get_rungs : gro get_rungs. Proof. apply g_same. intros w x w' [= <- <-]. auto. Qed.
Lemma g_set_rungs l : gro (set_rungs l). Proof. apply g_same. intros w x w' [= <- <-]. auto. Qed.
Lemma g_append m : gro (append_output m). Proof. apply g_same. intros w x w' [= <- <-]. auto. Qed.
Lemma g_pop : gro pop_candidate. Proof. apply g_same. intros w x w' E. unfold pop_candidate in E. destruct (rev (q_start w)); injection E as <- <-; auto. Qed.
Lemma g_submit i r : gro (hsubmit i r).
Proof. intros w x w' W [= <- <-]. split; [apply extends_refl; auto|simpl; eauto]. Qed.
Lemma g_note t : gro (hnote t).
Proof. intros w x w' W [= <- <-]. split; [apply extends_refl; auto|simpl; eauto]. Qed.
Lemma g_rng {A} (f : rng -> res A * rng) : gro (hgp (mrandom f)).
Proof. apply g_gp. intros s x s' W E. unfold mrandom in E. destruct (f (s_rng s)) as [y r]. injection E as <- <-. apply rng_extends; auto. Qed.
Lemma g_new ps mx : gro (hgp (op_individual ps mx)).
Proof.
  apply g_gp. intros s x s' W E. pose proof (wp_op_individual ps mx s W) as WP. unfold wp in WP. rewrite E in WP. destruct x; apply WP.
Qed.
Lemma g_unpickle i : gro (hgp (unpickle i)). Proof. apply g_gp. intros s x s' W E. eapply unpickle_extends; eauto. Qed.
Lemma g_wait e : gro (hwait e).
Proof.
  intros w x w' W E. unfold hwait in E. destruct (q_jobs w) as [|j0 js]; [injection E as <- <-; apply hgrow_refl; auto|].
  cbv zeta in E. match type of E with context [mkH ?s ?j ?st ?r ?o ?t] => set (w1 := mkH s j st r o t) in *; assert (G : hgrow w w1) by (split; [apply extends_refl; auto|exists []; rewrite app_nil_r; auto]) end.
  eapply hgrow_trans; [exact G|]. destruct (e_out e).
  - refine (g_bind _ _ (g_note _) (fun _ => g_ret _) _ _ _ _ E). exact W.
  - refine (g_bind _ _ (g_unpickle _) (fun _ => g_bind _ _ (g_note _) (fun _ => g_ret _)) _ _ _ _ E). exact W.
Qed.
Ltac gg := repeat (first [apply g_bind; [|intros ?] | apply g_ret | apply g_raise | apply g_submit | apply g_note | apply g_new | apply g_rng | apply g_wait
  | apply g_get_rungs | apply g_set_rungs | apply g_append | apply g_pop
  | match goal with |- gro (match ?x with _ => _ end) => destruct x end
  | match goal with |- gro (if ?x then _ else _) => destruct x end]).
Lemma g_promote eta l : gro (promote_from eta l).
Proof. induction l; cbn [promote_from]; gg; auto. Qed.
Lemma g_job ps mx eta f R : gro (start_new_job ps mx eta f R).
Proof. unfold start_new_job, get_job. gg. apply g_promote. Qed.
Lemma g_record x : gro (record_result x).
Proof. unfold record_result. gg. Qed.

(** * Random search *)
Section Random.
Context (ps : pset) (mx : option Z) (start : list individual) (max_n : option Z).
Lemma g_rs_turn e : gro (rs_turn ps mx e).
Proof. unfold rs_turn. gg. Qed.
Definition rs_inv (w : hst) : Prop := Inv ps mx (rs_allowed start) w /\ once start w /\ out_ok w.
Definition rs_stop (w : hst) : option (res unit) := if below max_n (length (q_out w)) then None else Some (Ok tt).
Definition count (w : hst) : nat := length (finished (q_trace w)).
Lemma rs_more (ev : nat -> event) m1 m2 w x1 w1 x2 w2 : rs_inv w ->
  rs_turns ps mx max_n (map ev (seq 0 m1)) w = (x1, w1) -> rs_turns ps mx max_n (map ev (seq 0 m2)) w = (x2, w2) -> count w1 <= count w2 ->
  (hgrow w1 w2 \/ w1 = w2) /\ (count w1 = count w2 -> x1 = x2 /\ w1 = w2).
Proof.
  apply (loop_both rs_stop q_jobs (rs_turn ps mx) (rs_turns ps mx max_n)) with (inv := rs_inv).
  - intros w0. unfold rs_stop. cbn [rs_turns]. destruct (below max_n (length (q_out w0))); auto. destruct (q_jobs w0); auto.
  - intros e es w0. unfold rs_stop. rewrite rs_turns_step. destruct (below max_n (length (q_out w0))); auto.
  - intros e w0 EJ. unfold rs_turn, hbind, hwait. rewrite EJ. auto.
  - intros w0 (I & _). apply hgrow_refl. apply I.
  - exact hgrow_trans.
  - exact hgrow_n.
  - intros e w0 x w' (I & N & O) E. split; [eapply g_rs_turn; eauto; apply I|]. split.
    + intros u ->. destruct (rs_turn_inv ps mx start e w0 (Ok u) w' I N O E) as (I' & N' & O' & _). split; auto.
    + intros NJ. unfold rs_turn in E. unfold hbind at 1 in E. destruct (hwait e w0) as [y w1'] eqn:E1.
      destruct (wait_inv_h ps mx _ w0 e y w1' I E1) as (I1 & _ & _ & O1 & U1 & Hy). destruct y as [[[i r] o]|ex]; [|destruct Hy as (_ & Hy & _); congruence].
      destruct Hy as (-> & T1 & _). assert (G : hgrow w1' w').
      { refine ((_ : gro _) w1' x w' (h_wf _ _ _ _ I1) E). gg. }
      apply hgrow_n in G. unfold count. rewrite T1, finished_app, app_length in G. simpl in G. lia.
Qed.
End Random.

(** * ASHA *)
Section Asha.
Context (ps : pset) (mx : option Z) (eta f : nat) (R : Z) (start : list individual) (max_full : option Z).
Definition a_inv (w : hst) : Prop := Inv ps mx (asha_allowed eta f R start) w /\ RI f R start [] w /\ OI f R start w.
Definition a_stop (w : hst) : option (res unit) := match top_below R max_full (q_rungs w) with Err ex => Some (Err ex) | Ok false => Some (Ok tt) | Ok true => None end.
Definition a_turn (e : event) : MH unit := hbind (hbind (hwait e) record_result) (fun _ => start_new_job ps mx eta f R).
Lemma asha_more (ev : nat -> event) m1 m2 w x1 w1 x2 w2 : a_inv w ->
  asha_turns ps mx eta f R max_full (map ev (seq 0 m1)) w = (x1, w1) -> asha_turns ps mx eta f R max_full (map ev (seq 0 m2)) w = (x2, w2) -> count w1 <= count w2 ->
  (hgrow w1 w2 \/ w1 = w2) /\ (count w1 = count w2 -> x1 = x2 /\ w1 = w2).
Proof.
  apply (loop_both a_stop q_jobs a_turn (asha_turns ps mx eta f R max_full)) with (inv := a_inv).
  - intros w0. unfold a_stop. cbn [asha_turns]. destruct (top_below R max_full (q_rungs w0)) as [[]|]; auto. destruct (q_jobs w0); auto.
  - intros e es w0. unfold a_stop. rewrite asha_turns_step. destruct (top_below R max_full (q_rungs w0)) as [[]|]; auto.
    unfold a_turn, hbind. destruct (hwait e w0) as [[y|] w1']; auto. destruct (record_result y w1') as [[u|] w2']; auto.
  - intros e w0 EJ. unfold a_turn, hbind, hwait. rewrite EJ. auto.
  - intros w0 (I & _). apply hgrow_refl. apply I.
  - exact hgrow_trans.
  - exact hgrow_n.
  - intros e w0 x w' (I & RR & O) E. split.
    { refine ((_ : gro (a_turn e)) w0 x w' (h_wf _ _ _ _ I) E). exact (g_bind _ _ (g_bind _ _ (g_wait e) g_record) (fun _ => g_job _ _ _ _ _)). }
    split.
    + intros u ->. unfold a_turn in E. unfold hbind at 1 in E. destruct (hbind (hwait e) record_result w0) as [y w1'] eqn:E1.
      destruct (wait_record ps mx eta f R start w0 e y w1' I RR O E1) as (I1 & O1 & Hy). destruct y as [u'|ex]; [|discriminate]. destruct Hy as (R1 & _).
      destruct (start_job_ok ps mx eta f R start w1' (Ok u) w' I1 R1 O1 E) as (I2 & O2 & _ & _ & R2 & _). split; auto.
    + intros NJ. unfold a_turn in E. unfold hbind in E. destruct (hwait e w0) as [y w1'] eqn:E1.
      destruct (wait_inv_h ps mx _ w0 e y w1' I E1) as (I1 & _ & _ & _ & U1 & Hy). destruct y as [[[i r] o]|ex]; [|destruct Hy as (_ & Hy & _); congruence].
      destruct Hy as (-> & T1 & _). assert (G : hgrow w1' w').
      { apply ((g_bind _ _ (g_record (i, r, e_out e)) (fun _ => g_job ps mx eta f R)) w1' x w' (h_wf _ _ _ _ I1)).
        unfold hbind. destruct (record_result (i, r, e_out e) w1') as [[u|] w2']; exact E. }
      apply hgrow_n in G. unfold count. rewrite T1, finished_app, app_length in G. simpl in G. lia.
Qed.
End Asha.

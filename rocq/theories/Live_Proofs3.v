(** Progress of random search and of ASHA. *)
Require Import ZArith Lia.
From Verif Require Import Base Num Gp_Model Gp_Spec Evo_Model Rnd_Model Rnd_Spec Proc_Model Proc_Spec Live_Spec Live_Proofs Live_Proofs2.
From Verif Require Import Proc_Proofs Proc_Proofs3.
From Verif Require Async_Model Sys_Model Sys_Proofs.
Open Scope nat_scope.
Open Scope list_scope.

Lemma remove_length {A} : forall k (l : list A), k < length l -> length l = S (length (remove_nth k l)).
Proof. induction k; intros [|x l] H; cbn in *; try lia. f_equal. apply IHk. lia. Qed.

Section Live.
Context (call : nat -> list nat -> Async_Model.kwargs -> nat -> Async_Model.outcome) (scores : nat -> list num) (d : Async_Model.kwargs) (n : nat).
Hypothesis ANS : answers call d.
Hypothesis POS : 0 < n.
Notation out := (outstanding dj).
Definition calm (k : nat) (p : pool job) : Prop := wfp call d p /\ (0 < k -> pool_ok d n (p_s p) /\ to_come n k (p_plan p)).
Definition idling (k : nat) (p : pool job) : Prop := wfp call d p /\ (0 < k -> pool_ok d n (p_s p) /\ after_result n k (p_plan p)).
Lemma idling_calm k p : idling k p -> calm k p.
Proof. intros [W H]. split; auto. intros K. destruct (H K). split; auto. apply after_to_come. auto. Qed.

Lemma own_live {A} (m : MH A) w (p : pool job) x w' (p' : pool job) : hframe [] m -> own m (w, p) = (x, (w', p')) -> p' = p /\ dones w' = dones w.
Proof.
  intros F E. unfold own in E. cbn [fst snd] in E. destruct (m w) as [y v] eqn:EM. injection E as <- <- <-. split; auto. destruct (F _ _ _ EM) as (_ & _ & H & _). rewrite app_nil_r in H. tauto.
Qed.
Lemma wait_step w p x w' p' k : calm k p -> q_wait_next call scores (w, p) = (x, (w', p')) ->
  match x with
  | Ok _ => idling (pred k) p' /\ length (out p) = S (length (out p')) /\ length (dones w') = S (length (dones w)) /\
      length (p_plan p') < length (p_plan p)
  | Err Diverges => (k = 0 /\ dones w' = dones w) \/ length (out p') < length (out p)
  | Err _ => True
  end.
Proof.
  intros (W & GT) E. unfold q_wait_next in E. destruct (pool_wait call p) as [y p1] eqn:EW.
  assert (L : 0 < k -> y <> Err Diverges /\ (forall a, y = Ok a -> pool_ok d n (p_s p1) /\ after_result n (pred k) (p_plan p1))).
  { intros K. destruct (GT K) as [G TC]. exact (wait_live call d n ANS POS p y p1 k W G TC K EW). }
  destruct (wait_ok call d dj p y p1 W EW) as (W0 & J & _ & _ & [(_ & -> & _)|[(_ & -> & _)|(kk & id & r & j & -> & LT & NT & NE & O & _ & W1 & LP)]]).
  - injection E as <- <- <-. auto.
  - injection E as <- <- <-. left. split; auto. destruct k; auto. destruct (L ltac:(lia)) as [L1 _]. congruence.
  - rewrite J, NE in E. unfold own in E. cbn [fst snd] in E. destruct (hcollect j (outcome_of scores r) w) as [z v] eqn:EC. injection E as <- <- <-.
    destruct (hcollect_ok scores w j (outcome_of scores r)) as (l & H1 & H2). destruct (H1 _ _ EC) as (_ & _ & H3 & _).
    destruct (H2 (p_jobs p) id r NE eq_refl) as (y & -> & _). pose proof (remove_length kk (out p) LT) as LL. rewrite <- O in LL.
    destruct z as [a|e].
    + split; [split; auto; intros K; apply (L ltac:(lia)) with (1 := eq_refl)|]. split; auto. split; auto. destruct H3 as [->|[_ H3]]; [|elim (H3 a); auto]. rewrite app_length. cbn. lia.
    + destruct e; auto. right. lia.
Qed.
Lemma submit_step i r w p x w' p' k : idling k p -> q_submit call i r (w, p) = (x, (w', p')) ->
  x = Ok tt /\ calm k p' /\ (0 < k -> pool_ok d n (p_s p')) /\ p_plan p' = tl (p_plan p) /\ length (out p') = S (length (out p)) /\ dones w' = dones w /\ length (p_plan p') <= length (p_plan p).
Proof.
  intros (W & GA) E. unfold q_submit in E. injection E as <- <- <-. 
  destruct (submit_ok call d dj (i, r) p W) as (W' & _ & O & _ & _ & LP). split; auto.
  assert (K : 0 < k -> pool_ok d n (p_s (pool_submit call (i, r) p)) /\ to_come n k (tl (p_plan p))).
  { intros K. destruct (GA K) as [G AR]. destruct (after_tl n POS k (p_plan p) K AR) as [T C]. split; auto. apply (submit_live call d n ANS POS (i, r) p W G C). }
  split; [split; auto|]. split; [intros K0; apply K; auto|]. split; auto. split; [rewrite O, app_length; cbn; lia|]. split; auto. unfold dones. cbn [q_trace]. rewrite arrivals_app. apply app_nil_r.
Qed.

(** One job is started for every result; the loop. *)
Definition one_for_one (m : Q unit) : Prop := forall w p x w' p' k, idling k p -> m (w, p) = (x, (w', p')) ->
  match x with
  | Ok _ => calm k p' /\ length (out p') = S (length (out p)) /\ dones w' = dones w /\ length (p_plan p') <= length (p_plan p)
  | Err _ => length (out p') = length (out p)
  end.
Lemma one_after {A} (m : MH A) (f : A -> Q unit) : hframe [] m -> (forall a, one_for_one (f a)) -> one_for_one (pbind (own m) f).
Proof.
  intros F H w p x w' p' k C E. unfold pbind in E. destruct (own m (w, p)) as [y [w1 p1]] eqn:EM. destruct (own_live m w p y w1 p1 F EM) as [-> D].
  destruct y as [a|e]; [|injection E as <- <- <-; auto]. pose proof (H a w1 p x w' p' k C E) as K. rewrite D in K. auto.
Qed.
Lemma one_skip {A} (a : A) (f : A -> Q unit) : one_for_one (f a) -> one_for_one (pbind (pret a) f).
Proof. intros H w p x w' p' k C E. exact (H w p x w' p' k C E). Qed.
Lemma one_submit i r : one_for_one (q_submit call i r).
Proof. intros w p x w' p' k C E. destruct (submit_step i r w p x w' p' k C E) as (-> & A1 & _ & _ & A3 & A4 & A5). auto. Qed.
Lemma one_raise e : one_for_one (praise e).
Proof. intros w p x w' p' k C E. injection E as <- <- <-. auto. Qed.
Definition progress (k c : nat) (w w' : hst) (p' : pool job) (x : res unit) : Prop :=
  x = Err Diverges -> length (dones w) + k <= length (dones w') \/ length (out p') < c.
Lemma turn_live (rest : individual * nat * outcome -> Q unit) (loop : Q unit) k c w p x w' p' bound :
  (forall a, one_for_one (rest a)) ->
  (forall k w p x w' p', calm k p -> length (out p) = c -> length (p_plan p) < bound -> loop (w, p) = (x, (w', p')) -> progress k c w w' p' x) ->
  calm k p -> length (out p) = c -> length (p_plan p) < S bound ->
  (pbind (q_wait_next call scores) (fun a => pbind (rest a) (fun _ => loop))) (w, p) = (x, (w', p')) -> progress k c w w' p' x.
Proof.
  intros R L C O B E X. unfold pbind at 1 in E. destruct (q_wait_next call scores (w, p)) as [y [w1 p1]] eqn:EW. pose proof (wait_step w p y w1 p1 k C EW) as S1.
  destruct y as [a|e].
  - destruct S1 as (C1 & O1 & D1 & P1). unfold pbind in E. destruct (rest a (w1, p1)) as [y [w2 p2]] eqn:ER. pose proof (R a w1 p1 y w2 p2 (pred k) C1 ER) as S2.
    destruct y as [u|e].
    + destruct S2 as (C2 & O2 & D2 & P2). destruct (L (pred k) w2 p2 x w' p' C2 ltac:(lia) ltac:(lia) E X) as [K|K]; auto. left. rewrite D2 in K. lia.
    + injection E as <- <- <-. right. lia.
  - injection E as <- <- <-. injection X as ->. destruct S1 as [[-> S1]|S1]; [left; rewrite S1; lia|right; lia].
Qed.
Lemma bind_assoc {A B C} (m : Q A) (f : A -> Q B) (g : B -> Q C) y : pbind (pbind m f) g y = pbind m (fun a => pbind (f a) g) y.
Proof. unfold pbind. destruct (m y) as [[a|e] y']; auto. Qed.
Lemma bind_ext {A B} (m : Q A) (f g : A -> Q B) y : (forall a y', f a y' = g a y') -> pbind m f y = pbind m g y.
Proof. intros H. unfold pbind. destruct (m y) as [[a|e] y']; auto. Qed.
Section Sets.
Context (ps : pset) (max_length : option Z).
Definition rs_rest (x : individual * nat * outcome) : Q unit :=
  pbind (match x with (i, _, Evaluated sc _) => own (append_output (mkMem i sc)) | _ => pret tt end) (fun _ =>
  pbind (own (hgp (op_individual ps max_length))) (fun i => q_submit call i 0)).
Lemma rs_rest_one x : one_for_one (rs_rest x).
Proof.
  unfold rs_rest. destruct x as [[i r] [|sc f]].
  - apply one_skip, one_after; [hf|]. intros. apply one_submit.
  - apply one_after; [hf|]. intros _. apply one_after; [hf|]. intros. apply one_submit.
Qed.
Lemma rs_loop max_n : forall f k c w p x w' p', calm k p -> length (out p) = c -> length (p_plan p) < f ->
  q_rs_turns call scores ps max_length max_n f (w, p) = (x, (w', p')) -> progress k c w w' p' x.
Proof.
  induction f as [|f IH]; intros k c w p x w' p' C O B E; [lia|]. cbn [q_rs_turns] in E. unfold pbind at 1 in E. unfold own at 1, outputs in E. cbn [fst snd] in E.
  destruct (below max_n (length (q_out w))); [|injection E as <- <- <-; discriminate].
  eapply (turn_live rs_rest (q_rs_turns call scores ps max_length max_n f)) with (bound := f); eauto using rs_rest_one.
  rewrite <- E. apply bind_ext. intros a y. unfold rs_rest. rewrite bind_assoc. apply bind_ext. intros _ y1. apply bind_assoc.
Qed.
Lemma submit_each_live : forall l k w p x w' p' (init : list Sys_Model.turn) rounds rest, wfp call d p -> (0 < k -> pool_ok d n (p_s p)) -> p_plan p = init ++ concat rounds ++ rest -> nobody_killed (init ++ concat rounds) -> length l <= length init -> length rounds = k -> Forall (late_round n) rounds ->
  q_submit_each call l (w, p) = (x, (w', p')) ->
  x = Ok tt /\ calm k p' /\ length (out p') = length (out p) + length l /\ dones w' = dones w /\ length (p_plan p') <= length (p_plan p).
Proof.
  induction l as [|i l IH]; intros k w p x w' p' init rounds rest W G EP NK LI LK FR E;
    (assert (C : idling k p) by (split; auto; intros K; split; auto; exists init, rounds, rest; auto)).
  - cbn in E. injection E as <- <- <-. split; auto. split; [apply idling_calm; auto|]. cbn; auto.
  - cbn [q_submit_each] in E. unfold pbind in E. destruct (q_submit call i 0 (w, p)) as [y [w1 p1]] eqn:ES.
    destruct (submit_step i 0 w p y w1 p1 k C ES) as (-> & C1 & G1 & P1 & O1 & D1 & L1).
    destruct init as [|t init]; [cbn in LI; lia|]. destruct (IH k w1 p1 x w' p' init rounds rest (proj1 C1) G1) as (A1 & A2 & A4 & A5 & A6); auto; [rewrite P1, EP; auto|exact (killed_tl _ NK)|cbn in LI; lia|].
    split; auto. split; auto. split; [cbn; lia|]. split; [congruence|]. lia.
Qed.
Lemma rs_live max_n log start w plan x w' p' init rounds rest : plan = init ++ concat rounds ++ rest -> nobody_killed (init ++ concat rounds) -> length start <= length init -> Forall (late_round n) rounds -> dones w = [] ->
  forall p0, p_plan p0 = plan -> q_random_search call scores ps max_length max_n n log d start (w, p0) = (x, (w', p')) -> x = Err Diverges ->
  length rounds <= length (dones w') \/ length (out p') < length start.
Proof.
  intros EP NK LI FR D0 p0 P0 E X. unfold q_random_search, with_evaluator in E. cbn [fst snd] in E. rewrite P0 in E.
  set (p1 := mkPool (Async_Model.step call (Async_Model.new_evaluator n None log d) Async_Model.Enter) ([] : list job) plan) in *.
  assert (W : wfp call d p1) by (apply (enter_ok call d dj)). assert (G : pool_ok d n (p_s p1)) by (apply (enter_live call d n POS)). assert (O1 : out p1 = []) by (apply (enter_ok call d dj n log plan)).
  unfold pbind in E. destruct (q_submit_each call start (w, p1)) as [y [w2 p2]] eqn:ES.
  destruct (submit_each_live start (length rounds) w p1 y w2 p2 init rounds rest W (fun _ => G)) as (-> & C2 & O2 & D2 & L2); auto.
  destruct (q_rs_turns call scores ps max_length max_n (S (length plan)) (w2, p2)) as [z [w3 p3]] eqn:ET. cbn [fst snd] in E.
  assert (EX : out p' = out p3) by (transitivity (out (snd (snd (x, (w', p'))))); [auto|rewrite <- E; apply exit_ok]).
  assert (EZ : z = x /\ w3 = w') by (split; [exact (f_equal fst E)|exact (f_equal (fun y => fst (snd y)) E)]). destruct EZ as [-> ->]. rewrite EX. destruct (rs_loop max_n (S (length plan)) (length rounds) (length start) w2 p2 x w' p3 C2) as [K|K]; auto; [rewrite O2, O1; auto|cbn in L2; lia|].
  left. rewrite D2, D0 in K. auto.
Qed.

(** ASHA *)
Context (eta first_rung : nat) (max_rung : Z).
Lemma job_one : one_for_one (q_start_new_job call ps max_length eta first_rung max_rung).
Proof.
  unfold q_start_new_job. apply one_after; [hf|]. intros j. destruct (existsb _ _); [apply one_submit|apply one_raise].
Qed.
Lemma asha_loop max_full : forall f k c w p x w' p', calm k p -> length (out p) = c -> length (p_plan p) < f ->
  q_asha_turns call scores ps max_length eta first_rung max_rung max_full f (w, p) = (x, (w', p')) -> progress k c w w' p' x.
Proof.
  induction f as [|f IH]; intros k c w p x w' p' C O B E; [lia|]. cbn [q_asha_turns] in E. unfold pbind at 1 in E. unfold own at 1, get_rungs in E. cbn [fst snd] in E.
  assert (K : forall e, top_below max_rung max_full (q_rungs w) = Err e -> e = KeyError) by (unfold top_below; intros e; destruct max_full; [destruct (find _ _)|]; congruence).
  destruct (top_below max_rung max_full (q_rungs w)) as [[]|e]; [|injection E as <- <- <-; discriminate|rewrite (K e eq_refl) in E; injection E as <- <- <-; discriminate].
  eapply (turn_live (fun a => pbind (own (record_result a)) (fun _ => q_start_new_job call ps max_length eta first_rung max_rung))
    (q_asha_turns call scores ps max_length eta first_rung max_rung max_full f)) with (bound := f); eauto.
  - intros a. apply one_after; [hf|]. intros _. apply job_one.
  - rewrite <- E. apply bind_ext. intros a y. apply bind_assoc.
Qed.
Lemma start_jobs_live : forall m k w p x w' p' (init : list Sys_Model.turn) rounds rest, wfp call d p -> (0 < k -> pool_ok d n (p_s p)) -> p_plan p = init ++ concat rounds ++ rest -> nobody_killed (init ++ concat rounds) -> m <= length init -> length rounds = k -> Forall (late_round n) rounds ->
  q_start_jobs call ps max_length eta first_rung max_rung m (w, p) = (x, (w', p')) ->
  dones w' = dones w /\ match x with
  | Ok _ => calm k p' /\ length (out p') = length (out p) + m /\ length (p_plan p') <= length (p_plan p)
  | Err _ => length (out p') < length (out p) + m
  end.
Proof.
  induction m as [|m IH]; intros k w p x w' p' init rounds rest W G EP NK LI LK FR E;
    (assert (C : idling k p) by (split; auto; intros K; split; auto; exists init, rounds, rest; auto)).
  - cbn in E. injection E as <- <- <-. split; auto. split; [apply idling_calm; auto|]. split; auto; lia.
  - cbn [q_start_jobs] in E. unfold pbind in E. destruct (q_start_new_job call ps max_length eta first_rung max_rung (w, p)) as [y [w1 p1]] eqn:ES.
    assert (S1 : dones w1 = dones w /\ match y with Ok _ => p_plan p1 = tl (p_plan p) /\ (0 < k -> pool_ok d n (p_s p1)) | Err _ => True end).
    { unfold q_start_new_job, pbind in ES. destruct (own (get_job ps max_length eta first_rung) (w, p)) as [z [w2 p2]] eqn:EJ. destruct (own_live _ w p z w2 p2 (f_job ps max_length eta first_rung) EJ) as [-> D].
      destruct z as [j|e]; [|injection ES as <- <- <-; auto]. destruct (existsb _ _); [|injection ES as <- <- <-; auto].
      destruct (submit_step (fst j) (snd j) w2 p y w1 p1 k C ES) as (-> & _ & A' & A & _ & B & _). split; [congruence|auto]. }
    pose proof (job_one w p y w1 p1 k C ES) as S2. destruct S1 as [D1 S1].
    destruct y as [u|e]; [|injection E as <- <- <-; split; auto; lia].
    destruct S1 as [S1 G1]. destruct S2 as (C1 & O1 & _ & L1). destruct init as [|t init]; [cbn in LI; lia|].
    destruct (IH k w1 p1 x w' p' init rounds rest (proj1 C1) G1) as (A1 & A2); auto; [rewrite S1, EP; auto|exact (killed_tl _ NK)|cbn in LI; lia|]. split; [congruence|].
    destruct x as [u'|e]; [|lia]. destruct A2 as (B1 & B3 & B4). split; auto. split; lia.
Qed.
Lemma asha_live max_full log w plan x w' p' init rounds rest : plan = init ++ concat rounds ++ rest -> nobody_killed (init ++ concat rounds) -> 8 <= length init -> Forall (late_round n) rounds -> dones w = [] ->
  forall p0, p_plan p0 = plan -> q_asha call scores ps max_length eta first_rung max_rung max_full n log d (w, p0) = (x, (w', p')) -> x = Err Diverges ->
  length rounds <= length (dones w') \/ length (out p') < 8.
Proof.
  intros EP NK LI FR D0 p0 P0 E X. unfold q_asha in E. unfold pbind at 1 in E. destruct (own (set_rungs (empty_rungs first_rung max_rung)) (w, p0)) as [z [w1 q]] eqn:EO.
  destruct (own_live _ w p0 z w1 q (f_set _) EO) as [-> DW]. destruct z as [u|e]; [|unfold own, set_rungs in EO; cbn in EO; discriminate].
  unfold with_evaluator in E. cbn [fst snd] in E. rewrite P0 in E.
  set (p1 := mkPool (Async_Model.step call (Async_Model.new_evaluator n None log d) Async_Model.Enter) ([] : list job) plan) in *.
  assert (W : wfp call d p1) by (apply (enter_ok call d dj)). assert (G : pool_ok d n (p_s p1)) by (apply (enter_live call d n POS)). assert (O1 : out p1 = []) by (apply (enter_ok call d dj n log plan)).
  unfold pbind in E. destruct (q_start_jobs call ps max_length eta first_rung max_rung 8 (w1, p1)) as [y [w2 p2]] eqn:ES.
  destruct (start_jobs_live 8 (length rounds) w1 p1 y w2 p2 init rounds rest W (fun _ => G) EP NK LI eq_refl FR ES) as (D2 & S2).
  destruct y as [u'|e].
  - destruct S2 as (C2 & O2 & L2).
    destruct (q_asha_turns call scores ps max_length eta first_rung max_rung max_full (S (length plan)) (w2, p2)) as [z [w3 p3]] eqn:ET. cbn [fst snd] in E.
    assert (EX : out p' = out p3) by (transitivity (out (snd (snd (x, (w', p'))))); [auto|rewrite <- E; apply exit_ok]).
    assert (EZ : z = x /\ w3 = w') by (split; [exact (f_equal fst E)|exact (f_equal (fun y => fst (snd y)) E)]). destruct EZ as [-> ->]. rewrite EX. destruct (asha_loop max_full (S (length plan)) (length rounds) 8 w2 p2 x w' p3 C2) as [K|K]; auto; [rewrite O2, O1; auto|cbn in L2; lia|].
    left. rewrite D2, DW, D0 in K. auto.
  - cbn [fst snd] in E. assert (EX : out p' = out p2) by (transitivity (out (snd (snd (x, (w', p'))))); [auto|rewrite <- E; apply exit_ok]).
    right. rewrite EX. rewrite O1 in S2. auto.
Qed.
End Sets.
End Live.

(** Progress of the evolutionary search. *)
Require Import ZArith Lia.
From Verif Require Import Base Num Gp_Model Gp_Spec Lib_Spec Evo_Model Evo_Spec Evo_Proofs2 Evo_Proofs3 Evo_Proofs4 Proc_Model Proc_Spec Live_Spec Live_Proofs Live_Proofs2.
From Verif Require Import Proc_Proofs Proc_Proofs2.
From Verif Require Async_Model Sys_Model Sys_Proofs Live_Proofs3.
Open Scope nat_scope.
Open Scope list_scope.

Section Live.
Context (call : nat -> list nat -> Async_Model.kwargs -> nat -> Async_Model.outcome) (scores : nat -> list num) (d : Async_Model.kwargs) (n : nat).
Hypothesis ANS : answers call d.
Hypothesis POS : 0 < n.
Notation out := (outstanding di).
Notation ewf := (wf call d n v_jobs starts dones (matches scores)).
Definition quiet (k : nat) (p : pool individual) : Prop := wfp call d p /\ (0 < k -> pool_ok d n (p_s p) /\ to_come n k (p_plan p)).
Definition resting (k : nat) (p : pool individual) : Prop := wfp call d p /\ (0 < k -> pool_ok d n (p_s p) /\ after_result n k (p_plan p)).
Lemma resting_quiet k p : resting k p -> quiet k p.
Proof. intros [W H]. split; auto. intros K. destruct (H K). split; auto. apply after_to_come. auto. Qed.
Lemma own_quiet {A} (m : ME A) w (p : pool individual) x w' (p' : pool individual) : eframe [] m -> own m (w, p) = (x, (w', p')) -> p' = p /\ dones w' = dones w.
Proof.
  intros F E. unfold own in E. cbn [fst snd] in E. destruct (m w) as [y v] eqn:EM. injection E as <- <- <-. split; auto. destruct (F _ _ _ EM) as (_ & _ & H & _). rewrite app_nil_r in H. tauto.
Qed.
Lemma wait_quiet w p x w' p' k : quiet k p -> p_wait_next call scores (w, p) = (x, (w', p')) ->
  match x with
  | Ok _ => resting (pred k) p' /\ length (dones w') = S (length (dones w)) /\ length (p_plan p') < length (p_plan p)
  | Err Diverges => out p' = out p -> k = 0 /\ dones w' = dones w
  | Err _ => True
  end.
Proof.
  intros (W & GT) E. unfold p_wait_next in E. destruct (pool_wait call p) as [y p1] eqn:EW.
  assert (L : 0 < k -> y <> Err Diverges /\ (forall a, y = Ok a -> pool_ok d n (p_s p1) /\ after_result n (pred k) (p_plan p1))).
  { intros K. destruct (GT K) as [G TC]. exact (wait_live call d n ANS POS p y p1 k W G TC K EW). }
  destruct (wait_ok call d di p y p1 W EW) as (W0 & J & _ & _ & [(_ & -> & _)|[(_ & -> & _)|(kk & id & r & j & -> & LT & NT & NE & O & _ & W1 & LP)]]).
  - injection E as <- <- <-. auto.
  - injection E as <- <- <-. intros _. split; auto. destruct k; auto. destruct (L ltac:(lia)) as [L1 _]. congruence.
  - rewrite J, NE in E. unfold own in E. cbn [fst snd] in E. destruct (collect j (outcome_of scores r) w) as [z v] eqn:EC. injection E as <- <- <-.
    destruct (collect_ok scores w j (outcome_of scores r)) as (l & H1 & H2). destruct (H1 _ _ EC) as (_ & _ & H3 & _).
    destruct (H2 (p_jobs p) id r NE eq_refl) as (y & -> & _). pose proof (Live_Proofs3.remove_length kk (out p) LT) as LL. rewrite <- O in LL.
    destruct z as [a|e].
    + split; [split; auto; intros K; apply (L ltac:(lia)) with (1 := eq_refl)|]. split; auto. destruct H3 as [->|[_ H3]]; [|elim (H3 a); auto]. rewrite app_length. cbn. lia.
    + destruct e; auto. intros H. rewrite H in LL. lia.
Qed.
Lemma submit_quiet i w p x w' p' k : resting k p -> p_submit call i (w, p) = (x, (w', p')) ->
  x = Ok tt /\ quiet k p' /\ (0 < k -> pool_ok d n (p_s p')) /\ p_plan p' = tl (p_plan p) /\ dones w' = dones w /\ length (p_plan p') <= length (p_plan p).
Proof.
  intros (W & GA) E. unfold p_submit in E. injection E as <- <- <-.
  destruct (submit_ok call d di i p W) as (W' & _ & O & _ & _ & LP). split; auto.
  assert (K : 0 < k -> pool_ok d n (p_s (pool_submit call i p)) /\ to_come n k (tl (p_plan p))).
  { intros K. destruct (GA K) as [G AR]. destruct (after_tl n POS k (p_plan p) K AR) as [T C]. split; auto. apply (submit_live call d n ANS POS i p W G C). }
  split; [split; auto|]. split; [intros K0; apply K; auto|]. split; auto. split; auto. unfold dones. cbn [v_trace]. rewrite collections_app. apply app_nil_r.
Qed.
(** At most one submission. *)
Definition at_most_one (m : P unit) : Prop := forall w p x w' p' k, resting k p -> m (w, p) = (x, (w', p')) ->
  forall u, x = Ok u -> quiet k p' /\ dones w' = dones w /\ length (p_plan p') <= length (p_plan p).
Lemma most_after {A} (m : ME A) (f : A -> P unit) : eframe [] m -> (forall a, at_most_one (f a)) -> at_most_one (pbind (own m) f).
Proof.
  intros F H w p x w' p' k C E u X. unfold pbind in E. destruct (own m (w, p)) as [y [w1 p1]] eqn:EM. destruct (own_quiet m w p y w1 p1 F EM) as [-> D].
  destruct y as [a|e]; [|injection E as <- <- <-; discriminate]. pose proof (H a w1 p x w' p' k C E u X) as K. rewrite D in K. auto.
Qed.
Lemma most_skip {A} (a : A) (f : A -> P unit) : at_most_one (f a) -> at_most_one (pbind (pret a) f).
Proof. intros H w p x w' p' k C E. exact (H w p x w' p' k C E). Qed.
Lemma most_submit i : at_most_one (p_submit call i).
Proof. intros w p x w' p' k C E u X. destruct (submit_quiet i w p x w' p' k C E) as (_ & A1 & _ & _ & A3 & A4). auto. Qed.
Lemma most_ret : at_most_one (pret tt).
Proof. intros w p x w' p' k C E u X. injection E as <- <- <-. split; [apply resting_quiet; auto|auto]. Qed.
Lemma most_then (m : P unit) (f : unit -> P unit) : at_most_one m -> (forall y u, f u y = pret tt y) -> at_most_one (pbind m f).
Proof.
  intros H HF w p x w' p' k C E u X. unfold pbind in E. destruct (m (w, p)) as [y [w1 p1]] eqn:EM. destruct y as [a|e]; [|injection E as <- <- <-; discriminate].
  rewrite HF in E. injection E as <- <- <-. exact (H w p (Ok a) w1 p1 k C EM a eq_refl).
Qed.

Section EA.
Context (ps : pset) (mx : option Z) (max_retry pop_size kk : nat) (max_n : option Z) (restart : bool).
Hypothesis T : pset_typed ps.
Hypothesis HN : 0 < max_retry.
Hypothesis LEN : match mx with None => True | Some m => (1 <= m)%Z end.
Hypothesis RI : pset_rich ps.
Hypothesis SC : forall e, length (scores e) = kk.
Lemma most_refill : at_most_one (p_refill call ps mx max_retry).
Proof.
  unfold p_refill. intros w p x w' p' k C E. unfold pbind at 1 in E. unfold p_size in E. cbn [snd] in E.
  match type of E with context [if ?b then _ else _] => destruct b end; revert E; revert w p x w' p' k C; [|exact most_ret].
  apply most_after; [ef|]. intros. apply most_after; [ef|]. intros. apply most_after; [ef|]. intros. apply most_after; [apply f_note; auto|]. intros. apply most_submit.
Qed.
(** What a restart costs: every submission that comes before the next result uses up a turn of a round. *)
Definition cost : nat := if restart then S pop_size else 1.
Lemma quiet_resting k p : quiet k p -> resting (pred k) p.
Proof.
  intros [W H]. split; auto. intros K. destruct (H ltac:(lia)) as [G (j & r & t & A & N & B & C)]. split; auto. destruct r as [|r rs]; [cbn in B; lia|]. destruct C as [_ C].
  exists (j ++ r), rs, t. cbn [concat] in A, N. rewrite <- app_assoc. split; [rewrite A, <- app_assoc; auto|]. split; [rewrite <- app_assoc; auto|]. split; [cbn in B; subst k; auto|auto].
Qed.
Lemma quiet_less k j p : j <= k -> quiet k p -> quiet j p.
Proof. intros L. induction L as [|k L IH]; auto. intros H. apply IH. apply resting_quiet. exact (quiet_resting _ _ H). Qed.
Lemma submit_all_cost : forall l k w p x w' p', quiet k p -> p_submit_all call l (w, p) = (x, (w', p')) ->
  quiet (k - length l) p' /\ dones w' = dones w /\ length (p_plan p') <= length (p_plan p).
Proof.
  induction l as [|i l IH]; intros k w p x w' p' Q E.
  - cbn in E. injection E as <- <- <-. cbn [length]. rewrite Nat.sub_0_r. auto.
  - cbn [p_submit_all] in E. unfold pbind in E. destruct (p_submit call i (w, p)) as [y [w1 p1]] eqn:ES.
    destruct (submit_quiet i w p y w1 p1 (pred k) (quiet_resting _ _ Q) ES) as (-> & C1 & _ & _ & D1 & L1).
    destruct (IH (pred k) w1 p1 x w' p' C1 E) as (A1 & A2 & A3). split; [|split; [congruence|lia]]. replace (k - length (i :: l)) with (pred k - length l) by (cbn [length]; lia). auto.
Qed.
Lemma individuals_length : forall m w l w', individuals ps mx m w = (Ok l, w') -> length l = m.
Proof.
  induction m as [|m IH]; intros w l w' E; cbn [individuals] in E; [injection E as <- <-; auto|]. unfold ebind at 1, gp in E.
  destruct (op_individual ps mx (v_st w)) as [[i|ex] s1]; [|discriminate]. unfold ebind in E. destruct (individuals ps mx m _) as [[l1|ex] w1] eqn:E1; [|discriminate].
  apply IH in E1. injection E as <- <-. cbn. auto.
Qed.
Lemma restart_cost k w p x w' p' u : quiet k p -> (own (note Restarted) ;;# l <# own (individuals ps mx pop_size) ;; p_begin call l) (w, p) = (x, (w', p')) -> x = Ok u ->
  quiet (k - pop_size) p' /\ dones w' = dones w /\ length (p_plan p') <= length (p_plan p).
Proof.
  intros Q E X. unfold pbind at 1 in E. destruct (own (note Restarted) (w, p)) as [y [w1 p1]] eqn:E1. destruct (own_quiet (note Restarted) _ _ _ _ _ (f_note Restarted ltac:(auto)) E1) as [-> D1].
  destruct y as [?|e]; [|injection E as <- <- <-; discriminate].
  unfold pbind at 1 in E. destruct (own (individuals ps mx pop_size) (w1, p)) as [y [w2 p2]] eqn:E2. destruct (own_quiet (individuals ps mx pop_size) _ _ _ _ _ ltac:(ef) E2) as [-> D2].
  destruct y as [l|e]; [|injection E as <- <- <-; discriminate].
  assert (L : length l = pop_size). { unfold own in E2. cbn [fst snd] in E2. destruct (individuals ps mx pop_size w1) as [z v] eqn:EI. injection E2 as -> <-. eapply individuals_length; eauto. }
  unfold p_begin, pbind in E. destruct (own (set_population []) (w2, p)) as [z [w3 q]] eqn:EO. destruct (own_quiet _ _ _ _ _ _ (f_set _) EO) as [-> D3].
  destruct z as [?|e]; [|injection E as <- <- <-; discriminate]. destruct (submit_all_cost l k w3 p x w' p' Q E) as (A1 & A2 & A3). rewrite L in A1. split; auto. split; auto. congruence.
Qed.
Definition before_coin (x : individual * outcome) : P unit :=
  (match x with
   | (i, Evaluated scores false) => own (add_to_population pop_size (mkMem i scores))
   | _ => pret tt
   end) ;;# p_refill call ps mx max_retry.
Lemma most_before x : at_most_one (before_coin x).
Proof.
  unfold before_coin. destruct x as [i [|sc []]].
  - apply most_skip. apply most_refill.
  - apply most_skip. apply most_refill.
  - apply most_after; [ef|]. intros _. apply most_refill.
Qed.
Lemma most_rest x : forall w p y w' p' k, resting (pred k) p -> after_p call ps mx max_retry pop_size restart x (w, p) = (y, (w', p')) -> forall u, y = Ok u ->
  quiet (k - cost) p' /\ dones w' = dones w /\ length (p_plan p') <= length (p_plan p).
Proof.
  intros w p y w' p' k C E u X.
  assert (EQ : after_p call ps mx max_retry pop_size restart x (w, p) = pbind (before_coin x) (fun _ => 
    b <# (if restart then own (gp (mrandom (fun r => let (b, r') := rcoin r in (Ok b, r')))) else pret false) ;;
    if b then own (note Restarted) ;;# l <# own (individuals ps mx pop_size) ;; p_begin call l else pret tt) (w, p)).
  { unfold after_p, before_coin, pbind. match goal with |- context [match ?m (w, p) with _ => _ end] => destruct (m (w, p)) as [[?|?] ?] end; auto. }
  rewrite EQ in E. unfold pbind at 1 in E. destruct (before_coin x (w, p)) as [z [w1 p1]] eqn:E1.
  destruct z as [v|e]; [|injection E as <- <- <-; discriminate]. destruct (most_before x w p (Ok v) w1 p1 (pred k) C E1 v eq_refl) as (Q1 & D1 & L1). unfold cost.
  destruct restart.
  - unfold pbind at 1 in E. destruct (own (gp (mrandom (fun r => let (b, r') := rcoin r in (Ok b, r')))) (w1, p1)) as [z [w2 p2]] eqn:E2.
    destruct (own_quiet (gp (mrandom (fun r => let (b, r') := rcoin r in (Ok b, r')))) _ _ _ _ _ ltac:(ef) E2) as [-> D2].
    destruct z as [b|e]; [|injection E as <- <- <-; discriminate]. destruct b.
    + destruct (restart_cost _ _ _ _ _ _ u Q1 E X) as (A1 & A2 & A3). replace (k - S pop_size) with (pred k - pop_size) by lia. split; auto. split; [congruence|lia].
    + injection E as <- <- <-. split; [eapply quiet_less; [|exact Q1]; lia|]. split; [congruence|lia].
  - injection E as <- <- <-. replace (k - 1) with (pred k) by lia. auto.
Qed.
Section Start.
Context (seen : list string).
Context (start : list individual).
Notation Inv := (Evo_Proofs2.Inv seen ps max_retry restart (fine ps mx) start).
Lemma ea_loop : forall f cnt k w p x w' p', ewf w p -> quiet k p -> length (p_plan p) < f ->
  Inv (setj (out p) w) -> popok (setj (out p) w) -> fits kk (setj (out p) w) -> out p <> [] ->
  length (dones w) = cnt -> p_turns call scores ps mx max_retry pop_size max_n restart f cnt (w, p) = (x, (w', p')) -> x = Err Diverges ->
  k <= cost * (length (dones w') - length (dones w)) /\ length (dones w) <= length (dones w') /\ below max_n (length (dones w')) = true.
Proof.
  induction f as [|f IH]; intros cnt k w p x w' p' WF Q HF I PO FI NO EC E X; [lia|]. cbn [p_turns] in E. destruct (below max_n cnt) eqn:BE; [|injection E as <- <- <-; discriminate].
  unfold pbind at 1 in E. destruct (p_turn call scores ps mx max_retry pop_size restart (w, p)) as [x1 [w1 p1]] eqn:ET.
  change (p_turn call scores ps mx max_retry pop_size restart) with (pbind (p_wait_next call scores) (after_p call ps mx max_retry pop_size restart)) in ET. unfold pbind in ET.
  destruct (p_wait_next call scores (w, p)) as [x0 [w0 p0]] eqn:EW. destruct (e_wait call scores d n _ _ _ _ _ WF EW) as (B1 & A2 & A3 & A4). pose proof (wait_quiet w p x0 w0 p0 k Q EW) as WQ.
  destruct A4 as [(-> & A4 & A5 & ->)|[(-> & A4 & A5 & ->)|(e & A4 & A0 & A5 & A6)]].
  - congruence.
  - injection ET as <- <- <-. injection E as <- <- <-. destruct (WQ A5) as [-> D]. rewrite EC. split; [lia|auto].
  - assert (CA : calm kk e) by (unfold scored_by, calm in *; destruct (e_out e); auto; destruct A0 as (v & ->); auto).
    assert (TU : forall x1 w1 p1, (match x0 with Ok a => after_p call ps mx max_retry pop_size restart a (w0, p0) | Err e => (Err e, (w0, p0)) end) = (x1, (w1, p1)) ->
      turn ps mx max_retry n pop_size restart e (setj (out p) w) = (x1, setj (out p1) w1) /\ (forall a, x1 = Ok a -> ewf w1 p1)).
    { intros y v q H. change (turn ps mx max_retry n pop_size restart e) with (ebind (wait_next e) (after_wait n ps mx max_retry pop_size restart)). unfold ebind. rewrite A6.
      destruct x0 as [a|ex]; [|injection H as <- <- <-; split; auto; discriminate].
      destruct (e_after call scores d n ps mx max_retry pop_size restart a w0 p0 y v q (A2 _ eq_refl) H) as (B5 & B2 & B3 & B4). split; auto. }
    destruct (TU _ _ _ ET) as [TU1 TU2].
    destruct (turn_any _ ps mx max_retry n pop_size kk restart start T HN RI LEN e (setj (out p) w) (setj (out p1) w1) x1 I PO FI CA A4 TU1) as [(-> & I1 & P1 & F1 & N1)|RE].
    + destruct x0 as [a|ex]; [|discriminate]. destruct WQ as (Q0 & D0 & L0).
      destruct (most_rest a w0 p0 (Ok tt) w1 p1 k Q0 ET tt eq_refl) as (Q1 & D1 & L1).
      pose proof (IH (S cnt) (k - cost) w1 p1 x w' p' (TU2 tt eq_refl) Q1 ltac:(lia) I1 P1 F1 N1 ltac:(rewrite D1, D0, EC; auto) E X) as (K & K1 & K'). rewrite D1, D0 in K, K1. split; [|split; [lia|auto]]. replace (length (dones w') - length (dones w)) with (S (length (dones w') - S (length (dones w)))) by lia. lia.
    + assert (NX : x1 <> Ok tt /\ x1 <> Err Diverges).
      { destruct RE as [(RE & _)|[(RE & _)|(? & ? & ? & _ & _ & _ & [(_ & [RE|RE])|(_ & _ & _ & RE)])]]; subst x1; split; discriminate. }
      destruct x1 as [[]|ex]; [destruct (proj1 NX eq_refl)|]. injection E as <- <- <-. destruct (proj2 NX X).
Qed.
Lemma submit_all_quiet : forall l k w p x w' p' (init : list Sys_Model.turn) rounds rest, wfp call d p -> (0 < k -> pool_ok d n (p_s p)) -> p_plan p = init ++ concat rounds ++ rest ->
  nobody_killed (init ++ concat rounds) -> length l <= length init -> length rounds = k -> Forall (late_round n) rounds ->
  p_submit_all call l (w, p) = (x, (w', p')) ->
  x = Ok tt /\ quiet k p' /\ dones w' = dones w /\ length (p_plan p') <= length (p_plan p).
Proof.
  induction l as [|i l IH]; intros k w p x w' p' init rounds rest W G EP NK LI LK FR E;
    (assert (C : resting k p) by (split; auto; intros K; split; auto; exists init, rounds, rest; auto)).
  - cbn in E. injection E as <- <- <-. split; auto. split; [apply resting_quiet; auto|]. cbn; auto.
  - cbn [p_submit_all] in E. unfold pbind in E. destruct (p_submit call i (w, p)) as [y [w1 p1]] eqn:ES.
    destruct (submit_quiet i w p y w1 p1 k C ES) as (-> & C1 & G1 & P1 & D1 & L1).
    destruct init as [|t init]; [cbn in LI; lia|]. destruct (IH k w1 p1 x w' p' init rounds rest (proj1 C1) G1) as (A1 & A2 & A4 & A5); auto; [rewrite P1, EP; auto|exact (killed_tl _ NK)|cbn in LI; lia|].
    split; auto. split; auto. split; [congruence|]. lia.
Qed.
Lemma ea_quiet log (s : setting) plan x w' p' init rounds rest : seen_before s = seen -> wf_heap (s_heap s) -> Forall (good_new (fine ps mx) s) start -> start <> [] ->
  plan = init ++ concat rounds ++ rest -> nobody_killed (init ++ concat rounds) -> length start <= length init -> Forall (late_round n) rounds ->
  forall p0, p_plan p0 = plan -> p_async_ea call scores ps mx max_retry pop_size max_n restart n log d start (fresh_search s, p0) = (x, (w', p')) -> x = Err Diverges ->
  length rounds <= cost * length (dones w') /\ below max_n (length (dones w')) = true.
Proof.
  intros SB WH GS NE EP NK LI FR p0 P0 E X. unfold p_async_ea in E.
  destruct (match max_n with Some m => (m <=? 0)%Z | None => false end); [injection E as <- <- <-; discriminate|]. unfold with_evaluator in E. cbn [fst snd] in E. rewrite P0 in E.
  set (p1 := mkPool (Async_Model.step call (Async_Model.new_evaluator n None log d) Async_Model.Enter) ([] : list individual) plan) in *.
  destruct (enter_ok call d di n log plan) as (B1 & B2 & B3 & B4). fold p1 in B1, B2, B3, B4.
  assert (G : pool_ok d n (p_s p1)) by (apply (enter_live call d n POS)).
  assert (W : ewf (fresh_search s) p1). { split; auto. split; auto. split; auto. split; auto. rewrite B3. constructor. }
  destruct (p_begin call start (fresh_search s, p1)) as [y [w2 p2]] eqn:EB. destruct (e_begin call scores d n start _ _ _ _ _ W EB) as (_ & C2 & C3 & C4).
  rewrite B2 in C4. change (setj [] (fresh_search s)) with (fresh_search s) in C4.
  assert (EB' := EB). unfold p_begin, pbind in EB'. destruct (own (set_population []) (fresh_search s, p1)) as [z [w1 q]] eqn:EO. destruct (own_quiet _ _ _ _ _ _ (f_set _) EO) as [-> D1].
  destruct z as [u|e]; [|unfold own, set_population in EO; cbn in EO; discriminate].
  destruct (submit_all_quiet start (length rounds) w1 p1 y w2 p2 init rounds rest B1 (fun _ => G)) as (-> & Q2 & D2 & L2); auto.
  destruct (begin_any _ ps mx max_retry kk restart start s SB WH GS) as (v & EV & I & PO & FI & PV & JV). rewrite C4 in EV. assert (EV2 : setj (out p2) w2 = v) by exact (f_equal snd EV). subst v.
  unfold pbind in E. rewrite EB in E.
  destruct (p_turns call scores ps mx max_retry pop_size max_n restart (S (length plan)) 0 (w2, p2)) as [z [w3 p3]] eqn:ET. cbn [fst snd] in E.
  assert (EZ : z = x /\ w3 = w') by (split; [exact (f_equal fst E)|exact (f_equal (fun y => fst (snd y)) E)]). destruct EZ as [-> ->].
  cbn [setj v_jobs] in JV.
  pose proof (ea_loop (S (length plan)) 0 (length rounds) w2 p2 x w' p3 (C2 tt eq_refl) Q2 ltac:(cbn in L2; lia) I PO FI ltac:(rewrite JV; auto) ltac:(rewrite D2, D1; auto) ET X) as (K & _ & K'). assert (Z0 : length (dones w2) = 0) by (rewrite D2, D1; auto). rewrite Z0, Nat.sub_0_r in K. auto.
Qed.
End Start.
End EA.
End Live.

(** * The number of results of a search that came to its end *)
Section Number.
Context (ps : pset) (mx : option Z) (max_retry workers pop_size : nat) (max_n : option Z) (restart : bool).
Lemma turns_end : forall es k w w', n_coll w = k -> turns ps mx max_retry workers pop_size max_n restart k es w = (Ok tt, w') ->
  below max_n (n_coll w') = false /\ (n_coll w' = k \/ below max_n (pred (n_coll w')) = true).
Proof.
  induction es as [|e es IH]; intros k w w' K E; cbn [turns] in E; destruct (below max_n k) eqn:B.
  - destruct (v_jobs w); discriminate.
  - injection E as <-. subst k. auto.
  - unfold ebind in E. destruct (turn ps mx max_retry workers pop_size restart e w) as [[[]|ex] w1] eqn:E1; [|discriminate].
    apply turn_count in E1. destruct (IH (S k) w1 w' ltac:(lia) E) as [H1 [H2|H2]]; auto. split; auto. right. rewrite H2. cbn [pred]. auto.
  - injection E as <-. subst k. auto.
Qed.
Lemma individuals_same : forall k w x w', individuals ps mx k w = (x, w') -> v_trace w' = v_trace w.
Proof.
  induction k as [|k IH]; intros w x w' E; cbn [individuals] in E; [injection E as <- <-; auto|]. unfold ebind at 1, gp in E.
  destruct (op_individual ps mx (v_st w)) as [[i|ex] s1]; [|injection E as <- <-; auto]. unfold ebind in E. destruct (individuals ps mx k _) as [y w1] eqn:E1.
  apply IH in E1. destruct y; injection E as <- <-; auto.
Qed.
Lemma search_end warm es (s : setting) w : search ps mx max_retry workers pop_size max_n restart warm es (fresh_search s) = (Ok tt, w) ->
  match max_n with None => False | Some m => Z.of_nat (length (collected (v_trace w))) = m end.
Proof.
  intros E.
  assert (K : forall l w0, v_trace w0 = [] -> async_ea ps mx max_retry workers pop_size max_n restart l es w0 = (Ok tt, w) -> match max_n with None => False | Some m => Z.of_nat (length (collected (v_trace w))) = m end).
  { intros l w0 T0 H. unfold async_ea in H. destruct (match max_n with Some m => (m <=? 0)%Z | None => false end) eqn:EM; [discriminate|].
    unfold ebind in H. destruct (begin l w0) as [[u|ex] w1] eqn:EB; [|discriminate]. pose proof (quiet_begin _ _ _ _ EB) as Q.
    assert (Z0 : n_coll w1 = 0) by (rewrite Q; unfold n_coll; rewrite T0; auto).
    apply turns_end in H as [H1 H2]; auto. unfold below in *. fold (n_coll w). destruct max_n as [m|]; [|discriminate].
    apply Z.ltb_ge in H1. apply Z.leb_gt in EM. destruct H2 as [H2|H2]; [lia|]. apply Z.ltb_lt in H2. lia. }
  unfold search in E. destruct warm as [|i warm]; [|apply (K (i :: warm) (fresh_search s)); auto].
  unfold ebind in E. remember 50 as fifty. destruct (individuals ps mx fifty (fresh_search s)) as [[l|ex] w1] eqn:E1; [|discriminate]. apply individuals_same in E1. apply (K l w1); auto.
Qed.
End Number.

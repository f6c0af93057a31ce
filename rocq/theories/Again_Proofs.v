(** With one worker process a search on pipelines is the search on one list of results, the
    same for every schedule. *)
Require Import ZArith Lia.
From Verif Require Import Base Num Gp_Model Evo_Model Evo_Spec Rnd_Model Proc_Model Proc_Spec Proc_Proofs.
From Verif Require Proc_Proofs2 Proc_Proofs3.
From Verif Require Async_Model Sys_Model Sys_Proofs2 Det_Spec Det_Proofs.
Open Scope nat_scope.
Open Scope list_scope.

Section One.
Context (call : nat -> list nat -> Async_Model.kwargs -> nat -> Async_Model.outcome) (scores : nat -> list num) (d : Async_Model.kwargs).
Hypothesis H : Det_Spec.steady call d.
(** The result of the submission number [k]. *)
Definition ev (k : nat) : event := mkEv 0 (outcome_of scores (Det_Proofs.out_of call d k)).

Section Pool.
Context {T J : Type} (getj : T -> list J) (setj : list J -> T -> T).
Definition left (r : nat) (p : pool J) : list J := skipn r (p_jobs p).
Definition ok1 (r : nat) (w : T) (p : pool J) : Prop :=
  getj w = [] /\ (exists c, Det_Proofs.fifo call d r c (length (p_jobs p)) (p_s p)) /\
  Async_Model.a_waiting (p_s p) = false /\ Det_Spec.undisturbed (p_plan p).
Lemma undisturbed_tl plan : Det_Spec.undisturbed plan -> Det_Spec.undisturbed (tl plan).
Proof. intros U t p I. apply U. destruct plan; auto. right. auto. Qed.
Lemma ok1_le r w p : ok1 r w p -> r <= length (p_jobs p).
Proof. intros (_ & (c & F) & _). pose proof (Det_Proofs.ff_le _ _ _ _ _ _ F). lia. Qed.
Lemma submit1 r w j p : ok1 r w p -> forall w', getj w' = [] -> ok1 r w' (pool_submit call j p) /\ left r (pool_submit call j p) = left r p ++ [j] /\
  length (p_plan (pool_submit call j p)) <= length (p_plan p).
Proof.
  intros O w' G. pose proof (ok1_le _ _ _ O) as L. destruct O as (G0 & (c & F) & W & U). unfold pool_submit. cbn [p_s p_jobs p_plan].
  set (acts := match p_plan p with [] => [] | t :: _ => Sys_Model.t_acts t end).
  assert (NC : forall q, ~ In (Async_Model.Crash q) acts).
  { intros q. unfold acts. destruct (p_plan p) as [|t pl]; [auto|]. apply U. left. auto. }
  destruct (Det_Proofs.fifo_workers call d H acts _ _ _ _ F NC) as (c1 & F1 & W1 & _). rewrite W in W1.
  destruct (Det_Proofs.fifo_submit call d _ _ _ _ F1 W1) as (F2 & W2).
  split; [|split].
  - split; auto. split; [|split; auto; apply undisturbed_tl; auto]. cbn [p_s p_jobs]. rewrite app_length. cbn [length]. replace (length (p_jobs p) + 1) with (S (length (p_jobs p))) by lia. exists c1. exact F2.
  - unfold left. cbn [p_jobs]. rewrite skipn_app. replace (r - length (p_jobs p)) with 0 by lia. reflexivity.
  - destruct (p_plan p); simpl; lia.
Qed.
Lemma size1 r w p : ok1 r w p -> Async_Model.a_size (p_s p) = (Z.of_nat (length (left r p)) - Z.of_nat 1)%Z.
Proof.
  intros O. pose proof (ok1_le _ _ _ O) as L. destruct O as (_ & (c & F) & _). rewrite (Det_Proofs.ff_size _ _ _ _ _ _ F). unfold left. rewrite skipn_length. lia.
Qed.
Lemma wait1 r w p x p' : ok1 r w p -> pool_wait call p = (x, p') -> p_jobs p' = p_jobs p /\
  ((left r p = [] /\ x = Err RuntimeError) \/
   (left r p <> [] /\ x = Err Diverges) \/
   (exists j, x = Ok (r, Det_Proofs.out_of call d r) /\ nth_error (p_jobs p) r = Some j /\ left r p = j :: left (S r) p' /\
      (forall w', getj w' = [] -> ok1 (S r) w' p') /\ length (p_plan p') < length (p_plan p))).
Proof.
  intros O E. pose proof (ok1_le _ _ _ O) as L. destruct O as (_ & (c & F) & W & U). unfold pool_wait in E.
  destruct (Det_Proofs.fifo_wait call d _ _ _ _ F W) as [(E1 & R1 & F1 & W1)|(E1 & R1 & F1 & W1)].
  - set (s0 := Async_Model.step call (p_s p) Async_Model.Wait) in *. clearbody s0. unfold Sys_Model.raised_by in E. rewrite R1, app_length in E.
    destruct (Nat.ltb_spec (length (Async_Model.a_raised (p_s p))) (length (Async_Model.a_raised (p_s p)) + length [RuntimeError])) as [_|HH]; [|simpl in HH; lia].
    rewrite last_last in E. injection E as <- <-. split; auto. left. split; auto. unfold left. rewrite E1. apply skipn_all.
  - set (s0 := Async_Model.step call (p_s p) Async_Model.Wait) in *. clearbody s0. rewrite Sys_Proofs2.raised_none in E by auto.
    destruct (Sys_Model.turns call (p_plan p) s0) as [s1 plan] eqn:ET.
    assert (NL : left r p <> []). { intros N. apply (f_equal (@length J)) in N. unfold left in N. rewrite skipn_length in N. simpl in N. lia. }
    destruct (Det_Proofs.fifo_turns call d H _ U _ _ _ _ _ _ F1 W1 ET) as (U1 & [W2|(W2 & R2 & (rest & E2) & (c2 & F2))]).
    + rewrite W2 in E. injection E as <- <-. auto.
    + rewrite W2 in E. rewrite Sys_Proofs2.raised_none in E by auto. rewrite E2 in E. unfold Det_Proofs.res_of in E. injection E as <- <-. split; auto. right. right.
      unfold left in *. cbn [p_jobs]. destruct (nth_error (p_jobs p) r) as [j|] eqn:EN; [|apply nth_error_None in EN; lia].
      exists j. split; auto. split; auto. split; [|split].
      * clear - EN. revert r EN. induction (p_jobs p) as [|a l IH]; intros [|r] EN; simpl in *; try discriminate; [congruence|auto].
      * intros w' G'. split; auto. cbn [p_s p_jobs p_plan]. split; [exists c2; exact F2|]. auto.
      * cbn [p_plan]. clear - ET W1 W2. revert s0 W1 ET. induction (p_plan p) as [|t pl IH]; intros s0 W1 ET.
        { cbn in ET. injection ET as <- <-. congruence. }
        cbn [Sys_Model.turns] in ET. match type of ET with (if ?b then _ else _) = _ => destruct b eqn:EB end.
        -- apply IH in ET; [simpl; lia|exact EB].
        -- injection ET as <- <-. simpl. lia.
Qed.

(** Code that does not look at the jobs. *)
Definition fr {A} (m : T -> res A * T) : Prop := forall w x w', m w = (x, w') -> getj w' = getj w /\ forall j, m (setj j w) = (x, setj j w').
Definition sim1 {A} (m : T -> res A * T) (ms : MP T J A) : Prop := forall r w p x w' p', ok1 r w p -> ms (w, p) = (x, (w', p')) ->
  ok1 r w' p' /\ length (p_plan p') <= length (p_plan p) /\ m (setj (left r p) w) = (x, setj (left r p') w').
Lemma o_ret {A} (a : A) : sim1 (fun w => (Ok a, w)) (pret a).
Proof. intros r w p x w' p' O E. injection E as <- <- <-. auto. Qed.
Lemma o_raise {A} e : sim1 (fun w => (@Err A e, w)) (praise e).
Proof. intros r w p x w' p' O E. injection E as <- <- <-. auto. Qed.
Lemma o_bind {A B} (m : T -> res A * T) (ms : MP T J A) (f : A -> T -> res B * T) (g : A -> MP T J B) :
  sim1 m ms -> (forall a, sim1 (f a) (g a)) ->
  sim1 (fun w => match m w with (Ok a, w') => f a w' | (Err e, w') => (Err e, w') end) (pbind ms g).
Proof.
  intros H1 H2 r w p x w' p' O E. unfold pbind in E. destruct (ms (w, p)) as [[a|e] [w1 p1]] eqn:E1.
  - destruct (H1 _ _ _ _ _ _ O E1) as (A1 & A2 & A3). destruct (H2 a _ _ _ _ _ _ A1 E) as (B1 & B2 & B3).
    split; auto. split; [lia|]. rewrite A3. auto.
  - injection E as <- <- <-. destruct (H1 _ _ _ _ _ _ O E1) as (A1 & A2 & A3). split; auto. split; auto. rewrite A3. auto.
Qed.
Lemma o_own {A} (m : T -> res A * T) : fr m -> sim1 m (own m).
Proof.
  intros F r w p x w' p' (O1 & O2) E. unfold own in E. cbn [fst snd] in E. destruct (m w) as [x0 w0] eqn:Em. injection E as <- <- <-.
  destruct (F _ _ _ Em) as (A1 & A2). split; [split; [congruence|auto]|]. split; auto.
Qed.
Lemma o_submit (j : J) (f : T -> T) (m : T -> res unit * T) (ms : MP T J unit) :
  (forall w, getj (f w) = getj w) ->
  (forall l w, m (setj l w) = (Ok tt, setj (l ++ [j]) (f w))) ->
  (forall w p, ms (w, p) = (Ok tt, (f w, pool_submit call j p))) -> sim1 m ms.
Proof.
  intros F1 F4 F5 r w p x w' p' O E. rewrite F5 in E. injection E as <- <- <-. pose proof O as (G & _).
  destruct (submit1 r w j p O (f w)) as (B1 & B2 & B3); [rewrite F1; auto|]. split; auto. split; auto. rewrite F4, B2. auto.
Qed.
Lemma o_wait {A} (wait : event -> T -> res A * T) (col : J -> outcome -> T -> res A * T) (ms : MP T J A) :
  (forall w p, ms (w, p) = match pool_wait call p with
    | (Err e, p') => (Err e, (w, p'))
    | (Ok (k, r), p') => match nth_error (p_jobs p') k with
                         | None => (Err KeyError, (w, p'))
                         | Some j => own (col j (outcome_of scores r)) (w, p')
                         end
    end) ->
  (forall e l w, wait e (setj l w) = match l with
    | [] => (Err RuntimeError, setj l w)
    | j0 :: _ => let k := e_pick e mod length l in col (nth k l j0) (e_out e) (setj (remove_nth k l) w)
    end) ->
  (forall j o, fr (col j o)) ->
  forall r w p x w' p', ok1 r w p -> ms (w, p) = (x, (w', p')) ->
  ((x = Err RuntimeError /\ left r p = [] /\ w' = w /\ left r p' = []) \/
   (x = Err Diverges /\ left r p <> [] /\ w' = w /\ left r p' = left r p) \/
   (left r p <> [] /\ ok1 (S r) w' p' /\ length (p_plan p') < length (p_plan p) /\ wait (ev r) (setj (left r p) w) = (x, setj (left (S r) p') w'))).
Proof.
  intros HM HW HC r w p x w' p' O E. rewrite HM in E. destruct (pool_wait call p) as [x0 p0] eqn:EP.
  destruct (wait1 r w p x0 p0 O EP) as (PJ & [(A1 & ->)|[(A1 & ->)|(j & -> & A1 & A2 & A3 & A4)]]).
  - injection E as <- <- <-. left. unfold left in *. rewrite PJ. auto.
  - injection E as <- <- <-. right. left. unfold left in *. rewrite PJ. auto.
  - right. right. rewrite PJ, A1 in E. unfold own in E. cbn [fst snd] in E. destruct (col j (outcome_of scores (Det_Proofs.out_of call d r)) w) as [x1 w1] eqn:EC. injection E as <- <- <-.
    destruct (HC _ _ _ _ _ EC) as (B1 & B2). destruct O as (O1 & _). split; [rewrite A2; discriminate|]. split; [apply A3; congruence|]. split; auto.
    rewrite HW, A2. cbn [e_pick e_out ev]. rewrite Nat.mod_0_l by discriminate. cbn [nth remove_nth]. apply B2.
Qed.
Lemma enter1 log plan w : getj w = [] -> Det_Spec.undisturbed plan ->
  ok1 0 w (mkPool (Async_Model.step call (Async_Model.new_evaluator 1 None log d) Async_Model.Enter) [] plan).
Proof. intros G U. destruct (Det_Proofs.fifo_start call d log) as (F & W). split; auto. split; [exists 0; exact F|]. auto. Qed.
End Pool.

(** * The evolutionary search *)
Import Proc_Proofs2.
Notation esim1 := (sim1 v_jobs setj).
Notation eok := (ok1 v_jobs).
Lemma e_fr {A} l (m : ME A) : eframe l m -> fr v_jobs setj m.
Proof. intros F w x w' E. destruct (F _ _ _ E) as (A1 & _ & _ & A4). auto. Qed.
Lemma e1_ret {A} (a : A) : esim1 (eret a) (pret a). Proof. apply o_ret. Qed.
Lemma e1_raise {A} e : esim1 (@eraise A e) (praise e). Proof. apply o_raise. Qed.
Lemma e1_bind {A B} (m : ME A) ms (f : A -> ME B) g : esim1 m ms -> (forall a, esim1 (f a) (g a)) -> esim1 (ebind m f) (pbind ms g).
Proof. intros H1 H2. apply o_bind; auto. Qed.
Lemma e1_own {A} (m : ME A) : eframe [] m -> esim1 m (own m).
Proof. intros F. apply o_own. eapply e_fr; eauto. Qed.
Lemma e1_submit i : esim1 (submit i) (p_submit call i).
Proof. apply o_submit with (j := i) (f := fun w => mkEvo (v_st w) (v_pop w) (v_jobs w) (v_saved w) (v_trace w ++ [Submitted i])); auto. Qed.
Ltac em1 := repeat (first [apply e1_bind; [|intros ?] | apply e1_ret | apply e1_raise | apply e1_submit | apply e1_own; solve [ef]
  | match goal with |- sim1 _ _ (match ?x with _ => _ end) (match ?x with _ => _ end) => destruct x end
  | match goal with |- sim1 _ _ (if ?x then _ else _) (if ?x then _ else _) => destruct x end]).
Lemma e1_submit_all l : esim1 (submit_all l) (p_submit_all call l).
Proof. induction l; cbn [submit_all p_submit_all]; em1. auto. Qed.
Lemma e1_begin l : esim1 (begin l) (p_begin call l).
Proof. unfold begin, p_begin. em1. apply e1_submit_all. Qed.
Lemma e1_wait r w p x w' p' : eok r w p -> p_wait_next call scores (w, p) = (x, (w', p')) ->
  ((x = Err RuntimeError /\ left r p = [] /\ w' = w /\ left r p' = []) \/
   (x = Err Diverges /\ left r p <> [] /\ w' = w /\ left r p' = left r p) \/
   (left r p <> [] /\ eok (S r) w' p' /\ length (p_plan p') < length (p_plan p) /\ wait_next (ev r) (setj (left r p) w) = (x, setj (left (S r) p') w'))).
Proof.
  apply (o_wait v_jobs setj wait_next collect (p_wait_next call scores)).
  - intros. reflexivity.
  - exact wait_eq.
  - intros j o w0 x0 w0' E. destruct (collect_ok scores w0 j o) as (l & A & _). destruct (A _ _ E) as (A1 & _ & _ & A4). auto.
Qed.
Section EA.
Context (ps : pset) (max_length : option Z) (max_retry pop_size : nat) (max_n : option Z) (restart : bool).
Lemma e1_refill : esim1 (refill ps max_length max_retry 1) (p_refill call ps max_length max_retry).
Proof.
  intros r w p x w' p' O E. unfold p_refill in E. unfold pbind at 1 in E. unfold p_size in E.
  cbn [snd] in E. rewrite (size1 v_jobs _ _ _ O) in E. unfold refill. cbn [setj v_jobs].
  destruct (Z.of_nat (length (left r p)) - Z.of_nat 1 <=? 1)%Z; [|exact (e1_ret tt r w p x w' p' O E)].
  assert (S : esim1 (done <~ saved ;; pop <~ population ;; i <~ gp (create_one ps max_length max_retry done pop) ;; note (Bred i pop) ;;~ submit i)
     (done <# own saved ;; pop <# own population ;; i <# own (gp (create_one ps max_length max_retry done pop)) ;; own (note (Bred i pop)) ;;# p_submit call i)) by em1.
  exact (S r w p x w' p' O E).
Qed.
Lemma e1_after x : esim1 (after_wait 1 ps max_length max_retry pop_size restart x) (after_p call ps max_length max_retry pop_size restart x).
Proof.
  unfold after_wait, after_p. apply e1_bind; [em1|intros _]. apply e1_bind; [apply e1_refill|intros _]. apply e1_bind; [em1|intros b].
  destruct b; [|em1]. apply e1_bind; [em1|intros _]. apply e1_bind; [em1|intros l]. apply e1_begin.
Qed.
Notation turns := (turns ps max_length max_retry 1 pop_size max_n restart).
Lemma e1_turns : forall f k r w p x w' p', eok r w p -> length (p_plan p) < f ->
  p_turns call scores ps max_length max_retry pop_size max_n restart f k (w, p) = (x, (w', p')) ->
  v_jobs w' = [] /\ exists m l, turns k (map ev (seq r m)) (setj (left r p) w) = (x, setj l w').
Proof.
  induction f as [|f IH]; intros k r w p x w' p' O HF E; [lia|]. cbn [p_turns] in E. pose proof O as (G & _). destruct (below max_n k) eqn:EB.
  2: { injection E as <- <- <-. split; auto. exists 0, (left r p). cbn [seq map Evo_Model.turns]. rewrite EB. auto. }
  unfold pbind at 1 in E. destruct (p_turn call scores ps max_length max_retry pop_size restart (w, p)) as [x1 [w1 p1]] eqn:ET.
  change (p_turn call scores ps max_length max_retry pop_size restart) with (pbind (p_wait_next call scores) (after_p call ps max_length max_retry pop_size restart)) in ET. unfold pbind in ET.
  destruct (p_wait_next call scores (w, p)) as [x0 [w0 p0]] eqn:EW.
  destruct (e1_wait _ _ _ _ _ _ O EW) as [(-> & A4 & -> & A5)|[(-> & A4 & -> & A5)|(A4 & A0 & A5 & A6)]].
  - injection ET as <- <- <-. injection E as <- <- <-. split; auto. exists 0, []. cbn [seq map Evo_Model.turns]. rewrite EB. cbn [setj v_jobs]. rewrite A4. auto.
  - injection ET as <- <- <-. injection E as <- <- <-. split; auto. exists 0, (left r p). cbn [seq map Evo_Model.turns]. rewrite EB. cbn [setj v_jobs]. destruct (left r p); [congruence|auto].
  - assert (TT : forall es, turns k (ev r :: es) (setj (left r p) w) = ebind (ebind (wait_next (ev r)) (after_wait 1 ps max_length max_retry pop_size restart)) (fun _ => turns (S k) es) (setj (left r p) w)).
    { intros es. cbn [Evo_Model.turns]. rewrite EB. auto. }
    destruct x0 as [y|ex].
    + destruct (e1_after y _ _ _ _ _ _ A0 ET) as (B1 & B3 & B4). destruct x1 as [u|ex].
      * destruct (IH (S k) (S r) w1 p1 x w' p' B1) as (C1 & m & l & C3); [lia|exact E|]. split; auto. exists (S m), l. cbn [seq map].
        rewrite TT. unfold ebind. rewrite A6, B4. auto.
      * injection E as <- <- <-. split; [apply B1|]. exists 1, (left (S r) p1). cbn [seq map]. rewrite TT. unfold ebind. rewrite A6, B4. auto.
    + injection ET as <- <- <-. injection E as <- <- <-. split; [apply A0|]. exists 1, (left (S r) p0). cbn [seq map]. rewrite TT. unfold ebind. rewrite A6. auto.
Qed.
Lemma ea_one log start w0 p0 x w p : v_jobs w0 = [] -> Det_Spec.undisturbed (p_plan p0) ->
  p_async_ea call scores ps max_length max_retry pop_size max_n restart 1 log d start (w0, p0) = (x, (w, p)) ->
  v_jobs w = [] /\ exists m l, async_ea ps max_length max_retry 1 pop_size max_n restart start (map ev (seq 0 m)) w0 = (x, setj l w).
Proof.
  intros H1 U E. unfold p_async_ea in E. unfold async_ea.
  assert (S0 : forall w, v_jobs w = [] -> setj [] w = w) by (intros [] K; simpl in K; subst; auto).
  destruct (match max_n with Some m => (m <=? 0)%Z | None => false end).
  { injection E as <- <- <-. split; auto. exists 0, []. rewrite S0 by auto. auto. }
  cbn [snd] in E. unfold with_evaluator in E. cbn [fst snd] in E.
  pose proof (enter1 v_jobs log (p_plan p0) w0 H1 U) as O.
  match type of E with context [mkPool ?s [] _] => set (s1 := s) in * end.
  set (p1 := mkPool s1 [] (p_plan p0)) in *. assert (PL : p_plan p1 = p_plan p0) by reflexivity. assert (PJ : left 0 p1 = []) by reflexivity. clearbody p1.
  unfold pbind in E. destruct (p_begin call start (w0, p1)) as [x2 [w2 p2]] eqn:EB.
  destruct (e1_begin start _ _ _ _ _ _ O EB) as (C1 & C3 & C4). rewrite PJ, S0 in C4 by auto.
  destruct x2 as [u|e].
  - destruct (p_turns call scores ps max_length max_retry pop_size max_n restart (S (length (p_plan p0))) 0 (w2, p2)) as [x3 [w3 p3]] eqn:ET.
    injection E as <- <- <-. cbn [fst snd]. assert (LT : length (p_plan p2) < S (length (p_plan p0))) by (rewrite <- PL; lia).
    destruct (e1_turns _ _ _ _ _ _ _ _ C1 LT ET) as (D1 & m & l & D3).
    split; auto. exists m, l. unfold ebind. rewrite C4. exact D3.
  - injection E as <- <- <-. cbn [fst snd]. split; [apply C1|]. exists 0, (left 0 p2). unfold ebind. rewrite C4. auto.
Qed.
Lemma search_one log warm (s : setting) plan x w p : Det_Spec.undisturbed plan ->
  p_search call scores ps max_length max_retry pop_size max_n restart 1 log d warm (before_search s plan) = (x, (w, p)) ->
  v_jobs w = [] /\ exists m l, search ps max_length max_retry 1 pop_size max_n restart warm (map ev (seq 0 m)) (fresh_search s) = (x, setj l w).
Proof.
  intros U E. unfold p_search in E. unfold search. destruct warm as [|i l]; [|exact (ea_one log (i :: l) (fresh_search s) (idle plan) _ _ _ eq_refl U E)].
  unfold pbind, own, before_search in E. cbn [fst snd] in E. destruct (individuals ps max_length 50 (fresh_search s)) as [x1 w1] eqn:EI.
  destruct (f_individuals _ _ _ _ _ _ EI) as (A1 & _).
  destruct x1 as [l|e].
  - destruct (ea_one log l w1 (idle plan) _ _ _ A1 U E) as (B1 & m & l' & B4). split; auto. exists m, l'. unfold ebind. rewrite EI. auto.
  - injection E as <- <- <-. split; [exact A1|]. exists 0, []. unfold ebind. rewrite EI. f_equal. destruct w1. cbn in A1. subst. auto.
Qed.
End EA.
End One.

(** Evaluations that kill their worker. *)
Require Import Permutation ZArith QArith.
From Verif Require Import Base Num Search_Model Search_Spec Search_Proofs.
From Verif Require Async_Model Async_Spec Async_Proofs2.
From Verif Require Import Sys_Model Sys_Spec Sys_Proofs2 Sys_Proofs3.
From Verif Require Sys_Proofs.
Open Scope nat_scope.

Section Dead.
Context (call : nat -> list nat -> Async_Model.kwargs -> nat -> Async_Model.outcome) (scores : nat -> list num) (d : Async_Model.kwargs).
Context (n : nat) (dead : list nat) (HN : NoDup dead) (HD : forall k c, In k dead -> call 0 [k] d c = Async_Model.Die).
Notation wf0 := (wf0 call scores d).
Notation wf := (wf call scores d).
Notation tr y := (starts (w_trace (y_w y))).

Lemma dead_out y : wf0 y -> (forall k, In k dead -> k < length (y_jobs y)) -> length dead <= length (Async_Model.a_futures (y_s y)).
Proof.
  intros W HL. rewrite <- (map_length fst). apply NoDup_incl_length; auto. intros k Hk. destruct W as [W1 W2 W3 W4 W5 W6 W7].
  pose proof (Async_Proofs2.i_perm _ _ _ (Sys_Proofs.g_all _ _ _ W1)) as P. unfold Async_Spec.submitted, Async_Spec.returned in P.
  assert (K : In k (map fst (Async_Model.a_futures (y_s y)) ++ map fst (Async_Model.a_returned (y_s y)))).
  { eapply Permutation_in; [apply Permutation_sym, P|]. rewrite W5, map_map. cbn [fst]. rewrite map_id. apply in_seq. specialize (HL k Hk). lia. }
  apply in_app_or in K as [K|K]; auto. exfalso. apply in_map_iff in K as ([k' o] & E & K). cbn [fst] in E. subst k'.
  apply (Sys_Proofs.origin_ok call d _ W1) in K.
  - destruct K as (_ & c & K & _). apply K. apply HD. auto.
  - intros k' j' H'. rewrite W5 in H'. apply in_map_iff in H' as (k'' & E & _). congruence.
Qed.

(** Nothing is submitted. *)
Definition ready (y : sys) : Prop := w_n (y_w y) = n /\ forall k, In k dead -> k < length (tr y).
Definition sameq (y y' : sys) : Prop := tr y' = tr y /\ w_n (y_w y') = w_n (y_w y).
Definition quiet {A} (ms : MS A) : Prop := forall y x y', wf y -> ready y -> ms y = (x, y') ->
  sameq y y' /\ (x <> Err Diverges -> wf y').
Lemma q_sim {A} (m : M A) ms : sim call scores d m ms -> (forall y x y', wf y -> ready y -> ms y = (x, y') -> sameq y y') -> quiet ms.
Proof. intros S H y x y' W R E. split; [eapply H; eauto|]. intros N. destruct (S _ _ _ W E) as (e & _ & K & _). apply K. auto. Qed.
Lemma q_bind {A B} (m : MS A) (f : A -> MS B) : quiet m -> (forall a, quiet (f a)) -> quiet (sbind m f).
Proof.
  intros H1 H2 y x y' W R E. unfold sbind in E. destruct (m y) as [[a|e] y1] eqn:E1.
  - destruct (H1 _ _ _ W R E1) as [[T1 T1'] W1]. specialize (W1 ltac:(discriminate)). destruct (H2 a y1 x y' W1) as [[T2 T2'] W2]; auto; [unfold ready in *; rewrite T1, T1'; auto|]. split; [split; congruence|auto].
  - injection E as <- <-. destruct (H1 _ _ _ W R E1) as [T1 W1]. split; auto. intros N. apply W1. intros Q. injection Q as ->. auto.
Qed.
Lemma q_ret {A} (a : A) : quiet (sret a).
Proof. intros y x y' W R E. injection E as <- <-. split; [split; auto|auto]. Qed.
Lemma q_fail {A} e : quiet (@sfail A e).
Proof. intros y x y' W R E. injection E as <- <-. split; [split; auto|auto]. Qed.
Lemma q_own {A} (m : M A) : frame m -> quiet (own m).
Proof.
  intros F. eapply q_sim; [apply own_sim; eauto|]. intros y x y' W R E. unfold own in E. destruct (m (y_w y)) as [x0 w] eqn:Em. injection E as <- <-.
  destruct (F _ _ _ Em) as (_ & _ & A3 & A4 & _). split; auto.
Qed.
Lemma wait_trace y x y' : s_wait_next call scores y = (x, y') -> sameq y y'.
Proof.
  intros E. unfold s_wait_next in E. destruct (raised_by _ _); [injection E as <- <-; split; auto|]. destruct (turns _ _ _) as [s1 plan].
  destruct (Async_Model.a_waiting s1); [injection E as <- <-; split; auto|]. destruct (raised_by _ _); [injection E as <- <-; split; auto|].
  destruct (rev (Async_Model.a_returned s1)) as [|[k res] l]; [injection E as <- <-; split; auto|]. cbv zeta in E.
  assert (K : forall t w, starts [t] = [] -> starts (w_trace (trace_add t w)) = starts (w_trace w)).
  { intros t w H. cbn [trace_add w_trace]. unfold starts in *. rewrite flat_map_app, H. apply app_nil_r. }
  destruct (outcome_of scores res); [injection E as <- <-; split; [apply K; auto|auto]|]. destruct (y_calls y) as [|[e|] calls]; injection E as <- <-; (split; [apply K; auto|auto]).
Qed.
Lemma q_wait : quiet (s_wait_next call scores).
Proof. eapply q_sim; [apply wait_sim|]. intros y x y' _ _ E. eapply wait_trace; eauto. Qed.
Lemma q_refill o out : n + 2 <= length dead -> quiet (s_refill call o out).
Proof.
  intros L y x y' W R E. assert (X : (x, y') = (Ok tt, y)).
  { rewrite <- E. unfold s_refill, sbind, s_queue_size. rewrite (Sys_Proofs.size_ok call d) by apply W. destruct R as [R1 R2].
    destruct W as [W W']. assert (K : length dead <= length (Async_Model.a_futures (y_s y))).
    { apply dead_out; [exact W|]. intros k Hk. destruct W as [_ _ _ _ _ W6 _]. rewrite W6, map_length. apply R2. auto. }
    destruct W as [_ W2 _ _ _ _ _]. rewrite <- W2, R1. destruct (Z.leb_spec (Z.of_nat (length (Async_Model.a_futures (y_s y))) - Z.of_nat n) 1); [lia|auto]. }
  injection X as -> ->. split; [split; auto|auto].
Qed.
Ltac q := repeat (first [match goal with |- quiet (sbind _ _) => apply q_bind; [|intros ?] | |- quiet (sret _) => apply q_ret | |- quiet (sfail _) => apply q_fail end | apply q_own; solve [fr] | apply q_wait
  | match goal with |- quiet (match ?x with _ => _ end) => destruct x end | match goal with |- quiet (if ?x then _ else _) => destruct x end]).
Lemma q_loop o out max_n pop_size : n + 2 <= length dead -> forall f k, quiet (s_ea_loop call scores o out false max_n pop_size f None k).
Proof.
  intros L. induction f as [|f IH]; intros k; cbn [s_ea_loop]; [q|]. destruct (below max_n k); [|q].
  apply q_bind; [q|intros _]. apply q_bind; [q|intros pop]. apply q_bind; [q|intros _]. apply q_bind; [q|intros x]. apply q_bind; [q|intros _].
  apply q_bind; [apply q_refill; auto|intros _]. apply q_bind; [q|intros _]. cbn [restart_now].
  intros y x0 y' W R E. assert (E' : (own tick ;;; s_ea_loop call scores o out false max_n pop_size f None (S k)) y = (x0, y')).
  { rewrite <- E. unfold sbind at 1 2, own at 2. unfold ret. destruct y; reflexivity. }
  refine (q_bind _ _ _ _ _ _ _ W R E'); [q|intros _; apply IH].
Qed.

(** The start candidates are submitted, or the search ends before the first wait. *)
Lemma submit_all_trace l : forall y x y', s_submit_all call l y = (x, y') ->
  exists l1 l2, l = l1 ++ l2 /\ tr y' = tr y ++ map (fun i => (i, None)) l1 /\ w_n (y_w y') = w_n (y_w y) /\ dones (w_trace (y_w y')) = dones (w_trace (y_w y)) /\
    (forall u, x = Ok u -> l2 = []).
Proof.
  induction l as [|i l IH]; intros y x y' E; cbn [s_submit_all] in E.
  - injection E as <- <-. exists [], []. split; [auto|]. cbn [map]. rewrite app_nil_r. repeat split; auto.
  - unfold sbind at 1 in E. destruct (own tick y) as [[u|e] y1] eqn:E1.
    + assert (K : tr y1 = tr y /\ w_n (y_w y1) = w_n (y_w y) /\ dones (w_trace (y_w y1)) = dones (w_trace (y_w y))).
      { unfold own in E1. destruct (tick (y_w y)) as [x0 w] eqn:Et. injection E1 as _ <-. destruct (f_tick _ _ _ Et) as (_ & _ & A3 & A4 & A5 & _). auto. }
      unfold sbind, s_submit in E. destruct (IH _ _ _ E) as (l1 & l2 & -> & H1 & H2 & H3 & H4). exists (i :: l1), l2. split; auto.
      destruct K as (K1 & K2 & K3). cbn [y_w trace_add w_trace w_n] in *. rewrite H1, H2, H3. unfold starts, dones in *. rewrite !flat_map_app, K1, K2, K3. simpl. rewrite app_nil_r, <- app_assoc. simpl. auto.
    + injection E as <- <-. unfold own in E1. destruct (tick (y_w y)) as [x0 w] eqn:Et. injection E1 as -> <-. destruct (f_tick _ _ _ Et) as (_ & _ & A3 & A4 & A5 & _).
      exists [], (i :: l). cbn [app map y_w]. rewrite app_nil_r. repeat split; auto. discriminate.
Qed.
End Dead.

Section Stall.
Context (call : nat -> list nat -> Async_Model.kwargs -> nat -> Async_Model.outcome) (scores : nat -> list num) (d : Async_Model.kwargs).
Lemma stalls n dead log o out max_n pop_size start lists r uid stop plan calls x y' :
  NoDup dead -> (forall k c, In k dead -> call 0 [k] d c = Async_Model.Die) -> (forall k, In k dead -> k < length (nth start lists [])) ->
  n + 2 <= length dead -> start <> out ->
  s_async_ea call scores n None log d o out false max_n pop_size start (before lists n r uid stop plan calls) = (x, y') ->
  exists l1 l2, nth start lists [] = l1 ++ l2 /\ starts (w_trace (y_w y')) = map (fun i => (i, None)) l1 /\ (dones (w_trace (y_w y')) = [] \/ l2 = []).
Proof.
  intros HN HD HL LD NS E. set (L := nth start lists []) in *.
  unfold s_async_ea in E. cbn [y_plan before] in E. set (go := within_context call n None log d _) in E.
  assert (GO : go (before lists n r uid stop plan calls) = (x, y') -> exists l1 l2, L = l1 ++ l2 /\ starts (w_trace (y_w y')) = map (fun i => (i, None)) l1 /\ (dones (w_trace (y_w y')) = [] \/ l2 = [])).
  2: { destruct max_n as [m|]; auto. destruct (m <=? 0)%Z; auto. injection E as <- <-. exists [], L. simpl. auto. }
  clear E. unfold go, within_context. cbn [y_w y_plan y_calls before].
  destruct (Sys_Proofs.good_enter call d n log) as [G (G1 & G2 & G3 & G4 & G5 & G6)].
  set (s := Async_Model.step call (Async_Model.new_evaluator n None log d) Async_Model.Enter) in *. clearbody s.
  set (y := mkSys (start_world lists n [] r uid stop) s [] plan calls).
  assert (W : wf call scores d y).
  { split; auto. split; cbn [y y_s y_w y_jobs start_world w_n w_jobs w_events w_trace length seq map starts dones flat_map]; auto. rewrite G3. constructor. }
  intros E. destruct ((s_ea_loop call scores o out false max_n pop_size (2 * length plan + 3) (Some (Given start)) 0 ;;; sret out) y) as [x1 y1] eqn:E1. injection E as <- <-. cbn [y_w].
  replace (2 * length plan + 3) with (S (2 * length plan + 2)) in E1 by lia. cbn [s_ea_loop] in E1.
  assert (E2 : exists x2, (own tick ;;; own (write out []) ;;; l <~ own (read start) ;;; s_submit_all call l ;;; s_ea_loop call scores o out false max_n pop_size (2 * length plan + 2) None 0) y = (x2, y1)).
  { unfold sbind at 1 in E1. destruct ((own tick ;;; own (write out []) ;;; l <~ own (read start) ;;; s_submit_all call l ;;; s_ea_loop call scores o out false max_n pop_size (2 * length plan + 2) None 0) y) as [[u|e] y2].
    - exists (Ok u). injection E1 as _ <-. auto.
    - exists (Err e). injection E1 as _ <-. auto. }
  clear E1. destruct E2 as [x2 E]. unfold sbind at 1 in E. destruct (own tick y) as [[u|e] ya] eqn:Ea.
  2: { injection E as <- <-. unfold own in Ea. destruct (tick (y_w y)) as [x0 w] eqn:Et. injection Ea as _ <-. destruct (f_tick _ _ _ Et) as (_ & _ & A3 & A4 & A5 & _).
       exists [], L. cbn [y_w app map]. rewrite A4, A5. auto. }
  destruct (own_sim call scores d _ f_tick _ _ _ W Ea) as (? & _ & KW & _). destruct KW as [Wa _]; [discriminate|].
  assert (Ka : starts (w_trace (y_w ya)) = [] /\ dones (w_trace (y_w ya)) = [] /\ w_n (y_w ya) = n /\ w_lists (y_w ya) = lists).
  { unfold own in Ea. destruct (tick (y_w y)) as [x0 w] eqn:Et. injection Ea as _ <-. destruct (f_tick _ _ _ Et) as (_ & _ & A3 & A4 & A5 & _).
    cbn [y_w] in *. rewrite A3, A4, A5. split; auto. split; auto. split; auto. unfold tick in Et. destruct (w_stop (y_w y)) as [[[|k] e]|]; injection Et as _ <-; auto. }
  unfold sbind at 1 in E. destruct (own (write out []) ya) as [[u'|e] yb] eqn:Eb; [|discriminate].
  destruct (own_sim call scores d _ (f_write out []) _ _ _ Wa Eb) as (? & _ & KW & _). destruct KW as [Wb _]; [discriminate|].
  injection Eb as _ <-. unfold sbind at 1 in E. unfold own at 1 in E. cbn [read y_w w_lists] in E.
  destruct Ka as (K1 & K2 & K3 & K4). rewrite K4 in E, Wb.
  rewrite nth_set_nth_ne in E by auto. fold L in E.
  match type of E with _ ?yy = _ => set (yb := yy) in * end.
  assert (Tb : starts (w_trace (y_w yb)) = [] /\ dones (w_trace (y_w yb)) = [] /\ w_n (y_w yb) = n) by (unfold yb; cbn; auto).
  assert (Wb' : wf call scores d yb) by exact Wb. clearbody yb. destruct Tb as (T1 & T2 & T3).
  unfold sbind in E. destruct (s_submit_all call L yb) as [xc yc] eqn:Ec.
  destruct (submit_all_trace _ _ _ _ _ Ec) as (l1 & l2 & HL' & H1 & H2 & H3 & H4). rewrite T1 in H1. rewrite T2 in H3. rewrite T3 in H2. cbn [app] in H1.
  destruct xc as [uc|e]; [|injection E as <- <-; exists l1, l2; auto].
  rewrite (H4 uc eq_refl), app_nil_r in HL'. subst l1.
  destruct (submit_all_sim call scores d L _ _ _ Wb' Ec) as (? & _ & KW & _). destruct KW as [Wc _]; [discriminate|].
  destruct (q_loop call scores d n dead HN HD o out max_n pop_size LD (2 * length plan + 2) 0 yc x2 y1 Wc) as [[Q _] _]; auto.
  { split; auto. rewrite H1, map_length. auto. }
  exists L, []. rewrite app_nil_r, Q, H1. auto.
Qed.
End Stall.

(** Two searches with the same random numbers and one worker each do the same, until one of them is cut short. *)
Require Import ZArith QArith Lia.
From Verif Require Import Base Num.
From Verif Require Import Search_Model Search_Spec.
From Verif Require Async_Model.
From Verif Require Import Sys_Model Sys_Spec Det_Model Det_Spec.
From Verif Require Det_Proofs.
Open Scope nat_scope.

Definition calm_w (w : world) : world :=
  mkW (w_lists w) (w_jobs w) (w_n w) (w_events w) (w_rng w) (w_uid w) None (w_rungs w) (w_trace w).
Definition pre (w w' : world) : Prop := exists t, w_trace w' = w_trace w ++ t.
Lemma pre_refl w : pre w w. Proof. exists []. rewrite app_nil_r. auto. Qed.
Lemma pre_trans a b c : pre a b -> pre b c -> pre a c.
Proof. intros (t & E) (u & F). exists (t ++ u). rewrite F, E, app_assoc. auto. Qed.
Lemma calm_trace w w' : calm_w w = calm_w w' -> w_trace w = w_trace w'.
Proof. intros E. apply (f_equal w_trace) in E. exact E. Qed.
Lemma pre_calm w w' : calm_w w = calm_w w' -> pre w w'.
Proof. intros E. exists []. rewrite app_nil_r. symmetry. apply calm_trace. auto. Qed.
(** A run is cut short: by the time limit, whose exception is one of [E], or because nothing is known any more. *)
Section Cut.
Context (E : exn -> Prop).
Definition bad {A} (x : res A) : Prop := exists e, x = Err e /\ (e = Diverges \/ E e).
Definition limits (w : world) : Prop := match w_stop w with Some (_, e) => E e | None => True end.
Definition agree (w w' : world) : Prop := calm_w w = calm_w w' /\ limits w /\ limits w'.
Lemma agree_pre w w' : agree w w' -> pre w w'. Proof. intros (C & _). apply pre_calm. auto. Qed.

(** Code of the main process only. *)
Definition det {A} (m : M A) : Prop :=
  (forall w x w', m w = (x, w') -> pre w w') /\
  forall w1 w2 x1 x2 w1' w2', agree w1 w2 -> m w1 = (x1, w1') -> m w2 = (x2, w2') ->
  (x1 = x2 /\ agree w1' w2') \/ (bad x1 /\ pre w1' w2') \/ (bad x2 /\ pre w2' w1').
Lemma det_bind {A B} (m : M A) (f : A -> M B) : det m -> (forall a, det (f a)) -> det (bind m f).
Proof.
  intros (M1 & D1) HF. split.
  - intros w x w' K. unfold bind in K. destruct (m w) as [[a|e] w1] eqn:E1; [|injection K as <- <-; eauto].
    eapply pre_trans; [eapply M1; eauto|]. destruct (HF a) as (M2 & _). eauto.
  - intros w1 w2 x1 x2 w1' w2' C E1 E2. unfold bind in *.
    destruct (m w1) as [y1 v1] eqn:F1, (m w2) as [y2 v2] eqn:F2.
    destruct (D1 _ _ _ _ _ _ C F1 F2) as [(-> & C')|[((e & -> & N) & P)|((e & -> & N) & P)]].
    + destruct y2 as [a|e]; [|injection E1 as <- <-; injection E2 as <- <-; auto].
      destruct (HF a) as (_ & D2). eauto.
    + injection E1 as <- <-. right. left. split; [eexists; eauto|]. eapply pre_trans; [exact P|].
      destruct y2 as [a|e2]; [destruct (HF a) as (M2 & _); eauto|injection E2 as <- <-; apply pre_refl].
    + injection E2 as <- <-. right. right. split; [eexists; eauto|]. eapply pre_trans; [exact P|].
      destruct y1 as [a|e2]; [destruct (HF a) as (M2 & _); eauto|injection E1 as <- <-; apply pre_refl].
Qed.
(** Code that does not look at the clock. *)
Lemma det_plain {A} (m : M A) :
  (forall w x w', m w = (x, w') -> pre w w' /\ w_stop w' = w_stop w /\ m (calm_w w) = (x, calm_w w')) -> det m.
Proof.
  intros H. split; [intros w x w' K; apply (H w x w' K)|].
  intros w1 w2 x1 x2 w1' w2' (C & L1 & L2) E1 E2. left. apply H in E1. apply H in E2. destruct E1 as (_ & S1 & E1), E2 as (_ & S2 & E2).
  rewrite C in E1. rewrite E1 in E2. pose proof (f_equal fst E2) as A1. pose proof (f_equal snd E2) as A2. cbn [fst snd] in A1, A2.
  split; auto. unfold agree, limits in *. rewrite S1, S2. auto.
Qed.
Ltac plain := apply det_plain; intros w x w' K; injection K as <- <-; (split; [|split; reflexivity]).
Lemma d_ret {A} (a : A) : det (ret a). Proof. plain. apply pre_refl. Qed.
Lemma d_fail {A} e : det (@fail A e). Proof. plain. apply pre_refl. Qed.
Lemma d_read a : det (read a). Proof. plain. apply pre_refl. Qed.
Lemma d_write a l : det (write a l). Proof. plain. exists []. cbn. rewrite app_nil_r. auto. Qed.
Lemma d_note t : det (note t). Proof. plain. exists [t]. auto. Qed.
Lemma d_random {A} (f : rng -> res A * rng) : det (random f).
Proof.
  apply det_plain. intros w x w' K. unfold random in *. cbn [calm_w w_rng]. destruct (f (w_rng w)) as [y r]. injection K as <- <-.
  split; [|split; reflexivity]. exists []. cbn. rewrite app_nil_r. auto.
Qed.
Lemma d_put l : det (put_rungs l). Proof. plain. exists []. cbn. rewrite app_nil_r. auto. Qed.
Lemma d_get : det get_rungs. Proof. plain. apply pre_refl. Qed.
Lemma d_fresh : det fresh. Proof. plain. exists []. cbn. rewrite app_nil_r. auto. Qed.
Lemma tick_shape w : limits w -> (exists e w', tick w = (Err e, w') /\ E e /\ calm_w w' = calm_w w /\ limits w') \/ (exists w', tick w = (Ok tt, w') /\ calm_w w' = calm_w w /\ limits w').
Proof.
  unfold tick, limits. destruct (w_stop w) as [[[|k] e]|] eqn:ES; intros L.
  - left. do 2 eexists. split; [reflexivity|]. cbn. auto.
  - right. eexists. split; [reflexivity|]. cbn. auto.
  - right. eexists. split; [reflexivity|]. rewrite ES. auto.
Qed.
Lemma tick_pre w x w' : tick w = (x, w') -> pre w w'.
Proof. unfold tick. destruct (w_stop w) as [[[|k] e]|]; intros K; injection K as <- <-; exists []; rewrite app_nil_r; reflexivity. Qed.
Lemma d_tick : det tick.
Proof.
  split; [apply tick_pre|].
  intros w1 w2 x1 x2 w1' w2' (C & L1 & L2) E1 E2.
  destruct (tick_shape w1 L1) as [(e & v & F & X & C1 & K1)|(v & F & C1 & K1)]; rewrite F in E1; injection E1 as <- <-;
  destruct (tick_shape w2 L2) as [(e2 & v2 & F2 & X2 & C2 & K2)|(v2 & F2 & C2 & K2)]; rewrite F2 in E2; injection E2 as <- <-.
  + right. left. split; [eexists; eauto|apply pre_calm; congruence].
  + right. left. split; [eexists; eauto|apply pre_calm; congruence].
  + right. right. split; [eexists; eauto|apply pre_calm; congruence].
  + left. split; [reflexivity|]. split; [congruence|auto].
Qed.
End Cut.
Create HintDb dt.
#[export] Hint Resolve d_ret d_fail d_read d_write d_note d_random d_put d_get d_fresh d_tick : dt.
Ltac dt := repeat (first [apply det_bind; [|intros ?] | solve [auto with dt]
  | match goal with |- det _ (match ?x with _ => _ end) => destruct x end | match goal with |- det _ (if ?x then _ else _) => destruct x end]).
Lemma d_append E out i : det E (append out i). Proof. unfold append. dt. Qed.
Lemma d_remove E out i : det E (remove out i). Proof. unfold remove. dt. Qed.
#[export] Hint Resolve d_append d_remove : dt.
Lemma d_add E o out p i : det E (add_to_population o out p i). Proof. unfold add_to_population. dt. Qed.
Lemma d_new E o : det E (new_individual o). Proof. unfold new_individual. dt. Qed.
#[export] Hint Resolve d_new : dt.
Lemma d_individuals E o k : det E (individuals o k). Proof. induction k; cbn [individuals]; dt. Qed.
Lemma d_restart E b : det E (restart_now b). Proof. unfold restart_now. dt. Qed.
Lemma d_promote E eta l : det E (promote_from eta l). Proof. induction l; cbn [promote_from]; dt. Qed.
#[export] Hint Resolve d_promote : dt.
Lemma d_job E o eta fr start : det E (get_job o eta fr start). Proof. unfold get_job. dt. Qed.
Lemma d_record E x : det E (record_result x). Proof. unfold record_result. dt. Qed.
#[export] Hint Resolve d_add d_individuals d_restart d_job d_record : dt.

Section Rel.
Context (call : nat -> list nat -> Async_Model.kwargs -> nat -> Async_Model.outcome) (scores : nat -> list num) (d : Async_Model.kwargs) (H : steady call d) (EX : exn -> Prop).
Notation fifo := (Det_Proofs.fifo call d).
Record rel (y1 y2 : sys) : Prop := {
  re_w : agree EX (y_w y1) (y_w y2); re_jobs : y_jobs y1 = y_jobs y2; re_calls : y_calls y1 = y_calls y2;
  re_p1 : undisturbed (y_plan y1); re_p2 : undisturbed (y_plan y2);
  re_f : exists r c1 c2, fifo r c1 (length (y_jobs y1)) (y_s y1) /\ fifo r c2 (length (y_jobs y2)) (y_s y2);
  re_w1 : Async_Model.a_waiting (y_s y1) = false; re_w2 : Async_Model.a_waiting (y_s y2) = false }.
Definition prey (y y' : sys) : Prop := pre (y_w y) (y_w y').
Definition mono {A} (m : MS A) : Prop := forall y x y', m y = (x, y') -> prey y y'.
Definition dets {A} (m1 m2 : MS A) : Prop := mono m1 /\ mono m2 /\
  forall y1 y2 x1 x2 y1' y2', rel y1 y2 -> m1 y1 = (x1, y1') -> m2 y2 = (x2, y2') ->
  (x1 = x2 /\ rel y1' y2') \/ (bad EX x1 /\ prey y1' y2') \/ (bad EX x2 /\ prey y2' y1').
Lemma mono_bind {A B} (m : MS A) (f : A -> MS B) : mono m -> (forall a, mono (f a)) -> mono (sbind m f).
Proof.
  intros H1 H2 y x y' E. unfold sbind in E. destruct (m y) as [[a|e] y1] eqn:E1; [|injection E as <- <-; eapply H1; eauto].
  eapply pre_trans; [eapply H1; eauto|]. eapply H2; eauto.
Qed.
Lemma dets_bind {A B} (m1 m2 : MS A) (f1 f2 : A -> MS B) : dets m1 m2 -> (forall a, dets (f1 a) (f2 a)) -> dets (sbind m1 f1) (sbind m2 f2).
Proof.
  intros (M1 & M2 & D1) HF.
  assert (N1 : forall a, mono (f1 a)) by (intros a; apply HF). assert (N2 : forall a, mono (f2 a)) by (intros a; apply HF).
  split; [apply mono_bind; auto|split; [apply mono_bind; auto|]].
  intros y1 y2 x1 x2 y1' y2' R E1 E2. unfold sbind in *.
  destruct (m1 y1) as [z1 v1] eqn:F1, (m2 y2) as [z2 v2] eqn:F2.
  destruct (D1 _ _ _ _ _ _ R F1 F2) as [(-> & R')|[((e & -> & N) & P)|((e & -> & N) & P)]].
  - destruct z2 as [a|e]; [|injection E1 as <- <-; injection E2 as <- <-; auto].
    destruct (HF a) as (_ & _ & D2). eapply D2; eauto.
  - injection E1 as <- <-. right. left. split; [eexists; eauto|]. eapply pre_trans; [exact P|].
    destruct z2 as [a|e2]; [eapply N2; eauto|injection E2 as <- <-; apply pre_refl].
  - injection E2 as <- <-. right. right. split; [eexists; eauto|]. eapply pre_trans; [exact P|].
    destruct z1 as [a|e2]; [eapply N1; eauto|injection E1 as <- <-; apply pre_refl].
Qed.
Lemma dets_ret {A} (a : A) : dets (sret a) (sret a).
Proof.
  assert (mono (sret a)) by (intros y x y' E; injection E as <- <-; apply pre_refl).
  split; [auto|split; [auto|]]. intros y1 y2 x1 x2 y1' y2' R E1 E2. injection E1 as <- <-. injection E2 as <- <-. auto.
Qed.
Lemma mono_fail {A} e : mono (@sfail A e). Proof. intros y x y' E. injection E as <- <-. apply pre_refl. Qed.
Lemma dets_fail {A} e : dets (@sfail A e) (sfail e).
Proof.
  split; [apply mono_fail|split; [apply mono_fail|]]. intros y1 y2 x1 x2 y1' y2' R E1 E2. injection E1 as <- <-. injection E2 as <- <-. auto.
Qed.
Lemma rel_pre y1 y2 : rel y1 y2 -> prey y1 y2 /\ prey y2 y1.
Proof. intros R. destruct R as [W _ _ _ _ _ _ _]. destruct W as (W & _). split; apply pre_calm; auto. Qed.
(** One of the two is cut short at once. *)
Lemma dets_fail_l {A} e (m : MS A) : e = Diverges -> mono m -> dets (sfail e) m.
Proof.
  intros -> M. split; [apply mono_fail|split; [auto|]]. intros y1 y2 x1 x2 y1' y2' R E1 E2. injection E1 as <- <-.
  right. left. split; [eexists; eauto|]. eapply pre_trans; [apply (rel_pre _ _ R)|]. eapply M; eauto.
Qed.
Lemma dets_fail_r {A} e (m : MS A) : e = Diverges -> mono m -> dets m (sfail e).
Proof.
  intros -> M. split; [auto|split; [apply mono_fail|]]. intros y1 y2 x1 x2 y1' y2' R E1 E2. injection E2 as <- <-.
  right. right. split; [eexists; eauto|]. eapply pre_trans; [apply (rel_pre _ _ R)|]. eapply M; eauto.
Qed.
Lemma dets_own {A} (m : M A) : det EX m -> dets (own m) (own m).
Proof.
  intros (M & D). assert (MO : mono (own m)).
  { intros y x y' E. unfold own in E. destruct (m (y_w y)) as [z w] eqn:F. injection E as <- <-. unfold prey. cbn [y_w]. eauto. }
  split; [auto|split; [auto|]]. intros y1 y2 x1 x2 y1' y2' R E1 E2. unfold own in *.
  destruct (m (y_w y1)) as [z1 v1] eqn:F1, (m (y_w y2)) as [z2 v2] eqn:F2. injection E1 as <- <-. injection E2 as <- <-.
  destruct R as [W J C P1 P2 FF W1 W2].
  destruct (D _ _ _ _ _ _ W F1 F2) as [(-> & C')|[(B & P)|(B & P)]].
  - left. split; [reflexivity|]. split; auto.
  - right. left. auto.
  - right. right. auto.
Qed.
Lemma tl_undisturbed plan : undisturbed plan -> undisturbed (tl plan) /\ (forall p, ~ In (Async_Model.Crash p) (match plan with [] => [] | t :: _ => t_acts t end)).
Proof.
  intros U. destruct plan as [|t plan]; split; auto.
  - intros t' p Ht. apply U. right. auto.
  - intros p. apply U. left. auto.
Qed.
Lemma trace_agree t w w' : agree EX w w' -> agree EX (trace_add t w) (trace_add t w').
Proof. intros (C & L). split; [|exact L]. unfold trace_add, calm_w in *. cbn in *. injection C; intros. congruence. Qed.
Lemma dets_submit i r q : dets (s_submit call i r q) (s_submit call i r q).
Proof.
  assert (MO : mono (s_submit call i r q)).
  { intros y x y' E. unfold s_submit in E. injection E as <- <-. exists [TSubmit i r q]. reflexivity. }
  split; [auto|split; [auto|]]. intros y1 y2 x1 x2 y1' y2' R E1 E2. unfold s_submit in *.
  pose proof (f_equal fst E1) as A1; pose proof (f_equal snd E1) as B1; pose proof (f_equal fst E2) as A2; pose proof (f_equal snd E2) as B2.
  cbn [fst snd] in A1, A2, B1, B2. clear E1 E2. subst x1 x2 y1' y2'. left. split; [reflexivity|].
  destruct R as [W J C P1 P2 (k & c1 & c2 & F1 & F2) W1 W2].
  destruct (tl_undisturbed _ P1) as (T1 & N1), (tl_undisturbed _ P2) as (T2 & N2).
  destruct (Det_Proofs.fifo_workers call d H _ _ _ _ _ F1 N1) as (c1' & G1 & V1 & _).
  destruct (Det_Proofs.fifo_workers call d H _ _ _ _ _ F2 N2) as (c2' & G2 & V2 & _).
  rewrite W1 in V1. rewrite W2 in V2.
  destruct (Det_Proofs.fifo_submit call d _ _ _ _ G1 V1) as (K1 & L1).
  destruct (Det_Proofs.fifo_submit call d _ _ _ _ G2 V2) as (K2 & L2).
  split; cbn [y_w y_s y_jobs y_plan y_calls]; auto; try congruence.
  - apply trace_agree. auto.
  - exists k, c1', c2'. rewrite !app_length. cbn [length]. rewrite !Nat.add_1_r. split; auto.
Qed.
Lemma dets_size : dets s_queue_size s_queue_size.
Proof.
  assert (MO : mono s_queue_size) by (intros y x y' E; injection E as <- <-; apply pre_refl).
  split; [auto|split; [auto|]]. intros y1 y2 x1 x2 y1' y2' R E1 E2. injection E1 as <- <-. injection E2 as <- <-. left. split; [|auto].
  destruct R as [W J C P1 P2 (k & c1 & c2 & F1 & F2) W1 W2]. destruct F1, F2. rewrite ff_size, ff_size0. congruence.
Qed.
Lemma raised_same s s' : Async_Model.a_raised s' = Async_Model.a_raised s -> raised_by s s' = None.
Proof. intros E. unfold raised_by. rewrite E, Nat.ltb_irrefl. auto. Qed.
Lemma raised_one s s' e : Async_Model.a_raised s' = Async_Model.a_raised s ++ [e] -> raised_by s s' = Some e.
Proof. intros E. unfold raised_by. rewrite E, app_length. cbn [length]. replace (_ <? _) with true by (symmetry; apply Nat.ltb_lt; lia). rewrite last_last. auto. Qed.
(** What wait_next does. *)
Definition after_wait (k : nat) (y : sys) (s : Async_Model.st) (plan : list turn) : res (ind * option nat * outcome) * sys :=
  let j := nth k (y_jobs y) (mkJob (mkI 0 None None) None) in
  let o := outcome_of scores (Det_Proofs.out_of call d k) in
  let i := result_ind j o in
  let w := trace_add (TDone i (j_rung j) o) (y_w y) in
  match o, y_calls y with
  | Evaluated _ _, Some e :: calls => (Err e, mkSys w s (y_jobs y) plan calls)
  | Evaluated _ _, None :: calls => (Ok (i, j_rung j, o), mkSys w s (y_jobs y) plan calls)
  | _, _ => (Ok (i, j_rung j, o), mkSys w s (y_jobs y) plan (y_calls y))
  end.
Lemma wait_shape y r c x y' : undisturbed (y_plan y) -> fifo r c (length (y_jobs y)) (y_s y) -> Async_Model.a_waiting (y_s y) = false ->
  s_wait_next call scores y = (x, y') ->
  (r = length (y_jobs y) /\ x = Err RuntimeError /\ exists s, y' = mkSys (y_w y) s (y_jobs y) (y_plan y) (y_calls y) /\ fifo r c (length (y_jobs y)) s /\ Async_Model.a_waiting s = false) \/
  (r < length (y_jobs y) /\ (x = Err Diverges /\ y_w y' = y_w y \/
     exists s plan c', after_wait r y s plan = (x, y') /\ undisturbed plan /\ fifo (S r) c' (length (y_jobs y)) s /\ Async_Model.a_waiting s = false)).
Proof.
  intros U F W E. unfold s_wait_next in E.
  destruct (Det_Proofs.fifo_wait call d _ _ _ _ F W) as [(-> & R & G & V)|(L & R & G & V)].
  - left. rewrite (raised_one _ _ _ R) in E. pose proof (f_equal fst E) as A1; pose proof (f_equal snd E) as A2. cbn [fst snd] in A1, A2. subst x y'. eauto 10.
  - right. split; auto. rewrite (raised_same _ _ R) in E.
    destruct (turns call (y_plan y) (Async_Model.step call (y_s y) Async_Model.Wait)) as [s1 plan] eqn:ET.
    destruct (Det_Proofs.fifo_turns call d H _ U _ _ _ _ _ _ G V ET) as (U' & [K|(K1 & K2 & (rest & K3) & (c' & K4))]).
    + rewrite K in E. injection E as <- <-. left. auto.
    + right. rewrite K1 in E. rewrite (raised_same _ _ K2), K3 in E. unfold Det_Proofs.res_of in E. cbv iota beta zeta in E.
      exists s1, plan, c'. unfold after_wait. cbv zeta. split; auto.
Qed.
Lemma after_mono k y s plan x y' : after_wait k y s plan = (x, y') -> prey y y'.
Proof.
  unfold after_wait. cbv zeta. intros E.
  destruct (outcome_of scores (Det_Proofs.out_of call d k)) as [|sc f]; [|destruct (y_calls y) as [|[e|] calls]]; injection E as <- <-; eexists; reflexivity.
Qed.
Lemma wait_mono : mono (s_wait_next call scores).
Proof.
  intros y x y' E. unfold s_wait_next in E.
  destruct (raised_by (y_s y) _); [injection E as <- <-; apply pre_refl|].
  destruct (turns call (y_plan y) _) as [s1 plan]. destruct (Async_Model.a_waiting s1); [injection E as <- <-; apply pre_refl|].
  destruct (raised_by _ s1); [injection E as <- <-; apply pre_refl|].
  destruct (rev (Async_Model.a_returned s1)) as [|[k rs] ?]; [injection E as <- <-; apply pre_refl|].
  destruct (outcome_of scores rs); [injection E as <- <-; eexists; reflexivity|].
  destruct (y_calls y) as [|[e|] calls]; injection E as <- <-; eexists; reflexivity.
Qed.
Lemma dets_wait : dets (s_wait_next call scores) (s_wait_next call scores).
Proof.
  split; [apply wait_mono|split; [apply wait_mono|]].
  intros y1 y2 x1 x2 y1' y2' R E1 E2. assert (M1 := wait_mono _ _ _ E1). assert (M2 := wait_mono _ _ _ E2).
  assert (R0 := R). destruct R as [W J C P1 P2 (k & c1 & c2 & F1 & F2) W1 W2].
  destruct (wait_shape _ _ _ _ _ P1 F1 W1 E1) as [(L1 & -> & s1 & -> & G1 & V1)|(L1 & [(-> & Q1)|(s1 & p1 & c1' & A1 & U1 & G1 & V1)])];
  destruct (wait_shape _ _ _ _ _ P2 F2 W2 E2) as [(L2 & -> & s2 & -> & G2 & V2)|(L2 & [(-> & Q2)|(s2 & p2 & c2' & A2 & U2 & G2 & V2)])];
    try (rewrite J in L1; lia).
  - left. split; auto. split; auto. exists k, c1, c2. auto.
  - right. left. split; [eexists; eauto|]. eapply pre_trans; [unfold pre; rewrite Q1; exists []; rewrite app_nil_r; reflexivity|].
    eapply pre_trans; [apply (rel_pre _ _ R0)|]. exact M2.
  - right. left. split; [eexists; eauto|]. eapply pre_trans; [unfold pre; rewrite Q1; exists []; rewrite app_nil_r; reflexivity|].
    eapply pre_trans; [apply (rel_pre _ _ R0)|]. exact M2.
  - right. right. split; [eexists; eauto|]. eapply pre_trans; [unfold pre; rewrite Q2; exists []; rewrite app_nil_r; reflexivity|].
    eapply pre_trans; [apply (rel_pre _ _ R0)|]. exact M1.
  - left. unfold after_wait in A1, A2. cbv zeta in A1, A2. rewrite J, C in A1.
    assert (CW : forall t, agree EX (trace_add t (y_w y1)) (trace_add t (y_w y2))) by (intros t; apply trace_agree; auto).
    destruct (outcome_of scores (Det_Proofs.out_of call d k)) as [|sc f];
      [|destruct (y_calls y2) as [|[e|] calls]]; injection A1 as <- <-; injection A2 as <- <-; (split; [reflexivity|]);
      split; cbn [y_w y_s y_jobs y_plan y_calls]; auto; exists (S k), c1', c2'; rewrite <- J at 1; auto.
Qed.

(** * The search methods *)
Lemma dets_mono {A} (m1 m2 : MS A) : dets m1 m2 -> mono m1 /\ mono m2. Proof. intros (M1 & M2 & _). auto. Qed.
Ltac ds := repeat (first [apply dets_bind; [|intros ?] | solve [apply dets_own; auto with dt] | apply dets_ret | apply dets_fail | apply dets_submit | apply dets_size | apply dets_wait
  | match goal with |- dets (match ?x with _ => _ end) _ => destruct x end | match goal with |- dets (if ?x then _ else _) _ => destruct x end]).
Lemma dets_submit_all l : dets (s_submit_all call l) (s_submit_all call l).
Proof. induction l; cbn [s_submit_all]; ds. auto. Qed.
Lemma dets_refill o out : dets (s_refill call o out) (s_refill call o out).
Proof. unfold s_refill. ds. Qed.
Lemma self_mono {A} (m : MS A) : dets m m -> mono m. Proof. apply dets_mono. Qed.
Ltac ms := repeat (first [apply mono_bind; [|intros ?] | solve [auto] | solve [apply self_mono; ds] | solve [apply self_mono; apply dets_submit_all] | solve [apply self_mono; apply dets_refill]
  | match goal with |- mono (match ?x with _ => _ end) => destruct x end | match goal with |- mono (if ?x then _ else _) => destruct x end]).
Lemma mono_ea o out restart max_n pop_size : forall f phase n, mono (s_ea_loop call scores o out restart max_n pop_size f phase n).
Proof. induction f; intros phase n; [apply mono_fail|]. cbn [s_ea_loop]. ms. Qed.
Lemma dets_ea o out restart max_n pop_size : forall f1 f2 phase n,
  dets (s_ea_loop call scores o out restart max_n pop_size f1 phase n) (s_ea_loop call scores o out restart max_n pop_size f2 phase n).
Proof.
  induction f1 as [|f1 IH]; intros [|f2] phase n; [apply dets_fail|apply dets_fail_l; [reflexivity|]; apply mono_ea|apply dets_fail_r; [reflexivity|]; apply mono_ea|].
  cbn [s_ea_loop]. ds; auto using dets_submit_all, dets_refill.
Qed.
Lemma mono_rs o out max_n : forall f, mono (s_rs_loop call scores o out max_n f).
Proof. induction f; [apply mono_fail|]. cbn [s_rs_loop]. ms. Qed.
Lemma dets_rs o out max_n : forall f1 f2, dets (s_rs_loop call scores o out max_n f1) (s_rs_loop call scores o out max_n f2).
Proof.
  induction f1 as [|f1 IH]; intros [|f2]; [apply dets_fail|apply dets_fail_l; [reflexivity|]; apply mono_rs|apply dets_fail_r; [reflexivity|]; apply mono_rs|].
  cbn [s_rs_loop]. ds; auto.
Qed.
Lemma dets_job o eta a b fr mr start : dets (s_start_new_job call o eta a b fr mr start) (s_start_new_job call o eta a b fr mr start).
Proof. unfold s_start_new_job. ds. Qed.
Lemma dets_jobs o eta a b fr mr start k : dets (s_start_jobs call o eta a b fr mr start k) (s_start_jobs call o eta a b fr mr start k).
Proof. induction k; cbn [s_start_jobs]; ds; auto using dets_job. Qed.
Lemma mono_asha o eta a b fr mr start mf : forall f, mono (s_asha_loop call scores o eta a b fr mr start mf f).
Proof. induction f; [apply mono_fail|]. cbn [s_asha_loop]. ms. Qed.
Lemma dets_asha o eta a b fr mr start mf : forall f1 f2, dets (s_asha_loop call scores o eta a b fr mr start mf f1) (s_asha_loop call scores o eta a b fr mr start mf f2).
Proof.
  induction f1 as [|f1 IH]; intros [|f2]; [apply dets_fail|apply dets_fail_l; [reflexivity|]; apply mono_asha|apply dets_fail_r; [reflexivity|]; apply mono_asha|].
  cbn [s_asha_loop]. ds; auto using dets_job.
Qed.

(** A search in the context of the evaluator. *)
Lemma in_context {A} (m1 m2 : MS A) log1 log2 w1 w2 calls p1 p2 s1 s2 j1 j2 x1 x2 y1 y2 : dets m1 m2 -> agree EX w1 w2 -> undisturbed p1 -> undisturbed p2 ->
  within_context call 1 None log1 d m1 (mkSys w1 s1 j1 p1 calls) = (x1, y1) ->
  within_context call 1 None log2 d m2 (mkSys w2 s2 j2 p2 calls) = (x2, y2) ->
  (x1 = x2 /\ agree EX (y_w y1) (y_w y2)) \/ (bad EX x1 /\ prey y1 y2) \/ (bad EX x2 /\ prey y2 y1).
Proof.
  intros (_ & _ & D) W U1 U2 E1 E2. unfold within_context in *. cbn [y_w y_plan y_calls] in *.
  match type of E1 with (let (_, _) := m1 ?a in _) = _ => destruct (m1 a) as [z1 v1] eqn:F1; set (a1 := a) in * end.
  match type of E2 with (let (_, _) := m2 ?a in _) = _ => destruct (m2 a) as [z2 v2] eqn:F2; set (a2 := a) in * end.
  assert (R : rel a1 a2).
  { destruct (Det_Proofs.fifo_start call d log1) as (G1 & V1). destruct (Det_Proofs.fifo_start call d log2) as (G2 & V2).
    split; unfold a1, a2; cbn [y_w y_s y_jobs y_plan y_calls length]; auto. exists 0, 0, 0. auto. }
  pose proof (f_equal fst E1) as A1; pose proof (f_equal snd E1) as B1; pose proof (f_equal fst E2) as A2; pose proof (f_equal snd E2) as B2.
  cbn [fst snd] in A1, A2, B1, B2. subst x1 x2 y1 y2. unfold prey. cbn [y_w].
  destruct (D _ _ _ _ _ _ R F1 F2) as [(-> & R')|K]; [|right; exact K]. left. split; auto. apply R'.
Qed.
End Rel.

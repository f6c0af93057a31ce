(** A search whose environment goes on for longer begins in the same way. *)
Require Import ZArith Lia.
From Verif Require Import Base Num Gp_Model Evo_Model Rnd_Model Proc_Model Limit_Model.
From Verif Require Async_Model Sys_Model.
Open Scope nat_scope.
Open Scope list_scope.

Section Later.
Context (call : nat -> list nat -> Async_Model.kwargs -> nat -> Async_Model.outcome) (later : list Sys_Model.turn).

(** Evaluators that differ in what their workers do. *)
Definition alike (s s' : Async_Model.st) : Prop :=
  Async_Model.a_size s' = Async_Model.a_size s /\ Async_Model.a_futures s' = Async_Model.a_futures s /\ Async_Model.a_closed s' = Async_Model.a_closed s /\
  Async_Model.a_waiting s' = Async_Model.a_waiting s /\ Async_Model.a_submitted s' = Async_Model.a_submitted s.
Lemma alike_refl s : alike s s.
Proof. repeat split. Qed.
Lemma alike_trans s1 s2 s3 : alike s1 s2 -> alike s2 s3 -> alike s1 s3.
Proof. unfold alike. intuition congruence. Qed.
Lemma alike_sym s1 s2 : alike s1 s2 -> alike s2 s1.
Proof. unfold alike. intuition congruence. Qed.
Lemma alike_worker a s : Sys_Model.by_worker a = true -> alike s (Async_Model.step call s a).
Proof.
  intros B. destruct a; try discriminate; cbn [Async_Model.step].
  - unfold Async_Model.worker_get. destruct (Async_Model.find_worker p (Async_Model.a_live s)) as [w|]; [|apply alike_refl]. destruct (Async_Model.a_input s); [apply alike_refl|]. destruct (Async_Model.w_run w); repeat split.
  - unfold Async_Model.worker_exec. destruct (Async_Model.find_worker p (Async_Model.a_live s)) as [w|]; [|apply alike_refl]. destruct (Async_Model.w_run w) as [[id j]|]; repeat split.
  - unfold Async_Model.worker_flush. destruct (Async_Model.find_worker p (Async_Model.a_live s)) as [w|]; [|apply alike_refl]. destruct (Async_Model.w_out w); repeat split.
  - repeat split.
Qed.
Lemma alike_workers l : forall s, alike s (Sys_Model.workers_do call l s).
Proof.
  unfold Sys_Model.workers_do, Async_Model.run. induction l as [|a l IH]; intros s; [apply alike_refl|]. cbn [filter]. destruct (Sys_Model.by_worker a) eqn:B; [|apply IH].
  cbn [fold_left]. eapply alike_trans; [apply alike_worker; exact B|apply IH].
Qed.
Lemma alike_submit j s s' : alike s s' -> alike (Async_Model.step call s (Async_Model.Submit j)) (Async_Model.step call s' (Async_Model.Submit j)).
Proof.
  intros (A1 & A2 & A3 & A4 & A5). cbn [Async_Model.step]. rewrite A4. destruct (Async_Model.a_waiting s) eqn:W; [repeat split; auto; congruence|].
  unfold Async_Model.submit. rewrite A3, A5. destruct (Async_Model.a_closed s) eqn:CL; unfold alike, Async_Model.raise; cbn; rewrite ?A1, ?A2, ?A3, ?A4, ?A5, ?CL, ?W; repeat split; congruence.
Qed.

(** The second pool has more to come; or the first has nothing to come any more. *)
Definition rel {J} (p p' : pool J) : Prop :=
  p' = mkPool (p_s p) (p_jobs p) (p_plan p ++ later) \/
  (p_plan p = [] /\ p_jobs p' = p_jobs p /\ alike (p_s p) (p_s p')).
Lemma rel_jobs {J} (p p' : pool J) : rel p p' -> p_jobs p' = p_jobs p.
Proof. intros [-> |(_ & H & _)]; auto. Qed.
Lemma rel_size {J} (p p' : pool J) : rel p p' -> Async_Model.a_size (p_s p') = Async_Model.a_size (p_s p).
Proof. intros [-> |(_ & _ & H & _)]; auto. Qed.
Lemma rel_submit {J} (j : J) p p' : rel p p' -> rel (pool_submit call j p) (pool_submit call j p').
Proof.
  intros R. destruct (p_plan p) as [|t plan] eqn:EP.
  - right. assert (K : p_jobs p' = p_jobs p /\ alike (p_s p) (p_s p')) by (destruct R as [-> |(_ & H)]; auto; cbn; auto using alike_refl). destruct K as [K1 K2].
    unfold pool_submit. rewrite EP. cbn [p_plan p_jobs p_s tl]. rewrite K1. split; auto. split; auto. apply alike_submit.
    eapply alike_trans; [|apply alike_workers]. exact K2.
  - destruct R as [-> |(H & _)]; [|congruence]. left. unfold pool_submit. cbn [p_plan p_jobs p_s]. rewrite EP. reflexivity.
Qed.
Lemma submit_length {J} (j : J) p : length (p_plan (pool_submit call j p)) <= length (p_plan p).
Proof. unfold pool_submit. cbn [p_plan]. destruct (p_plan p); cbn; lia. Qed.
Lemma turns_length plan : forall s, length (snd (Sys_Model.turns call plan s)) <= length plan /\
  (Async_Model.a_waiting s = true -> Async_Model.a_waiting (fst (Sys_Model.turns call plan s)) = false -> length (snd (Sys_Model.turns call plan s)) < length plan).
Proof.
  induction plan as [|t plan IH]; intros s; cbn [Sys_Model.turns]; [cbn; split; [lia|congruence]|].
  match goal with |- context [if Async_Model.a_waiting ?z then _ else _] => set (s1 := z); destruct (Async_Model.a_waiting s1) eqn:W end.
  - destruct (IH s1) as [H1 H2]. split; [cbn [length]; lia|]. intros _ H. specialize (H2 W H). cbn [length]. lia.
  - cbn [fst snd length]. split; lia.
Qed.
Lemma turns_app plan : forall s, Async_Model.a_waiting s = true ->
  Sys_Model.turns call (plan ++ later) s = let (s1, plan1) := Sys_Model.turns call plan s in
    if Async_Model.a_waiting s1 then Sys_Model.turns call later s1 else (s1, plan1 ++ later).
Proof.
  induction plan as [|t plan IH]; intros s W; cbn [Sys_Model.turns app]; [rewrite W; auto|].
  match goal with |- context [if Async_Model.a_waiting ?z then _ else _] => set (s1 := z); destruct (Async_Model.a_waiting s1) eqn:W1 end; [apply IH; auto|]. rewrite W1. auto.
Qed.
Lemma wait_waits s : Sys_Model.raised_by s (Async_Model.step call s Async_Model.Wait) = None -> Async_Model.a_waiting (Async_Model.step call s Async_Model.Wait) = true.
Proof.
  cbn [Async_Model.step]. destruct (Async_Model.a_waiting s) eqn:W; auto. unfold Async_Model.wait_start. destruct (Async_Model.a_futures s); auto.
  unfold Sys_Model.raised_by, Async_Model.raise. cbn [Async_Model.a_raised]. rewrite app_length. cbn [length]. destruct (Nat.ltb_spec (length (Async_Model.a_raised s)) (length (Async_Model.a_raised s) + 1)); [intros K; discriminate K|lia].
Qed.
(** wait_next: the same answer, or the first one waits for ever. *)
Lemma wait_rel {J} (p p' : pool J) : rel p p' ->
  (fst (pool_wait call p') = fst (pool_wait call p) /\ rel (snd (pool_wait call p)) (snd (pool_wait call p')) /\
   (forall a, fst (pool_wait call p) = Ok a -> length (p_plan (snd (pool_wait call p))) < length (p_plan p) /\ length (p_plan (snd (pool_wait call p'))) < length (p_plan p'))) \/
  fst (pool_wait call p) = Err Diverges.
Proof.
  intros R. unfold pool_wait.
  destruct R as [-> |(R1 & R2 & R3)].
  - cbn [p_s p_plan p_jobs]. set (s0 := Async_Model.step call (p_s p) Async_Model.Wait) in *. destruct (Sys_Model.raised_by (p_s p) s0) as [e|] eqn:E1.
    + left. cbn [fst snd p_plan]. split; auto. split; [left; reflexivity|discriminate].
    + pose proof (wait_waits _ E1) as W. fold s0 in W. rewrite (turns_app _ _ W). pose proof (turns_length (p_plan p) s0) as [_ L].
      destruct (Sys_Model.turns call (p_plan p) s0) as [s1 plan1]. cbn [fst snd] in L. destruct (Async_Model.a_waiting s1) eqn:W1; [right; auto|]. left.
      specialize (L W eq_refl). rewrite W1.
      destruct (Sys_Model.raised_by s0 s1); [cbn [fst snd p_plan p_jobs p_s]; split; auto; split; [left; reflexivity|discriminate]|].
      destruct (rev (Async_Model.a_returned s1)); (cbn [fst snd p_plan p_jobs p_s]; split; [auto|]; split; [left; reflexivity|intros a E; try discriminate; rewrite !app_length; lia]).
  - rewrite R1. cbn [Sys_Model.turns]. destruct (Sys_Model.raised_by (p_s p) (Async_Model.step call (p_s p) Async_Model.Wait)) as [e|] eqn:E1.
    + left. revert E1. cbn [Async_Model.step]. destruct R3 as (A1 & A2 & A3 & A4 & A5). rewrite A4. destruct (Async_Model.a_waiting (p_s p)) eqn:W.
      { unfold Sys_Model.raised_by. rewrite Nat.ltb_irrefl. discriminate. }
      unfold Async_Model.wait_start. rewrite A2. destruct (Async_Model.a_futures (p_s p)) eqn:FU.
      * unfold Sys_Model.raised_by, Async_Model.raise. cbn [Async_Model.a_raised]. rewrite !app_length. cbn [length].
        destruct (Nat.ltb_spec (length (Async_Model.a_raised (p_s p))) (length (Async_Model.a_raised (p_s p)) + 1)); [|lia].
        destruct (Nat.ltb_spec (length (Async_Model.a_raised (p_s p'))) (length (Async_Model.a_raised (p_s p')) + 1)); [|lia].
        rewrite !last_last. intros E1. cbn [fst snd p_plan p_jobs p_s]. split; [congruence|]. split; [|discriminate]. right. cbn [p_plan p_jobs p_s]. split; auto. split; auto.
        unfold alike. cbn. rewrite FU. repeat split; auto.
      * unfold Sys_Model.raised_by. match goal with |- context [?a <? ?b] => change b with a end. rewrite Nat.ltb_irrefl. discriminate.
    + right. rewrite (wait_waits _ E1). auto.
Qed.

(** * Programs *)
Section Programs.
Context {T J : Type} (ext : T -> T -> Prop) (ext_refl : forall w, ext w w) (ext_trans : forall w1 w2 w3, ext w1 w2 -> ext w2 w3 -> ext w1 w3).
Definition grows_o {A} (m : T -> res A * T) : Prop := forall w, ext w (snd (m w)).
Definition grows {A} (m : MP T J A) : Prop := forall y, ext (fst y) (fst (snd (m y))).
Lemma grows_own {A} (m : T -> res A * T) : grows_o m -> grows (own m).
Proof. intros G y. unfold own. specialize (G (fst y)). destruct (m (fst y)); auto. Qed.
Lemma grows_ret {A} (a : A) : grows (pret a).
Proof. intros y. apply ext_refl. Qed.
Lemma grows_raise {A} e : grows (@praise T J A e).
Proof. intros y. apply ext_refl. Qed.
Lemma grows_size : grows p_size.
Proof. intros y. apply ext_refl. Qed.
Lemma grows_bind {A B} (m : MP T J A) (f : A -> MP T J B) : grows m -> (forall a, grows (f a)) -> grows (pbind m f).
Proof.
  intros M F y. unfold pbind. specialize (M y). destruct (m y) as [[a|e] y1]; auto. eapply ext_trans; [exact M|]. apply F.
Qed.
(** The same, or the first does not end. *)
Definition sim (d : nat) {A} (m m' : MP T J A) : Prop := forall w p p', rel p p' ->
  (fst (m' (w, p')) = fst (m (w, p)) /\ fst (snd (m' (w, p'))) = fst (snd (m (w, p))) /\ rel (snd (snd (m (w, p)))) (snd (snd (m' (w, p')))) /\
   (forall a, fst (m (w, p)) = Ok a -> d + length (p_plan (snd (snd (m (w, p))))) <= length (p_plan p) /\ d + length (p_plan (snd (snd (m' (w, p'))))) <= length (p_plan p'))) \/
  (fst (m (w, p)) = Err Diverges /\ ext (fst (snd (m (w, p)))) (fst (snd (m' (w, p'))))).
Definition fuelled (a b : nat) {A} (m m' : MP T J A) : Prop := forall w p p', rel p p' -> length (p_plan p) < a -> length (p_plan p') < b ->
  (fst (m' (w, p')) = fst (m (w, p)) /\ fst (snd (m' (w, p'))) = fst (snd (m (w, p)))) \/
  (fst (m (w, p)) = Err Diverges /\ ext (fst (snd (m (w, p)))) (fst (snd (m' (w, p'))))).
Lemma sim_ret {A} (a : A) : sim 0 (pret a) (pret a).
Proof. intros w p p' R. left. cbn. auto. Qed.
Lemma sim_raise {A} e d : sim d (@praise T J A e) (praise e).
Proof. intros w p p' R. left. cbn. repeat split; auto; discriminate. Qed.
Lemma sim_own {A} (m : T -> res A * T) : sim 0 (own m) (own m).
Proof. intros w p p' R. left. unfold own. cbn [fst snd]. destruct (m w) as [x w1]. cbn. auto. Qed.
Lemma sim_size : sim 0 p_size p_size.
Proof. intros w p p' R. left. unfold p_size. cbn [fst snd]. rewrite (rel_size _ _ R). cbn. auto. Qed.
Lemma sim_bind d {A B} (m m' : MP T J A) (f f' : A -> MP T J B) : sim d m m' -> (forall a, sim 0 (f a) (f' a)) -> (forall a, grows (f' a)) -> sim d (pbind m f) (pbind m' f').
Proof.
  intros M F G w p p' R. unfold pbind. destruct (M w p p' R) as [(H1 & H2 & H3 & H4)|(H1 & H2)].
  - destruct (m (w, p)) as [[a|e] [w1 p1]], (m' (w, p')) as [x' [w1' p1']]; cbn [fst snd] in *; subst.
    + destruct (H4 a eq_refl) as [L1 L2]. destruct (F a w1 p1 p1' H3) as [(K1 & K2 & K3 & K4)|K]; [left|right; exact K].
      split; [exact K1|]. split; [exact K2|]. split; [exact K3|]. intros b Eb. destruct (K4 b Eb). lia.
    + left. repeat split; auto; discriminate.
  - right. destruct (m (w, p)) as [x [w1 p1]], (m' (w, p')) as [[a|e] [w1' p1']]; cbn [fst snd] in *; subst; cbn [fst snd]; split; auto.
    eapply ext_trans; [exact H2|]. apply (G a (w1', p1')).
Qed.
Lemma fuelled_bind d a b {A B} (m m' : MP T J A) (f f' : A -> MP T J B) : sim d m m' -> (forall v, fuelled a b (f v) (f' v)) -> (forall v, grows (f' v)) -> fuelled (d + a) (d + b) (pbind m f) (pbind m' f').
Proof.
  intros M F G w p p' R LA LB. unfold pbind. destruct (M w p p' R) as [(H1 & H2 & H3 & H4)|(H1 & H2)].
  - destruct (m (w, p)) as [[v|e] [w1 p1]], (m' (w, p')) as [x' [w1' p1']]; cbn [fst snd] in *; subst.
    + destruct (H4 v eq_refl) as [L1 L2]. apply F; auto; lia.
    + left. auto.
  - right. destruct (m (w, p)) as [x [w1 p1]], (m' (w, p')) as [[v|e] [w1' p1']]; cbn [fst snd] in *; subst; cbn [fst snd]; split; auto.
    eapply ext_trans; [exact H2|]. apply (G v (w1', p1')).
Qed.
Lemma fuelled_sim a b {A} (m m' : MP T J A) : sim 0 m m' -> fuelled a b m m'.
Proof. intros M w p p' R _ _. destruct (M w p p' R) as [(H1 & H2 & _)|H]; auto. Qed.
(** wait_next, with what is done with the answer. *)
Lemma wait_sim {A} (k : T -> nat * Async_Model.outcome -> list J -> res A * T) :
  (forall r l w, ext w (snd (k w r l))) ->
  sim 1 (fun y => let (w, p) := y in match pool_wait call p with (Err e, p') => (Err e, (w, p')) | (Ok r, p') => let (x, w1) := k w r (p_jobs p') in (x, (w1, p')) end)
        (fun y => let (w, p) := y in match pool_wait call p with (Err e, p') => (Err e, (w, p')) | (Ok r, p') => let (x, w1) := k w r (p_jobs p') in (x, (w1, p')) end).
Proof.
  intros K w p p' R. destruct (wait_rel p p' R) as [(H1 & H2 & H3)|H].
  - left. destruct (pool_wait call p) as [[r|e] p1], (pool_wait call p') as [x' p1']; cbn [fst snd] in *; subst.
    + rewrite (rel_jobs _ _ H2). destruct (k w r (p_jobs p1)) as [x w1]. cbn [fst snd]. destruct (H3 r eq_refl). repeat split; auto; lia.
    + cbn. repeat split; auto; discriminate.
  - right. destruct (pool_wait call p) as [x p1]. cbn [fst] in H. subst x. cbn [fst snd]. split; auto.
    destruct (pool_wait call p') as [[r|e] p1']; [|apply ext_refl]. specialize (K r (p_jobs p1') w). destruct (k w r (p_jobs p1')); auto.
Qed.
End Programs.

Context (scores : nat -> list num).
(** * The evolutionary search *)
Definition vext (w w' : evo) : Prop := exists t, v_trace w' = v_trace w ++ t.
Lemma vext_refl w : vext w w.
Proof. exists []. rewrite app_nil_r. auto. Qed.
Lemma vext_trans w1 w2 w3 : vext w1 w2 -> vext w2 w3 -> vext w1 w3.
Proof. intros [t1 H1] [t2 H2]. exists (t1 ++ t2). rewrite H2, H1, app_assoc. auto. Qed.
Ltac vsame := exists []; cbn; rewrite app_nil_r; reflexivity.
Definition vo {A} (m : ME A) : Prop := grows_o vext m.
Lemma vo_ret {A} (a : A) : vo (eret a).
Proof. intros w. vsame. Qed.
Lemma vo_raise {A} e : vo (@eraise A e).
Proof. intros w. vsame. Qed.
Lemma vo_bind {A B} (m : ME A) (f : A -> ME B) : vo m -> (forall a, vo (f a)) -> vo (ebind m f).
Proof. intros M F w. unfold ebind. specialize (M w). destruct (m w) as [[a|e] w1]; auto. eapply vext_trans; [exact M|apply F]. Qed.
Lemma vo_gp {A} (m : M A) : vo (gp m).
Proof. intros w. unfold gp. destruct (m (v_st w)). vsame. Qed.
Lemma vo_note t : vo (note t).
Proof. intros w. exists [t]. auto. Qed.
Lemma vo_population : vo population.
Proof. intros w. vsame. Qed.
Lemma vo_set_population l : vo (set_population l).
Proof. intros w. vsame. Qed.
Lemma vo_saved : vo saved.
Proof. intros w. vsame. Qed.
Lemma vo_save i : vo (save i).
Proof. intros w. unfold save. destruct (pipeline_str i (v_st w)) as [[t|e] s]; vsame. Qed.
Lemma vo_individuals ps mx n : vo (individuals ps mx n).
Proof.
  induction n as [|n IH]; cbn [individuals]; [apply vo_ret|]. apply vo_bind; [apply vo_gp|]. intros i. apply vo_bind; [exact IH|]. intros l. apply vo_ret.
Qed.
Lemma vo_add pop_size m : vo (add_to_population pop_size m).
Proof.
  unfold add_to_population. apply vo_bind; [apply vo_population|]. intros pop. apply vo_bind; [apply vo_set_population|]. intros _. destruct (pop_size <? length (pop ++ [m])); [|apply vo_ret].
  apply vo_bind; [apply vo_gp|]. intros [|x l]; [apply vo_raise|]. destruct (remove_first (same_id x) (pop ++ [m])); [apply vo_set_population|apply vo_raise].
Qed.
Lemma vo_collect j o : vo (collect j o).
Proof.
  destruct o as [|sc b]; cbn [collect].
  - apply vo_bind; [apply vo_note|]. intros _. apply vo_ret.
  - apply vo_bind; [apply vo_gp|]. intros i. apply vo_bind; [apply vo_note|]. intros _. apply vo_bind; [apply vo_save|]. intros _. apply vo_ret.
Qed.
Definition vs {A} (d : nat) (m : P A) : Prop := sim vext d m m /\ grows vext m.
Lemma vs_bind {A B} d (m : P A) (f : A -> P B) : vs d m -> (forall a, vs 0 (f a)) -> vs d (pbind m f).
Proof.
  intros [M1 M2] F. split.
  - apply sim_bind; [apply vext_trans|exact M1|intros a; apply F|intros a; apply F].
  - apply grows_bind; [apply vext_trans|exact M2|intros a; apply F].
Qed.
Lemma vs_own {A} (m : ME A) : vo m -> vs 0 (own m).
Proof. intros H. split; [apply sim_own|apply grows_own; exact H]. Qed.
Lemma vs_ret {A} (a : A) : vs 0 (pret a).
Proof. split; [apply sim_ret|apply grows_ret, vext_refl]. Qed.
Lemma vs_size : vs 0 p_size.
Proof. split; [apply sim_size|apply grows_size, vext_refl]. Qed.
Lemma vs_submit i : vs 0 (p_submit call i).
Proof.
  split.
  - intros w p p' R. left. cbn [p_submit fst snd]. split; auto. split; auto. split; [apply rel_submit; auto|]. intros _ _. split; apply submit_length.
  - intros [w p]. exists [Submitted i]. auto.
Qed.
Lemma vs_submit_all l : vs 0 (p_submit_all call l).
Proof. induction l as [|i l IH]; cbn [p_submit_all]; [apply vs_ret|apply vs_bind; [apply vs_submit|intros _; exact IH]]. Qed.
Lemma vs_wait : vs 1 (p_wait_next call scores).
Proof.
  set (k := fun (w : evo) (r : nat * Async_Model.outcome) (l : list individual) => match nth_error l (fst r) with None => (@Err (individual * outcome) KeyError, w) | Some j => collect j (outcome_of scores (snd r)) w end).
  assert (K : forall r l w, vext w (snd (k w r l))).
  { intros r l w. unfold k. destruct (nth_error l (fst r)); [apply vo_collect|apply vext_refl]. }
  assert (E : forall y, p_wait_next call scores y = (let (w, p) := y in match pool_wait call p with (Err e, p') => (Err e, (w, p')) | (Ok r, p') => let (x, w1) := k w r (p_jobs p') in (x, (w1, p')) end)).
  { intros [w p]. unfold p_wait_next. destruct (pool_wait call p) as [[[i r]|e] p1]; auto. unfold k. cbn [fst snd]. destruct (nth_error (p_jobs p1) i); auto. }
  split.
  - intros w p p' R. rewrite !E. exact (wait_sim vext vext_refl k K w p p' R).
  - intros [w p]. rewrite E. cbn [fst]. destruct (pool_wait call p) as [[r|e] p1]; [|apply vext_refl]. specialize (K r (p_jobs p1) w). destruct (k w r (p_jobs p1)); exact K.
Qed.
Section EA.
Context (ps : pset) (max_length : option Z) (max_retry pop_size : nat) (max_n : option Z) (restart : bool).
Lemma vs_refill : vs 0 (p_refill call ps max_length max_retry).
Proof.
  unfold p_refill. apply vs_bind; [apply vs_size|]. intros q. destruct (q <=? 1)%Z; [|apply vs_ret].
  apply vs_bind; [apply vs_own, vo_saved|]. intros done. apply vs_bind; [apply vs_own, vo_population|]. intros pop. apply vs_bind; [apply vs_own, vo_gp|]. intros i.
  apply vs_bind; [apply vs_own, vo_note|]. intros _. apply vs_submit.
Qed.
Lemma vs_begin l : vs 0 (p_begin call l).
Proof. unfold p_begin. apply vs_bind; [apply vs_own, vo_set_population|]. intros _. apply vs_submit_all. Qed.
Lemma vs_turn : vs 1 (p_turn call scores ps max_length max_retry pop_size restart).
Proof.
  unfold p_turn. apply vs_bind; [apply vs_wait|]. intros [i o]. apply vs_bind.
  { destruct o as [|sc [|]]; try apply vs_ret. apply vs_own, vo_add. }
  intros _. apply vs_bind; [apply vs_refill|]. intros _. apply vs_bind; [destruct restart; [apply vs_own, vo_gp|apply vs_ret]|].
  intros [|]; [|apply vs_ret]. apply vs_bind; [apply vs_own, vo_note|]. intros _. apply vs_bind; [apply vs_own, vo_individuals|]. intros l. apply vs_begin.
Qed.
Notation run := (p_turns call scores ps max_length max_retry pop_size max_n restart).
Lemma grows_turns f : forall n, grows vext (run f n).
Proof.
  induction f as [|f IH]; intros n; cbn [p_turns]; destruct (below max_n n); try apply (grows_ret _ vext_refl); [apply (grows_raise _ vext_refl)|].
  apply grows_bind; [apply vext_trans|apply vs_turn|intros _; apply IH].
Qed.
Lemma turns_fuelled f : forall f' n, fuelled vext f f' (run f n) (run f' n).
Proof.
  induction f as [|f IH]; intros f' n; [intros w p p' R LA LB; lia|]. destruct f' as [|f']; [intros w p p' R LA LB; lia|].
  cbn [p_turns]. destruct (below max_n n); [|apply fuelled_sim, sim_ret].
  apply (fuelled_bind vext vext_trans 1 f f'); [apply vs_turn|intros _; apply IH|intros _; apply grows_turns].
Qed.
End EA.

(** * Random search and ASHA: the results, too, are only added to *)
Definition hext (w w' : hst) : Prop := (exists t, q_trace w' = q_trace w ++ t) /\ (exists o, q_out w' = q_out w ++ o).
Lemma hext_refl w : hext w w.
Proof. split; exists []; rewrite app_nil_r; auto. Qed.
Lemma hext_trans w1 w2 w3 : hext w1 w2 -> hext w2 w3 -> hext w1 w3.
Proof. intros [[t1 H1] [o1 O1]] [[t2 H2] [o2 O2]]. split; [exists (t1 ++ t2)|exists (o1 ++ o2)]; rewrite ?H2, ?H1, ?O2, ?O1, app_assoc; auto. Qed.
Ltac hsame := split; exists []; cbn; rewrite app_nil_r; reflexivity.
Definition ho {A} (m : MH A) : Prop := grows_o hext m.
Lemma ho_ret {A} (a : A) : ho (hret a).
Proof. intros w. hsame. Qed.
Lemma ho_raise {A} e : ho (@hraise A e).
Proof. intros w. hsame. Qed.
Lemma ho_bind {A B} (m : MH A) (f : A -> MH B) : ho m -> (forall a, ho (f a)) -> ho (hbind m f).
Proof. intros M F w. unfold hbind. specialize (M w). destruct (m w) as [[a|e] w1]; auto. eapply hext_trans; [exact M|apply F]. Qed.
Lemma ho_gp {A} (m : M A) : ho (hgp m).
Proof. intros w. unfold hgp. destruct (m (q_st w)). hsame. Qed.
Lemma ho_note t : ho (hnote t).
Proof. intros w. split; [exists [t]; auto|exists []; rewrite app_nil_r; auto]. Qed.
Lemma ho_get : ho get_rungs.
Proof. intros w. hsame. Qed.
Lemma ho_set l : ho (set_rungs l).
Proof. intros w. hsame. Qed.
Lemma ho_start l : ho (set_start l).
Proof. intros w. hsame. Qed.
Lemma ho_outputs : ho outputs.
Proof. intros w. hsame. Qed.
Lemma ho_append m : ho (append_output m).
Proof. intros w. split; [exists []; rewrite app_nil_r; auto|exists [m]; auto]. Qed.
Lemma ho_pop : ho pop_candidate.
Proof. intros w. unfold pop_candidate. destruct (rev (q_start w)); hsame. Qed.
Lemma ho_collect j o : ho (hcollect j o).
Proof.
  destruct o as [|sc b]; cbn [hcollect].
  - apply ho_bind; [apply ho_note|]. intros _. apply ho_ret.
  - apply ho_bind; [apply ho_gp|]. intros i. apply ho_bind; [apply ho_note|]. intros _. apply ho_ret.
Qed.
Lemma ho_promote eta l : ho (promote_from eta l).
Proof.
  induction l as [|r l IH]; cbn [promote_from]; [apply ho_ret|]. destruct (length (g_prom r) <? length (g_inds r) / eta); [|exact IH].
  destruct (not_promoted r); [exact IH|]. apply ho_bind; [apply ho_gp|]. intros x. apply ho_bind; [apply ho_get|]. intros all. apply ho_bind; [apply ho_set|]. intros _. apply ho_ret.
Qed.
Lemma ho_job ps mx eta fr : ho (get_job ps mx eta fr).
Proof.
  unfold get_job. apply ho_bind; [apply ho_get|]. intros all. apply ho_bind; [apply ho_promote|]. intros [j|]; [apply ho_ret|].
  apply ho_bind; [apply ho_pop|]. intros [i|]; [apply ho_ret|]. apply ho_bind; [apply ho_gp|]. intros i. apply ho_ret.
Qed.
Lemma ho_record x : ho (record_result x).
Proof.
  destruct x as [[i r] [|sc b]]; cbn [record_result]; [apply ho_ret|]. destruct sc as [|l sc]; [apply ho_raise|]. apply ho_bind; [apply ho_get|]. intros all.
  destruct (find (fun y => g_no y =? r) all); [apply ho_set|apply ho_raise].
Qed.
Definition hs {A} (d : nat) (m : Q A) : Prop := sim hext d m m /\ grows hext m.
Lemma hs_bind {A B} d (m : Q A) (f : A -> Q B) : hs d m -> (forall a, hs 0 (f a)) -> hs d (pbind m f).
Proof.
  intros [M1 M2] F. split.
  - apply sim_bind; [apply hext_trans|exact M1|intros a; apply F|intros a; apply F].
  - apply grows_bind; [apply hext_trans|exact M2|intros a; apply F].
Qed.
Lemma hs_own {A} (m : MH A) : ho m -> hs 0 (own m).
Proof. intros H. split; [apply sim_own|apply grows_own; exact H]. Qed.
Lemma hs_ret {A} (a : A) : hs 0 (pret a).
Proof. split; [apply sim_ret|apply grows_ret, hext_refl]. Qed.
Lemma hs_raise {A} e : hs 0 (@praise _ _ A e).
Proof. split; [apply sim_raise|apply (grows_raise _ hext_refl)]. Qed.
Lemma hs_submit i r : hs 0 (q_submit call i r).
Proof.
  split.
  - intros w p p' R. left. cbn [q_submit fst snd]. split; auto. split; auto. split; [apply rel_submit; auto|]. intros _ _. split; apply submit_length.
  - intros [w p]. split; [exists [Started i r]; auto|exists []; cbn; rewrite app_nil_r; auto].
Qed.
Lemma hs_submit_each l : hs 0 (q_submit_each call l).
Proof. induction l as [|i l IH]; cbn [q_submit_each]; [apply hs_ret|apply hs_bind; [apply hs_submit|intros _; exact IH]]. Qed.
Lemma hs_wait : hs 1 (q_wait_next call scores).
Proof.
  set (k := fun (w : hst) (r : nat * Async_Model.outcome) (l : list (individual * nat)) => match nth_error l (fst r) with None => (@Err (individual * nat * outcome) KeyError, w) | Some j => hcollect j (outcome_of scores (snd r)) w end).
  assert (K : forall r l w, hext w (snd (k w r l))).
  { intros r l w. unfold k. destruct (nth_error l (fst r)); [apply ho_collect|apply hext_refl]. }
  assert (E : forall y, q_wait_next call scores y = (let (w, p) := y in match pool_wait call p with (Err e, p') => (Err e, (w, p')) | (Ok r, p') => let (x, w1) := k w r (p_jobs p') in (x, (w1, p')) end)).
  { intros [w p]. unfold q_wait_next. destruct (pool_wait call p) as [[[i r]|e] p1]; auto. unfold k. cbn [fst snd]. destruct (nth_error (p_jobs p1) i); auto. }
  split.
  - intros w p p' R. rewrite !E. exact (wait_sim hext hext_refl k K w p p' R).
  - intros [w p]. rewrite E. cbn [fst]. destruct (pool_wait call p) as [[r|e] p1]; [|apply hext_refl]. specialize (K r (p_jobs p1) w). destruct (k w r (p_jobs p1)); exact K.
Qed.
Section RS.
Context (ps : pset) (max_length max_n : option Z).
Notation run := (q_rs_turns call scores ps max_length max_n).
Lemma hs_output (x : individual * nat * outcome) : hs 0 (match x with (i, _, Evaluated sc _) => own (append_output (mkMem i sc)) | _ => pret tt end : Q unit).
Proof. destruct x as [[i r] [|sc b]]; [apply hs_ret|apply hs_own, ho_append]. Qed.
Lemma grows_rs f : grows hext (run f).
Proof.
  induction f as [|f IH]; cbn [q_rs_turns]; (apply grows_bind; [apply hext_trans|apply grows_own, ho_outputs|]); intros l; destruct (below max_n (length l)); try apply (grows_ret _ hext_refl); [apply (grows_raise _ hext_refl)|].
  apply grows_bind; [apply hext_trans|apply hs_wait|intros x]. apply grows_bind; [apply hext_trans|apply hs_output|intros _].
  apply grows_bind; [apply hext_trans|apply grows_own, ho_gp|intros i]. apply grows_bind; [apply hext_trans|apply hs_submit|intros _; exact IH].
Qed.
Lemma rs_fuelled f : forall f', fuelled hext f f' (run f) (run f').
Proof.
  induction f as [|f IH]; intros f'; [intros w p p' R LA LB; lia|]. destruct f' as [|f']; [intros w p p' R LA LB; lia|].
  assert (G : forall x : individual * nat * outcome, grows hext ((match x with (i, _, Evaluated sc _) => own (append_output (mkMem i sc)) | _ => pret tt end) ;;# (i <# own (hgp (op_individual ps max_length)) ;; q_submit call i 0 ;;# run f'))).
  { intros x. apply grows_bind; [apply hext_trans|apply hs_output|intros _].
    apply grows_bind; [apply hext_trans|apply grows_own, ho_gp|intros i]. apply grows_bind; [apply hext_trans|apply hs_submit|intros _; apply grows_rs]. }
  cbn [q_rs_turns]. apply (fuelled_bind hext hext_trans 0 (S f) (S f')); [apply sim_own| |].
  - intros l. destruct (below max_n (length l)); [|apply fuelled_sim, sim_ret].
    apply (fuelled_bind hext hext_trans 1 f f'); [apply hs_wait| |exact G]. intros x.
    apply (fuelled_bind hext hext_trans 0 f f'); [apply hs_output| |].
    + intros _. apply (fuelled_bind hext hext_trans 0 f f'); [apply sim_own| |].
      * intros i. apply (fuelled_bind hext hext_trans 0 f f'); [apply hs_submit|intros _; apply IH|intros _; apply grows_rs].
      * intros i. apply grows_bind; [apply hext_trans|apply hs_submit|intros _; apply grows_rs].
    + intros _. apply grows_bind; [apply hext_trans|apply grows_own, ho_gp|intros i]. apply grows_bind; [apply hext_trans|apply hs_submit|intros _; apply grows_rs].
  - intros l. destruct (below max_n (length l)); [|apply (grows_ret _ hext_refl)]. apply grows_bind; [apply hext_trans|apply hs_wait|exact G].
Qed.
Context (eta first_rung : nat) (max_rung : Z) (max_full : option Z).
Notation arun := (q_asha_turns call scores ps max_length eta first_rung max_rung max_full).
Lemma hs_new_job : hs 0 (q_start_new_job call ps max_length eta first_rung max_rung).
Proof. unfold q_start_new_job. apply hs_bind; [apply hs_own, ho_job|]. intros j. destruct (existsb (Nat.eqb (snd j)) (rung_numbers first_rung max_rung)); [apply hs_submit|apply hs_raise]. Qed.
Lemma hs_start_jobs k : hs 0 (q_start_jobs call ps max_length eta first_rung max_rung k).
Proof. induction k as [|k IH]; cbn [q_start_jobs]; [apply hs_ret|apply hs_bind; [apply hs_new_job|intros _; exact IH]]. Qed.
Lemma grows_asha f : grows hext (arun f).
Proof.
  induction f as [|f IH]; cbn [q_asha_turns]; (apply grows_bind; [apply hext_trans|apply grows_own, ho_get|]); intros l; destruct (top_below max_rung max_full l) as [[|]|e];
    try apply (grows_ret _ hext_refl); try apply (grows_raise _ hext_refl).
  apply grows_bind; [apply hext_trans|apply hs_wait|intros x]. apply grows_bind; [apply hext_trans|apply grows_own, ho_record|intros _].
  apply grows_bind; [apply hext_trans|apply hs_new_job|intros _; exact IH].
Qed.
Lemma asha_fuelled f : forall f', fuelled hext f f' (arun f) (arun f').
Proof.
  induction f as [|f IH]; intros f'; [intros w p p' R LA LB; lia|]. destruct f' as [|f']; [intros w p p' R LA LB; lia|].
  assert (G : forall x, grows hext (own (record_result x) ;;# q_start_new_job call ps max_length eta first_rung max_rung ;;# arun f')).
  { intros x. apply grows_bind; [apply hext_trans|apply grows_own, ho_record|intros _]. apply grows_bind; [apply hext_trans|apply hs_new_job|intros _; apply grows_asha]. }
  cbn [q_asha_turns]. apply (fuelled_bind hext hext_trans 0 (S f) (S f')); [apply sim_own| |].
  - intros l. destruct (top_below max_rung max_full l) as [[|]|e]; [|apply fuelled_sim, sim_ret|apply fuelled_sim, sim_raise].
    apply (fuelled_bind hext hext_trans 1 f f'); [apply hs_wait| |exact G]. intros x.
    apply (fuelled_bind hext hext_trans 0 f f'); [apply sim_own| |].
    + intros _. apply (fuelled_bind hext hext_trans 0 f f'); [apply hs_new_job|intros _; apply IH|intros _; apply grows_asha].
    + intros _. apply grows_bind; [apply hext_trans|apply hs_new_job|intros _; apply grows_asha].
  - intros l. destruct (top_below max_rung max_full l) as [[|]|e]; [|apply (grows_ret _ hext_refl)|apply (grows_raise _ hext_refl)]. apply grows_bind; [apply hext_trans|apply hs_wait|exact G].
Qed.
End RS.
End Later.

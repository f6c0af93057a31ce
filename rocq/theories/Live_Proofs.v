(** Workers that live make progress. *)
Require Import ZArith Lia.
From Verif Require Import Base Num Async_Model Sys_Model Live_Spec.
Open Scope nat_scope.
Open Scope list_scope.

Lemma in_order_drop {A} (l acts : list A) a : in_order l acts -> in_order l (a :: acts).
Proof. destruct l as [|b l]; auto. intros (x & y & -> & H). exists (a :: x), y. auto. Qed.
Lemma in_order_tail {A} (l acts : list A) b : in_order (b :: l) acts -> in_order l acts.
Proof.
  intros (x & y & -> & H). induction x as [|a x IH]; simpl; [apply in_order_drop; auto|]. apply in_order_drop. exact IH.
Qed.
Lemma in_order_skip {A} (l acts : list A) a b : in_order (b :: l) (a :: acts) -> a <> b -> in_order (b :: l) acts.
Proof. intros (x & y & E & H) N. destruct x as [|c x]; simpl in E; injection E; intros E1 E2; [congruence|]. subst. exists x, y. auto. Qed.
Lemma in_order_hd {A} (l acts : list A) a b : in_order (b :: l) (a :: acts) -> in_order l acts.
Proof. intros (x & y & E & H). destruct x as [|c x]; simpl in E; injection E as -> ->; auto. eapply in_order_tail with (b := b). exists x, y. auto. Qed.
Lemma in_order_in {A} (b : A) acts : in_order [b] acts -> In b acts.
Proof. intros (x & y & -> & _). apply in_or_app. right. left. auto. Qed.

Lemma merge_nil d : kw_merge [] d = d.
Proof. unfold kw_merge. cbn. induction d as [|a d IH]; simpl; auto. f_equal. auto. Qed.
Section Live.
Context (call : nat -> list nat -> kwargs -> nat -> outcome) (d : kwargs) (n : nat).
Hypothesis ANS : answers call d.

Definition is_future (x : nat * job) : Prop := exists k, snd x = future k.
Definition load (w : worker) : nat := (match w_run w with None => 0 | Some _ => 1 end) + length (w_out w).
Definition total_load (l : list worker) : nat := fold_right (fun w t => load w + t) 0 l.
Definition places (s : st) : nat := length (a_input s) + total_load (a_live s) + length (a_output s).
Definition worker_ok (w : worker) : Prop := w_defaults w = d /\ forall x, w_run w = Some x -> is_future x.
Record pool_ok (s : st) : Prop := {
  l_limit : a_limit s = None;
  l_closed : a_closed s = false;
  l_defaults : a_defaults s = d;
  l_pids : map w_pid (a_live s) = seq 1 n;
  l_procs : a_procs s = seq 1 n;
  l_input : Forall is_future (a_input s);
  l_workers : Forall worker_ok (a_live s);
  l_places : length (a_futures s) <= places s }.

Lemma ans_deliver x c : is_future x -> deliver (execute call (snd x) d c) <> None.
Proof.
  intros (k & ->). unfold execute. cbn [future j_fn j_args j_kwargs]. rewrite merge_nil. destruct (ANS k c) as [(v & e & ->)|(e & ->)]; [destruct e|]; discriminate.
Qed.

(** * Workers *)
Lemma find_in p l w : find_worker p l = Some w -> In w l /\ w_pid w = p.
Proof. intros H. apply find_some in H as [H1 H2]. apply Nat.eqb_eq in H2. auto. Qed.
Lemma find_exists p l : In p (map w_pid l) -> exists w, find_worker p l = Some w.
Proof.
  intros H. apply in_map_iff in H as (w & E & H). unfold find_worker. destruct (find (fun w => w_pid w =? p) l) as [w'|] eqn:F; eauto.
  apply find_none with (x := w) in F; auto. apply Nat.eqb_neq in F. congruence.
Qed.
Lemma find_own l w : NoDup (map w_pid l) -> In w l -> find_worker (w_pid w) l = Some w.
Proof.
  induction l as [|a l IH]; intros N H; [destruct H|]. cbn in *. apply NoDup_cons_iff in N as [N1 N2]. destruct H as [-> |H].
  - rewrite Nat.eqb_refl. auto.
  - destruct (w_pid a =? w_pid w) eqn:E; auto. apply Nat.eqb_eq in E. exfalso. apply N1. rewrite E. apply in_map. auto.
Qed.
Lemma on_none p f l : ~ In p (map w_pid l) -> on_worker p f l = l.
Proof.
  induction l as [|a l IH]; intros H; auto. cbn in *. destruct (w_pid a =? p) eqn:E; [apply Nat.eqb_eq in E; tauto|]. cbn. f_equal. apply IH. tauto.
Qed.
Lemma on_split p f l w w' : NoDup (map w_pid l) -> find_worker p l = Some w -> f w = Some w' ->
  exists l1 l2, l = l1 ++ w :: l2 /\ on_worker p f l = l1 ++ w' :: l2.
Proof.
  induction l as [|a l IH]; intros N F E; [discriminate|]. cbn in *. apply NoDup_cons_iff in N as [N1 N2]. destruct (w_pid a =? p) eqn:EA.
  - injection F as ->. exists [], l. split; auto. rewrite E. cbn. f_equal. apply Nat.eqb_eq in EA. apply on_none. congruence.
  - destruct (IH N2 F E) as (l1 & l2 & -> & E2). exists (a :: l1), l2. split; auto. cbn. f_equal. exact E2.
Qed.
Lemma total_app l1 l2 : total_load (l1 ++ l2) = total_load l1 + total_load l2.
Proof. induction l1; simpl; lia. Qed.
(** one worker is replaced, and the queues change *)
Lemma replaced s p f w w' inp out : pool_ok s -> find_worker p (a_live s) = Some w -> f w = Some w' -> w_pid w' = w_pid w -> worker_ok w' -> Forall is_future inp ->
  length (a_input s) + load w + length (a_output s) <= length inp + load w' + length out ->
  pool_ok (set_queues inp out (on_worker p f (a_live s)) s) /\ find_worker p (on_worker p f (a_live s)) = Some w' /\
  (forall q, q <> p -> find_worker q (on_worker p f (a_live s)) = find_worker q (a_live s)).
Proof.
  intros G F E P O I L. destruct G as [G1 G2 G0 G3 G4 G5 G6 G7].
  assert (N : NoDup (map w_pid (a_live s))) by (rewrite G3; apply seq_NoDup).
  destruct (on_split p f _ w w' N F E) as (l1 & l2 & E1 & E2). destruct (find_in _ _ _ F) as (_ & EP).
  assert (M : map w_pid (on_worker p f (a_live s)) = seq 1 n) by (rewrite E2, <- G3, E1, !map_app; cbn; congruence).
  split.
  - constructor; cbn; auto.
    + rewrite E2. rewrite E1 in G6. apply Forall_app in G6 as [A B]. apply Forall_app. split; auto. inversion B; auto.
    + unfold places in *. cbn. rewrite E2. rewrite E1 in G7. rewrite total_app in *. cbn in *. lia.
  - rewrite E2, E1 in *. split.
    + rewrite <- EP, <- P. apply find_own; [rewrite M; apply seq_NoDup|]. apply in_or_app. right. left. auto.
    + intros q NQ. unfold find_worker. clear - NQ EP P. induction l1 as [|a l1 IH]; cbn.
      * destruct (w_pid w' =? q) eqn:A; [apply Nat.eqb_eq in A; congruence|]. destruct (w_pid w =? q) eqn:B; [apply Nat.eqb_eq in B; congruence|]. auto.
      * destruct (w_pid a =? q); auto.
Qed.

(** * What is still to come of the workers' actions brings a result *)
Definition promise (s : st) (acts : list act) : Prop :=
  a_output s <> [] \/
  (exists p w, find_worker p (a_live s) = Some w /\ w_out w <> [] /\ In (Flush p) acts) \/
  (exists p w c, find_worker p (a_live s) = Some w /\ w_run w <> None /\ in_order [Exec p c; Flush p] acts) \/
  (a_input s <> [] /\ 0 < n /\ forall p, 1 <= p <= n -> exists c, in_order [Get p; Exec p c; Flush p] acts).
Lemma promise_end s : promise s [] -> a_output s <> [].
Proof.
  intros [H|[(p & w & _ & _ & [])|[(p & w & c & _ & _ & (x & y & E & _))|(_ & N & H)]]]; auto.
  - destruct x; discriminate.
  - destruct (H 1) as (c & x & y & E & _); [lia|]. destruct x; discriminate.
Qed.
Lemma in_cons_other {A} (a b : A) l : In b (a :: l) -> a <> b -> In b l.
Proof. intros [H|H]; tauto. Qed.
(** other actions are not the workers' *)
Lemma promise_skip s a acts : by_worker a = false -> promise s (a :: acts) -> promise s acts.
Proof.
  intros B [H|[(p & w & F & O & I)|[(p & w & c & F & O & I)|(I & N & H)]]].
  - left. auto.
  - right. left. exists p, w. split; auto. split; auto. eapply in_cons_other; [eassumption|]. intros ->. discriminate.
  - right. right. left. exists p, w, c. split; auto. split; auto. eapply in_order_skip; [eassumption|]. intros ->. discriminate.
  - right. right. right. split; auto. split; auto. intros p Hp. destruct (H p Hp) as (c & Hc). exists c. eapply in_order_skip; [eassumption|]. intros ->. discriminate.
Qed.
(** a worker's action that does nothing *)
Lemma promise_same s a acts : (forall p w, a = Flush p -> find_worker p (a_live s) = Some w -> w_out w = []) ->
  (forall p c w, a = Exec p c -> find_worker p (a_live s) = Some w -> w_run w = None) ->
  (forall p, a = Get p -> 1 <= p <= n -> a_input s = [] \/ exists w, find_worker p (a_live s) = Some w /\ w_run w <> None) ->
  promise s (a :: acts) -> promise s acts.
Proof.
  intros HF HE HG [H|[(p & w & F & O & I)|[(p & w & c & F & O & I)|(I & N & H)]]].
  - left. auto.
  - right. left. exists p, w. split; auto. split; auto. eapply in_cons_other; [eassumption|]. intros ->. apply O. eauto.
  - right. right. left. exists p, w, c. split; auto. split; auto. eapply in_order_skip; [eassumption|]. intros ->. apply O. eauto.
  - destruct a as [| | | | | | |q|q c|q|q]; try (right; right; right; split; auto; split; auto; intros p Hp; destruct (H p Hp) as (c0 & Hc); exists c0; eapply in_order_skip; [eassumption|discriminate]).
    destruct (le_lt_dec 1 q) as [Q1|Q1]; [destruct (le_lt_dec q n) as [Q2|Q2]|].
    + destruct (HG q eq_refl (conj Q1 Q2)) as [Z|(w & F & R)]; [contradiction|]. right. right. left. destruct (H q (conj Q1 Q2)) as (c & Hc). exists q, w, c. split; auto. split; auto. eapply in_order_hd. exact Hc.
    + right; right; right; split; auto; split; auto; intros p Hp; destruct (H p Hp) as (c0 & Hc); exists c0; (eapply in_order_skip; [eassumption|]). intros [= ->]. lia.
    + right; right; right; split; auto; split; auto; intros p Hp; destruct (H p Hp) as (c0 & Hc); exists c0; (eapply in_order_skip; [eassumption|]). intros [= ->]. lia.
Qed.
Lemma live_pid s p w : pool_ok s -> find_worker p (a_live s) = Some w -> 1 <= p <= n.
Proof. intros G F. destruct (find_in _ _ _ F) as (I & <-). assert (H : In (w_pid w) (seq 1 n)) by (rewrite <- (l_pids _ G); apply in_map; auto). apply in_seq in H. lia. Qed.
Lemma live_find s p : pool_ok s -> 1 <= p <= n -> exists w, find_worker p (a_live s) = Some w.
Proof. intros G H. apply find_exists. rewrite (l_pids _ G). apply in_seq. lia. Qed.

Lemma get_ok s p acts : pool_ok s -> pool_ok (worker_get p s) /\ (promise s (Get p :: acts) -> promise (worker_get p s) acts).
Proof.
  intros G. unfold worker_get. destruct (find_worker p (a_live s)) as [w|] eqn:F.
  2:{ split; auto. apply promise_same; try discriminate. intros q [= <-] Hq. destruct (live_find s p G Hq) as (w & E). congruence. }
  destruct (a_input s) as [|x inp] eqn:EI.
  { split; auto. apply promise_same; try discriminate. intros q _ _. auto. }
  destruct (w_run w) as [y|] eqn:ER.
  { split; auto. apply promise_same; try discriminate. intros q [= <-] Hq. right. exists w. split; auto. congruence. }
  set (f := fun w => Some (mkWorker (w_pid w) (w_defaults w) (Some x) (w_out w))).
  pose proof (l_input _ G) as FI. rewrite EI in FI. inversion FI as [|x0 l0 FX FR]; subst x0 l0.
  pose proof (l_workers _ G) as FW. rewrite Forall_forall in FW. destruct (find_in _ _ _ F) as (IW & EP). destruct (FW _ IW) as (D & _).
  destruct (replaced s p f w (mkWorker (w_pid w) (w_defaults w) (Some x) (w_out w)) inp (a_output s)) as (G' & F1 & F2); auto.
  { split; auto. cbn. intros x0 [= <-]. auto. }
  { rewrite EI. unfold load. cbn. rewrite ER. lia. }
  split; auto. intros [H|[(q & w0 & F0 & O & I)|[(q & w0 & c & F0 & O & I)|(I & N & H)]]].
  - left. auto.
  - right. left. destruct (Nat.eq_dec q p) as [-> |NQ].
    + exists p. eexists. split; [exact F1|]. cbn. split; [congruence|]. eapply in_cons_other; [eassumption|discriminate].
    + exists q, w0. cbn [set_queues a_live]. rewrite (F2 q NQ). split; auto. split; auto. eapply in_cons_other; [eassumption|discriminate].
  - right. right. left. destruct (Nat.eq_dec q p) as [-> |NQ]; [congruence|]. exists q, w0, c. cbn [set_queues a_live]. rewrite (F2 q NQ). split; auto. split; auto. eapply in_order_skip; [eassumption|discriminate].
  - right. right. left. destruct (H p (live_pid _ _ _ G F)) as (c & Hc). exists p. eexists. exists c. split; [exact F1|]. cbn. split; [discriminate|]. exact (in_order_hd _ _ _ _ Hc).
Qed.
Lemma exec_ok s p c acts : pool_ok s -> pool_ok (worker_exec call p c s) /\ (promise s (Exec p c :: acts) -> promise (worker_exec call p c s) acts).
Proof.
  intros G. unfold worker_exec. destruct (find_worker p (a_live s)) as [w|] eqn:F.
  2:{ split; auto. apply promise_same; try discriminate. intros q c0 w [= <- _]. congruence. }
  destruct (w_run w) as [[id j]|] eqn:ER.
  2:{ split; auto. apply promise_same; try discriminate. intros q c0 w0 [= <- _]. congruence. }
  pose proof (l_workers _ G) as FW. rewrite Forall_forall in FW. destruct (find_in _ _ _ F) as (IW & EP). destruct (FW _ IW) as (D & FF).
  destruct (deliver (execute call j (w_defaults w) c)) as [o|] eqn:ED.
  2:{ exfalso. rewrite D in ED. apply (ans_deliver (id, j) c (FF _ ER)). exact ED. }
  match goal with |- context[on_worker p ?g _] => set (f := g) end.
  assert (EF : f w = Some (mkWorker (w_pid w) (w_defaults w) None (w_out w ++ [(id, o)]))) by (unfold f; rewrite ED; auto).
  destruct (replaced s p f w _ (a_input s) (a_output s) G F EF) as (G' & F1 & F2); auto.
  { split; auto. cbn. discriminate. }
  { exact (l_input _ G). }
  { unfold load. cbn. rewrite ER, app_length. cbn. lia. }
  assert (NE : w_out w ++ [(id, o)] <> []) by (destruct (w_out w); discriminate).
  split; auto. intros [H|[(q & w0 & F0 & O & I)|[(q & w0 & c0 & F0 & O & I)|(I & N & H)]]].
  - left. auto.
  - right. left. destruct (Nat.eq_dec q p) as [-> |NQ].
    + exists p. eexists. split; [exact F1|]. cbn. split; [exact NE|]. eapply in_cons_other; [eassumption|discriminate].
    + exists q, w0. cbn [set_queues a_live]. rewrite (F2 q NQ). split; auto. split; auto. eapply in_cons_other; [eassumption|discriminate].
  - destruct (Nat.eq_dec q p) as [-> |NQ].
    + right. left. exists p. eexists. split; [exact F1|]. cbn. split; [exact NE|]. apply in_order_in. exact (in_order_hd _ _ _ _ I).
    + right. right. left. exists q, w0, c0. cbn [set_queues a_live]. rewrite (F2 q NQ). split; auto. split; auto. eapply in_order_skip; [eassumption|congruence].
  - right. right. right. split; auto. split; auto. intros q Hq. destruct (H q Hq) as (c0 & Hc). exists c0. eapply in_order_skip; [eassumption|discriminate].
Qed.
Lemma flush_ok s p acts : pool_ok s -> pool_ok (worker_flush p s) /\ (promise s (Flush p :: acts) -> promise (worker_flush p s) acts).
Proof.
  intros G. unfold worker_flush. destruct (find_worker p (a_live s)) as [w|] eqn:F.
  2:{ split; auto. apply promise_same; try discriminate. intros q w [= <-]. congruence. }
  destruct (w_out w) as [|x out] eqn:EO.
  { split; auto. apply promise_same; try discriminate. intros q w0 [= <-]. congruence. }
  pose proof (l_workers _ G) as FW. rewrite Forall_forall in FW. destruct (find_in _ _ _ F) as (IW & EP). destruct (FW _ IW) as (D & FF).
  set (f := fun w => Some (mkWorker (w_pid w) (w_defaults w) (w_run w) out)).
  destruct (replaced s p f w (mkWorker (w_pid w) (w_defaults w) (w_run w) out) (a_input s) (a_output s ++ [x])) as (G' & F1 & F2); auto.
  { split; auto. }
  { exact (l_input _ G). }
  { unfold load. cbn. rewrite EO, app_length. cbn. lia. }
  split; auto. intros _. left. cbn. destruct (a_output s); discriminate.
Qed.
(** the workers' steps *)
Lemma workers_ok : forall acts rest s, (forall p, ~ In (Crash p) acts) -> pool_ok s ->
  pool_ok (workers_do call acts s) /\ (promise s (acts ++ rest) -> promise (workers_do call acts s) rest).
Proof.
  unfold workers_do, run. induction acts as [|a acts IH]; intros rest s NC G; [auto|].
  assert (NC' : forall p, ~ In (Crash p) acts) by (intros p H; apply (NC p); right; auto).
  cbn [filter]. destruct (by_worker a) eqn:B.
  - cbn [fold_left]. assert (K : pool_ok (step call s a) /\ (promise s (a :: acts ++ rest) -> promise (step call s a) (acts ++ rest))).
    { destruct a; try discriminate; cbn [step]; [apply get_ok|apply exec_ok|apply flush_ok|]; auto. exfalso. apply (NC p). left. auto. }
    destruct K as (K1 & K2). destruct (IH rest _ NC' K1) as (K3 & K4). split; [exact K3|]. intros H. apply K4, K2. exact H.
  - destruct (IH rest _ NC' G) as (K3 & K4). split; [exact K3|]. intros H. apply K4. cbn in H. eapply promise_skip; eauto.
Qed.
(** something is outstanding: a round brings it *)
Lemma promised s turns : pool_ok s -> a_futures s <> [] -> 0 < n -> round n turns -> promise s (flat_map t_acts turns).
Proof.
  intros G NF N (R & _). pose proof (l_places _ G) as L. unfold places in L.
  destruct (a_output s) eqn:EO; [|left; congruence]. destruct (a_input s) as [|x inp] eqn:EI.
  2:{ right. right. right. rewrite EI. split; [discriminate|]. auto. }
  assert (H : exists w, In w (a_live s) /\ 0 < load w).
  { assert (0 < total_load (a_live s)) by (destruct (a_futures s); [congruence|simpl in *; lia]). clear - H. induction (a_live s) as [|w l IH]; simpl in *; [lia|].
    destruct (load w) eqn:E; [destruct IH as (w' & A & B); [lia|eauto]|exists w; split; auto; lia]. }
  destruct H as (w & IW & LW).
  assert (F : find_worker (w_pid w) (a_live s) = Some w) by (apply find_own; auto; rewrite (l_pids _ G); apply seq_NoDup).
  destruct (R _ (live_pid _ _ _ G F)) as (c & Hc). unfold load in LW. destruct (w_run w) as [y|] eqn:ER.
  - right. right. left. exists (w_pid w), w, c. split; auto. split; [congruence|]. eapply in_order_tail. exact Hc.
  - right. left. exists (w_pid w), w. split; auto. split; [intros Z; rewrite Z in LW; simpl in LW; lia|]. apply in_order_in. eapply in_order_tail, in_order_tail. exact Hc.
Qed.

(** * The main process *)
Lemma memory_same mem s : forall ps, (forall p, In p ps -> alive p s = true) -> snd (memory mem ps s) = s.
Proof.
  induction ps as [|p ps IH]; intros H; auto. cbn [memory]. rewrite (H p) by (left; auto). assert (E : snd (memory mem ps s) = s) by (apply IH; intros q Hq; apply H; right; auto).
  destruct (mem p); destruct (memory mem ps s) as [l s']; cbn in *; auto.
Qed.
Lemma log_same mem s : pool_ok s -> log_memory mem s = s.
Proof.
  intros G. unfold log_memory. destruct (a_log s); auto. apply memory_same. intros p [<- |H]; [reflexivity|]. unfold alive. apply orb_true_iff. right. apply existsb_exists.
  rewrite (l_procs _ G), <- (l_pids _ G) in H. apply in_map_iff in H as (w & <- & H). exists w. split; auto. apply Nat.eqb_refl.
Qed.
Lemma find_id_filter id : forall l j, find_id id l = Some j -> length (filter (fun x => negb (fst x =? id)) l) < length l.
Proof.
  induction l as [|[i j0] l IH]; intros j H; [discriminate|]. cbn in *. destruct (i =? id); cbn.
  - clear. induction l as [|a l IH]; cbn; auto. destruct (negb (fst a =? id)); cbn; lia.
  - apply IH in H. lia.
Qed.
Definition ended_well (s s' : st) : Prop := (a_raised s' = a_raised s /\ pool_ok s') \/ a_raised s' = a_raised s ++ [KeyError].
Lemma ended_eq s1 s2 s' : a_raised s1 = a_raised s2 -> ended_well s1 s' -> ended_well s2 s'.
Proof. unfold ended_well. intros ->. auto. Qed.
Lemma turn_ok mem mem2 mem3 ready s : pool_ok s -> a_waiting s = true ->
  (wait_turn mem mem2 mem3 ready s = s /\ (a_output s = [] \/ ready = false)) \/
  (a_waiting (wait_turn mem mem2 mem3 ready s) = false /\ ended_well s (wait_turn mem mem2 mem3 ready s)).
Proof.
  intros G W. unfold wait_turn, control. rewrite (l_limit _ G), (log_same _ _ G), (l_closed _ G).
  destruct (a_output s) as [|[id o] out] eqn:EO; [left; auto|]. destruct ready; [right|left; auto]. destruct (find_id id (a_futures s)) as [j|] eqn:EF.
  - split; auto. left. split; auto. destruct G as [G1 G2 G0 G3 G4 G5 G6 G7]. apply find_id_filter in EF. constructor; auto. unfold places in *. cbn [a_futures a_input a_live a_output]. rewrite EO in G7. cbn [length] in G7. eapply Nat.lt_succ_r, Nat.lt_le_trans; [exact EF|]. lia.
  - split; auto. right. auto.
Qed.
(** the loop of wait_next over a piece of the schedule: still waiting at its end, with the same
    jobs outstanding, or no longer waiting after some of it *)
Lemma workers_keep acts s : a_waiting (workers_do call acts s) = a_waiting s /\ a_futures (workers_do call acts s) = a_futures s /\ a_raised (workers_do call acts s) = a_raised s.
Proof.
  unfold workers_do, run. revert s. induction acts as [|a acts IH]; intros s; auto. cbn [filter]. destruct (by_worker a) eqn:B; auto. cbn [fold_left].
  destruct (IH (step call s a)) as (A1 & A2 & A3). rewrite A1, A2, A3. destruct a; try discriminate; cbn [step].
  - unfold worker_get. destruct (find_worker p (a_live s)) as [w|]; auto. destruct (a_input s); auto. destruct (w_run w); auto.
  - unfold worker_exec. destruct (find_worker p (a_live s)) as [w|]; auto. destruct (w_run w) as [[]|]; auto.
  - unfold worker_flush. destruct (find_worker p (a_live s)) as [w|]; auto. destruct (w_out w); auto.
  - auto.
Qed.
Lemma turns_piece : forall l rest s, nobody_killed l -> pool_ok s -> a_waiting s = true ->
  (exists s', turns call (l ++ rest) s = turns call rest s' /\ pool_ok s' /\ a_waiting s' = true /\ a_futures s' = a_futures s /\ a_raised s' = a_raised s /\
     forall acts, promise s (flat_map t_acts l ++ acts) -> promise s' acts) \/
  (exists l1 l2 s', l = l1 ++ l2 /\ l1 <> [] /\ turns call (l ++ rest) s = (s', l2 ++ rest) /\ a_waiting s' = false /\ ended_well s s').
Proof.
  induction l as [|t l IH]; intros rest s NK G W; [left; exists s; auto 10|].
  assert (NK' : nobody_killed l) by (intros t0 p H; apply NK; right; auto).
  cbn [app turns flat_map]. destruct (workers_keep (t_acts t) s) as (K1 & K2 & K3).
  assert (WO : forall r, pool_ok (workers_do call (t_acts t) s) /\ (promise s (t_acts t ++ r) -> promise (workers_do call (t_acts t) s) r)) by (intros r; apply workers_ok; auto; intros p; apply NK; left; auto).
  set (s1 := workers_do call (t_acts t) s) in *. rewrite W in K1. cbn [step]. rewrite K1.
  assert (G1 : pool_ok s1) by apply (WO []).
  destruct (turn_ok (t_mem t) (t_mem2 t) (t_mem3 t) (t_ready t) s1 G1 K1) as [(E & _)|(E & R)].
  - rewrite E, K1. destruct (IH rest s1 NK' G1 K1) as [(s' & A1 & A2 & A3 & A4 & A5 & A6)|(l1 & l2 & s' & A1 & A2 & A3 & A4 & A5)].
    + left. exists s'. split; auto. split; auto. split; auto. split; [congruence|]. split; [congruence|]. intros acts H. apply A6, WO. rewrite <- app_assoc in H. exact H.
    + right. exists (t :: l1), l2, s'. split; [cbn; congruence|]. split; [discriminate|]. split; auto. split; auto. eapply ended_eq; eauto.
  - rewrite E. right. exists [t], l. eexists. split; [reflexivity|]. split; [discriminate|]. split; [reflexivity|]. split; auto. eapply ended_eq; eauto.
Qed.
(** over a round: no longer waiting *)
Lemma turns_round l rest s : nobody_killed l -> pool_ok s -> a_waiting s = true -> a_futures s <> [] -> 0 < n -> round n l ->
  exists l1 l2 s', l = l1 ++ l2 /\ l1 <> [] /\ turns call (l ++ rest) s = (s', l2 ++ rest) /\ a_waiting s' = false /\ ended_well s s'.
Proof.
  intros NK G W NF N R. pose proof (promised s l G NF N R) as P. destruct R as (_ & before & t & -> & RT).
  assert (NK1 : nobody_killed before) by (intros t0 p H; apply NK; apply in_or_app; auto).
  rewrite flat_map_app in P. cbn [flat_map] in P. rewrite app_nil_r in P. rewrite <- app_assoc.
  destruct (turns_piece before ([t] ++ rest) s NK1 G W) as [(s1 & A1 & A2 & A3 & A4 & A5 & A6)|(l1 & l2 & s' & A1 & A2 & A3 & A4 & A5)].
  - rewrite A1. cbn [app turns]. specialize (A6 _ P). destruct (workers_keep (t_acts t) s1) as (K1 & K2 & K3).
    assert (WO : forall r, pool_ok (workers_do call (t_acts t) s1) /\ (promise s1 (t_acts t ++ r) -> promise (workers_do call (t_acts t) s1) r)) by (intros r; apply workers_ok; auto; intros p; apply NK, in_or_app; right; left; auto).
    set (s2 := workers_do call (t_acts t) s1) in *. rewrite A3 in K1. cbn [step]. rewrite K1. rewrite <- (app_nil_r (t_acts t)) in A6. apply WO in A6. apply promise_end in A6.
    destruct (turn_ok (t_mem t) (t_mem2 t) (t_mem3 t) (t_ready t) s2 (proj1 (WO [])) K1) as [(E & [Z|Z])|(E & R)]; [contradiction|congruence|].
    rewrite E. exists (before ++ [t]), [], (wait_turn (t_mem t) (t_mem2 t) (t_mem3 t) (t_ready t) s2). rewrite app_nil_r. split; auto. split; [destruct before; discriminate|]. split; auto. split; auto. eapply ended_eq; [|exact R]. congruence.
  - exists l1, (l2 ++ [t]), s'. split; [rewrite A1, app_assoc; auto|]. split; auto. rewrite <- app_assoc. auto.
Qed.
End Live.

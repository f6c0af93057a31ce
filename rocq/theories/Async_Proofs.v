From Verif Require Import Base Async_Model Async_Spec.
Require Import Permutation ZArith.
Open Scope nat_scope.

Definition pend (s : st) : list nat := queued s ++ in_workers s ++ finished s.
Definition sub (a b : list nat) : Prop := exists rest, Permutation b (a ++ rest).
Lemma sub_refl a : sub a a.
Proof. exists []. rewrite app_nil_r. auto. Qed.
Lemma sub_trans a b c : sub a b -> sub b c -> sub a c.
Proof.
  intros [r1 H1] [r2 H2]. exists (r1 ++ r2). eapply perm_trans; [exact H2|]. rewrite app_assoc. apply Permutation_app_tail. auto.
Qed.
Lemma sub_perm a b : Permutation a b -> sub a b.
Proof. intros H. exists []. rewrite app_nil_r. apply Permutation_sym. auto. Qed.
Lemma sub_NoDup a b : sub a b -> NoDup b -> NoDup a.
Proof.
  intros [r H] N. apply (Permutation_NoDup H) in N. clear H. induction a as [|x a IH]; [constructor|].
  simpl in N. apply NoDup_cons_iff in N as [N1 N2]. constructor; auto. intros K. apply N1, in_or_app; auto.
Qed.
Lemma sub_incl a b : sub a b -> incl a b.
Proof. intros [r H] x Hx. eapply Permutation_in; [apply Permutation_sym, H|apply in_or_app; auto]. Qed.
Lemma sub_app a b c d : sub a b -> sub c d -> sub (a ++ c) (b ++ d).
Proof.
  intros [r1 H1] [r2 H2]. exists (r1 ++ r2). eapply perm_trans; [apply Permutation_app; eauto|].
  rewrite <- !app_assoc. apply Permutation_app_head. rewrite !app_assoc. apply Permutation_app_tail.
  apply Permutation_app_comm.
Qed.
Lemma sub_filter f l : sub (flat_map held_by (filter f l)) (flat_map held_by l).
Proof.
  induction l as [|w l [r IH]]; simpl; [apply sub_refl|]. destruct (f w); simpl.
  - exists r. rewrite <- app_assoc. apply Permutation_app_head. auto.
  - exists (held_by w ++ r). eapply perm_trans; [apply Permutation_app_head, IH|]. rewrite !app_assoc. apply Permutation_app_tail.
    apply Permutation_app_comm.
Qed.

(** * The pool *)
Definition pids (s : st) : list nat := map w_pid (a_live s).
Record pool (s : st) : Prop := {
  p_pos : 0 < a_pid s;
  p_procs : forall p, In p (a_procs s) -> 0 < p < a_pid s;
  p_nodup : NoDup (a_procs s);
  p_live : incl (pids s) (a_procs s);
  p_lnodup : NoDup (pids s);
  p_out : a_entered s = false \/ a_closed s = true -> a_procs s = [];
  p_size : a_entered s = true -> a_closed s = false -> 1 <= a_n s -> 1 <= length (a_procs s);
  p_max : length (a_procs s) <= a_n s }.

Lemma NoDup_snoc {A} (l : list A) x : NoDup l -> ~ In x l -> NoDup (l ++ [x]).
Proof. intros H1 H2. eapply Permutation_NoDup; [apply Permutation_cons_append|]. constructor; auto. Qed.
Lemma filter_len {A} f (l : list A) : length (filter f l) <= length l.
Proof. induction l; simpl; auto. destruct (f a); simpl; lia. Qed.
Lemma filter_pid_len l p : NoDup l -> In p l -> length (filter (fun q => negb (q =? p)) l) = length l - 1.
Proof.
  induction l as [|x l IH]; intros N I; [destruct I|]. apply NoDup_cons_iff in N as [N1 N2]. simpl.
  destruct (Nat.eqb_spec x p) as [->|Nx]; simpl.
  - rewrite Nat.sub_0_r. clear IH I. induction l as [|y l IH]; auto. simpl.
    destruct (Nat.eqb_spec y p) as [->|]; [exfalso; apply N1; simpl; auto|]. simpl. f_equal. apply IH.
    + intros K. apply N1; simpl; auto.
    + apply NoDup_cons_iff in N2. tauto.
  - destruct I as [->|I]; [congruence|]. rewrite IH by auto. destruct l; [destruct I|simpl; lia].
Qed.

Lemma start_fields s : let s' := start_worker s in
  a_procs s' = a_procs s ++ [a_pid s] /\ a_live s' = a_live s ++ [mkWorker (a_pid s) (a_defaults s) None []] /\ a_pid s' = S (a_pid s).
Proof. auto. Qed.

(** States that differ from [s] in the pool only. *)
Definition same_frame (s s' : st) : Prop :=
  exists procs live size v b pid, s' = set_pool procs live size v b pid s.
Lemma frame_refl s : same_frame s s.
Proof. exists (a_procs s), (a_live s), (a_size s), (a_viol s), (a_behaved s), (a_pid s). destruct s; auto. Qed.
Lemma frame_trans s1 s2 s3 : same_frame s1 s2 -> same_frame s2 s3 -> same_frame s1 s3.
Proof. intros (a & b & c & d & e & f & ->) (a' & b' & c' & d' & e' & f' & ->). exists a', b', c', d', e', f'. auto. Qed.

(** One process is replaced by a new one. *)
Definition replaced (p : nat) (s : st) : st :=
  start_worker (set_pool (filter (fun q => negb (q =? p)) (a_procs s)) (a_live s) (a_size s) (a_viol s) (a_behaved s) (a_pid s) s).
Lemma held_new p d : held_by (mkWorker p d None []) = [].
Proof. auto. Qed.

(** What [memory] does: some ended processes are replaced. *)
Inductive repl : st -> st -> Prop :=
| repl_refl s : repl s s
| repl_step s s' p : In p (a_procs s) -> alive p s = false -> repl (replaced p s) s' -> repl s s'.
Lemma repl_trans s1 s2 s3 : repl s1 s2 -> repl s2 s3 -> repl s1 s3.
Proof. induction 1; auto. intros. econstructor; eauto. Qed.

Lemma memory_repl mem : forall ps s l s', (forall p, In p ps -> p = 0 \/ In p (a_procs s)) -> NoDup ps -> memory mem ps s = (l, s') ->
  repl s s' /\ (forall p, In p (map fst l) -> In p ps).
Proof.
  induction ps as [|p ps IH]; intros s l s' HP ND E; simpl in E.
  - inversion E; subst. split; [constructor|auto].
  - apply NoDup_cons_iff in ND as [ND1 ND2].
    destruct (mem p) as [m|] eqn:Em; [|destruct (alive p s) eqn:EA].
    + destruct (memory mem ps s) as [l1 s1] eqn:E1. inversion E; subst.
      destruct (IH s l1 s' ) as [A B]; auto. { intros q Hq. apply HP; simpl; auto. }
      split; auto. simpl. intros q [<-|Hq]; auto.
    + destruct (memory mem ps s) as [l1 s1] eqn:E1. inversion E; subst.
      destruct (IH s l1 s' ) as [A B]; auto. { intros q Hq. apply HP; simpl; auto. }
      split; auto. simpl. intros q [<-|Hq]; auto.
    + assert (P0 : p <> 0) by (intros ->; discriminate).
      destruct (HP p) as [?|HPp]; [simpl; auto|congruence|].
      destruct (IH (replaced p s) l s') as [A B]; auto.
      { intros q Hq. destruct (HP q) as [?|H]; [simpl; auto|auto|]. right. cbn. apply in_or_app. left. apply filter_In. split; auto.
        destruct (Nat.eqb_spec q p) as [->|]; [tauto|auto]. }
      split; [eapply repl_step; eauto|]. intros q Hq. simpl. right. auto.
Qed.

Lemma repl_frame s s' : repl s s' -> same_frame s s'.
Proof. induction 1; [apply frame_refl|]. eapply frame_trans; [|exact IHrepl]. eexists _, _, _, _, _, _. reflexivity. Qed.
Lemma repl_pend s s' : repl s s' -> pend s' = pend s.
Proof.
  induction 1; auto. rewrite IHrepl. unfold pend, in_workers, queued, finished. cbn. rewrite flat_map_app. simpl. rewrite app_nil_r. auto.
Qed.
Lemma alive_iff p s : p <> 0 -> alive p s = true <-> In p (pids s).
Proof.
  intros N. unfold alive. destruct (Nat.eqb_spec p 0); [congruence|]. simpl. rewrite existsb_exists. unfold pids. rewrite in_map_iff. split.
  - intros (w & A & B). apply Nat.eqb_eq in B. eauto.
  - intros (w & A & B). exists w. split; auto. apply Nat.eqb_eq; auto.
Qed.
Lemma pool_replaced p s : pool s -> In p (a_procs s) -> alive p s = false -> pool (replaced p s) /\ length (a_procs (replaced p s)) = length (a_procs s).
Proof.
  intros [V1 V2 V3 V4 V5 V6 V7 V8] Hp HA.
  assert (LEN : length (a_procs (replaced p s)) = length (a_procs s)).
  { cbn. rewrite app_length, filter_pid_len by auto. simpl. destruct (a_procs s); [destruct Hp|simpl; lia]. }
  assert (NL : ~ In p (pids s)).
  { intros K. apply (alive_iff p s) in K; [congruence|]. specialize (V2 p Hp). lia. }
  split; auto. split.
  - cbn. lia.
  - cbn. intros q Hq. apply in_app_or in Hq as [Hq|[<-|[]]]; [|lia]. apply filter_In in Hq as [Hq _]. specialize (V2 q Hq). lia.
  - cbn. apply NoDup_snoc; [apply NoDup_filter; auto|]. intros K. apply filter_In in K as [K _]. specialize (V2 _ K). lia.
  - unfold pids. cbn. rewrite map_app. simpl. intros q Hq. apply in_app_or in Hq as [Hq|[<-|[]]]; apply in_or_app; simpl; auto.
    left. apply filter_In. split; [apply V4; auto|]. destruct (Nat.eqb_spec q p) as [->|]; auto.
  - unfold pids. cbn. rewrite map_app. simpl. apply NoDup_snoc; auto. intros K. apply V4, V2 in K. lia.
  - cbn. intros H. rewrite (V6 H) in Hp. destruct Hp.
  - intros A B C. rewrite LEN. apply V7; auto.
  - rewrite LEN. auto.
Qed.
Lemma repl_pool s s' : repl s s' -> pool s -> pool s' /\ length (a_procs s') = length (a_procs s).
Proof.
  induction 1; auto. intros P. destruct (pool_replaced p s P H H0) as [P1 L1]. destruct (IHrepl P1) as [P2 L2]. split; auto. congruence.
Qed.
(** Nothing happens when all processes live. *)
Lemma repl_alive s s' : repl s s' -> pool s -> incl (a_procs s) (pids s) -> s' = s.
Proof.
  intros H P A. destruct H; auto. exfalso. apply A in H. apply alive_iff in H; [congruence|].
  destruct P as [_ V2 _ V4 _ _ _ _]. apply V4, V2 in H. lia.
Qed.
Definition defaults_in (P : kwargs -> Prop) (s : st) : Prop := P (a_defaults s) /\ Forall (fun w => P (w_defaults w)) (a_live s).
Lemma repl_defaults Q s s' : repl s s' -> defaults_in Q s -> defaults_in Q s'.
Proof.
  induction 1; auto. intros [A B]. apply IHrepl. split; [exact A|]. cbn. apply Forall_app. split; auto.
Qed.

Lemma log_repl mem s : pool s -> repl s (log_memory mem s).
Proof.
  intros P. unfold log_memory. destruct (a_log s); [|constructor].
  destruct (memory mem (0 :: a_procs s) s) as [l s'] eqn:E. simpl.
  apply memory_repl in E; [apply E| |].
  - intros p [<-|Hp]; auto.
  - constructor; [|apply P]. intros K. apply P in K. lia.
Qed.

(** * Memory control: replacements, then possibly one worker is stopped. *)
Definition stopped (p : nat) (s : st) : st :=
  set_pool (filter (fun q => negb (q =? p)) (a_procs s)) (filter (fun w => negb (w_pid w =? p)) (a_live s))
              (a_size s - 1)%Z (a_viol s) (a_behaved s) (a_pid s) s.
Lemma max_by_in l x : max_by l = Some x -> In x l.
Proof.
  revert x. induction l as [|y l IH]; simpl; intros x H; [discriminate|].
  destruct (max_by l) as [z|]; [destruct (snd y <? snd z)|]; inversion H; subst; auto.
Qed.
Inductive controlled (s : st) : res unit -> st -> Prop :=
| c_none s' : repl s s' -> controlled s (Ok tt) s'
| c_error s' v b : repl s s' -> controlled s (Err ValueError) (set_pool (a_procs s') (a_live s') (a_size s') v b (a_pid s') s')
| c_restart s' p v b : repl s s' -> In p (a_procs s') ->
    controlled s (Ok tt) (start_worker (stopped p (set_pool (a_procs s') (a_live s') (a_size s') v b (a_pid s') s')))
| c_stop s' p v b : repl s s' -> In p (a_procs s') -> length (a_procs s') <> 1 ->
    controlled s (Ok tt) (stopped p (set_pool (a_procs s') (a_live s') (a_size s') v b (a_pid s') s'))
| c_lost s' p v b : repl s s' -> ~ In p (a_procs s') ->
    controlled s (Err ValueError) (set_pool (a_procs s') (filter (fun w => negb (w_pid w =? p)) (a_live s')) (a_size s' - 1)%Z v b (a_pid s') s').
Lemma control_ok mem mem2 s x s' : pool s -> control mem mem2 s = (x, s') -> controlled s x s'.
Proof.
  intros P E. unfold control in E. destruct (a_limit s) as [limit|]; [|inversion E; subst; repeat constructor].
  destruct (memory mem (0 :: a_procs s) s) as [usage s1] eqn:EM.
  apply memory_repl in EM.
  2:{ intros p [<-|Hp]; auto. }
  2:{ constructor; [|apply P]. intros K. apply P in K. lia. }
  destruct EM as [R1 U]. destruct (repl_pool _ _ R1 P) as [P1 L1].
  destruct (limit <? total usage); [|inversion E; subst; repeat constructor; auto].
  pose proof (log_repl mem2 s1 P1) as R2. set (s2 := log_memory mem2 s1) in *.
  assert (R : repl s s2) by (eapply repl_trans; eauto).
  set (s3 := set_pool (a_procs s2) (a_live s2) (a_size s2) (S (a_viol s2)) (a_behaved s2) (a_pid s2) s2) in *.
  destruct (max_by (tl usage)) as [[p m]|] eqn:EX.
  2:{ inversion E; subst. apply c_error; auto. }
  assert (EXI : forall t, existsb (Nat.eqb p) (a_procs t) = true <-> In p (a_procs t)).
  { intros t. rewrite existsb_exists. split; [intros (q & A & B); apply Nat.eqb_eq in B; subst; auto|].
    intros K. exists p. split; auto. apply Nat.eqb_refl. }
  unfold stop_worker in E.
  destruct ((20 * a_viol s3 <? a_viol s3 + a_behaved s3) || (length (a_procs s3) =? 1)) eqn:EC.
  - destruct (existsb (Nat.eqb p) (a_procs s3)) eqn:EE.
    + apply EXI in EE. inversion E; subst. apply (c_restart s s2 p); auto.
    + inversion E; subst. apply (c_lost s s2 p); auto. intros K. apply (EXI s3) in K. congruence.
  - apply orb_false_iff in EC as [_ EC]. apply Nat.eqb_neq in EC.
    cbn [set_pool a_procs] in E. cbn [set_pool a_procs s3] in EC. change (a_procs s3) with (a_procs s2) in E. destruct (existsb (Nat.eqb p) (a_procs s2)) eqn:EE.
    + apply EXI in EE. inversion E; subst. apply (c_stop s s2 p); auto.
    + inversion E; subst. apply (c_lost s s2 p); auto. intros K. apply (EXI s2) in K. congruence.
Qed.

Lemma pool_set v b z s : pool s -> pool (set_pool (a_procs s) (a_live s) z v b (a_pid s) s).
Proof. intros [V1 V2 V3 V4 V5 V6 V7 V8]. split; auto. Qed.
Lemma live_filter_incl f s : incl (map w_pid (filter f (a_live s))) (pids s).
Proof. intros q Hq. apply in_map_iff in Hq as (w & <- & Hw). apply filter_In in Hw as [Hw _]. apply in_map. auto. Qed.
Lemma NoDup_map_filter f (l : list worker) : NoDup (map w_pid l) -> NoDup (map w_pid (filter f l)).
Proof.
  induction l as [|w l IH]; simpl; auto. intros N. apply NoDup_cons_iff in N as [N1 N2]. destruct (f w); simpl; auto.
  constructor; auto. intros K. apply N1. apply in_map_iff in K as (w' & E & K). apply filter_In in K as [K _]. rewrite <- E. apply in_map; auto.
Qed.
Lemma pool_stopped p s : pool s -> In p (a_procs s) -> length (a_procs s) <> 1 -> pool (stopped p s).
Proof.
  intros [V1 V2 V3 V4 V5 V6 V7 V8] Hp HN. split; cbn; auto.
  - intros q Hq. apply filter_In in Hq as [Hq _]. auto.
  - apply NoDup_filter; auto.
  - intros q Hq. apply in_map_iff in Hq as (w & <- & Hw). apply filter_In in Hw as [Hw1 Hw2].
    apply filter_In. split; auto. apply V4, in_map; auto.
  - apply NoDup_map_filter; auto.
  - intros H. rewrite (V6 H). auto.
  - intros A B C. rewrite filter_pid_len by auto. specialize (V7 A B C). lia.
  - rewrite filter_pid_len by auto. lia.
Qed.
Lemma pool_restarted p s : pool s -> In p (a_procs s) -> pool (start_worker (stopped p s)).
Proof.
  intros [V1 V2 V3 V4 V5 V6 V7 V8] Hp.
  assert (LEN : length (a_procs (start_worker (stopped p s))) = length (a_procs s)).
  { cbn. rewrite app_length, filter_pid_len by auto. simpl. destruct (a_procs s); [destruct Hp|simpl; lia]. }
  split.
  - cbn. lia.
  - cbn. intros q Hq. apply in_app_or in Hq as [Hq|[<-|[]]]; [|lia]. apply filter_In in Hq as [Hq _]. specialize (V2 q Hq). lia.
  - cbn. apply NoDup_snoc; [apply NoDup_filter; auto|]. intros K. apply filter_In in K as [K _]. specialize (V2 _ K). lia.
  - unfold pids. cbn. rewrite map_app. simpl. intros q Hq. apply in_app_or in Hq as [Hq|[<-|[]]]; apply in_or_app; simpl; auto.
    left. apply in_map_iff in Hq as (w & <- & Hw). apply filter_In in Hw as [Hw1 Hw2]. apply filter_In. split; auto. apply V4, in_map; auto.
  - unfold pids. cbn. rewrite map_app. simpl. apply NoDup_snoc; [apply NoDup_map_filter; auto|]. intros K. apply (live_filter_incl _ s) in K. apply V4, V2 in K. lia.
  - cbn. intros H. rewrite (V6 H) in Hp. destruct Hp.
  - intros A B C. rewrite LEN. apply V7; auto.
  - rewrite LEN. auto.
Qed.
Lemma controlled_pool s x s' : controlled s x s' -> pool s -> pool s'.
Proof.
  intros C P. destruct C as [s' R|s' v b R|s' p v b R H|s' p v b R H N|s' p v b R H];
    destruct (repl_pool _ _ R P) as [P1 L1]; auto.
  - apply pool_set; auto.
  - apply pool_restarted; auto. apply pool_set; auto.
  - apply pool_stopped; auto. apply pool_set; auto.
  - destruct P1 as [V1 V2 V3 V4 V5 V6 V7 V8]. split; cbn; auto.
    + eapply incl_tran; [apply live_filter_incl|auto].
    + apply NoDup_map_filter; auto.
Qed.
Lemma controlled_frame s x s' : controlled s x s' -> same_frame s s'.
Proof.
  intros C. destruct C as [s' R|s' v b R|s' p v b R H|s' p v b R H N|s' p v b R H];
    apply repl_frame in R; auto; (eapply frame_trans; [exact R|]; eexists _, _, _, _, _, _; reflexivity).
Qed.
Lemma controlled_pend s x s' : controlled s x s' -> sub (pend s') (pend s).
Proof.
  intros C. destruct C as [s' R|s' v b R|s' p v b R H|s' p v b R H N|s' p v b R H]; apply repl_pend in R; rewrite <- R.
  - apply sub_refl.
  - apply sub_refl.
  - unfold pend, in_workers, queued, finished. cbn. rewrite flat_map_app. simpl. rewrite app_nil_r.
    apply sub_app; [apply sub_refl|]. apply sub_app; [|apply sub_refl]. apply sub_filter.
  - unfold pend, in_workers, queued, finished. cbn.
    apply sub_app; [apply sub_refl|]. apply sub_app; [|apply sub_refl]. apply sub_filter.
  - unfold pend, in_workers, queued, finished. cbn.
    apply sub_app; [apply sub_refl|]. apply sub_app; [|apply sub_refl]. apply sub_filter.
Qed.
Lemma Forall_filter {A} (P : A -> Prop) f l : Forall P l -> Forall P (filter f l).
Proof. intros H. apply Forall_forall. intros x Hx. apply filter_In in Hx as [Hx _]. rewrite Forall_forall in H. auto. Qed.
Lemma controlled_defaults Q s x s' : controlled s x s' -> defaults_in Q s -> defaults_in Q s'.
Proof.
  intros C D. destruct C as [s' R|s' v b R|s' p v b R H|s' p v b R H N|s' p v b R H];
    apply (repl_defaults Q) in R; auto; destruct R as [A B]; (split; [exact A|]); cbn; auto.
  - apply Forall_app. split; [apply Forall_filter; auto|auto].
  - apply Forall_filter; auto.
  - apply Forall_filter; auto.
Qed.

(** * Workers *)
Lemma on_worker_split p l w : find_worker p l = Some w -> NoDup (map w_pid l) ->
  exists l1 l2, l = l1 ++ w :: l2 /\ w_pid w = p /\
    forall f, on_worker p f l = l1 ++ (match f w with Some w' => [w'] | None => [] end) ++ l2.
Proof.
  unfold find_worker. induction l as [|x l IH]; simpl; intros E N; [discriminate|]. apply NoDup_cons_iff in N as [N1 N2].
  destruct (Nat.eqb_spec (w_pid x) p) as [Ep|Np].
  - inversion E; subst. exists [], l. split; auto. split; auto. intros f. simpl. f_equal.
    clear IH E. induction l as [|y l IH]; simpl; auto. destruct (Nat.eqb_spec (w_pid y) (w_pid w)) as [K|]; [exfalso; apply N1; simpl; auto|].
    simpl. f_equal. apply IH; [intros K; apply N1; simpl; auto|apply NoDup_cons_iff in N2; tauto].
  - destruct (IH E N2) as (l1 & l2 & -> & Ew & F). exists (x :: l1), l2. split; auto. split; auto. intros f. rewrite F. auto.
Qed.
Lemma on_worker_none p f l : find_worker p l = None -> on_worker p f l = l.
Proof.
  unfold find_worker. induction l as [|x l IH]; simpl; intros E; auto. destruct (w_pid x =? p); [discriminate|]. simpl. f_equal. auto.
Qed.

From Verif Require Import Base Async_Model Async_Spec Async_Proofs.
Require Import Permutation ZArith.
Open Scope nat_scope.

Section Inv.
Context (call : nat -> list nat -> kwargs -> nat -> outcome) (Q : kwargs -> Prop).
Notation stp := (step call).

Definition origin (s : st) (x : nat * outcome) : Prop :=
  exists j d c, In (fst x, j) (a_submitted s) /\ Q d /\ deliver (execute call j d c) = Some (snd x).
Record inv (s : st) : Prop := {
  i_pool : pool s;
  i_ids : submitted s = seq 0 (length (a_submitted s));
  i_perm : Permutation (map fst (a_futures s) ++ returned s) (submitted s);
  i_fut : incl (a_futures s) (a_submitted s);
  i_nodup : NoDup (pend s);
  i_pend : incl (pend s) (map fst (a_futures s));
  i_input : incl (a_input s) (a_submitted s);
  i_run : forall w x, In w (a_live s) -> w_run w = Some x -> In x (a_submitted s);
  i_def : defaults_in Q s;
  i_wout : forall w x, In w (a_live s) -> In x (w_out w) -> origin s x;
  i_out : Forall (origin s) (a_output s);
  i_ret : Forall (origin s) (a_returned s);
  i_key : ~ In KeyError (a_raised s) }.

Lemma inv_new n limit log d : Q d -> inv (new_evaluator n limit log d).
Proof.
  intros HQ. split; simpl; auto; try (intros; tauto); try constructor; simpl; auto; try lia; try (intros; tauto); try constructor; try discriminate;
    try (intros x []).
Qed.

(** Changing the pool, keeping or dropping workers and adding idle ones. *)
Lemma origin_frame s s' x : a_submitted s' = a_submitted s -> origin s x -> origin s' x.
Proof. intros E (j & d & c & A & B & C). exists j, d, c. rewrite E. auto. Qed.
Lemma inv_frame s s' : inv s -> same_frame s s' -> pool s' -> sub (pend s') (pend s) ->
  (forall w, In w (a_live s') -> In w (a_live s) \/ (w_run w = None /\ w_out w = [])) -> defaults_in Q s' -> inv s'.
Proof.
  intros [V1 V2 V3 V4 V5 V6 V7 V8 V9 V10 V11 V12 V13] (pr & lv & sz & v & b & pid & ->) P S W D. split; auto.
  - eapply sub_NoDup; eauto.
  - eapply incl_tran; [apply sub_incl; eauto|auto].
  - intros w x Hw Hx. destruct (W w Hw) as [Hw'|[A B]]; [eapply V8; eauto|congruence].
  - intros w x Hw Hx. destruct (W w Hw) as [Hw'|[A B]]; [|rewrite B in Hx; destruct Hx].
    eapply origin_frame; [|eapply V10; eauto]. auto.
Qed.
Lemma repl_live s s' : repl s s' -> forall w, In w (a_live s') -> In w (a_live s) \/ (w_run w = None /\ w_out w = []).
Proof.
  induction 1; auto. intros w Hw. destruct (IHrepl w Hw) as [K|K]; auto. cbn in K. apply in_app_or in K as [K|[<-|[]]]; auto.
Qed.
Lemma controlled_live s x s' : controlled s x s' -> forall w, In w (a_live s') -> In w (a_live s) \/ (w_run w = None /\ w_out w = []).
Proof.
  intros C w Hw. destruct C as [s' R|s' v b R|s' p v b R H|s' p v b R H N|s' p v b R H]; cbn in Hw.
  - eapply repl_live; eauto.
  - eapply repl_live; eauto.
  - apply in_app_or in Hw as [Hw|[<-|[]]]; auto. apply filter_In in Hw as [Hw _]. eapply repl_live; eauto.
  - apply filter_In in Hw as [Hw _]. eapply repl_live; eauto.
  - apply filter_In in Hw as [Hw _]. eapply repl_live; eauto.
Qed.
Lemma inv_repl s s' : inv s -> repl s s' -> inv s'.
Proof.
  intros I R. apply (inv_frame s); auto.
  - apply repl_frame; auto.
  - eapply repl_pool; eauto. apply I.
  - rewrite (repl_pend _ _ R). apply sub_refl.
  - apply repl_live; auto.
  - eapply repl_defaults; eauto. apply I.
Qed.
Lemma inv_controlled s x s' : inv s -> controlled s x s' -> inv s'.
Proof.
  intros I C. apply (inv_frame s); auto.
  - eapply controlled_frame; eauto.
  - eapply controlled_pool; eauto. apply I.
  - eapply controlled_pend; eauto.
  - eapply controlled_live; eauto.
  - eapply controlled_defaults; eauto. apply I.
Qed.
Lemma inv_raise s e : e <> KeyError -> inv s -> inv (raise e s).
Proof.
  intros N [V1 V2 V3 V4 V5 V6 V7 V8 V9 V10 V11 V12 V13]. destruct V1 as [W1 W2 W3 W4 W5 W6 W7 W8]. split; auto; try (split; auto; fail).
  cbn. intros K. apply in_app_or in K as [K|[K|[]]]; auto.
Qed.
Lemma inv_waiting s b : inv s -> inv (set_waiting b s).
Proof. intros [V1 V2 V3 V4 V5 V6 V7 V8 V9 V10 V11 V12 V13]. destruct V1 as [W1 W2 W3 W4 W5 W6 W7 W8]. split; auto. split; auto. Qed.

(** starting the workers *)
Record opened (s : st) (k : nat) : Prop := {
  o_pos : 0 < a_pid s;
  o_procs : forall p, In p (a_procs s) -> 0 < p < a_pid s;
  o_nodup : NoDup (a_procs s);
  o_live : pids s = a_procs s;
  o_len : length (a_procs s) = k;
  o_idle : forall w, In w (a_live s) -> w_run w = None /\ w_out w = [];
  o_def : defaults_in Q s }.
Lemma opened_start s k : opened s k -> opened (start_worker s) (S k).
Proof.
  intros [V1 V2 V3 V4 V5 V6 V7]. split; cbn.
  - lia.
  - intros p Hp. apply in_app_or in Hp as [Hp|[<-|[]]]; [specialize (V2 p Hp)|]; lia.
  - apply NoDup_snoc; auto. intros K. apply V2 in K. lia.
  - unfold pids in *. cbn. rewrite map_app, V4. auto.
  - rewrite app_length. simpl. lia.
  - intros w Hw. apply in_app_or in Hw as [Hw|[<-|[]]]; auto.
  - destruct V7 as [A B]. split; [exact A|]. cbn. apply Forall_app. auto.
Qed.
Lemma iter_opened k : forall s j, opened s j -> opened (Nat.iter k start_worker s) (k + j) /\ same_frame s (Nat.iter k start_worker s) /\ a_size (Nat.iter k start_worker s) = a_size s.
Proof.
  induction k as [|k IH]; intros s j O; simpl.
  - split; auto. split; auto. apply frame_refl.
  - destruct (IH s j O) as (A & B & C). split; [apply opened_start; auto|]. split; auto. eapply frame_trans; [exact B|]. eexists _, _, _, _, _, _. reflexivity.
Qed.
Lemma idle_held l : (forall w, In w l -> w_run w = None /\ w_out w = []) -> flat_map held_by l = [].
Proof.
  induction l as [|w l IH]; simpl; auto. intros H. destruct (H w) as [A B]; auto. unfold held_by. rewrite A, B. simpl. auto.
Qed.

Lemma find_id_in id l j : find_id id l = Some j -> In (id, j) l.
Proof.
  induction l as [|[i k] l IH]; simpl; [discriminate|]. destruct (Nat.eqb_spec i id) as [->|]; auto. intros H; inversion H; subst; auto.
Qed.
Lemma find_id_none id l : find_id id l = None -> ~ In id (map fst l).
Proof.
  induction l as [|[i k] l IH]; simpl; auto. destruct (Nat.eqb_spec i id) as [->|N]; [discriminate|]. intros H [K|K]; auto. apply IH; auto.
Qed.
Lemma remove_id id (l : list (nat * job)) : NoDup (map fst l) -> In id (map fst l) ->
  Permutation (map fst l) (id :: map fst (filter (fun x => negb (fst x =? id)) l)).
Proof.
  induction l as [|[i j] l IH]; simpl; intros N I; [destruct I|]. apply NoDup_cons_iff in N as [N1 N2].
  destruct (Nat.eqb_spec i id) as [->|Ni]; simpl.
  - constructor. clear IH I. induction l as [|[i' j'] l IH]; simpl; auto. simpl in N1.
    destruct (Nat.eqb_spec i' id) as [->|]; [tauto|]. simpl. constructor. apply IH; [tauto|]. apply NoDup_cons_iff in N2. tauto.
  - destruct I as [I|I]; [congruence|]. eapply perm_trans; [apply perm_skip, IH; auto|]. apply perm_swap.
Qed.
Lemma futures_nodup s : inv s -> NoDup (map fst (a_futures s)).
Proof.
  intros I. pose proof (i_perm _ I) as P. rewrite (i_ids _ I) in P.
  assert (N : NoDup (map fst (a_futures s) ++ returned s)) by (eapply Permutation_NoDup; [apply Permutation_sym, P|apply seq_NoDup]).
  eapply sub_NoDup; [|exact N]. exists (returned s). auto.
Qed.

(** One turn of wait_next after the memory was dealt with. *)
Lemma inv_collect s id o out : inv s -> a_output s = (id, o) :: out ->
  (exists j, find_id id (a_futures s) = Some j) /\
  inv (mkSt (a_n s) (a_limit s) (a_log s) (a_entered s) (a_closed s) false
            (filter (fun x => negb (fst x =? id)) (a_futures s)) (a_procs s) (a_live s)
            (a_input s) out (a_size s - 1)%Z (a_viol s) (S (a_behaved s)) (a_defaults s) (a_pid s)
            (a_submitted s) (a_returned s ++ [(id, o)]) (a_raised s)).
Proof.
  intros I E. pose proof (futures_nodup _ I) as FN. destruct I as [V1 V2 V3 V4 V5 V6 V7 V8 V9 V10 V11 V12 V13].
  assert (PE : Permutation (pend s) (id :: queued s ++ in_workers s ++ map fst out)).
  { unfold pend, finished. rewrite E. simpl. rewrite !app_assoc. apply Permutation_sym, Permutation_middle. }
  assert (HI : In id (map fst (a_futures s))) by (apply V6; eapply Permutation_in; [apply Permutation_sym, PE|simpl; auto]).
  split.
  { destruct (find_id id (a_futures s)) as [j|] eqn:F; eauto. apply find_id_none in F. tauto. }
  pose proof (remove_id id _ FN HI) as RP.
  pose proof (Permutation_NoDup PE V5) as ND. apply NoDup_cons_iff in ND as [ND1 ND2].
  rewrite E in V11. inversion V11 as [|? ? O1 O2]; subst.
  destruct V1 as [W1 W2 W3 W4 W5 W6 W7 W8].
  split; auto.
  - split; auto.
  - unfold returned. cbn. rewrite map_app. simpl. eapply perm_trans; [|exact V3]. unfold returned.
    eapply perm_trans; [|apply Permutation_app_tail, Permutation_sym, RP]. simpl.
    rewrite app_assoc. apply Permutation_sym, Permutation_cons_append.
  - cbn. intros x Hx. apply filter_In in Hx as [Hx _]. auto.
  - intros x Hx. change (In x (queued s ++ in_workers s ++ map fst out)) in Hx. cbn.
    assert (Hxf : In x (map fst (a_futures s))) by (apply V6; eapply Permutation_in; [apply Permutation_sym, PE|simpl; auto]).
    apply (Permutation_in _ RP) in Hxf. destruct Hxf as [<-|Hxf]; [tauto|auto].
  - cbn. apply Forall_app. split; auto.
Qed.

Lemma wait_turn_cases mem mem2 mem3 ready s : inv s -> exists x s1,
  controlled s x s1 /\
  match x with
  | Err e => wait_turn mem mem2 mem3 ready s = raise e s1 /\ e <> KeyError
  | Ok _ =>
    exists s2, repl s1 s2 /\ inv s2 /\
    (if a_closed s2 then wait_turn mem mem2 mem3 ready s = raise ValueError s2
     else match a_output s2, ready with
          | (id, o) :: out, true =>
            wait_turn mem mem2 mem3 ready s =
            mkSt (a_n s2) (a_limit s2) (a_log s2) (a_entered s2) (a_closed s2) false
            (filter (fun x => negb (fst x =? id)) (a_futures s2)) (a_procs s2) (a_live s2)
            (a_input s2) out (a_size s2 - 1)%Z (a_viol s2) (S (a_behaved s2)) (a_defaults s2) (a_pid s2)
            (a_submitted s2) (a_returned s2 ++ [(id, o)]) (a_raised s2)
          | _, _ => wait_turn mem mem2 mem3 ready s = s2
          end)
  end.
Proof.
  intros I. unfold wait_turn. destruct (control mem mem2 s) as [x s1] eqn:EC.
  assert (NK : forall e, x = Err e -> e <> KeyError).
  { intros e ->. unfold control in EC. destruct (a_limit s); [|discriminate]. destruct (memory _ _ _) as [us sa].
    destruct (_ <? _); [|discriminate]. destruct (max_by _) as [[p m]|].
    - destruct (_ || _); unfold stop_worker in EC; destruct (existsb _ _); inversion EC; subst; discriminate.
    - inversion EC; subst; discriminate. }
  pose proof (control_ok _ _ _ _ _ (i_pool _ I) EC) as C. exists x, s1. split; auto.
  destruct x as [[]|e]; [|auto]. pose proof (inv_controlled _ _ _ I C) as I1.
  pose proof (log_repl mem3 s1 (i_pool _ I1)) as R. exists (log_memory mem3 s1). split; auto.
  pose proof (inv_repl _ _ I1 R) as I2. split; auto.
  set (s2 := log_memory mem3 s1) in *. destruct (a_closed s2); auto.
  destruct (a_output s2) as [|[id o] out] eqn:EO; auto. destruct ready; auto.
  destruct (inv_collect _ _ _ _ I2 EO) as [[j F] _]. rewrite F. auto.
Qed.
Lemma inv_turn mem mem2 mem3 ready s : inv s -> inv (wait_turn mem mem2 mem3 ready s).
Proof.
  intros I. destruct (wait_turn_cases mem mem2 mem3 ready s I) as (x & s1 & C & H). destruct x as [[]|e].
  - destruct H as (s2 & R & I2 & H). destruct (a_closed s2) eqn:ECL; [rewrite H; apply inv_raise; auto; discriminate|].
    destruct (a_output s2) as [|[id o] out] eqn:EO; [rewrite H; auto|]. destruct ready; [|rewrite H; auto].
    rewrite H. destruct (inv_collect _ _ _ _ I2 EO) as [_ K]. rewrite ECL in K. exact K.
  - destruct H as [-> N]. apply inv_raise; auto. eapply inv_controlled; eauto.
Qed.

(** Steps of workers. *)
Lemma pids_change l1 (w w' : worker) l2 : w_pid w' = w_pid w -> map w_pid (l1 ++ [w'] ++ l2) = map w_pid (l1 ++ w :: l2).
Proof. intros E. rewrite !map_app. simpl. rewrite E. auto. Qed.
Lemma pool_queues inp out live s : pool s -> incl (map w_pid live) (pids s) -> NoDup (map w_pid live) -> pool (set_queues inp out live s).
Proof.
  intros [V1 V2 V3 V4 V5 V6 V7 V8] A B. split; auto. eapply incl_tran; [exact A|auto].
Qed.
Lemma inv_queues inp out live s : inv s -> incl (map w_pid live) (pids s) -> NoDup (map w_pid live) ->
  sub (map fst inp ++ flat_map held_by live ++ map fst out) (pend s) ->
  incl inp (a_submitted s) ->
  (forall w x, In w live -> w_run w = Some x -> In x (a_submitted s)) ->
  Forall (fun w => Q (w_defaults w)) live ->
  (forall w x, In w live -> In x (w_out w) -> origin s x) ->
  Forall (origin s) out -> inv (set_queues inp out live s).
Proof.
  intros [V1 V2 V3 V4 V5 V6 V7 V8 V9 V10 V11 V12 V13] A B C D E F G H. split; auto.
  - apply pool_queues; auto.
  - eapply sub_NoDup; eauto.
  - eapply incl_tran; [apply sub_incl; exact C|auto].
  - split; [apply V9|auto].
Qed.

Lemma inv_get p s : inv s -> inv (worker_get p s) /\ Permutation (pend (worker_get p s)) (pend s).
Proof.
  intros I. unfold worker_get. destruct (find_worker p (a_live s)) as [w|] eqn:F; [|auto].
  destruct (a_input s) as [|x inp] eqn:EI; [auto|]. destruct (w_run w) as [y|] eqn:ER; [auto|].
  destruct (on_worker_split p _ w F (p_lnodup _ (i_pool _ I))) as (l1 & l2 & EL & Ep & FW). rewrite FW. clear FW.
  set (w' := mkWorker (w_pid w) (w_defaults w) (Some x) (w_out w)).
  assert (PP : Permutation (map fst inp ++ flat_map held_by (l1 ++ [w'] ++ l2) ++ finished s) (pend s)).
  { unfold pend, queued, in_workers. rewrite EI, EL. rewrite !flat_map_app. simpl. unfold held_by at 2 4. rewrite ER. simpl.
    rewrite <- !app_assoc. simpl.
    eapply perm_trans; [|apply Permutation_sym, Permutation_cons_append]. 
    rewrite <- !app_assoc. apply Permutation_app_head.
    eapply perm_trans; [apply Permutation_sym, Permutation_middle|]. rewrite app_assoc. rewrite app_assoc.
    eapply perm_trans; [apply Permutation_cons_append|]. rewrite <- !app_assoc. auto. }
  split; [|exact PP].
  apply inv_queues; auto; try apply I.
  - rewrite (pids_change l1 w w' l2) by auto. rewrite <- EL. apply incl_refl.
  - rewrite (pids_change l1 w w' l2) by auto. rewrite <- EL. apply (p_lnodup _ (i_pool _ I)).
  - apply sub_perm. auto.
  - intros y Hy. apply (i_input _ I). rewrite EI. simpl; auto.
  - intros v y Hv Hy. apply in_app_or in Hv as [Hv|[<-|Hv]].
    + apply (i_run _ I v y); auto. rewrite EL. apply in_or_app; auto.
    + simpl in Hy. inversion Hy; subst. apply (i_input _ I). rewrite EI. simpl; auto.
    + apply (i_run _ I v y); auto. rewrite EL. apply in_or_app; simpl; auto.
  - destruct (i_def _ I) as [_ DF]. rewrite EL in DF. apply Forall_app in DF as [D1 D2]. inversion D2; subst.
    apply Forall_app. split; auto. constructor; auto.
  - intros v y Hv Hy. apply in_app_or in Hv as [Hv|[<-|Hv]].
    + apply (i_wout _ I v y); auto. rewrite EL. apply in_or_app; auto.
    + apply (i_wout _ I w); auto. rewrite EL. apply in_or_app; simpl; auto.
    + apply (i_wout _ I v y); auto. rewrite EL. apply in_or_app; simpl; auto.
Qed.

Lemma inv_flush p s : inv s -> inv (worker_flush p s) /\ Permutation (pend (worker_flush p s)) (pend s).
Proof.
  intros I. unfold worker_flush. destruct (find_worker p (a_live s)) as [w|] eqn:F; [|auto].
  destruct (w_out w) as [|x out] eqn:EO; [auto|].
  destruct (on_worker_split p _ w F (p_lnodup _ (i_pool _ I))) as (l1 & l2 & EL & Ep & FW). rewrite FW. clear FW.
  set (w' := mkWorker (w_pid w) (w_defaults w) (w_run w) out).
  assert (IW : In w (a_live s)) by (rewrite EL; apply in_or_app; simpl; auto).
  assert (PP : Permutation (queued s ++ flat_map held_by (l1 ++ [w'] ++ l2) ++ map fst (a_output s ++ [x])) (pend s)).
  { unfold pend, in_workers, finished. rewrite EL. rewrite !flat_map_app, map_app. simpl. apply Permutation_app_head.
    assert (HW : held_by w = (match w_run w with Some x => [fst x] | None => [] end) ++ fst x :: map fst out) by (unfold held_by; rewrite EO; auto).
    assert (HW' : held_by w' = (match w_run w with Some x => [fst x] | None => [] end) ++ map fst out) by auto.
    rewrite HW, HW'. rewrite <- !app_assoc. apply Permutation_app_head. apply Permutation_app_head. simpl.
    rewrite !app_assoc. apply Permutation_sym, Permutation_cons_append. }
  split; [|exact PP].
  apply inv_queues; auto; try apply I.
  - rewrite (pids_change l1 w w' l2) by auto. rewrite <- EL. apply incl_refl.
  - rewrite (pids_change l1 w w' l2) by auto. rewrite <- EL. apply (p_lnodup _ (i_pool _ I)).
  - apply sub_perm. auto.
  - intros v y Hv Hy. apply in_app_or in Hv as [Hv|[<-|Hv]].
    + apply (i_run _ I v y); auto. rewrite EL. apply in_or_app; auto.
    + apply (i_run _ I w y); auto.
    + apply (i_run _ I v y); auto. rewrite EL. apply in_or_app; simpl; auto.
  - destruct (i_def _ I) as [_ DF]. rewrite EL in DF. apply Forall_app in DF as [D1 D2]. inversion D2; subst.
    apply Forall_app. split; auto. constructor; auto.
  - intros v y Hv Hy. apply in_app_or in Hv as [Hv|[<-|Hv]].
    + apply (i_wout _ I v y); auto. rewrite EL. apply in_or_app; auto.
    + apply (i_wout _ I w); auto. rewrite EO. simpl; auto.
    + apply (i_wout _ I v y); auto. rewrite EL. apply in_or_app; simpl; auto.
  - apply Forall_app. split; [apply I|]. constructor; auto. apply (i_wout _ I w); auto. rewrite EO. simpl; auto.
Qed.

Lemma inv_drop l1 w l2 s : inv s -> a_live s = l1 ++ w :: l2 -> inv (set_queues (a_input s) (a_output s) (l1 ++ l2) s).
Proof.
  intros I EL.
  assert (IN : forall v, In v (l1 ++ l2) -> In v (a_live s)).
  { intros v Hv. rewrite EL. apply in_app_or in Hv as [Hv|Hv]; apply in_or_app; simpl; auto. }
  apply inv_queues; auto; try apply I.
  - intros q Hq. apply in_map_iff in Hq as (v & <- & Hv). apply in_map. auto.
  - pose proof (p_lnodup _ (i_pool _ I)) as N. unfold pids in N. rewrite EL, map_app in N. simpl in N. apply NoDup_remove_1 in N. rewrite map_app. auto.
  - apply sub_app; [apply sub_refl|]. apply sub_app; [|apply sub_refl]. unfold in_workers. rewrite EL, !flat_map_app. simpl.
    exists (held_by w). rewrite <- app_assoc. apply Permutation_app_head. apply Permutation_app_comm.
  - intros v y Hv. apply (i_run _ I). auto.
  - destruct (i_def _ I) as [_ DF]. rewrite Forall_forall in *. auto.
  - intros v y Hv. apply (i_wout _ I). auto.
Qed.
Lemma inv_exec p c s : inv s -> inv (worker_exec call p c s) /\
  (accepted call -> Permutation (pend (worker_exec call p c s)) (pend s)).
Proof.
  intros I. unfold worker_exec. destruct (find_worker p (a_live s)) as [w|] eqn:F; [|auto].
  destruct (w_run w) as [[id j]|] eqn:ER; [|auto].
  destruct (on_worker_split p _ w F (p_lnodup _ (i_pool _ I))) as (l1 & l2 & EL & Ep & FW). rewrite FW. clear FW.
  assert (IW : In w (a_live s)) by (rewrite EL; apply in_or_app; simpl; auto).
  destruct (deliver (execute call j (w_defaults w) c)) as [o|] eqn:ED.
  2:{ split.
      - eapply inv_drop; eauto.
      - intros A. exfalso. specialize (A (j_fn j) (j_args j) (kw_merge (j_kwargs j) (w_defaults w)) c).
        unfold execute in ED. destruct (call _ _ _ _) as [v|e|]; simpl in *; try discriminate; try tauto.
        destruct v as [n|n|n|n e|[|[n|n|n|n e|l'] l]]; simpl in *; try discriminate; try tauto; destruct e; discriminate. }
  set (w' := mkWorker (w_pid w) (w_defaults w) None (w_out w ++ [(id, o)])).
  assert (PP : Permutation (queued s ++ flat_map held_by (l1 ++ [w'] ++ l2) ++ finished s) (pend s)).
  { unfold pend, in_workers, finished. rewrite EL. rewrite !flat_map_app. simpl. apply Permutation_app_head. apply Permutation_app_tail.
    apply Permutation_app_head. apply Permutation_app_tail.
    unfold held_by. rewrite ER. simpl. rewrite map_app, ?app_nil_r. simpl. apply Permutation_sym, Permutation_cons_append. }
  split; [|intros _; exact PP].
  apply inv_queues; auto; try apply I.
  - rewrite (pids_change l1 w w' l2) by auto. rewrite <- EL. apply incl_refl.
  - rewrite (pids_change l1 w w' l2) by auto. rewrite <- EL. apply (p_lnodup _ (i_pool _ I)).
  - apply sub_perm. auto.
  - intros v y Hv Hy. apply in_app_or in Hv as [Hv|[<-|Hv]].
    + apply (i_run _ I v y); auto. rewrite EL. apply in_or_app; auto.
    + discriminate.
    + apply (i_run _ I v y); auto. rewrite EL. apply in_or_app; simpl; auto.
  - destruct (i_def _ I) as [_ DF]. rewrite EL in DF. apply Forall_app in DF as [D1 D2]. inversion D2; subst.
    apply Forall_app. split; auto. constructor; auto.
  - intros v y Hv Hy. apply in_app_or in Hv as [Hv|[<-|Hv]].
    + apply (i_wout _ I v y); auto. rewrite EL. apply in_or_app; auto.
    + simpl in Hy. apply in_app_or in Hy as [Hy|[<-|[]]]; [apply (i_wout _ I w); auto|].
      exists j, (w_defaults w), c. split; [apply (i_run _ I w); auto|]. split; auto.
      destruct (i_def _ I) as [_ DF]. rewrite Forall_forall in DF. auto.
    + apply (i_wout _ I v y); auto. rewrite EL. apply in_or_app; simpl; auto.
Qed.
Lemma inv_crash p s : inv s -> inv (worker_crash p s).
Proof.
  intros I. unfold worker_crash. destruct (find_worker p (a_live s)) as [w|] eqn:F.
  - destruct (on_worker_split p _ w F (p_lnodup _ (i_pool _ I))) as (l1 & l2 & EL & Ep & FW). rewrite FW. simpl. eapply inv_drop; eauto.
  - rewrite on_worker_none by auto. replace (set_queues _ _ _ s) with s by (destruct s; auto). auto.
Qed.

Lemma inv_submit j s : inv s -> inv (submit j s).
Proof.
  intros [V1 V2 V3 V4 V5 V6 V7 V8 V9 V10 V11 V12 V13]. unfold submit. set (id := length (a_submitted s)).
  assert (OR : forall x s', a_submitted s' = a_submitted s ++ [(id, j)] -> origin s x -> origin s' x).
  { intros x s' E (j' & d & c & A & B & C). exists j', d, c. rewrite E. split; auto. apply in_or_app; auto. }
  assert (S2 : map fst (a_submitted s ++ [(id, j)]) = seq 0 (length (a_submitted s ++ [(id, j)]))).
  { rewrite map_app, app_length, Nat.add_1_r, seq_S. simpl. unfold submitted in V2. rewrite V2. auto. }
  assert (P2 : Permutation (map fst (a_futures s ++ [(id, j)]) ++ returned s) (map fst (a_submitted s ++ [(id, j)]))).
  { rewrite !map_app. simpl. rewrite <- app_assoc. simpl. eapply perm_trans; [apply Permutation_sym, Permutation_middle|].
    eapply perm_trans; [apply perm_skip, V3|]. apply Permutation_cons_append. }
  assert (F2 : incl (a_futures s ++ [(id, j)]) (a_submitted s ++ [(id, j)])).
  { apply incl_app; [apply incl_appl; auto|apply incl_appr, incl_refl]. }
  assert (NEW : ~ In id (pend s)).
  { intros K. apply V6 in K. apply in_map_iff in K as (x & E & K). apply V4 in K. apply (in_map fst) in K. fold (submitted s) in K.
    rewrite V2 in K. apply in_seq in K. unfold id in E. lia. }
  destruct V1 as [W1 W2 W3 W4 W5 W6 W7 W8].
  destruct (a_closed s) eqn:EC.
  - apply inv_raise; [discriminate|]. split; auto; try (split; cbn; auto; fail).
    + intros x Hx. cbn. rewrite map_app. apply in_or_app. left. auto.
    + cbn. intros x Hx. apply in_or_app; auto.
    + cbn. intros w x A B. apply in_or_app. left. eapply V8; eauto.
    + intros w x A B. eapply OR; [reflexivity|]. eapply V10; eauto.
    + cbn. eapply Forall_impl; [|exact V11]. intros. eapply OR; [reflexivity|auto].
    + cbn. eapply Forall_impl; [|exact V12]. intros. eapply OR; [reflexivity|auto].
  - assert (PP : forall s', queued s' = queued s ++ [id] -> in_workers s' = in_workers s -> finished s' = finished s -> Permutation (id :: pend s) (pend s')).
    { intros s' A B C. unfold pend. rewrite A, B, C, <- app_assoc. apply Permutation_middle. }
    split; auto.
    + split; auto.
    + eapply Permutation_NoDup; [apply PP; auto; unfold queued; cbn; rewrite map_app; auto|]. constructor; auto.
    + intros x Hx. cbn. rewrite map_app. apply in_or_app. simpl.
      apply (Permutation_in (l' := id :: pend s)) in Hx; [|apply Permutation_sym, PP; auto; unfold queued; cbn; rewrite map_app; auto].
      destruct Hx as [<-|Hx]; auto.
    + cbn. apply incl_app; [apply incl_appl; auto|apply incl_appr, incl_refl].
    + cbn. intros w x A B. apply in_or_app. left. eapply V8; eauto.
    + intros w x A B. eapply OR; [reflexivity|]. eapply V10; eauto.
    + cbn. eapply Forall_impl; [|exact V11]. intros. eapply OR; [reflexivity|auto].
    + cbn. eapply Forall_impl; [|exact V12]. intros. eapply OR; [reflexivity|auto].
Qed.

Lemma inv_enter s : inv s -> a_waiting s = false -> inv (enter s).
Proof.
  intros I _. unfold enter. destruct (a_entered s) eqn:EE; [apply inv_raise; auto; discriminate|].
  destruct I as [V1 V2 V3 V4 V5 V6 V7 V8 V9 V10 V11 V12 V13]. destruct V1 as [W1 W2 W3 W4 W5 W6 W7 W8].
  match goal with |- inv (Nat.iter _ _ ?X) => set (s0 := X) end.
  assert (P0 : a_procs s = []) by auto.
  assert (L0 : a_live s = []).
  { destruct (a_live s) as [|w l] eqn:E; auto. exfalso. assert (K : In (w_pid w) (pids s)) by (unfold pids; rewrite E; simpl; auto).
    apply W4 in K. rewrite P0 in K. destruct K. }
  assert (O : opened s0 0).
  { split; unfold s0, pids; cbn.
    - exact W1.
    - rewrite P0. intros p [].
    - rewrite P0. constructor.
    - rewrite P0, L0. auto.
    - rewrite P0. auto.
    - rewrite L0. intros w [].
    - split; cbn; [apply V9|]. rewrite L0. constructor. }
  destruct (iter_opened (a_n s) s0 0 O) as (O1 & FR & SZ). rewrite Nat.add_0_r in O1.
  set (s' := Nat.iter (a_n s) start_worker s0) in *. destruct O1 as [X1 X2 X3 X4 X5 X6 X7].
  destruct FR as (pr & lv & sz & v & b & pid & EF).
  assert (FI : a_input s' = [] /\ a_output s' = [] /\ a_submitted s' = a_submitted s /\ a_futures s' = a_futures s /\ a_returned s' = a_returned s
     /\ a_raised s' = a_raised s /\ a_n s' = a_n s /\ a_entered s' = true /\ a_closed s' = false) by (rewrite EF; unfold s0; cbn; repeat split).
  destruct FI as (F1 & F2 & F3 & F4 & F5 & F6 & F7 & F8 & F9).
  assert (PE : pend s' = []) by (unfold pend, queued, in_workers, finished; rewrite F1, F2, (idle_held _ X6); auto).
  split; unfold submitted, returned; try rewrite F3; try rewrite F4; try rewrite F5; try rewrite F6; auto.
  - split; auto.
    + rewrite <- X4. apply incl_refl.
    + rewrite X4. auto.
    + rewrite F8, F9. intros [|]; discriminate.
    + rewrite X5, F7. auto.
    + rewrite X5, F7. auto.
  - rewrite PE. constructor.
  - rewrite PE. intros x [].
  - rewrite F1. intros x [].
  - intros w x Hw Hx. destruct (X6 w Hw). congruence.
  - intros w x Hw Hx. destruct (X6 w Hw) as [_ K]. rewrite K in Hx. destruct Hx.
  - rewrite F2. constructor.
  - eapply Forall_impl; [|exact V12]. intros x. apply origin_frame. auto.
Qed.
Lemma inv_exit s : inv s -> a_entered s = true -> inv (exit s).
Proof.
  intros [V1 V2 V3 V4 V5 V6 V7 V8 V9 V10 V11 V12 V13] EE. destruct V1 as [W1 W2 W3 W4 W5 W6 W7 W8].
  assert (L0 : filter (fun w => negb (existsb (Nat.eqb (w_pid w)) (a_procs s))) (a_live s) = []).
  { assert (H : forall w, In w (a_live s) -> existsb (Nat.eqb (w_pid w)) (a_procs s) = true).
    { intros w Hw. apply existsb_exists. exists (w_pid w). split; [apply W4, in_map; auto|apply Nat.eqb_refl]. }
    clear - H. induction (a_live s) as [|w l IH]; auto. simpl. rewrite H by (simpl; auto). simpl. apply IH. intros; apply H; simpl; auto. }
  unfold exit. rewrite L0. split; auto; cbn; try (intros; tauto); try constructor; cbn; auto; try (intros; tauto); try constructor; try lia; try discriminate; try (intros x []).
  apply V9.
Qed.

Lemma inv_step a s : inv s -> (forall d, a = Defaults d -> Q d) -> inv (stp s a).
Proof.
  intros I HD. destruct a; simpl.
  - destruct (a_waiting s) eqn:E; auto. apply inv_enter; auto.
  - destruct (a_waiting s); auto. destruct (a_entered s) eqn:E; auto. apply inv_exit; auto.
  - destruct (a_waiting s); auto. apply inv_submit; auto.
  - destruct (a_waiting s); auto. unfold wait_start. destruct (a_futures s); [apply inv_raise; auto; discriminate|apply inv_waiting; auto].
  - destruct (a_waiting s); auto. apply inv_turn; auto.
  - apply inv_waiting; auto.
  - destruct (a_waiting s); auto. destruct I as [V1 V2 V3 V4 V5 V6 V7 V8 V9 V10 V11 V12 V13]. destruct V1 as [W1 W2 W3 W4 W5 W6 W7 W8].
    split; auto. split; auto. split; [cbn; auto|apply V9].
  - apply inv_get; auto.
  - apply inv_exec; auto.
  - apply inv_flush; auto.
  - apply inv_crash; auto.
Qed.
Lemma inv_run l : forall s, inv s -> (forall d, In (Defaults d) l -> Q d) -> inv (run call s l).
Proof.
  induction l as [|a l IH]; intros s I HD; simpl; auto. apply IH; [apply inv_step; auto|].
  - intros d ->. apply HD. simpl; auto.
  - intros d Hd. apply HD. simpl; auto.
Qed.
End Inv.

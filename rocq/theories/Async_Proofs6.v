From Verif Require Import Base Async_Model Async_Spec Async_Proofs Async_Proofs2 Async_Proofs3 Async_Proofs4 Async_Proofs5.
Require Import Permutation ZArith.
Open Scope nat_scope.

Section More.
Context (call : nat -> list nat -> kwargs -> nat -> outcome).
Notation stp := (step call).
Notation All := (fun _ : kwargs => True).
Notation inv := (inv call All).

Definition ended (s s' : st) (i : nat) : Prop := exists w, In w (a_live s) /\ In i (held_by w) /\ ~ In (w_pid w) (map w_pid (a_live s')).

Lemma repl_old s s' : repl s s' -> a_pid s <= a_pid s' /\ forall q, q < a_pid s -> In q (pids s') -> In q (pids s).
Proof.
  induction 1 as [|s p s' H H0 H1 [A B]]; auto. cbn in A. split; [lia|]. intros q L K. apply B in K; [|cbn; lia].
  unfold pids in *. cbn in K. rewrite map_app in K. apply in_app_or in K as [K|[<-|[]]]; auto. simpl in L. lia.
Qed.
Lemma repl_keeps s s' w : repl s s' -> In w (a_live s) -> In w (a_live s').
Proof. induction 1 as [|s p s' H H0 H1 IH]; auto. intros K. apply IH. cbn. apply in_or_app. auto. Qed.
Lemma pid_lt s w : pool s -> In w (a_live s) -> w_pid w < a_pid s.
Proof. intros P K. apply (p_procs _ P). apply (p_live _ P). apply in_map. auto. Qed.
Lemma in_pend_cases s i : In i (pend s) -> In i (queued s) \/ (exists w, In w (a_live s) /\ In i (held_by w)) \/ In i (finished s).
Proof.
  unfold pend. rewrite !in_app_iff. intros [K|[K|K]]; auto. right. left. apply in_flat_map in K as (w & A & B). eauto.
Qed.
Lemma controlled_keeps s x s1 i : controlled s x s1 -> pool s -> In i (pend s) ->
  In i (pend s1) \/ exists w, In w (a_live s) /\ In i (held_by w) /\ ~ In (w_pid w) (pids s1) /\ w_pid w < a_pid s1.
Proof.
  intros C P H.
  assert (G : forall s' p procs live sz v b pid, repl s s' -> In i (pend s') -> live = filter (fun w => negb (w_pid w =? p)) (a_live s') ->
    In i (pend (set_pool procs live sz v b pid s')) \/ exists w, In w (a_live s) /\ In i (held_by w) /\ w_pid w = p).
  { intros s' p procs live sz v b pid R K ->. apply in_pend_cases in K as [K|[(w & Hw & K)|K]].
    - left. unfold pend. rewrite !in_app_iff. auto.
    - destruct (repl_live _ _ R w Hw) as [Ho|[E1 E2]].
      + destruct (Nat.eqb_spec (w_pid w) p) as [E|E]; [eauto 10|]. left. unfold pend, in_workers. cbn. rewrite !in_app_iff. right. left.
        apply in_flat_map. exists w. split; auto. apply filter_In. split; auto. apply negb_true_iff, Nat.eqb_neq. auto.
      + unfold held_by in K. rewrite E1, E2 in K. destruct K.
    - left. unfold pend. rewrite !in_app_iff. auto. }
  assert (NF : forall p (l : list worker), ~ In p (map w_pid (filter (fun w => negb (w_pid w =? p)) l))).
  { intros p l K. apply in_map_iff in K as (w & E & K). apply filter_In in K as [_ K]. rewrite E, Nat.eqb_refl in K. discriminate. }
  destruct C as [s' R|s' v b R|s' p v b R IN|s' p v b R IN NL|s' p v b R IN]; pose proof (repl_pend _ _ R) as RP; rewrite <- RP in H;
    pose proof (repl_old _ _ R) as [OL _].
  - auto.
  - auto.
  - destruct (G s' p (filter (fun q => negb (q =? p)) (a_procs s')) _ (a_size s' - 1)%Z v b (a_pid s') R H eq_refl) as [K|(w & Hw & K & E)].
    + left. apply in_pend_cases in K as [K|[(w & Hw & K)|K]]; unfold pend; rewrite !in_app_iff; auto. right. left. unfold in_workers. cbn.
      rewrite flat_map_app, in_app_iff. left. apply in_flat_map. exists w. split; auto.
    + right. exists w. split; auto. split; auto. pose proof (pid_lt _ _ P Hw) as PL. split; [|cbn; lia]. unfold pids. cbn. rewrite map_app, in_app_iff. rewrite E.
      intros [K'|[K'|[]]]; [apply NF in K'; auto|]. cbn in K'. lia.
  - destruct (G s' p (filter (fun q => negb (q =? p)) (a_procs s')) _ (a_size s' - 1)%Z v b (a_pid s') R H eq_refl) as [K|(w & Hw & K & E)]; [left; exact K|].
    right. exists w. split; auto. split; auto. pose proof (pid_lt _ _ P Hw) as PL. split; [|cbn; lia]. unfold pids. cbn. rewrite E. apply NF.
  - destruct (G s' p (a_procs s') _ (a_size s' - 1)%Z v b (a_pid s') R H eq_refl) as [K|(w & Hw & K & E)]; [left; exact K|].
    right. exists w. split; auto. split; auto. pose proof (pid_lt _ _ P Hw) as PL. split; [|cbn; lia]. unfold pids. cbn. rewrite E. apply NF.
Qed.
Lemma step_keeps a s i : inv s -> a_entered s = true -> a <> Exit -> In i (pend s) -> In i (pend (stp s a)) \/ In i (returned (stp s a)) \/ ended s (stp s a) i.
Proof.
  intros I EN NX H. pose proof (i_pool _ _ _ I) as P. destruct a; simpl; try congruence; auto.
  - destruct (a_waiting s); auto. unfold enter. rewrite EN. auto.
  - destruct (a_waiting s); auto. left. unfold submit. destruct (a_closed s); auto.
    unfold pend, queued, in_workers, finished in *. cbn. rewrite map_app. repeat rewrite in_app_iff in *. tauto.
  - destruct (a_waiting s); auto. unfold wait_start. destruct (a_futures s); auto.
  - destruct (a_waiting s); auto. destruct (wait_turn_cases call All mem mem2 mem3 ready s I) as (x & s1 & C & T).
    pose proof (controlled_keeps _ _ _ i C P H) as CK.
    destruct x as [[]|e].
    + destruct T as (s2 & R & I2 & T). pose proof (repl_pend _ _ R) as PE. pose proof (repl_old _ _ R) as [_ OL].
      assert (CK2 : In i (pend s2) \/ exists w, In w (a_live s) /\ In i (held_by w) /\ ~ In (w_pid w) (pids s2)).
      { rewrite PE. destruct CK as [K|(w & A & B & D & E)]; auto. right. exists w. split; auto. }
      assert (OK : In i (pend s2) \/ In i (returned s2) \/ ended s s2 i) by (destruct CK2 as [K|K]; auto).
      destruct (a_closed s2); [rewrite T; auto|]. destruct (a_output s2) as [|[id o] out] eqn:EO; [rewrite T; auto|]. destruct ready; rewrite T; auto.
      destruct CK2 as [K|K]; [|right; right; exact K].
      unfold pend, queued, in_workers, finished in K |- *. cbn. unfold returned. cbn. rewrite map_app. rewrite EO in K. simpl in K.
      repeat (rewrite in_app_iff in *; cbn [In] in * ). cbn. tauto.
    + destruct T as [-> _]. destruct CK as [K|(w & A & B & D & E)]; [left; exact K|]. right. right. exists w. auto.
  - destruct (a_waiting s); auto.
  - left. eapply Permutation_in; [apply Permutation_sym, (inv_get call All p s I)|auto].
  - unfold worker_exec. destruct (find_worker p (a_live s)) as [w|] eqn:F; auto. destruct (w_run w) as [[id j]|] eqn:ER; auto.
    destruct (on_worker_split p _ w F (p_lnodup _ P)) as (l1 & l2 & EL & Ep & FW). rewrite FW.
    assert (HW : held_by w = id :: map fst (w_out w)) by (unfold held_by; rewrite ER; auto).
    unfold pend, queued, in_workers, finished in H. rewrite EL, flat_map_app in H. simpl in H. rewrite HW in H.
    destruct (deliver _) as [o|].
    + left. assert (HW' : held_by (mkWorker (w_pid w) (w_defaults w) None (w_out w ++ [(id, o)])) = map fst (w_out w) ++ [id]) by (unfold held_by; cbn; rewrite map_app; auto).
      unfold pend, queued, in_workers, finished. cbn. rewrite !flat_map_app. cbn [flat_map app]. rewrite HW'. repeat (rewrite in_app_iff in *; cbn [In] in * ). tauto.
    + assert (K : In i (held_by w) \/ In i (map fst (a_input s) ++ (flat_map held_by l1 ++ flat_map held_by l2) ++ map fst (a_output s))).
      { rewrite HW. repeat (rewrite in_app_iff in *; cbn [In] in * ). tauto. }
      destruct K as [K|K]; [|left; unfold pend, queued, in_workers, finished; cbn; rewrite flat_map_app; auto].
      right. right. exists w. split; [rewrite EL; apply in_or_app; simpl; auto|]. split; auto. cbn.
      pose proof (p_lnodup _ P) as N. unfold pids in N. rewrite EL, map_app in N. simpl in N. apply NoDup_remove_2 in N. rewrite map_app. auto.
  - left. eapply Permutation_in; [apply Permutation_sym, (inv_flush call All p s I)|auto].
  - unfold worker_crash. destruct (find_worker p (a_live s)) as [w|] eqn:F.
    + destruct (on_worker_split p _ w F (p_lnodup _ P)) as (l1 & l2 & EL & Ep & FW). rewrite FW.
      unfold pend, queued, in_workers, finished in H. rewrite EL, flat_map_app in H. simpl in H.
      assert (K : In i (held_by w) \/ In i (map fst (a_input s) ++ (flat_map held_by l1 ++ flat_map held_by l2) ++ map fst (a_output s))).
      { repeat (rewrite in_app_iff in *; cbn [In] in * ). tauto. }
      destruct K as [K|K]; [|left; unfold pend, queued, in_workers, finished; cbn; rewrite flat_map_app; auto].
      right. right. exists w. split; [rewrite EL; apply in_or_app; simpl; auto|]. split; auto. cbn.
      pose proof (p_lnodup _ P) as N. unfold pids in N. rewrite EL, map_app in N. simpl in N. apply NoDup_remove_2 in N. rewrite map_app. auto.
    + left. rewrite on_worker_none; auto.
Qed.

(** * Which worker the memory control stops *)
Lemma memory_read mem : forall ps s l s', memory mem ps s = (l, s') ->
  total l = list_sum (map (reading mem) ps) /\
  (forall p m, In (p, m) l -> m = reading mem p) /\
  (forall p, In p ps -> reading mem p = 0 \/ In (p, reading mem p) l).
Proof.
  induction ps as [|p ps IH]; intros s l s' E; simpl in E.
  - inversion E; subst. simpl. split; auto. split; intros q; [intros m []|intros []].
  - change (list_sum (map (reading mem) (p :: ps))) with (reading mem p + list_sum (map (reading mem) ps)). cbn [In].
    assert (G : forall l1 s1, memory mem ps s = (l1, s1) -> l = (p, reading mem p) :: l1 -> 
      total l = reading mem p + list_sum (map (reading mem) ps) /\ (forall q m, In (q, m) l -> m = reading mem q) /\
      (forall q, p = q \/ In q ps -> reading mem q = 0 \/ In (q, reading mem q) l)).
    { intros l1 s1 E1 ->. destruct (IH _ _ _ E1) as (A & B & C). split; [simpl; rewrite A; auto|]. cbn [In]. split.
      - intros q m [K|K]; [inversion K; auto|auto].
      - intros q [<-|K]; auto. destruct (C q K); auto. }
    destruct (mem p) as [m|] eqn:Em; [|destruct (alive p s) eqn:EA].
    + destruct (memory mem ps s) as [l1 s1] eqn:E1. inversion E; subst. apply (G l1 s'); auto. unfold reading. rewrite Em. auto.
    + destruct (memory mem ps s) as [l1 s1] eqn:E1. inversion E; subst. apply (G l1 s'); auto. unfold reading. rewrite Em. auto.
    + destruct (IH _ _ _ E) as (A & B & C). assert (R0 : reading mem p = 0) by (unfold reading; rewrite Em; auto).
      rewrite R0. split; [exact A|]. split; [exact B|]. intros q [<-|K]; auto.
Qed.
Lemma max_by_max l x : max_by l = Some x -> forall y, In y l -> snd y <= snd x.
Proof.
  revert x. induction l as [|z l IH]; simpl; intros x H y K; [destruct K|].
  destruct (max_by l) as [w|] eqn:E.
  - specialize (IH w eq_refl). destruct (Nat.ltb_spec (snd z) (snd w)); inversion H; subst; destruct K as [<-|K]; auto; try lia.
    apply IH in K. lia.
  - destruct l as [|a l]; [|simpl in E; destruct (max_by l) as [b|]; [destruct (snd a <? snd b)|]; discriminate].
    inversion H; subst. destruct K as [<-|[]]; auto.
Qed.
Definition chosen (mem : nat -> option nat) (s : st) (p : nat) : Prop :=
  exists L, a_limit s = Some L /\ L < reading mem 0 + list_sum (map (reading mem) (a_procs s)) /\
            forall q, In q (a_procs s) -> reading mem q <= reading mem p.
(** The process control picks, if any. *)
Definition pick (mem : nat -> option nat) (s : st) : option nat :=
  match a_limit s with
  | None => None
  | Some L => let usage := fst (memory mem (0 :: a_procs s) s) in
              if L <? total usage then option_map fst (max_by (tl usage)) else None
  end.
Lemma pick_chosen mem s p : pick mem s = Some p -> chosen mem s p.
Proof.
  unfold pick, chosen. destruct (a_limit s) as [L|]; [|discriminate].
  destruct (memory mem (0 :: a_procs s) s) as [usage s1] eqn:E. cbn [fst].
  destruct (Nat.ltb_spec L (total usage)) as [H|]; [|discriminate].
  destruct (memory_read _ _ _ _ _ E) as (T & R & C). cbn [map list_sum fold_right] in T.
  destruct (max_by (tl usage)) as [[q m]|] eqn:EX; simpl; [|discriminate]. intros K. inversion K; subst q.
  exists L. split; auto. split; [rewrite T in H; exact H|]. intros q Hq.
  assert (Hin : In (p, m) usage) by (apply max_by_in in EX; destruct usage; simpl in *; auto).
  pose proof (R _ _ Hin) as ->.
  assert (E2 : memory mem (a_procs s) s = (tl usage, s1)).
  { simpl in E. destruct (mem 0); unfold alive in E; simpl in E; destruct (memory mem (a_procs s) s) as [l1 s2]; inversion E; auto. }
  destruct (memory_read _ _ _ _ _ E2) as (_ & _ & C2). destruct (C2 q Hq) as [->|K2]; [lia|].
  apply (max_by_max _ _ EX) in K2. exact K2.
Qed.
Lemma control_stops mem mem2 s x s1 : pool s -> control mem mem2 s = (x, s1) ->
  (forall w, In w (a_live s) -> pick mem s <> Some (w_pid w) -> In w (a_live s1)) /\
  (forall w, In w (a_live s) -> pick mem s = Some (w_pid w) -> ~ In (w_pid w) (pids s1) /\ w_pid w < a_pid s1).
Proof.
  intros P E. unfold control in E. unfold pick. destruct (a_limit s) as [limit|].
  2:{ inversion E; subst. split; auto. discriminate. }
  destruct (memory mem (0 :: a_procs s) s) as [usage s1'] eqn:EM. cbn [fst].
  apply memory_repl in EM.
  2:{ intros p [<-|Hp]; auto. }
  2:{ constructor; [|apply P]. intros K. apply P in K. lia. }
  destruct EM as [R1 U]. destruct (repl_pool _ _ R1 P) as [P1 L1].
  destruct (limit <? total usage).
  2:{ inversion E; subst. split; [|discriminate]. intros w Hw _. eapply repl_keeps; eauto. }
  pose proof (log_repl mem2 s1' P1) as R2. set (s2 := log_memory mem2 s1') in *.
  assert (R : repl s s2) by (eapply repl_trans; eauto). destruct (repl_pool _ _ R P) as [P2 _].
  pose proof (repl_old _ _ R) as [OL _].
  set (s3 := set_pool (a_procs s2) (a_live s2) (a_size s2) (S (a_viol s2)) (a_behaved s2) (a_pid s2) s2) in *.
  destruct (max_by (tl usage)) as [[p m]|] eqn:EX; cbn [option_map fst].
  2:{ inversion E; subst. split; [|discriminate]. intros w Hw _. cbn. eapply repl_keeps; eauto. }
  assert (NF : forall p (l : list worker), ~ In p (map w_pid (filter (fun w => negb (w_pid w =? p)) l))).
  { intros q l K. apply in_map_iff in K as (w & EE & K). apply filter_In in K as [_ K]. rewrite EE, Nat.eqb_refl in K. discriminate. }
  assert (KEEP : forall w, In w (a_live s) -> Some p <> Some (w_pid w) -> In w (filter (fun w => negb (w_pid w =? p)) (a_live s2))).
  { intros w Hw N. apply filter_In. split; [eapply repl_keeps; eauto|]. apply negb_true_iff, Nat.eqb_neq. congruence. }
  assert (LT : forall w, In w (a_live s) -> w_pid w < a_pid s2).
  { intros w Hw. pose proof (pid_lt _ _ P Hw). lia. }
  set (F := fun w => negb (w_pid w =? p)) in *.
  assert (GONE : forall w, In w (a_live s) -> Some p = Some (w_pid w) -> ~ In (w_pid w) (map w_pid (filter F (a_live s2))) /\ w_pid w < a_pid s2).
  { intros w Hw N. inversion N as [N1]. split; [rewrite <- N1; apply NF|auto]. }
  unfold stop_worker in E. cbn [set_pool a_procs] in E.
  destruct ((20 * a_viol s3 <? a_viol s3 + a_behaved s3) || (length (a_procs s3) =? 1)).
  - destruct (existsb (Nat.eqb p) (a_procs s3)); inversion E; subst x s1; (split; [|exact GONE]) || split.
    + intros w Hw N. cbn. apply in_or_app. left. apply KEEP; auto.
    + intros w Hw N. destruct (GONE w Hw N) as [G1 G2]. unfold pids. cbn [start_worker set_pool a_live a_pid]. rewrite map_app, in_app_iff.
      split; [|cbn; lia]. intros [K|[K|[]]]; [exact (G1 K)|]. cbn in K. lia.
    + exact KEEP.
  - destruct (existsb (Nat.eqb p) (a_procs s3)); inversion E; subst x s1; (split; [exact KEEP|exact GONE]).
Qed.
Lemma turn_stops mem mem2 mem3 ready s : inv s -> a_waiting s = true ->
  (forall w, In w (a_live s) -> pick mem s <> Some (w_pid w) -> In w (a_live (stp s (Turn mem mem2 mem3 ready)))) /\
  (forall w, In w (a_live s) -> pick mem s = Some (w_pid w) -> ~ In (w_pid w) (pids (stp s (Turn mem mem2 mem3 ready)))).
Proof.
  intros I W. simpl. rewrite W. pose proof (i_pool _ _ _ I) as P. unfold wait_turn.
  destruct (control mem mem2 s) as [x s1] eqn:EC. destruct (control_stops _ _ _ _ _ P EC) as [A B].
  pose proof (inv_controlled _ _ _ _ _ I (control_ok _ _ _ _ _ P EC)) as I1.
  destruct x as [[]|e].
  2:{ split; [exact A|]. intros w Hw K. destruct (B w Hw K). auto. }
  pose proof (log_repl mem3 s1 (i_pool _ _ _ I1)) as R. set (s2 := log_memory mem3 s1) in *.
  assert (EQ : forall s', a_live s' = a_live s2 ->
    (forall w, In w (a_live s) -> pick mem s <> Some (w_pid w) -> In w (a_live s')) /\
    (forall w, In w (a_live s) -> pick mem s = Some (w_pid w) -> ~ In (w_pid w) (pids s'))).
  { intros s' Es. unfold pids. rewrite Es. split.
    - intros w Hw K. eapply repl_keeps; eauto.
    - intros w Hw K. destruct (B w Hw K) as [B1 B2]. intros K2. apply B1. apply (proj2 (repl_old _ _ R)); auto. }
  apply EQ. destruct (a_closed s2); auto. destruct (a_output s2) as [|[id o] out]; auto. destruct ready; auto.
  destruct (find_id id (a_futures s2)); auto.
Qed.
Lemma alive_all_pick mem s L : pool s -> incl (a_procs s) (pids s) -> a_procs s <> [] -> a_limit s = Some L ->
  L < reading mem 0 + list_sum (map (reading mem) (a_procs s)) -> exists p, pick mem s = Some p /\ In p (a_procs s).
Proof.
  intros P A NE EL HL. unfold pick. rewrite EL.
  destruct (memory mem (0 :: a_procs s) s) as [usage s1] eqn:E. cbn [fst].
  destruct (memory_read _ _ _ _ _ E) as (T & _ & _). cbn [map list_sum fold_right] in T.
  assert (LT : L <? total usage = true) by (apply Nat.ltb_lt; rewrite T; exact HL). rewrite LT.
  assert (EM : forall ps, incl ps (0 :: a_procs s) -> map fst (fst (memory mem ps s)) = ps).
  { induction ps as [|p ps IH]; intros IN; auto. simpl.
    assert (AL : alive p s = true).
    { destruct (Nat.eq_dec p 0) as [->|N]; auto. apply alive_iff; auto. apply A. destruct (IN p); simpl; auto. congruence. }
    assert (IH' := IH (fun q K => IN q (or_intror K))).
    rewrite AL. destruct (mem p); destruct (memory mem ps s) as [l1 s2]; simpl in *; f_equal; auto. }
  specialize (EM (0 :: a_procs s) (fun q K => K)). rewrite E in EM. cbn [fst] in EM.
  destruct usage as [|u us]; [discriminate|]. inversion EM as [[E0 E1]]. cbn [tl].
  destruct (max_by us) as [[p m]|] eqn:EX.
  - exists p. split; auto. apply max_by_in in EX. apply (in_map fst) in EX. auto.
  - exfalso. apply NE. rewrite <- E1. destruct us as [|a us]; auto. simpl in EX. destruct (max_by us) as [b|]; [destruct (snd a <? snd b)|]; discriminate.
Qed.
End More.

(** random_search and asha: outstanding jobs, and that they go on; promotions are not missed. *)
From Verif Require Import Base Num Nsga_Model Par_Model Search_Model Search_Spec Search_Proofs Search_Proofs2 Search_Proofs3 Search_Proofs4 Search_Proofs6 Search_Proofs7.
Open Scope nat_scope.

(** * random_search *)
Section RS.
Context (o : ops) (out : nat) (max_n : option Z) (S0 : nat).
Definition rstep (t : list item) (x : item) : Prop := match x with TWait _ => running t = S0 | _ => True end.
Definition RJ (k : nat) (R : list rung) (J : list job) (T : list item) : Prop := acct J T /\ length J = k /\ each rstep T.
Definition ER (_ : exn) (w : world) : Prop := each rstep (w_trace w).
Lemma RJ_E k e w : ona (RJ k) w -> ER e w.
Proof. intros (_ & _ & H). exact H. Qed.
Lemma rj_submit k i r q : triple (ona (RJ k)) (submit i r q) (fun _ => ona (RJ (S k))) ER.
Proof. apply a_submit. intros R J T (H1 & H2 & H3). split; [apply acct_submit; auto|]. split; [rewrite app_length; simpl; lia|]. apply each_snoc; auto. exact Logic.I. Qed.
Lemma rj_submit_all l : forall k, triple (ona (RJ k)) (submit_all l) (fun _ => ona (RJ (length l + k))) ER.
Proof.
  induction l as [|i l IH]; intros k; cbn [submit_all]; [apply t_ret; auto|]. eapply t_bind; [apply a_tick; apply RJ_E|]. intros ?.
  eapply t_bind; [apply rj_submit|]. intros ?. replace (length (i :: l) + k) with (length l + S k) by (simpl; lia). apply IH.
Qed.
Lemma rj_wait k : triple (ona (RJ (S k))) wait_next (fun _ => ona (RJ k)) ER.
Proof.
  apply a_wait with (K' := fun _ => RJ k).
  - apply RJ_E.
  - intros j J1 J2 R T oc (H1 & H2 & H3). split; [eapply acct_done; eauto|]. split; [rewrite app_length in *; simpl in *; lia|]. apply each_snoc; auto. exact Logic.I.
  - intros. eapply RJ_E; eauto.
Qed.
Lemma wait_none (P : ind * option nat * outcome -> world -> Prop) (E : exn -> world -> Prop) K : (forall e w, ona K w -> E e w) -> (forall R J T, K R J T -> J = []) -> triple (ona K) wait_next P E.
Proof. intros H1 H2 w Hw. unfold wait_next. rewrite (H2 _ _ _ Hw). apply H1. exact Hw. Qed.
Lemma rj_loop f : triple (ona (RJ S0)) (rs_loop o out max_n f) (fun _ => ona (RJ S0)) ER.
Proof.
  induction f as [|f IH]; cbn [rs_loop]; [apply t_fail; intros w; apply (RJ_E _ Diverges)|].
  eapply t_bind; [apply a_read|]. intros l. destruct (below max_n (length l)); [|apply t_ret; auto]. eapply t_bind; [apply a_tick; apply RJ_E|]. intros ?.
  eapply t_bind with (R := fun _ => ona (RJ S0)).
  { apply a_note. intros R J T (H1 & H2 & H3). split; [apply acct_quiet; simpl; auto|]. split; auto. apply each_snoc; auto. simpl. rewrite (acct_running J T); auto. }
  intros ?. eapply t_bind with (R := fun _ w => exists k, S0 = S k /\ ona (RJ k) w).
  { assert (ES : S0 = 0 \/ exists k, S0 = S k) by (destruct S0; eauto). destruct ES as [ES|[k ES]].
    - apply wait_none; [apply RJ_E|]. intros R J T (_ & H & _). rewrite ES in H. destruct J; [auto|discriminate].
    - intros w Hw. assert (Hw' : ona (RJ (S k)) w) by (rewrite <- ES; exact Hw). pose proof (rj_wait k w Hw') as Y. destruct (wait_next w) as [[x|e] w']; eauto. }
  intros [[i q] oc] w (k & ES & Hw). revert w Hw.
  change (triple (ona (RJ k)) (match oc with Evaluated _ _ => tick ;; append out i | _ => ret tt end ;; tick ;; i <- new_individual o ;; tick ;; submit i None None ;; rs_loop o out max_n f) (fun _ => ona (RJ S0)) ER).
  eapply t_bind with (R := fun _ => ona (RJ k)).
  { destruct oc; [apply t_ret; auto|]. eapply t_bind; [apply a_tick; apply RJ_E|]. intros ?. unfold append. eapply t_bind; [apply a_read|]. intros ?. apply a_write. }
  intros ?. eapply t_bind; [apply a_tick; apply RJ_E|]. intros ?. eapply t_bind with (R := fun _ => ona (RJ k)).
  { unfold new_individual. eapply t_bind; [apply a_random; apply RJ_E|]. intros ?. apply a_fresh. }
  intros i0. eapply t_bind; [apply a_tick; apply RJ_E|]. intros ?. eapply t_bind with (R := fun _ => ona (RJ S0)); [replace (RJ S0) with (RJ (S k)) by (rewrite ES; auto); apply rj_submit|]. intros ?. exact IH.
Qed.
End RS.
Lemma rs_supply o out max_n start lists nw events r uid stop x w :
  random_search o out max_n start (start_world lists nw events r uid stop) = (x, w) -> each (rstep (length (nth start lists []))) (w_trace w).
Proof.
  intros E. unfold random_search, leave in E. set (w0 := start_world lists nw events r uid stop) in *. set (S0 := length (nth start lists [])).
  assert (G : triple (ona (fun R J T => RJ S0 0 R J T) ) (submit_all (nth start lists []) ;; rs_loop o out max_n (length events + 1) ;; ret out) (fun _ => ona (RJ S0 S0)) (ER S0)).
  { eapply t_bind; [apply rj_submit_all|]. intros ?. rewrite Nat.add_0_r. eapply t_bind; [apply rj_loop|]. intros ?. apply t_ret. auto. }
  assert (I0 : ona (RJ S0 0) w0) by (split; [reflexivity|split; [reflexivity|apply each_nil]]).
  specialize (G w0 I0). unfold bind at 1 in E. cbn [read] in E. change (w_lists w0) with lists in E. change (length (w_events w0)) with (length events) in E.
  destruct ((submit_all (nth start lists []) ;; _) w0) as [[a|e] w1]; injection E as <- <-; simpl; [apply G|exact G].
Qed.

(** The search goes on while there are outcomes. *)
Section RSlive.
Context (o : ops) (out : nat) (max_n : option Z) (B : exn -> Prop).
Hypothesis NEW : forall r, exists r', o_individual o r = (Ok tt, r').
Definition LJ (k : nat) (w : world) : Prop := match w_stop w with None => True | Some (_, e) => B e end /\ Forall (fun e => e_callback e = None) (w_events w) /\ k <= length (w_jobs w).
Definition EL (e : exn) (w : world) : Prop := e = Diverges /\ w_events w = [] \/ B e.
Lemma l_tick k : triple (LJ k) tick (fun _ => LJ k) EL.
Proof.
  intros w (H1 & H2). unfold tick. destruct (w_stop w) as [[[|j] e]|] eqn:E; [right; auto|split; auto|split; auto]. rewrite E. auto.
Qed.
Lemma l_new k : triple (LJ k) (new_individual o) (fun _ => LJ k) EL.
Proof. intros w Hw. unfold new_individual, bind, random. destruct (NEW (w_rng w)) as [r' ->]. simpl. exact Hw. Qed.
Lemma l_submit k i r q : triple (LJ k) (submit i r q) (fun _ => LJ (S k)) EL.
Proof. intros w (H1 & H2 & H3). simpl. split; auto. split; auto. simpl. rewrite app_length. simpl. lia. Qed.
Lemma l_submit_all l : forall k, triple (LJ k) (submit_all l) (fun _ => LJ (length l + k)) EL.
Proof.
  induction l as [|i l IH]; intros k; cbn [submit_all]; [apply t_ret; auto|]. eapply t_bind; [apply l_tick|]. intros ?. eapply t_bind; [apply l_submit|]. intros ?.
  replace (length (i :: l) + k) with (length l + S k) by (simpl; lia). apply IH.
Qed.
Lemma l_wait k : triple (LJ (S k)) wait_next (fun _ => LJ k) EL.
Proof.
  intros w (H1 & H2 & H3). unfold wait_next. destruct (w_jobs w) as [|j js] eqn:EJ; [simpl in H3; lia|]. destruct (w_events w) as [|e es] eqn:EE; [left; auto|].
  assert (L : k <= length (remove_nth (e_pick e mod length (j :: js)) (j :: js))).
  { rewrite length_remove_nth; [simpl in *; lia|]. apply Nat.mod_upper_bound. discriminate. }
  inversion H2; subst. rewrite H4. destruct (e_out e); repeat split; auto.
Qed.
Lemma l_loop f : forall n, n < f -> triple (fun w => LJ 1 w /\ ev n w) (rs_loop o out max_n f) (fun _ => LJ 1) EL.
Proof.
  induction f as [|f IH]; intros n Hn; [lia|]. cbn [rs_loop].
  eapply t_bind with (R := fun _ w => LJ 1 w /\ ev n w); [intros w Hw; exact Hw|]. intros l. destruct (below max_n (length l)); [|apply t_ret; tauto].
  eapply t_bind; [apply t_and; [apply l_tick|apply v_tick]|]. intros ?. eapply t_bind with (R := fun _ w => LJ 1 w /\ ev n w); [intros w Hw; exact Hw|]. intros ?.
  eapply t_bind; [apply t_and; [apply (l_wait 0)|apply v_wait]|]. intros [[i q] oc] w [Hw HE]. destruct n as [|n]; [discriminate|]. injection HE as HE.
  assert (Hw2 : LJ 0 w /\ ev n w) by (split; auto). clear Hw HE. revert w Hw2.
  change (triple (fun w => LJ 0 w /\ ev n w) (match oc with Evaluated _ _ => tick ;; append out i | _ => ret tt end ;; tick ;; i <- new_individual o ;; tick ;; submit i None None ;; rs_loop o out max_n f) (fun _ => LJ 1) EL).
  eapply t_bind with (R := fun _ w => LJ 0 w /\ ev n w).
  { destruct oc; [apply t_ret; auto|]. eapply t_bind; [apply t_and; [apply l_tick|apply v_tick]|]. intros ? w Hw. exact Hw. }
  intros ?. eapply t_bind; [apply t_and; [apply l_tick|apply v_tick]|]. intros ?. eapply t_bind with (R := fun _ w => LJ 0 w /\ ev n w).
  { apply t_and; [apply l_new|]. unfold new_individual. eapply t_bind; [apply v_random|]. intros ? w Hw. exact Hw. }
  intros i0. eapply t_bind; [apply t_and; [apply l_tick|apply v_tick]|]. intros ?. eapply t_bind with (R := fun _ w => LJ 1 w /\ ev n w); [apply t_and; [apply l_submit|intros w Hw; exact Hw]|].
  intros ?. apply IH. lia.
Qed.
Lemma rs_live start lists nw events r uid stop x w : match stop with None => True | Some (_, e) => B e end -> nth start lists [] <> [] -> Forall (fun e => e_callback e = None) events ->
  random_search o out max_n start (start_world lists nw events r uid stop) = (x, w) -> x = Ok out \/ x = Err Diverges /\ w_events w = [] \/ exists e, x = Err e /\ B e.
Proof.
  intros HS NE HF E. unfold random_search, leave in E. set (w0 := start_world lists nw events r uid stop) in *.
  assert (G : triple (fun w => LJ 0 w /\ ev (length events) w) (submit_all (nth start lists []) ;; rs_loop o out max_n (length events + 1) ;; ret out) (fun a w => a = out) EL).
  { eapply t_bind; [apply t_and; [apply l_submit_all|apply v_submit_all]|]. intros ?. eapply t_bind; [|intros ?; apply t_ret; auto].
    eapply t_pre; [|apply (l_loop (length events + 1) (length events)); lia]. intros w1 [(H1 & H2 & H3) H4]. split; auto. split; auto. split; auto. destruct (nth start lists []); [congruence|]. simpl in H3. lia. }
  assert (I0 : LJ 0 w0 /\ ev (length events) w0). { split; [split; [exact HS|split; [exact HF|simpl; lia]]|reflexivity]. }
  specialize (G w0 I0). unfold bind at 1 in E. cbn [read] in E. change (w_lists w0) with lists in E. change (length (w_events w0)) with (length events) in E.
  destruct ((submit_all (nth start lists []) ;; _) w0) as [[a|e] w1]; injection E as <- <-; [left; congruence|right]. destruct G as [[-> G]|G]; eauto.
Qed.
End RSlive.

(** * asha *)
Section Asha.
Context (o : ops) (eta : nat) (min_res max_res : Q) (first_rung : nat) (max_rung : Z) (start : nat).
Notation exact := (exact first_rung max_rung).
Definition astep (t : list item) (x : item) : Prop :=
  match x with
  | TDone _ _ _ => running t = 8
  | TPromote n _ _ _ => forall m, n < m -> (Z.of_nat m < max_rung)%Z -> ~ promotable eta m t
  | TSubmit _ (Some n) _ => n = first_rung -> forall m, first_rung <= m -> (Z.of_nat m < max_rung)%Z -> ~ promotable eta m t
  | _ => True
  end.
Definition XI (k : nat) (R : list rung) (J : list job) (T : list item) : Prop := acct J T /\ length J = k /\ exact R T /\ each astep T.
Definition EAs (_ : exn) (w : world) : Prop := each astep (w_trace w).
Lemma X_E k e w : ona (XI k) w -> EAs e w.
Proof. intros (_ & _ & _ & H). exact H. Qed.
Lemma not_promotable r T : r_inds r = results_on (r_no r) T -> r_prom r = promoted_from (r_no r) T ->
  length (r_inds r) / eta <= length (r_prom r) \/ not_promoted r = [] -> ~ promotable eta (r_no r) T.
Proof.
  intros E1 E2 H [P1 (y & P2 & P3)]. rewrite <- E1 in *. rewrite <- E2 in *. destruct H as [H|H]; [lia|].
  assert (Yf : In y (filter (fun x => negb (existsb (entry_eqb x) (r_prom r))) (r_inds r))).
  { apply filter_In. split; auto. apply negb_true_iff. destruct (existsb (entry_eqb y) (r_prom r)) eqn:EX; auto. apply existsb_exists in EX as (z & Z1 & Z2). apply entry_same in Z2. destruct (P3 z Z1 Z2). }
  destruct (dedup_covers _ _ Yf) as (y' & Y1 & _). unfold not_promoted in H. rewrite H in Y1. destruct Y1.
Qed.
Lemma rungs_all R : map r_no R = rev (rung_numbers first_rung max_rung) -> forall m, first_rung <= m -> (Z.of_nat m < max_rung)%Z -> exists r, In r (tl R) /\ r_no r = m.
Proof.
  intros E m H1 H2. assert (E2 : map r_no (tl R) = tl (rev (rung_numbers first_rung max_rung))) by (rewrite <- E; destruct R; auto).
  unfold rung_numbers in E2. destruct (Z.to_nat (max_rung + 1 - Z.of_nat first_rung)) as [|n] eqn:EN; [lia|]. rewrite seq_S, rev_app_distr in E2. simpl in E2.
  assert (In m (map r_no (tl R))). { rewrite E2. apply in_rev. rewrite rev_involutive. apply in_seq. lia. }
  apply in_map_iff in H as (r & <- & H). eauto.
Qed.
Definition NP (l : list rung) (T : list item) : Prop := forall r, In r l -> ~ promotable eta (r_no r) T.
Lemma promote_t k all : forall l R1, tl all = R1 ++ l ->
  triple (ona (fun R J T => XI k R J T /\ R = all /\ NP R1 T)) (promote_from eta l)
   (fun x => ona (fun R J T => match x with None => XI k R J T /\ NP (tl all) T /\ R = all | Some (i, n) => XI k R J T /\ n <> first_rung end)) EAs.
Proof.
  induction l as [|r l IH]; intros R1 HR; cbn [promote_from].
  - rewrite app_nil_r in HR. apply t_ret. intros w (H1 & H2 & H3). rewrite HR. split; auto.
  - assert (HI : In r (tl all)) by (rewrite HR; apply in_or_app; simpl; auto).
    assert (Hr : In r all) by (destruct all; [destruct HI|right; auto]).
    assert (SKIP : length (r_inds r) / eta <= length (r_prom r) \/ not_promoted r = [] ->
      triple (ona (fun R J T => XI k R J T /\ R = all /\ NP R1 T)) (promote_from eta l)
       (fun x => ona (fun R J T => match x with None => XI k R J T /\ NP (tl all) T /\ R = all | Some (i, n) => XI k R J T /\ n <> first_rung end)) EAs).
    { intros HS. eapply t_pre; [|apply (IH (R1 ++ [r])); rewrite HR, <- app_assoc; auto]. intros w (H1 & H2 & H3). split; auto. split; auto.
      intros r0 H0. apply in_app_or in H0 as [H0|[<-|[]]]; auto. destruct H1 as (_ & _ & [_ N2] & _). rewrite H2, Forall_forall in N2. destruct (N2 r Hr). apply not_promotable; auto. }
    destruct (Nat.ltb_spec (length (r_prom r)) (length (r_inds r) / eta)) as [HL|HL]; [|apply SKIP; auto].
    destruct (not_promoted r) as [|y0 ys] eqn:ENP; [apply SKIP; auto|]. rewrite <- ENP. clear SKIP IH.
    eapply t_bind; [apply (a_random (fun R J T => XI k R J T /\ R = all /\ NP R1 T)); intros e w [H _]; eapply X_E; eauto|]. intros x.
    eapply t_bind; [apply a_get|]. intros all0.
    set (K2 := fun R J T => acct J T /\ length J = k /\ R = all /\ all0 = all /\ exists T', T = T' ++ [TPromote (r_no r) x (r_inds r) (r_prom r)] /\ exact R T' /\ each astep T).
    eapply t_bind with (R := fun _ => ona K2).
    { apply a_note. intros R J T [((H1 & H2 & H3 & H4) & HA & HN) HA0]. subst R. subst all0. split; [apply acct_quiet; simpl; auto|]. split; auto. split; auto. split; auto. exists T. split; auto. split; auto.
      apply each_snoc; auto. intros m M1 M2. destruct H3 as [N1 N2]. 
      assert (NR : In (r_no r) (rung_numbers first_rung max_rung)). { apply in_rev. rewrite <- N1. apply in_map; auto. } unfold rung_numbers in NR. apply in_seq in NR.
      destruct (rungs_all all N1 m) as (r0 & R01 & R02); [lia|lia|]. subst m. apply HN. rewrite HR in R01. apply in_app_or in R01 as [R01|[<-|R01]]; auto; [lia|].
      assert (EAs : exists top, all = top :: R1 ++ r :: l). { destruct all as [|top all']; [destruct HI|]. exists top. simpl in HR. rewrite HR. auto. }
      destruct EAs as [top EAs]. pose proof (sorted_rungs first_rung max_rung all N1 (top :: R1) r l EAs r0 R01). lia. }
    intros ?. eapply t_bind with (R := fun _ => ona (fun R J T => XI k R J T /\ S (r_no r) <> first_rung)).
    { apply a_put. intros R J T (H1 & H2 & H3 & H4 & T' & H5 & H6 & H7). subst R all0. destruct H6 as [N1 N2]. split.
      - split; auto. split; auto. split; auto. split; [rewrite map_set_rung; auto|]. rewrite Forall_forall in *. intros z Hz. unfold set_rung in Hz. apply in_map_iff in Hz as (z0 & <- & Hz0).
        cbn [r_no]. rewrite H5, results_app, promoted_app. simpl. destruct (Nat.eqb_spec (r_no z0) (r_no r)) as [En|En]; cbn [r_no r_inds r_prom].
        + destruct (N2 r Hr) as [E1 E2]. rewrite Nat.eqb_refl, E2, app_nil_r. auto.
        + destruct (N2 z0 Hz0) as [E1 E2]. destruct (Nat.eqb_spec (r_no r) (r_no z0)); [congruence|]. rewrite !app_nil_r. auto.
      - assert (NR : In (r_no r) (rung_numbers first_rung max_rung)). { apply in_rev. rewrite <- N1. apply in_map; auto. } unfold rung_numbers in NR. apply in_seq in NR. lia. }
    intros ?. eapply t_bind with (R := fun _ => ona (fun R J T => XI k R J T /\ S (r_no r) <> first_rung)); [apply a_tick; intros e w [H _]; eapply X_E; eauto|].
    intros ?. apply t_ret. intros w Hw. exact Hw.
Qed.
Definition ready (n : nat) (k : nat) (R : list rung) (J : list job) (T : list item) : Prop := XI k R J T /\ (n = first_rung -> NP (tl R) T).
Lemma ready_E n k e w : ona (ready n k) w -> EAs e w.
Proof. intros [H _]. eapply X_E; eauto. Qed.
Lemma get_job_t k : triple (ona (XI k)) (get_job o eta first_rung start) (fun x => ona (ready (snd x) k)) EAs.
Proof.
  unfold get_job. eapply t_bind; [apply a_get|]. intros all. eapply t_bind.
  { eapply t_pre; [|apply (promote_t k all (tl all) [])]; auto. intros w [H1 H2]. split; auto. split; auto. intros r []. }
  intros [[i n]|].
  - apply t_ret. intros w [H1 H2]. split; auto. simpl. congruence.
  - eapply t_pre with (P' := ona (ready first_rung k)); [intros w (H1 & H2 & H3); split; auto; intros _; rewrite H3; auto|].
    eapply t_bind; [apply a_read|]. intros l. destruct (rev l) as [|i l'].
    + eapply t_bind with (R := fun _ => ona (ready first_rung k)); [|intros i; apply t_ret; auto].
      unfold new_individual. eapply t_bind; [apply a_random; apply ready_E|]. intros ?. apply a_fresh.
    + eapply t_bind; [apply a_write|]. intros ?. eapply t_bind; [apply a_tick; apply ready_E|]. intros ?. apply t_ret. auto.
Qed.
Lemma start_t k : triple (ona (XI k)) (start_new_job o eta min_res max_res first_rung max_rung start) (fun _ => ona (XI (S k))) EAs.
Proof.
  unfold start_new_job. eapply t_bind; [apply a_tick; apply X_E|]. intros ?. eapply t_bind; [apply get_job_t|]. intros [i n]. cbn [fst snd].
  destruct (existsb (Nat.eqb n) _); [|apply t_fail; intros w; apply (ready_E n k KeyError)]. eapply t_bind; [apply a_tick; apply ready_E|]. intros ?.
  apply a_submit. intros R J T [(H1 & H2 & H3 & H4) H5]. split; [apply acct_submit; auto|]. split; [rewrite app_length; simpl; lia|]. split; [apply exact_quiet; auto|].
  apply each_snoc; auto. intros E m M1 M2. destruct (rungs_all R (proj1 H3) m M1 M2) as (r & R1 & <-). apply H5; auto.
Qed.
Lemma starts_t n : forall k, triple (ona (XI k)) (start_jobs o eta min_res max_res first_rung max_rung start n) (fun _ => ona (XI (n + k))) EAs.
Proof.
  induction n as [|n IH]; intros k; cbn [start_jobs]; [apply t_ret; auto|]. eapply t_bind; [apply start_t|]. intros ?. replace (S n + k) with (n + S k) by lia. apply IH.
Qed.
Definition XD (x : ind * option nat * outcome) (k : nat) (R : list rung) (J : list job) (T : list item) : Prop :=
  match x with (i, r, oc) => acct J T /\ length J = k /\ each astep T /\ exists T', T = T' ++ [TDone i r oc] /\ exact R T' end.
Lemma XD_E x k e w : ona (XD x k) w -> EAs e w.
Proof. destruct x as [[i r] oc]. intros (_ & _ & H & _). exact H. Qed.
Lemma wait_t8 : triple (ona (XI 8)) wait_next (fun x => ona (XD x 7)) EAs.
Proof.
  apply a_wait.
  - apply X_E.
  - intros j J1 J2 R T oc (H1 & H2 & H3 & H4). split; [eapply acct_done; eauto|]. split; [rewrite app_length in *; simpl in *; lia|]. split; [|eauto].
    apply each_snoc; auto. simpl. rewrite (acct_running _ _ H1). auto.
  - intros. eapply XD_E; eauto.
Qed.
Lemma record_t x k : triple (ona (XD x k)) (record_result x) (fun _ => ona (XI k)) EAs.
Proof.
  destruct x as [[i r] oc]. unfold record_result.
  assert (NOREC : forall w, ona (XD (i, r, oc) k) w -> (match r, oc with Some _, Evaluated (_ :: _) _ => False | _, _ => True end) -> ona (XI k) w).
  { intros w (H1 & H2 & H3 & T' & H4 & H5) Q. split; auto. split; auto. split; auto. rewrite H4. apply exact_quiet; auto. }
  destruct r as [r|]; [|apply t_ret; intros w Hw; apply NOREC; auto].
  destruct oc as [|s f]; [apply t_ret; intros w Hw; apply NOREC; auto|]. destruct s as [|loss s].
  - apply t_fail. intros w Hw. apply (XD_E _ _ IndexError w Hw).
  - eapply t_bind; [apply a_tick; intros e w Hw; apply (XD_E _ _ e w Hw)|]. intros ?. eapply t_bind; [apply a_get|]. intros all.
    destruct (find (fun y => r_no y =? r) all) as [y|] eqn:EF.
    2:{ apply t_fail. intros w [Hw _]. apply (XD_E _ _ KeyError w Hw). }
    apply find_some in EF as [Fy Ey]. apply Nat.eqb_eq in Ey.
    apply a_put. intros R J T [(H1 & H2 & H3 & T' & H4 & H5) ->]. split; auto. split; auto. split; auto. subst T. destruct H5 as [N1 N2].
    split; [rewrite map_set_rung; auto|]. rewrite Forall_forall in *. intros z Hz. unfold set_rung in Hz. apply in_map_iff in Hz as (z0 & <- & Hz0).
    cbn [r_no]. rewrite results_app, promoted_app. destruct (Nat.eqb_spec (r_no z0) r) as [En|En]; cbn [r_no r_inds r_prom].
    + destruct (N2 y Fy) as [E1 E2]. rewrite E1, E2. simpl. rewrite Ey, Nat.eqb_refl, ?app_nil_r. auto.
    + destruct (N2 z0 Hz0) as [E1 E2]. simpl. destruct (Nat.eqb_spec r (r_no z0)); [congruence|]. rewrite !app_nil_r. auto.
Qed.
Lemma loop_t8 max_full f : triple (ona (XI 8)) (asha_loop o eta min_res max_res first_rung max_rung start max_full f) (fun _ => ona (XI 8)) EAs.
Proof.
  induction f as [|f IH]; cbn [asha_loop]; [apply t_fail; intros w; apply (X_E 8 Diverges)|]. eapply t_bind; [apply a_get|]. intros all.
  eapply t_pre with (P' := ona (XI 8)); [intros w [Hw _]; exact Hw|]. destruct (top_full max_rung max_full all) as [[|]|e].
  - apply t_ret. auto.
  - eapply t_bind; [apply a_tick; apply X_E|]. intros ?. eapply t_bind; [apply wait_t8|]. intros x. eapply t_bind; [apply record_t|]. intros ?. eapply t_bind; [apply (start_t 7)|]. intros ?. exact IH.
  - apply t_fail. intros w. apply (X_E 8 e).
Qed.
Lemma asha_steps same max_full lists nw events r uid stop x w :
  asha o eta min_res max_res first_rung max_rung start same max_full (start_world lists nw events r uid stop) = (x, w) -> each astep (w_trace w).
Proof.
  unfold asha. destruct same; cbn [negb]; [|intros E; inversion E; subst; apply each_nil]. cbn [w_lists w_jobs w_n w_events w_rng w_uid w_stop w_trace start_world].
  set (w0 := mkW lists [] nw events r uid stop (empty_rungs first_rung max_rung) []). unfold leave.
  assert (G : triple (ona (XI 0)) (start_jobs o eta min_res max_res first_rung max_rung start 8 ;; tick ;; asha_loop o eta min_res max_res first_rung max_rung start max_full (length events + 1)) (fun _ => ona (XI 8)) EAs).
  { eapply t_bind; [apply (starts_t 8 0)|]. intros ?. eapply t_bind; [apply a_tick; apply X_E|]. intros ?. apply loop_t8. }
  assert (I0 : ona (XI 0) w0). { split; [reflexivity|]. split; [reflexivity|]. split; [apply exact_empty|apply each_nil]. }
  specialize (G w0 I0). destruct ((start_jobs _ _ _ _ _ _ _ _ ;; _) w0) as [a w1]. cbn [w_rungs w_trace].
  assert (HW : each astep (w_trace w1)) by (destruct a; [apply G|exact G]). destruct a as [[]|e].
  - destruct (w_rungs w1); intros E; inversion E; subst; auto.
  - destruct e; try (intros E; inversion E; subst; exact HW). destruct (reached (w_rungs w1)); intros E; inversion E; subst; exact HW.
Qed.
End Asha.

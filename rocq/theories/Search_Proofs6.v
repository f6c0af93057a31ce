(** ASHA ends with its time limit only. *)
From Verif Require Import Base Num Nsga_Model Search_Model Search_Spec Search_Proofs Search_Proofs3 Search_Proofs4.
Require Import Sorted.
Open Scope nat_scope.

Section Asha.
Context (o : ops) (eta : nat) (min_res max_res : Q) (first_rung : nat) (max_rung : Z) (start : nat).
Context (B : Prop).
Hypothesis NEW : forall r, exists r', o_individual o r = (Ok tt, r').
Hypothesis RUNGS : (Z.of_nat first_rung <= max_rung)%Z.
Notation rung_numbers := (rung_numbers first_rung max_rung).

Definition fine (e : event) : Prop := e_callback e = None /\ e_out e <> Evaluated [] true /\ e_out e <> Evaluated [] false.
Definition Z0 (k : nat) (w : world) : Prop :=
  match w_stop w with None => True | Some (_, e) => e = TimeoutException /\ B end /\ Forall fine (w_events w) /\
  map r_no (w_rungs w) = rev rung_numbers /\ k <= length (w_jobs w) /\ Forall (fun j => exists n, j_rung j = Some n /\ In n rung_numbers) (w_jobs w).
Definition EZ (e : exn) (w : world) : Prop := (e = TimeoutException /\ B) \/ e = Diverges /\ w_events w = [].

Lemma z_tick k : triple (Z0 k) tick (fun _ => Z0 k) EZ.
Proof.
  intros w (H1 & H2). unfold tick. destruct (w_stop w) as [[[|j] e]|] eqn:E.
  - left. auto.
  - split; auto.
  - split; auto. rewrite E. auto.
Qed.
Lemma first_in : In first_rung rung_numbers.
Proof. unfold Search_Model.rung_numbers. apply in_seq. lia. Qed.
Lemma z_promote k : forall l, (forall r, In r l -> In (S (r_no r)) rung_numbers) ->
  triple (Z0 k) (promote_from eta l) (fun x w => Z0 k w /\ match x with None => True | Some j => In (snd j) rung_numbers end) EZ.
Proof.
  induction l as [|r l IH]; intros HI; cbn [promote_from]; [apply t_ret; auto|].
  destruct (_ <? _); [|apply IH; intros; apply HI; simpl; auto]. destruct (not_promoted r) as [|y ys] eqn:EN; [apply IH; intros; apply HI; simpl; auto|]. rewrite <- EN.
  intros w Hw. unfold bind at 1, random. destruct (set_max_ok (not_promoted r) (w_rng w)) as (x & r' & E & _); [rewrite EN; discriminate|]. rewrite E.
  set (w1 := mkW (w_lists w) (w_jobs w) (w_n w) (w_events w) r' (w_uid w) (w_stop w) (w_rungs w) (w_trace w)).
  assert (Hw1 : Z0 k w1) by exact Hw. clearbody w1. revert w1 Hw1.
  change (triple (Z0 k) (all <- get_rungs ;; note (TPromote (r_no r) x (r_inds r) (r_prom r)) ;; put_rungs (set_rung (mkRung (r_no r) (r_inds r) (r_prom r ++ [x])) all) ;; tick ;; ret (Some (snd x, S (r_no r))))
    (fun x w => Z0 k w /\ match x with None => True | Some j => In (snd j) rung_numbers end) EZ).
  eapply t_bind with (R := fun all w => Z0 k w /\ map r_no all = rev rung_numbers); [intros w1 Hw1; simpl; split; auto; apply Hw1|intros all].
  eapply t_bind with (R := fun _ w => Z0 k w /\ map r_no all = rev rung_numbers); [intros w1 Hw1; exact Hw1|intros ?].
  eapply t_bind with (R := fun _ => Z0 k).
  { intros w1 [(H1 & H2 & H3 & H4) HA]. simpl. split; auto. split; auto. split; auto. simpl. rewrite map_set_rung. auto. }
  intros ?. eapply t_bind; [apply z_tick|intros ?]. apply t_ret. intros w1 Hw1. split; auto. simpl. apply HI. simpl; auto.
Qed.
Lemma z_start k : triple (Z0 k) (start_new_job o eta min_res max_res first_rung max_rung start) (fun _ => Z0 (S k)) EZ.
Proof.
  unfold start_new_job, get_job. eapply t_bind; [apply z_tick|intros ?]. eapply t_bind with (R := fun j w => Z0 k w /\ In (snd j) rung_numbers).
  - eapply t_bind with (R := fun all w => Z0 k w /\ map r_no all = rev rung_numbers); [intros w1 Hw1; simpl; split; auto; apply Hw1|intros all].
    intros w [Hw HA]. revert w Hw. eapply t_bind; [apply (z_promote k (tl all))|].
    { intros r Hr. apply (tl_rungs first_rung max_rung). rewrite <- HA. destruct all; [destruct Hr|]. simpl in *. apply in_map; auto. }
    intros [j|]; [apply t_ret; auto|].
    eapply t_bind with (R := fun _ => Z0 k); [intros w [Hw _]; exact Hw|intros l]. destruct (rev l) as [|i l'].
    + eapply t_bind with (R := fun _ => Z0 k); [|intros i; apply t_ret; intros w Hw; split; auto; apply first_in].
      intros w Hw. unfold new_individual, bind, random. destruct (NEW (w_rng w)) as [r' ->]. simpl. exact Hw.
    + eapply t_bind with (R := fun _ => Z0 k); [intros w Hw; exact Hw|intros ?]. eapply t_bind; [apply z_tick|intros ?]. apply t_ret. intros w Hw. split; auto. apply first_in.
  - intros j. destruct (existsb (Nat.eqb (snd j)) rung_numbers) eqn:EX.
    2:{ intros w [_ Hj]. exfalso. assert (X : existsb (Nat.eqb (snd j)) rung_numbers = true) by (apply existsb_exists; exists (snd j); split; auto; apply Nat.eqb_refl). congruence. }
    intros w [Hw Hj]. revert w Hw. change (triple (Z0 k) (tick ;; submit (fst j) (Some (snd j)) (Some (resource eta min_res max_res (snd j)))) (fun _ => Z0 (S k)) EZ).
    eapply t_bind; [apply z_tick|intros ?]. intros w (H1 & H2 & H3 & H4 & H5). simpl. split; auto. split; auto. split; auto. simpl. rewrite app_length. simpl. split; [lia|].
    apply Forall_app. split; auto. constructor; auto. exists (snd j). auto.
Qed.
Lemma z_starts n : forall k, triple (Z0 k) (start_jobs o eta min_res max_res first_rung max_rung start n) (fun _ => Z0 (n + k)) EZ.
Proof.
  induction n as [|n IH]; intros k; cbn [start_jobs]; [apply t_ret; auto|]. eapply t_bind; [apply z_start|intros ?].
  eapply t_weak; [| | |apply (IH (S k))]; auto. intros ? w Hw. replace (S n + k) with (n + S k) by lia. exact Hw.
Qed.
Definition result_fine (x : ind * option nat * outcome) : Prop :=
  (exists n, snd (fst x) = Some n /\ In n rung_numbers) /\ snd x <> Evaluated [] true /\ snd x <> Evaluated [] false.
Lemma z_wait k : triple (Z0 (S k)) wait_next (fun x w => Z0 k w /\ result_fine x) EZ.
Proof.
  intros w (H1 & H2 & H3 & H4 & H5). unfold wait_next. destruct (w_jobs w) as [|j0 js] eqn:EJ; [simpl in H4; lia|].
  destruct (w_events w) as [|e es] eqn:EE; [right; auto|]. inversion H2 as [|? ? [F1 F2] F3]; subst.
  set (kk := e_pick e mod length (j0 :: js)). assert (Hk : kk < length (j0 :: js)) by (apply Nat.mod_upper_bound; discriminate).
  set (d := mkJob (mkI 0 None None) None). set (j := nth kk (j0 :: js) d).
  assert (HR : k <= length (remove_nth kk (j0 :: js)) /\ incl (remove_nth kk (j0 :: js)) (j0 :: js)).
  { clearbody kk. revert H4 Hk. generalize (j0 :: js). clear. intros l H4 Hk. assert (L : length l = S (length (remove_nth kk l)) /\ incl (remove_nth kk l) l).
    { clear H4. revert kk Hk. induction l as [|x l IH]; intros kk Hk; [simpl in Hk; lia|]. destruct kk as [|kk]; simpl; [split; auto; apply incl_tl, incl_refl|].
      simpl in Hk. destruct (IH kk ltac:(lia)) as [A B]. split; [lia|]. intros y [<-|Hy]; simpl; auto. }
    destruct L; split; auto; lia. }
  assert (Hj : exists n, j_rung j = Some n /\ In n rung_numbers).
  { rewrite Forall_forall in H5. apply H5. apply nth_In. auto. }
  set (w' := mkW _ _ _ _ _ _ _ _ _).
  assert (K : Z0 k w' /\ result_fine (result_ind j (e_out e), j_rung j, e_out e)).
  { split; [|split; [exact Hj|exact F2]]. split; auto. split; auto. split; auto. split; [exact (proj1 HR)|]. unfold w'. simpl. rewrite Forall_forall in *. intros y Hy. apply H5. apply (proj2 HR). auto. }
  rewrite F1. destruct (e_out e); exact K.
Qed.
Lemma z_record k x : result_fine x -> triple (Z0 k) (record_result x) (fun _ => Z0 k) EZ.
Proof.
  intros ((n & E1 & E2) & F1 & F2). destruct x as [[i r] oc]. cbn [fst snd] in *. subst r. unfold record_result.
  destruct oc as [|[|s ss] f]; [apply t_ret; auto|destruct f; congruence|].
  eapply t_bind; [apply z_tick|intros ?]. eapply t_bind with (R := fun all w => Z0 k w /\ map r_no all = rev rung_numbers); [intros w1 Hw1; simpl; split; auto; apply Hw1|intros all].
  intros w [Hw HA]. destruct (find (fun y => r_no y =? n) all) as [y|] eqn:EF.
  - destruct Hw as (H1 & H2 & H3 & H4). simpl. split; auto. split; auto. split; auto. simpl. rewrite map_set_rung. auto.
  - exfalso. assert (In n (map r_no all)) by (rewrite HA; apply in_rev; rewrite rev_involutive; auto). apply in_map_iff in H as (y & Ey & Hy).
    apply (find_none _ _ EF) in Hy. apply Nat.eqb_neq in Hy. congruence.
Qed.
Lemma t_and {A} (P P' : world -> Prop) (m : M A) (Q Q' : A -> world -> Prop) (E : exn -> world -> Prop) :
  triple P m Q E -> triple P' m Q' any -> triple (fun w => P w /\ P' w) m (fun a w => Q a w /\ Q' a w) E.
Proof. intros H1 H2 w [Hw Hw']. specialize (H1 w Hw). specialize (H2 w Hw'). destruct (m w) as [[a|e] w']; auto. Qed.
Lemma z_loop k max_full f : forall n, n < f -> triple (fun w => Z0 (S k) w /\ ev n w) (asha_loop o eta min_res max_res first_rung max_rung start max_full f) (fun _ => Z0 (S k)) EZ.
Proof.
  induction f as [|f IH]; intros n Hn; cbn [asha_loop]; [lia|].
  eapply t_bind with (R := fun all w => (Z0 (S k) w /\ ev n w) /\ map r_no all = rev rung_numbers); [intros w1 Hw1; simpl; split; auto; apply Hw1|intros all].
  intros w0 [Hw0 HA]. revert w0 Hw0. change (triple (fun w => Z0 (S k) w /\ ev n w) (match top_full max_rung max_full all with Err e => fail e | Ok true => ret tt | Ok false => tick ;; x <- wait_next ;; record_result x ;; start_new_job o eta min_res max_res first_rung max_rung start ;; asha_loop o eta min_res max_res first_rung max_rung start max_full f end) (fun _ => Z0 (S k)) EZ).
  destruct (top_full max_rung max_full all) as [[|]|e] eqn:ET.
  - apply t_ret. tauto.
  - eapply t_bind; [apply t_and; [apply z_tick|apply v_tick]|intros ?]. eapply t_bind; [apply t_and; [apply z_wait|apply v_wait]|intros x].
    intros w [[Hw HX] HE]. destruct n as [|n]; [discriminate|]. injection HE as HE. assert (Hw2 : Z0 k w /\ ev n w) by (split; auto). clear Hw HE. revert w Hw2.
    eapply t_bind with (R := fun _ w => Z0 k w /\ ev n w); [apply t_and; [apply z_record; auto|unfold record_result; v]|intros ?].
    eapply t_bind with (R := fun _ w => Z0 (S k) w /\ ev n w); [apply t_and; [apply z_start|apply v_start]|intros ?]. apply IH. lia.
  - exfalso. unfold top_full in ET. destruct max_full as [m|]; [|discriminate].
    destruct (find (fun y => Z.eqb (Z.of_nat (r_no y)) max_rung) all) as [y|] eqn:EF; [discriminate|].
    assert (In (Z.to_nat max_rung) (map r_no all)). { rewrite HA. apply in_rev. rewrite rev_involutive. apply in_seq. lia. }
    apply in_map_iff in H as (y & Ey & Hy). apply (find_none _ _ EF) in Hy. apply Z.eqb_neq in Hy. lia.
Qed.
Lemma asha_run_live max_full lists nw events r uid stop e w : Forall fine events -> match stop with None => True | Some (_, e) => e = TimeoutException /\ B end ->
  asha_run o eta min_res max_res first_rung max_rung start max_full (start_world lists nw events r uid stop) = (Err e, w) -> EZ e w.
Proof.
  intros HF HS E. unfold asha_run, leave in E. cbn [w_lists w_jobs w_n w_events w_rng w_uid w_stop w_trace start_world] in E.
  set (w0 := mkW lists [] nw events r uid stop (empty_rungs first_rung max_rung) []) in *.
  assert (G : triple (fun w => Z0 0 w /\ ev (length events) w) (start_jobs o eta min_res max_res first_rung max_rung start 8 ;; tick ;; asha_loop o eta min_res max_res first_rung max_rung start max_full (length events + 1)) (fun _ => Z0 8) EZ).
  { eapply t_bind with (R := fun _ w => Z0 8 w /\ ev (length events) w).
    - apply t_and; [apply (z_starts 8 0)|]. generalize 8. intros n. induction n; cbn [start_jobs]; [apply t_ret; auto|]. eapply t_bind; [apply v_start|intros ?; auto].
    - intros ?. eapply t_bind; [apply t_and; [apply z_tick|apply v_tick]|intros ?]. apply z_loop. lia. }
  specialize (G w0). assert (B0 : Z0 0 w0 /\ ev (length events) w0).
  { split; [|reflexivity]. split; auto. split; auto. split; [|split; [simpl; lia|constructor]]. simpl. unfold empty_rungs. rewrite map_map. apply map_id. }
  specialize (G B0). destruct ((_ ;; _) w0) as [[[]|e1] w1]; [discriminate|]. injection E as <- <-. destruct G as [G|[G1 G2]]; [left; auto|right; auto].
Qed.
End Asha.

(** * What asha returns *)
Section Result.
Context (eta : nat) (min_res max_res : Q) (first_rung : nat) (max_rung : Z).
Lemma results_rung t n : each (asha_step eta min_res max_res first_rung max_rung) t -> results_on n t <> [] -> In n (rung_numbers first_rung max_rung).
Proof.
  intros H NE. destruct (results_on n t) as [|e l] eqn:ER; [congruence|].
  assert (In e (results_on n t)) by (rewrite ER; simpl; auto). unfold results_on in H0. apply in_flat_map in H0 as (y & Y1 & Y2).
  destruct y as [| |i [m|] [|[|s ss] f]| |]; try destruct Y2. destruct (Nat.eqb_spec m n); [|destruct Y2]. subst m.
  apply in_split in Y1 as (t1 & t2 & ->). destruct (H t1 _ t2 eq_refl) as [(k & i0 & q & E & HI & _) _]. injection E as <-.
  apply in_split in HI as (t3 & t4 & ->). rewrite <- app_assoc in H. destruct (H t3 _ (t4 ++ TDone i (Some n) (Evaluated (s :: ss) f) :: t2) eq_refl) as (k & E & _ & HK & _).
  injection E as <-. auto.
Qed.
Lemma sorted_rungs R : map r_no R = rev (rung_numbers first_rung max_rung) -> forall R1 top R2, R = R1 ++ top :: R2 -> forall r, In r R2 -> r_no r < r_no top.
Proof.
  unfold rung_numbers. generalize (Z.to_nat (max_rung + 1 - Z.of_nat first_rung)). intros n E R1 top R2 -> r Hr.
  rewrite map_app in E. simpl in E. assert (E2 : rev (map r_no R2) ++ r_no top :: rev (map r_no R1) = seq first_rung n).
  { rewrite <- (rev_involutive (seq first_rung n)), <- E, rev_app_distr. simpl. rewrite <- app_assoc. reflexivity. }
  assert (SS : forall l n a x l', seq n a = l ++ x :: l' -> forall y, In y l -> y < x).
  { clear. induction l as [|z l IH]; intros n a x l' E y Hy; [destruct Hy|]. destruct a as [|a]; [discriminate|]. simpl in E. injection E as -> E.
    destruct Hy as [->|Hy]; [|eapply IH; eauto]. assert (In x (seq (S y) a)) by (rewrite E; apply in_or_app; simpl; auto). apply in_seq in H. lia. }
  eapply SS; [symmetry; exact E2|]. apply in_rev. rewrite rev_involutive. apply in_map; auto.
Qed.
(** the first rung with results is the highest *)
Lemma highest R T top l : exact first_rung max_rung R T -> each (asha_step eta min_res max_res first_rung max_rung) T -> reached R = top :: l ->
  r_inds top = results_on (r_no top) T /\ r_inds top <> [] /\ forall m, r_no top < m -> results_on m T = [].
Proof.
  intros [N1 N2] HE HR. assert (SP : exists R1 R2, R = R1 ++ top :: R2 /\ forall r, In r R1 -> r_inds r = []).
  { clear - HR. induction R as [|r R IH]; simpl in HR; [discriminate|]. destruct (r_inds r) eqn:ER.
    - destruct (IH HR) as (R1 & R2 & -> & H). exists (r :: R1), R2. split; auto. intros y [<-|Hy]; auto.
    - injection HR as -> _. exists [], R. split; auto. intros r []. }
  destruct SP as (R1 & R2 & ER & HE1). rewrite Forall_forall in N2. assert (HT : In top (reached R)) by (rewrite HR; simpl; auto).
  apply filter_In in HT as [T1 T2]. split; [apply N2; auto|]. split; [intros X; rewrite X in T2; discriminate|].
  intros m Hm. destruct (results_on m T) eqn:EM; auto. exfalso.
  assert (In m (map r_no R)). { rewrite N1. apply in_rev. rewrite rev_involutive. eapply results_rung; eauto. rewrite EM. discriminate. }
  apply in_map_iff in H as (r & <- & Hr). destruct (N2 r Hr) as [E1 _]. rewrite ER in Hr. apply in_app_or in Hr as [Hr|[<-|Hr]].
  - rewrite (HE1 r Hr) in E1. congruence.
  - lia.
  - pose proof (sorted_rungs R N1 R1 top R2 ER r Hr). lia.
Qed.
Lemma nothing_reached R T : exact first_rung max_rung R T -> each (asha_step eta min_res max_res first_rung max_rung) T -> reached R = [] -> forall m, results_on m T = [].
Proof.
  intros [N1 N2] HE HR m. destruct (results_on m T) eqn:EM; auto. exfalso.
  assert (In m (map r_no R)). { rewrite N1. apply in_rev. rewrite rev_involutive. eapply results_rung; eauto. rewrite EM. discriminate. }
  apply in_map_iff in H as (r & <- & Hr). rewrite Forall_forall in N2. destruct (N2 r Hr) as [E1 _].
  assert (In r (reached R)) by (apply filter_In; rewrite E1, EM; auto). rewrite HR in H. destruct H.
Qed.
Lemma top_highest R T top l m : exact first_rung max_rung R T -> each (asha_step eta min_res max_res first_rung max_rung) T -> R = top :: l ->
  top_full max_rung (Some m) R = Ok true -> (0 < m)%Z ->
  r_inds top = results_on (r_no top) T /\ r_inds top <> [] /\ forall m, r_no top < m -> results_on m T = [].
Proof.
  intros HX HE HR HF Hm. assert (TE : r_inds top <> []).
  { unfold top_full in HF. destruct (find (fun y => Z.eqb (Z.of_nat (r_no y)) max_rung) R) as [y|] eqn:EF; [|discriminate].
    apply find_some in EF as [F1 F2]. apply Z.eqb_eq in F2. injection HF as HF. apply negb_true_iff, Z.ltb_ge in HF.
    assert (y = top). { rewrite HR in F1. destruct F1 as [<-|F1]; auto. exfalso. destruct HX as [N1 _].
      assert (L : r_no y < r_no top) by (eapply (sorted_rungs R N1 []); [exact HR|auto]).
      assert (In (r_no top) (rev (rung_numbers first_rung max_rung))) by (rewrite <- N1, HR; simpl; auto). apply in_rev, in_seq in H. lia. }
    subst y. intros X. rewrite X in HF. simpl in HF. lia. }
  destruct (reached R) as [|t' l'] eqn:ER.
  - exfalso. rewrite HR in ER. simpl in ER. destruct (r_inds top); [congruence|discriminate].
  - assert (t' = top). { rewrite HR in ER. simpl in ER. destruct (r_inds top); [congruence|]. injection ER as -> _. auto. }
    subst t'. eapply highest; eauto.
Qed.
End Result.

(** Theorems about several fits of one object; restated in [Hist_Props.v]. *)
(*IMPORTS*)
From Verif Require Import Base Num Lib_Model Lib_Spec Lib_Main Ens_Model Ens_Spec Ens_Main Hist_Model Hist_Spec.
Open Scope nat_scope.
(*END*)
Require Import Permutation Sorting.
From Verif Require Import Num_Proofs Nsga_Proofs5 Lib_Proofs Lib_Proofs2 Lib_Proofs3 Ens_Proofs Ens_Proofs2 Hist_Proofs Hist_Proofs2 Hist_Proofs3.

(** C126, the part that holds: whatever was evaluated, every estimator of a fitted
    ensemble was trained successfully in some fit of the object. *)
Lemma C126_some_fit_partial_main : forall B (split : nat -> list B -> rng -> res (list nat) * rng) classifier m n fs
    row tr smp score size left s x l est w,
  build_fit (candidates row (fits split classifier (new_lib m n None) fs) 200) tr smp score size left new_ens = (s, x) ->
  e_fit s = Some l -> In (est, w) l -> exists f, In f fs /\ trained_in f est.
Proof.
  intros B split classifier m n fs row tr smp score size left s x l est w HB HF HI.
  set (P := fun est => exists f, In f fs /\ trained_in f est).
  assert (PV : prov P (fits split classifier (new_lib m n None) fs)).
  { apply fits_prov.
    - split; [discriminate|constructor].
    - intros f e Hf He Su. apply Forall_forall. intros y Hy. exists f. split; auto. exists e. auto. }
  assert (EO : ens_ok P s).
  { eapply build_fit_prov; [| |exact HB]; [|split; [constructor|split; [|discriminate]]].
    - intros en es Hen Hes. unfold candidates in Hen. apply in_map_iff in Hen as (u & <- & _). simpl in Hes. eapply prov_get; eauto.
    - intros d H. injection H as <-. constructor. }
  destruct EO as (_ & _ & EO). specialize (EO l HF). rewrite Forall_forall in EO. apply (EO (est, w) HI).
Qed.
(** C126, the first fit: only models of that fit. *)
Lemma C126_first_fit_partial_main : forall B (split : nat -> list B -> rng -> res (list nat) * rng) classifier m n f
    row tr smp score size left s x l est w,
  build_fit (candidates row (fits split classifier (new_lib m n None) [f]) 200) tr smp score size left new_ens = (s, x) ->
  e_fit s = Some l -> In (est, w) l -> trained_in f est.
Proof.
  intros B split classifier m n f row tr smp score size left s x l est w HB HF HI.
  destruct (C126_some_fit_partial_main B split classifier m n [f] row tr smp score size left s x l est w HB HF HI) as (g & [<-|[]] & H). auto.
Qed.

Lemma start_of {B} split classifier m n (fs : list (fit_run (B := B))) : Forall (fits_whole n) fs ->
  exists l0 out, empty_lib l0 /\ plain l0 /\ l_m l0 = m /\ l_n l0 = n /\
    saves l0 (concat (map f_evs fs)) [] = (fits split classifier (new_lib m n None) fs, out).
Proof.
  intros W. set (z := new_lib m n None).
  assert (PZ : plain z) by (unfold plain, z; simpl; destruct n; auto).
  destruct classifier.
  - destruct fs as [|f fs].
    + exists z, []. repeat split; auto.
    + exists (set_sample KeepAll z).
      assert (EQ : fits split true z (f :: fs) = fits split true (set_sample KeepAll z) (f :: fs)).
      { inversion W as [|? ? [W1 W2] W3]; subst. cbn [fits]. unfold fit_library. rewrite !determine_keep by auto. rewrite set_sample_twice. reflexivity. }
      rewrite EQ. destruct (fits_saves split true (f :: fs) (set_sample KeepAll z)) with (r := @nil nat) as (out & E).
      * right. auto.
      * auto.
      * auto.
      * exists out. repeat split; auto. right. auto.
  - destruct (fits_saves split false fs z PZ) with (r := @nil nat) as (out & E); auto; [discriminate|].
    exists z, out. repeat split; auto.
Qed.
Lemma rows_whole {B} n k (f : fit_run (B := B)) : on_rows k f -> all_stored n k -> fits_whole n f.
Proof.
  intros [A C] D. split; [rewrite A; auto|]. eapply Forall_impl; [|exact C]. intros e (_ & _ & p & E & L). exists p. split; auto. rewrite L. auto.
Qed.
Lemma all_ordinary {B} (fs : list (fit_run (B := B))) : (forall f, In f fs -> exists k, on_rows k f) -> Forall ordinary (concat (map f_evs fs)).
Proof.
  intros H. apply Forall_forall. intros e He. apply in_concat in He as (es & Hes & He). apply in_map_iff in Hes as (f & <- & Hf).
  destruct (H f Hf) as (k & _ & A). rewrite Forall_forall in A. apply (A e He).
Qed.
Lemma in_best l0 es r l out t : empty_lib l0 -> Forall ordinary es -> distinct es -> saves l0 es r = (l, out) -> saved out = es ->
  length es <= 200 -> (match l_m l0 with None => True | Some m => length es <= m end) -> t < length es -> success (nth_ev es t) ->
  In t (n_best l 200 true).
Proof.
  intros H1 H2 H3 H4 SV L1 L2 Ht Su.
  destruct (C32_best_kept_main l0 es r l out H1 H2 H3 H4) as (P & SR & TL & TS & TB).
  destruct (C33_n_best_main l0 es r l out 200 true H1 H2 H3 H4) as (BN & BL & BI & _ & _).
  { destruct (l_m l0); auto. }
  rewrite SV in *. set (best := n_best l 200 true) in *.
  assert (SL : successes es <= length es) by (unfold successes; clear; induction es as [|e es IH]; simpl; auto; destruct (successb e); simpl; lia).
  assert (LT : length (top l) = successes es) by (rewrite TL; destruct (l_m l0); auto; lia).
  rewrite LT in BL. replace (Nat.min 200 (successes es)) with (successes es) in BL by lia.
  destruct (in_dec Nat.eq_dec t best) as [|NI]; auto. exfalso.
  assert (ND : NoDup (t :: best)) by (constructor; auto).
  set (ss := filter (fun i => successb (nth_ev es i)) (seq 0 (length es))).
  assert (INC : incl (t :: best) ss).
  { intros i [<-|Hi]; apply filter_In; (split; [|apply successb_iff]); auto; [apply in_seq; lia|].
    assert (Q : In i (seq 0 (length es))) by (eapply Permutation_in; [exact P|apply in_or_app; left; auto]). auto. }
  apply NoDup_incl_length in INC; auto. simpl in INC. rewrite BL in INC.
  assert (LS : length ss = successes es); [|lia].
  unfold ss, successes. clear. unfold nth_ev.
  assert (G : forall pre, length (filter (fun i => successb (nth i (pre ++ es) (new_ev 0 "" [] None [] None))) (seq (length pre) (length es))) = length (filter successb es)).
  { induction es as [|e es IH]; intros pre; simpl; auto. rewrite app_nth2 by lia. rewrite Nat.sub_diag. simpl.
    specialize (IH (pre ++ [e])). rewrite <- app_assoc, app_length in IH. simpl in IH. rewrite Nat.add_1_r in IH. destruct (successb e); simpl; rewrite IH; auto. }
  apply (G []).
Qed.

(** C126 is false for a later fit: if some pipeline of an earlier fit scored better
    than all pipelines of this one, the ensemble of this fit contains an estimator
    that was trained in an earlier fit, on the earlier data.  The fits had data of
    [k] rows, predictions are kept completely, and estimators are different
    objects. *)
Lemma C126_earlier_fit_refuted_main : forall B (split : nat -> list B -> rng -> res (list nat) * rng) classifier m n fs f g b k c
    row score size left,
  m <> Some 0 -> all_stored n k -> Forall (on_rows k) (fs ++ [f]) -> distinct (concat (map f_evs (fs ++ [f]))) ->
  In g fs -> In b (f_evs g) -> success b -> (forall e, In e (f_evs f) -> success e -> lex_lt (ev_score e) (ev_score b)) ->
  (forall h est, In h fs -> trained_in h est -> ~ trained_in f est) ->
  (forall v, length (row v) = c) -> scores k c score -> nlt (Fin 0) left ->
  exists s l est w,
    build_fit (candidates row (fits split classifier (new_lib m n None) (fs ++ [f])) 200) None None score size left new_ens = (s, Ok tt) /\
    e_fit s = Some l /\ In (est, w) l /\ ~ trained_in f est.
Proof.
  intros B split classifier m n fs f g b k c row score size left Hm Hn HR HD Hg Hb Sb BB NEW Hrow HS HL.
  destruct (start_of split classifier m n (fs ++ [f])) as (l0 & out & E0 & P0 & M0 & N0 & SV).
  { eapply Forall_impl; [|exact HR]. intros h Hh. eapply rows_whole; eauto. }
  set (es := concat (map f_evs (fs ++ [f]))) in *. set (l := fits split classifier (new_lib m n None) (fs ++ [f])) in *.
  assert (OR : Forall ordinary es).
  { apply all_ordinary. rewrite Forall_forall in HR. eauto. }
  assert (ALL : forall e, In e es -> ordinary e /\ (success e -> ev_est e <> []) /\ exists p, ev_pred e = Some p /\ length p = k).
  { intros e He. apply in_concat in He as (xs & Hes & He). apply in_map_iff in Hes as (h & <- & Hf).
    rewrite Forall_forall in HR. destruct (HR h Hf) as (_ & A). rewrite Forall_forall in A. auto. }
  assert (WH : Forall (whole (l_n l0)) es).
  { apply Forall_forall. intros e He. destruct (ALL e He) as (_ & _ & p & Ep & Lp). exists p. split; auto. rewrite N0, Lp. auto. }
  destruct (history_models l0 es [] l out row E0 P0 OR HD WH SV) as (SE & IR & FL).
  pose proof (mk_ids l0 es [] l out row E0 OR HD SV SE) as ND.
  destruct (C32_best_kept_main l0 es [] l out E0 OR HD SV) as (PM & _ & TL & TS & TB).
  destruct (C33_n_best_main l0 es [] l out 200 true E0 OR HD SV) as (BN & BL & BI & SS & OUT).
  { destruct (l_m l0); auto. }
  rewrite SE in *. set (best := n_best l 200 true) in *.
  assert (Hbe : In b es). { apply in_concat. exists (f_evs g). split; auto. apply in_map. apply in_or_app; auto. }
  assert (SC : 0 < successes es).
  { unfold successes. destruct (filter successb es) eqn:F; simpl; [|lia]. exfalso. assert (K : In b (filter successb es)); [|rewrite F in K; destruct K].
    apply filter_In. split; auto. apply successb_iff. auto. }
  destruct best as [|t best'] eqn:EB.
  { exfalso. rewrite TL in BL. rewrite M0 in BL. destruct m as [[|m]|]; [congruence| |]; simpl in BL; destruct (successes es); try lia; discriminate. }
  assert (Ht : t < length es) by (apply IR; simpl; auto).
  assert (St : success (nth_ev es t)) by (apply TS, BI; simpl; auto).
  assert (NF : ~ In (nth_ev es t) (f_evs f)).
  { intros K. specialize (BB _ K St).
    apply (In_nth _ _ (new_ev 0 "" [] None [] None)) in Hbe as (ib & Lb & Eb). change (nth_ev es ib = b) in Eb.
    destruct (in_dec Nat.eq_dec ib (t :: best')) as [[<-|IB]|NB].
    - rewrite Eb in BB. clear - BB OR Eb Ht Lb. subst b. assert (O : ordinary (nth_ev es t)) by (rewrite Forall_forall in OR; apply OR, nth_In; auto).
      apply tuple_lt_lex in BB; try apply O. pose proof (tuple_lt_asym _ _ (proj2 O) (proj2 O) BB). congruence.
    - inversion SS as [|? ? _ F]; subst. rewrite Forall_forall in F. apply (F ib IB). auto.
    - apply (OUT t ib); simpl; auto; rewrite Eb; auto. }
  assert (Pt : exists h, In h fs /\ In (nth_ev es t) (f_evs h)).
  { assert (K : In (nth_ev es t) es) by (apply nth_In; auto). apply in_concat in K as (xs & Hes & He). apply in_map_iff in Hes as (h & <- & Hf).
    apply in_app_or in Hf as [Hf|[->|[]]]; [eauto|]. contradiction. }
  destruct Pt as (h & Hh & Hth).
  assert (US : Forall (usable k c) (map (mk row es) (t :: best'))).
  { apply Forall_forall. intros x Hx. apply in_map_iff in Hx as (u & <- & Hu).
    destruct (ALL (nth_ev es u)) as (_ & _ & p & Ep & Lp); [apply nth_In; auto|].
    exists (map row p). unfold mk. simpl. rewrite Ep. split; auto. split; [rewrite map_length; auto|]. rewrite Forall_map. apply Forall_forall. auto. }
  destruct (build_fit (candidates row l 200) None None score size left new_ens) as [s x] eqn:BF.
  destruct (C54_total_weight_main _ _ _ _ k c _ size left s x FL ltac:(discriminate) US HS BF) as (_ & MI & MN & FT & _).
  destruct FT as (-> & fl & FE & _ & FI); auto.
  { intros y Hy. apply in_map_iff in Hy as (u & <- & Hu). exists (ev_est (nth_ev es u)). split; auto. apply ALL; [apply nth_In; auto|]. apply TS, BI; auto. }
  destruct (C55_whole_main _ _ _ _ k c _ size left s _ FL US HS ND ltac:(discriminate) BF) as (ms0 & I0 & G0).
  assert (W0 : 0 < weight_of (ev_ind (nth_ev es t)) (members s)).
  { eapply Nat.lt_le_trans; [|eapply greedy_weight; exact G0]. rewrite I0. destruct (size <=? 10)%Z; cbn [firstn map mk m_id count_occ];
      (destruct (Nat.eq_dec _ _) as [_|E]; [lia|elim E; reflexivity]). }
  destruct (weight_member _ _ W0) as (mm & w & Im & Eid).
  assert (mm = mk row es t).
  { rewrite Forall_forall in MI. destruct (MI _ Im) as [IL _]. simpl in IL. eapply nodup_id; [exact ND|exact IL|left; reflexivity|]. rewrite Eid. reflexivity. }
  subst mm. destruct (ev_est (nth_ev es t)) as [|est rest] eqn:EE.
  { exfalso. apply (ALL (nth_ev es t)) in EE; auto. apply nth_In; auto. }
  exists s, fl, est, w. split; auto. split; auto. split.
  - apply FI. exists (mk row es t), (est :: rest). split; auto. split; [unfold mk; simpl; rewrite EE; auto|simpl; auto].
  - apply (NEW h); auto. exists (nth_ev es t). rewrite EE. simpl. auto.
Qed.

(** Worse, if two of the fits had data with different numbers of rows, building the
    ensemble fails (it needs at least two models): nothing is fitted and predict
    raises TypeError.  Here all evaluations fit into the library. *)
Lemma C126_other_rows_refuted_main : forall B (split : nat -> list B -> rng -> res (list nat) * rng) classifier m n fs f1 f2 k1 k2 e1 e2
    row score size left X (call : nat -> X -> res mat) q,
  (forall f, In f fs -> exists k, on_rows k f /\ all_stored n k) -> distinct (concat (map f_evs fs)) ->
  length (concat (map f_evs fs)) <= 200 -> match m with None => True | Some m => length (concat (map f_evs fs)) <= m end ->
  In f1 fs -> In f2 fs -> on_rows k1 f1 -> on_rows k2 f2 -> 1 < k1 < k2 ->
  In e1 (f_evs f1) -> success e1 -> In e2 (f_evs f2) -> success e2 -> (2 <= size)%Z ->
  exists s e,
    build_fit (candidates row (fits split classifier (new_lib m n None) fs) 200) None None score size left new_ens = (s, Err e) /\
    e_fit s = None /\ predict_mean None call q s = Err TypeError.
Proof.
  intros B split classifier m n fs f1 f2 k1 k2 e1 e2 row score size left X call q HR HD L1 L2 F1 F2 R1 R2 K I1 S1 I2 S2 HZ.
  destruct (start_of split classifier m n fs) as (l0 & out & E0 & P0 & M0 & N0 & SV).
  { apply Forall_forall. intros h Hh. destruct (HR h Hh) as (k & A & C). eapply rows_whole; eauto. }
  set (es := concat (map f_evs fs)) in *. set (l := fits split classifier (new_lib m n None) fs) in *.
  assert (OR : Forall ordinary es) by (apply all_ordinary; intros h Hh; destruct (HR h Hh) as (k & A & _); eauto).
  assert (WH : Forall (whole (l_n l0)) es).
  { apply Forall_forall. intros e He. apply in_concat in He as (xs & Hes & He). apply in_map_iff in Hes as (h & <- & Hf).
    destruct (HR h Hf) as (k & (_ & A) & ST). rewrite Forall_forall in A. destruct (A e He) as (_ & _ & p & Ep & Lp). exists p. split; auto. rewrite N0, Lp. auto. }
  destruct (history_models l0 es [] l out row E0 P0 OR HD WH SV) as (SE & IR & FL).
  assert (FIND : forall f k e, In f fs -> on_rows k f -> In e (f_evs f) -> success e ->
    exists md p, In md (map (mk row es) (n_best l 200 true)) /\ m_pred md = Some p /\ length p = k).
  { intros f k e Hf Rf He Se. assert (In e es) by (apply in_concat; exists (f_evs f); split; auto; apply in_map; auto).
    apply (In_nth _ _ (new_ev 0 "" [] None [] None)) in H as (i & Li & Ei). change (nth_ev es i = e) in Ei.
    destruct Rf as (_ & A). rewrite Forall_forall in A. destruct (A e He) as (_ & _ & p & Ep & Lp).
    exists (mk row es i), (map row p). split; [|split; [unfold mk; simpl; rewrite Ei, Ep; auto|rewrite map_length; auto]].
    apply in_map. apply (in_best l0 es [] l out); auto; [rewrite M0; auto|rewrite Ei; auto]. }
  destruct (FIND f1 k1 e1 F1 R1 I1 S1) as (a & pa & Ia & Ea & La). destruct (FIND f2 k2 e2 F2 R2 I2 S2) as (b & pb & Ib & Eb & Lb).
  destruct (mixed_fails _ None None score _ FL a b pa pb Ia Ib Ea Eb ltac:(lia) size left HZ) as (s & e & EQ & EF).
  exists s, e. split; auto. split; auto. unfold predict_mean. rewrite EF. reflexivity.
Qed.

(** Two fits of one classifier. *)
Definition hist_split (k : nat) (y : list nat) (r : rng) : res (list nat) * rng := (Ok (seq 0 k), r).
Definition run1 : fit_run := mkRun [0; 1] [] [new_ev 1 "a" [Fin (9 # 10)] None [11] (Some [1; 0]);
                                             new_ev 2 "b" [Fin (1 # 2)] None [12] (Some [1; 1])] [].
Definition run2 : fit_run := mkRun [1; 0] [] [new_ev 3 "c" [Fin (3 # 5)] None [13] (Some [0; 0])] [].
Definition run3 : fit_run := mkRun [1; 0; 1] [] [new_ev 3 "c" [Fin (3 # 5)] None [13] (Some [0; 0; 1])] [].
(** The model of the second fit uses only estimator 11, of the first. *)
Example C126_ex_main : on_rows 2 run1 /\ on_rows 2 run2 /\ on_rows 3 run3 /\ all_stored (Some 1000) 3 /\
  distinct (concat (map f_evs [run1; run2])) /\ (forall e, In e (f_evs run2) -> lex_lt (ev_score e) [Fin (9 # 10)]) /\
  exists s, build_fit (candidates ex_row (fits hist_split true (new_lib (Some 200) (Some 1000) None) [run1; run2]) 200)
      None None (sq_err [1; 0]%Qc) 3 (Fin 1) new_ens = (s, Ok tt) /\ e_fit s = Some [(11, 3)] /\
    trained_in run1 11 /\ ~ trained_in run2 11.
Proof.
  assert (ORD : forall i k q es p, q <> NaN -> ordinary (new_ev i k [q] None es p)) by (intros; split; [reflexivity|repeat constructor; auto]).
  split; [split; [reflexivity|]|]. { repeat constructor; try discriminate; eexists; split; reflexivity. }
  split; [split; [reflexivity|]|]. { repeat constructor; try discriminate; eexists; split; reflexivity. }
  split; [split; [reflexivity|]|]. { repeat constructor; try discriminate; eexists; split; reflexivity. }
  split; [simpl; lia|]. split; [unfold distinct; simpl; repeat constructor; simpl; lia|]. split.
  { intros e [<-|[]]. exists 0. split; [intros; lia|]. left. repeat split; simpl; lia. }
  remember (build_fit _ _ _ _ _ _ _) as z eqn:E. vm_compute in E. subst z. eexists. split; [reflexivity|]. split; [reflexivity|]. split.
  - eexists. split; [left; reflexivity|]. split; [reflexivity|simpl; auto].
  - intros (e & [<-|[]] & _ & [H|[]]). discriminate.
Qed.
(** With three rows in the second fit there is no model. *)
Example C126_rows_ex_main :
  exists s, build_fit (candidates ex_row (fits hist_split true (new_lib (Some 200) (Some 1000) None) [run1; run3]) 200)
      None None (sq_err [1; 0; 1]%Qc) 3 (Fin 1) new_ens = (s, Err ValueError) /\ e_fit s = None.
Proof.
  remember (build_fit _ _ _ _ _ _ _) as z eqn:E. vm_compute in E. subst z. eexists. split; reflexivity.
Qed.

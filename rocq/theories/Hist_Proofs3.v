From Verif Require Import Base Num Num_Proofs Heap_Model Nsga_Model Lib_Model Lib_Spec Lib_Proofs Lib_Proofs2 Lib_Proofs3 Lib_Main
  Ens_Model Ens_Spec Ens_Proofs Ens_Proofs2 Ens_Main Hist_Model Hist_Spec Hist_Proofs Hist_Proofs2.
Require Import Permutation Sorting.
Open Scope nat_scope.

(** * The models an ensemble can choose from *)
Definition mk (row : nat -> list Qc) (S : list ev) (t : nat) : mdl :=
  mkMdl (ev_ind (nth_ev S t)) (option_map (map row) (ev_pred (nth_ev S t))) (Ok (ev_est (nth_ev S t))).
Lemma history_models l0 es r l out row : empty_lib l0 -> plain l0 -> Forall ordinary es -> distinct es -> Forall (whole (l_n l0)) es ->
  saves l0 es r = (l, out) ->
  saved out = es /\ (forall t, In t (n_best l 200 true) -> t < length es) /\
  fill None None (candidates row l 200) [] = (map (mk row es) (n_best l 200 true), Ok tt).
Proof.
  intros H1 PL H2 H3 W H4.
  assert (SV : saved out = es) by (eapply saves_whole; [apply inv_empty; exact H1|exact H2|exact H3|exact PL|exact W|exact H4]).
  split; auto.
  destruct (C32_best_kept_main l0 es r l out H1 H2 H3 H4) as (P & SR & TL & TS & TB).
  destruct (C33_n_best_main l0 es r l out 200 true H1 H2 H3 H4) as (BN & BL & BI & _ & _).
  { destruct (l_m l0); auto. }
  destruct (C34_top_readable_main l0 es r l out H1 H2 H3 H4) as (RD & _ & _).
  rewrite SV in *. set (best := n_best l 200 true) in *.
  assert (IR : forall t, In t best -> t < length es).
  { intros t Ht. apply BI in Ht. assert (Q : In t (seq 0 (length es))) by (eapply Permutation_in; [exact P|apply in_or_app; auto]).
    apply in_seq in Q. lia. }
  split; auto.
  assert (PLl : plain l).
  { destruct (saves_app es [] l0 r PL W) as (l1 & o1 & A & B & _). rewrite A in H4. congruence. }
  assert (FL : forall ts acc, incl ts best ->
    fill None None (map (fun u => mkEntry (ev_ind (obj l u))
                 (do p <- get_predictions l u; Ok (match p with Some rows => Some (map row rows) | None => None end))
                 (get_estimators l u)) ts) acc = (acc ++ map (mk row es) ts, Ok tt)).
  { induction ts as [|t ts IH]; intros acc I; simpl; [rewrite app_nil_r; auto|].
    assert (Ht : In t best) by (apply I; simpl; auto).
    destruct (RD t (BI t Ht)) as (R1 & R2 & _ & _). unfold fetch. cbn [n_pred n_est n_id]. rewrite R2. cbn [rbind].
    rewrite IH; [|intros y Hy; apply I; simpl; auto]. rewrite <- app_assoc. simpl. do 3 f_equal.
    unfold mk. rewrite R1. destruct (SR t (IR t Ht)) as (E1 & _). rewrite E1.
    rewrite Forall_forall in W. destruct (W (nth_ev es t)) as (p & Ep & Ap); [apply nth_In; auto|]. rewrite Ep. unfold kept.
    destruct (l_n l0) as [[|n0]|]; [simpl in Ap; lia| |]; destruct PLl as [-> | ->]; reflexivity. }
  unfold candidates. fold best. rewrite FL; [reflexivity|apply incl_refl].
Qed.
Lemma mk_ids l0 es r l out row : empty_lib l0 -> Forall ordinary es -> distinct es -> saves l0 es r = (l, out) -> saved out = es ->
  NoDup (map m_id (map (mk row es) (n_best l 200 true))).
Proof.
  intros H1 H2 H3 H4 SV.
  destruct (C32_best_kept_main l0 es r l out H1 H2 H3 H4) as (P & SR & TL & TS & TB).
  destruct (C33_n_best_main l0 es r l out 200 true H1 H2 H3 H4) as (BN & BL & BI & _ & _).
  { destruct (l_m l0); auto. }
  rewrite SV in *. set (best := n_best l 200 true) in *.
  assert (IR : forall t, In t best -> t < length es).
  { intros t Ht. apply BI in Ht. assert (Q : In t (seq 0 (length es))) by (eapply Permutation_in; [exact P|apply in_or_app; auto]).
    apply in_seq in Q. lia. }
  rewrite map_map. simpl. clearbody best. clear SV BL. revert BN IR BI. induction best as [|t best IH]; intros BN IR BI; simpl; constructor.
  - inversion BN; subst. intros K. apply in_map_iff in K as (v & E & Hv).
    assert (v = t); [|subst; auto]. unfold nth_ev in E. fold de in E. apply (distinct_inj es v t); auto; try (apply IR; simpl; auto).
    + apply TS, BI; simpl; auto.
    + apply TS, BI; simpl; auto.
  - inversion BN; subst. apply IH; auto; intros; [apply IR|]; simpl; auto. intros z Hz. apply BI; simpl; auto.
Qed.
Lemma greedy_weight r c score lib : forall n ms x ms' x', greedy_run r c score lib n ms x ms' x' ->
  forall k, weight_of k ms <= weight_of k ms'.
Proof.
  induction 1 as [|n ms x ms1 x1 ms2 x2 (m & _ & W & _) G IH]; intros k; auto. specialize (IH k). rewrite W in IH. lia.
Qed.
Lemma weight_member k ms : 0 < weight_of k ms -> exists m w, In (m, w) ms /\ m_id m = k.
Proof.
  induction ms as [|[m w] ms IH]; [unfold weight_of; simpl; lia|]. rewrite weight_of_cons. destruct (Nat.eqb_spec k (m_id m)) as [->|].
  - intros _. exists m, w. simpl. auto.
  - intros H. destruct IH as (m' & w' & A & B); [lia|]. exists m', w'. simpl. auto.
Qed.

(** * Tables of different sizes *)
Lemma mzip_len f : forall a b m, mzip f a b = Ok m -> length a = length b /\ length m = length a.
Proof.
  induction a as [|x a IH]; intros [|y b] m E; simpl in E; try discriminate; [inversion E; auto|].
  unfold rbind in E. destruct (vzip f x y); [|discriminate]. destruct (mzip f a b) eqn:Z; [|discriminate]. inversion E; subst.
  apply IH in Z. simpl. lia.
Qed.
Lemma scan_mixed score : forall lib avg w best bs m p, In m lib -> m_pred m = Some p -> length p <> length avg ->
  exists e, scan score lib avg w best bs = Err e.
Proof.
  induction lib as [|a lib IH]; intros avg w best bs m p H E N; [destruct H|]. destruct H as [<-|H]; simpl.
  - rewrite E. destruct (mzip Qcminus p avg) as [z|e] eqn:Z; [apply mzip_len in Z; lia|]. simpl. eauto.
  - destruct (m_pred a) as [q|]; [|eauto]. unfold rbind.
    destruct (mzip Qcminus q avg) as [z|]; [|eauto]. destruct (mzip Qcplus avg _) as [c|]; [|eauto]. destruct (score c) as [sc|]; [|eauto].
    destruct (nltb bs sc); eapply IH; eauto.
Qed.
Section Mixed.
Context (raw : list entry) (tr : option (mat -> res mat)) (smp : option (list nat)) (score : mat -> res num) (lib : list mdl)
  (HF : fill tr smp raw [] = (lib, Ok tt)) (a b : mdl) (pa pb : mat)
  (HA : In a lib) (HB : In b lib) (EA : m_pred a = Some pa) (EB : m_pred b = Some pb) (NE : length pa <> length pb).
Lemma library_lib s : e_lib s = [] \/ e_lib s = lib -> exists s', model_library raw tr smp s = (s', Ok lib) /\
  e_lib s' = lib /\ e_models s' = e_models s /\ e_fit s' = e_fit s.
Proof.
  unfold model_library. intros [->|E].
  - rewrite HF. eexists. split; [reflexivity|]. auto.
  - rewrite E. destruct lib as [|x l] eqn:EL; [destruct HA|]. eexists. split; [reflexivity|]. auto.
Qed.
Lemma fold_weight : forall ms d, wsum (weights (fold_left (fun d m => add_model m d) ms d)) = wsum (weights d) + length ms.
Proof.
  induction ms as [|m ms IH]; intros d; simpl; [lia|]. rewrite IH, (add_model_weight lib). lia.
Qed.
Lemma mixed_fails size left : (2 <= size)%Z -> exists s e, build_fit raw tr smp score size left new_ens = (s, Err e) /\ e_fit s = None.
Proof.
  intros HZ. unfold build_fit, build_initial.
  set (n := (if (size <=? 10)%Z then 1 else 10)%Z).
  assert (Hn : (0 < n < size)%Z) by (unfold n; destruct (Z.leb_spec size 10); lia).
  destruct (Z.leb_spec n 0) as [?|_]; [lia|]. cbn [new_ens e_models].
  destruct (library_lib new_ens (or_introl eq_refl)) as (s1 & E1 & L1 & M1 & F1). first [rewrite E1|unfold new_ens in E1; rewrite E1].
  change (e_models new_ens) with (Some (@nil (nat * (mdl * nat)))) in M1. change (e_fit new_ens) with (@None (list (nat * nat))) in F1. rewrite M1.
  set (d := fold_left (fun d m => add_model m d) (firstn (Z.to_nat n) lib) []).
  assert (EQ : match firstn (Z.to_nat n) lib with
               | [] | _ => (set_models d s1, do a0 <- average d; do _ <- score a0; Ok tt)
               end = (set_models d s1, do a0 <- average d; do _ <- score a0; Ok tt)) by (destruct (firstn _ _); auto).
  match goal with |- context [let (_, _) := ?x in _] => replace x with (set_models d s1, do a0 <- average d; do _ <- score a0; Ok tt) end.
  2:{ unfold d. destruct (firstn (Z.to_nat n) lib); auto. }
  clear EQ. destruct (average d) as [avg|e] eqn:EAV; cbn [rbind]; [|eexists _, _; split; [reflexivity|auto]].
  destruct (score avg) as [sc|e]; cbn [rbind]; [|eexists _, _; split; [reflexivity|auto]].
  cbn [e_models set_models].
  assert (WD : (Z.of_nat (total (weights d)) <= n)%Z).
  { rewrite total_wsum. unfold d. rewrite fold_weight. simpl. pose proof (firstn_le_length (Z.to_nat n) lib). lia. }
  set (rem := (size - Z.of_nat (total (weights d)))%Z). assert (HR : (0 < rem)%Z) by (unfold rem; lia).
  destruct (Z.ltb_spec 0 rem) as [_|?]; [|lia]. unfold expand. destruct (Z.leb_spec rem 0) as [?|_]; [lia|].
  destruct (Z.to_nat rem) as [|k] eqn:EK; [lia|]. cbn [expand_loop set_models e_models]. rewrite EAV.
  destruct (library_lib (set_models d s1)) as (s2 & E2 & L2 & M2 & F2); [right; auto|]. first [rewrite E2|unfold set_models in E2; rewrite E2].
  assert (SC : exists e, scan score lib avg (total (weights d)) None NInf = Err e).
  { destruct (Nat.eq_dec (length pa) (length avg)).
    - apply (scan_mixed score lib avg _ _ _ b pb); auto. congruence.
    - apply (scan_mixed score lib avg _ _ _ a pa); auto. }
  destruct SC as (e & ->). exists s2, e. split; [reflexivity|]. rewrite F2. exact F1.
Qed.
End Mixed.

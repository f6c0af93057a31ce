(** Proofs for C153-C155: a library filled from reports, and the ensemble built from it. *)
Require Import Permutation Sorting QArith Qcanon.
From Verif Require Import Base Num Gp_Model Gp_Spec Misc_Model Lib_Model Lib_Spec Lib_Main Evo_Model Rnd_Model Rnd_Spec End_Model Mix_Model Mix_Spec.
From Verif Require Import Num_Proofs.
From Verif Require Nsga_Proofs5 Ens_Model Ens_Spec Ens_Main Pred_Model Pred_Main.
Open Scope nat_scope.
Open Scope list_scope.

Definition fine (p : report) : bool := match p_error p with None => true | Some _ => false end.
(** Evaluation number [k] is a report without error. *)
Definition good_at (l : list report) (k : nat) (i : individual) (scores : list num) : Prop :=
  nth_error l k = Some (mkRep i scores None).

Section Reports.
Context (text : individual -> string) (data : nat -> list nat * option (list nat)).
Definition as_ev (k : nat) (p : report) : ev :=
  new_ev (i_id (p_ind p)) (text (p_ind p)) (p_scores p) (p_error p) (fst (data k)) (snd (data k)).
Lemma ev_length l : forall k, length (evaluations text data k l) = length l.
Proof. induction l as [|p l IH]; intros k; simpl; auto. Qed.
Lemma ev_nth l : forall k j p, nth_error l j = Some p -> nth_ev (evaluations text data k l) j = as_ev (k + j) p.
Proof.
  induction l as [|q l IH]; intros k j p H; [destruct j; discriminate|]. destruct j; simpl in H.
  - injection H as ->. unfold nth_ev. simpl. unfold as_ev. rewrite Nat.add_0_r. reflexivity.
  - unfold nth_ev. simpl. specialize (IH (S k) j p H). unfold nth_ev in IH. rewrite IH. unfold as_ev. replace (k + S j) with (S k + j) by lia. reflexivity.
Qed.
Lemma ev_in l : forall k e, In e (evaluations text data k l) -> exists j p, nth_error l j = Some p /\ e = as_ev (k + j) p.
Proof.
  induction l as [|q l IH]; intros k e H; [destruct H|]. destruct H as [<-|H].
  - exists 0, q. split; auto. unfold as_ev. rewrite Nat.add_0_r. reflexivity.
  - destruct (IH _ _ H) as (j & p & H1 & ->). exists (S j), p. split; auto. f_equal. lia.
Qed.
Lemma ev_fine l : forall k, map ev_ind (filter successb (evaluations text data k l)) = map (fun p => i_id (p_ind p)) (filter fine l).
Proof.
  induction l as [|p l IH]; intros k; simpl; auto. unfold successb at 1, fine at 1. simpl. destruct (p_error p); simpl; rewrite IH; auto.
Qed.
End Reports.

Lemma lex_irrefl a : ~ lex_lt a a.
Proof. intros (i & _ & [(_ & _ & L)|(L1 & L2)]); [exact (nlt_irrefl _ L)|lia]. Qed.

(** The rule for the rows after some predictions were saved. *)
Definition ready (cap rows : nat) (s : sample) : Prop :=
  match s with
  | KeepAll => rows <= cap
  | Rows smp => Forall (fun i => i < rows) smp /\ length smp <= cap
  | NotSet => False
  end.
Definition may_be_ready (cap rows : nat) (s : sample) (n : option nat) : Prop :=
  match s with
  | KeepAll => rows <= cap
  | Rows smp => Forall (fun i => i < rows) smp /\ length smp <= cap
  | NotSet => match n with None => rows <= cap | Some n => Nat.min n rows <= cap end
  end.
Lemma save_sample l e r l1 x r1 : Lib_Model.save l e r = (l1, x, r1) -> exists p, process l e r = (p, r1) /\ l_sample (fst p) = l_sample l1 /\ l_n (fst p) = l_n l1.
Proof.
  unfold Lib_Model.save. destruct (process l e r) as [[l2 p] r2] eqn:EP. intros H. exists (l2, p).
  destruct p as [e1|ex]; [|injection H as <- <- <-; auto].
  destruct (ev_error e1); [injection H as <- <- <-; auto|].
  destruct (match l_m (add_obj e1 l2) with None => true | Some m => length (l_top (add_obj e1 l2)) <? m end); [injection H as <- <- <-; auto|].
  destruct (Heap_Model.heappushpop item_lt dummy (l_top (add_obj e1 l2)) (ev_score e1, length (l_objs l2))) as [removed top'].
  destruct (tuple_eq (fst removed) (ev_score e1)); [injection H as <- <- <-; auto|].
  match type of H with context[remove_from_disk ?u ?q] => destruct (remove_from_disk u q) as [l4 y] eqn:ER end.
  assert (SL : l_sample l4 = l_sample l2 /\ l_n l4 = l_n l2).
  { unfold remove_from_disk in ER. destruct (ev_file _) in ER; [|injection ER as <- <-; auto]. destruct (find_file _ _) in ER; injection ER as <- <-; auto. }
  destruct SL as [SL1 SL2]. destruct y; injection H as <- <- <-; simpl; rewrite SL1, SL2; auto.
Qed.
Lemma process_ready cap rows l e r l2 p r2 : l_n l <> Some 0 -> may_be_ready cap rows (l_sample l) (l_n l) -> rows_of rows e -> process l e r = (l2, p, r2) ->
  l_n l2 = l_n l /\ may_be_ready cap rows (l_sample l2) (l_n l) /\ (ready cap rows (l_sample l) -> ready cap rows (l_sample l2)) /\ (ev_pred e <> None -> ready cap rows (l_sample l2)).
Proof.
  intros HN MR RO EP. unfold process in EP.
  assert (E0 : match l_n l with Some 0 => with_pred None e | _ => e end = e) by (destruct (l_n l) as [[|]|]; congruence). rewrite E0 in EP. clear E0.
  unfold rows_of in RO. destruct (ev_pred e) as [p0|] eqn:Ep.
  2:{ injection EP as <- <- <-. split; auto. split; auto. split; [auto|congruence]. }
  destruct (l_sample l) as [| |smp] eqn:Es.
  - unfold determine in EP. destruct (l_n l) as [n|] eqn:En.
    + destruct (Nat.ltb_spec n (length p0)) as [LT|GE].
      * destruct (Nsga_Proofs5.rsample_ok n (seq 0 (length p0)) r) as (xs & r' & E & A & B & C); [apply seq_NoDup|rewrite seq_length; lia|].
        rewrite E in EP. cbn [l_sample set_sample] in EP.
        assert (R : ready cap rows (Rows xs)).
        { simpl in MR. split; [|simpl in *; lia]. apply Forall_forall. intros i Hi. apply C, in_seq in Hi. lia. }
        destruct (pick xs p0); injection EP as <- <- <-; cbn [l_sample l_n set_sample]; split; auto.
      * cbn [l_sample set_sample] in EP. injection EP as <- <- <-. cbn [l_sample l_n set_sample]. split; auto. simpl in *. split; [lia|]. split; lia.
    + cbn [l_sample set_sample] in EP. injection EP as <- <- <-. cbn [l_sample l_n set_sample]. split; auto.
  - cbn in EP. rewrite Es in EP. injection EP as <- <- <-. rewrite Es. auto.
  - cbv beta iota zeta in EP. rewrite Es in EP. destruct (pick smp p0); injection EP as <- <- <-; rewrite Es; auto.
Qed.
Lemma saves_ready cap rows es : forall l r l1 out, l_n l <> Some 0 -> may_be_ready cap rows (l_sample l) (l_n l) -> Forall (rows_of rows) es -> saves l es r = (l1, out) ->
  (ready cap rows (l_sample l) -> ready cap rows (l_sample l1)) /\ ((exists e, In e es /\ ev_pred e <> None) -> ready cap rows (l_sample l1)).
Proof.
  induction es as [|e es IH]; intros l r l1 out HN MR RO H; simpl in H.
  - injection H as <- <-. split; auto. intros (e & [] & _).
  - destruct (Lib_Model.save l e r) as [[l2 x] r1] eqn:E1. destruct (saves l2 es r1) as [l3 xs] eqn:E2. injection H as <- <-.
    destruct (save_sample _ _ _ _ _ _ E1) as ([l2' p] & EP & ES & EN). cbn [fst] in ES, EN. inversion RO as [|? ? R1 R2]; subst.
    destruct (process_ready cap rows l e r l2' p r1 HN MR R1 EP) as (N & M & K1 & K2). rewrite ES in *. rewrite EN in N.
    destruct (IH l2 r1 l3 xs) as (I1 & I2); auto; [congruence|rewrite N; auto|]. split; [auto|]. intros (e0 & [<-|He] & P); [auto|]. apply I2. eauto.
Qed.

Section Ensemble.
Context {A : Type} (l0 : lib) (rr : rng) (data : nat -> list nat * option (list nat))
  (row : nat -> list Qc) (tr : option (Ens_Model.mat -> res Ens_Model.mat))
  (metric : list A -> Ens_Model.mat -> res num) (task : option bool)
  (size : positive) (hillclimb models : pyval) (y : list A) (left : num) (r : rng) (s : st) (reps : list report).
Notation opts := (ensemble_hps (VNum (Zpos size # 1)) hillclimb models).
Notation model := (ensemble_model l0 rr data row tr metric task opts y left r s reps).
Notation es := (evaluations (text_in s) data 0 reps).
Hypothesis ND : NoDup (map (fun p => i_id (p_ind p)) (filter fine reps)).
Hypothesis NU : Forall (fun p => Forall (fun x => x <> NaN) (p_scores p)) reps.
Hypothesis NL : new_library (length y) l0.

Lemma good_report k i sc : good_at reps k i sc <-> exists p, nth_error reps k = Some p /\ fine p = true /\ p_ind p = i /\ p_scores p = sc.
Proof.
  unfold good_at. split.
  - intros H. eexists. split; [exact H|]. auto.
  - intros ([i' sc' er] & H & F & <- & <-). unfold fine in F. simpl in *. destruct er; [discriminate|auto].
Qed.
Lemma id_inj k k' i i' sc sc' : good_at reps k i sc -> good_at reps k' i' sc' -> i_id i = i_id i' -> k = k'.
Proof.
  unfold good_at. clear - ND. revert k k'. induction reps as [|p l IH]; intros k k' H H' E; [destruct k; discriminate|].
  destruct k, k'; simpl in H, H'; auto.
  - exfalso. injection H as ->. simpl in ND. apply NoDup_cons_iff in ND as [NI _]. apply NI. rewrite E.
    apply (in_map (fun p => i_id (p_ind p)) _ (mkRep i' sc' None)). apply filter_In. split; [|auto]. eapply nth_error_In; eauto.
  - exfalso. injection H' as ->. simpl in ND. apply NoDup_cons_iff in ND as [NI _]. apply NI. rewrite <- E.
    apply (in_map (fun p => i_id (p_ind p)) _ (mkRep i sc None)). apply filter_In. split; [|auto]. eapply nth_error_In; eauto.
  - f_equal. eapply IH; eauto. simpl in ND. destruct (fine p); [apply NoDup_cons_iff in ND; tauto|auto].
Qed.
Lemma es_ordinary : Forall ordinary es.
Proof.
  apply Forall_forall. intros e He. apply ev_in in He as (j & p & Hj & ->). split; auto. simpl. rewrite Forall_forall in NU. apply NU. eapply nth_error_In; eauto.
Qed.
Lemma es_distinct : distinct es.
Proof. unfold distinct. rewrite ev_fine. exact ND. Qed.
Lemma es_success k : k < length reps -> success (nth_ev es k) -> good_at reps k (p_ind (nth k reps (mkRep (mkInd 0 0 [] "") [] None))) (p_scores (nth k reps (mkRep (mkInd 0 0 [] "") [] None))).
Proof.
  intros L S. destruct (nth_error reps k) as [p|] eqn:E; [|apply nth_error_None in E; lia]. rewrite (ev_nth _ _ _ 0 k p E) in S. unfold success in S. simpl in S.
  unfold good_at. rewrite (nth_error_nth _ _ _ E), E. destruct p as [i sc er]. simpl in *. subst er. reflexivity.
Qed.

Section Filled.
Hypothesis RW : forall k, match snd (data k) with Some p => length p = length y | None => True end.
Lemma es_rows : Forall (rows_of (length y)) es.
Proof. apply Forall_forall. intros e He. apply ev_in in He as (j & p & _ & ->). unfold rows_of. simpl. apply RW. Qed.
Lemma below_rows : rows_below (length y) (l_sample l0).
Proof. destruct NL as (_ & _ & _ & H). unfold rows_below. destruct (l_sample l0); auto. tauto. Qed.
Lemma filled l out : saves l0 es rr = (l, out) -> saved out = es.
Proof. intros H. destruct NL as (E & _). apply (C32_no_exception_main l0 es rr l out (length y) E es_ordinary es_distinct below_rows es_rows H). Qed.

Lemma best_good l out t : saves l0 es rr = (l, out) -> In t (n_best l 200 true) ->
  exists i sc, good_at reps t i sc /\ ev_ind (nth_ev es t) = i_id i /\ ev_est (nth_ev es t) = fst (data t) /\ among_best (good_at reps) (l_m l0) sc.
Proof.
  intros H Ht. destruct NL as (E & _ & HM & _). pose proof (filled l out H) as F.
  destruct (C32_best_kept_main l0 es rr l out E es_ordinary es_distinct H) as (P & _ & TL & TS & _).
  destruct (C33_n_best_main l0 es rr l out 200 true E es_ordinary es_distinct H) as (BN & BL & BI & _ & BB); [destruct (l_m l0); auto|].
  rewrite F in *. clear F.
  assert (LT : t < length reps).
  { rewrite <- (ev_length (text_in s) data reps 0). assert (Q : In t (seq 0 (length es))) by (eapply Permutation_in; [exact P|apply in_or_app; left; apply BI; auto]). apply in_seq in Q. lia. }
  pose proof (es_success t LT (TS t (BI t Ht))) as G. set (i := p_ind _) in G. set (sc := p_scores _) in G. exists i, sc. split; auto.
  assert (EV : forall k i sc, good_at reps k i sc -> nth_ev es k = as_ev (text_in s) data k (mkRep i sc None)) by (intros k i1 sc1 H1; apply (ev_nth (text_in s) data reps 0 k _ H1)).
  rewrite (EV _ _ _ G). split; auto. split; auto. intros better NB HB.
  assert (IN : forall k, In k better -> In k (n_best l 200 true) /\ k <> t).
  { intros k Hk. destruct (HB k Hk) as (i' & sc' & G' & L). split.
    - destruct (in_dec Nat.eq_dec k (n_best l 200 true)) as [Hi|N]; auto. exfalso. revert L.
      assert (K := BB t k Ht). rewrite (EV _ _ _ G), (EV _ _ _ G') in K. simpl in K. apply K; auto.
      + rewrite ev_length. apply nth_error_Some. unfold good_at in G'. congruence.
      + reflexivity.
    - intros ->. unfold good_at in G, G'. rewrite G in G'. injection G' as _ <-. exact (lex_irrefl _ L). }
  assert (LE : S (length better) <= length (n_best l 200 true)).
  { change (S (length better)) with (length (t :: better)). apply NoDup_incl_length.
    - constructor; auto. intros K. apply (proj2 (IN t K)). auto.
    - intros k [<-|Hk]; auto. apply IN. auto. }
  rewrite BL, TL in LE. split; [lia|]. destruct (l_m l0) as [m|]; auto. lia.
Qed.
Lemma good_success k i sc : good_at reps k i sc -> nth_ev es k = as_ev (text_in s) data k (mkRep i sc None).
Proof. intros H. apply (ev_nth (text_in s) data reps 0 k _ H). Qed.
Lemma good_in k i sc : good_at reps k i sc -> In (nth_ev es k) es.
Proof. intros H. apply nth_In. rewrite ev_length. apply nth_error_Some. unfold good_at in H. congruence. Qed.
Lemma in_good e : In e es -> success e -> exists k i sc, good_at reps k i sc /\ e = as_ev (text_in s) data k (mkRep i sc None).
Proof.
  intros He S. apply ev_in in He as (j & [i sc er] & Hj & ->). unfold success in S. simpl in S. subst er. exists j, i, sc. auto.
Qed.

Lemma ensemble_ok c : delivers (length y) (good_at reps) data ->
  (forall n, Ens_Spec.readable row tr n c) -> (forall y1, Ens_Spec.scores (length y1) c (metric y1)) -> nlt (Fin 0) left ->
  (exists k i sc, good_at reps k i sc) ->
  exists e, model = Ok (e, Ok tt) /\ ensemble_of (good_at reps) data (l_m l0) (Pos.to_nat size) e.
Proof.
  intros (_ & DV) RD SC LF (k0 & i0 & sc0 & G0). unfold ensemble_model, library. destruct (saves l0 es rr) as [l out] eqn:ES. cbn [fst].
  pose proof (filled l out ES) as F. pose proof NL as (E & HN & HM & HS).
  assert (RDY : ready 10000 (length y) (l_sample l)).
  { apply (saves_ready 10000 (length y) es l0 rr l out HN HS es_rows ES). exists (nth_ev es k0). split; [eapply good_in; eauto|].
    rewrite (good_success _ _ _ G0). apply (DV _ _ _ G0). }
  destruct (Pred_Main.C114_size_partial_main A l0 es rr l out row tr task (length y) c metric y size hillclimb models left r) as (e & x & EP & T1 & T2 & T3 & T4); auto.
  - apply es_ordinary.
  - apply es_distinct.
  - rewrite F. unfold successes. assert (I : In (nth_ev es k0) (filter successb es)).
    { apply filter_In. split; [eapply good_in; eauto|]. rewrite (good_success _ _ _ G0). reflexivity. }
    destruct (filter successb es); [destruct I|simpl; lia].
  - rewrite F. intros e He S. destruct (in_good e He S) as (k & i & sc & G & ->). simpl. pose proof (RW k) as R. destruct (DV _ _ _ G) as (D & _).
    destruct (snd (data k)) as [p|]; [eauto|congruence].
  - intros y1 HY. replace (length (Ens_Spec.stored (l_sample l) (length y))) with (length y1); auto.
    rewrite <- (map_length Some y1), HY, map_length. auto.
  - rewrite F in *.
    destruct T4 as (-> & fitted & F1 & F2 & F3); auto.
    { intros e' He S. destruct (in_good e' He S) as (k & i & sc & G & ->). simpl. apply (DV _ _ _ G). }
    exists e. split; [rewrite EP; reflexivity|]. split; auto. split; auto. rewrite Forall_forall in T2. split.
    + intros m w Hm. destruct (T2 _ Hm) as (W & t & Ht & Im & _). simpl in W, Im. split; auto.
      destruct (best_good l out t ES Ht) as (i & sc & G & E1 & E2 & AB). exists t, i, sc. split; auto. split; [congruence|auto].
    + exists fitted. split; auto. split; auto. intros e' w. rewrite F3. split.
      * intros (m & t & Hm & Ht & Im & Ie). destruct (best_good l out t ES Ht) as (i & sc & G & E1 & E2 & AB).
        exists m, t, i, sc. split; auto. split; auto. split; [congruence|]. rewrite <- E2. auto.
      * intros (m & k & i & sc & Hm & G & Im & Ie). destruct (T2 _ Hm) as (_ & t & Ht & Im' & _). cbn [fst] in Im'. exists m, t. split; auto. split; auto. split; auto.
        destruct (best_good l out t ES Ht) as (i' & sc' & G' & E1 & E2 & AB). rewrite E2. rewrite (id_inj t k i' i sc' sc G' G); auto. congruence.
Qed.
Lemma ensemble_none : (forall k i sc, ~ good_at reps k i sc) ->
  match model with Ok (e, x) => x = Err ZeroDivisionError /\ useless tr e | Err _ => True end.
Proof.
  intros NG. unfold ensemble_model, library. destruct (saves l0 es rr) as [l out] eqn:ES. cbn [fst].
  pose proof (filled l out ES) as F. pose proof NL as (E & HN & HM & HS).
  destruct (C32_best_kept_main l0 es rr l out E es_ordinary es_distinct ES) as (P & _ & TL & TS & _).
  destruct (C33_n_best_main l0 es rr l out 200 true E es_ordinary es_distinct ES) as (_ & _ & BI & _); [destruct (l_m l0); auto|].
  assert (B : n_best l 200 true = []).
  { destruct (n_best l 200 true) as [|t q] eqn:EB; auto. exfalso. assert (Ht : In t (n_best l 200 true)) by (rewrite EB; left; auto).
    destruct (best_good l out t ES Ht) as (i & sc & G & _). exact (NG _ _ _ G). }
  unfold Pred_Model.post_process. assert (EO : hp opts "ensemble_size" = Some (VNum (Zpos size # 1))) by reflexivity. rewrite EO. cbv beta iota.
  destruct (Pred_Model.int_of (VNum (Zpos size # 1))) as [z|]; cbn [fst]; auto. unfold Pred_Model.build_fit_ensemble.
  match goal with |- context[let (i, r') := ?q in _] => destruct q as [i r'] end. cbn [fst]. destruct i as [[y1 smp]|]; cbn [rbind]; auto.
  unfold Ens_Model.candidates. rewrite B. cbn [map].
  pose proof (Ens_Main.C54_empty_library_main tr smp (metric y1) z left) as EL.
  destruct (Ens_Model.build_fit [] tr smp (metric y1) z left Ens_Model.new_ens) as [e x] eqn:EB. cbn [fst snd] in *.
  destruct (EL unit (fun _ _ => Ok []) tt) as (X1 & X2 & _). split; auto. split; auto.
  intros X call q. exact (proj2 (proj2 (EL X call q))).
Qed.
End Filled.
End Ensemble.

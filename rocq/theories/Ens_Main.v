(** Theorems about ensemble.py; restated in [Ens_Props.v]. *)
(*IMPORTS*)
From Verif Require Import Base Num Nsga_Model Lib_Model Lib_Spec Lib_Main Ens_Model Ens_Spec.
Open Scope nat_scope.
(*END*)
Require Import Permutation Sorting.
From Verif Require Import Num_Proofs Nsga_Proofs5 Ens_Proofs Ens_Proofs2 Ens_Proofs3.

Lemma members_of s d : e_models s = Some d -> members s = map snd d.
Proof. unfold members. intros ->. reflexivity. Qed.
Lemma total_of s d : e_models s = Some d -> total_weight (members s) = wsum (weights d).
Proof. intros E. rewrite (members_of s d E). unfold total_weight, weights. rewrite map_map. reflexivity. Qed.

(** C54. Building from a library with predictions and a metric that gives numbers:
    the total weight is the requested size (at least one), members come from the
    library, have positive weight, and occur once; with time left and readable
    estimators, every estimator of every member is used with its weight; with no
    time left nothing is fitted.
    [lib] is what the property model_library returns, built from [raw]. *)
Lemma C54_total_weight_main : forall raw tr smp score r c lib size left s x,
  fill tr smp raw [] = (lib, Ok tt) -> lib <> [] -> Forall (usable r c) lib -> scores r c score ->
  build_fit raw tr smp score size left new_ens = (s, x) ->
  total_weight (members s) = Z.to_nat (Z.max size 1) /\
  Forall (fun mw => In (fst mw) lib /\ 1 <= snd mw) (members s) /\
  NoDup (map (fun mw => m_id (fst mw)) (members s)) /\
  (nlt (Fin 0) left -> (forall m, In m lib -> exists es, m_est m = Ok es /\ es <> []) ->
     x = Ok tt /\ exists l, e_fit s = Some l /\ l <> [] /\
       forall e w, In (e, w) l <-> exists m es, In (m, w) (members s) /\ m_est m = Ok es /\ In e es) /\
  (nle left (Fin 0) -> x = Err ValueError /\ e_fit s = None).
Proof.
  intros raw tr smp score r c lib size left s x HF HN HU HS HB.
  destruct (build_ok raw tr smp score r c lib HF HN HU HS size left) as (s1 & d & E & C & M & D & N & W & F1 & _).
  rewrite HB in E. clear HB.
  assert (MS : e_models s = Some d).
  { unfold fit in E. rewrite M in E. destruct d; [congruence|]. destruct (nleb left (Fin 0)); [congruence|].
    destruct (rmap _ _) in E; injection E as -> _; auto. }
  rewrite (total_of s d MS), (members_of s d MS). split; [auto|]. split; [|split; [|split]].
  - apply Forall_forall. intros [m w] H. apply in_map_iff in H as ([k mw] & EE & H). simpl in EE. subst mw.
    apply (d_each _ _ D k m w H).
  - replace (map (fun mw : mdl * nat => m_id (fst mw)) (map snd d)) with (map fst d); [apply (d_nodup _ _ D)|].
    rewrite map_map. apply map_ext_in. intros [k [m w]] H. apply (d_each _ _ D k m w H).
  - intros L H. destruct (fit_ok lib left d s1 M D N) as (l & F & NL & IL); auto.
    { unfold nlt in L. destruct left; simpl in *; auto. unfold qltb in L. apply negb_true_iff in L. auto. }
    rewrite F in E. injection E as -> ->. split; auto. exists l. auto.
  - intros L. unfold fit in E. rewrite M in E. destruct d; [congruence|]. unfold nle in L. rewrite L in E.
    injection E as -> ->. auto.
Qed.
(** C54 for a library filled by the evaluations of a search ([EvaluationLibrary] of
    C32-C36): if something was evaluated successfully and predictions are kept, the
    200 best evaluations are the candidates, the ensemble has the requested size, and the
    estimators of its members' evaluations are the fitted models. *)
Lemma C54_history_main : forall l0 es rr l out (row : nat -> list Qc) tr k c score size left s x,
  empty_lib l0 -> Forall ordinary es -> distinct es -> saves l0 es rr = (l, out) ->
  l_n l0 <> Some 0 -> l_m l0 <> Some 0 -> 0 < successes (saved out) ->
  (forall e, In e (saved out) -> success e -> exists p, ev_pred e = Some p /\ length p = k) ->
  readable row tr (length (stored (l_sample l) k)) c -> scores (length (stored (l_sample l) k)) c score ->
  build_fit (candidates row l 200) tr None score size left new_ens = (s, x) ->
  total_weight (members s) = Z.to_nat (Z.max size 1) /\
  Forall (fun mw => 1 <= snd mw /\ exists t, In t (n_best l 200 true) /\
            m_id (fst mw) = ev_ind (nth_ev (saved out) t) /\ success (nth_ev (saved out) t)) (members s) /\
  NoDup (map (fun mw => m_id (fst mw)) (members s)) /\
  (nlt (Fin 0) left -> (forall e, In e (saved out) -> success e -> ev_est e <> []) ->
     x = Ok tt /\ exists fitted, e_fit s = Some fitted /\ fitted <> [] /\
       forall e w, In (e, w) fitted <-> exists m t, In (m, w) (members s) /\ In t (n_best l 200 true) /\
         m_id m = ev_ind (nth_ev (saved out) t) /\ In e (ev_est (nth_ev (saved out) t))) /\
  (nle left (Fin 0) -> x = Err ValueError /\ e_fit s = None).
Proof.
  intros l0 es rr l out row tr k c score size left s x H1 H2 H3 H4 Hn Hm Hs Hp Hrow HS HB.
  destruct (C32_best_kept_main l0 es rr l out H1 H2 H3 H4) as (P & SR & TL & TS & TB).
  destruct (C33_n_best_main l0 es rr l out 200 true H1 H2 H3 H4) as (BN & BL & BI & _ & _).
  { destruct (l_m l0); auto. }
  destruct (C34_top_readable_main l0 es rr l out H1 H2 H3 H4) as (RD & _ & PD & ND).
  set (S := saved out) in *. set (best := n_best l 200 true) in *.
  assert (IR : forall t, In t best -> t < length S).
  { intros t Ht. apply BI in Ht. assert (Q : In t (seq 0 (length S))) by (eapply Permutation_in; [exact P|apply in_or_app; auto]).
    apply in_seq in Q. lia. }
  assert (INJ : forall t t', In t best -> In t' best -> ev_ind (nth_ev S t) = ev_ind (nth_ev S t') -> t = t').
  { assert (NT : NoDup (map (fun t => ev_ind (nth_ev S t)) (top l))) by (eapply Permutation_NoDup; [exact PD|exact ND]).
    intros t t' Ht Ht' E. apply BI in Ht. apply BI in Ht'. clear - NT Ht Ht' E. induction (top l) as [|a q IH]; [destruct Ht|].
    simpl in NT. apply NoDup_cons_iff in NT as [NI NT]. destruct Ht as [-> |Ht], Ht' as [-> |Ht']; auto.
    - exfalso. apply NI. rewrite E. apply (in_map (fun t => ev_ind (nth_ev S t))). auto.
    - exfalso. apply NI. rewrite <- E. apply (in_map (fun t => ev_ind (nth_ev S t))). auto. }
  assert (RF : forall t, In t best -> exists p, ev_pred (nth_ev S t) = Some p /\ length p = k).
  { intros t Ht. apply Hp; [apply nth_In; auto|]. apply TS, BI; auto. }
  set (app := fun p : mat => match tr with None => Ok p | Some f => f p end).
  set (mk := fun t => mkMdl (ev_ind (obj l t))
     (match app (map row (match kept (l_n l0) (l_sample l) (ev_pred (nth_ev S t)) with Some q => q | None => [] end)) with Ok q => Some q | Err _ => None end)
     (Ok (ev_est (nth_ev S t)))).
  assert (KP : forall t, In t best -> exists q, kept (l_n l0) (l_sample l) (ev_pred (nth_ev S t)) = Some q /\
      length q = length (stored (l_sample l) k)).
  { intros t Ht. destruct (RF t Ht) as (p & -> & Lp). unfold kept, stored. destruct (l_n l0) as [[|n0]|]; [congruence| |].
    - destruct (l_sample l); eexists; split; try reflexivity; rewrite ?seq_length, ?map_length; auto.
    - destruct (l_sample l); eexists; split; try reflexivity; rewrite ?seq_length, ?map_length; auto. }
  assert (MI : forall t, In t best -> m_id (mk t) = ev_ind (nth_ev S t)) by (intros t Ht; apply (SR t (IR t Ht))).
  assert (FL : forall ts acc, incl ts best ->
    fill tr None (map (fun u => mkEntry (ev_ind (obj l u))
                 (do p <- get_predictions l u; Ok (match p with Some rows => Some (map row rows) | None => None end))
                 (get_estimators l u)) ts) acc = (acc ++ map mk ts, Ok tt)).
  { induction ts as [|t ts IH]; intros acc I; simpl; [rewrite app_nil_r; auto|].
    assert (Ht : In t best) by (apply I; simpl; auto).
    destruct (RD t (BI t Ht)) as (R1 & R2 & _ & _). unfold fetch. cbn [n_pred n_est n_id]. rewrite R2. cbn [rbind].
    destruct (KP t Ht) as (q & KQ & LQ). destruct (Hrow q LQ) as (q' & AQ & _).
    assert (E : mk t = mkMdl (ev_ind (obj l t)) (Some q') (get_estimators l t)).
    { assert (AP : app (map row q) = Ok q') by exact AQ. unfold mk. rewrite KQ, AP, R1. reflexivity. }
    rewrite KQ. destruct tr as [f|]; cbn [rbind].
    - rewrite AQ. cbn [rbind]. rewrite <- E, IH; [|intros y Hy; apply I; simpl; auto]. rewrite <- app_assoc. reflexivity.
    - injection AQ as AQ. rewrite AQ. match goal with |- fill _ _ _ (_ ++ [?z]) = _ => change z with (mkMdl (ev_ind (obj l t)) (Some q') (get_estimators l t)) end. rewrite <- E, IH; [|intros y Hy; apply I; simpl; auto]. rewrite <- app_assoc. reflexivity. }
  assert (NE : best <> []).
  { intros K. rewrite K in BL. rewrite TL in BL. destruct (l_m l0) as [[|m]|]; [congruence| |]; destruct (successes S); simpl in BL; try lia; discriminate. }
  destruct (C54_total_weight_main (candidates row l 200) tr None score (length (stored (l_sample l) k)) c (map mk best) size left s x)
    as (A & B & C & D & F); auto.
  - unfold candidates. fold best. rewrite FL; [reflexivity|apply incl_refl].
  - destruct best; [congruence|discriminate].
  - apply Forall_forall. intros m Hm'. apply in_map_iff in Hm' as (t & <- & Ht). destruct (KP t Ht) as (q & Eq & Lq).
    destruct (Hrow q Lq) as (q' & AQ & SQ). exists q'. split; auto. assert (AP : app (map row q) = Ok q') by exact AQ. unfold mk. cbn [m_pred]. rewrite Eq, AP. auto.
  - split; auto. split; [|split; auto; split; auto].
    + eapply Forall_impl; [|exact B]. intros [m w] [Im Iw]. cbn [fst snd] in *. split; auto. apply in_map_iff in Im as (t & <- & Ht).
      exists t. split; [auto|]. split; [apply MI; auto|]. apply TS, BI; auto.
    + intros L EE. destruct D as (D1 & fitted & D2 & D3 & D4); auto.
      * intros m Hm'. apply in_map_iff in Hm' as (t & <- & Ht). exists (ev_est (nth_ev S t)).
        split; auto. apply EE; [apply nth_In; auto|]. apply TS, BI; auto.
      * split; auto. exists fitted. split; auto. split; auto. intros e w. rewrite D4. rewrite Forall_forall in B. split.
        -- intros (m & ests & IM & EM & IE). destruct (B _ IM) as (IL & _). apply in_map_iff in IL as (t & EMt & Ht). cbn [fst] in EMt. subst m.
           exists (mk t), t. split; auto. split; auto. split; auto. cbn [mk m_est] in EM. injection EM as <-. auto.
        -- intros (m & t & IM & Ht & EI & IE). destruct (B _ IM) as (IL & _). apply in_map_iff in IL as (t' & EMt & Ht'). cbn [fst] in EMt. subst m.
           rewrite MI in EI by auto. rewrite (INJ t t' Ht Ht') in IE by auto. exists (mk t'), (ev_est (nth_ev S t')). auto.
Qed.
(** C54 needs a library: with none, the error is only logged, the ensemble stays
    unfitted, and predicting with it is a TypeError. *)
Lemma C54_empty_library_main : forall tr smp score size left X (call : nat -> X -> res mat) (q : X),
  let s := fst (build_fit [] tr smp score size left new_ens) in
  snd (build_fit [] tr smp score size left new_ens) = Err ZeroDivisionError /\ members s = [] /\
  predict_mean tr call q s = Err TypeError.
Proof.
  intros. subst s. unfold build_fit, build_initial.
  destruct (size <=? 10)%Z; cbn; auto.
Qed.

(** C54: nothing is built or fitted for a number of models or a time that is not
    positive, nor fitted before models were chosen; the ensemble stays as it was. *)
Lemma C54_refused_main : forall raw tr smp score n timeout s,
  ((n <= 0)%Z -> build_initial raw tr smp score n s = (s, Err ValueError) /\ expand raw tr smp score n s = (s, Err ValueError)) /\
  (members s = [] -> fit timeout s = (s, Err RuntimeError)) /\
  (members s <> [] -> nle timeout (Fin 0) -> fit timeout s = (s, Err ValueError)).
Proof.
  intros raw tr smp score n timeout s. split; [|split].
  - intros H. unfold build_initial, expand. destruct (Z.leb_spec n 0); [auto|lia].
  - unfold members, fit. destruct (e_models s) as [[|x l]|]; auto. discriminate.
  - unfold members, fit. destruct (e_models s) as [[|x l]|]; try (intros K; contradiction K; reflexivity).
    intros _ H. unfold nle in H. rewrite H. reflexivity.
Qed.

(** Examples: three models, two rows; the score is minus the squared error against
    the targets 1 and 0. *)
Definition half : Qc := Q2Qc (1 # 2).
Definition col (l : list Qc) : mat := map (fun x => [x]) l.
Definition sq_err (y : list Qc) (p : mat) : res num :=
  Ok (Fin (- this (qsum (map (fun i => (at_ p i 0 - nth i y 0) * (at_ p i 0 - nth i y 0)) (seq 0 (length y)))%Qc))%Q).
Definition ex_raw : list entry :=
  [mkEntry 7 (Ok (Some (col [half; half]))) (Ok [70]); mkEntry 8 (Ok (Some (col [1; 1]%Qc))) (Ok [80; 81]);
   mkEntry 9 (Ok (Some (col [1; 0]%Qc))) (Ok [90])].
Definition ex_libm : list mdl :=
  [mkMdl 7 (Some (col [half; half])) (Ok [70]); mkMdl 8 (Some (col [1; 1]%Qc)) (Ok [80; 81]);
   mkMdl 9 (Some (col [1; 0]%Qc)) (Ok [90])].
Definition shown (s : ens) : list (nat * nat) := map (fun mw => (m_id (fst mw), snd mw)) (members s).
Lemma ex_usable : Forall (usable 2 1) ex_libm.
Proof. repeat constructor; eexists; (split; [reflexivity|split; [reflexivity|repeat constructor]]). Qed.
Lemma ex_scores y r c : scores r c (sq_err y).
Proof. intros p _. eexists. split; reflexivity. Qed.
Example C54_ex_main : fill None None ex_raw [] = (ex_libm, Ok tt) /\ Forall (usable 2 1) ex_libm /\ scores 2 1 (sq_err [1; 0]%Qc) /\
  exists s, build_fit ex_raw None None (sq_err [1; 0]%Qc) 4 (Fin 1) new_ens = (s, Ok tt) /\
    shown s = [(7, 1); (9, 3)] /\ e_fit s = Some [(70, 1); (90, 3)].
Proof.
  split; [reflexivity|]. split; [exact ex_usable|]. split; [apply ex_scores|].
  eexists. split; [|split].
  - rewrite (surjective_pairing (build_fit _ _ _ _ _ _ _)). f_equal; vm_compute; reflexivity.
  - vm_compute. reflexivity.
  - vm_compute. reflexivity.
Qed.
(** A library filled by the example history of C32 as well. *)
Definition ex_row (v : nat) : list Qc := [qn v].
Example C54_history_ex_main : exists l out, saves ex_lib ex_es [0; 1] = (l, out) /\ 0 < successes (saved out) /\
  (forall e, In e (saved out) -> success e -> exists p, ev_pred e = Some p /\ length p = 4) /\ length (stored (l_sample l) 4) = 2 /\ readable ex_row None 2 1 /\
  exists s, build_fit (candidates ex_row l 200) None None (sq_err [qn 3; qn 4]) 3 (Fin 1) new_ens = (s, Ok tt) /\ total_weight (members s) = 3 /\
    e_fit s = Some [(2, 2); (4, 1)] /\ shown s = [(2, 2); (4, 1)].
Proof.
  eexists _, _. split; [apply surjective_pairing|]. split; [vm_compute; lia|]. split.
  - intros e He. vm_compute in He. repeat destruct He as [<- |He]; try destruct He; eexists; split; reflexivity.
  - split; [vm_compute; reflexivity|]. split.
    { intros vs H. exists (map ex_row vs). split; auto. split; [rewrite map_length; auto|]. rewrite Forall_map. apply Forall_forall. reflexivity. }
    eexists. split; [|split; [|split]].
    + rewrite (surjective_pairing (build_fit _ _ _ _ _ _ _)). f_equal; vm_compute; reflexivity.
    + vm_compute. reflexivity.
    + vm_compute. reflexivity.
    + vm_compute. reflexivity.
Qed.

(** C55. Every addition by expand_ensemble is a greedy step: the recorded score is the
    score of the weighted mean of the new ensemble, and adding any other library
    model would not have scored higher. *)
Lemma C55_greedy_main : forall raw tr smp score r c lib n s s' x,
  fill tr smp raw [] = (lib, Ok tt) -> Forall (usable r c) lib -> scores r c score -> NoDup (map m_id lib) -> lib <> [] ->
  (e_lib s = [] \/ e_lib s = lib) -> (exists d, e_models s = Some d /\ NoDup (map fst d) /\ d <> [] /\
     forall k m w, In (k, (m, w)) d -> k = m_id m /\ In m lib /\ 1 <= w) ->
  (0 < n)%Z -> expand raw tr smp score n s = (s', x) ->
  x = Ok tt /\ greedy_run r c score lib (Z.to_nat n) (members s) (e_score s) (members s') (e_score s').
Proof.
  intros raw tr smp score r c lib n s s' x HF HU HS ND HN C (d & E & N1 & N2 & N3) P HX.
  destruct (expand_ok raw tr smp score r c lib HF HN HU HS n s d P C E) as (s2 & d2 & E2 & C2 & M2 & D2 & N4 & F2 & W2 & G); auto.
  { constructor; auto. }
  rewrite HX in E2. injection E2 as -> ->. split; auto. rewrite (members_of s d E), (members_of s2 d2 M2). auto.
Qed.
(** The state after building the initial ensemble meets the hypotheses. *)
Lemma C55_initial_main : forall raw tr smp score r c lib n s x,
  fill tr smp raw [] = (lib, Ok tt) -> Forall (usable r c) lib -> scores r c score -> lib <> [] ->
  (0 < n)%Z -> build_initial raw tr smp score n new_ens = (s, x) ->
  x = Ok tt /\ (e_lib s = [] \/ e_lib s = lib) /\ total_weight (members s) = Nat.min (Z.to_nat n) (length lib) /\
  initial (Z.to_nat n) lib (members s) /\
  exists d, e_models s = Some d /\ NoDup (map fst d) /\ d <> [] /\ forall k m w, In (k, (m, w)) d -> k = m_id m /\ In m lib /\ 1 <= w.
Proof.
  intros raw tr smp score r c lib n s x HF HU HS HN P HX.
  destruct (build_initial_ok raw tr smp score r c lib HF HN HU HS n P) as (s2 & d & E & C & M & D & N & W & I & _ & _).
  rewrite HX in E. injection E as -> ->. split; auto. split; auto. split; [rewrite (total_of s2 d M); auto|].
  split; [rewrite (members_of s2 d M); auto|]. exists d. split; auto. split; [apply (d_nodup _ _ D)|]. split; auto. apply (d_each _ _ D).
Qed.
(** The whole construction: one unit for each of the ten best library models (for the
    best only, if at most ten are wanted), then greedy additions up to the size. *)
Lemma C55_whole_main : forall raw tr smp score r c lib size left s x,
  fill tr smp raw [] = (lib, Ok tt) -> Forall (usable r c) lib -> scores r c score -> NoDup (map m_id lib) -> lib <> [] ->
  build_fit raw tr smp score size left new_ens = (s, x) ->
  exists ms0, initial (if (size <=? 10)%Z then 1 else 10) lib ms0 /\
    greedy_run r c score lib (Z.to_nat (size - Z.of_nat (total_weight ms0))) ms0 NInf (members s) (e_score s).
Proof.
  intros raw tr smp score r c lib size left s x HF HU HS ND HN HB.
  destruct (build_ok raw tr smp score r c lib HF HN HU HS size left) as (s1 & d & E & C & M & D & N & W & F1 & G).
  rewrite HB in E. destruct (G ND) as (ms0 & I0 & G0). exists ms0. split; auto.
  assert (MS : e_models s = Some d /\ e_score s = e_score s1).
  { unfold fit in E. rewrite M in E. destruct d; [congruence|]. destruct (nleb left (Fin 0)); [injection E as -> _; auto|].
    destruct (rmap _ _) in E; injection E as -> _; auto. }
  destruct MS as [MS ->]. rewrite (members_of s d MS). auto.
Qed.
Example C55_ex_main : exists s1 s2 s3, build_initial ex_raw None None (sq_err [1; 0]%Qc) 1 new_ens = (s1, Ok tt) /\
  expand ex_raw None None (sq_err [1; 0]%Qc) 1 s1 = (s2, Ok tt) /\ expand ex_raw None None (sq_err [1; 0]%Qc) 2 s1 = (s3, Ok tt) /\
  shown s1 = [(7, 1)] /\ shown s2 = [(7, 1); (9, 1)] /\ shown s3 = [(7, 1); (9, 2)].
Proof.
  do 3 eexists. split; [|split; [|split]].
  - rewrite (surjective_pairing (build_initial _ _ _ _ _ _)). f_equal; vm_compute; reflexivity.
  - rewrite (surjective_pairing (expand _ _ _ _ _ _)). f_equal; vm_compute; reflexivity.
  - rewrite (surjective_pairing (expand _ _ _ _ _ _)). f_equal; vm_compute; reflexivity.
  - vm_compute. auto.
Qed.

(** C56. The prediction of a fitted ensemble is the weighted mean of its members'
    predictions, hence between the smallest and the largest of them. *)
Lemma C56_between_main : forall X (call : nat -> X -> res mat) q s l r c,
  e_fit s = Some l -> l <> [] -> Forall (fun ew => 1 <= snd ew) l ->
  (forall e w, In (e, w) l -> exists p, call e q = Ok p /\ shape r c p) ->
  exists m, predict_mean None call q s = Ok m /\ shape r c m /\
  (exists ps, Forall2 (fun ew pw => call (fst ew) q = Ok (fst pw) /\ snd ew = snd pw) l ps /\ is_mean r c ps m) /\
  forall i j lo hi, i < r -> j < c ->
    (forall e w p, In (e, w) l -> call e q = Ok p -> (lo <= at_ p i j)%Qc /\ (at_ p i j <= hi)%Qc) ->
    (lo <= at_ m i j)%Qc /\ (at_ m i j <= hi)%Qc.
Proof.
  intros X call q s l r c E N W H. destruct (predict_mean_ok call q s l r c E N H) as (ps & m & P & M & F).
  exists m. split; auto. split; [apply M|]. split.
  - exists ps. split; auto. clear - F. induction F as [|? ? ? ? (A & B & C)]; constructor; auto.
  - intros i j lo hi Hi Hj B. apply (mean_between r c ps m i j lo hi M); auto.
    + rewrite (fa2_wsum call q r c l ps F). apply pos_wsum; auto.
    + intros p w Hp. destruct (fa2_in _ _ _ _ F Hp) as ([e w0] & He & A & _). simpl in A. apply (B e w0 p He A).
Qed.
(** C56, classification: predict_proba gives distributions, whether the members'
    probabilities or their votes are averaged. *)
Lemma C56_distribution_main : forall X requires cats (proba : nat -> X -> res mat) label q s l r,
  e_fit s = Some l -> l <> [] -> Forall (fun ew => 1 <= snd ew) l -> NoDup cats ->
  (forall e w, In (e, w) l -> if requires : bool
     then exists p, proba e q = Ok p /\ shape r (length cats) p /\ Forall distribution p
     else exists ys, label e q = Ok ys /\ length ys = r /\ Forall (fun y => In y cats) ys) ->
  exists m, predict_proba requires cats proba label q s = Ok m /\ shape r (length cats) m /\ Forall distribution m.
Proof.
  intros X requires cats proba label q s l r E N W ND H. unfold predict_proba.
  set (call := fun e x => if requires then proba e x else do l0 <- label e x; encode cats l0).
  assert (HC : forall e w, In (e, w) l -> exists p, call e q = Ok p /\ shape r (length cats) p /\ Forall distribution p).
  { intros e w Hx. specialize (H e w Hx). unfold call. destruct requires; auto. destruct H as (ys & Ey & Ly & F).
    rewrite Ey. cbn [rbind]. rewrite (encode_ok cats ys F). exists (map (one_hot cats) ys). split; auto. split.
    - split; [rewrite map_length; auto|]. rewrite Forall_map. apply Forall_forall. intros y _. apply one_hot_len.
    - rewrite Forall_map. eapply Forall_impl; [|exact F]. intros y Hy. split; [apply one_hot_nonneg|apply one_hot_sum; auto]. }
  destruct (predict_mean_ok call q s l r (length cats) E N) as (ps & m & P & M & F).
  { intros e w Hx. destruct (HC e w Hx) as (p & A & B & _). exists p. auto. }
  exists m. split; auto. destruct M as [Sm Em]. split; auto.
  assert (WP : 0 < wsum (map snd ps)) by (rewrite (fa2_wsum call q r _ l ps F); apply pos_wsum; auto).
  assert (HD : forall p w, In (p, w) ps -> shape r (length cats) p /\ Forall distribution p).
  { intros p w Hp. destruct (fa2_in _ _ _ _ F Hp) as ([e w0] & He & A & B & C). simpl in A. split; auto.
    destruct (HC e w0 He) as (p' & A' & _ & B'). replace p with p' by congruence. auto. }
  apply Forall_forall. intros v Hv. apply (In_nth _ _ []) in Hv as (i & Hi & <-). destruct Sm as [L1 L2]. rewrite L1 in Hi.
  split.
  - apply Forall_forall. intros y Hy. apply (In_nth _ _ 0%Qc) in Hy as (j & Hj & <-).
    rewrite (row_len r (length cats) m i) in Hj by (auto; split; auto).
    change (0 <= at_ m i j)%Qc. rewrite (Em i j Hi Hj). apply div_ge; auto.
    apply (qsum_bound (fun pw : mat * nat => at_ (fst pw) i j) snd). intros [p w] Hp. simpl.
    destruct (HD p w Hp) as [[S1 S2] D]. rewrite Forall_forall in D. destruct (D (nth i p [])) as [D1 _]; [apply nth_In; lia|].
    rewrite Forall_forall in D1. apply D1. apply nth_In. rewrite (row_len r (length cats) p i); auto. split; auto.
  - apply (mean_row_sum r (length cats) ps m i); auto; [split; [split|]; auto|].
    intros p w Hp. destruct (HD p w Hp) as [[S1 S2] D]. split; [split; auto|]. rewrite Forall_forall in D. apply (D (nth i p [])). apply nth_In; lia.
Qed.
(** C56, classification: predict answers with a class of the largest averaged
    probability in the row, in the words of the label encoder if there is one. *)
Lemma C56_class_main : forall X requires cats (proba : nat -> X -> res mat) label q s r p names,
  predict_proba requires cats proba label q s = Ok p -> shape r (length cats) p -> cats <> [] ->
  exists ys, predict requires cats names proba label q s = Ok (match names with None => ys | Some f => map f ys end) /\
    length ys = r /\
    forall i, i < r -> exists j, j < length cats /\ nth i ys 0 = nth j cats 0 /\
      forall k, k < length cats -> (at_ p i k <= at_ p i j)%Qc.
Proof.
  intros X requires cats proba label q s r p names E S N. unfold predict. rewrite E. cbn [rbind]. eexists. split; [reflexivity|].
  destruct S as [L F]. split; [unfold decode; rewrite map_length; auto|]. intros i Hi.
  pose proof (row_len r (length cats) p i (conj L F) Hi) as RL.
  destruct (argmax_ok (nth i p [])) as [A B]; [destruct (nth i p []); [destruct cats; simpl in *; congruence|discriminate]|].
  exists (argmax (nth i p [])). rewrite RL in *. split; auto. split; [|exact B].
  unfold decode. rewrite (nth_indep _ 0 (nth (argmax []) cats 0)) by (rewrite map_length; lia).
  rewrite (map_nth (fun row => nth (argmax row) cats 0)). reflexivity.
Qed.
(** C56, tuned on labels: the predicted class of a row has the largest total weight
    of members voting for it. *)
Lemma C56_majority_main : forall X cats (proba : nat -> X -> res mat) label q s l r (lab : nat -> list nat) names,
  e_fit s = Some l -> l <> [] -> Forall (fun ew => 1 <= snd ew) l -> NoDup cats -> cats <> [] ->
  (forall e w, In (e, w) l -> label e q = Ok (lab e) /\ length (lab e) = r /\ Forall (fun y => In y cats) (lab e)) ->
  exists ys, predict false cats names proba label q s = Ok (match names with None => ys | Some f => map f ys end) /\
    length ys = r /\
    forall i, i < r -> In (nth i ys 0) cats /\ forall k, In k cats ->
      wsum (map snd (filter (fun ew => k =? nth i (lab (fst ew)) 0) l)) <=
      wsum (map snd (filter (fun ew => nth i ys 0 =? nth i (lab (fst ew)) 0) l)).
Proof.
  intros X cats proba label q s l r lab names E N W ND CN H.
  set (call := fun e x => if false then proba e x else do l0 <- label e x; encode cats l0).
  assert (HC : forall e w, In (e, w) l -> call e q = Ok (map (one_hot cats) (lab e)) /\ shape r (length cats) (map (one_hot cats) (lab e))).
  { intros e w Hx. destruct (H e w Hx) as (A & B & C). unfold call. rewrite A. cbn [rbind]. rewrite (encode_ok cats _ C). split; auto.
    split; [rewrite map_length; auto|]. rewrite Forall_map. apply Forall_forall. intros y _. apply one_hot_len. }
  destruct (predict_mean_ok call q s l r (length cats) E N) as (ps & m & P & M & F).
  { intros e w Hx. destruct (HC e w Hx). eauto. }
  assert (EP : predict_proba false cats proba label q s = Ok m) by exact P.
  destruct (C56_class_main X false cats proba label q s r m names EP (proj1 M) CN) as (ys & Ey & Ly & B).
  exists ys. split; auto. split; auto. intros i Hi. destruct (B i Hi) as (j & Hj & -> & Bj). split; [apply nth_In; auto|].
  set (votes := fun k => wsum (map snd (filter (fun ew : nat * nat => k =? nth i (lab (fst ew)) 0) l))).
  assert (AT : forall k, k < length cats -> at_ m i k = (qn (votes (nth k cats 0%nat)) / qn (wsum (map snd l)))%Qc).
  { intros k Hk. destruct M as [Sm Em]. rewrite (Em i k Hi Hk), (fa2_wsum call q r _ l ps F). f_equal. unfold votes.
    rewrite <- (vote_sum (nth k cats 0) l (fun e => nth i (lab e) 0)).
    clear - F HC H Hk Hi. induction F as [|[e w] [p w'] l ps (A & B & C) F IH]; simpl; auto. simpl in A, B. subst w'.
    destruct (HC e w) as [A' _]; [simpl; auto|]. assert (p = map (one_hot cats) (lab e)) by congruence. subst p.
    destruct (H e w) as (_ & LL & _); [simpl; auto|].
    unfold qsum in *. rewrite IH.
    + f_equal. f_equal. unfold at_. rewrite (nth_indep _ [] (one_hot cats 0)) by (rewrite map_length; lia). rewrite map_nth.
      apply one_hot_nth; auto.
    + intros; apply (H e0 w0); simpl; auto.
    + intros; apply (HC e0 w0); simpl; auto. }
  intros k Hk. apply (In_nth _ _ 0) in Hk as (j' & Hj' & <-).
  apply (qn_le _ _ (wsum (map snd l))); [apply pos_wsum; auto|]. fold (votes (nth j' cats 0)) (votes (nth j cats 0)). rewrite <- !AT by auto. apply Bj; auto.
Qed.
(** C56: a member answering with a class that was not in the training labels makes
    the whole prediction fail with a ValueError, whatever its weight. *)
Lemma C56_unseen_main : forall X cats (proba : nat -> X -> res mat) label q s l names,
  e_fit s = Some l -> (forall e w, In (e, w) l -> exists ys, label e q = Ok ys) ->
  (exists e w ys y, In (e, w) l /\ label e q = Ok ys /\ In y ys /\ ~ In y cats) ->
  predict_proba false cats proba label q s = Err ValueError /\ predict false cats names proba label q s = Err ValueError.
Proof.
  intros X cats proba label q s l names E T U.
  assert (P : predict_proba false cats proba label q s = Err ValueError); [|split; [exact P|unfold predict; rewrite P; reflexivity]].
  assert (EN : forall ys, (encode cats ys = Err ValueError) \/ (exists m, encode cats ys = Ok m /\ forall y, In y ys -> In y cats)).
  { induction ys as [|y ys IH]; [right; exists []; split; [reflexivity|intros y []]|]. unfold encode in *. cbn [rmap].
    destruct (existsb (Nat.eqb y) cats) eqn:B; [|left; reflexivity]. cbn [rbind].
    destruct IH as [-> |(m & -> & I)]; [left; reflexivity|]. right. eexists. split; [reflexivity|].
    apply existsb_exists in B as (z & Z1 & Z2). apply Nat.eqb_eq in Z2. subst z. intros z [<- |Z]; auto. }
  unfold predict_proba, predict_mean. rewrite E.
  match goal with |- rbind ?r _ = _ => enough (R : r = Err ValueError) by (rewrite R; reflexivity) end.
  clear E. match goal with |- rmap ?f l = _ => remember f as F eqn:EF end.
  assert (HF : forall e w, F (e, w) = do p <- (do l0 <- label e q; encode cats l0); Ok (p, w)).
  { intros e w. subst F. cbn [fst snd]. destruct (label e q); [|reflexivity]. cbn [rbind]. destruct (encode cats a); reflexivity. }
  clear EF. induction l as [|[e w] l IH]; [destruct U as (e & w & ys & y & [] & _)|]. cbn [rmap].
  destruct (T e w) as (ys & Ey); [left; reflexivity|]. rewrite HF, Ey. cbn [rbind].
  destruct (EN ys) as [-> |(m & -> & I)]; [reflexivity|]. cbn [rbind]. rewrite IH; [reflexivity| |].
  - intros e' w' H. apply (T e' w'). right. exact H.
  - destruct U as (e' & w' & ys' & y & [K|K] & L & M & N); [|eauto 10].
    injection K as <- <-. rewrite Ey in L. injection L as <-. exfalso. auto.
Qed.
(** C56, pickling: __getstate__ empties the object's models, yet predictions stay the
    same for it and for the pickled copy; the ensemble cannot be extended any more. *)
Lemma C56_pickle_main : forall X (call : nat -> X -> res mat) q s raw tr smp score n,
  predict_mean tr call q (getstate s) = predict_mean tr call q s /\
  ((0 < n)%Z -> snd (expand raw tr smp score n (getstate s)) = Err AttributeError).
Proof.
  intros. split; [reflexivity|]. intros H. unfold expand. destruct (Z.leb_spec n 0); [lia|].
  destruct (Z.to_nat n) eqn:E; [lia|]. reflexivity.
Qed.
(** Two members of weight 1 and 3, two classes, two rows. *)
Definition ex_fit : ens := mkEns [] (Some []) NInf (Some [(0, 1); (1, 3)]).
Definition ex_label (e : nat) (q : unit) : res (list nat) := Ok (if e =? 0 then [5; 6] else [6; 6]).
Definition ex_proba (e : nat) (q : unit) : res mat := Ok (if e =? 0 then [[1; 0]; [half; half]]%Qc else [[half; half]; [0; 1]]%Qc).
Example C56_ex_main : predict false [5; 6] None ex_proba ex_label tt ex_fit = Ok [6; 6] /\
  predict true [5; 6] None ex_proba ex_label tt ex_fit = Ok [5; 6] /\
  predict_proba true [5; 6] ex_proba ex_label tt ex_fit =
    Ok [[Q2Qc (5 # 8); Q2Qc (3 # 8)]; [Q2Qc (1 # 8); Q2Qc (7 # 8)]].
Proof. split; [vm_compute; reflexivity|]. split; [vm_compute; reflexivity|]. vm_compute. do 2 f_equal; repeat f_equal; apply Qc_is_canon; reflexivity. Qed.

(** C57. For metrics on labels and for regression ([requires] false), or when nothing
    has to be sampled, and downsample_to is not 0: construction succeeds for all
    sizes, and targets and compared predictions are those of the same rows. *)
Lemma C57_aligned_partial_main : forall A (y : list A) dy lib_sample downsample_to requires r,
  lib_sample <> NotSet -> rows_below (length y) lib_sample -> downsample_to <> Some 0 ->
  (requires = true -> match downsample_to with None => True | Some k => length (stored lib_sample (length y)) <= k end) ->
  exists y' smp r' idx, init_classifier requires y lib_sample downsample_to r = (Ok (y', smp), r') /\
    y' = map (fun i => nth i y dy) idx /\
    length idx = (match downsample_to with None => length (stored lib_sample (length y))
                  | Some k => Nat.min k (length (stored lib_sample (length y))) end) /\
    forall B (p : list B) dp, length p = length y -> compared p lib_sample smp = Ok (map (fun i => nth i p dp) idx).
Proof.
  intros A y dy ls ds requires r H1 H2 H3 H4. unfold init_classifier, init.
  set (st := stored ls (length y)) in *.
  assert (ST : Forall (fun i => i < length y) st).
  { unfold st, stored. destruct ls as [| |rows]; [congruence| |exact H2]; apply Forall_forall; intros i Hi; apply in_seq in Hi; lia. }
  assert (Y1 : (match ls with NotSet => Err TypeError | KeepAll => Ok y | Rows rows => ypick rows y end) = Ok (map (fun i => nth i y dy) st)).
  { unfold st, stored. destruct ls as [| |rows]; [congruence| |].
    - f_equal. clear. induction y as [|a y IH]; auto. simpl. f_equal. rewrite <- seq_shift, map_map. exact IH.
    - rewrite (ypick_ok dy); auto. }
  rewrite Y1. clear Y1.
  assert (Q : forall B (p : list B) dp, length p = length y ->
     (match ls with Rows rows => ypick rows p | _ => Ok p end) = Ok (map (fun i => nth i p dp) st)).
  { intros B p dp L. unfold st, stored. destruct ls as [| |rows]; [congruence| |].
    - f_equal. rewrite <- L. clear. induction p as [|a p IH]; auto. simpl. f_equal. rewrite <- seq_shift, map_map. exact IH.
    - apply ypick_ok. rewrite L. exact H2. }
  destruct ds as [k|].
  - rewrite map_length. destruct (Nat.leb_spec (length st) k) as [L|L].
    + exists (map (fun i => nth i y dy) st), None, r, st. split; auto. split; auto. split; [lia|].
      intros B p dp Lp. unfold compared. rewrite (Q B p dp Lp). reflexivity.
    + destruct (rsample_ok k (seq 0 (length st)) r (seq_NoDup _ _)) as (rows & r' & E & LR & NR & IR); [rewrite seq_length; lia|].
      rewrite E. destruct requires; [specialize (H4 eq_refl); lia|]. cbn [rbind].
      assert (RB : Forall (fun i => i < length st) rows).
      { apply Forall_forall. intros i Hi. apply IR, in_seq in Hi. lia. }
      rewrite (ypick_ok dy) by (rewrite map_length; exact RB). cbn [rbind].
      assert (NC : forall B (p : list B) dp, map (fun i => nth i (map (fun j => nth j p dp) st) dp) rows = map (fun i => nth i p dp) (map (fun i => nth i st 0) rows)).
      { intros B p dp. rewrite map_map. apply map_ext_in. intros i Hi. rewrite Forall_forall in RB. specialize (RB i Hi).
        rewrite (nth_indep _ dp (nth 0 p dp)) by (rewrite map_length; lia). rewrite (map_nth (fun j => nth j p dp)). reflexivity. }
      exists (map (fun i => nth i (map (fun j => nth j y dy) st) dy) rows), (Some rows), r', (map (fun i => nth i st 0) rows).
      split; auto. split; [apply NC|]. split; [rewrite map_length; lia|]. intros B p dp Lp. unfold compared. rewrite (Q B p dp Lp). cbn [rbind].
      destruct rows as [|i0 rows0] eqn:ER; [destruct k; [congruence|discriminate]|]. rewrite <- ER in *.
      rewrite (ypick_ok dp) by (rewrite map_length; exact RB). f_equal. apply NC.
  - exists (map (fun i => nth i y dy) st), None, r, st. split; auto. split; auto. split; auto.
    intros B p dp Lp. unfold compared. rewrite (Q B p dp Lp). reflexivity.
Qed.
Example C57_ex_main : exists r', init_classifier false [10; 11; 12; 13] (Rows [3; 1; 0]) (Some 2) [2; 0] = (Ok ([10; 13], Some [2; 0]), r') /\
  rows_below 4 (Rows [3; 1; 0]) /\ compared [20; 21; 22; 23] (Rows [3; 1; 0]) (Some [2; 0]) = Ok [20; 23].
Proof. exists []. split; [reflexivity|]. split; [repeat constructor; lia|reflexivity]. Qed.
(** C57 fails when the metric needs probabilities and the library keeps more rows than
    downsample_to: the targets are sampled twice.  Whatever the data, unless all drawn
    rows happen to be among the first, construction is an IndexError; and when it
    succeeds, the targets need not belong to the compared predictions. *)
Lemma C57_downsample_refuted_main :
  (forall (y : list nat) k r rows r', k < length y -> rsample k (seq 0 (length y)) r = (Ok rows, r') ->
     Exists (fun i => k <= i) rows -> fst (init_classifier true y KeepAll (Some k) r) = Err IndexError) /\
  (exists (y y' : list nat) smp r y2, fst (init_classifier true y KeepAll (Some 2) r) = Ok (y', smp) /\
     compared y KeepAll smp = Ok y2 /\ y2 <> y').
Proof.
  split.
  - intros y k r rows r' Hk E H. unfold init_classifier, init. destruct (Nat.leb_spec (length y) k); [lia|]. rewrite E. cbn [rbind].
    assert (RB : Forall (fun i => i < length y) rows /\ length rows = k).
    { destruct (rsample_ok k (seq 0 (length y)) r (seq_NoDup _ _)) as (rows' & r2 & E' & LR & NR & IR); [rewrite seq_length; lia|].
      rewrite E in E'. injection E' as <- <-. split; auto. apply Forall_forall. intros i Hi. apply IR, in_seq in Hi. lia. }
    destruct RB as [RB LR]. rewrite (ypick_ok 0) by exact RB. cbn [rbind fst].
    assert (K : forall rs (z : list nat), Exists (fun i => length z <= i) rs -> ypick rs z = Err IndexError).
    { clear. induction rs as [|i rs IH]; intros z H; inversion H; subst; unfold ypick in *; cbn [rmap].
      - apply nth_error_None in H1. rewrite H1. reflexivity.
      - destruct (nth_error z i); [|reflexivity]. cbn [rbind]. rewrite IH by auto. reflexivity. }
    rewrite K; auto. rewrite map_length, LR. auto.
  - exists [10; 11; 12], [10; 11], (Some [1; 0]), [1; 0], [11; 10].
    split; [vm_compute; reflexivity|]. split; [reflexivity|discriminate].
Qed.
Example C57_downsample_refuted_ex_main : rsample 2 (seq 0 (length [10; 11; 12])) [2; 0] = (Ok [2; 0], []) /\ Exists (fun i => 2 <= i) [2; 0].
Proof. split; [reflexivity|]. constructor. lia. Qed.
(** C57 also fails for downsample_to = 0: an empty sample counts as no sample for the
    predictions but not for the targets. *)
Lemma C57_zero_refuted_main : forall (y : list nat) requires r, y <> [] ->
  fst (init_classifier requires y KeepAll (Some 0) r) = Ok ([], Some []) /\ compared y KeepAll (Some []) = Ok y.
Proof. intros [|a y] requires r H; [congruence|]. split; auto. unfold init_classifier, init. destruct requires; reflexivity. Qed.

(** C134, refuted: [str] of any ensemble with members raises AttributeError, in
    particular of every ensemble built as in C54; afterwards pickling makes it
    claim to have no models, although it still predicts with them. *)
Lemma C134_str_refuted_main : forall raw tr smp score r c lib size left s x,
  fill tr smp raw [] = (lib, Ok tt) -> lib <> [] -> Forall (usable r c) lib -> scores r c score ->
  build_fit raw tr smp score size left new_ens = (s, x) ->
  members s <> [] /\ ens_str s = Err AttributeError /\ e_fit (getstate s) = e_fit s /\
  ens_str (getstate s) = Ok "Ensemble with no models."%string.
Proof.
  intros raw tr smp score r c lib size left s x HF HN HU HS HB.
  destruct (C54_total_weight_main raw tr smp score r c lib size left s x HF HN HU HS HB) as (W & _).
  assert (M : members s <> []). { intros K. rewrite K in W. cbn in W. lia. }
  split; [exact M|]. split; [|split; reflexivity].
  unfold members in M. unfold ens_str. destruct (e_models s) as [[|y d]|]; try (contradiction M; reflexivity). reflexivity.
Qed.
(** C134, what holds: an ensemble without members says so. *)
Lemma C134_str_partial_main : forall s, members s = [] <-> ens_str s = Ok "Ensemble with no models."%string.
Proof.
  intros s. unfold members, ens_str. destruct (e_models s) as [[|y d]|]; try tauto. split; [discriminate|].
  cbn [rmap evaluation_getattr existsb String.eqb rbind]. discriminate.
Qed.
Example C134_ex_main : exists s, build_fit ex_raw None None (sq_err [1; 0]%Qc) 4 (Fin 1) new_ens = (s, Ok tt) /\
  ens_str s = Err AttributeError /\ ens_str new_ens = Ok "Ensemble with no models."%string.
Proof.
  eexists. split; [|split].
  - rewrite (surjective_pairing (build_fit _ _ _ _ _ _ _)). f_equal; vm_compute; reflexivity.
  - vm_compute. reflexivity.
  - reflexivity.
Qed.

(** Theorems about the ensembles of several calls of fit; restated in [Twice_Props.v]. *)
(*IMPORTS*)
Require Import Qcanon.
From Verif Require Import Base Num Lib_Model Lib_Spec Hist_Model Hist_Spec Hist_Main Twice_Model Twice_Spec.
From Verif Require Ens_Model Ens_Spec Misc_Model Mix_Spec.
Open Scope nat_scope.
Open Scope list_scope.
(*END*)
Require Import Permutation.
From Verif Require Import Lib_Proofs Lib_Proofs2 Lib_Proofs3 Lib_Main Hist_Proofs Hist_Proofs2 Hist_Main Twice_Proofs.
From Verif Require Pred_Main.

(** C156 is false for the default store, "logs": whatever the first call of fit kept,
    if it kept anything, no later call ends with a usable ensemble until so many new
    pipelines were found that they took the places of all the kept ones (which never
    happens if there was room left).  What the library kept of the first call
    cannot be read any more, so building the ensemble fails, which fit does not show,
    and predicting raises a TypeError. *)
Lemma C156_later_fit_refuted_main : forall B (split : nat -> list B -> rng -> res (list nat) * rng) classifier m n f1 l1 out fs f
    A row tr (metric : list A -> Ens_Model.mat -> res num) task options y left r e x,
  Forall ordinary (f_evs f1) -> distinct (f_evs f1) ->
  during split classifier "logs" (new_lib m n None, true) f1 = (l1, Ok out) ->
  0 < kept_of m (saved out) <= 200 -> not_enough m (kept_of m (saved out)) (fs ++ [f]) ->
  ensemble_after split classifier "logs" row tr metric task options y left r
    (afters split classifier "logs" (new_lib m n None, true) (f1 :: fs)) f = Ok (e, x) ->
  x <> Ok tt /\ Mix_Spec.useless tr e.
Proof.
  intros B split classifier m n f1 l1 out fs f A row tr metric task options y left r e x HO HD HF HK HN HE.
  destruct (first_gone split classifier m n f1 l1 out HO HD HF) as (HA & HM & HL & HU).
  assert (HL' : length (l_top l1) = kept_of m (saved out)) by exact HL. clear HL.
  set (w := Fac_Model.wipe l1) in *. set (need := if full w then successes (concat (map f_evs (fs ++ [f]))) else 0).
  assert (W : unread w (1 + need)).
  { eapply unread_less; [exact HU|]. unfold need, full. cbn [w Fac_Model.wipe l_m l_top]. rewrite HM, HL'.
    unfold not_enough in HN. destruct m as [m|].
    - destruct (Nat.ltb_spec (kept_of (Some m) (saved out)) m); cbn [negb]; [lia|]. destruct HN; lia.
    - lia. }
  unfold need in W. rewrite map_app, concat_app, successes_app in W. cbn [map concat] in W. rewrite app_nil_r in W.
  destruct (afters_gone split classifier fs w (1 + (if full w then successes (f_evs f) else 0))) as (l2 & E2 & G2 & U2).
  { eapply unread_less; [exact W|]. destruct (full w); lia. }
  unfold ensemble_after in HE. unfold afters in HE, E2. cbn [fold_left] in HE. rewrite HA, E2 in HE.
  destruct (during split classifier "logs" (l2, false) f) as [l3 z] eqn:ED.
  destruct (during_gone split classifier l2 f l3 z 1 ED) as [G3 U3]; [rewrite (full_grown _ _ G2); exact U2|].
  destruct z; [|discriminate]. eapply post_process_fails; [exact U3| |exact HE].
  pose proof (grown_trans _ _ _ G2 G3) as (_ & _ & L3 & _). rewrite L3. cbn [w Fac_Model.wipe l_top]. lia.
Qed.

Lemma keep_after : forall es l r l' out, plain l -> Forall (whole (l_n l)) es -> saves l es r = (l', out) ->
  l_sample l = KeepAll \/ es <> [] -> l_sample l' = KeepAll.
Proof.
  induction es as [|e es IH]; intros l r l' out P W E H; cbn [saves] in E.
  - injection E as <- <-. destruct H; auto. congruence.
  - inversion W; subst. destruct (save_keep l e P) as (l1 & x & A & K & N); auto. rewrite A in E. destruct (saves l1 es r) as [l2 xs] eqn:E2. injection E as <- <-.
    eapply (IH l1); [right; auto|rewrite N; auto|exact E2|left; auto].
Qed.
Lemma afters_kept {B} (split : nat -> list B -> rng -> res (list nat) * rng) classifier store : keeps store = true ->
  forall fs l, afters split classifier store (l, true) fs = (fits split classifier l fs, true).
Proof.
  intros K. induction fs as [|f fs IH]; intros l; auto. unfold afters in *. cbn [fold_left fits].
  assert (E : after split classifier store (l, true) f = (fst (fit_library split classifier l f), true)).
  { unfold after, during. cbn [fst snd]. destruct (fit_library split classifier l f) as [l1 [|]]; auto. cbn. rewrite K. reflexivity. }
  rewrite E. apply IH.
Qed.
Lemma fits_app {B} (split : nat -> list B -> rng -> res (list nat) * rng) classifier : forall fs f l,
  fits split classifier l (fs ++ [f]) = fst (fit_library split classifier (fits split classifier l fs) f).
Proof. induction fs as [|g fs IH]; intros; cbn [fits app]; auto. Qed.
Lemma fits_n {B} (split : nat -> list B -> rng -> res (list nat) * rng) classifier : forall fs l,
  l_n (fits split classifier l fs) = l_n l.
Proof.
  induction fs as [|g fs IH]; intros l; cbn [fits]; auto. rewrite IH. unfold fit_library. destruct classifier.
  - destruct (determine split l None None (Some (f_targets g)) (f_draws g)) as [[l1 x] r1] eqn:ED.
    destruct (determine_core split l l _ _ _ _ _ ED eq_refl) as (_ & _ & _ & _ & _ & _ & A). destruct x; auto.
    destruct (saves l1 (f_evs g) (f_rng g)) as [l2 o] eqn:E. destruct (saves_m_n _ _ _ _ _ E). cbn. congruence.
  - destruct (saves l (f_evs g) (f_rng g)) as [l2 o] eqn:E. destruct (saves_m_n _ _ _ _ _ E). cbn. congruence.
Qed.

(** C156, the part that holds: with store "all" or "models" every call of fit, the first
    or a later one, ends with a fitted ensemble of the requested size, if a pipeline was
    scored in some call so far.  The calls had data of the same number of rows,
    predictions are kept completely, pipelines are different objects; the time for
    post-processing is not used up. *)
Lemma C156_kept_partial_main : forall B (split : nat -> list B -> rng -> res (list nat) * rng) classifier store m n k c fs f
    A row tr (metric : list A -> Ens_Model.mat -> res num) task size hillclimb models y left r,
  In store ["all"; "models"]%string -> m <> Some 0 -> all_stored n k -> k <= 10000 ->
  Forall (on_rows k) (fs ++ [f]) -> distinct (concat (map f_evs (fs ++ [f]))) ->
  (exists g e, In g (fs ++ [f]) /\ In e (f_evs g) /\ success e) ->
  length y = k -> Ens_Spec.readable row tr k c -> Ens_Spec.scores k c (metric y) -> nlt (Fin 0) left ->
  exists e fitted,
    ensemble_after split classifier store row tr metric task
      (Misc_Model.ensemble_hps (Misc_Model.VNum (Zpos size # 1)) hillclimb models) y left r
      (afters split classifier store (new_lib m n None, true) fs) f = Ok (e, Ok tt) /\
    Ens_Spec.total_weight (Ens_Spec.members e) = Pos.to_nat size /\
    Ens_Model.e_fit e = Some fitted /\ fitted <> [] /\
    forall est w, In (est, w) fitted -> exists g, In g (fs ++ [f]) /\ trained_in g est.
Proof.
  intros B split classifier store m n k c fs f A row tr metric task size hillclimb models y left r ST Hm Hn Hk HR HD (g & b & Hg & Hb & Sb) Hy HRd HS HL.
  assert (KS : keeps store = true) by (destruct ST as [<-|[<-|[]]]; reflexivity).
  destruct (start_of split classifier m n (fs ++ [f])) as (l0 & out & E0 & P0 & M0 & N0 & SV).
  { eapply Forall_impl; [|exact HR]. intros h Hh. eapply rows_whole; eauto. }
  set (es := concat (map f_evs (fs ++ [f]))) in *. set (l := fits split classifier (new_lib m n None) (fs ++ [f])) in *.
  assert (OR : Forall ordinary es).
  { apply all_ordinary. rewrite Forall_forall in HR. eauto. }
  assert (ALL : forall e, In e es -> (exists h, In h (fs ++ [f]) /\ In e (f_evs h)) /\ ordinary e /\ (success e -> ev_est e <> []) /\ exists p, ev_pred e = Some p /\ length p = k).
  { intros e He. apply in_concat in He as (xs & Hes & He). apply in_map_iff in Hes as (h & <- & Hf).
    rewrite Forall_forall in HR. destruct (HR h Hf) as (_ & Q). rewrite Forall_forall in Q. split; eauto. }
  assert (WH : Forall (whole (l_n l0)) es).
  { apply Forall_forall. intros e He. destruct (ALL e He) as (_ & _ & _ & p & Ep & Lp). exists p. split; auto. rewrite N0, Lp. auto. }
  assert (BI : In b es) by (apply in_concat; exists (f_evs g); split; auto; apply in_map; auto).
  assert (SE : saved out = es).
  { eapply (saves_whole es l0 []); eauto. apply inv_empty; auto. }
  assert (LK : l_sample l = KeepAll).
  { eapply (keep_after es l0); eauto. right. intros K. rewrite K in BI. destruct BI. }
  destruct (Pred_Main.C114_size_partial_main A l0 es [] l out row tr task k c metric y size hillclimb models left r E0 OR HD SV) as (e & x & E1 & TW & T2 & _ & FF).
  { rewrite N0. destruct n; [|discriminate]. cbn in Hn. intros K; injection K as ->. lia. }
  { rewrite M0. auto. }
  { rewrite SE. unfold successes. destruct (filter successb es) eqn:EF; [|simpl; lia]. assert (Q : In b (filter successb es)) by (apply filter_In; split; auto; apply successb_iff; auto).
    rewrite EF in Q. destruct Q. }
  { intros e He _. rewrite SE in He. apply (ALL e He). }
  { auto. }
  { rewrite LK. auto. }
  { rewrite LK. cbn [Ens_Spec.stored]. rewrite seq_length. auto. }
  { intros y1 Hy1. rewrite LK in *. cbn [Ens_Spec.stored] in *. rewrite seq_length. assert (Y : y1 = y); [|subst; auto].
    subst k. revert y1 Hy1. clear. assert (G : map (nth_error y) (seq 0 (length y)) = map Some y).
    { induction y as [|a y IH]; auto. cbn [length seq map nth_error]. f_equal. rewrite <- seq_shift, map_map. exact IH. }
    intros y1 H. rewrite G in H. revert y H G. induction y1 as [|a y1 IH]; intros [|a' y] H G; try discriminate; auto. cbn in H. injection H as <- H. f_equal. apply IH; auto.
    cbn [length seq map nth_error] in G. injection G as G. rewrite <- seq_shift, map_map in G. exact G. }
  destruct FF as (-> & fitted & F1 & F2 & F3); auto.
  { intros e' He S. rewrite SE in He. apply (ALL e' He); auto. }
  exists e, fitted. split; [|split; [exact TW|split; [exact F1|split; [exact F2|]]]].
  - unfold ensemble_after. rewrite afters_kept by auto. unfold during. cbn [fst snd].
    assert (LL : l = fst (fit_library split classifier (fits split classifier (new_lib m n None) fs) f)) by apply fits_app.
    assert (OK : exists o, snd (fit_library split classifier (fits split classifier (new_lib m n None) fs) f) = Ok o).
    { unfold fit_library. destruct classifier.
      - rewrite determine_keep.
        + destruct (saves _ (f_evs f) (f_rng f)) as [l2 o]. exists o. reflexivity.
        + rewrite fits_n. cbn. apply Forall_app in HR as [_ HR]. inversion HR as [|? ? [H1 _] _]; subst. rewrite H1. exact Hn.
      - destruct (saves _ (f_evs f) (f_rng f)) as [l2 o]. exists o. reflexivity. }
    destruct OK as (o & OK). destruct (fit_library split classifier (fits split classifier (new_lib m n None) fs) f) as [l2 z]. cbn in LL, OK. subst l2 z.
    rewrite E1. reflexivity.
  - intros est w Hi. apply F3 in Hi as (mm & t & _ & Ht & _ & Hest). rewrite SE in Hest.
    assert (IN : t < length es /\ success (nth_ev es t)).
    { destruct (C32_best_kept_main l0 es [] l out E0 OR HD SV) as (PM & _ & _ & TS & _).
      destruct (C33_n_best_main l0 es [] l out 200 true E0 OR HD SV) as (_ & _ & BIn & _); [destruct (l_m l0); auto|].
      rewrite SE in *. assert (Q : In t (top l)) by (apply BIn; auto). split; [|apply TS; auto].
      assert (Q2 : In t (seq 0 (length es))) by (eapply Permutation_in; [exact PM|apply in_or_app; left; auto]). apply in_seq in Q2. lia. }
    destruct IN as [LT SU]. destruct (ALL (nth_ev es t)) as ((h & Hh & Hi) & _); [apply nth_In; auto|].
    exists h. split; auto. exists (nth_ev es t). auto.
Qed.

Definition once_row (v : nat) : list Qc := [Q2Qc (Z.of_nat v # 1)].
Definition once_metric (y : list Qc) (p : Ens_Model.mat) : res num := Ok (Fin (this (fold_right Qcplus 0%Qc (map (fun x => nth 0 x 0%Qc) p)))).
Definition once_options := Misc_Model.ensemble_hps (Misc_Model.VNum (3 # 1)) (Misc_Model.VNum (10000 # 1)) (Misc_Model.VNum (200 # 1)).
(** Two calls that find two and one pipelines: with "logs" the first ends with an
    ensemble, the second does not; with "models" both do. *)
Example C156_ex_main :
  Forall ordinary (f_evs run1) /\ distinct (f_evs run1) /\
  (exists l1 out, during hist_split true "logs" (new_lib (Some 200) (Some 1000) None, true) run1 = (l1, Ok out) /\
     kept_of (Some 200) (saved out) = 2 /\ not_enough (Some 200) 2 ([] ++ [run2])) /\
  (exists e, ensemble_after hist_split true "logs" once_row None once_metric (Some true) once_options [1; 0]%Qc (Fin 1) []
     (new_lib (Some 200) (Some 1000) None, true) run1 = Ok (e, Ok tt) /\ Ens_Spec.total_weight (Ens_Spec.members e) = 3) /\
  (exists e, ensemble_after hist_split true "logs" once_row None once_metric (Some true) once_options [1; 0]%Qc (Fin 1) []
     (afters hist_split true "logs" (new_lib (Some 200) (Some 1000) None, true) [run1]) run2 = Ok (e, Err FileNotFoundError)) /\
  Forall (on_rows 2) [run1; run2] /\ distinct (concat (map f_evs [run1; run2])) /\
  (exists e, ensemble_after hist_split true "models" once_row None once_metric (Some true) once_options [1; 0]%Qc (Fin 1) []
     (afters hist_split true "models" (new_lib (Some 200) (Some 1000) None, true) [run1]) run2 = Ok (e, Ok tt)).
Proof.
  split; [repeat constructor; discriminate|]. split; [unfold distinct; simpl; repeat constructor; simpl; lia|].
  split; [eexists; eexists; split; [reflexivity|split; [reflexivity|left; simpl; lia]]|].
  split; [eexists; split; vm_compute; reflexivity|]. split; [eexists; vm_compute; reflexivity|].
  split; [constructor; [|constructor; [|constructor]]; (split; [reflexivity|]); repeat constructor; try discriminate; eexists; split; reflexivity|].
  split; [unfold distinct; simpl; repeat constructor; simpl; lia|]. eexists; vm_compute; reflexivity.
Qed.

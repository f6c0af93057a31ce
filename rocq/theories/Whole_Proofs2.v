(** Lemmas about fit from the data to the model: the three searches. *)
Require Import ZArith Permutation.
From Verif Require Import Base Num Lib_Spec Data_Model Gp_Model Gp_Spec Eval_Model Evo_Model Evo_Spec Rnd_Model Rnd_Spec End_Model End_Spec Pred_Model Fit_Model Fit_Spec Proc_Spec Whole_Model Whole_Spec Whole_Proofs.
From Verif Require Async_Model Sys_Model Proc_Model Fac_Model Rnd_Proofs Rnd_Proofs3 Rnd_Main Gp_Proofs4 Proc_Proofs Proc_Proofs2 Proc_Proofs3 Proc_Main Mix_Main End_Proofs End_Main Evo_Proofs2 Evo_Main.
Open Scope nat_scope.
Open Scope list_scope.

(** what a search found can be the start of the next *)
Definition found_ok (ps : pset) (ml : option Z) (s : st) (l : list member) : Prop :=
  wf_heap (s_heap s) /\
  (forall m, In m l -> i_id (m_ind m) < s_uid s /\ exists ss, is_pipeline (s_heap s) (m_ind m) ss /\ pipeline_ok ps ss /\ within ml ss) /\
  NoDup (map (fun m => i_id (m_ind m)) l).
Lemma found_usable ps ml s l fixed : found_ok ps ml s l -> usable ps ml (as_objects fixed s l).
Proof.
  intros (W & G & N). exists s. split; auto. split; [|split].
  - intros o Ho. apply in_map_iff in Ho as (m & <- & _). eauto.
  - unfold as_objects. rewrite (individuals_map m_ind (fun m => Some (m_fit m)) (fun m => Some (fixed (i_id (m_ind m))))). apply Forall_forall. intros i Hi. apply in_map_iff in Hi as (m & <- & Hm). exact (G m Hm).
  - unfold as_objects. rewrite (individuals_map m_ind (fun m => Some (m_fit m)) (fun m => Some (fixed (i_id (m_ind m))))), map_map. exact N.
Qed.
Lemma within_none ss : within None ss.
Proof. exact Logic.I. Qed.
Lemma found_none ps ml s l : found_ok ps ml s l -> found_ok ps None s l.
Proof. intros (W & G & N). split; auto. split; auto. intros m Hm. destruct (G m Hm) as (U & ss & C & O & _). split; auto. exists ss. split; auto. split; auto. apply within_none. Qed.
Lemma usable_none ps ml l : usable ps ml l -> usable ps None l.
Proof.
  intros (s & W & O & S & N). exists s. split; auto. split; auto. split; auto. eapply Forall_impl; [|exact S].
  intros i (L & ss & C & P & _). split; auto. exists ss. split; auto. split; auto. apply within_none.
Qed.

(** * Random search *)
Lemma in_finished t i r o : In (Finished i r o) t -> In (i, r) (finished t).
Proof. induction t as [|[j q|j q o'] t IH]; cbn [finished]; [intros []| |]; intros [H|H]; try discriminate; auto; [injection H as -> -> _; left; auto|right; auto]. Qed.
Lemma results_ids t : (forall i r o, In (Finished i r o) t -> r = 0) -> NoDup (map key (finished t)) -> NoDup (map (fun m => i_id (m_ind m)) (results t)).
Proof.
  induction t as [|[i r|i r o] t IH]; intros Z N; cbn [finished results map] in *; [constructor|apply IH; auto; intros; eapply Z; right; eauto|].
  apply NoDup_cons_iff in N as (N1 & N2). assert (Z' : forall i r o, In (Finished i r o) t -> r = 0) by (intros; eapply Z; right; eauto).
  destruct o as [|sc b]; [auto|]. cbn [map m_ind]. constructor; auto. intros H. apply N1. apply in_map_iff in H as (m & E & H).
  apply End_Main.in_results in H as (r' & b' & H).
  pose proof (Z' _ _ _ H) as ->. pose proof (Z _ _ _ (or_introl eq_refl)) as ->.
  apply in_map_iff. exists (m_ind m, 0). unfold key. cbn [fst snd]. rewrite E. split; auto.
  eapply in_finished; eauto.
Qed.
Section Searches.
Context (call : nat -> list nat -> Async_Model.kwargs -> nat -> Async_Model.outcome) (scores : nat -> list num) (n : nat) (log : bool) (d : Async_Model.kwargs)
  (ps : pset) (ml : option Z) (start : list individual) (s : st) (plan : list Sys_Model.turn).
Lemma rs_found max_n x w p : wf_heap (s_heap s) -> start_ok ps ml s start -> NoDup (map i_id start) ->
  Proc_Model.q_rs_phase call scores ps ml max_n n log d start (Proc_Model.before_h s plan) = (x, (w, p)) ->
  h_from_workers call scores d w /\ q_out w = results (q_trace w) /\ found_ok ps ml (q_st w) (results (q_trace w)).
Proof.
  intros W S N E. destruct (Proc_Main.C161_random_results_main _ _ _ _ _ _ _ _ _ _ _ _ _ _ W S N E) as (H1 & H2). split; auto. split; auto.
  destruct (Proc_Proofs3.rs_top _ _ _ _ _ _ _ _ _ _ _ _ _ _ E) as (_ & _ & es & _ & _ & D).
  destruct (Rnd_Main.rs_ok ps ml max_n start es s x _ W S D) as ((st0 & I) & ND & _). specialize (ND N).
  pose proof (Mix_Main.h_once _ _ _ _ I ND) as NF. cbn [Proc_Proofs3.setq q_trace] in NF.
  split; [exact (Rnd_Proofs.h_wf _ _ _ _ I)|]. split.
  - intros m Hm. apply End_Main.in_results in Hm as (r & b & Hm). apply (Rnd_Proofs.h_seen _ _ _ _ I (m_ind m)). exists r. right. eexists. exact Hm.
  - apply results_ids; auto. exact (Mix_Main.rung_zero _ _ _ _ I).
Qed.

(** * The evolutionary search *)
Lemma successes_part t : End_Proofs.part (map m_ind (successes t)) (collected t).
Proof.
  induction t as [|[i q|i|i [|sc []]|] t (r & P)]; cbn [successes collected map]; try (exists r; exact P).
  - exists []. constructor.
  - exists (i :: r). rewrite P. apply Permutation_middle.
  - exists (i :: r). rewrite P. apply Permutation_middle.
  - exists r. cbn [m_ind app]. constructor. exact P.
Qed.
Lemma since_part t : End_Proofs.part (map m_ind (successes (since_restart t))) (map m_ind (successes t)).
Proof.
  induction t as [|y t IH] using rev_ind; [apply End_Proofs.part_refl|]. rewrite Evo_Proofs2.since_snoc.
  assert (G : End_Proofs.part (map m_ind (successes (since_restart t ++ [y]))) (map m_ind (successes (t ++ [y])))).
  { rewrite !Evo_Proofs2.successes_app, !map_app. destruct IH as (r & P). exists r. rewrite P, <- !app_assoc. apply Permutation_app_head, Permutation_app_comm. }
  destruct y; auto. exists (map m_ind (successes (t ++ [Restarted]))). apply Permutation_refl.
Qed.
Lemma part_map {A B} (f : A -> B) a b : End_Proofs.part a b -> End_Proofs.part (map f a) (map f b).
Proof. intros (r & P). exists (map f r). rewrite <- map_app. apply Permutation_map. exact P. Qed.
Lemma part_nodup {A} (a b : list A) : End_Proofs.part a b -> NoDup b -> NoDup a.
Proof. intros (r & P) N. exact (Mix_Main.nodup_left _ _ (Permutation_NoDup P N)). Qed.
Lemma evo_found (b : setting) max_retry pop_size max_n restart x w p : pset_typed ps -> 0 < max_retry -> wf_heap (s_heap b) -> start_ok ps None b start -> NoDup (map i_id start) ->
  End_Proofs.stopped x ->
  Proc_Model.p_search call scores ps ml max_retry pop_size max_n restart n log d start (Proc_Model.before_search b plan) = (x, (w, p)) ->
  from_workers call scores d w /\ incl (v_pop w) (successes (since_restart (v_trace w))) /\
  (length (successes (since_restart (v_trace w))) <= pop_size -> v_pop w = successes (since_restart (v_trace w))) /\
  found_ok ps None (v_st w) (v_pop w).
Proof.
  intros T R W S N X E. split; [exact (Proc_Main.C160_results_main _ _ _ _ _ _ _ _ _ _ _ _ _ _ _ _ _ T R W S N E)|].
  destruct (Proc_Proofs2.search_top _ _ _ _ _ _ _ _ _ _ _ _ _ _ _ _ _ E) as (_ & _ & es & _ & _ & D).
  destruct (End_Main.search_kept _ _ _ _ _ _ _ _ _ _ _ _ T R W S D X) as (K0 & K1 & _). unfold End_Proofs.since in K0, K1. cbn [Proc_Proofs2.setj v_pop v_trace] in K0, K1.
  split; [exact (End_Proofs.part_incl _ _ K0)|]. split; auto.
  destruct (Evo_Main.search_ok _ _ _ _ _ _ _ _ _ _ _ _ T R W S D) as (start0 & I & _).
  destruct (Evo_Main.C145_once_main _ _ _ _ _ _ _ _ _ _ _ _ T R W S N D) as (ND & PE). cbn [Proc_Proofs2.setj v_trace v_jobs] in ND, PE.
  split; [exact (Evo_Proofs2.n_wf _ _ _ _ _ _ _ I)|]. split.
  - intros m Hm. apply (End_Proofs.part_incl _ _ K0), Evo_Proofs2.in_successes, Evo_Proofs2.since_incl in Hm.
    destruct (Evo_Proofs2.n_known _ _ _ _ _ _ _ I (m_ind m)) as (U & ss & C & O); [eexists; split; [exact Hm|reflexivity]|]. split; [exact U|]. exists ss. split; [exact C|]. split; [exact O|apply within_none].
  - rewrite <- (map_map m_ind i_id). eapply part_nodup; [|exact (Mix_Main.nodup_left _ _ (Permutation_NoDup PE ND))].
    apply part_map. eapply End_Proofs.part_trans; [apply part_map; exact K0|]. eapply End_Proofs.part_trans; [apply since_part|apply successes_part].
Qed.

(** * ASHA *)
Lemma scored_ids r t : NoDup (map key (finished t)) -> NoDup (map (fun m => i_id (m_ind m)) (map snd (scored r t))).
Proof.
  rewrite map_map. induction t as [|[i q|i q o] t IH]; intros N; cbn [finished map] in *; [constructor|auto|].
  apply NoDup_cons_iff in N as (N1 & N2). destruct o as [|[|sc l] b]; auto. unfold scored. cbn [flat_map]. fold (scored r t).
  destruct (Nat.eqb_spec q r) as [->|NE]; auto. cbn [app map snd m_ind]. constructor; auto. intros H. apply N1. apply in_map_iff in H as (x & E & H).
  apply End_Main.in_scored in H as (l' & b' & H & _). apply in_map_iff. exists (m_ind (snd x), r). unfold key. cbn [fst snd]. rewrite E. split; auto.
  eapply in_finished; eauto.
Qed.
Lemma asha_found eta fr mr mf x w p l : wf_heap (s_heap s) -> start_ok ps ml s start -> NoDup (map i_id start) -> pset_rich ps -> allows_one ml ->
  (Z.of_nat fr <= mr)%Z -> (forall k, scores k <> []) ->
  Proc_Model.q_asha_phase call scores ps ml eta fr mr mf n log d start (Proc_Model.before_h s plan) = (x, (w, p)) ->
  asha_output x (q_rungs w) = Ok l ->
  h_from_workers call scores d w /\ found_ok ps ml (q_st w) l /\
  (l <> [] -> exists r, l = map snd (scored r (q_trace w)) /\ forall r', r < r' -> scored r' (q_trace w) = []).
Proof.
  intros W S N R1 R2 R3 H8 E EO. split; [exact (Proc_Main.C161_asha_results_main _ _ _ _ _ _ _ _ _ _ _ _ _ _ _ _ _ W S N E)|].
  destruct (Proc_Proofs3.asha_top _ _ _ _ _ _ _ _ _ _ _ _ _ _ _ _ _ E) as (_ & _ & es & C & _ & D).
  assert (HS : Forall has_score es). { eapply Forall_impl; [|exact C]. intros e. unfold Proc_Proofs.scored_by, has_score. destruct (e_out e) as [|[|z sc] b]; auto. intros (k & Ek). apply (H8 k). auto. }
  assert (CW : Rnd_Proofs3.calm_world ps ml fr mr es) by (split; auto).
  destruct (End_Main.asha_end ps ml eta fr mr mf start es s W S CW) as (cs & s1 & x1 & w1 & E1 & E2 & I & RR & O & CA).
  unfold asha_phase, hbind in D. rewrite E1 in D. cbn [q_st q_jobs q_start q_rungs q_out q_trace fresh_h] in D.
  destruct (Rnd_Main.asha_phase_ok ps ml eta fr mr mf start es s x1 w1 W S) as (st0 & l' & _ & _ & _ & _ & _ & ND & _).
  { unfold asha_phase, hbind. rewrite E1. exact E2. }
  specialize (ND N). pose proof (Mix_Main.h_once _ _ _ _ I ND) as NF.
  assert (EQ : x1 = x /\ w1 = Proc_Proofs3.setq (Proc_Proofs.outstanding Proc_Proofs3.dj p) w) by (rewrite E2 in D; injection D as -> ->; auto).
  destruct EQ as (-> & EW). assert (QT : q_trace w1 = q_trace w /\ q_st w1 = q_st w /\ q_rungs w1 = q_rungs w) by (rewrite EW; auto). destruct QT as (QT & QS & QR). clear EW D.
  rewrite <- QR in EO. rewrite <- QT, <- QS.
  assert (HY : l = [] \/ exists r, l = map snd (scored r (q_trace w1)) /\ forall r', r < r' -> scored r' (q_trace w1) = []).
  { destruct l as [|m0 l0]; [left; auto|]. right. assert (HH : exists y, highest_reached (q_rungs w1) = Some y /\ m0 :: l0 = rung_inds y).
    { destruct CA as [(-> & _)|(-> & _)]; cbn [asha_output] in EO.
      - destruct (q_rungs w1) as [|y l''] eqn:EQ; [discriminate|]. injection EO as EO. exists y. split; auto. cbn [highest_reached]. destruct (g_inds y) eqn:EY; auto. exfalso. unfold rung_inds in EO. rewrite EY in EO. discriminate.
      - destruct (highest_reached (q_rungs w1)) as [y|]; [|discriminate]. injection EO as EO. exists y. auto. }
    destruct HH as (y & HH & ->). destruct (End_Main.highest_ok ps ml eta fr mr cs w1 I RR O y HH) as (A & _ & B). exists (g_no y). auto. }
  split; [|intros NE; destruct HY as [HY|HY]; [contradiction|exact HY]].
  split; [exact (Rnd_Proofs.h_wf _ _ _ _ I)|]. destruct HY as [->|(r & -> & _)]; [split; [intros m []|constructor]|]. split.
  - intros m Hm. apply in_map_iff in Hm as (e & <- & He). apply End_Main.in_scored in He as (sc & b & He & _).
    apply (Rnd_Proofs.h_seen _ _ _ _ I (m_ind (snd e))). exists r. right. eexists. exact He.
  - apply scored_ids. exact NF.
Qed.
End Searches.

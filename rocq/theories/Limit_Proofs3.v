(** Random search and ASHA, with a limit. *)
Require Import Permutation ZArith.
From Verif Require Import Base Num Gp_Model Evo_Model Evo_Spec Rnd_Model Rnd_Spec Proc_Model Proc_Spec Limit_Model Proc_Proofs Proc_Proofs3 Limit_Proofs2.
From Verif Require Proc_Proofs2.
From Verif Require Async_Model Async_Spec Sys_Model.
Open Scope nat_scope.
Open Scope list_scope.

(** How a run with a limit ends, and one without: the ValueError of the evaluator is the end
    of the run. *)
Definition as_ended {A} (gone : Prop) (x x' : res A) : Prop := x = x' \/ (gone /\ x = Err ValueError /\ x' = Err Diverges).
Lemma ae_refl {A} gone (x : res A) : as_ended gone x x. Proof. left. auto. Qed.
#[export] Hint Resolve ae_refl : core.

Section Rnd.
Context (call : nat -> list nat -> Async_Model.kwargs -> nat -> Async_Model.outcome) (scores : nat -> list num) (limit : option nat) (d : Async_Model.kwargs) (gone : Prop) (n : nat).
Notation hsim := (sim call d gone n dj q_jobs setq starts dones (matches scores)).
Notation hwf := (wf call d gone n q_jobs starts dones (matches scores)).
Notation hwf0 := (wf0 call d gone n q_jobs starts dones (matches scores)).
Notation out := (outstanding dj).
Lemma h_ret {A} (a : A) : hsim (hret a) (pret a). Proof. apply s_ret. Qed.
Lemma h_raise {A} e : hsim (@hraise A e) (praise e). Proof. apply s_raise. Qed.
Lemma h_bind {A B} (m : MH A) ms (f : A -> MH B) g : hsim m ms -> (forall a, hsim (f a) (g a)) -> hsim (hbind m f) (pbind ms g).
Proof. intros H1 H2. apply s_bind; auto. Qed.
Lemma h_own {A} (m : MH A) : hframe [] m -> hsim m (own m).
Proof. intros H. apply s_own; auto. Qed.
Lemma h_submit i r : hsim (hsubmit i r) (q_submit call i r).
Proof.
  apply s_submit with (j := (i, r)) (f := fun w => mkH (q_st w) (q_jobs w) (q_start w) (q_rungs w) (q_out w) (q_trace w ++ [Started i r])); auto.
  - exact (matches_more scores).
  - intros w. unfold starts. cbn [q_trace]. apply started_app.
  - intros w. unfold dones. cbn [q_trace]. rewrite arrivals_app. apply app_nil_r.
Qed.
Ltac hm := repeat (first [apply h_bind; [|intros ?] | apply h_ret | apply h_raise | apply h_submit | apply h_own; solve [hf]
  | match goal with |- sim _ _ _ _ _ _ _ _ _ _ (match ?x with _ => _ end) (match ?x with _ => _ end) => destruct x end
  | match goal with |- sim _ _ _ _ _ _ _ _ _ _ (if ?x then _ else _) (if ?x then _ else _) => destruct x end]).
Lemma h_submit_each l : hsim (submit_each l) (q_submit_each call l).
Proof. induction l; cbn [submit_each q_submit_each]; hm. auto. Qed.
Lemma h_wait w p x w' p' : hwf w p -> q_wait_next call scores (w, p) = (x, (w', p')) ->
  hwf0 w' p' /\ (forall a, x = Ok a -> hwf w' p') /\ length (p_plan p') <= length (p_plan p) /\
  ((x = Err RuntimeError /\ out p = [] /\ out p' = [] /\ w' = w) \/
   ((x = Err Diverges \/ gone /\ x = Err ValueError) /\ out p <> [] /\ out p' = out p /\ w' = w) \/
   (exists e, out p <> [] /\ scored_by scores e /\ length (p_plan p') < length (p_plan p) /\ hwait e (setq (out p) w) = (x, setq (out p') w'))).
Proof.
  apply (s_wait call d gone n dj q_jobs setq starts dones (matches scores) hwait hcollect scores (fun _ _ _ => []) (q_wait_next call scores)).
  - intros. reflexivity.
  - exact hwait_eq.
  - exact (hcollect_ok scores).
Qed.
(** Any loop that waits and goes on. *)
Lemma h_turn (rest : individual * nat * outcome -> MH unit) (p_rest : individual * nat * outcome -> Q unit)
    (loop : list event -> MH unit) (p_loop : Q unit) :
  (forall x, hsim (rest x) (p_rest x)) ->
  forall bound,
  (forall w p x w' p', hwf w p -> length (p_plan p) < bound -> p_loop (w, p) = (x, (w', p')) ->
   hwf0 w' p' /\ exists es, Forall (scored_by scores) es /\ length es + length (p_plan p') <= length (p_plan p) /\ exists x', as_ended gone x x' /\ loop es (setq (out p) w) = (x', setq (out p') w')) ->
  forall w p x w' p', hwf w p -> length (p_plan p) < S bound ->
  (y <# q_wait_next call scores ;; p_rest y ;;# p_loop) (w, p) = (x, (w', p')) ->
  hwf0 w' p' /\
  ((x = Err RuntimeError /\ out p = [] /\ out p' = [] /\ w' = w /\ length (p_plan p') <= length (p_plan p)) \/
   ((x = Err Diverges \/ gone /\ x = Err ValueError) /\ out p <> [] /\ out p' = out p /\ w' = w /\ length (p_plan p') <= length (p_plan p)) \/
   (exists e es, Forall (scored_by scores) (e :: es) /\ S (length es) + length (p_plan p') <= length (p_plan p) /\
      exists x', as_ended gone x x' /\ (y <+ hwait e ;; rest y ;;+ loop es) (setq (out p) w) = (x', setq (out p') w'))).
Proof.
  intros HR bound HL w p x w' p' W HB E. unfold pbind in E at 1.
  destruct (q_wait_next call scores (w, p)) as [x0 [w0 p0]] eqn:EW. destruct (h_wait _ _ _ _ _ W EW) as (A1 & A2 & A3 & A4).
  destruct A4 as [(-> & A4 & A5 & ->)|[(Hx & A4 & A5 & ->)|(e & A4 & A0 & A5 & A6)]].
  - injection E as <- <- <-. split; auto. left. auto 10.
  - assert (E9 : x0 = match x0 with Ok _ => x0 | Err e => Err e end /\ (x = Err Diverges \/ gone /\ x = Err ValueError) /\ w' = w /\ p' = p0).
    { destruct Hx as [-> |[GG ->]]; injection E as <- <- <-; auto. }
    destruct E9 as (_ & E9 & -> & ->). split; auto. right. left. auto 10.
  - destruct x0 as [y|ex].
    + unfold pbind in E. destruct (p_rest y (w0, p0)) as [x1 [w1 p1]] eqn:ER. destruct (HR y _ _ _ _ _ (A2 _ eq_refl) ER) as (B1 & B2 & B3 & B4). destruct x1 as [u|ex].
      * destruct (HL w1 p1 x w' p' (B2 _ eq_refl)) as (C1 & es & C0 & C2 & x' & C9 & C3); [lia|exact E|]. split; auto. right. right. exists e, es. split; [constructor; auto|]. split; [lia|].
        exists x'. split; auto. unfold hbind. rewrite A6, B4. auto.
      * injection E as <- <- <-. split; auto. right. right. exists e, []. split; [repeat constructor; auto|]. split; [simpl; lia|]. eexists. split; [apply ae_refl|]. unfold hbind. rewrite A6, B4. auto.
    + injection E as <- <- <-. split; auto. right. right. exists e, []. split; [repeat constructor; auto|]. split; [simpl; lia|]. eexists. split; [apply ae_refl|]. unfold hbind. rewrite A6. auto.
Qed.

Section RS.
Context (ps : pset) (max_length : option Z).
Lemma rs_rest_sim x : hsim (rs_rest ps max_length x) (rs_p_rest call ps max_length x).
Proof. unfold rs_rest, rs_p_rest. hm. Qed.
Lemma rs_turns_sim max_n : forall f w p x w' p', hwf w p -> length (p_plan p) < f ->
  q_rs_turns call scores ps max_length max_n f (w, p) = (x, (w', p')) ->
  hwf0 w' p' /\ exists es, Forall (scored_by scores) es /\ length es + length (p_plan p') <= length (p_plan p) /\ exists x', as_ended gone x x' /\ rs_turns ps max_length max_n es (setq (out p) w) = (x', setq (out p') w').
Proof.
  induction f as [|f IH]; intros w p x w' p' W HF E; [lia|]. cbn [q_rs_turns] in E. unfold pbind at 1 in E. unfold own at 1, outputs in E. cbn [fst snd] in E.
  destruct (below max_n (length (q_out w))) eqn:EB.
  2: { injection E as <- <- <-. split; [apply wf_wf0; auto|]. exists []. split; [constructor|]. split; [simpl; lia|]. exists (Ok tt). split; auto. cbn [rs_turns setq q_out]. rewrite EB. auto. }
  assert (E' : (y <# q_wait_next call scores ;; rs_p_rest call ps max_length y ;;# q_rs_turns call scores ps max_length max_n f) (w, p) = (x, (w', p'))).
  { rewrite <- E. apply pext. intros a z. unfold rs_p_rest. rewrite passoc. apply pext. intros _ z'. rewrite passoc. apply pext. auto. }
  destruct (h_turn (rs_rest ps max_length) (rs_p_rest call ps max_length) (rs_turns ps max_length max_n) _ rs_rest_sim f IH w p x w' p' W HF E') as (A & B). split; auto.
  destruct B as [(-> & B1 & B2 & -> & B3)|[(Hx & B1 & B2 & -> & B3)|(e & es & B0 & B1 & x' & B9 & B2)]].
  - exists []. split; [constructor|]. split; [simpl; lia|]. exists (Err RuntimeError). split; auto. cbn [rs_turns setq q_out q_jobs]. rewrite EB, B1, B2. auto.
  - exists []. split; [constructor|]. split; [simpl; lia|]. exists (Err Diverges). split; [destruct Hx as [-> |[GG ->]]; [left; auto|right; auto]|].
    cbn [rs_turns setq q_out q_jobs]. rewrite EB, B2. destruct (out p); [congruence|auto].
  - exists (e :: es). split; auto. split; [simpl in *; lia|]. exists x'. split; auto. cbn [rs_turns]. cbn [setq q_out]. rewrite EB. rewrite <- B2. apply hext. intros a z.
    unfold rs_rest. rewrite hassoc. apply hext. intros _ z'. rewrite hassoc. apply hext. auto.
Qed.
Context (eta first_rung : nat) (max_rung : Z).
Lemma start_job_sim : hsim (start_new_job ps max_length eta first_rung max_rung) (q_start_new_job call ps max_length eta first_rung max_rung).
Proof. unfold start_new_job, q_start_new_job. hm. Qed.
Lemma start_jobs_sim k : hsim (start_jobs ps max_length eta first_rung max_rung k) (q_start_jobs call ps max_length eta first_rung max_rung k).
Proof. induction k; cbn [start_jobs q_start_jobs]; [hm|]. apply h_bind; [apply start_job_sim|auto]. Qed.
Lemma asha_turns_sim max_full : forall f w p x w' p', hwf w p -> length (p_plan p) < f ->
  q_asha_turns call scores ps max_length eta first_rung max_rung max_full f (w, p) = (x, (w', p')) ->
  hwf0 w' p' /\ exists es, Forall (scored_by scores) es /\ length es + length (p_plan p') <= length (p_plan p) /\
    exists x', as_ended gone x x' /\ asha_turns ps max_length eta first_rung max_rung max_full es (setq (out p) w) = (x', setq (out p') w').
Proof.
  induction f as [|f IH]; intros w p x w' p' W HF E; [lia|]. cbn [q_asha_turns] in E. unfold pbind at 1 in E. unfold own at 1, get_rungs in E. cbn [fst snd] in E.
  destruct (top_below max_rung max_full (q_rungs w)) as [[]|ex] eqn:EB.
  2, 3: injection E as <- <- <-; split; [apply wf_wf0; auto|]; exists []; split; [constructor|]; split; [simpl; lia|]; eexists; split; [apply ae_refl|]; cbn [asha_turns setq q_rungs]; rewrite EB; auto.
  set (rest := fun x => record_result x ;;+ start_new_job ps max_length eta first_rung max_rung).
  set (p_rest := fun x => own (record_result x) ;;# q_start_new_job call ps max_length eta first_rung max_rung).
  assert (E' : (y <# q_wait_next call scores ;; p_rest y ;;# q_asha_turns call scores ps max_length eta first_rung max_rung max_full f) (w, p) = (x, (w', p'))).
  { rewrite <- E. apply pext. intros a z. unfold p_rest. rewrite passoc. auto. }
  assert (SR : forall x, hsim (rest x) (p_rest x)) by (intros y; apply h_bind; [hm|intros _; apply start_job_sim]).
  destruct (h_turn rest p_rest (asha_turns ps max_length eta first_rung max_rung max_full) _ SR f IH w p x w' p' W HF E') as (A & B). split; auto.
  destruct B as [(-> & B1 & B2 & -> & B3)|[(Hx & B1 & B2 & -> & B3)|(e & es & B0 & B1 & x' & B9 & B2)]].
  - exists []. split; [constructor|]. split; [simpl; lia|]. exists (Err RuntimeError). split; auto. cbn [asha_turns setq q_rungs q_jobs]. rewrite EB, B1, B2. auto.
  - exists []. split; [constructor|]. split; [simpl; lia|]. exists (Err Diverges). split; [destruct Hx as [-> |[GG ->]]; [left; auto|right; auto]|].
    cbn [asha_turns setq q_rungs q_jobs]. rewrite EB, B2. destruct (out p); [congruence|auto].
  - exists (e :: es). split; auto. split; [simpl in *; lia|]. exists x'. split; auto. cbn [asha_turns]. cbn [setq q_rungs]. rewrite EB. rewrite <- B2. apply hext. intros a z.
    unfold rest. rewrite hassoc. auto.
Qed.

Lemma linked_links w p : hwf0 w p -> links call scores d w.
Proof.
  intros (W1 & _ & _ & _ & l1 & l2 & R & F). destruct (origin call d gone p W1) as [N O]. exists (map fst l1). split.
  - rewrite R, map_app in N. clear - N. induction l1 as [|a l IH]; simpl in *; constructor.
    + intros H. apply NoDup_cons_iff in N as [N _]. apply N. apply in_or_app. auto.
    + apply IH. apply NoDup_cons_iff in N. tauto.
  - rewrite R in O. fold (starts w). fold (dones w). clear - F O. induction F as [|[k o] [[i rg] oc] l l' (j & M1 & M2 & M3) _ IH]; cbn [map]; constructor.
    + exists j. cbn [fst snd] in *. split; auto. split; auto. destruct (O k o) as (c & ND & RP); [left; auto|]. exists c. split; auto. subst oc.
      revert RP. unfold Async_Spec.reported, learned. destruct (call 0 [k] d c) as [v|ex|]; [|intros ->; reflexivity|intros ->; reflexivity].
      destruct v as [m|m|m|m e|[|z l0]]; intros H; try (subst o; reflexivity).
      * destruct e; subst o; cbn [outcome_of]; eexists; (split; [reflexivity|split; congruence]).
      * destruct z as [m|m|m|m e|l'']; try (subst o; reflexivity). destruct e; subst o; reflexivity.
    + apply IH. intros k' o' H. apply O. right. auto.
Qed.
Lemma context_top (m0 : MH unit) (ms0 : Q unit) (loop : list event -> MH unit) (p_loop : nat -> Q unit) log :
  hsim m0 ms0 ->
  (forall f w p x w' p', hwf w p -> length (p_plan p) < f -> p_loop f (w, p) = (x, (w', p')) ->
   hwf0 w' p' /\ exists es, Forall (scored_by scores) es /\ length es + length (p_plan p') <= length (p_plan p) /\ exists x', as_ended gone x x' /\ loop es (setq (out p) w) = (x', setq (out p') w')) ->
  forall w0 p0 x w p, (n = 0 -> gone) -> (forall t, In t (p_plan p0) -> ~ Limit_Proofs.found t -> gone) -> q_jobs w0 = [] -> starts w0 = [] -> dones w0 = [] ->
  with_limit call limit n log d (ms0 ;;# p_loop (S (length (p_plan p0)))) (w0, p0) = (x, (w, p)) ->
  q_jobs w = [] /\ links call scores d w /\
  exists es, Forall (scored_by scores) es /\ length es <= length (p_plan p0) /\ exists x', as_ended gone x x' /\ (m0 ;;+ loop es) w0 = (x', setq (out p) w).
Proof.
  intros S0 SL w0 p0 x w p NN NG H1 H2 H3 E. unfold with_limit in E. cbn [fst snd] in E.
  match type of E with context [mkPool ?s [] _] => set (s1 := s) in * end.
  destruct (enter_ok call d gone dj n limit log (p_plan p0) NN NG) as (B1 & B2 & B3 & B4). fold s1 in B1, B2, B3, B4.
  set (p1 := mkPool s1 [] (p_plan p0)) in *. assert (PL : p_plan p1 = p_plan p0) by reflexivity. assert (PJ : p_jobs p1 = []) by reflexivity. clearbody p1.
  assert (W : hwf w0 p1). { split; auto. split; auto. split; auto. split; [congruence|]. rewrite B3, H3. constructor. }
  unfold pbind in E. destruct (ms0 (w0, p1)) as [x2 [w2 p2]] eqn:EB.
  destruct (S0 _ _ _ _ _ W EB) as (C1 & C2 & C3 & C4). rewrite B2, set_nil in C4 by auto.
  destruct x2 as [u|e].
  - destruct (p_loop (S (length (p_plan p0))) (w2, p2)) as [x3 [w3 p3]] eqn:ET.
    injection E as <- <- <-. cbn [fst snd]. assert (LT : length (p_plan p2) < S (length (p_plan p0))) by (rewrite <- PL; lia).
    destruct (SL _ _ _ _ _ _ (C2 _ eq_refl) LT ET) as (D1 & es & D0 & D2 & x' & D9 & D3).
    split; [apply D1|]. split; [apply linked_links with (1 := D1)|]. exists es. split; auto. split; [rewrite <- PL; lia|]. exists x'. split; auto. unfold hbind. rewrite C4, D3. f_equal. f_equal. symmetry. exact (exit_ok call dj p3 _).
  - injection E as <- <- <-. cbn [fst snd]. split; [apply C1|]. split; [apply linked_links with (1 := C1)|]. exists []. split; [constructor|]. split; [simpl; lia|]. exists (Err e). split; auto. unfold hbind. rewrite C4. f_equal. f_equal. symmetry. exact (exit_ok call dj p2 _).
Qed.
Lemma rs_top log max_n warm s plan x w p : (n = 0 -> gone) -> (forall t, In t plan -> ~ Limit_Proofs.found t -> gone) ->
  l_rs_phase call scores limit ps max_length max_n n log d warm (before_h s plan) = (x, (w, p)) ->
  q_jobs w = [] /\ links call scores d w /\
  exists es, Forall (scored_by scores) es /\ length es <= length plan /\ exists x', as_ended gone x x' /\ rs_phase ps max_length max_n warm es (fresh_h s) = (x', setq (out p) w).
Proof.
  intros NN NG E. unfold l_rs_phase in E. unfold rs_phase. unfold pbind at 1 in E. unfold own at 1 in E. cbn [before_h fst snd] in E.
  destruct (candidates ps max_length warm (fresh_h s)) as [x1 w1] eqn:EI.
  destruct (frame_nil _ _ _ _ (f_candidates _ _ _) EI eq_refl eq_refl eq_refl) as (A1 & A2 & A3).
  destruct x1 as [l|e].
  - destruct (context_top (submit_each l) (q_submit_each call l) (rs_turns ps max_length max_n) (q_rs_turns call scores ps max_length max_n) log
      (h_submit_each l) (rs_turns_sim max_n) w1 (idle plan) x w p NN NG A1 A2 A3 E) as (B1 & B2 & es & B0 & B3 & x' & B9 & B4).
    split; auto. split; auto. exists es. split; auto. split; auto. exists x'. split; auto. unfold hbind at 1. rewrite EI. exact B4.
  - injection E as <- <- <-. split; [exact A1|]. split; [apply no_links; auto|]. exists []. split; [constructor|]. split; [simpl; lia|].
    exists (Err e). split; auto. unfold hbind. rewrite EI. f_equal. symmetry. apply set_nil; auto.
Qed.
Lemma asha_core log max_full w0 p0 x w p : (n = 0 -> gone) -> (forall t, In t (p_plan p0) -> ~ Limit_Proofs.found t -> gone) -> q_jobs w0 = [] -> starts w0 = [] -> dones w0 = [] ->
  l_asha call scores limit ps max_length eta first_rung max_rung max_full n log d (w0, p0) = (x, (w, p)) ->
  q_jobs w = [] /\ links call scores d w /\
  exists es, Forall (scored_by scores) es /\ length es <= length (p_plan p0) /\ exists x', as_ended gone x x' /\ asha ps max_length eta first_rung max_rung max_full es w0 = (x', setq (out p) w).
Proof.
  intros NN NG H1 H2 H3 E. unfold l_asha in E. unfold pbind at 1 in E. unfold own at 1 in E. cbn [fst snd set_rungs] in E.
  destruct (context_top (start_jobs ps max_length eta first_rung max_rung 8) (q_start_jobs call ps max_length eta first_rung max_rung 8)
    (asha_turns ps max_length eta first_rung max_rung max_full) (q_asha_turns call scores ps max_length eta first_rung max_rung max_full) log
    (start_jobs_sim 8) (asha_turns_sim max_full)
    (mkH (q_st w0) (q_jobs w0) (q_start w0) (empty_rungs first_rung max_rung) (q_out w0) (q_trace w0)) p0 x w p NN NG H1 H2 H3 E) as (B1 & B2 & es & B0 & B3 & x' & B9 & B4).
  split; auto. split; auto. exists es. split; auto. split; auto. exists x'. auto.
Qed.
Lemma asha_top log max_full warm s plan x w p : (n = 0 -> gone) -> (forall t, In t plan -> ~ Limit_Proofs.found t -> gone) ->
  l_asha_phase call scores limit ps max_length eta first_rung max_rung max_full n log d warm (before_h s plan) = (x, (w, p)) ->
  q_jobs w = [] /\ links call scores d w /\
  exists es, Forall (scored_by scores) es /\ length es <= length plan /\ exists x', as_ended gone x x' /\ asha_phase ps max_length eta first_rung max_rung max_full warm es (fresh_h s) = (x', setq (out p) w).
Proof.
  intros NN NG E. unfold l_asha_phase in E. unfold asha_phase. unfold pbind at 1 in E. unfold own at 1 in E. cbn [before_h fst snd] in E.
  destruct (candidates ps max_length warm (fresh_h s)) as [x1 w1] eqn:EI.
  destruct (frame_nil _ _ _ _ (f_candidates _ _ _) EI eq_refl eq_refl eq_refl) as (A1 & A2 & A3).
  destruct x1 as [l|e].
  - unfold pbind at 1 in E. unfold own at 1 in E. cbn [fst snd set_start] in E.
    destruct (asha_core log max_full (mkH (q_st w1) (q_jobs w1) l (q_rungs w1) (q_out w1) (q_trace w1)) (idle plan) x w p NN NG A1 A2 A3 E) as (B1 & B2 & es & B0 & B3 & x' & B9 & B4).
    split; auto. split; auto. exists es. split; auto. split; auto. exists x'. split; auto. unfold hbind at 1. rewrite EI. exact B4.
  - injection E as <- <- <-. split; [exact A1|]. split; [apply no_links; auto|]. exists []. split; [constructor|]. split; [simpl; lia|].
    exists (Err e). split; auto. unfold hbind. rewrite EI. f_equal. symmetry. apply set_nil; auto.
Qed.
End RS.
End Rnd.

(** The same for random search and ASHA. *)
Require Import ZArith Lia.
From Verif Require Import Base Num Gp_Model Evo_Model Evo_Spec Rnd_Model Rnd_Spec Proc_Model Proc_Spec Proc_Proofs Again_Proofs.
From Verif Require Proc_Proofs2.
From Verif Require Import Proc_Proofs3.
From Verif Require Async_Model Sys_Model Det_Spec Det_Proofs.
Open Scope nat_scope.
Open Scope list_scope.

Section One.
Context (call : nat -> list nat -> Async_Model.kwargs -> nat -> Async_Model.outcome) (scores : nat -> list num) (d : Async_Model.kwargs).
Hypothesis H : Det_Spec.steady call d.
Notation ev := (ev call scores d).
Notation hsim1 := (sim1 call d q_jobs setq).
Notation hok := (ok1 call d q_jobs).
Lemma h_fr {A} l (m : MH A) : hframe l m -> fr q_jobs setq m.
Proof. intros F w x w' E. destruct (F _ _ _ E) as (A1 & _ & _ & A4). auto. Qed.
Lemma h1_ret {A} (a : A) : hsim1 (hret a) (pret a). Proof. apply o_ret. Qed.
Lemma h1_raise {A} e : hsim1 (@hraise A e) (praise e). Proof. apply o_raise. Qed.
Lemma h1_bind {A B} (m : MH A) ms (f : A -> MH B) g : hsim1 m ms -> (forall a, hsim1 (f a) (g a)) -> hsim1 (hbind m f) (pbind ms g).
Proof. intros H1 H2. apply o_bind; auto. Qed.
Lemma h1_own {A} (m : MH A) : hframe [] m -> hsim1 m (own m).
Proof. intros F. apply o_own. eapply h_fr; eauto. Qed.
Lemma h1_submit i r : hsim1 (hsubmit i r) (q_submit call i r).
Proof. apply (o_submit call d H) with (j := (i, r)) (f := fun w => mkH (q_st w) (q_jobs w) (q_start w) (q_rungs w) (q_out w) (q_trace w ++ [Started i r])); auto. Qed.
Ltac hm1 := repeat (first [apply h1_bind; [|intros ?] | apply h1_ret | apply h1_raise | apply h1_submit | apply h1_own; solve [hf]
  | match goal with |- sim1 _ _ _ _ (match ?x with _ => _ end) (match ?x with _ => _ end) => destruct x end
  | match goal with |- sim1 _ _ _ _ (if ?x then _ else _) (if ?x then _ else _) => destruct x end]).
Lemma h1_submit_each l : hsim1 (submit_each l) (q_submit_each call l).
Proof. induction l; cbn [submit_each q_submit_each]; hm1. auto. Qed.
Lemma h1_wait r w p x w' p' : hok r w p -> q_wait_next call scores (w, p) = (x, (w', p')) ->
  ((x = Err RuntimeError /\ left r p = [] /\ w' = w /\ left r p' = []) \/
   (x = Err Diverges /\ left r p <> [] /\ w' = w /\ left r p' = left r p) \/
   (left r p <> [] /\ hok (S r) w' p' /\ length (p_plan p') < length (p_plan p) /\ hwait (ev r) (setq (left r p) w) = (x, setq (left (S r) p') w'))).
Proof.
  apply (o_wait call scores d H q_jobs setq hwait hcollect (q_wait_next call scores)).
  - intros. reflexivity.
  - exact hwait_eq.
  - intros j o w0 x0 w0' E. destruct (hcollect_ok scores w0 j o) as (l & A & _). destruct (A _ _ E) as (A1 & _ & _ & A4). auto.
Qed.
(** Any loop that waits and goes on. *)
Lemma h1_turn (rest : individual * nat * outcome -> MH unit) (p_rest : individual * nat * outcome -> Q unit)
    (loop : list event -> MH unit) (p_loop : Q unit) :
  (forall x, hsim1 (rest x) (p_rest x)) ->
  forall bound,
  (forall r w p x w' p', hok r w p -> length (p_plan p) < bound -> p_loop (w, p) = (x, (w', p')) ->
   q_jobs w' = [] /\ exists m l, loop (map ev (seq r m)) (setq (left r p) w) = (x, setq l w')) ->
  forall r w p x w' p', hok r w p -> length (p_plan p) < S bound ->
  (y <# q_wait_next call scores ;; p_rest y ;;# p_loop) (w, p) = (x, (w', p')) ->
  q_jobs w' = [] /\
  ((x = Err RuntimeError /\ left r p = [] /\ w' = w) \/
   (x = Err Diverges /\ left r p <> [] /\ w' = w) \/
   (exists m l, (y <+ hwait (ev r) ;; rest y ;;+ loop (map ev (seq (S r) m))) (setq (left r p) w) = (x, setq l w'))).
Proof.
  intros HR bound HL r w p x w' p' O HB E. unfold pbind in E at 1. pose proof O as (G & _).
  destruct (q_wait_next call scores (w, p)) as [x0 [w0 p0]] eqn:EW.
  destruct (h1_wait _ _ _ _ _ _ O EW) as [(-> & A4 & -> & A5)|[(-> & A4 & -> & A5)|(A4 & A0 & A5 & A6)]].
  - injection E as <- <- <-. split; auto 8.
  - injection E as <- <- <-. split; auto 8.
  - destruct x0 as [y|ex].
    + unfold pbind in E. destruct (p_rest y (w0, p0)) as [x1 [w1 p1]] eqn:ER. destruct (HR y _ _ _ _ _ _ A0 ER) as (B1 & B3 & B4). destruct x1 as [u|ex].
      * destruct (HL (S r) w1 p1 x w' p' B1) as (C1 & m & l & C3); [lia|exact E|]. split; auto. right. right. exists m, l.
        unfold hbind. rewrite A6, B4. auto.
      * injection E as <- <- <-. split; [apply B1|]. right. right. exists 0, (left (S r) p1). unfold hbind. rewrite A6, B4. auto.
    + injection E as <- <- <-. split; [apply A0|]. right. right. exists 0, (left (S r) p0). unfold hbind. rewrite A6. auto.
Qed.

Section RS.
Context (ps : pset) (max_length : option Z).
Lemma rs1_rest x : hsim1 (rs_rest ps max_length x) (rs_p_rest call ps max_length x).
Proof. unfold rs_rest, rs_p_rest. hm1. Qed.
Lemma rs1_turns max_n : forall f r w p x w' p', hok r w p -> length (p_plan p) < f ->
  q_rs_turns call scores ps max_length max_n f (w, p) = (x, (w', p')) ->
  q_jobs w' = [] /\ exists m l, rs_turns ps max_length max_n (map ev (seq r m)) (setq (left r p) w) = (x, setq l w').
Proof.
  induction f as [|f IH]; intros r w p x w' p' O HF E; [lia|]. cbn [q_rs_turns] in E. unfold pbind at 1 in E. unfold own at 1, outputs in E. cbn [fst snd] in E. pose proof O as (G & _).
  destruct (below max_n (length (q_out w))) eqn:EB.
  2: { injection E as <- <- <-. split; auto. exists 0, (left r p). cbn [seq map rs_turns setq q_out]. rewrite EB. auto. }
  assert (E' : (y <# q_wait_next call scores ;; rs_p_rest call ps max_length y ;;# q_rs_turns call scores ps max_length max_n f) (w, p) = (x, (w', p'))).
  { rewrite <- E. apply pext. intros a z. unfold rs_p_rest. rewrite passoc. apply pext. intros _ z'. rewrite passoc. apply pext. auto. }
  destruct (h1_turn (rs_rest ps max_length) (rs_p_rest call ps max_length) (rs_turns ps max_length max_n) _ rs1_rest f IH r w p x w' p' O HF E') as (A & B). split; auto.
  destruct B as [(-> & B1 & ->)|[(-> & B1 & ->)|(m & l & B2)]].
  - exists 0, []. cbn [seq map rs_turns setq q_out q_jobs]. rewrite EB, B1. auto.
  - exists 0, (left r p). cbn [seq map rs_turns setq q_out q_jobs]. rewrite EB. destruct (left r p); [congruence|auto].
  - exists (S m), l. cbn [seq map rs_turns]. cbn [setq q_out]. rewrite EB. rewrite <- B2. apply hext. intros a z.
    unfold rs_rest. rewrite hassoc. apply hext. intros _ z'. rewrite hassoc. apply hext. auto.
Qed.
Context (eta first_rung : nat) (max_rung : Z).
Lemma start1_job : hsim1 (start_new_job ps max_length eta first_rung max_rung) (q_start_new_job call ps max_length eta first_rung max_rung).
Proof. unfold start_new_job, q_start_new_job. hm1. Qed.
Lemma start1_jobs k : hsim1 (start_jobs ps max_length eta first_rung max_rung k) (q_start_jobs call ps max_length eta first_rung max_rung k).
Proof. induction k; cbn [start_jobs q_start_jobs]; [hm1|]. apply h1_bind; [apply start1_job|auto]. Qed.
Lemma asha1_turns max_full : forall f r w p x w' p', hok r w p -> length (p_plan p) < f ->
  q_asha_turns call scores ps max_length eta first_rung max_rung max_full f (w, p) = (x, (w', p')) ->
  q_jobs w' = [] /\ exists m l, asha_turns ps max_length eta first_rung max_rung max_full (map ev (seq r m)) (setq (left r p) w) = (x, setq l w').
Proof.
  induction f as [|f IH]; intros r w p x w' p' O HF E; [lia|]. cbn [q_asha_turns] in E. unfold pbind at 1 in E. unfold own at 1, get_rungs in E. cbn [fst snd] in E. pose proof O as (G & _).
  destruct (top_below max_rung max_full (q_rungs w)) as [[]|ex] eqn:EB.
  2, 3: injection E as <- <- <-; split; auto; exists 0, (left r p); cbn [seq map asha_turns setq q_rungs]; rewrite EB; auto.
  set (rest := fun x => record_result x ;;+ start_new_job ps max_length eta first_rung max_rung).
  set (p_rest := fun x => own (record_result x) ;;# q_start_new_job call ps max_length eta first_rung max_rung).
  assert (E' : (y <# q_wait_next call scores ;; p_rest y ;;# q_asha_turns call scores ps max_length eta first_rung max_rung max_full f) (w, p) = (x, (w', p'))).
  { rewrite <- E. apply pext. intros a z. unfold p_rest. rewrite passoc. auto. }
  assert (SR : forall x, hsim1 (rest x) (p_rest x)) by (intros y; apply h1_bind; [hm1|intros _; apply start1_job]).
  destruct (h1_turn rest p_rest (asha_turns ps max_length eta first_rung max_rung max_full) _ SR f IH r w p x w' p' O HF E') as (A & B). split; auto.
  destruct B as [(-> & B1 & ->)|[(-> & B1 & ->)|(m & l & B2)]].
  - exists 0, []. cbn [seq map asha_turns setq q_rungs q_jobs]. rewrite EB, B1. auto.
  - exists 0, (left r p). cbn [seq map asha_turns setq q_rungs q_jobs]. rewrite EB. destruct (left r p); [congruence|auto].
  - exists (S m), l. cbn [seq map asha_turns]. cbn [setq q_rungs]. rewrite EB. rewrite <- B2. apply hext. intros a z.
    unfold rest. rewrite hassoc. auto.
Qed.

(** * Whole searches *)
Lemma context_one (m0 : MH unit) (ms0 : Q unit) (loop : list event -> MH unit) (p_loop : nat -> Q unit) log :
  hsim1 m0 ms0 ->
  (forall f r w p x w' p', hok r w p -> length (p_plan p) < f -> p_loop f (w, p) = (x, (w', p')) ->
   q_jobs w' = [] /\ exists m l, loop (map ev (seq r m)) (setq (left r p) w) = (x, setq l w')) ->
  forall w0 p0 x w p, q_jobs w0 = [] -> Det_Spec.undisturbed (p_plan p0) ->
  with_evaluator call 1 log d (ms0 ;;# p_loop (S (length (p_plan p0)))) (w0, p0) = (x, (w, p)) ->
  q_jobs w = [] /\ exists m l, (m0 ;;+ loop (map ev (seq 0 m))) w0 = (x, setq l w).
Proof.
  intros S0 SL w0 p0 x w p H1 U E. unfold with_evaluator in E. cbn [fst snd] in E.
  pose proof (enter1 call d q_jobs log (p_plan p0) w0 H1 U) as O.
  match type of E with context [mkPool ?s [] _] => set (s1 := s) in * end.
  set (p1 := mkPool s1 [] (p_plan p0)) in *. assert (PL : p_plan p1 = p_plan p0) by reflexivity. assert (PJ : left 0 p1 = []) by reflexivity. clearbody p1.
  unfold pbind in E. destruct (ms0 (w0, p1)) as [x2 [w2 p2]] eqn:EB.
  destruct (S0 _ _ _ _ _ _ O EB) as (C1 & C3 & C4). rewrite PJ, set_nil in C4 by auto.
  destruct x2 as [u|e].
  - destruct (p_loop (S (length (p_plan p0))) (w2, p2)) as [x3 [w3 p3]] eqn:ET.
    injection E as <- <- <-. cbn [fst snd]. assert (LT : length (p_plan p2) < S (length (p_plan p0))) by (rewrite <- PL; lia).
    destruct (SL _ _ _ _ _ _ _ C1 LT ET) as (D1 & m & l & D3).
    split; auto. exists m, l. unfold hbind. rewrite C4. exact D3.
  - injection E as <- <- <-. cbn [fst snd]. split; [apply C1|]. exists 0, (left 0 p2). unfold hbind. rewrite C4. auto.
Qed.
Lemma rs_one log max_n warm s plan x w p : Det_Spec.undisturbed plan ->
  q_rs_phase call scores ps max_length max_n 1 log d warm (before_h s plan) = (x, (w, p)) ->
  q_jobs w = [] /\ exists m l, rs_phase ps max_length max_n warm (map ev (seq 0 m)) (fresh_h s) = (x, setq l w).
Proof.
  intros U E. unfold q_rs_phase in E. unfold rs_phase. unfold pbind at 1 in E. unfold own at 1 in E. cbn [before_h fst snd] in E.
  destruct (candidates ps max_length warm (fresh_h s)) as [x1 w1] eqn:EI.
  destruct (frame_nil _ _ _ _ (f_candidates _ _ _) EI eq_refl eq_refl eq_refl) as (A1 & A2 & A3).
  destruct x1 as [l|e].
  - destruct (context_one (submit_each l) (q_submit_each call l) (rs_turns ps max_length max_n) (q_rs_turns call scores ps max_length max_n) log
      (h1_submit_each l) (rs1_turns max_n) w1 (idle plan) x w p A1 U E) as (B1 & m & l' & B4).
    split; auto. exists m, l'. unfold hbind at 1. rewrite EI. exact B4.
  - injection E as <- <- <-. split; [exact A1|]. exists 0, [].
    unfold hbind. rewrite EI. f_equal. symmetry. apply set_nil; auto.
Qed.
Lemma asha1_core log max_full w0 p0 x w p : q_jobs w0 = [] -> Det_Spec.undisturbed (p_plan p0) ->
  q_asha call scores ps max_length eta first_rung max_rung max_full 1 log d (w0, p0) = (x, (w, p)) ->
  q_jobs w = [] /\ exists m l, asha ps max_length eta first_rung max_rung max_full (map ev (seq 0 m)) w0 = (x, setq l w).
Proof.
  intros H1 U E. unfold q_asha in E. unfold pbind at 1 in E. unfold own at 1 in E. cbn [fst snd set_rungs] in E.
  exact (context_one (start_jobs ps max_length eta first_rung max_rung 8) (q_start_jobs call ps max_length eta first_rung max_rung 8)
    (asha_turns ps max_length eta first_rung max_rung max_full) (q_asha_turns call scores ps max_length eta first_rung max_rung max_full) log
    (start1_jobs 8) (asha1_turns max_full)
    (mkH (q_st w0) (q_jobs w0) (q_start w0) (empty_rungs first_rung max_rung) (q_out w0) (q_trace w0)) p0 x w p H1 U E).
Qed.
Lemma asha_one log max_full warm s plan x w p : Det_Spec.undisturbed plan ->
  q_asha_phase call scores ps max_length eta first_rung max_rung max_full 1 log d warm (before_h s plan) = (x, (w, p)) ->
  q_jobs w = [] /\ exists m l, asha_phase ps max_length eta first_rung max_rung max_full warm (map ev (seq 0 m)) (fresh_h s) = (x, setq l w).
Proof.
  intros U E. unfold q_asha_phase in E. unfold asha_phase. unfold pbind at 1 in E. unfold own at 1 in E. cbn [before_h fst snd] in E.
  destruct (candidates ps max_length warm (fresh_h s)) as [x1 w1] eqn:EI.
  destruct (frame_nil _ _ _ _ (f_candidates _ _ _) EI eq_refl eq_refl eq_refl) as (A1 & A2 & A3).
  destruct x1 as [l|e].
  - unfold pbind at 1 in E. unfold own at 1 in E. cbn [fst snd set_start] in E.
    destruct (asha1_core log max_full (mkH (q_st w1) (q_jobs w1) l (q_rungs w1) (q_out w1) (q_trace w1)) (idle plan) x w p A1 U E) as (B1 & m & l' & B4).
    split; auto. exists m, l'. unfold hbind at 1. rewrite EI. exact B4.
  - injection E as <- <- <-. split; [exact A1|]. exists 0, [].
    unfold hbind. rewrite EI. f_equal. symmetry. apply set_nil; auto.
Qed.
End RS.
End One.

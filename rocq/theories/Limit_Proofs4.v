(** The evolutionary search, with a limit. *)
Require Import Permutation ZArith.
From Verif Require Import Base Num Gp_Model Evo_Model Evo_Spec Rnd_Model Proc_Model Proc_Spec Limit_Model Proc_Proofs Proc_Proofs2 Limit_Proofs2.
From Verif Require Async_Model Async_Spec Sys_Model Limit_Proofs3.
Open Scope nat_scope.
Open Scope list_scope.
Notation as_ended := Limit_Proofs3.as_ended.
Notation ae_refl := Limit_Proofs3.ae_refl.
#[export] Hint Resolve ae_refl : core.

(** The loop of the search in which job_queue_size is not the number of outstanding jobs
    less a fixed number of workers: this number changes from turn to turn. *)
Section Vary.
Context (ps : pset) (max_length : option Z) (max_retry pop_size : nat) (max_n : option Z) (restart : bool).
Fixpoint vturns (k : nat) (es : list (nat * event)) : ME unit := fun w =>
  if below max_n k then
    match es with
    | [] => match v_jobs w with [] => (Err RuntimeError, w) | _ => (Err Diverges, w) end
    | (workers, e) :: es' => (turn ps max_length max_retry workers pop_size restart e ;;~ vturns (S k) es') w
    end
  else (Ok tt, w).
Definition v_async_ea (start : list individual) (es : list (nat * event)) : ME unit :=
  if match max_n with Some m => (m <=? 0)%Z | None => false end then eraise ValueError
  else begin start ;;~ vturns 0 es.
Definition v_search (warm_start : list individual) (es : list (nat * event)) : ME unit :=
  match warm_start with
  | [] => l <~ individuals ps max_length 50 ;; v_async_ea l es
  | _ => v_async_ea warm_start es
  end.
End Vary.

Section Evo.
Context (call : nat -> list nat -> Async_Model.kwargs -> nat -> Async_Model.outcome) (scores : nat -> list num) (limit : option nat) (d : Async_Model.kwargs) (gone : Prop) (n : nat).
Notation esim := (sim call d gone n di v_jobs setj starts dones (matches scores)).
Notation ewf := (wf call d gone n v_jobs starts dones (matches scores)).
Notation ewf0 := (wf0 call d gone n v_jobs starts dones (matches scores)).
Notation out := (outstanding di).
Lemma e_ret {A} (a : A) : esim (eret a) (pret a). Proof. apply s_ret. Qed.
Lemma e_raise {A} e : esim (@eraise A e) (praise e). Proof. apply s_raise. Qed.
Lemma e_bind {A B} (m : ME A) ms (f : A -> ME B) g : esim m ms -> (forall a, esim (f a) (g a)) -> esim (ebind m f) (pbind ms g).
Proof. intros H1 H2. apply s_bind; auto. Qed.
Lemma e_own {A} (m : ME A) : eframe [] m -> esim m (own m).
Proof. intros H. apply s_own; auto. Qed.
Lemma e_submit i : esim (submit i) (p_submit call i).
Proof.
  apply s_submit with (j := i) (f := fun w => mkEvo (v_st w) (v_pop w) (v_jobs w) (v_saved w) (v_trace w ++ [Submitted i])); auto.
  - exact (matches_more scores).
  - intros w. unfold starts. cbn [v_trace]. apply submitted_app.
  - intros w. unfold dones. cbn [v_trace]. rewrite collections_app. apply app_nil_r.
Qed.
Ltac em := repeat (first [apply e_bind; [|intros ?] | apply e_ret | apply e_raise | apply e_submit | apply e_own; solve [ef]
  | match goal with |- sim _ _ _ _ _ _ _ _ _ _ (match ?x with _ => _ end) (match ?x with _ => _ end) => destruct x end
  | match goal with |- sim _ _ _ _ _ _ _ _ _ _ (if ?x then _ else _) (if ?x then _ else _) => destruct x end]).
Lemma e_submit_all l : esim (submit_all l) (p_submit_all call l).
Proof. induction l; cbn [submit_all p_submit_all]; em. auto. Qed.
Lemma e_begin l : esim (begin l) (p_begin call l).
Proof. unfold begin, p_begin. em. apply e_submit_all. Qed.
Lemma e_wait w p x w' p' : ewf w p -> p_wait_next call scores (w, p) = (x, (w', p')) ->
  ewf0 w' p' /\ (forall a, x = Ok a -> ewf w' p') /\ length (p_plan p') <= length (p_plan p) /\
  ((x = Err RuntimeError /\ out p = [] /\ out p' = [] /\ w' = w) \/
   ((x = Err Diverges \/ gone /\ x = Err ValueError) /\ out p <> [] /\ out p' = out p /\ w' = w) \/
   (exists e, out p <> [] /\ scored_by scores e /\ length (p_plan p') < length (p_plan p) /\ wait_next e (setj (out p) w) = (x, setj (out p') w'))).
Proof.
  apply (s_wait call d gone n di v_jobs setj starts dones (matches scores) wait_next collect scores (fun _ _ _ => []) (p_wait_next call scores)).
  - intros. reflexivity.
  - exact wait_eq.
  - exact (collect_ok scores).
Qed.

Section EA.
Context (ps : pset) (max_length : option Z) (max_retry pop_size : nat) (max_n : option Z) (restart : bool).
Lemma e_refill w p x w' p' : ewf w p -> p_refill call ps max_length max_retry (w, p) = (x, (w', p')) ->
  exists workers, ewf0 w' p' /\ (forall a, x = Ok a -> ewf w' p') /\ length (p_plan p') <= length (p_plan p) /\
    refill ps max_length max_retry workers (setj (out p) w) = (x, setj (out p') w').
Proof.
  intros W E. pose proof W as (W1 & W2 & W3 & W4 & W5). unfold p_refill in E. unfold pbind at 1 in E. unfold p_size in E.
  cbn [snd] in E. pose proof (size_ok call d gone di _ W1) as SZ.
  destruct (Z.leb_spec (Async_Model.a_size (p_s p)) 1) as [L|L].
  - exists (length (out p)). unfold refill. cbn [setj v_jobs]. destruct (Z.leb_spec (Z.of_nat (length (out p)) - Z.of_nat (length (out p))) 1) as [_|L']; [|lia].
    assert (S : esim (done <~ saved ;; pop <~ population ;; i <~ gp (create_one ps max_length max_retry done pop) ;; note (Bred i pop) ;;~ submit i)
       (done <# own saved ;; pop <# own population ;; i <# own (gp (create_one ps max_length max_retry done pop)) ;; own (note (Bred i pop)) ;;# p_submit call i)) by em.
    exact (S w p x w' p' W E).
  - exists 0. unfold refill. cbn [setj v_jobs]. destruct (Z.leb_spec (Z.of_nat (length (out p)) - Z.of_nat 0) 1) as [L'|_]; [lia|].
    exact (e_ret tt w p x w' p' W E).
Qed.
Lemma e_after y w p x w' p' : ewf w p -> after_p call ps max_length max_retry pop_size restart y (w, p) = (x, (w', p')) ->
  exists workers, ewf0 w' p' /\ (forall a, x = Ok a -> ewf w' p') /\ length (p_plan p') <= length (p_plan p) /\
    after_wait workers ps max_length max_retry pop_size restart y (setj (out p) w) = (x, setj (out p') w').
Proof.
  intros W E. unfold after_p in E. unfold after_wait.
  match type of E with pbind ?a (fun _ => pbind ?b (fun _ => ?c)) _ = _ => set (pa := a) in *; set (pb := b) in *; set (pc := c) in * end.
  match goal with |- exists workers, _ /\ _ /\ _ /\ ebind ?a (fun _ => ebind _ (fun _ => ?c)) _ = _ => set (a0 := a) in *; set (c0 := c) in * end.
  assert (SA : esim a0 pa) by (unfold a0, pa; em).
  assert (SC : esim c0 pc).
  { unfold c0, pc. apply e_bind; [em|intros b]. destruct b; [|em]. apply e_bind; [em|intros _]. apply e_bind; [em|intros l]. apply e_begin. }
  unfold pbind at 1 in E. destruct (pa (w, p)) as [x1 [w1 p1]] eqn:E1. destruct (SA _ _ _ _ _ W E1) as (A1 & A2 & A3 & A4).
  destruct x1 as [[]|e].
  2: { injection E as <- <- <-. exists 0. split; auto. split; [discriminate|]. split; auto. unfold ebind. rewrite A4. auto. }
  unfold pbind at 1 in E. destruct (pb (w1, p1)) as [x2 [w2 p2]] eqn:E2. destruct (e_refill _ _ _ _ _ (A2 _ eq_refl) E2) as (workers & B1 & B2 & B3 & B4).
  exists workers. destruct x2 as [[]|e].
  2: { injection E as <- <- <-. split; auto. split; [discriminate|]. split; [lia|]. unfold ebind. rewrite A4, B4. auto. }
  destruct (SC _ _ _ _ _ (B2 _ eq_refl) E) as (C1 & C2 & C3 & C4). split; auto. split; auto. split; [lia|]. unfold ebind at 1 2. rewrite A4, B4. exact C4.
Qed.
Notation turns := (vturns ps max_length max_retry pop_size max_n restart).
Lemma e_turns : forall f k w p x w' p', ewf w p -> length (p_plan p) < f ->
  p_turns call scores ps max_length max_retry pop_size max_n restart f k (w, p) = (x, (w', p')) ->
  ewf0 w' p' /\ exists es, Forall (fun e => scored_by scores (snd e)) es /\ length es + length (p_plan p') <= length (p_plan p) /\
    exists x', as_ended gone x x' /\ turns k es (setj (out p) w) = (x', setj (out p') w').
Proof.
  induction f as [|f IH]; intros k w p x w' p' W HF E; [lia|]. cbn [p_turns] in E. destruct (below max_n k) eqn:EB.
  2: { injection E as <- <- <-. split; [apply wf_wf0; auto|]. exists []. split; [constructor|]. split; [simpl; lia|]. exists (Ok tt). split; auto. cbn [vturns]. rewrite EB. auto. }
  unfold pbind at 1 in E. destruct (p_turn call scores ps max_length max_retry pop_size restart (w, p)) as [x1 [w1 p1]] eqn:ET.
  change (p_turn call scores ps max_length max_retry pop_size restart) with (pbind (p_wait_next call scores) (after_p call ps max_length max_retry pop_size restart)) in ET. unfold pbind in ET.
  destruct (p_wait_next call scores (w, p)) as [x0 [w0 p0]] eqn:EW. destruct (e_wait _ _ _ _ _ W EW) as (A1 & A2 & A3 & A4).
  destruct A4 as [(-> & A4 & A5 & ->)|[(Hx & A4 & A5 & ->)|(e & A4 & A0 & A5 & A6)]].
  - injection ET as <- <- <-. injection E as <- <- <-. split; auto. exists []. split; [constructor|]. split; [simpl; lia|]. exists (Err RuntimeError). split; auto. cbn [vturns]. rewrite EB. cbn [setj v_jobs]. rewrite A4, A5. auto.
  - assert (E9 : (x = Err Diverges \/ gone /\ x = Err ValueError) /\ w' = w /\ p' = p0).
    { destruct Hx as [-> |[GG ->]]; injection ET as <- <- <-; injection E as <- <- <-; auto. }
    destruct E9 as (E9 & -> & ->). split; auto. exists []. split; [constructor|]. split; [simpl; lia|]. exists (Err Diverges).
    split; [destruct E9 as [-> |[GG ->]]; [left; auto|right; auto]|]. cbn [vturns]. rewrite EB. cbn [setj v_jobs]. rewrite A5. destruct (out p); [congruence|auto].
  - assert (T : forall workers es, turns k ((workers, e) :: es) (setj (out p) w) =
                 ebind (ebind (wait_next e) (after_wait workers ps max_length max_retry pop_size restart)) (fun _ => turns (S k) es) (setj (out p) w)).
    { intros workers es. cbn [vturns]. rewrite EB. auto. }
    destruct x0 as [y|ex].
    + destruct (e_after y w0 p0 x1 w1 p1 (A2 _ eq_refl) ET) as (workers & B1 & B2 & B3 & B4). destruct x1 as [u|ex].
      * destruct (IH (S k) w1 p1 x w' p' (B2 _ eq_refl)) as (C1 & es & C0 & C2 & x' & C9 & C3); [lia|exact E|]. split; auto. exists ((workers, e) :: es). split; [constructor; auto|]. split; [simpl; lia|].
        exists x'. split; auto. rewrite T. unfold ebind. rewrite A6, B4. auto.
      * injection E as <- <- <-. split; auto. exists [(workers, e)]. split; [repeat constructor; auto|]. split; [simpl; lia|]. exists (Err ex). split; auto. rewrite T. unfold ebind. rewrite A6, B4. auto.
    + injection ET as <- <- <-. injection E as <- <- <-. split; auto. exists [(0, e)]. split; [repeat constructor; auto|]. split; [simpl; lia|]. exists (Err ex). split; auto. rewrite T. unfold ebind. rewrite A6. auto.
Qed.
Lemma linked_links w p : ewf0 w p ->
  exists ks, NoDup ks /\ Forall2 (fun k x => exists j, nth_error (submitted (v_trace w)) k = Some j /\ i_id (fst x) = i_id j /\ call_ended call scores d k (snd x)) ks (collections (v_trace w)).
Proof.
  intros (W1 & _ & _ & _ & l1 & l2 & R & F). destruct (origin call d gone p W1) as [N O]. exists (map fst l1). split.
  - rewrite R, map_app in N. clear - N. induction l1 as [|a l IH]; simpl in *; constructor.
    + intros H. apply NoDup_cons_iff in N as [N _]. apply N. apply in_or_app. auto.
    + apply IH. apply NoDup_cons_iff in N. tauto.
  - rewrite R in O. fold (starts w). fold (dones w). clear - F O. induction F as [|[k o] [i oc] l l' (j & M1 & M2 & M3) _ IH]; cbn [map]; constructor.
    + exists j. cbn [fst snd] in *. split; auto. split; auto. destruct (O k o) as (c & ND & RP); [left; auto|]. exists c. split; auto. subst oc.
      revert RP. unfold Async_Spec.reported, learned. destruct (call 0 [k] d c) as [v|ex|]; [|intros ->; reflexivity|intros ->; reflexivity].
      destruct v as [m|m|m|m e|[|z l0]]; intros H; try (subst o; reflexivity).
      * destruct e; subst o; cbn [outcome_of]; eexists; (split; [reflexivity|split; congruence]).
      * destruct z as [m|m|m|m e|l'']; try (subst o; reflexivity). destruct e; subst o; reflexivity.
    + apply IH. intros k' o' H. apply O. right. auto.
Qed.
Lemma ea_top log start w0 p0 x w p : (n = 0 -> gone) -> (forall t, In t (p_plan p0) -> ~ Limit_Proofs.found t -> gone) -> v_jobs w0 = [] -> starts w0 = [] -> dones w0 = [] -> out p0 = [] ->
  l_async_ea call scores limit ps max_length max_retry pop_size max_n restart n log d start (w0, p0) = (x, (w, p)) ->
  v_jobs w = [] /\ links call scores d w /\
  exists es, Forall (fun e => scored_by scores (snd e)) es /\ length es <= length (p_plan p0) /\ exists x', as_ended gone x x' /\ v_async_ea ps max_length max_retry pop_size max_n restart start es w0 = (x', setj (out p) w).
Proof.
  intros NN NG H1 H2 H3 H4 E. unfold l_async_ea in E. unfold v_async_ea.
  assert (S0 : forall w, v_jobs w = [] -> setj [] w = w) by (intros [] K; simpl in K; subst; auto).
  destruct (match max_n with Some m => (m <=? 0)%Z | None => false end).
  { injection E as <- <- <-. split; auto. split; [exists []; split; [constructor|]; fold (dones w0); rewrite H3; constructor|]. exists []. split; [constructor|]. split; [simpl; lia|].
    exists (Err ValueError). split; auto. rewrite H4, S0 by auto. auto. }
  cbn [snd] in E. unfold with_limit in E. cbn [fst snd] in E.
  match type of E with context [mkPool ?s [] _] => set (s1 := s) in * end.
  destruct (enter_ok call d gone di n limit log (p_plan p0) NN NG) as (B1 & B2 & B3 & B4). fold s1 in B1, B2, B3, B4.
  set (p1 := mkPool s1 [] (p_plan p0)) in *. assert (PL : p_plan p1 = p_plan p0) by reflexivity. assert (PJ : p_jobs p1 = []) by reflexivity. clearbody p1.
  assert (W : ewf w0 p1). { split; auto. split; auto. split; auto. split; [congruence|]. rewrite B3, H3. constructor. }
  unfold pbind in E. destruct (p_begin call start (w0, p1)) as [x2 [w2 p2]] eqn:EB.
  destruct (e_begin start _ _ _ _ _ W EB) as (C1 & C2 & C3 & C4). rewrite B2, S0 in C4 by auto.
  destruct x2 as [u|e].
  - destruct (p_turns call scores ps max_length max_retry pop_size max_n restart (S (length (p_plan p0))) 0 (w2, p2)) as [x3 [w3 p3]] eqn:ET.
    injection E as <- <- <-. cbn [fst snd]. assert (LT : length (p_plan p2) < S (length (p_plan p0))) by (rewrite <- PL; lia). destruct (e_turns _ _ _ _ _ _ _ (C2 _ eq_refl) LT ET) as (D1 & es & D0 & D2 & x' & D9 & D3).
    split; [apply D1|]. split; [apply linked_links with (1 := D1)|]. exists es. split; auto. split; [rewrite <- PL; lia|]. exists x'. split; auto. unfold ebind. rewrite C4, D3. f_equal. f_equal. symmetry. exact (exit_ok call di p3 _).
  - injection E as <- <- <-. cbn [fst snd]. split; [apply C1|]. split; [apply linked_links with (1 := C1)|]. exists []. split; [constructor|]. split; [simpl; lia|]. exists (Err e). split; auto. unfold ebind. rewrite C4. f_equal. f_equal. symmetry. exact (exit_ok call di p2 _).
Qed.
Lemma search_top log warm (s : setting) plan x w p : (n = 0 -> gone) -> (forall t, In t plan -> ~ Limit_Proofs.found t -> gone) ->
  l_search call scores limit ps max_length max_retry pop_size max_n restart n log d warm (before_search s plan) = (x, (w, p)) ->
  v_jobs w = [] /\ links call scores d w /\
  exists es, Forall (fun e => scored_by scores (snd e)) es /\ length es <= length plan /\ exists x', as_ended gone x x' /\ v_search ps max_length max_retry pop_size max_n restart warm es (fresh_search s) = (x', setj (out p) w).
Proof.
  intros NN NG E. unfold l_search in E. unfold v_search. destruct warm as [|i l]; [|exact (ea_top log (i :: l) (fresh_search s) (idle plan) _ _ _ NN NG eq_refl eq_refl eq_refl eq_refl E)].
  unfold pbind, own, before_search in E. cbn [fst snd] in E. destruct (individuals ps max_length 50 (fresh_search s)) as [x1 w1] eqn:EI.
  destruct (f_individuals _ _ _ _ _ _ EI) as (A1 & A2 & A3 & A4). rewrite app_nil_r in A3.
  assert (A5 : dones w1 = []) by (destruct A3 as [A3|[A3 _]]; exact A3).
  destruct x1 as [l|e].
  - destruct (ea_top log l w1 (idle plan) _ _ _ NN NG A1 A2 A5 eq_refl E) as (B1 & B2 & es & B0 & B3 & x' & B9 & B4). split; auto. split; auto. exists es. split; auto. split; auto. exists x'. split; auto. unfold ebind. rewrite EI. auto.
  - injection E as <- <- <-. split; [exact A1|]. split; [exists []; split; [constructor|]; fold (dones w1); rewrite A5; constructor|]. exists []. split; [constructor|]. split; [simpl; lia|].
    exists (Err e). split; auto. unfold ebind. rewrite EI. f_equal. destruct w1. cbn in A1. subst. auto.
Qed.
End EA.
End Evo.

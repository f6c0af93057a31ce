(** The evolutionary search. *)
Require Import Permutation ZArith.
From Verif Require Import Base Num Gp_Model Evo_Model Evo_Spec Rnd_Model Proc_Model Proc_Spec Proc_Proofs.
From Verif Require Async_Model Async_Spec Sys_Model.
Open Scope nat_scope.
Open Scope list_scope.

Definition setj (j : list individual) (w : evo) : evo := mkEvo (v_st w) (v_pop w) j (v_saved w) (v_trace w).
Definition starts (w : evo) : list individual := submitted (v_trace w).
Definition dones (w : evo) : list (individual * outcome) := collections (v_trace w).
Definition di : individual := mkInd 0 0 [] "".
Lemma submitted_app a b : submitted (a ++ b) = submitted a ++ submitted b.
Proof. induction a as [|[]]; simpl; auto. f_equal. auto. Qed.
Lemma collections_app a b : collections (a ++ b) = collections a ++ collections b.
Proof. induction a as [|[]]; simpl; auto. f_equal. auto. Qed.
Notation eframe := (frame (J := individual) v_jobs setj starts dones).
Lemma f_ret {A} (a : A) : eframe [] (eret a).
Proof. intros w x w' E. injection E as <- <-. rewrite app_nil_r. auto. Qed.
Lemma f_err {A} e : eframe [] (@eraise A e).
Proof. intros w x w' E. injection E as <- <-. rewrite app_nil_r. auto. Qed.
Lemma f_ebind {A B} l (m : ME A) (f : A -> ME B) : eframe [] m -> (forall a, eframe l (f a)) -> eframe l (ebind m f).
Proof. intros H1 H2. apply f_bind; auto. Qed.
Lemma f_ebind_l {A B} l (m : ME A) (f : A -> ME B) : eframe l m -> (forall a, eframe [] (f a)) -> eframe l (ebind m f).
Proof. intros H1 H2. apply f_bind_l; auto. Qed.
Lemma f_gp {A} (m : M A) : eframe [] (gp m).
Proof. intros w x w' E. unfold gp in *. cbn [v_st setj]. destruct (m (v_st w)). injection E as <- <-. rewrite app_nil_r. auto. Qed.
Lemma f_note t : submitted [t] = [] -> eframe (collections [t]) (note t).
Proof.
  intros H w x w' E. injection E as <- <-. split; auto. unfold starts, dones. cbn [v_trace]. rewrite submitted_app, collections_app, H, app_nil_r. auto.
Qed.
Lemma f_pop : eframe [] population.
Proof. intros w x w' E. injection E as <- <-. rewrite app_nil_r. auto. Qed.
Lemma f_saved : eframe [] saved.
Proof. intros w x w' E. injection E as <- <-. rewrite app_nil_r. auto. Qed.
Lemma f_set l : eframe [] (set_population l).
Proof. intros w x w' E. injection E as <- <-. rewrite app_nil_r. auto. Qed.
Lemma f_save i : eframe [] (save i).
Proof. intros w x w' E. unfold save in *. cbn [v_st setj]. destruct (pipeline_str i (v_st w)) as [[t|e] s]; injection E as <- <-; rewrite app_nil_r; auto. Qed.
Create HintDb ef.
#[export] Hint Resolve f_ret f_err f_gp f_pop f_saved f_set f_save : ef.
Ltac ef := repeat (first [apply f_ebind; [|intros ?] | solve [auto with ef] | match goal with |- frame _ _ _ _ _ (note ?t) => exact (f_note t eq_refl) end
  | match goal with |- frame _ _ _ _ _ (match ?x with _ => _ end) => destruct x end | match goal with |- frame _ _ _ _ _ (if ?x then _ else _) => destruct x end]).
Lemma f_add pop_size m : eframe [] (add_to_population pop_size m).
Proof. unfold add_to_population. ef. Qed.
Lemma f_individuals ps ml k : eframe [] (individuals ps ml k).
Proof. induction k; cbn [individuals]; ef. Qed.
#[export] Hint Resolve f_add f_individuals : ef.

Section Evo.
Context (call : nat -> list nat -> Async_Model.kwargs -> nat -> Async_Model.outcome) (scores : nat -> list num) (d : Async_Model.kwargs) (n : nat).
Definition matches (l : list individual) (x : nat * Async_Model.outcome) (y : individual * outcome) : Prop :=
  exists j, nth_error l (fst x) = Some j /\ i_id (fst y) = i_id j /\ snd y = outcome_of scores (snd x).
Lemma matches_more l j x y : matches l x y -> matches (l ++ [j]) x y.
Proof. intros (i & A & B). exists i. split; auto. rewrite nth_error_app1; auto. apply nth_error_Some. congruence. Qed.
Notation esim := (sim call d n di v_jobs setj starts dones matches).
Notation ewf := (wf call d n v_jobs starts dones matches).
Notation ewf0 := (wf0 call d n v_jobs starts dones matches).
Notation out := (outstanding di).
Lemma e_ret {A} (a : A) : esim (eret a) (pret a). Proof. apply s_ret. Qed.
Lemma e_raise {A} e : esim (@eraise A e) (praise e). Proof. apply s_raise. Qed.
Lemma e_bind {A B} (m : ME A) ms (f : A -> ME B) g : esim m ms -> (forall a, esim (f a) (g a)) -> esim (ebind m f) (pbind ms g).
Proof. intros H1 H2. apply s_bind; auto. Qed.
Lemma e_own {A} (m : ME A) : eframe [] m -> esim m (own m).
Proof. intros H. apply s_own; auto. Qed.
Lemma e_submit i : esim (submit i) (p_submit call i).
Proof.
  apply s_submit with (j := i) (f := fun w => mkEvo (v_st w) (v_pop w) (v_jobs w) (v_saved w) (v_trace w ++ [Submitted i])); auto.
  - exact matches_more.
  - intros w. unfold starts. cbn [v_trace]. apply submitted_app.
  - intros w. unfold dones. cbn [v_trace]. rewrite collections_app. apply app_nil_r.
Qed.
Ltac em := repeat (first [apply e_bind; [|intros ?] | apply e_ret | apply e_raise | apply e_submit | apply e_own; solve [ef]
  | match goal with |- sim _ _ _ _ _ _ _ _ _ (match ?x with _ => _ end) (match ?x with _ => _ end) => destruct x end
  | match goal with |- sim _ _ _ _ _ _ _ _ _ (if ?x then _ else _) (if ?x then _ else _) => destruct x end]).
Lemma e_submit_all l : esim (submit_all l) (p_submit_all call l).
Proof. induction l; cbn [submit_all p_submit_all]; em. auto. Qed.
Lemma e_begin l : esim (begin l) (p_begin call l).
Proof. unfold begin, p_begin. em. apply e_submit_all. Qed.
Lemma unpickle_id j s i s' : unpickle j s = (Ok i, s') -> i_id i = i_id j.
Proof.
  unfold unpickle, mbind, mget, mret. destruct (unpickle_node _ _ _) as [[l|e] s1]; [|discriminate]. intros E. injection E as <- _. auto.
Qed.
Lemma collect_ok w j o : exists l, (forall x w', collect j o w = (x, w') -> v_jobs w' = v_jobs w /\ starts w' = starts w /\
      (dones w' = dones w ++ l \/ (dones w' = dones w /\ forall a, x <> Ok a)) /\
      forall jj, collect j o (setj jj w) = (x, setj jj w')) /\
      forall ls k r, nth_error ls k = Some j -> o = outcome_of scores r -> exists y, l = [y] /\ matches ls (k, r) y.
Proof.
  destruct o as [|sc failed].
  - exists [(j, Raised)]. split.
    + intros x w' E. assert (F : eframe [(j, Raised)] (collect j Raised)).
      { unfold collect. apply f_ebind_l; [|intros; apply f_ret]. exact (f_note (Collected j Raised) eq_refl). }
      exact (F _ _ _ E).
    + intros ls k r A B. eexists. split; [reflexivity|]. exists j. auto.
  - set (o := Evaluated sc failed). change (collect j o) with (i <~ gp (unpickle j) ;; note (Collected i o) ;;~ save i ;;~ eret (i, o)).
    destruct (unpickle j (v_st w)) as [[i|e] s] eqn:EU.
    + exists [(i, o)]. split.
      * intros x w' E. assert (F : eframe [(i, o)] (note (Collected i o) ;;~ save i ;;~ eret (i, o))).
        { apply f_ebind_l; [exact (f_note (Collected i o) eq_refl)|intros _]. ef. }
        unfold ebind at 1 in E. unfold gp in E. rewrite EU in E. destruct (F _ _ _ E) as (A & B & C & D).
        split; auto. split; auto. split; auto. intros jj. unfold ebind at 1, gp. cbn [setj v_st]. rewrite EU. apply D.
      * intros ls k r A B. eexists. split; [reflexivity|]. exists j. split; auto. split; auto. eapply unpickle_id; eauto.
    + exists [(j, o)]. split.
      * intros x w' E. unfold ebind at 1 in E. unfold gp in E. rewrite EU in E. injection E as <- <-.
        split; auto. split; auto. split; [right; split; [auto|discriminate]|]. intros jj. unfold ebind at 1, gp. cbn [setj v_st]. rewrite EU. auto.
      * intros ls k r A B. eexists. split; [reflexivity|]. exists j. auto.
Qed.
Lemma wait_eq e l w : wait_next e (setj l w) = match l with
    | [] => (Err RuntimeError, setj l w)
    | j0 :: _ => let k := e_pick e mod length l in collect (nth k l j0) (e_out e) (setj (remove_nth k l) w)
    end.
Proof. unfold wait_next. cbn [setj v_jobs]. destruct l; auto. cbv zeta. unfold collect. destruct (e_out e); auto. Qed.
Lemma e_wait w p x w' p' : ewf w p -> p_wait_next call scores (w, p) = (x, (w', p')) ->
  ewf0 w' p' /\ (forall a, x = Ok a -> ewf w' p') /\ length (p_plan p') <= length (p_plan p) /\
  ((x = Err RuntimeError /\ out p = [] /\ out p' = [] /\ w' = w) \/
   (x = Err Diverges /\ out p <> [] /\ out p' = out p /\ w' = w) \/
   (exists e, out p <> [] /\ scored_by scores e /\ length (p_plan p') < length (p_plan p) /\ wait_next e (setj (out p) w) = (x, setj (out p') w'))).
Proof.
  apply (s_wait call d n di v_jobs setj starts dones matches wait_next collect scores (fun _ _ _ => []) (p_wait_next call scores)).
  - intros. reflexivity.
  - exact wait_eq.
  - exact collect_ok.
Qed.

Section EA.
Context (ps : pset) (max_length : option Z) (max_retry pop_size : nat) (max_n : option Z) (restart : bool).
Lemma e_refill : esim (refill ps max_length max_retry n) (p_refill call ps max_length max_retry).
Proof.
  intros w p x w' p' W E. pose proof W as (W1 & W2 & W3 & W4 & W5). unfold p_refill in E. unfold pbind at 1 in E. unfold p_size in E.
  cbn [snd] in E. rewrite (size_ok call d di) in E by auto. rewrite W3 in E. unfold refill. cbn [setj v_jobs].
  destruct (Z.of_nat (length (out p)) - Z.of_nat n <=? 1)%Z; [|exact (e_ret tt w p x w' p' W E)].
  assert (S : esim (done <~ saved ;; pop <~ population ;; i <~ gp (create_one ps max_length max_retry done pop) ;; note (Bred i pop) ;;~ submit i)
     (done <# own saved ;; pop <# own population ;; i <# own (gp (create_one ps max_length max_retry done pop)) ;; own (note (Bred i pop)) ;;# p_submit call i)) by em.
  exact (S w p x w' p' W E).
Qed.
Definition after_wait (x : individual * outcome) : ME unit :=
  (match x with
   | (i, Evaluated scores false) => add_to_population pop_size (mkMem i scores)
   | _ => eret tt
   end) ;;~
  refill ps max_length max_retry n ;;~
  b <~ (if restart then gp (mrandom (fun r => let (b, r') := rcoin r in (Ok b, r'))) else eret false) ;;
  if b then note Restarted ;;~ l <~ individuals ps max_length pop_size ;; begin l else eret tt.
Definition after_p (x : individual * outcome) : P unit :=
  (match x with
   | (i, Evaluated scores false) => own (add_to_population pop_size (mkMem i scores))
   | _ => pret tt
   end) ;;#
  p_refill call ps max_length max_retry ;;#
  b <# (if restart then own (gp (mrandom (fun r => let (b, r') := rcoin r in (Ok b, r')))) else pret false) ;;
  if b then own (note Restarted) ;;# l <# own (individuals ps max_length pop_size) ;; p_begin call l else pret tt.
Lemma e_after x : esim (after_wait x) (after_p x).
Proof.
  unfold after_wait, after_p. apply e_bind; [em|intros _]. apply e_bind; [apply e_refill|intros _]. apply e_bind; [em|intros b].
  destruct b; [|em]. apply e_bind; [em|intros _]. apply e_bind; [em|intros l]. apply e_begin.
Qed.
Notation turns := (turns ps max_length max_retry n pop_size max_n restart).
Lemma e_turns : forall f k w p x w' p', ewf w p -> length (p_plan p) < f ->
  p_turns call scores ps max_length max_retry pop_size max_n restart f k (w, p) = (x, (w', p')) ->
  ewf0 w' p' /\ exists es, Forall (scored_by scores) es /\ length es + length (p_plan p') <= length (p_plan p) /\ turns k es (setj (out p) w) = (x, setj (out p') w').
Proof.
  induction f as [|f IH]; intros k w p x w' p' W HF E; [lia|]. cbn [p_turns] in E. destruct (below max_n k) eqn:EB.
  2: { injection E as <- <- <-. split; [apply wf_wf0; auto|]. exists []. split; [constructor|]. split; [simpl; lia|]. cbn [Evo_Model.turns]. rewrite EB. auto. }
  unfold pbind at 1 in E. destruct (p_turn call scores ps max_length max_retry pop_size restart (w, p)) as [x1 [w1 p1]] eqn:ET.
  change (p_turn call scores ps max_length max_retry pop_size restart) with (pbind (p_wait_next call scores) after_p) in ET. unfold pbind in ET.
  destruct (p_wait_next call scores (w, p)) as [x0 [w0 p0]] eqn:EW. destruct (e_wait _ _ _ _ _ W EW) as (A1 & A2 & A3 & A4).
  destruct A4 as [(-> & A4 & A5 & ->)|[(-> & A4 & A5 & ->)|(e & A4 & A0 & A5 & A6)]].
  - injection ET as <- <- <-. injection E as <- <- <-. split; auto. exists []. split; [constructor|]. split; [simpl; lia|]. cbn [Evo_Model.turns]. rewrite EB. cbn [setj v_jobs]. rewrite A4, A5. auto.
  - injection ET as <- <- <-. injection E as <- <- <-. split; auto. exists []. split; [constructor|]. split; [simpl; lia|]. cbn [Evo_Model.turns]. rewrite EB. cbn [setj v_jobs]. rewrite A5. destruct (out p); [congruence|auto].
  - assert (T : forall es, turns k (e :: es) (setj (out p) w) = ebind (ebind (wait_next e) after_wait) (fun _ => turns (S k) es) (setj (out p) w)).
    { intros es. cbn [Evo_Model.turns]. rewrite EB. auto. }
    destruct x0 as [y|ex].
    + destruct (e_after y w0 p0 x1 w1 p1 (A2 _ eq_refl) ET) as (B1 & B2 & B3 & B4). destruct x1 as [u|ex].
      * destruct (IH (S k) w1 p1 x w' p' (B2 _ eq_refl)) as (C1 & es & C0 & C2 & C3); [lia|exact E|]. split; auto. exists (e :: es). split; [constructor; auto|]. split; [simpl; lia|].
        rewrite T. unfold ebind. rewrite A6, B4. auto.
      * injection E as <- <- <-. split; auto. exists [e]. split; [repeat constructor; auto|]. split; [simpl; lia|]. rewrite T. unfold ebind. rewrite A6, B4. auto.
    + injection ET as <- <- <-. injection E as <- <- <-. split; auto. exists [e]. split; [repeat constructor; auto|]. split; [simpl; lia|]. rewrite T. unfold ebind. rewrite A6. auto.
Qed.

Lemma linked_links w p : ewf0 w p -> 
  exists ks, NoDup ks /\ Forall2 (fun k x => exists j, nth_error (submitted (v_trace w)) k = Some j /\ i_id (fst x) = i_id j /\ call_ended call scores d k (snd x)) ks (collections (v_trace w)).
Proof.
  intros (W1 & _ & _ & _ & l1 & l2 & R & F). destruct (origin call d p W1) as [N O]. exists (map fst l1). split.
  - rewrite R, map_app in N. clear - N. induction l1 as [|a l IH]; simpl in *; constructor.
    + intros H. apply NoDup_cons_iff in N as [N _]. apply N. apply in_or_app. auto.
    + apply IH. apply NoDup_cons_iff in N. tauto.
  - rewrite R in O. fold (starts w). fold (dones w). clear - F O. induction F as [|[k o] [i oc] l l' (j & M1 & M2 & M3) _ IH]; cbn [map]; constructor.
    + exists j. cbn [fst snd] in *. split; auto. split; auto. destruct (O k o) as (c & ND & RP); [left; auto|]. exists c. split; auto. subst oc.
      revert RP. unfold Async_Spec.reported, learned. destruct (call 0 [k] d c) as [v|ex|]; [|intros ->; reflexivity|intros ->; reflexivity].
      destruct v as [m|m|m|m e|[|z l0]]; intros H; try (subst o; reflexivity).
      * destruct e; subst o; cbn [outcome_of]; eexists; (split; [reflexivity|split; congruence]).
      * destruct z as [m|m|m|m e|l'']; try (subst o; reflexivity). destruct e; subst o; reflexivity.
    + apply IH. intros k' o' H. apply O. right. auto.
Qed.
Definition links (w : evo) : Prop := exists ks, NoDup ks /\
  Forall2 (fun k x => exists j, nth_error (submitted (v_trace w)) k = Some j /\ i_id (fst x) = i_id j /\ call_ended call scores d k (snd x)) ks (collections (v_trace w)).
Lemma ea_top log start w0 p0 x w p : v_jobs w0 = [] -> starts w0 = [] -> dones w0 = [] -> out p0 = [] ->
  p_async_ea call scores ps max_length max_retry pop_size max_n restart n log d start (w0, p0) = (x, (w, p)) ->
  v_jobs w = [] /\ links w /\
  exists es, Forall (scored_by scores) es /\ length es <= length (p_plan p0) /\ async_ea ps max_length max_retry n pop_size max_n restart start es w0 = (x, setj (out p) w).
Proof.
  intros H1 H2 H3 H4 E. unfold p_async_ea in E. unfold async_ea.
  assert (S0 : forall w, v_jobs w = [] -> setj [] w = w) by (intros [] K; simpl in K; subst; auto).
  destruct (match max_n with Some m => (m <=? 0)%Z | None => false end).
  { injection E as <- <- <-. split; auto. split; [exists []; split; [constructor|]; fold (dones w0); rewrite H3; constructor|]. exists []. split; [constructor|]. split; [simpl; lia|].
    rewrite H4, S0 by auto. auto. }
  cbn [snd] in E. unfold with_evaluator in E. cbn [fst snd] in E.
  match type of E with context [mkPool ?s [] _] => set (s1 := s) in * end.
  destruct (enter_ok call d di n log (p_plan p0)) as (B1 & B2 & B3 & B4). fold s1 in B1, B2, B3, B4.
  set (p1 := mkPool s1 [] (p_plan p0)) in *. assert (PL : p_plan p1 = p_plan p0) by reflexivity. assert (PJ : p_jobs p1 = []) by reflexivity. clearbody p1.
  assert (W : ewf w0 p1). { split; auto. split; auto. split; auto. split; [congruence|]. rewrite B3, H3. constructor. }
  unfold pbind in E. destruct (p_begin call start (w0, p1)) as [x2 [w2 p2]] eqn:EB.
  destruct (e_begin start _ _ _ _ _ W EB) as (C1 & C2 & C3 & C4). rewrite B2, S0 in C4 by auto.
  destruct x2 as [u|e].
  - destruct (p_turns call scores ps max_length max_retry pop_size max_n restart (S (length (p_plan p0))) 0 (w2, p2)) as [x3 [w3 p3]] eqn:ET.
    injection E as <- <- <-. cbn [fst snd]. assert (LT : length (p_plan p2) < S (length (p_plan p0))) by (rewrite <- PL; lia). destruct (e_turns _ _ _ _ _ _ _ (C2 _ eq_refl) LT ET) as (D1 & es & D0 & D2 & D3).
    split; [apply D1|]. split; [apply linked_links with (1 := D1)|]. exists es. split; auto. split; [rewrite <- PL; lia|]. unfold ebind. rewrite C4, D3. f_equal. f_equal. symmetry. exact (exit_ok call di p3 _).
  - injection E as <- <- <-. cbn [fst snd]. split; [apply C1|]. split; [apply linked_links with (1 := C1)|]. exists []. split; [constructor|]. split; [simpl; lia|]. unfold ebind. rewrite C4. f_equal. f_equal. symmetry. exact (exit_ok call di p2 _).
Qed.
Lemma search_top log warm (s : setting) plan x w p :
  p_search call scores ps max_length max_retry pop_size max_n restart n log d warm (before_search s plan) = (x, (w, p)) ->
  v_jobs w = [] /\ links w /\
  exists es, Forall (scored_by scores) es /\ length es <= length plan /\ search ps max_length max_retry n pop_size max_n restart warm es (fresh_search s) = (x, setj (out p) w).
Proof.
  intros E. unfold p_search in E. unfold search. destruct warm as [|i l]; [|exact (ea_top log (i :: l) (fresh_search s) (idle plan) _ _ _ eq_refl eq_refl eq_refl eq_refl E)].
  unfold pbind, own, before_search in E. cbn [fst snd] in E. destruct (individuals ps max_length 50 (fresh_search s)) as [x1 w1] eqn:EI.
  destruct (f_individuals _ _ _ _ _ _ EI) as (A1 & A2 & A3 & A4). rewrite app_nil_r in A3.
  assert (A5 : dones w1 = []) by (destruct A3 as [A3|[A3 _]]; exact A3).
  destruct x1 as [l|e].
  - destruct (ea_top log l w1 (idle plan) _ _ _ A1 A2 A5 eq_refl E) as (B1 & B2 & es & B0 & B3 & B4). split; auto. split; auto. exists es. split; auto. split; auto. unfold ebind. rewrite EI. auto.
  - injection E as <- <- <-. split; [exact A1|]. split; [exists []; split; [constructor|]; fold (dones w1); rewrite A5; constructor|]. exists []. split; [constructor|]. split; [simpl; lia|].
    unfold ebind. rewrite EI. f_equal. destruct w1. cbn in A1. subst. auto.
Qed.
End EA.
End Evo.

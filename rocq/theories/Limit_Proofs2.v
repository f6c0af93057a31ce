(** The evaluator with a limit inside a search, for any search ([Proc_Proofs.v], where there
    is no limit). *)
Require Import Permutation ZArith.
From Verif Require Import Base Num Gp_Model Evo_Model Rnd_Model Proc_Model Proc_Proofs.
From Verif Require Async_Model Async_Spec Sys_Model Sys_Proofs Sys_Proofs2 Limit_Proofs.
Open Scope nat_scope.
Open Scope list_scope.

Section Pool.
Context (call : nat -> list nat -> Async_Model.kwargs -> nat -> Async_Model.outcome) (d : Async_Model.kwargs) (gone : Prop) {J : Type} (dj : J).
Notation outstanding := (outstanding dj).
Notation good := (Limit_Proofs.good call d).
Record wfp0 (p : pool J) : Prop := {
  p_good : good (p_s p);
  p_sub : Async_Model.a_submitted (p_s p) = map (fun k => (k, Sys_Model.future k)) (seq 0 (length (p_jobs p)));
  p_none : pn p = 0 -> gone;
  p_gone : forall t, In t (p_plan p) -> ~ Limit_Proofs.found t -> gone }.
Definition wfp (p : pool J) : Prop := wfp0 p /\ Async_Model.a_waiting (p_s p) = false.

Lemma submit_ok j p : wfp p -> let p' := pool_submit call j p in
  wfp p' /\ p_jobs p' = p_jobs p ++ [j] /\ outstanding p' = outstanding p ++ [j] /\ delivered p' = delivered p /\ pn p' = pn p /\
  length (p_plan p') <= length (p_plan p).
Proof.
  intros [[W1 W5 WN WG] W8] p'. unfold p', pool_submit.
  set (acts := match p_plan p with [] => [] | t :: _ => Sys_Model.t_acts t end). clearbody acts.
  destruct (Limit_Proofs.workers_good call d acts _ W1) as [G1 (L1 & L2 & L3 & L4 & L5 & L6)].
  set (s1 := Sys_Model.workers_do call acts (p_s p)) in *. clearbody s1.
  assert (G2 : good (Async_Model.step call s1 (Async_Model.Submit (Sys_Model.future (length (p_jobs p)))))) by (apply Limit_Proofs.good_step; auto; discriminate).
  assert (LS : length (Async_Model.a_submitted s1) = length (p_jobs p)) by (rewrite L2, W5, map_length, seq_length; auto).
  cbn [Async_Model.step] in *. rewrite L6, W8 in *. unfold Async_Model.submit in *. destruct (Limit_Proofs.g_in _ _ _ G1) as [_ C]. rewrite C in *.
  set (s2 := Async_Model.mkSt _ _ _ _ _ _ _ _ _ _ _ _ _ _ _ _ _ _ _) in *.
  cbn [p_s p_jobs p_plan]. split; [split; [split|]; cbn [p_s p_jobs s2 Async_Model.a_submitted Async_Model.a_waiting]; auto; try congruence|].
  - rewrite LS, L2, W5, app_length, seq_app, map_app. simpl. auto.
  - unfold pn. cbn [p_s s2 Async_Model.a_n]. unfold pn in WN. intros K9. apply WN. rewrite <- L5. exact K9.
  - intros t Ht. apply WG. destruct (p_plan p); [destruct Ht|right; exact Ht].
  - split; auto. split; [|split; [|split]].
    + unfold Proc_Proofs.outstanding. cbn [p_s p_jobs s2 Async_Model.a_futures]. rewrite L1, map_app. cbn [map fst]. f_equal.
      * apply map_ext_in. intros z Hz. apply app_nth1. destruct (Limit_Proofs.ids_ok call d _ W1) as (_ & _ & H).
        apply (in_map fst) in Hz. apply H in Hz. rewrite W5, map_length, seq_length in Hz. auto.
      * rewrite LS, app_nth2, Nat.sub_diag; auto.
    + unfold delivered. cbn [p_s s2 Async_Model.a_returned]. auto.
    + unfold pn. cbn [p_s s2 Async_Model.a_n]. auto.
    + destruct (p_plan p); simpl; lia.
Qed.
Lemma size_ok p : wfp p -> (Async_Model.a_size (p_s p) <= Z.of_nat (length (outstanding p)))%Z.
Proof. intros [[W _ _ _] _]. pose proof (Limit_Proofs.size_ok call d _ W). unfold Proc_Proofs.outstanding. rewrite map_length. auto. Qed.

Lemma wait_ok p x p' : wfp p -> pool_wait call p = (x, p') ->
  wfp0 p' /\ p_jobs p' = p_jobs p /\ pn p' = pn p /\ length (p_plan p') <= length (p_plan p) /\
  ((outstanding p = [] /\ x = Err RuntimeError /\ outstanding p' = [] /\ delivered p' = delivered p) \/
   (outstanding p <> [] /\ (x = Err Diverges \/ gone /\ x = Err ValueError) /\ outstanding p' = outstanding p /\ delivered p' = delivered p) \/
   (exists k id r j, x = Ok (id, r) /\ k < length (outstanding p) /\ (forall dd, nth k (outstanding p) dd = j) /\ nth_error (p_jobs p) id = Some j /\
      outstanding p' = remove_nth k (outstanding p) /\ delivered p' = delivered p ++ [(id, r)] /\ wfp p' /\ length (p_plan p') < length (p_plan p))).
Proof.
  intros W E. unfold pool_wait in E. destruct W as [[W1 W5 WN WG] W8].
  assert (G0 : good (Async_Model.step call (p_s p) Async_Model.Wait)) by (apply Limit_Proofs.good_step; auto; discriminate).
  remember (Async_Model.step call (p_s p) Async_Model.Wait) as s0 eqn:E0. cbn [Async_Model.step] in E0. rewrite W8 in E0. unfold Async_Model.wait_start in E0.
  destruct (Async_Model.a_futures (p_s p)) as [|f0 fs] eqn:EF.
  - rewrite E0 in E. unfold Sys_Model.raised_by in E. cbn [Async_Model.raise Async_Model.a_raised] in E. rewrite app_length in E.
    destruct (Nat.ltb_spec (length (Async_Model.a_raised (p_s p))) (length (Async_Model.a_raised (p_s p)) + length [RuntimeError])) as [_|HH]; [|simpl in HH; lia].
    rewrite last_last in E. injection E as <- <-. split; [|split; [|split; [|split]]]; auto.
    + split; cbn [p_s p_jobs p_plan]; auto. rewrite <- E0. auto.
    + left. unfold Proc_Proofs.outstanding. cbn [p_s p_jobs Async_Model.raise Async_Model.a_futures]. rewrite EF. auto.
  - rewrite Sys_Proofs2.raised_none in E by (rewrite E0; auto).
    assert (WT : Async_Model.a_waiting s0 = true) by (rewrite E0; auto).
    destruct (Sys_Model.turns call (p_plan p) s0) as [s1 plan] eqn:ET.
    destruct (Limit_Proofs.turns_good call d _ _ _ _ G0 WT ET) as (G1 & LP & IP & H).
    assert (F0 : Async_Model.a_futures s0 = f0 :: fs /\ Async_Model.a_submitted s0 = Async_Model.a_submitted (p_s p) /\
                 Async_Model.a_returned s0 = Async_Model.a_returned (p_s p) /\ Async_Model.a_n s0 = Async_Model.a_n (p_s p)).
    { rewrite E0. cbn. auto. }
    destruct F0 as (F1 & F2 & F3 & F4). clear E0.
    assert (WG' : forall t, In t plan -> ~ Limit_Proofs.found t -> gone) by (intros t Ht; apply WG, IP; auto).
    assert (WN' : Async_Model.a_n s1 = Async_Model.a_n s0 -> pn (mkPool s1 (p_jobs p) plan) = 0 -> gone) by (intros K9; unfold pn in *; cbn [p_s]; rewrite K9, F4; exact WN).
    destruct H as [(L1 & L2 & L3 & L4 & L5 & L6)|[[(id & res & X1 & X2 & X3 & X4 & X5 & X6 & X7) LT]|[(L1 & L2 & L3 & L4 & L5 & L6) LF]]].
    + rewrite L6, WT in E. injection E as <- <-. split; [split; cbn [p_s p_jobs p_plan]; auto; congruence|]. split; auto. split; [unfold pn; cbn [p_s]; congruence|]. split; auto.
      right. left. unfold Proc_Proofs.outstanding, delivered. cbn [p_s p_jobs]. rewrite EF, L1, F1. repeat split; auto; try discriminate. congruence.
    + rewrite X7 in E. rewrite Sys_Proofs2.raised_none in E by auto. rewrite X4, rev_app_distr in E. cbn [rev app] in E. injection E as <- <-.
      assert (W' : wfp0 (mkPool s1 (p_jobs p) plan)) by (split; cbn [p_s p_jobs p_plan]; auto; congruence).
      split; auto. split; auto. split; [unfold pn; cbn [p_s]; congruence|]. split; auto. right. right.
      rewrite F1 in *. destruct (Limit_Proofs.ids_ok call d _ W1) as (N1 & _ & N2). rewrite EF in N1, N2.
      destruct (place (fun x => nth (fst x) (p_jobs p) dj) id (f0 :: fs) N1 X1) as (k & K1 & K2 & K3); [intros a b ->; auto|].
      pose proof (N2 _ X1) as N3. rewrite W5, map_length, seq_length in N3.
      exists k, id, res, (nth id (p_jobs p) dj). unfold Proc_Proofs.outstanding, delivered. cbn [p_s p_jobs p_plan]. rewrite EF, map_length.
      split; auto. split; auto. split; [intros dd; apply (K2 (id, Sys_Model.future id)); auto|]. split; [apply nth_error_nth'; auto|].
      rewrite X2, X4, F3. split; [symmetry; exact K3|]. split; auto. split; [split; auto|]. lia.
    + rewrite L6 in E. unfold Sys_Model.raised_by in E. rewrite L4, app_length in E.
      destruct (Nat.ltb_spec (length (Async_Model.a_raised s0)) (length (Async_Model.a_raised s0) + length [ValueError])) as [_|HH]; [|simpl in HH; lia].
      rewrite last_last in E. injection E as <- <-. split; [split; cbn [p_s p_jobs p_plan]; auto; congruence|]. split; auto. split; [unfold pn; cbn [p_s]; congruence|]. split; auto.
      right. left. unfold Proc_Proofs.outstanding, delivered. cbn [p_s p_jobs]. rewrite EF, L1, F1. assert (GG : gone).
      { destruct (Async_Model.a_n s0) as [|m] eqn:EN; [apply WN; unfold pn; congruence|]. destruct LF as (t & T1 & T2); [lia|]. exact (WG t T1 T2). }
      repeat split; auto; try discriminate. congruence.
Qed.
Lemma enter_ok n limit log plan : (n = 0 -> gone) -> (forall t, In t plan -> ~ Limit_Proofs.found t -> gone) -> let p := mkPool (Async_Model.step call (Async_Model.new_evaluator n limit log d) Async_Model.Enter) [] plan in
  wfp p /\ outstanding p = [] /\ delivered p = [] /\ pn p = n.
Proof.
  intros NN NG p. destruct (Limit_Proofs.good_enter call d n limit log) as [G (G1 & G2 & G3 & G4 & G5 & G6)].
  unfold p, Proc_Proofs.outstanding, delivered, pn. cbn [p_s p_jobs]. rewrite G1. split; [split; [split|]|]; auto. unfold pn. cbn [p_s]. rewrite G5. auto.
Qed.
Lemma origin p : wfp0 p -> NoDup (map fst (delivered p)) /\
  forall k o, In (k, o) (delivered p) -> exists choice, call 0 [k] d choice <> Async_Model.Die /\ Async_Spec.reported o (call 0 [k] d choice).
Proof.
  intros [W1 W5 _ _]. destruct (Limit_Proofs.ids_ok call d _ W1) as (_ & N & _). split; auto.
  intros k o H. apply (Limit_Proofs.origin_ok call d _ W1) in H; [tauto|]. intros k' j' H'. rewrite W5 in H'. apply in_map_iff in H' as (k'' & E & _). congruence.
Qed.
End Pool.

Section Sim.
Context (call : nat -> list nat -> Async_Model.kwargs -> nat -> Async_Model.outcome) (d : Async_Model.kwargs) (gone : Prop) (n : nat).
(** [T]: the search's state, with a list of jobs in it; [starts], [dones]: what was
    submitted and collected so far; [matches]: a result of the evaluator is what was
    collected. *)
Context {T J D : Type} (dj : J) (getj : T -> list J) (setj : list J -> T -> T) (starts : T -> list J) (dones : T -> list D).
Context (matches : list J -> nat * Async_Model.outcome -> D -> Prop).

Notation frame := (frame getj setj starts dones).
Definition linked (w : T) (p : pool J) : Prop := p_jobs p = starts w /\
  exists l1 l2, delivered p = l1 ++ l2 /\ Forall2 (matches (starts w)) l1 (dones w).
Definition wf0 (w : T) (p : pool J) : Prop := wfp0 call d gone p /\ getj w = [] /\ pn p = n /\ linked w p.
Definition wf (w : T) (p : pool J) : Prop := wfp call d gone p /\ getj w = [] /\ pn p = n /\ p_jobs p = starts w /\ Forall2 (matches (starts w)) (delivered p) (dones w).
Lemma wf_wf0 w p : wf w p -> wf0 w p.
Proof. intros ((A & _) & B & C & D0 & E). split; auto. split; auto. split; auto. split; auto. exists (delivered p), []. rewrite app_nil_r. auto. Qed.
Definition sim {A} (m : T -> res A * T) (ms : MP T J A) : Prop := forall w p x w' p', wf w p -> ms (w, p) = (x, (w', p')) ->
  wf0 w' p' /\ (forall a, x = Ok a -> wf w' p') /\ length (p_plan p') <= length (p_plan p) /\
  m (setj (outstanding dj p) w) = (x, setj (outstanding dj p') w').
Lemma s_ret {A} (a : A) : sim (fun w => (Ok a, w)) (pret a).
Proof. intros w p x w' p' W E. injection E as <- <- <-. split; [apply wf_wf0; auto|]. auto. Qed.
Lemma s_raise {A} e : sim (fun w => (@Err A e, w)) (praise e).
Proof. intros w p x w' p' W E. injection E as <- <- <-. split; [apply wf_wf0; auto|]. auto. Qed.
Lemma s_bind {A B} (m : T -> res A * T) (ms : MP T J A) (f : A -> T -> res B * T) (g : A -> MP T J B) :
  sim m ms -> (forall a, sim (f a) (g a)) ->
  sim (fun w => match m w with (Ok a, w') => f a w' | (Err e, w') => (Err e, w') end) (pbind ms g).
Proof.
  intros H1 H2 w p x w' p' W E. unfold pbind in E. destruct (ms (w, p)) as [[a|e] [w1 p1]] eqn:E1.
  - destruct (H1 _ _ _ _ _ W E1) as (A1 & A2 & A3 & A4). destruct (H2 a _ _ _ _ _ (A2 _ eq_refl) E) as (B1 & B2 & B3 & B4).
    split; auto. split; auto. split; [lia|]. rewrite A4. auto.
  - injection E as <- <- <-. destruct (H1 _ _ _ _ _ W E1) as (A1 & A2 & A3 & A4). split; auto. split; [discriminate|]. split; auto. rewrite A4. auto.
Qed.
Lemma s_own {A} (m : T -> res A * T) : frame [] m -> sim m (own m).
Proof.
  intros F w p x w' p' (W1 & W2 & W3 & W4 & W5) E. unfold own in E. cbn [fst snd] in E. destruct (m w) as [x0 w0] eqn:Em. injection E as <- <- <-.
  destruct (F _ _ _ Em) as (A1 & A2 & A3 & A4). assert (A5 : dones w0 = dones w) by (rewrite app_nil_r in A3; tauto).
  assert (W' : wf w0 p) by (split; [auto|]; split; [congruence|]; split; [auto|]; split; [congruence|]; rewrite A2, A5; auto).
  split; [apply wf_wf0; auto|]. split; auto.
Qed.
(** Submission: whatever else happens to the search's state. *)
Lemma s_submit (j : J) (f : T -> T) (m : T -> res unit * T) (ms : MP T J unit) :
  (forall l j x y, matches l x y -> matches (l ++ [j]) x y) ->
  (forall w, getj (f w) = getj w) -> (forall w, starts (f w) = starts w ++ [j]) -> (forall w, dones (f w) = dones w) ->
  (forall l w, m (setj l w) = (Ok tt, setj (l ++ [j]) (f w))) ->
  (forall w p, ms (w, p) = (Ok tt, (f w, pool_submit call j p))) -> sim m ms.
Proof.
  intros matches_more F1 F2 F3 F4 F5 w p x w' p' (W1 & W2 & W3 & W4 & W5) E. rewrite F5 in E. injection E as <- <- <-.
  destruct (submit_ok call d gone dj j p W1) as (B1 & B2 & B3 & B4 & B5 & B6).
  assert (W' : wf (f w) (pool_submit call j p)).
  { split; auto. split; [rewrite F1; auto|]. split; [congruence|]. split; [rewrite B2, F2, W4; auto|]. rewrite B4, F2, F3. eapply F2_mono; [|exact W5]. intros a b. apply matches_more. }
  split; [apply wf_wf0; auto|]. split; auto. split; auto. rewrite F4, B3. auto.
Qed.
(** Waiting. *)
Lemma s_wait {A} (wait : event -> T -> res A * T) (col : J -> outcome -> T -> res A * T) (scores : nat -> list num) (res_of : J -> outcome -> T -> list D) (ms : MP T J A) :
  (forall w p, ms (w, p) = match pool_wait call p with
    | (Err e, p') => (Err e, (w, p'))
    | (Ok (k, r), p') => match nth_error (p_jobs p') k with
                         | None => (Err KeyError, (w, p'))
                         | Some j => own (col j (outcome_of scores r)) (w, p')
                         end
    end) ->
  (forall e l w, wait e (setj l w) = match l with
    | [] => (Err RuntimeError, setj l w)
    | j0 :: _ => let k := e_pick e mod length l in col (nth k l j0) (e_out e) (setj (remove_nth k l) w)
    end) ->
  (forall w j o, exists l, (forall x w', col j o w = (x, w') -> getj w' = getj w /\ starts w' = starts w /\
      (dones w' = dones w ++ l \/ (dones w' = dones w /\ forall a, x <> Ok a)) /\
      forall jj, col j o (setj jj w) = (x, setj jj w')) /\
      forall ls k r, nth_error ls k = Some j -> o = outcome_of scores r -> exists y, l = [y] /\ matches ls (k, r) y) ->
  forall w p x w' p', wf w p -> ms (w, p) = (x, (w', p')) ->
  wf0 w' p' /\ (forall a, x = Ok a -> wf w' p') /\ length (p_plan p') <= length (p_plan p) /\
  ((x = Err RuntimeError /\ outstanding dj p = [] /\ outstanding dj p' = [] /\ w' = w) \/
   ((x = Err Diverges \/ gone /\ x = Err ValueError) /\ outstanding dj p <> [] /\ outstanding dj p' = outstanding dj p /\ w' = w) \/
   (exists e, outstanding dj p <> [] /\ scored_by scores e /\ length (p_plan p') < length (p_plan p) /\ wait e (setj (outstanding dj p) w) = (x, setj (outstanding dj p') w'))).
Proof.
  intros HM HW HC w p x w' p' W E. rewrite HM in E. pose proof W as (W1 & W2 & W3 & W4 & W5).
  destruct (pool_wait call p) as [x0 p0] eqn:EP. destruct (wait_ok call d gone dj p x0 p0 W1 EP) as (P1 & P2 & P3 & P4 & P5).
  assert (LK : delivered p0 = delivered p -> wf0 w p0).
  { intros R. split; auto. split; auto. split; [congruence|]. split; [congruence|]. exists (delivered p), []. rewrite app_nil_r. auto. }
  destruct P5 as [(A1 & -> & A2 & A3)|[(A1 & Hx & A2 & A3)|(k & id & r & j & -> & A1 & A2 & A3 & A4 & A5 & A6 & A7)]].
  - injection E as <- <- <-. split; auto. split; [discriminate|]. split; auto.
  - assert (E9 : x = match x0 with Ok _ => x | Err e => Err e end /\ w' = w /\ p' = p0).
    { destruct Hx as [-> |[_ ->]]; injection E as <- <- <-; auto. }
    destruct E9 as (E9 & -> & ->). split; auto. split; [intros a ->; destruct Hx as [-> |[_ ->]]; discriminate|]. split; auto. right. left.
    split; auto. destruct Hx as [-> |[GG ->]]; auto.
  - rewrite P2, A3 in E. unfold own in E. cbn [fst snd] in E. destruct (col j (outcome_of scores r) w) as [x1 w1] eqn:EC. injection E as <- <- <-.
    destruct (HC w j (outcome_of scores r)) as (l & HC1 & HC2). destruct (HC1 _ _ EC) as (B1 & B2 & B3 & B4).
    assert (A3' : nth_error (starts w) id = Some j) by congruence. destruct (HC2 (starts w) id r A3' eq_refl) as (y & -> & MY).
    assert (W' : dones w1 = dones w ++ [y] -> wf w1 p0).
    { intros DN. split; auto. split; [congruence|]. split; [congruence|]. split; [congruence|]. rewrite A5, B2, DN. apply Forall2_app; auto. }
    split; [|split].
    + destruct B3 as [B3|[B3 _]]; [apply wf_wf0; auto|]. split; auto. split; [congruence|]. split; [congruence|]. split; [congruence|].
      exists (delivered p), [(id, r)]. rewrite A5, B2, B3. auto.
    + intros a Ha. destruct B3 as [B3|[_ B3]]; [auto|]. destruct (B3 a Ha).
    + split; auto. right. right. exists (mkEv k (outcome_of scores r)).
      assert (NE : outstanding dj p <> []) by (intros N; rewrite N in A1; simpl in A1; lia).
      split; auto. split; [apply outcome_scored|]. split; auto. rewrite HW. destruct (outstanding dj p) as [|j0 l'] eqn:EO; [congruence|]. cbn [e_pick e_out].
      rewrite Nat.mod_small by auto. cbv zeta. rewrite A2, B4, A4. auto.
Qed.
Lemma s_ext {A} (m m' : T -> res A * T) ms : (forall w, m w = m' w) -> sim m ms -> sim m' ms.
Proof. intros H S w p x w' p' W E. rewrite <- H. apply S; auto. Qed.
End Sim.

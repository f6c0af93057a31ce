(** A search on top of the processes is a search in which the evaluations finish one
    after the other. *)
Require Import Permutation ZArith QArith.
From Verif Require Import Base Num Search_Model Search_Spec.
From Verif Require Async_Model Async_Spec.
From Verif Require Import Sys_Model Sys_Spec.
From Verif Require Sys_Proofs.
Open Scope nat_scope.

Definition dj : job := mkJob (mkI 0 None None) None.
Definition je (j : list job) (e : list event) (w : world) : world :=
  mkW (w_lists w) j (w_n w) e (w_rng w) (w_uid w) (w_stop w) (w_rungs w) (w_trace w).

(** Code that does not look at the jobs and events. *)
Definition frame {A} (m : M A) : Prop := forall w x w', m w = (x, w') ->
  w_jobs w' = w_jobs w /\ w_events w' = w_events w /\ w_n w' = w_n w /\
  starts (w_trace w') = starts (w_trace w) /\ dones (w_trace w') = dones (w_trace w) /\
  forall j e, m (je j e w) = (x, je j e w').
Lemma f_ret {A} (a : A) : frame (ret a).
Proof. intros w x w' E. injection E as <- <-. auto 10. Qed.
Lemma f_fail {A} e : frame (@fail A e).
Proof. intros w x w' E. injection E as <- <-. auto 10. Qed.
Lemma f_bind {A B} (m : M A) (f : A -> M B) : frame m -> (forall a, frame (f a)) -> frame (bind m f).
Proof.
  intros H1 H2 w x w' E. unfold bind in *. destruct (m w) as [[a|e] w1] eqn:E1.
  - destruct (H1 _ _ _ E1) as (A1 & A2 & A3 & A4 & A5 & A6). destruct (H2 a _ _ _ E) as (B1 & B2 & B3 & B4 & B5 & B6).
    repeat split; try congruence. intros j ev. rewrite A6. apply B6.
  - injection E as <- <-. destruct (H1 _ _ _ E1) as (A1 & A2 & A3 & A4 & A5 & A6). repeat split; auto. intros j ev. rewrite A6. auto.
Qed.
Lemma f_tick : frame tick.
Proof. intros w x w' E. unfold tick in *. cbn [w_stop je]. destruct (w_stop w) as [[[|k] e]|] eqn:ES; injection E as <- <-; cbn; rewrite ?ES; auto 10. Qed.
Lemma f_read a : frame (read a).
Proof. intros w x w' E. injection E as <- <-. auto 10. Qed.
Lemma f_write a l : frame (write a l).
Proof. intros w x w' E. injection E as <- <-. auto 10. Qed.
Lemma f_note t : starts [t] = [] -> dones [t] = [] -> frame (note t).
Proof.
  intros H1 H2 w x w' E. injection E as <- <-. cbn [w_jobs w_events w_n w_trace]. unfold starts, dones in *. rewrite !flat_map_app, H1, H2, !app_nil_r. auto 10.
Qed.
Lemma f_random {A} (f : rng -> res A * rng) : frame (random f).
Proof. intros w x w' E. unfold random in *. cbn [w_rng je]. destruct (f (w_rng w)). injection E as <- <-. auto 10. Qed.
Lemma f_put l : frame (put_rungs l).
Proof. intros w x w' E. injection E as <- <-. auto 10. Qed.
Lemma f_get : frame get_rungs.
Proof. intros w x w' E. injection E as <- <-. auto 10. Qed.
Lemma f_fresh : frame fresh.
Proof. intros w x w' E. injection E as <- <-. auto 10. Qed.
Create HintDb fr.
#[export] Hint Resolve f_ret f_fail f_tick f_read f_write f_random f_put f_get f_fresh : fr.
Ltac fr := repeat (first [apply f_bind; [|intros ?] | solve [auto with fr] | apply f_note; reflexivity
  | match goal with |- frame (match ?x with _ => _ end) => destruct x end | match goal with |- frame (if ?x then _ else _) => destruct x end]).
Lemma f_append out i : frame (append out i). Proof. unfold append. fr. Qed.
Lemma f_remove out i : frame (remove out i). Proof. unfold remove. fr. Qed.
#[export] Hint Resolve f_append f_remove : fr.
Lemma f_add o out p i : frame (add_to_population o out p i). Proof. unfold add_to_population. fr. Qed.
Lemma f_new o : frame (new_individual o). Proof. unfold new_individual. fr. Qed.
#[export] Hint Resolve f_new : fr.
Lemma f_individuals o k : frame (individuals o k). Proof. induction k; cbn [individuals]; fr. Qed.
Lemma f_restart b : frame (restart_now b). Proof. unfold restart_now. fr. Qed.
Lemma f_promote eta l : frame (promote_from eta l). Proof. induction l; cbn [promote_from]; fr. Qed.
#[export] Hint Resolve f_promote : fr.
Lemma f_job o eta fr start : frame (get_job o eta fr start). Proof. unfold get_job. fr. Qed.
Lemma f_record x : frame (record_result x). Proof. unfold record_result. fr. Qed.
#[export] Hint Resolve f_add f_individuals f_restart f_job f_record : fr.

Section Sim.
Context (call : nat -> list nat -> Async_Model.kwargs -> nat -> Async_Model.outcome) (scores : nat -> list num) (d : Async_Model.kwargs).

Definition jobs_of (y : sys) : list job := map (fun x => nth (fst x) (y_jobs y) dj) (Async_Model.a_futures (y_s y)).
Definition abs (y : sys) (evs : list event) : world := je (jobs_of y) evs (y_w y).
Definition matches (l : list (ind * option nat)) (x : nat * Async_Model.outcome) (z : ind * option nat * outcome) : Prop :=
  exists i0 r, nth_error l (fst x) = Some (i0, r) /\
    z = (result_ind (mkJob i0 r) (outcome_of scores (snd x)), r, outcome_of scores (snd x)).
Record wf0 (y : sys) : Prop := {
  y_good : Sys_Proofs.good call d (y_s y); y_n : w_n (y_w y) = Async_Model.a_n (y_s y);
  y_nojobs : w_jobs (y_w y) = []; y_noev : w_events (y_w y) = [];
  y_sub : Async_Model.a_submitted (y_s y) = map (fun k => (k, future k)) (seq 0 (length (y_jobs y)));
  y_tbl : y_jobs y = map (fun x => mkJob (fst x) (snd x)) (starts (w_trace (y_w y)));
  y_ret : Forall2 (matches (starts (w_trace (y_w y)))) (Async_Model.a_returned (y_s y)) (dones (w_trace (y_w y))) }.
Definition wf (y : sys) : Prop := wf0 y /\ Async_Model.a_waiting (y_s y) = false.

Definition sim {A} (m : M A) (ms : MS A) : Prop := forall y x y', wf y -> ms y = (x, y') ->
  exists evs, length evs + length (y_plan y') <= length (y_plan y) /\
    (x <> Err Diverges -> wf y' /\ forall rest, m (abs y (evs ++ rest)) = (x, abs y' rest)) /\
    (x = Err Diverges -> wf0 y' /\ m (abs y evs) = (x, abs y' [])).
Lemma s_ret_sim {A} (a : A) : sim (ret a) (sret a).
Proof. intros y x y' W E. injection E as <- <-. exists []. simpl. split; auto. split; [|discriminate]. intros _. split; auto. Qed.
Lemma s_fail_sim {A} e : sim (@fail A e) (sfail e).
Proof. intros y x y' W E. injection E as <- <-. exists []. simpl. split; auto. split; intros N; split; auto. apply W. Qed.
Lemma s_bind_sim {A B} (m : M A) (ms : MS A) (f : A -> M B) (g : A -> MS B) : sim m ms -> (forall a, sim (f a) (g a)) -> sim (bind m f) (sbind ms g).
Proof.
  intros H1 H2 y x y' W E. unfold sbind in E. destruct (ms y) as [[a|e] y1] eqn:E1.
  - destruct (H1 _ _ _ W E1) as (e1 & L1 & K1 & _). destruct K1 as [W1 K1]; [discriminate|].
    destruct (H2 a _ _ _ W1 E) as (e2 & L2 & K2 & K3). exists (e1 ++ e2). rewrite app_length. split; [lia|]. split.
    + intros N. destruct (K2 N) as [W2 K]. split; auto. intros rest. unfold bind. rewrite <- app_assoc, K1. apply K.
    + intros N. destruct (K3 N) as [W2 K]. split; auto. unfold bind. rewrite K1. apply K.
  - injection E as <- <-. destruct (H1 _ _ _ W E1) as (e1 & L1 & K1 & K2). exists e1. split; auto. split.
    + intros N. destruct K1 as [W1 K1]; [intros Q; apply N; injection Q as ->; auto|]. split; auto. intros rest. unfold bind. rewrite K1. auto.
    + intros N. injection N as ->. destruct K2 as [W1 K2]; auto. split; auto. unfold bind. rewrite K2. auto.
Qed.
Lemma own_sim {A} (m : M A) : frame m -> sim m (own m).
Proof.
  intros F y x y' W E. unfold own in E. destruct (m (y_w y)) as [x0 w] eqn:Em. injection E as <- <-.
  destruct (F _ _ _ Em) as (A1 & A2 & A3 & A4 & A5 & A6). exists []. cbn [length y_plan]. split; auto.
  assert (W' : wf (mkSys w (y_s y) (y_jobs y) (y_plan y) (y_calls y))).
  { destruct W as [[W1 W2 W3 W4 W5 W6 W7] W8]. split; auto. split; cbn [y_s y_w y_jobs]; auto; congruence. }
  split; [intros _; split; auto|].
  - intros rest. apply A6.
  - intros N. split; [apply W'|]. apply A6.
Qed.
Lemma F2_mono {A B} (R R' : A -> B -> Prop) l l' : (forall a b, R a b -> R' a b) -> Forall2 R l l' -> Forall2 R' l l'.
Proof. intros H. induction 1; constructor; auto. Qed.

Lemma submit_sim i r q : sim (submit i r q) (s_submit call i r q).
Proof.
  intros y x y' W E. unfold s_submit in E. injection E as <- <-. exists []. cbn [length y_plan].
  split; [destruct (y_plan y); simpl; lia|].
  set (acts := match y_plan y with [] => [] | t :: _ => t_acts t end). clearbody acts.
  destruct W as [[W1 W2 W3 W4 W5 W6 W7] W8]. destruct (Sys_Proofs.workers_good call d acts _ W1) as [G1 (L1 & L2 & L3 & L4 & L5 & L6)].
  set (s1 := workers_do call acts (y_s y)) in *. clearbody s1.
  assert (G2 : Sys_Proofs.good call d (Async_Model.step call s1 (Async_Model.Submit (future (length (y_jobs y)))))) by (apply Sys_Proofs.good_step; auto; discriminate).
  assert (LS : length (Async_Model.a_submitted s1) = length (y_jobs y)) by (rewrite L2, W5, map_length, seq_length; auto).
  cbn [Async_Model.step] in *. rewrite L6, W8 in *. unfold Async_Model.submit in *. destruct (Sys_Proofs.g_in _ _ _ G1) as [_ C]. rewrite C in *.
  set (s2 := Async_Model.mkSt _ _ _ _ _ _ _ _ _ _ _ _ _ _ _ _ _ _ _) in *.
  assert (ST : starts (w_trace (y_w y) ++ [TSubmit i r q]) = starts (w_trace (y_w y)) ++ [(i, r)]) by (unfold starts; rewrite flat_map_app; auto).
  assert (DN : dones (w_trace (y_w y) ++ [TSubmit i r q]) = dones (w_trace (y_w y))) by (unfold dones; rewrite flat_map_app; simpl; apply app_nil_r).
  assert (W' : wf (mkSys (trace_add (TSubmit i r q) (y_w y)) s2 (y_jobs y ++ [mkJob i r]) (tl (y_plan y)) (y_calls y))).
  { split; [|cbn; congruence]. split; cbn [y_s y_w y_jobs trace_add w_n w_jobs w_events w_trace s2 Async_Model.a_n Async_Model.a_submitted Async_Model.a_returned]; auto; try congruence.
    - rewrite LS, L2, W5, app_length, seq_app, map_app. simpl. auto.
    - rewrite ST, map_app, W6. auto.
    - rewrite ST, DN, L3. eapply F2_mono; [|exact W7]. intros a b (i0 & r0 & A & B). exists i0, r0. split; auto.
      rewrite nth_error_app1; auto. apply nth_error_Some. congruence. }
  split; [intros _; split; auto|discriminate]. intros rest. unfold submit, abs, je. cbn [app w_lists w_jobs w_n w_events w_rng w_uid w_stop w_rungs w_trace y_w trace_add]. do 2 f_equal.
  unfold jobs_of. cbn [y_s y_jobs s2 Async_Model.a_futures]. rewrite L1, map_app. cbn [map fst]. f_equal.
  - apply map_ext_in. intros z Hz. symmetry. apply app_nth1. destruct (Sys_Proofs.ids_ok call d _ W1) as (_ & _ & H).
    apply (in_map fst) in Hz. apply H in Hz. rewrite W5, map_length, seq_length in Hz. auto.
  - rewrite LS, app_nth2, Nat.sub_diag; auto.
Qed.
Lemma queue_sim : sim queue_size s_queue_size.
Proof.
  intros y x y' W E. injection E as <- <-. exists []. split; auto. split; [|discriminate]. intros _. split; auto. intros rest.
  unfold queue_size, abs, je. cbn [w_jobs w_n]. rewrite (Sys_Proofs.size_ok call d) by apply W. unfold jobs_of. rewrite map_length.
  destruct W as [[W1 W2 W3 W4 W5 W6 W7] W8]. rewrite <- W2. auto.
Qed.

(** The place of a job among the outstanding ones. *)
Lemma place (f : nat * Async_Model.job -> job) id : forall l, NoDup (map fst l) -> In id (map fst l) ->
  (forall a b, fst a = fst b -> f a = f b) ->
  exists k, k < length l /\ (forall a dflt, fst a = id -> nth k (map f l) dflt = f a) /\
    remove_nth k (map f l) = map f (filter (fun x => negb (fst x =? id)) l).
Proof.
  induction l as [|a l IH]; intros ND HI HF; [destruct HI|]. cbn [map] in ND. apply NoDup_cons_iff in ND as [N1 N2].
  destruct (fst a =? id) eqn:E.
  - exists 0. split; [simpl; lia|]. apply Nat.eqb_eq in E. split; [intros b dflt Hb; simpl; apply HF; congruence|].
    cbn [map remove_nth filter]. rewrite (proj2 (Nat.eqb_eq _ _) E). cbn [negb]. f_equal.
    clear - N1 E. induction l as [|b l IH]; simpl; auto. destruct (fst b =? id) eqn:Eb.
    + exfalso. apply N1. left. apply Nat.eqb_eq in Eb. congruence.
    + simpl. f_equal. apply IH. intros H. apply N1. right. auto.
  - destruct HI as [HI|HI]; [apply Nat.eqb_neq in E; congruence|]. destruct IH as (k & K1 & K2 & K3); auto.
    exists (S k). split; [simpl; lia|]. split; [intros b dflt Hb; simpl; apply K2; auto|]. cbn [map remove_nth filter]. rewrite E. cbn [negb map]. f_equal. auto.
Qed.
Lemma raised_none s s' : Async_Model.a_raised s' = Async_Model.a_raised s -> raised_by s s' = None.
Proof. intros E. unfold raised_by. rewrite E, Nat.ltb_irrefl. auto. Qed.
Lemma wait_sim : sim wait_next (s_wait_next call scores).
Proof.
  intros y x y' W E. unfold s_wait_next in E. pose proof W as WW. destruct W as [[W1 W2 W3 W4 W5 W6 W7] W8].
  assert (G0 : Sys_Proofs.good call d (Async_Model.step call (y_s y) Async_Model.Wait)) by (apply Sys_Proofs.good_step; auto; discriminate).
  remember (Async_Model.step call (y_s y) Async_Model.Wait) as s0 eqn:E0. cbn [Async_Model.step] in E0. rewrite W8 in E0. unfold Async_Model.wait_start in E0.
  destruct (Async_Model.a_futures (y_s y)) as [|f0 fs] eqn:EF.
  - rewrite E0 in E. unfold raised_by in E. cbn [Async_Model.raise Async_Model.a_raised] in E. rewrite app_length in E.
    destruct (Nat.ltb_spec (length (Async_Model.a_raised (y_s y))) (length (Async_Model.a_raised (y_s y)) + length [RuntimeError])) as [_|HH]; [|simpl in HH; lia].
    rewrite last_last in E. injection E as <- <-. exists []. cbn [length y_plan]. split; auto. split; [|discriminate]. intros _. split.
    + split; [|reflexivity]. subst s0. split; auto.
    + intros rest. unfold wait_next, abs, je, jobs_of. cbn [w_jobs y_s y_jobs Async_Model.raise Async_Model.a_futures y_w]. rewrite EF. auto.
  - rewrite raised_none in E by (rewrite E0; auto).
    assert (WT : Async_Model.a_waiting s0 = true) by (rewrite E0; auto).
    destruct (turns call (y_plan y) s0) as [s1 plan] eqn:ET.
    destruct (Sys_Proofs.turns_good call d _ _ _ _ G0 WT ET) as (G1 & LP & H).
    assert (F0 : Async_Model.a_futures s0 = f0 :: fs /\ Async_Model.a_submitted s0 = Async_Model.a_submitted (y_s y) /\
                 Async_Model.a_returned s0 = Async_Model.a_returned (y_s y) /\ Async_Model.a_n s0 = Async_Model.a_n (y_s y)).
    { rewrite E0. cbn. auto. }
    destruct F0 as (F1 & F2 & F3 & F4). clear E0.
    destruct H as [(L1 & L2 & L3 & L4 & L5 & L6)|[(id & res & X1 & X2 & X3 & X4 & X5 & X6 & X7) LT]].
    + rewrite L6, WT in E. injection E as <- <-. exists []. cbn [length y_plan]. split; auto. split; [congruence|]. intros _. split.
      * split; cbn [y_s y_w y_jobs]; auto; try congruence.
      * unfold wait_next, abs, je, jobs_of. cbn [w_jobs w_events y_s y_jobs y_w]. rewrite EF, L1, F1. auto.
    + rewrite X7 in E. rewrite raised_none in E by auto. rewrite X4, rev_app_distr in E. cbn [rev app] in E.
      set (j := nth id (y_jobs y) (mkJob (mkI 0 None None) None)) in *. set (oc := outcome_of scores res) in *. cbv zeta in E.
      rewrite F1 in *. destruct (Sys_Proofs.ids_ok call d _ W1) as (N1 & _ & N2). rewrite EF in N1, N2.
      destruct (place (fun x => nth (fst x) (y_jobs y) dj) id (f0 :: fs) N1 X1) as (k & K1 & K2 & K3); [intros a b ->; auto|].
      pose proof (N2 _ X1) as N3. rewrite W5, map_length, seq_length in N3.
      assert (NE : exists i0 r0, nth_error (starts (w_trace (y_w y))) id = Some (i0, r0) /\ j = mkJob i0 r0).
      { unfold j. rewrite W6, map_length in N3. destruct (nth_error (starts (w_trace (y_w y))) id) as [[i0 r0]|] eqn:EN.
        - exists i0, r0. split; auto. rewrite W6. apply (map_nth_error (fun x => mkJob (fst x) (snd x))) in EN. apply nth_error_nth with (d := dj) in EN. exact EN.
        - apply nth_error_None in EN. lia. }
      destruct NE as (i0 & r0 & NE & EJ).
      assert (W' : forall calls, wf (mkSys (trace_add (TDone (result_ind j oc) (j_rung j) oc) (y_w y)) s1 (y_jobs y) plan calls)).
      { intros calls. split; [|auto]. split; cbn [y_s y_w y_jobs trace_add w_n w_jobs w_events w_trace]; auto; try congruence.
        - unfold starts. rewrite flat_map_app. simpl. rewrite app_nil_r. auto.
        - unfold starts, dones. rewrite !flat_map_app. simpl. rewrite app_nil_r, X4, F3. apply Forall2_app; auto.
          constructor; [|constructor]. exists i0, r0. cbn [fst snd]. split; auto. rewrite EJ. auto. }
      assert (AB : forall calls cb rest,
        wait_next (abs y (mkEv k oc cb :: rest)) =
        (match oc, cb with Evaluated _ _, Some e => Err e | _, _ => Ok (result_ind j oc, j_rung j, oc) end,
         abs (mkSys (trace_add (TDone (result_ind j oc) (j_rung j) oc) (y_w y)) s1 (y_jobs y) plan calls) rest)).
      { intros calls cb rest. unfold wait_next, abs, je, jobs_of. cbn [w_jobs w_events y_s y_jobs y_w e_pick e_out e_callback w_lists w_n w_rng w_uid w_stop w_rungs w_trace trace_add].
        rewrite EF. cbn [map]. rewrite X2.
        change (nth (fst f0) (y_jobs y) dj :: map (fun x => nth (fst x) (y_jobs y) dj) fs) with (map (fun x => nth (fst x) (y_jobs y) dj) (f0 :: fs)).
        rewrite map_length, Nat.mod_small by auto. rewrite (K2 (id, future id)) by auto. rewrite K3. cbn [fst].
        change (nth id (y_jobs y) dj) with j. destruct oc; auto. destruct cb; auto. }
      assert (EV : exists cb calls, (x, y') = (match oc, cb with Evaluated _ _, Some e => Err e | _, _ => Ok (result_ind j oc, j_rung j, oc) end,
          mkSys (trace_add (TDone (result_ind j oc) (j_rung j) oc) (y_w y)) s1 (y_jobs y) plan calls)).
      { destruct oc; [exists None; eexists; symmetry; exact E|]. destruct (y_calls y) as [|[e|] calls].
        - exists None; eexists; symmetry; exact E.
        - exists (Some e), calls. symmetry; exact E.
        - exists None, calls; symmetry; exact E. }
      destruct EV as (cb & calls & EV). clear E. injection EV as -> ->. exists [mkEv k oc cb]. cbn [length y_plan]. split; [lia|].
      split; intros _.
      * split; [apply W'|]. intros rest. cbn [app]. rewrite (AB calls cb rest). auto.
      * split; [apply W'|]. rewrite (AB calls cb []). auto.
Qed.

(** * The loops *)
Ltac sm := repeat (first [apply s_bind_sim; [|intros ?] | apply s_ret_sim | apply s_fail_sim | apply submit_sim | apply queue_sim | apply wait_sim
  | apply own_sim; solve [fr] | match goal with |- sim (match ?x with _ => _ end) (match ?x with _ => _ end) => destruct x end
  | match goal with |- sim (if ?x then _ else _) (if ?x then _ else _) => destruct x end]).
Lemma submit_all_sim l : sim (submit_all l) (s_submit_all call l).
Proof. induction l; cbn [submit_all s_submit_all]; sm. auto. Qed.
Lemma refill_sim o out : sim (refill o out) (s_refill call o out).
Proof. unfold refill, s_refill. sm. Qed.
Lemma ea_sim o out restart max_n pop_size : forall f phase n,
  sim (ea_loop o out restart max_n pop_size f phase n) (s_ea_loop call scores o out restart max_n pop_size f phase n).
Proof.
  induction f as [|f IH]; intros phase n; cbn [ea_loop s_ea_loop]; [sm|]. destruct phase as [src|].
  - apply s_bind_sim; [sm|intros _]. apply s_bind_sim; [sm|intros _]. apply s_bind_sim; [sm|intros l].
    apply s_bind_sim; [apply submit_all_sim|intros _]. apply IH.
  - destruct (below max_n n); [|sm]. apply s_bind_sim; [sm|intros _]. apply s_bind_sim; [sm|intros pop]. apply s_bind_sim; [sm|intros _].
    apply s_bind_sim; [sm|intros x]. apply s_bind_sim; [sm|intros _]. apply s_bind_sim; [apply refill_sim|intros _].
    apply s_bind_sim; [sm|intros _]. apply s_bind_sim; [sm|intros b]. apply s_bind_sim; [sm|intros _]. destruct b; [|apply IH].
    apply s_bind_sim; [sm|intros _]. apply s_bind_sim; [sm|intros l]. apply IH.
Qed.
Lemma rs_sim o out max_n : forall f, sim (rs_loop o out max_n f) (s_rs_loop call scores o out max_n f).
Proof.
  induction f as [|f IH]; cbn [rs_loop s_rs_loop]; [sm|]. apply s_bind_sim; [sm|intros l]. destruct (below max_n (length l)); [|sm].
  apply s_bind_sim; [sm|intros _]. apply s_bind_sim; [sm|intros _]. apply s_bind_sim; [sm|intros x]. apply s_bind_sim; [sm|intros _].
  apply s_bind_sim; [sm|intros _]. apply s_bind_sim; [sm|intros i]. apply s_bind_sim; [sm|intros _]. apply s_bind_sim; [sm|intros _]. apply IH.
Qed.
Lemma start_job_sim o eta a b fr mr start : sim (start_new_job o eta a b fr mr start) (s_start_new_job call o eta a b fr mr start).
Proof. unfold start_new_job, s_start_new_job. sm. Qed.
Lemma start_jobs_sim o eta a b fr mr start k : sim (start_jobs o eta a b fr mr start k) (s_start_jobs call o eta a b fr mr start k).
Proof. induction k; cbn [start_jobs s_start_jobs]; [sm|]. apply s_bind_sim; [apply start_job_sim|auto]. Qed.
Lemma asha_sim o eta a b fr mr start mf : forall f, sim (asha_loop o eta a b fr mr start mf f) (s_asha_loop call scores o eta a b fr mr start mf f).
Proof.
  induction f as [|f IH]; cbn [asha_loop s_asha_loop]; [sm|]. apply s_bind_sim; [sm|intros l]. destruct (top_full mr mf l) as [[]|]; [sm| |sm].
  apply s_bind_sim; [sm|intros _]. apply s_bind_sim; [sm|intros x]. apply s_bind_sim; [sm|intros _]. apply s_bind_sim; [apply start_job_sim|auto].
Qed.
End Sim.

(** The loops of the model never run out of fuel: more fuel changes nothing. *)
From Verif Require Import Base Num Search_Model Search_Spec Search_Proofs.
Open Scope nat_scope.

Definition ext {A} (P : world -> Prop) (m m' : M A) : Prop := forall w, P w -> m w = m' w.
Definition any : exn -> world -> Prop := fun _ _ => True.
Lemma e_refl {A} P (m : M A) : ext P m m.
Proof. intros w _. auto. Qed.
Lemma e_bind {A B} P (R : A -> world -> Prop) (m : M A) (f g : A -> M B) : triple P m R any -> (forall a, ext (R a) (f a) (g a)) -> ext P (bind m f) (bind m g).
Proof. intros H1 H2 w Hw. unfold bind. specialize (H1 w Hw). destruct (m w) as [[a|e] w']; auto. apply H2. auto. Qed.
Definition ev (k : nat) (w : world) : Prop := length (w_events w) = k.

Lemma v_tick k : triple (ev k) tick (fun _ => ev k) any.
Proof. intros w Hw. unfold tick. destruct (w_stop w) as [[[|j] e]|]; unfold any; auto. Qed.
Lemma v_random {A} (f : rng -> res A * rng) k : triple (ev k) (random f) (fun _ => ev k) any.
Proof. intros w Hw. unfold random. destruct (f (w_rng w)) as [[a|e] r]; unfold any; auto. Qed.
Lemma v_wait k : triple (ev k) wait_next (fun _ w => S (length (w_events w)) = k) any.
Proof.
  intros w Hw. unfold wait_next. destruct (w_jobs w); unfold any; auto. unfold ev in Hw. destruct (w_events w) as [|e es]; auto.
  destruct (e_out e); [|destruct (e_callback e)]; auto.
Qed.
Ltac v := repeat first [ apply v_tick | apply v_random | match goal with |- triple (ev ?k) (bind _ _) _ _ => apply t_bind with (R := fun _ => ev k); [|intros ?] end | (apply t_ret; auto; fail)
  | (apply t_fail; unfold any; auto; fail) | (intros ? ?; simpl; assumption)
  | match goal with |- triple _ (if ?b then _ else _) _ _ => destruct b
                  | |- triple _ (match ?x with _ => _ end) _ _ => destruct x end ].
Lemma v_submit_all k l : triple (ev k) (submit_all l) (fun _ => ev k) any.
Proof. induction l; cbn [submit_all]; [apply t_ret; auto|]. eapply t_bind; [apply v_tick|intros ?]. eapply t_bind; [|intros ?; exact IHl]. v. Qed.
Lemma v_add o out ps i k : triple (ev k) (add_to_population o out ps i) (fun _ => ev k) any.
Proof. unfold add_to_population, append, remove. v. Qed.
Lemma v_refill o out k : triple (ev k) (refill o out) (fun _ => ev k) any.
Proof. unfold refill. v. Qed.
Lemma v_individuals o n k : triple (ev k) (individuals o n) (fun _ => ev k) any.
Proof. induction n; cbn [individuals]; [apply t_ret; auto|]. eapply t_bind; [apply v_tick|intros ?]. eapply t_bind with (R := fun _ => ev k); [unfold new_individual; v|intros ?].
  eapply t_bind; [exact IHn|intros ?]. apply t_ret; auto. Qed.

(** The history only grows. *)
Definition pre (t0 : list item) (w : world) : Prop := exists t, w_trace w = t0 ++ t.
Lemma p_tick t0 : triple (pre t0) tick (fun _ => pre t0) (fun _ => pre t0).
Proof. intros w Hw. unfold tick. destruct (w_stop w) as [[[|j] e]|]; auto. Qed.
Lemma p_random {A} (f : rng -> res A * rng) k : triple (pre k) (random f) (fun _ => pre k) (fun _ => pre k).
Proof. intros w Hw. unfold random. destruct (f (w_rng w)) as [[a|e] r]; auto. Qed.
Lemma p_note x k : triple (pre k) (note x) (fun _ => pre k) (fun _ => pre k).
Proof. intros w [t Hw]. simpl. exists (t ++ [x]). simpl. rewrite Hw, app_assoc. auto. Qed.
Lemma p_submit i r q k : triple (pre k) (submit i r q) (fun _ => pre k) (fun _ => pre k).
Proof. intros w [t Hw]. simpl. exists (t ++ [TSubmit i r q]). simpl. rewrite Hw, app_assoc. auto. Qed.
Lemma p_wait k : triple (pre k) wait_next (fun _ => pre k) (fun _ => pre k).
Proof.
  intros w [t Hw]. unfold wait_next. destruct (w_jobs w) as [|j js] eqn:EJ; [exists t; auto|]. destruct (w_events w) as [|e es]; [exists t; auto|].
  set (kk := e_pick e mod _). set (i := result_ind _ _). 
  destruct (e_out e); [|destruct (e_callback e)]; eexists; simpl; rewrite Hw, <- app_assoc; reflexivity.
Qed.
Ltac p := repeat first [ apply p_tick | apply p_random | apply p_note | apply p_submit | apply p_wait
  | match goal with |- triple (pre ?k) (bind _ _) _ _ => apply t_bind with (R := fun _ => pre k); [|intros ?] end | (apply t_ret; auto; fail)
  | (apply t_fail; auto; fail) | (intros ? ?; simpl; assumption)
  | match goal with |- triple _ (if ?b then _ else _) _ _ => destruct b
                  | |- triple _ (match ?x with _ => _ end) _ _ => destruct x end ].
Lemma p_submit_all k l : triple (pre k) (submit_all l) (fun _ => pre k) (fun _ => pre k).
Proof. induction l; cbn [submit_all]; p. auto. Qed.
Lemma p_individuals o n k : triple (pre k) (individuals o n) (fun _ => pre k) (fun _ => pre k).
Proof. induction n; cbn [individuals]; unfold new_individual; p; auto. Qed.
Lemma p_ea o out restart max_n pop_size k f : forall phase n, triple (pre k) (ea_loop o out restart max_n pop_size f phase n) (fun _ => pre k) (fun _ => pre k).
Proof.
  induction f as [|f IH]; intros phase n; cbn [ea_loop]; [p|]. unfold add_to_population, append, remove, refill, restart_now. p; auto using p_submit_all, p_individuals.
Qed.
Lemma p_rs o out max_n k f : triple (pre k) (rs_loop o out max_n f) (fun _ => pre k) (fun _ => pre k).
Proof. induction f as [|f IH]; cbn [rs_loop]; unfold append, new_individual; p; auto. Qed.

(** Without a restart_callback there are no restarts. *)
Definition nr (w : world) : Prop := ~ In TRestart (w_trace w).
Lemma n_tick : triple nr tick (fun _ => nr) (fun _ => nr).
Proof. intros w Hw. unfold tick. destruct (w_stop w) as [[[|j] e]|]; auto. Qed.
Lemma n_random {A} (f : rng -> res A * rng) : triple nr (random f) (fun _ => nr) (fun _ => nr).
Proof. intros w Hw. unfold random. destruct (f (w_rng w)) as [[a|e] r]; auto. Qed.
Lemma nr_snoc t x : ~ In TRestart t -> x <> TRestart -> ~ In TRestart (t ++ [x]).
Proof. intros H1 H2 H. apply in_app_or in H as [H|[H|[]]]; auto. Qed.
Lemma n_note pop : triple nr (note (TWait pop)) (fun _ => nr) (fun _ => nr).
Proof. intros w Hw. simpl. apply nr_snoc; auto. discriminate. Qed.
Lemma n_submit i r q : triple nr (submit i r q) (fun _ => nr) (fun _ => nr).
Proof. intros w Hw. simpl. apply nr_snoc; auto. discriminate. Qed.
Lemma n_wait : triple nr wait_next (fun _ => nr) (fun _ => nr).
Proof.
  intros w Hw. unfold wait_next. destruct (w_jobs w) as [|j js] eqn:EJ; auto. destruct (w_events w) as [|e es]; auto.
  destruct (e_out e); [|destruct (e_callback e)]; apply nr_snoc; auto; discriminate.
Qed.
Ltac nn := repeat first [ apply n_tick | apply n_random | apply n_note | apply n_submit | apply n_wait
  | match goal with |- triple nr (bind _ _) _ _ => apply t_bind with (R := fun _ => nr); [|intros ?] end | (apply t_ret; auto; fail)
  | (apply t_fail; auto; fail) | (intros ? ?; simpl; assumption)
  | match goal with |- triple _ (if ?b then _ else _) _ _ => destruct b
                  | |- triple _ (match ?x with _ => _ end) _ _ => destruct x end ].
Lemma n_submit_all l : triple nr (submit_all l) (fun _ => nr) (fun _ => nr).
Proof. induction l; cbn [submit_all]; nn. auto. Qed.
Lemma n_ea o out max_n pop_size f : forall phase n, triple nr (ea_loop o out false max_n pop_size f phase n) (fun _ => nr) (fun _ => nr).
Proof.
  induction f as [|f IH]; intros phase n; cbn [ea_loop]; [nn|]. unfold add_to_population, append, remove, refill.
  destruct phase; [nn; auto using n_submit_all|]. destruct (below max_n n); [|nn].
  do 5 (apply t_bind with (R := fun _ => nr); [nn|intros ?]).
  apply t_bind with (R := fun _ => nr); [nn|intros ?].
  apply t_bind with (R := fun _ => nr); [nn|intros ?].
  apply t_bind with (R := fun b w => b = false /\ nr w); [unfold restart_now; apply t_ret; auto|intros b].
  intros w [-> Hw]. revert w Hw. change (triple nr (tick ;; ea_loop o out false max_n pop_size f None (S n)) (fun _ => nr) (fun _ => nr)). nn. apply IH.
Qed.
Lemma since_all t : ~ In TRestart t -> since_restart t = t.
Proof.
  induction t as [|x t IH] using rev_ind; auto. intros H. rewrite since_snoc. rewrite IH by (intros X; apply H; apply in_or_app; auto).
  destruct x; auto. exfalso. apply H. apply in_or_app. simpl. auto.
Qed.
Lemma ea_no_restart o out max_n pop_size start lists nw events r uid stop x w :
  async_ea o out false max_n pop_size start (start_world lists nw events r uid stop) = (x, w) -> since_restart (w_trace w) = w_trace w.
Proof.
  intros E. apply since_all. change (nr w). unfold async_ea in E. set (w0 := start_world lists nw events r uid stop) in *.
  assert (G : forall f, nr (snd (leave (ea_loop o out false max_n pop_size f (Some (Given start)) 0 ;; ret out) w0))).
  { intros f. unfold leave. assert (T : triple nr (ea_loop o out false max_n pop_size f (Some (Given start)) 0 ;; ret out) (fun _ => nr) (fun _ => nr)).
    { eapply t_bind; [apply n_ea|intros ?; apply t_ret; auto]. }
    specialize (T w0 (fun X => X)). destruct ((_ ;; _) w0) as [[|] ]; exact T. }
  specialize (G (2 * length (w_events w0) + 3)). destruct max_n as [m|]; [destruct (m <=? 0)%Z; [injection E as _ <-; intros []|]|]; rewrite E in G; exact G.
Qed.

Section EA.
Context (o : ops) (out : nat) (restart : bool) (max_n : option Z) (pop_size : nat).
Notation loop := (ea_loop o out restart max_n pop_size).
Lemma ea_more : forall f k phase n, 2 * k + (match phase with Some _ => 2 | None => 1 end) <= f -> ext (ev k) (loop f phase n) (loop (S f) phase n).
Proof.
  induction f as [|f IH]; intros k phase n HF; [destruct phase; lia|]. destruct phase as [src|].
  - change (loop (S (S f)) (Some src) n) with (tick ;; write out [] ;; l <- match src with Given a => read a | New l => ret l end ;; submit_all l ;; loop (S f) None n).
    change (loop (S f) (Some src) n) with (tick ;; write out [] ;; l <- match src with Given a => read a | New l => ret l end ;; submit_all l ;; loop f None n).
    eapply e_bind; [apply v_tick|intros ?]. eapply e_bind with (R := fun _ => ev k); [v|intros ?]. eapply e_bind with (R := fun _ => ev k); [destruct src; v|intros l].
    eapply e_bind; [apply v_submit_all|intros ?]. apply IH. lia.
  - assert (U : forall g, loop (S g) None n = if below max_n n then
        tick ;; pop <- read out ;; note (TWait pop) ;; x <- wait_next ;;
        match x with (i, _, Evaluated _ false) => add_to_population o out pop_size i | _ => ret tt end ;;
        refill o out ;; tick ;; b <- restart_now restart ;; tick ;;
        if b then note TRestart ;; l <- individuals o pop_size ;; loop g (Some (New l)) (S n) else loop g None (S n) else ret tt) by reflexivity.
    rewrite !U. destruct (below max_n n); [|apply e_refl].
    eapply e_bind; [apply v_tick|intros ?]. eapply e_bind with (R := fun _ => ev k); [v|intros pop]. eapply e_bind with (R := fun _ => ev k); [v|intros ?].
    eapply e_bind; [apply v_wait|intros x]. destruct k as [|k]; [intros w Hw; discriminate|].
    eapply e_bind with (R := fun _ => ev k).
    { eapply t_pre with (P' := ev k); [intros w Hw; injection Hw as Hw; exact Hw|]. destruct x as [[i r] [|s [|]]]; try (apply t_ret; auto; fail). apply v_add. }
    intros ?. eapply e_bind; [apply v_refill|intros ?]. eapply e_bind; [apply v_tick|intros ?].
    eapply e_bind with (R := fun _ => ev k); [unfold restart_now; v|intros b]. eapply e_bind; [apply v_tick|intros ?]. destruct b; [|apply IH; lia].
    eapply e_bind with (R := fun _ => ev k); [v|intros ?]. eapply e_bind; [apply v_individuals|intros l]. apply IH. lia.
Qed.
Lemma ea_fuel d phase n w : loop (2 * length (w_events w) + 3 + d) phase n w = loop (2 * length (w_events w) + 3) phase n w.
Proof.
  induction d as [|d IH]; [rewrite Nat.add_0_r; auto|]. rewrite Nat.add_succ_r, <- IH. symmetry. apply (ea_more _ (length (w_events w))); [|reflexivity].
  destruct phase; lia.
Qed.
Lemma rs_more : forall f k, k + 1 <= f -> ext (ev k) (rs_loop o out max_n f) (rs_loop o out max_n (S f)).
Proof.
  induction f as [|f IH]; intros k HF; [lia|].
  assert (U : forall g, rs_loop o out max_n (S g) = (l <- read out ;; if below max_n (length l) then
      tick ;; note (TWait l) ;; x <- wait_next ;; match x with (i, _, Evaluated _ _) => tick ;; append out i | _ => ret tt end ;;
      tick ;; i <- new_individual o ;; tick ;; submit i None None ;; rs_loop o out max_n g else ret tt)) by reflexivity.
  rewrite !U. eapply e_bind with (R := fun _ => ev k); [v|intros l]. destruct (below max_n (length l)); [|apply e_refl].
  eapply e_bind; [apply v_tick|intros ?]. eapply e_bind with (R := fun _ => ev k); [v|intros ?]. eapply e_bind; [apply v_wait|intros x]. destruct k as [|k]; [intros w Hw; discriminate|].
  eapply e_bind with (R := fun _ => ev k).
  { eapply t_pre with (P' := ev k); [intros w Hw; injection Hw as Hw; exact Hw|]. unfold append. v. }
  intros ?. eapply e_bind; [apply v_tick|intros ?]. eapply e_bind with (R := fun _ => ev k); [unfold new_individual; v|intros i]. eapply e_bind; [apply v_tick|intros ?].
  eapply e_bind with (R := fun _ => ev k); [v|intros ?]. apply IH. lia.
Qed.
Lemma rs_fuel d w : rs_loop o out max_n (length (w_events w) + 1 + d) w = rs_loop o out max_n (length (w_events w) + 1) w.
Proof. induction d as [|d IH]; [rewrite Nat.add_0_r; auto|]. rewrite Nat.add_succ_r, <- IH. symmetry. apply (rs_more _ (length (w_events w))); [lia|reflexivity]. Qed.
End EA.

Section Asha.
Context (o : ops) (eta : nat) (min_res max_res : Q) (first_rung : nat) (max_rung : Z) (start : nat).
Notation start_new_job := (start_new_job o eta min_res max_res first_rung max_rung start).
Notation asha_loop := (asha_loop o eta min_res max_res first_rung max_rung start).
Lemma v_promote l k : triple (ev k) (promote_from eta l) (fun _ => ev k) any.
Proof. induction l; cbn [promote_from]; v; auto. Qed.
Lemma v_start k : triple (ev k) start_new_job (fun _ => ev k) any.
Proof.
  unfold Search_Model.start_new_job, get_job. eapply t_bind; [apply v_tick|intros ?]. eapply t_bind with (R := fun _ => ev k).
  - eapply t_bind with (R := fun _ => ev k); [v|intros all]. eapply t_bind; [apply v_promote|intros p]. unfold new_individual. v.
  - intros j. v.
Qed.
Lemma asha_more max_full : forall f k, k + 1 <= f -> ext (ev k) (asha_loop max_full f) (asha_loop max_full (S f)).
Proof.
  induction f as [|f IH]; intros k HF; [lia|].
  assert (U : forall g, asha_loop max_full (S g) = (all <- get_rungs ;; match top_full max_rung max_full all with Err e => fail e | Ok true => ret tt
      | Ok false => tick ;; x <- wait_next ;; record_result x ;; start_new_job ;; asha_loop max_full g end)) by reflexivity.
  rewrite !U. eapply e_bind with (R := fun _ => ev k); [v|intros all]. destruct (top_full max_rung max_full all) as [[|]|]; try apply e_refl.
  eapply e_bind; [apply v_tick|intros ?]. eapply e_bind; [apply v_wait|intros x]. destruct k as [|k]; [intros w Hw; discriminate|].
  eapply e_bind with (R := fun _ => ev k).
  { eapply t_pre with (P' := ev k); [intros w Hw; injection Hw as Hw; exact Hw|]. unfold record_result. v. }
  intros ?. eapply e_bind; [apply v_start|intros ?]. apply IH. lia.
Qed.
Lemma asha_fuel max_full d w : asha_loop max_full (length (w_events w) + 1 + d) w = asha_loop max_full (length (w_events w) + 1) w.
Proof. induction d as [|d IH]; [rewrite Nat.add_0_r; auto|]. rewrite Nat.add_succ_r, <- IH. symmetry. apply (asha_more _ _ (length (w_events w))); [lia|reflexivity]. Qed.
End Asha.

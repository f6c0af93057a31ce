From Verif Require Import Base Num Search_Model Search_Spec.
Require Import Permutation.
Open Scope nat_scope.

(** * Triples *)
Definition triple {A} (P : world -> Prop) (m : M A) (Q : A -> world -> Prop) (E : exn -> world -> Prop) : Prop :=
  forall w, P w -> match m w with (Ok a, w') => Q a w' | (Err e, w') => E e w' end.
Lemma t_ret {A} (a : A) (P : world -> Prop) (Q : A -> world -> Prop) (E : exn -> world -> Prop) : (forall w, P w -> Q a w) -> triple P (ret a) Q E.
Proof. intros H w Hw. simpl. auto. Qed.
Lemma t_fail {A} e (P : world -> Prop) (Q : A -> world -> Prop) (E : exn -> world -> Prop) : (forall w, P w -> E e w) -> triple P (fail e) Q E.
Proof. intros H w Hw. simpl. auto. Qed.
Lemma t_bind {A B} P (m : M A) (f : A -> M B) R Q E : triple P m R E -> (forall a, triple (R a) (f a) Q E) -> triple P (bind m f) Q E.
Proof.
  intros H1 H2 w Hw. unfold bind. specialize (H1 w Hw). destruct (m w) as [[a|e] w']; auto. apply H2. auto.
Qed.
Lemma t_weak {A} (P P' : world -> Prop) (m : M A) (Q Q' : A -> world -> Prop) (E E' : exn -> world -> Prop) :
  (forall w, P w -> P' w) -> (forall a w, Q' a w -> Q a w) -> (forall e w, E' e w -> E e w) -> triple P' m Q' E' -> triple P m Q E.
Proof. intros H1 H2 H3 H w Hw. specialize (H w (H1 w Hw)). destruct (m w) as [[a|e] w']; auto. Qed.
Lemma t_pre {A} (P P' : world -> Prop) (m : M A) Q E : (forall w, P w -> P' w) -> triple P' m Q E -> triple P m Q E.
Proof. intros H. apply t_weak; auto. Qed.

(** Predicates of the lists and the trace. *)
Definition on (K : list (list ind) -> list item -> Prop) (w : world) : Prop := K (w_lists w) (w_trace w).
Lemma t_tick K (E : exn -> world -> Prop) : (forall e w, on K w -> E e w) -> triple (on K) tick (fun _ => on K) E.
Proof. intros H w Hw. unfold tick. destruct (w_stop w) as [[[|k] e]|]; simpl; auto; apply H; auto. Qed.
Lemma t_random {A} (f : rng -> res A * rng) K (E : exn -> world -> Prop) : (forall e w, on K w -> E e w) -> triple (on K) (random f) (fun _ => on K) E.
Proof. intros H w Hw. unfold random. destruct (f (w_rng w)) as [[a|e] r]; simpl; auto. Qed.
Lemma t_fresh K E : triple (on K) fresh (fun _ => on K) E.
Proof. intros w Hw. simpl. auto. Qed.
Lemma t_queue K E : triple (on K) queue_size (fun _ => on K) E.
Proof. intros w Hw. simpl. auto. Qed.
Lemma t_read a K E : triple (on K) (read a) (fun l => on (fun L T => K L T /\ l = nth a L [])) E.
Proof. intros w Hw. simpl. split; auto. Qed.
Lemma t_write a l (K K' : list (list ind) -> list item -> Prop) E : (forall L T, K L T -> K' (set_nth a l L) T) -> triple (on K) (write a l) (fun _ => on K') E.
Proof. intros H w Hw. simpl. apply H. auto. Qed.
Lemma t_note t (K K' : list (list ind) -> list item -> Prop) E : (forall L T, K L T -> K' L (T ++ [t])) -> triple (on K) (note t) (fun _ => on K') E.
Proof. intros H w Hw. simpl. apply H. auto. Qed.
Lemma t_submit i r q (K K' : list (list ind) -> list item -> Prop) E : (forall L T, K L T -> K' L (T ++ [TSubmit i r q])) -> triple (on K) (submit i r q) (fun _ => on K') E.
Proof. intros H w Hw. simpl. apply H. auto. Qed.
Lemma t_wait (K : list (list ind) -> list item -> Prop) (Q : ind * option nat * outcome -> list (list ind) -> list item -> Prop) (E : exn -> world -> Prop) :
  (forall e w, on K w -> E e w) ->
  (forall i r o L T, K L T -> Q (i, r, o) L (T ++ [TDone i r o])) ->
  (forall i r s f e L T w, K L T -> w_lists w = L -> w_trace w = T ++ [TDone i r (Evaluated s f)] -> E e w) ->
  triple (on K) wait_next (fun x => on (Q x)) E.
Proof.
  intros H1 H2 H3 w Hw. unfold wait_next. destruct (w_jobs w); auto. destruct (w_events w) as [|e es]; auto.
  destruct (e_out e) as [|s f] eqn:EO; [|destruct (e_callback e)].
  - apply H2. auto.
  - eapply H3; [exact Hw|reflexivity|reflexivity].
  - apply H2. auto.
Qed.

(** * Lists *)
Lemma nth_set_nth {A} (d : A) a x l : a < length l -> nth a (set_nth a x l) d = x.
Proof. revert a. induction l as [|y l IH]; intros [|a] H; simpl in *; auto; try lia. apply IH. lia. Qed.
Lemma nth_set_nth_ne {A} (d : A) a b x l : a <> b -> nth b (set_nth a x l) d = nth b l d.
Proof. revert a b. induction l as [|y l IH]; intros [|a] [|b] H; simpl in *; auto; try lia. Qed.
Lemma length_set_nth {A} a (x : A) l : length (set_nth a x l) = length l.
Proof. revert a. induction l as [|y l IH]; intros [|a]; simpl; auto. Qed.
Lemma remove_first_len {A} f (l l' : list A) : remove_first f l = Some l' -> length l = S (length l') /\ incl l' l.
Proof.
  revert l'. induction l as [|x l IH]; simpl; intros l' H; [discriminate|]. destruct (f x).
  - inversion H; subst. split; auto. apply incl_tl, incl_refl.
  - destruct (remove_first f l) as [r|]; [|discriminate]. inversion H; subst. destruct (IH r eq_refl) as [A1 A2]. simpl. split; [lia|].
    intros y [<-|Hy]; simpl; auto.
Qed.

(** * Traces *)
Lemma collected_app t t' : collected (t ++ t') = collected t ++ collected t'.
Proof. apply flat_map_app. Qed.
Lemma successes_app t t' : successes (t ++ t') = successes t ++ successes t'.
Proof. apply flat_map_app. Qed.
Lemma with_result_app t t' : with_result (t ++ t') = with_result t ++ with_result t'.
Proof. apply flat_map_app. Qed.
Lemma submissions_app t t' : submissions (t ++ t') = submissions t ++ submissions t'.
Proof. apply flat_map_app. Qed.
Lemma since_snoc t x : since_restart (t ++ [x]) = match x with TRestart => [] | _ => since_restart t ++ [x] end.
Proof. unfold since_restart. rewrite fold_left_app. reflexivity. Qed.
Lemma since_incl t : incl (since_restart t) t.
Proof.
  induction t as [|x t IH] using rev_ind; [intros x []|]. rewrite since_snoc. destruct x;
  try (apply incl_app; [eapply incl_tran; [exact IH|apply incl_appl, incl_refl]|apply incl_appr, incl_refl]); intros x [].
Qed.
Lemma successes_since t : incl (successes (since_restart t)) (successes t).
Proof.
  intros i H. unfold successes in *. apply in_flat_map in H as (x & A & B). apply in_flat_map. exists x. split; auto. apply since_incl; auto.
Qed.

Definition waits_ok (P : list item -> list ind -> Prop) (t : list item) : Prop :=
  forall t1 t2 pop, t = t1 ++ TWait pop :: t2 -> P t1 pop.
Lemma snoc_split {A} (t : list A) x t1 y t2 : t ++ [x] = t1 ++ y :: t2 -> (t2 = [] /\ t1 = t /\ x = y) \/ exists t2', t2 = t2' ++ [x] /\ t = t1 ++ y :: t2'.
Proof.
  intros H. destruct t2 as [|z t2] using rev_ind.
  - left. apply app_inj_tail in H as [-> ->]. auto.
  - right. clear IHt2. exists t2. rewrite app_comm_cons, app_assoc in H. apply app_inj_tail in H as [-> ->]. auto.
Qed.
Lemma waits_snoc P t x : waits_ok P t -> (forall pop, x = TWait pop -> P t pop) -> waits_ok P (t ++ [x]).
Proof.
  intros H H2 t1 t2 pop E. apply snoc_split in E as [(-> & -> & ->)|(t2' & -> & ->)]; auto. eapply H. reflexivity.
Qed.
Lemma waits_nil P : waits_ok P [].
Proof. intros t1 t2 pop E. destruct t1; discriminate. Qed.

(** * async_ea *)
Section EA.
Context (o : ops) (out : nat) (restart : bool) (max_n : option Z) (pop_size : nat).
Definition pop_ok (t : list item) (pop : list ind) : Prop :=
  length pop = Nat.min pop_size (length (successes (since_restart t))) /\ incl pop (successes (since_restart t)).
Definition within (n : nat) : Prop := match max_n with None => True | Some m => (Z.of_nat n <= m)%Z end.
(** in the loop, [n] evaluations were counted *)
Definition J (n : nat) (L : list (list ind)) (T : list item) : Prop :=
  out < length L /\ pop_ok T (nth out L []) /\ waits_ok pop_ok T /\ length (collected T) = n /\ within n.
(** after an exception *)
Definition EJ (_ : exn) : world -> Prop := on (fun L T => out < length L /\
  length (nth out L []) <= S pop_size /\ incl (nth out L []) (successes T) /\ waits_ok pop_ok T /\ within (length (collected T)) /\
  Nat.min pop_size (length (successes (since_restart T)) - 1) <= length (nth out L [])).
Lemma J_EJ n e w : on (J n) w -> EJ e w.
Proof.
  unfold EJ, J, on. intros (H1 & (H2 & H3) & H4 & H5 & H6). split; auto. split; [lia|]. split; [eapply incl_tran; [exact H3|apply successes_since]|].
  split; auto. rewrite H5. split; [auto|lia].
Qed.

(** items that change nothing *)
Definition quiet (x : item) : Prop := match x with TSubmit _ _ _ | TWait _ | TPromote _ _ _ _ => True | _ => False end.
Lemma quiet_facts T x : quiet x -> collected (T ++ [x]) = collected T /\ successes (T ++ [x]) = successes T /\
  successes (since_restart (T ++ [x])) = successes (since_restart T).
Proof.
  intros Q. rewrite collected_app, successes_app, since_snoc. destruct x; simpl in Q; try tauto; rewrite ?successes_app; simpl; rewrite ?app_nil_r; auto.
Qed.
Lemma J_quiet n L T x : quiet x -> (forall p, x = TWait p -> p = nth out L []) -> J n L T -> J n L (T ++ [x]).
Proof.
  intros Q HW (H1 & (H2 & H3) & H4 & H5 & H6). destruct (quiet_facts T x Q) as (E1 & E2 & E3).
  split; auto. split; [split; rewrite E3; auto|]. split; [|rewrite E1; auto].
  apply waits_snoc; auto. intros p E. rewrite (HW p E). split; auto.
Qed.
Lemma submit_all_ok n l : triple (on (J n)) (submit_all l) (fun _ => on (J n)) EJ.
Proof.
  induction l as [|i l IH]; simpl; [apply t_ret; auto|].
  eapply t_bind; [apply t_tick; intros; eapply J_EJ; eauto|]. intros ?. eapply t_bind; [|intros ?; exact IH].
  apply t_submit. intros L T H. apply J_quiet; simpl; auto. discriminate.
Qed.
(** after collecting one more evaluation, before the population is updated *)
Definition J1 (i : ind) (n : nat) (L : list (list ind)) (T : list item) : Prop :=
  exists T0 r s, T = T0 ++ [TDone i r (Evaluated s false)] /\ J n L T0 /\ below max_n n = true.
Lemma below_within n : below max_n n = true -> within (S n).
Proof. unfold below, within. destruct max_n; auto. intros H. apply Z.ltb_lt in H. lia. Qed.
Lemma J1_facts i n L T : J1 i n L T -> successes T = successes (removelast T) ++ [i] /\ True.
Proof. intros (T0 & r & s & -> & _). rewrite removelast_last, successes_app. auto. Qed.
Lemma J1_EJ i n e w : on (J1 i n) w -> EJ e w.
Proof.
  unfold EJ, on. intros (T0 & r & s & -> & (H1 & (H2 & H3) & H4 & H5 & H6) & B). split; auto. split; [lia|].
  rewrite successes_app, collected_app, app_length, H5. simpl. split; [apply incl_appl; eapply incl_tran; [exact H3|apply successes_since]|].
  split; [apply waits_snoc; auto; discriminate|]. split; [rewrite Nat.add_1_r; apply below_within; auto|]. rewrite since_snoc, successes_app, app_length. simpl. lia.
Qed.
(** after appending it *)
Definition J2 (i : ind) (n : nat) (L : list (list ind)) (T : list item) : Prop :=
  exists T0 r s, T = T0 ++ [TDone i r (Evaluated s false)] /\ out < length L /\ below max_n n = true /\
    waits_ok pop_ok T0 /\ length (collected T0) = n /\
    length (nth out L []) = S (Nat.min pop_size (length (successes (since_restart T0)))) /\ incl (nth out L []) (successes (since_restart T0) ++ [i]).
Lemma J2_EJ i n e w : on (J2 i n) w -> EJ e w.
Proof.
  unfold EJ, on. intros (T0 & r & s & -> & H1 & B & H4 & H5 & H2 & H3). split; auto. split; [lia|].
  rewrite successes_app, collected_app, app_length, H5. simpl. split.
  { eapply incl_tran; [exact H3|]. apply incl_app; [apply incl_appl, successes_since|apply incl_appr, incl_refl]. }
  split; [apply waits_snoc; auto; discriminate|]. split; [rewrite Nat.add_1_r; apply below_within; auto|]. rewrite since_snoc, successes_app, app_length. simpl. lia.
Qed.
Lemma J2_done L T i n pop : J2 i n L T -> 
  (pop_size < length (nth out L []) /\ length (nth out L []) = S (length pop) /\ incl pop (nth out L []) \/ length (nth out L []) <= pop_size /\ pop = nth out L []) ->
  forall L', nth out L' [] = pop -> length L' = length L -> J (S n) L' T.
Proof.
  intros (T0 & r & s & -> & H1 & B & H4 & H5 & H2 & H3) HP L' E1 E2. split; [lia|].
  assert (SS : successes (since_restart (T0 ++ [TDone i r (Evaluated s false)])) = successes (since_restart T0) ++ [i]).
  { rewrite since_snoc, successes_app. auto. }
  split; [|split; [|split]].
  - split; rewrite SS, E1.
    + rewrite app_length. simpl. destruct HP as [(A & B1 & C)|(A & ->)]; lia.
    + destruct HP as [(A & B1 & C)|(A & ->)]; auto. eapply incl_tran; eauto.
  - apply waits_snoc; auto. discriminate.
  - rewrite collected_app, app_length. simpl. lia.
  - apply below_within; auto.
Qed.
Lemma add_ok i n : triple (on (J1 i n)) (add_to_population o out pop_size i) (fun _ => on (J (S n))) EJ.
Proof.
  unfold add_to_population. eapply t_bind; [apply t_tick; intros; eapply J1_EJ; eauto|]. intros ?.
  eapply t_bind with (R := fun _ => on (J2 i n)).
  { unfold append. eapply t_bind; [apply t_read|]. intros l. apply t_write.
    intros L T [(T0 & r & s & -> & (H1 & (H2 & H3) & H4 & H5 & H6) & B) ->]. exists T0, r, s. split; auto.
    rewrite length_set_nth, nth_set_nth by auto. split; auto. split; auto. split; auto. split; auto. split; [rewrite app_length; simpl; lia|].
    apply incl_app; [apply incl_appl; auto|apply incl_appr, incl_refl]. }
  intros ?. eapply t_bind; [apply t_read|]. intros pop.
  destruct (Nat.ltb_spec pop_size (length pop)).
  - set (K := fun L T => J2 i n L T /\ pop_size < length (nth out L [])).
    assert (KE : forall e w, on K w -> EJ e w) by (intros e w [Hw _]; eapply J2_EJ; exact Hw).
    eapply t_pre with (P' := on K); [intros w [Hw ->]; split; auto|].
    eapply t_bind; [apply t_tick; auto|]. intros ?.
    eapply t_bind; [apply t_random; auto|]. intros l.
    eapply t_bind; [apply t_tick; auto|]. intros ?.
    destruct l as [|x l]; [apply t_fail; auto|].
    intros w Hw. unfold remove, bind, read. destruct (remove_first (ind_eqb x) (nth out (w_lists w) [])) as [l'|] eqn:ER.
    + apply remove_first_len in ER as [R1 R2]. unfold on. simpl. destruct Hw as [Hw HG]. pose proof Hw as (T0 & r & s & ET & H1 & HL).
      eapply J2_done; [exact Hw| |apply nth_set_nth; auto|apply length_set_nth]. left. auto.
    + simpl. apply KE. exact Hw.
  - apply t_ret. intros w [Hw ->]. unfold on. eapply J2_done; [exact Hw| |reflexivity|auto]. right. auto.
Qed.
Lemma J_other n i r oc L T : (forall s, oc <> Evaluated s false) -> J n L T -> below max_n n = true -> J (S n) L (T ++ [TDone i r oc]).
Proof.
  intros NE (H1 & (H2 & H3) & H4 & H5 & H6) B. split; auto.
  assert (SS : successes (since_restart (T ++ [TDone i r oc])) = successes (since_restart T)).
  { rewrite since_snoc, successes_app. simpl. destruct oc as [|s [|]]; rewrite ?app_nil_r; auto. exfalso. eapply NE; eauto. }
  split; [split; rewrite SS; auto|]. split; [apply waits_snoc; auto; discriminate|]. rewrite collected_app, app_length. simpl. split; [lia|].
  apply below_within. auto.
Qed.
Lemma refill_ok n : triple (on (J n)) (refill o out) (fun _ => on (J n)) EJ.
Proof.
  assert (KE : forall e w, on (J n) w -> EJ e w) by (intros; eapply J_EJ; eauto).
  unfold refill. eapply t_bind; [apply t_queue|]. intros q. destruct (q <=? 1)%Z; [|apply t_ret; auto].
  eapply t_bind; [apply t_tick; auto|]. intros ?. eapply t_bind; [apply t_read|]. intros pop.
  eapply t_pre with (P' := on (J n)); [intros w [Hw _]; auto|].
  eapply t_bind; [apply t_random; auto|]. intros [|k]; [apply t_fail; auto|].
  eapply t_bind; [apply t_fresh|]. intros i. eapply t_bind; [apply t_tick; auto|]. intros ?.
  apply t_submit. intros L T H. apply J_quiet; simpl; auto. discriminate.
Qed.
Lemma individuals_ok n K : (forall e w, on K w -> EJ e w) -> triple (on K) (individuals o n) (fun _ => on K) EJ.
Proof.
  intros KE. induction n as [|n IH]; simpl; [apply t_ret; auto|].
  eapply t_bind; [apply t_tick; auto|]. intros ?. eapply t_bind with (R := fun _ => on K).
  { unfold new_individual. eapply t_bind; [apply t_random; auto|]. intros ?. apply t_fresh. }
  intros i. eapply t_bind; [exact IH|]. intros l. apply t_ret. auto.
Qed.
(** at the start of a turn of the outer loop *)
Definition JR (n : nat) (L : list (list ind)) (T : list item) : Prop :=
  out < length L /\ length (nth out L []) <= pop_size /\ incl (nth out L []) (successes T) /\ successes (since_restart T) = [] /\
  waits_ok pop_ok T /\ length (collected T) = n /\ within n.
Lemma JR_EJ n e w : on (JR n) w -> EJ e w.
Proof. unfold EJ, on. intros (H1 & H2 & H3 & H4 & H5 & H6 & H7). split; auto. split; [lia|]. split; auto. split; auto. rewrite H6, H4. split; auto. simpl. lia. Qed.
Lemma outer_ok n (K : list (list ind) -> list item -> Prop) src (m : M unit) Q (E : exn -> world -> Prop) :
  (forall L T, K L T -> out < length L /\ successes (since_restart T) = [] /\ waits_ok pop_ok T /\ length (collected T) = n /\ within n) ->
  (forall e w, on K w -> E e w) -> (forall e w, EJ e w -> E e w) -> triple (on (J n)) m Q E ->
  triple (on K) (tick ;; write out [] ;; l <- match src with Given a => read a | New l => ret l end ;; submit_all l ;; m) Q E.
Proof.
  intros HK KE EE HM. eapply t_bind; [apply t_tick; auto|]. intros ?.
  eapply t_bind with (R := fun _ => on (J n)).
  { apply t_write. intros L T H. apply HK in H as (H1 & H2 & H3 & H4 & H5). split; [rewrite length_set_nth; auto|].
    rewrite nth_set_nth by auto. split; [split; [rewrite H2; simpl; lia|intros x []]|]. auto. }
  intros ?. eapply t_bind with (R := fun _ => on (J n)).
  { destruct src as [ad|l]; [|apply t_ret; auto]. eapply t_weak; [| | |apply (t_read ad (J n) E)]; auto. intros l w [Hw _]. auto. }
  intros l. eapply t_bind; [|intros ?; exact HM]. apply (t_weak (on (J n)) (on (J n)) _ (fun _ => on (J n)) (fun _ => on (J n)) E EJ); auto. apply submit_all_ok.
Qed.
Lemma loop_ok fuel : forall n,
  triple (on (J n)) (ea_loop o out restart max_n pop_size fuel None n) (fun _ => on (fun L T => exists k, J k L T /\ below max_n k = false)) EJ /\
  (forall l, triple (on (JR n)) (ea_loop o out restart max_n pop_size fuel (Some (New l)) n) (fun _ => on (fun L T => exists k, J k L T /\ below max_n k = false)) EJ).
Proof.
  assert (KE : forall n e w, on (J n) w -> EJ e w) by (intros; eapply J_EJ; eauto).
  assert (KER : forall n e w, on (JR n) w -> EJ e w) by (intros; eapply JR_EJ; eauto).
  induction fuel as [|fuel IH]; intros n.
  { split; [|intros l]; simpl; apply t_fail; [apply KE|apply KER]. }
  split; [|intros l].
  - simpl. destruct (below max_n n) eqn:B; [|apply t_ret; intros w Hw; exists n; auto].
    eapply t_bind; [apply t_tick; intros; eapply KE; eauto|]. intros ?. eapply t_bind; [apply t_read|]. intros pop.
    eapply t_bind with (R := fun _ => on (J n)).
    { apply t_note. intros L T [H ->]. apply J_quiet; simpl; auto. intros p E. inversion E; auto. }
    intros ?.
    eapply t_bind with (R := fun x => on (fun L T => match x with (i, _, Evaluated _ false) => J1 i n L T | _ => J (S n) L T end)).
    { eapply t_wait with (Q := fun x L T => match x with (i, _, Evaluated _ false) => J1 i n L T | _ => J (S n) L T end).
      - intros; eapply KE; eauto.
      - intros i r oc L T H. destruct oc as [|s [|]]; [apply J_other; auto; discriminate|apply J_other; auto; discriminate|].
        exists T, r, s. auto.
      - intros i r s f e L T w H EL ET. destruct f.
        + eapply (KE (S n)). unfold on. rewrite EL, ET. apply J_other; auto. discriminate.
        + apply (J1_EJ i n). unfold on. rewrite EL, ET. exists T, r, s. auto. }
    intros [[i r] oc]. eapply t_bind with (R := fun _ => on (J (S n))).
    { destruct oc as [|s [|]]; [apply t_ret; auto|apply t_ret; auto|]. apply add_ok. }
    intros ?. eapply t_bind; [apply refill_ok|]. intros ?. eapply t_bind; [apply t_tick; intros; eapply KE; eauto|]. intros ?.
    eapply t_bind with (R := fun _ => on (J (S n))).
    { unfold restart_now. destruct restart; [|apply t_ret; auto]. apply t_random. intros; eapply KE; eauto. }
    intros b. eapply t_bind; [apply t_tick; intros; eapply KE; eauto|]. intros ?. destruct b; [|apply IH].
    eapply t_bind with (R := fun _ => on (JR (S n))).
    { apply t_note. intros L T (H1 & (H2 & H3) & H4 & H5 & H6). split; auto. split; [lia|]. rewrite successes_app, since_snoc, collected_app. simpl. rewrite !app_nil_r.
      split; [eapply incl_tran; [exact H3|apply successes_since]|]. split; auto. split; [apply waits_snoc; auto; discriminate|]. auto. }
    intros ?. eapply t_bind; [apply individuals_ok; intros; eapply KER; eauto|]. intros l. apply IH.
  - change (ea_loop o out restart max_n pop_size (S fuel) (Some (New l)) n) with
      (tick ;; write out [] ;; l <- match New l with Given a => read a | New l => ret l end ;; submit_all l ;; ea_loop o out restart max_n pop_size fuel None n).
    apply (outer_ok n (JR n)); auto; [|intros; eapply KER; eauto|apply IH].
    intros L T (H1 & H2 & H3 & H4 & H5 & H6 & H7). auto 10.
Qed.
(** After an exception before anything happened the output is untouched. *)
Definition EE (l0 : list ind) (e : exn) (w : world) : Prop := EJ e w \/ on (fun L T => nth out L [] = l0 /\ T = []) w.
Lemma ea_ok start lists nw events r uid stop x w : out < length lists ->
  async_ea o out restart max_n pop_size start (start_world lists nw events r uid stop) = (x, w) ->
  match x with
  | Ok a => a = out /\ on (fun L T => exists k, J k L T /\ below max_n k = false) w
  | Err e => EE (nth out lists []) e w
  end.
Proof.
  intros HO E. set (w0 := start_world lists nw events r uid stop) in *.
  assert (G : forall f, within 0 -> triple (fun w => w = w0) (ea_loop o out restart max_n pop_size (S f) (Some (Given start)) 0 ;; ret out)
    (fun a w => a = out /\ on (fun L T => exists k, J k L T /\ below max_n k = false) w) (EE (nth out lists []))).
  { intros f WI. eapply t_bind with (R := fun _ => on (fun L T => exists k, J k L T /\ below max_n k = false)); [|intros ?; apply t_ret; auto].
    change (ea_loop o out restart max_n pop_size (S f) (Some (Given start)) 0) with
      (tick ;; write out [] ;; l <- match Given start with Given a => read a | New l => ret l end ;; submit_all l ;; ea_loop o out restart max_n pop_size f None 0).
    eapply t_pre with (P' := on (fun L T => L = lists /\ T = [])); [intros w1 ->; split; auto|].
    apply (outer_ok 0 _ (Given start)).
    - intros L T [-> ->]. split; auto. split; auto. split; auto. apply waits_nil.
    - intros e w1 [H1 H2]. right. unfold on. rewrite H1, H2. auto.
    - intros e w1 H. left. auto.
    - eapply t_weak; [| | |apply (loop_ok f 0)]; auto. intros e w1 H. left. exact H. }
  assert (LV : forall m : M nat, triple (fun w => w = w0) m (fun a w => a = out /\ on (fun L T => exists k, J k L T /\ below max_n k = false) w) (EE (nth out lists [])) ->
    leave m w0 = (x, w) -> match x with
  | Ok a => a = out /\ on (fun L T => exists k, J k L T /\ below max_n k = false) w
  | Err e => EE (nth out lists []) e w end).
  { intros m H EL. specialize (H w0 eq_refl). unfold leave in EL. destruct (m w0) as [[a|e] w1]; inversion EL; subst; auto. }
  unfold async_ea in E. destruct max_n as [m|] eqn:EM.
  - destruct (Z.leb_spec m 0).
    + inversion E; subst. right. split; auto.
    + eapply LV; [|exact E]. rewrite Nat.add_succ_r. apply G. unfold within. rewrite EM. lia.
  - eapply LV; [|exact E]. rewrite Nat.add_succ_r. apply G. unfold within. rewrite EM. exact I.
Qed.
End EA.

(** * random_search *)
Section RS.
Context (o : ops) (out : nat) (max_n : option Z) (l0 : list ind).
Definition room (l : list ind) : Prop := length l0 <= length l /\ match max_n with None => True | Some m => length l = length l0 \/ (Z.of_nat (length l) <= m)%Z end.
Definition R (L : list (list ind)) (T : list item) : Prop :=
  out < length L /\ nth out L [] = l0 ++ with_result T /\ room (nth out L []).
(** one result collected that is not in the list yet *)
Definition R1 (i : ind) (L : list (list ind)) (T : list item) : Prop :=
  out < length L /\ with_result T = skipn (length l0) (nth out L []) ++ [i] /\ firstn (length l0) (nth out L []) = l0 /\
  room (nth out L [] ++ [i]).
Definition ER (_ : exn) (w : world) : Prop := on R w \/ exists i, on (R1 i) w.
Lemma R_quiet L T x : (forall i r s f, x <> TDone i r (Evaluated s f)) -> R L T -> R L (T ++ [x]).
Proof.
  intros NE (H1 & H2 & H3). split; auto. split; auto. rewrite with_result_app, H2. replace (with_result [x]) with (@nil ind); [rewrite app_nil_r; auto|].
  destruct x as [| |i r [|s f]| |]; simpl; auto. exfalso. eapply NE; eauto.
Qed.
Lemma rs_submit_all l : triple (on R) (submit_all l) (fun _ => on R) ER.
Proof.
  assert (KE : forall e w, on R w -> ER e w) by (left; auto).
  induction l as [|i l IH]; simpl; [apply t_ret; auto|].
  eapply t_bind; [apply t_tick; auto|]. intros ?. eapply t_bind; [|intros ?; exact IH].
  apply t_submit. intros L T H. apply R_quiet; auto. discriminate.
Qed.
Lemma rs_loop_ok fuel : triple (on R) (rs_loop o out max_n fuel) (fun _ => on (fun L T => R L T /\ below max_n (length (nth out L [])) = false)) ER.
Proof.
  assert (KE : forall e w, on R w -> ER e w) by (left; auto).
  induction fuel as [|fuel IH]; simpl; [apply t_fail; auto|].
  eapply t_bind; [apply t_read|]. intros l. destruct (below max_n (length l)) eqn:B.
  2:{ apply t_ret. intros w [Hw ->]. split; auto. }
  set (K := fun L T => R L T /\ l = nth out L []). assert (KK : forall e w, on K w -> ER e w) by (intros e w [Hw _]; left; auto).
  eapply t_bind; [apply t_tick; exact KK|]. intros ?. eapply t_bind with (R := fun _ => on K).
  { apply t_note. intros L T [H ->]. split; auto. apply R_quiet; auto. discriminate. }
  intros ?. assert (RM : forall i, K (w_lists i) (w_trace i) -> forall x, room (nth out (w_lists i) [] ++ [x])).
  { intros w [(H1 & H2 & H3) ->] x. unfold room in *. rewrite app_length. simpl. destruct H3 as [A1 A2]. split; [lia|]. unfold below in B.
    destruct max_n as [m|]; auto. apply Z.ltb_lt in B. lia. }
  assert (K1 : forall L T i r s f, K L T -> R1 i L (T ++ [TDone i r (Evaluated s f)])).
  { intros L T i r s f [(H1 & H2 & H3) E]. split; auto. rewrite with_result_app. simpl. rewrite H2.
    rewrite skipn_app, skipn_all, Nat.sub_diag. simpl. split; auto. rewrite firstn_app, firstn_all, Nat.sub_diag. simpl. rewrite app_nil_r. split; auto.
    unfold room in *. rewrite <- H2, app_length. simpl. destruct H3 as [A1 A2]. split; [lia|]. unfold below in B. rewrite E in B.
    destruct max_n as [m|]; auto. apply Z.ltb_lt in B. lia. }
  eapply t_bind with (R := fun x => on (fun L T => match x with (i, _, Evaluated _ _) => R1 i L T | _ => R L T end)).
  { eapply t_wait with (Q := fun x L T => match x with (i, _, Evaluated _ _) => R1 i L T | _ => R L T end).
    - exact KK.
    - intros i r oc L T H. destruct oc as [|s f]; [apply R_quiet; [discriminate|apply H]|]. apply K1; auto.
    - intros i r s f e L T w H EL ET. right. exists i. unfold on. rewrite EL, ET. apply K1; auto. }
  intros [[i r] oc]. eapply t_bind with (R := fun _ => on R).
  { destruct oc as [|s f]; [apply t_ret; auto|]. eapply t_bind; [apply t_tick; intros e w Hw; right; exists i; auto|]. intros ?.
    unfold append. eapply t_bind; [apply t_read|]. intros l'. apply t_write.
    intros L T [(H1 & H2 & H3 & H4) ->]. split; [rewrite length_set_nth; auto|]. rewrite nth_set_nth by auto. split; auto.
    rewrite H2, app_assoc. f_equal. etransitivity; [symmetry; apply (firstn_skipn (length l0))|]. rewrite H3. reflexivity. }
  intros ?. eapply t_bind; [apply t_tick; auto|]. intros ?. eapply t_bind with (R := fun _ => on R).
  { unfold new_individual. eapply t_bind; [apply t_random; auto|]. intros ?. apply t_fresh. }
  intros j. eapply t_bind; [apply t_tick; auto|]. intros ?. eapply t_bind; [|intros ?; exact IH].
  apply t_submit. intros L T H. apply R_quiet; auto. discriminate.
Qed.
Lemma rs_ok start lists nw events r uid stop x w : out < length lists -> nth out lists [] = l0 ->
  random_search o out max_n start (start_world lists nw events r uid stop) = (x, w) ->
  match x with
  | Ok a => a = out /\ on (fun L T => R L T /\ below max_n (length (nth out L [])) = false) w
  | Err e => ER e w
  end.
Proof.
  intros HO E0 E. set (w0 := start_world lists nw events r uid stop) in *. unfold random_search in E.
  assert (G : triple (fun w => w = w0) (l <- read start ;; submit_all l ;; rs_loop o out max_n (length (w_events w0) + 1) ;; ret out)
     (fun a w => a = out /\ on (fun L T => R L T /\ below max_n (length (nth out L [])) = false) w) ER).
  { eapply t_pre with (P' := on R).
    { intros w1 ->. split; auto. simpl. rewrite app_nil_r. split; auto. rewrite E0. split; auto. destruct max_n; auto. }
    eapply t_bind; [apply t_read|]. intros l. eapply t_pre with (P' := on R); [intros w1 [Hw _]; auto|].
    eapply t_bind; [apply rs_submit_all|]. intros ?. eapply t_bind; [apply rs_loop_ok|]. intros ?. apply t_ret. auto. }
  specialize (G w0 eq_refl). unfold leave in E. destruct ((l <- read start ;; submit_all l ;; rs_loop o out max_n (length (w_events w0) + 1) ;; ret out) w0) as [[a|e] w1];
  injection E as <- <-; exact G.
Qed.
End RS.

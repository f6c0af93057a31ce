(** One turn of async_ea; how many jobs are outstanding. *)
From Verif Require Import Base Num Nsga_Model Par_Model Search_Model Search_Spec Search_Proofs Search_Proofs2 Search_Proofs3 Search_Proofs4.
Require Import Permutation.
Open Scope nat_scope.

Lemma remove_first_split {AI} (f : AI -> bool) l l' : remove_first f l = Some l' -> exists l1 y l2, l = l1 ++ y :: l2 /\ l' = l1 ++ l2 /\ f y = true /\ forall z, In z l1 -> f z = false.
Proof.
  revert l'. induction l as [|x l IH]; simpl; intros l' H; [discriminate|]. destruct (f x) eqn:E.
  - injection H as <-. exists [], x, l. repeat split; auto. intros z [].
  - destruct (remove_first f l) as [r|]; [|discriminate]. injection H as <-. destruct (IH r eq_refl) as (l1 & y & l2 & -> & -> & H1 & H2).
    exists (x :: l1), y, l2. repeat split; auto. intros z [<-|Hz]; auto.
Qed.
Lemma nodup_tail {AI} (l l' : list AI) : NoDup (l ++ l') -> NoDup l'.
Proof. induction l as [|x l IH]; simpl; auto. intros H. inversion H; auto. Qed.
Definition acct (J : list job) (T : list item) : Prop := length J + length (collected T) = length (submissions T).
Lemma acct_running J T : acct J T -> running T = length J.
Proof. unfold acct, running. lia. Qed.
Lemma acct_submit J T i r q : acct J T -> acct (J ++ [mkJob i r]) (T ++ [TSubmit i r q]).
Proof. unfold acct. rewrite collected_app, submissions_app, !app_length. simpl. lia. Qed.
Lemma acct_done J1 j J2 T i r oc : acct (J1 ++ j :: J2) T -> acct (J1 ++ J2) (T ++ [TDone i r oc]).
Proof. unfold acct. rewrite collected_app, submissions_app, !app_length. simpl. lia. Qed.
Lemma acct_quiet J T x : (match x with TSubmit _ _ _ | TDone _ _ _ => False | _ => True end) -> acct J T -> acct J (T ++ [x]).
Proof. unfold acct. rewrite collected_app, submissions_app, !app_length. destruct x; simpl; try tauto; lia. Qed.

Section EA.
Context (o : ops) (out : nat) (restart : bool) (max_n : option Z) (pop_size nw m : nat) (D : Prop).
Hypothesis MN : m <= nw + 2.
Definition pickd (l : list ind) (x : ind) : Prop := exists r r' rest, o_eliminate o l 1 r = (Ok (x :: rest), r').
Notation tok := (population_turn pop_size pickd).
Definition LT (T : list item) (pop : list ind) : Prop :=
  forall t1 p i q oc t2, T = t1 ++ TWait p :: TDone i q oc :: t2 -> submits t2 -> tok p i oc pop.
Definition estep (t : list item) (x : item) : Prop :=
  match x with
  | TWait pop => m <= running t /\ LT t pop
  | TDone i q oc => forall t0 pop, t = t0 ++ [TWait pop] -> D -> NoDup (map i_id (pop ++ [i]))
  | _ => True
  end.
Definition onw (K : nat -> list ind -> list job -> list item -> Prop) (w : world) : Prop :=
  w_n w = nw /\ out < length (w_lists w) /\ K (w_uid w) (nth out (w_lists w) []) (w_jobs w) (w_trace w).
Definition EEi (_ : exn) (w : world) : Prop := each estep (w_trace w).
Definition ids (J : list job) : list nat := map (fun j => i_id (j_ind j)) J.
Definition dis (u : nat) (l : list nat) : Prop := D -> NoDup l /\ forall n, In n l -> n < u.

(** Rules *)
Section Rules.
Context (K : nat -> list ind -> list job -> list item -> Prop).
Hypothesis KE : forall u p J T, K u p J T -> each estep T.
Lemma KEw e w : onw K w -> EEi e w.
Proof. intros (_ & _ & H). eapply KE; eauto. Qed.
Lemma o_tick : triple (onw K) tick (fun _ => onw K) EEi.
Proof. intros w Hw. unfold tick. destruct (w_stop w) as [[[|k] e]|]; simpl; auto; try apply (KEw e w Hw). Qed.
Lemma o_random {AI} (f : rng -> res AI * rng) : triple (onw K) (random f) (fun a => onw (fun u p J T => K u p J T /\ exists r r', f r = (Ok a, r'))) EEi.
Proof. intros w Hw. unfold random. destruct (f (w_rng w)) as [[a|e] r] eqn:E; simpl; [|apply (KEw e w Hw)]. destruct Hw as (H1 & H2 & H3). split; auto. split; auto. split; auto. eauto. Qed.
Lemma o_random0 {AI} (f : rng -> res AI * rng) : triple (onw K) (random f) (fun a => onw K) EEi.
Proof. intros w Hw. unfold random. destruct (f (w_rng w)) as [[a|e] r] eqn:E; simpl; [|apply (KEw e w Hw)]. destruct Hw as (H1 & H2 & H3). split; auto. Qed.
Lemma o_queue : triple (onw K) queue_size (fun q => onw (fun u p J T => K u p J T /\ q = (Z.of_nat (length J) - Z.of_nat nw)%Z)) EEi.
Proof. intros w (H1 & H2 & H3). simpl. split; auto. split; auto. split; auto. rewrite H1. auto. Qed.
Lemma o_read : triple (onw K) (read out) (fun l => onw (fun u p J T => K u p J T /\ l = p)) EEi.
Proof. intros w (H1 & H2 & H3). simpl. split; auto. Qed.
Lemma o_write l (K' : nat -> list ind -> list job -> list item -> Prop) : (forall u p J T, K u p J T -> K' u l J T) -> triple (onw K) (write out l) (fun _ => onw K') EEi.
Proof. intros H w (H1 & H2 & H3). simpl. split; auto. split; [simpl; rewrite length_set_nth; auto|]. simpl. rewrite nth_set_nth by auto. eapply H; eauto. Qed.
Lemma o_note x (K' : nat -> list ind -> list job -> list item -> Prop) : (forall u p J T, K u p J T -> K' u p J (T ++ [x])) -> triple (onw K) (note x) (fun _ => onw K') EEi.
Proof. intros H w (H1 & H2 & H3). simpl. split; auto. split; auto. simpl. auto. Qed.
Lemma o_submit i (K' : nat -> list ind -> list job -> list item -> Prop) : (forall u p J T, K u p J T -> K' u p (J ++ [mkJob i None]) (T ++ [TSubmit i None None])) -> triple (onw K) (submit i None None) (fun _ => onw K') EEi.
Proof. intros H w (H1 & H2 & H3). simpl. split; auto. split; auto. simpl. auto. Qed.
Lemma o_fresh (K' : ind -> nat -> list ind -> list job -> list item -> Prop) : (forall u p J T, K u p J T -> K' (mkI u None None) (S u) p J T) -> triple (onw K) fresh (fun i => onw (K' i)) EEi.
Proof. intros H w (H1 & H2 & H3). simpl. split; auto. split; auto. simpl. auto. Qed.
Lemma o_wait (K' : ind * option nat * outcome -> nat -> list ind -> list job -> list item -> Prop) :
  (forall u p j J1 J2 T oc, K u p (J1 ++ j :: J2) T -> K' (result_ind j oc, j_rung j, oc) u p (J1 ++ J2) (T ++ [TDone (result_ind j oc) (j_rung j) oc])) ->
  (forall x u p J T, K' x u p J T -> each estep T) ->
  triple (onw K) wait_next (fun x => onw (K' x)) EEi.
Proof.
  intros H2 H3. 
  assert (X : forall u0 p0, triple (fun w => w_n w = nw /\ out < length (w_lists w) /\ w_uid w = u0 /\ nth out (w_lists w) [] = p0 /\ ona (fun _ J T => K u0 p0 J T) w) wait_next (fun x => onw (K' x)) EEi).
  { intros u0 p0 w (A1 & A2 & A3 & A4 & A5).
    pose proof (a_wait (fun _ J T => K u0 p0 J T) EEi (fun x _ J T => K' x u0 p0 J T)) as WI.
    assert (WI' := WI (fun e w0 h => KE _ _ _ _ h) (fun j J1 J2 R T oc h => H2 _ _ j J1 J2 T oc h) (fun x w0 e h => H3 _ _ _ _ _ h) w A5).
    destruct (wait_next w) as [[a|e] w'] eqn:E; auto.
    assert (Y : w_n w' = w_n w /\ w_lists w' = w_lists w /\ w_uid w' = w_uid w).
    { revert E. unfold wait_next. destruct (w_jobs w); [discriminate|]. destruct (w_events w); [discriminate|]. destruct (e_out _); [|destruct (e_callback _); [discriminate|]]; intros E; inversion E; auto. }
    destruct Y as (Y1 & Y2 & Y3). split; [congruence|]. split; [rewrite Y2; auto|]. rewrite Y2, Y3, A3, A4. exact WI'. }
  intros w (A1 & A2 & A3). apply (X (w_uid w) (nth out (w_lists w) []) w). repeat split; auto.
Qed.
End Rules.

(** In the loop; [extra]: ids of individuals made but not started. *)
Definition AI (extra : list nat) (u : nat) (p : list ind) (J : list job) (T : list item) : Prop :=
  acct J T /\ m <= length extra + length J /\ dis u (extra ++ ids J ++ map i_id p) /\ LT T p /\ each estep T.
(** one job fewer than needed, perhaps *)
Definition BI (u : nat) (p : list ind) (J : list job) (T : list item) : Prop :=
  acct J T /\ m <= S (length J) /\ dis u (ids J ++ map i_id p) /\ LT T p /\ each estep T.
Lemma A_E ex u p J T : AI ex u p J T -> each estep T.
Proof. intros (_ & _ & _ & _ & H). auto. Qed.
Lemma B_E u p J T : BI u p J T -> each estep T.
Proof. intros (_ & _ & _ & _ & H). auto. Qed.
Lemma LT_submit T p i r q : LT T p -> LT (T ++ [TSubmit i r q]) p.
Proof.
  intros H t1 p0 i0 q0 oc t2 E S. destruct t2 as [|x t2 _] using rev_ind.
  - change (t1 ++ [TWait p0; TDone i0 q0 oc]) with (t1 ++ [TWait p0] ++ [TDone i0 q0 oc]) in E. rewrite app_assoc in E. apply app_inj_tail in E as [_ E]. discriminate.
  - apply (H t1 p0 i0 q0 oc t2). 2:{ apply Forall_app in S. apply S. }
    rewrite 2!app_comm_cons, app_assoc in E. apply app_inj_tail in E as [E _]. auto.
Qed.
Lemma LT_other T p x : (match x with TSubmit _ _ _ | TDone _ _ _ => False | _ => True end) -> LT (T ++ [x]) p.
Proof.
  intros HX t1 p0 i0 q0 oc t2 E S. exfalso. destruct t2 as [|y t2 _] using rev_ind.
  - change (t1 ++ [TWait p0; TDone i0 q0 oc]) with (t1 ++ [TWait p0] ++ [TDone i0 q0 oc]) in E. rewrite app_assoc in E. apply app_inj_tail in E as [_ E]. subst x. auto.
  - rewrite 2!app_comm_cons, app_assoc in E. apply app_inj_tail in E as [_ E]. subst y. apply Forall_app in S as [_ S]. apply Forall_inv in S. destruct x; auto.
Qed.
Lemma LT_done T p i q oc p' : tok p i oc p' -> LT (T ++ [TWait p] ++ [TDone i q oc]) p'.
Proof.
  intros H t1 p0 i0 q0 oc0 t2 E S. destruct t2 as [|x t2 _] using rev_ind.
  - change (t1 ++ [TWait p0; TDone i0 q0 oc0]) with (t1 ++ [TWait p0] ++ [TDone i0 q0 oc0]) in E. rewrite !app_assoc in E. apply app_inj_tail in E as [E1 E2].
    apply app_inj_tail in E1 as [_ E1]. congruence.
  - rewrite 2!app_comm_cons, !app_assoc in E. apply app_inj_tail in E as [_ E]. subst x. apply Forall_app in S as [_ S]. apply Forall_inv in S. destruct S.
Qed.
Lemma LT_nil p : LT [] p.
Proof. intros t1 p0 i0 q0 oc t2 E. destruct t1; discriminate. Qed.
Lemma dis_perm u l l' : Permutation l l' -> dis u l -> dis u l'.
Proof. intros P H d. destruct (H d) as [H1 H2]. split; [eapply Permutation_NoDup; eauto|]. intros n Hn. apply H2. eapply Permutation_in; [symmetry; exact P|auto]. Qed.
Lemma dis_sub u l l' : dis u (l ++ l') -> dis u l'.
Proof. intros H d. destruct (H d) as [H1 H2]. split; [eapply nodup_tail; eauto|]. intros n Hn. apply H2. apply in_or_app; auto. Qed.
Lemma ids_app J J' : ids (J ++ J') = ids J ++ ids J'.
Proof. apply map_app. Qed.
Lemma dis_new u l : dis u l -> dis (S u) (u :: l).
Proof. intros H d. destruct (H d) as [H1 H2]. split; [constructor; auto; intros X; apply H2 in X; lia|]. intros n [<-|Hn]; [lia|]. apply H2 in Hn. lia. Qed.
Lemma A_submit i ex u p J T r q : r = None -> q = None -> AI (i_id i :: ex) u p J T -> AI ex u p (J ++ [mkJob i r]) (T ++ [TSubmit i r q]).
Proof.
  intros -> -> (H1 & H2 & H3 & H4 & H5). split; [apply acct_submit; auto|]. split; [rewrite app_length; simpl in *; lia|]. split.
  - eapply dis_perm; [|exact H3]. rewrite ids_app. simpl. rewrite <- app_assoc. simpl. rewrite app_assoc. rewrite (app_assoc ex). apply Permutation_middle.
  - split; [apply LT_submit; auto|]. apply each_snoc; auto. exact Logic.I.
Qed.
Lemma submit_all_t l : triple (onw (AI (map i_id l))) (submit_all l) (fun _ => onw (AI [])) EEi.
Proof.
  induction l as [|i l IH]; cbn [submit_all]; [apply t_ret; auto|].
  eapply t_bind; [apply o_tick; apply A_E|]. intros ?. eapply t_bind; [|intros ?; exact IH]. apply o_submit. intros. apply A_submit; auto.
Qed.
Lemma individuals_t n : forall ex, triple (onw (AI ex)) (individuals o n) (fun l => onw (AI (map i_id l ++ ex))) EEi.
Proof.
  induction n as [|n IH]; intros ex; cbn [individuals]; [apply t_ret; auto|]. eapply t_bind; [apply o_tick; apply A_E|]. intros ?.
  unfold new_individual. eapply t_bind with (R := fun i => onw (AI (i_id i :: ex))).
  { eapply t_bind; [apply o_random0; apply A_E|]. intros ?. apply o_fresh with (K' := fun i => AI (i_id i :: ex)).
    intros u p J T (H1 & H2 & H3 & H4 & H5). split; auto. split; [simpl; lia|]. split; [apply (dis_new u); exact H3|]. auto. }
  intros i. eapply t_bind; [apply IH|]. intros l. apply t_ret. intros w (H1 & H2 & H3 & H4 & H5 & H6 & H7). split; auto. split; auto. split; auto. split; [rewrite !app_length in *; simpl in *; rewrite map_length in *; lia|]. split; [|auto].
  eapply dis_perm; [|exact H5]. simpl. rewrite <- app_assoc. simpl. symmetry. rewrite <- app_assoc. apply Permutation_middle.
Qed.
(** just after collecting *)
Definition CI (x : ind * option nat * outcome) (p0 : list ind) (u : nat) (p : list ind) (J : list job) (T : list item) : Prop :=
  match x with (i, q, oc) => p = p0 /\ (exists T0, T = T0 ++ [TWait p] ++ [TDone i q oc]) /\ acct J T /\ m <= S (length J) /\ dis u (i_id i :: ids J ++ map i_id p) /\ each estep T end.
Lemma C_E x p0 u p J T : CI x p0 u p J T -> each estep T.
Proof. destruct x as [[i q] oc]. intros (_ & _ & _ & _ & _ & H). auto. Qed.
Definition WI (p0 : list ind) (u : nat) (p : list ind) (J : list job) (T : list item) : Prop :=
  p = p0 /\ (exists T0, T = T0 ++ [TWait p]) /\ acct J T /\ m <= length J /\ dis u (ids J ++ map i_id p) /\ each estep T.
Lemma wait_t p0 : triple (onw (WI p0)) wait_next (fun x => onw (CI x p0)) EEi.
Proof.
  apply o_wait.
  - intros u p J T (_ & _ & _ & _ & _ & H). auto.
  - intros u p j J1 J2 T oc (H0 & [T0 H1] & H2 & H3 & H4 & H5). subst T.
    assert (EI : i_id (result_ind j oc) = i_id (j_ind j)) by (destruct oc; auto).
    assert (HD : dis u (i_id (result_ind j oc) :: ids (J1 ++ J2) ++ map i_id p)).
    { eapply dis_perm; [|exact H4]. rewrite EI, !ids_app. simpl. rewrite <- !app_assoc. simpl. symmetry. apply Permutation_middle. }
    split; auto. split; [exists T0; rewrite app_assoc; auto|]. split; [eapply acct_done; eauto|]. split; [rewrite app_length in *; simpl in *; lia|]. split; auto.
    apply each_snoc; auto. intros t0 pop E d. apply app_inj_tail in E as [_ E]. injection E as <-. destruct (HD d) as [HN _].
    rewrite map_app. simpl. eapply Permutation_NoDup; [apply Permutation_cons_append|]. inversion HN as [|? ? N1 N2]; subst. constructor; [intros X; apply N1; apply in_or_app; auto|].
    eapply nodup_tail; eauto.
  - intros x u p J T. apply C_E.
Qed.
Lemma add_t i q s p0 : triple (onw (CI (i, q, Evaluated s false) p0)) (add_to_population o out pop_size i) (fun _ => onw BI) EEi.
Proof.
  unfold add_to_population, append. eapply t_bind; [apply o_tick; apply C_E|]. intros ?.
  set (C2 := fun u p J T => p = p0 ++ [i] /\ (exists T0, T = T0 ++ [TWait p0] ++ [TDone i q (Evaluated s false)]) /\ acct J T /\ m <= S (length J) /\ dis u (ids J ++ map i_id p) /\ each estep T).
  assert (C2E : forall u p J T, C2 u p J T -> each estep T) by (intros u p J T (_ & _ & _ & _ & _ & H); auto).
  eapply t_bind with (R := fun _ => onw C2).
  { eapply t_bind; [apply o_read|]. intros l. apply o_write. intros u p J T [(H1 & H2 & H3 & H4 & H5 & H6) ->]. subst p. split; auto. split; auto. split; auto. split; auto. split; auto.
    eapply dis_perm; [|exact H5]. rewrite map_app. simpl. rewrite app_assoc. apply Permutation_cons_append. }
  intros ?. eapply t_bind; [apply o_read|]. intros pop. destruct (Nat.ltb_spec pop_size (length pop)).
  2:{ apply t_ret. intros w (A1 & A2 & (H1 & [T0 H2] & H3 & H4 & H5 & H6) & HP). split; auto. split; auto. split; auto. split; auto. split; auto. split; auto.
      rewrite H2, H1. apply LT_done. left. split; auto. rewrite HP, H1, app_length in H. simpl in H. lia. }
  set (C3 := fun u p J T => C2 u p J T /\ pop = p).
  assert (C3E : forall u p J T, C3 u p J T -> each estep T) by (intros u p J T [X _]; eapply C2E; eauto).
  eapply t_bind; [apply (o_tick C3); auto|]. intros ?. eapply t_bind; [apply (o_random C3); auto|]. intros l.
  set (C4 := fun u p J T => C3 u p J T /\ exists r r', o_eliminate o pop 1 r = (Ok l, r')).
  eapply t_bind; [apply (o_tick C4); intros u p J T [X _]; eapply C3E; eauto|]. intros ?.
  destruct l as [|x l]; [apply t_fail; intros w (_ & _ & X & _); eapply C3E; eauto|].
  unfold remove. eapply t_bind; [apply o_read|]. intros l0.
  destruct (remove_first (ind_eqb x) l0) as [l'|] eqn:ER; [|apply t_fail; intros w (_ & _ & [X _] & _); eapply C3E; eauto].
  apply o_write. intros u p J T [[[(H1 & [T0 H2] & H3 & H4 & H5 & H6) HP] (r & r' & HE)] HL]. subst l0 pop p.
  apply remove_first_split in ER as (l1 & y & l2 & E1 & -> & E2 & E3). split; auto. split; auto. split.
  - eapply (dis_sub u [i_id y]). eapply dis_perm; [|exact H5]. rewrite E1, !map_app. simpl. rewrite !app_assoc. symmetry. apply Permutation_middle.
  - split; auto. rewrite H2. apply LT_done. right. rewrite app_length in H. simpl in H. split; [lia|].
    exists x, l1, y, l2. split; [exists r, r', l; auto|]. split; auto. split; auto. unfold ind_eqb in E2. apply Nat.eqb_eq in E2. split; auto.
    intros X. apply in_map_iff in X as (z & Z1 & Z2). specialize (E3 z Z2). unfold ind_eqb in E3. apply Nat.eqb_neq in E3. congruence.
Qed.
Lemma refill_t : triple (onw BI) (refill o out) (fun _ => onw (AI [])) EEi.
Proof.
  unfold refill. eapply t_bind; [apply o_queue|]. intros q. destruct (Z.leb_spec q 1).
  - eapply t_pre with (P' := onw BI); [intros w (H1 & H2 & H3 & _); split; auto|]. eapply t_bind; [apply o_tick; apply B_E|]. intros ?.
    eapply t_bind; [apply o_read|]. intros pop. eapply t_pre with (P' := onw BI); [intros w (H1 & H2 & H3 & _); split; auto|].
    eapply t_bind; [apply o_random0; apply B_E|]. intros k. destruct k as [|k]; [apply t_fail; intros w (_ & _ & X); eapply B_E; eauto|].
    eapply t_bind with (R := fun i => onw (AI [i_id i])).
    { apply o_fresh with (K' := fun i => AI [i_id i]). intros u p J T (H1 & H2 & H3 & H4 & H5). split; auto. split; [simpl; lia|]. split; auto. apply (dis_new u). auto. }
    intros i. eapply t_bind; [apply o_tick; apply A_E|]. intros ?. apply o_submit. intros u p J T HA. apply A_submit; auto.
  - apply t_ret. intros w (H1 & H2 & (H3 & H4 & H5 & H6 & H7) & Hq). split; auto. split; auto. split; auto. split; [simpl; lia|]. auto.
Qed.
Lemma loop_t f : forall n, triple (onw (AI [])) (ea_loop o out restart max_n pop_size f None n) (fun _ => onw (AI [])) EEi /\
  (forall l, triple (onw (fun u p J T => AI (map i_id l) u p J T /\ forall p, LT T p)) (ea_loop o out restart max_n pop_size f (Some (New l)) n) (fun _ => onw (AI [])) EEi).
Proof.
  induction f as [|f IH]; intros n.
  { split; [|intros l]; apply t_fail; intros w (_ & _ & H); [|destruct H as [H _]]; eapply A_E; eauto. }
  split; [|intros l].
  - cbn [ea_loop]. destruct (below max_n n); [|apply t_ret; auto]. eapply t_bind; [apply o_tick; apply A_E|]. intros ?. eapply t_bind; [apply o_read|]. intros pop.
    eapply t_bind with (R := fun _ => onw (WI pop)).
    { apply o_note. intros u p J T [(H1 & H2 & H3 & H4 & H5) ->]. split; auto. split; eauto. split; [apply acct_quiet; simpl; auto|]. split; auto. split; auto.
      apply each_snoc; auto. split; auto. rewrite (acct_running J T); auto. }
    intros ?. eapply t_bind; [apply wait_t|]. intros [[i q] oc]. eapply t_bind with (R := fun _ => onw BI).
    { assert (X : forall s, oc = s -> (match s with Evaluated _ false => False | _ => True end) -> triple (onw (CI (i, q, oc) pop)) (ret tt) (fun _ => onw BI) EEi).
      { intros s -> NS. apply t_ret. intros w (A1 & A2 & (H1 & [T0 H2] & H3 & H4 & H5 & H6)). split; auto. split; auto. split; auto. split; auto. split; [eapply (dis_sub _ [i_id i]); exact H5|]. split; auto.
        rewrite H2. apply LT_done. destruct s as [|s [|]]; simpl; auto; destruct NS. }
      destruct oc as [|s [|]]; [apply (X Raised); auto|apply (X (Evaluated s true)); auto|]. apply add_t. }
    intros ?. eapply t_bind; [apply refill_t|]. intros ?. eapply t_bind; [apply o_tick; apply A_E|]. intros ?.
    eapply t_bind with (R := fun _ => onw (AI [])).
    { unfold restart_now. destruct restart; [|apply t_ret; auto]. apply o_random0. apply A_E. }
    intros b. eapply t_bind; [apply o_tick; apply A_E|]. intros ?. destruct b; [|apply IH].
    eapply t_bind with (R := fun _ => onw (fun u p J T => AI [] u p J T /\ exists T0, T = T0 ++ [TRestart])).
    { apply o_note. intros u p J T (H1 & H2 & H3 & H4 & H5). split; [|eauto]. split; [apply acct_quiet; simpl; auto|]. split; auto. split; auto. split; [apply LT_other; simpl; auto|].
      apply each_snoc; auto. exact Logic.I. }
    intros ?. eapply t_bind; [|intros l; apply IH].
    assert (X : forall t0, triple (fun w => onw (AI []) w /\ w_trace w = t0 ++ [TRestart]) (individuals o pop_size) (fun l w => onw (AI (map i_id l ++ [])) w /\ w_trace w = t0 ++ [TRestart]) EEi).
    { intros t0. intros w [H1 H2]. pose proof (individuals_t pop_size [] w H1) as Y. 
      assert (Z : w_trace (snd (individuals o pop_size w)) = w_trace w).
      { clear. generalize pop_size. intros k. revert w. induction k as [|k IH]; intros w; cbn [individuals]; auto. unfold bind, tick, new_individual, bind, random, fresh.
        destruct (w_stop w) as [[[|j] e]|]; simpl; auto; destruct (o_individual o (w_rng w)) as [[?|?] ?]; simpl; auto;
        match goal with |- context [individuals o k ?w1] => specialize (IH w1); destruct (individuals o k w1) as [[?|?] ?]; simpl in *; auto end. }
      destruct (individuals o pop_size w) as [[l|e] w']; simpl in Z; auto. split; auto. congruence. }
    intros w (H1 & H2 & H3 & [T0 H4]). specialize (X T0 w (conj (conj H1 (conj H2 H3)) H4)). destruct (individuals o pop_size w) as [[l|e] w']; auto.
    destruct X as [(X1 & X2 & X3) X4]. rewrite app_nil_r in X3. split; auto. split; auto. split; auto. intros p. rewrite X4. apply LT_other. simpl. auto.
  - change (ea_loop o out restart max_n pop_size (S f) (Some (New l)) n) with
      (tick ;; write out [] ;; l <- ret l ;; submit_all l ;; ea_loop o out restart max_n pop_size f None n).
    eapply t_bind; [apply (o_tick (fun u p J T => AI (map i_id l) u p J T /\ forall p, LT T p)); intros u p J T [X _]; eapply A_E; eauto|]. intros ?.
    eapply t_bind with (R := fun _ => onw (AI (map i_id l))).
    { apply o_write. intros u p J T [(H1 & H2 & H3 & H4 & H5) HL]. split; auto. split; auto. split; auto.
      eapply (dis_sub u (map i_id p)). eapply dis_perm; [|exact H3]. simpl. rewrite app_nil_r. rewrite app_assoc. apply Permutation_app_comm. }
    intros ?. eapply t_bind with (R := fun l0 => onw (fun u p J T => AI (map i_id l) u p J T /\ l0 = l)); [apply t_ret; intros w (X1 & X2 & X3); split; auto|]. intros l0.
    intros w (X1 & X2 & X3 & ->). revert w X1 X2 X3. cut (triple (onw (AI (map i_id l))) (submit_all l ;; ea_loop o out restart max_n pop_size f None n) (fun _ => onw (AI [])) EEi).
    { intros H w X1 X2 X3. apply H. split; auto. }
    eapply t_bind; [apply submit_all_t|]. intros ?. apply IH.
Qed.
End EA.

(** The whole run. *)
Lemma ea_turns o out restart max_n pop_size start lists nw events r uid stop x w (D : Prop) m : out < length lists ->
  m <= nw + 2 -> m <= length (nth start (set_nth out [] lists) []) ->
  (D -> NoDup (map i_id (nth start (set_nth out [] lists) [])) /\ forall n, In n (map i_id (nth start (set_nth out [] lists) [])) -> n < uid) ->
  async_ea o out restart max_n pop_size start (start_world lists nw events r uid stop) = (x, w) ->
  each (estep o pop_size m D) (w_trace w) /\ match x with Ok a => a = out /\ LT o pop_size (w_trace w) (list_at out w) | Err _ => True end.
Proof.
  intros HO MN MS HD E. set (w0 := start_world lists nw events r uid stop) in *. set (S0 := nth start (set_nth out [] lists) []) in *.
  assert (G : forall f, triple (fun w => w = w0) (ea_loop o out restart max_n pop_size (S f) (Some (Given start)) 0 ;; ret out)
    (fun a w => a = out /\ onw out nw (AI o pop_size m D []) w) (EEi o pop_size m D)).
  { intros f. eapply t_bind with (R := fun _ => onw out nw (AI o pop_size m D [])); [|intros ?; apply t_ret; auto].
    change (ea_loop o out restart max_n pop_size (S f) (Some (Given start)) 0) with
      (tick ;; write out [] ;; l <- read start ;; submit_all l ;; ea_loop o out restart max_n pop_size f None 0).
    set (P := fun w => w_n w = nw /\ w_lists w = lists /\ w_uid w = uid /\ w_jobs w = [] /\ w_trace w = []).
    eapply t_pre with (P' := P); [intros w1 ->; repeat split|].
    eapply t_bind with (R := fun _ => P).
    { intros w1 H. unfold tick. destruct (w_stop w1) as [[[|k] e]|]; auto. unfold EEi. simpl. destruct H as (_ & _ & _ & _ & ->). apply each_nil. }
    intros ?. eapply t_bind with (R := fun _ w => w_n w = nw /\ w_lists w = set_nth out [] lists /\ w_uid w = uid /\ w_jobs w = [] /\ w_trace w = []).
    { intros w1 (H1 & H2 & H3 & H4 & H5). simpl. rewrite H2. auto. }
    intros ?. eapply t_bind with (R := fun l w => l = S0 /\ onw out nw (AI o pop_size m D (map i_id S0)) w).
    { intros w1 (H1 & H2 & H3 & H4 & H5). simpl. split; [rewrite H2; auto|]. split; auto. rewrite H2, length_set_nth, H3, H4, H5, nth_set_nth by auto. split; auto. split; [reflexivity|]. split; [rewrite map_length; simpl; lia|].
      split; [intros d; simpl; rewrite app_nil_r; auto|]. split; [apply LT_nil|apply each_nil]. }
    intros l w1 [-> Hw1]. revert w1 Hw1. change (triple (onw out nw (AI o pop_size m D (map i_id S0))) (submit_all S0 ;; ea_loop o out restart max_n pop_size f None 0) (fun _ => onw out nw (AI o pop_size m D [])) (EEi o pop_size m D)).
    eapply t_bind; [apply submit_all_t; auto|]. intros ?. apply (loop_t o out restart max_n pop_size nw m D MN f 0). }
  assert (LV : forall f, leave (ea_loop o out restart max_n pop_size (S f) (Some (Given start)) 0 ;; ret out) w0 = (x, w) ->
    each (estep o pop_size m D) (w_trace w) /\ match x with Ok a => a = out /\ LT o pop_size (w_trace w) (list_at out w) | Err _ => True end).
  { intros f EL. specialize (G f w0 eq_refl). unfold leave in EL. destruct ((_ ;; ret out) w0) as [[a|e] w1]; inversion EL; subst; simpl.
    - destruct G as [-> (G1 & G2 & G3 & G4 & G5 & G6 & G7)]. auto.
    - split; auto. }
  unfold async_ea in E. destruct max_n as [k|].
  - destruct (Z.leb_spec k 0); [inversion E; subst; split; auto; apply each_nil|]. rewrite Nat.add_succ_r in E. eapply LV; eauto.
  - rewrite Nat.add_succ_r in E. eapply LV; eauto.
Qed.

(** * Elimination with individuals compared by id *)
Section Map.
Context {AI BI : Type} (h : AI -> BI) (va : AI -> list num) (vb : BI -> list num) (ea : AI -> AI -> bool) (eb : BI -> BI -> bool) (P : AI -> Prop).
Hypothesis HV : forall x, P x -> va x = vb (h x).
Hypothesis HE : forall x y, ea x y = eb (h x) (h y).
Lemma scan_map v l : Forall P l -> scan vb v (map h l) = option_map (map h) (scan va v l).
Proof.
  induction l as [|x l IH]; intros F; simpl; auto. rewrite <- (HV x) by (apply (Forall_inv F)). destruct (all_le v (va x)); auto.
  rewrite IH by (apply (Forall_inv_tail F)). destruct (scan va v l); auto. simpl. destruct (all_le (va x) v); auto.
Qed.
Lemma remove_first_map x l : remove_first (fun y => eb y (h x)) (map h l) = option_map (map h) (remove_first (fun y => ea y x) l).
Proof. induction l as [|y l IH]; simpl; auto. rewrite HE. destruct (eb (h y) (h x)); auto. rewrite IH. destruct (remove_first _ l); auto. Qed.
Lemma remove_all_map tr : forall l, remove_all eb (map h tr) (map h l) = match remove_all ea tr l with Ok l' => Ok (map h l') | Err e => Err e end.
Proof. induction tr as [|x tr IH]; intros l; simpl; auto. rewrite remove_first_map. destruct (remove_first _ l); simpl; auto. Qed.
Lemma remove_all_incl tr : forall l l', remove_all ea tr l = Ok l' -> incl l' l.
Proof.
  induction tr as [|x tr IH]; intros l l' H; simpl in H; [injection H as <-; apply incl_refl|].
  destruct (remove_first (fun y => ea y x) l) as [l1|] eqn:E; [|discriminate]. apply IH in H. eapply incl_tran; [exact H|].
  apply remove_first_split in E as (a & y & b & -> & -> & _). intros z Hz. apply in_app_or in Hz. apply in_or_app. simpl. tauto.
Qed.
Lemma update_map l x : Forall P l -> P x -> update vb eb (fun _ => false) (map h l) (h x) = (let (l', b) := update va ea (fun _ => false) l x in (map h l', b)) /\
  Forall P (fst (update va ea (fun _ => false) l x)).
Proof.
  intros F FX. unfold update. destruct l as [|y l]; [simpl; auto|]. cbn [map].
  change (h y :: map h l) with (map h (y :: l)). rewrite <- (HV y) by (apply (Forall_inv F)). rewrite <- (HV x) by auto. destruct (_ =? _); [|auto].
  rewrite (scan_map (va x) (y :: l) F). destruct (scan va (va x) (y :: l)) as [tr|]; cbn [option_map]; [|auto].
  rewrite remove_all_map. destruct (remove_all ea tr (y :: l)) as [l'|e] eqn:El; [|auto]. cbn [fst]. rewrite map_app. split; auto.
  apply Forall_app. split; auto. apply remove_all_incl in El. rewrite Forall_forall in *. auto.
Qed.
Lemma updates_map items : forall l, Forall P l -> Forall P items -> updates vb eb (fun _ => false) (map h l) (map h items) =
  match updates va ea (fun _ => false) l items with Ok l' => Ok (map h l') | Err e => Err e end.
Proof.
  induction items as [|x items IH]; intros l F FI; simpl; auto. destruct (update_map l x F (Forall_inv FI)) as [E1 E2]. rewrite E1.
  destruct (update va ea (fun _ => false) l x) as [l' [b|e]]; auto. apply IH; auto. apply (Forall_inv_tail FI).
Qed.
End Map.

Definition fit_of (pop : list ind) (n : nat) : list num := match find (fun i => i_id i =? n) pop with Some i => fitness i | None => [] end.
Lemma fit_of_in pop i : NoDup (map i_id pop) -> In i pop -> fitness i = fit_of pop (i_id i).
Proof.
  intros N Hi. unfold fit_of. destruct (find (fun j => i_id j =? i_id i) pop) as [j|] eqn:E.
  - apply find_some in E as [E1 E2]. apply Nat.eqb_eq in E2. assert (j = i); [|congruence].
    clear - N Hi E1 E2. induction pop as [|a pop IH]; [destruct Hi|]. simpl in N. inversion N; subst. destruct Hi as [->|Hi], E1 as [->|E1]; auto.
    + exfalso. apply H1. rewrite <- E2. apply in_map; auto.
    + exfalso. apply H1. rewrite E2. apply in_map; auto.
  - apply (find_none _ _ E) in Hi. apply Nat.eqb_neq in Hi. congruence.
Qed.
From Verif Require Import Par_Spec Par_Main.
Lemma eliminate_worst pop k r x rest r' : NoDup (map i_id pop) -> (forall y, In y pop -> length (fitness y) = k) -> pop <> [] ->
  eliminate ind_eqb fitness pop 1 r = (Ok (x :: rest), r') -> In x pop /\ forall y, In y pop -> ~ pareto_dominates (fitness x) (fitness y).
Proof.
  intros N HA NE E. destruct (eliminate_id pop k r HA NE) as (x0 & r0 & E0 & HX). rewrite E0 in E. injection E as <- <- <-. split; auto.
  destruct (C25_eliminate_main nat Nat.eqb (fit_of pop) (map i_id pop) k r) as (n & r1 & E1 & I1 & H1).
  - intros a b. apply Nat.eqb_eq.
  - intros n Hn. apply in_map_iff in Hn as (y & <- & Hy). rewrite <- fit_of_in; auto.
  - destruct pop; [congruence|discriminate].
  - assert (n = i_id x0).
    { revert E0 E1. unfold eliminate. simpl Z.eqb. cbv iota.
      pose proof (updates_map i_id (fun i => map nopp (fitness i)) (fun n => map nopp (fit_of pop n)) ind_eqb Nat.eqb (fun i => In i pop)
        ltac:(intros y Hy; cbv beta; rewrite (fit_of_in pop y); auto) ltac:(reflexivity) pop [] ltac:(constructor) ltac:(apply Forall_forall; auto)) as U.
      change (map i_id []) with (@nil nat) in U. rewrite U. destruct (updates (fun i => map nopp (fitness i)) ind_eqb _ [] pop) as [f|e]; [|discriminate].
      unfold rchoice. destruct f as [|f0 fs]; [discriminate|]. simpl map. destruct (draw r) as [d r2]. change (i_id f0 :: map i_id fs) with (map i_id (f0 :: fs)). rewrite map_length, nth_error_map.
      destruct (nth_error (f0 :: fs) _) as [z|]; [|discriminate]. simpl. congruence. }
    subst n. intros y Hy. rewrite (fit_of_in pop x0), (fit_of_in pop y) by auto. apply H1. apply in_map; auto.
Qed.

From Verif Require Import Base Num Num_Proofs Nsga_Model Search_Model Search_Spec Search_Proofs.
Require Import Permutation.
Open Scope nat_scope.

Lemma each_nil P : each P [].
Proof. intros t1 x t2 E. destruct t1; discriminate. Qed.
Lemma each_snoc (P : list item -> item -> Prop) t x : each P t -> P t x -> each P (t ++ [x]).
Proof. intros H H2 t1 y t2 E. apply snoc_split in E as [(-> & -> & ->)|(t2' & -> & ->)]; auto. eapply H. reflexivity. Qed.
Lemma results_app r t t' : results_on r (t ++ t') = results_on r t ++ results_on r t'.
Proof. apply flat_map_app. Qed.
Lemma promoted_app r t t' : promoted_from r (t ++ t') = promoted_from r t ++ promoted_from r t'.
Proof. apply flat_map_app. Qed.

(** * max over a set *)
Lemma remove_nth_perm {A} i (l : list A) x : nth_error l i = Some x -> Permutation l (x :: remove_nth i l).
Proof.
  revert i. induction l as [|y l IH]; intros [|i] H; simpl in *; try discriminate; [injection H as ->; auto|].
  rewrite (IH i H) at 1. apply perm_swap.
Qed.
Lemma rsample_all {A} : forall n (l : list A) r, length l = n -> exists xs r', rsample n l r = (Ok xs, r') /\ Permutation l xs.
Proof.
  induction n as [|n IH]; intros l r L.
  - destruct l; [|discriminate]. exists [], r. auto.
  - destruct l as [|a l]; [discriminate|]. set (LL := a :: l) in *. cbn [rsample]. unfold LL at 1. destruct (draw r) as [d r1].
    destruct (nth_error LL (d mod length LL)) as [x|] eqn:En.
    2:{ apply nth_error_None in En. pose proof (Nat.mod_upper_bound d (length LL) ltac:(lia)). lia. }
    pose proof (remove_nth_perm _ _ _ En) as P. destruct (IH (remove_nth (d mod length LL) LL) r1) as (xs & r' & E & P2).
    { apply Permutation_length in P. apply eq_add_S. rewrite <- L. symmetry. exact P. }
    fold LL. rewrite E. simpl. exists (x :: xs), r'. split; auto. rewrite P. constructor. auto.
Qed.
Lemma py_max_in : forall l best, In (py_max best l) (best :: l).
Proof.
  induction l as [|x l IH]; intros best; simpl; auto. destruct (IH (if nltb (fst best) (fst x) then x else best)) as [H|H]; auto.
  rewrite <- H. destruct (nltb _ _); auto.
Qed.
Lemma py_max_best : forall l best, (forall x, In x (best :: l) -> fst x <> NaN) -> forall x, In x (best :: l) -> nle (fst x) (fst (py_max best l)).
Proof.
  induction l as [|y l IH]; intros best HN x Hx.
  - destruct Hx as [<-|[]]. simpl. apply nle_refl. apply HN. simpl; auto.
  - simpl. set (b := if nltb (fst best) (fst y) then y else best).
    assert (HB : nle (fst best) (fst b) /\ nle (fst y) (fst b)).
    { unfold b. destruct (nltb (fst best) (fst y)) eqn:E.
      - split; [apply nlt_nle; auto|apply nle_refl, HN; simpl; auto].
      - split; [apply nle_refl, HN; simpl; auto|]. apply not_lt_nle; try (apply HN; simpl; auto). intros X. unfold nlt in X. congruence. }
    assert (HN' : forall z, In z (b :: l) -> fst z <> NaN).
    { intros z [<-|Hz]; [unfold b; destruct (nltb _ _); apply HN; simpl; auto|apply HN; simpl; auto]. }
    pose proof (IH b HN' b (or_introl eq_refl)) as Hb.
    destruct Hx as [<-|[<-|Hx]]; [eapply nle_trans; [apply HB|auto]|eapply nle_trans; [apply HB|auto]|]. apply IH; auto. right; auto.
Qed.
Lemma set_max_ok s r : s <> [] -> exists x r', set_max s r = (Ok x, r') /\ In x s /\
  ((forall y, In y s -> fst y <> NaN) -> forall y, In y s -> nle (fst y) (fst x)).
Proof.
  intros NE. unfold set_max. destruct (rsample_all (length s) s r eq_refl) as (xs & r' & E & P). rewrite E. simpl.
  destruct xs as [|x xs]; [apply Permutation_sym, Permutation_nil in P; congruence|].
  exists (py_max x xs), r'. split; auto. split.
  - eapply Permutation_in; [symmetry; exact P|]. apply py_max_in.
  - intros HN y Hy. apply py_max_best; [|eapply Permutation_in; eauto]. intros z Hz. apply HN. eapply Permutation_in; [symmetry; exact P|]; auto.
Qed.

Lemma same_num_refl a : same_num a a = true.
Proof. destruct a; simpl; auto. apply Qeq_bool_iff. reflexivity. Qed.
Lemma entry_refl x : entry_eqb x x = true.
Proof. unfold entry_eqb, ind_eqb. rewrite same_num_refl, Nat.eqb_refl. auto. Qed.
Lemma entry_same x y : entry_eqb x y = true <-> same_entry x y.
Proof.
  unfold entry_eqb, same_entry, ind_eqb. rewrite andb_true_iff, Nat.eqb_eq. destruct (fst x), (fst y); cbn [same_num neqb]; rewrite ?Qeq_bool_iff; intuition congruence.
Qed.
Lemma entry_other x y : entry_eqb x y = false <-> ~ same_entry x y.
Proof. rewrite <- entry_same. destruct (entry_eqb x y); intuition congruence. Qed.
Lemma dedup_incl l : incl (dedup l) l.
Proof.
  induction l as [|x l IH]; simpl; [apply incl_refl|]. intros y [<-|Hy]; simpl; auto. apply filter_In in Hy as [Hy _]. right. auto.
Qed.
Lemma same_num_fst a b : same_num a b = true -> (a = NaN <-> b = NaN) /\ (forall c, nleb a c = nleb b c).
Proof.
  destruct a, b; simpl; try discriminate; intros H; (split; [split; congruence|]); auto.
  intros c. destruct c; simpl; auto. apply Qeq_bool_iff in H. apply eq_true_iff_eq. rewrite !Qle_bool_iff. rewrite H. reflexivity.
Qed.
Lemma dedup_covers l x : In x l -> exists y, In y (dedup l) /\ entry_eqb y x = true.
Proof.
  induction l as [|z l IH]; simpl; [intros []|]. intros [<-|H]; [exists z; split; auto; apply entry_refl|].
  destruct (IH H) as (y & Hy & E). destruct (entry_eqb z x) eqn:Ez; [exists z; auto|].
  exists y. split; auto. right. apply filter_In. split; auto. apply negb_true_iff. destruct (entry_eqb z y) eqn:Ezy; auto. exfalso.
  assert (T : forall a b c, entry_eqb a b = true -> entry_eqb b c = true -> entry_eqb a c = true).
  { clear. unfold entry_eqb, ind_eqb. intros [a i] [b j] [c k]. simpl. rewrite !andb_true_iff, !Nat.eqb_eq. intros [A1 A2] [B1 B2]. split; [|congruence].
    destruct a, b, c; simpl in *; try discriminate; auto. rewrite Qeq_bool_iff in *. rewrite A1. auto. }
  rewrite (T _ _ _ Ezy E) in Ez. discriminate.
Qed.
Lemma not_promoted_spec r x : In x (not_promoted r) -> In x (r_inds r) /\ forall y, In y (r_prom r) -> entry_eqb x y = false.
Proof.
  unfold not_promoted. intros H. apply dedup_incl in H. apply filter_In in H as [H1 H2]. split; auto.
  intros y Hy. apply negb_true_iff in H2. destruct (entry_eqb x y) eqn:E; auto. rewrite <- H2. symmetry. apply existsb_exists. eauto.
Qed.

(** * Triples over rungs, jobs and trace *)
Definition ona (K : list rung -> list job -> list item -> Prop) (w : world) : Prop := K (w_rungs w) (w_jobs w) (w_trace w).
Section Rules.
Context (K : list rung -> list job -> list item -> Prop) (E : exn -> world -> Prop).
Lemma a_tick : (forall e w, ona K w -> E e w) -> triple (ona K) tick (fun _ => ona K) E.
Proof. intros H w Hw. unfold tick. destruct (w_stop w) as [[[|k] e]|]; simpl; auto; apply H; auto. Qed.
Lemma a_random {A} (f : rng -> res A * rng) : (forall e w, ona K w -> E e w) -> triple (ona K) (random f) (fun _ => ona K) E.
Proof. intros H w Hw. unfold random. destruct (f (w_rng w)) as [[a|e] r]; simpl; auto. Qed.
Lemma a_fresh : triple (ona K) fresh (fun _ => ona K) E.
Proof. intros w Hw. simpl. auto. Qed.
Lemma a_read a : triple (ona K) (read a) (fun _ => ona K) E.
Proof. intros w Hw. simpl. auto. Qed.
Lemma a_write a l : triple (ona K) (write a l) (fun _ => ona K) E.
Proof. intros w Hw. simpl. auto. Qed.
Lemma a_get : triple (ona K) get_rungs (fun l => ona (fun R J T => K R J T /\ l = R)) E.
Proof. intros w Hw. simpl. split; auto. Qed.
Lemma a_put l (K' : list rung -> list job -> list item -> Prop) : (forall R J T, K R J T -> K' l J T) -> triple (ona K) (put_rungs l) (fun _ => ona K') E.
Proof. intros H w Hw. simpl. eapply H. exact Hw. Qed.
Lemma a_note t (K' : list rung -> list job -> list item -> Prop) : (forall R J T, K R J T -> K' R J (T ++ [t])) -> triple (ona K) (note t) (fun _ => ona K') E.
Proof. intros H w Hw. simpl. apply H. exact Hw. Qed.
Lemma a_submit i r q (K' : list rung -> list job -> list item -> Prop) : (forall R J T, K R J T -> K' R (J ++ [mkJob i r]) (T ++ [TSubmit i r q])) ->
  triple (ona K) (submit i r q) (fun _ => ona K') E.
Proof. intros H w Hw. simpl. apply H. exact Hw. Qed.
Lemma a_wait (K' : ind * option nat * outcome -> list rung -> list job -> list item -> Prop) :
  (forall e w, ona K w -> E e w) ->
  (forall j J1 J2 R T oc, K R (J1 ++ j :: J2) T -> K' (result_ind j oc, j_rung j, oc) R (J1 ++ J2) (T ++ [TDone (result_ind j oc) (j_rung j) oc])) ->
  (forall x w e, ona (K' x) w -> E e w) ->
  triple (ona K) wait_next (fun x => ona (K' x)) E.
Proof.
  intros H1 H2 H3 w Hw. unfold wait_next. destruct (w_jobs w) as [|j0 js] eqn:EJ; auto. destruct (w_events w) as [|e es]; auto.
  set (k := e_pick e mod length (j0 :: js)). assert (Hk : k < length (j0 :: js)) by (apply Nat.mod_upper_bound; discriminate).
  set (d := mkJob (mkI 0 None None) None). set (j := nth k (j0 :: js) d).
  assert (S1 : j0 :: js = firstn k (j0 :: js) ++ j :: skipn (S k) (j0 :: js) /\ remove_nth k (j0 :: js) = firstn k (j0 :: js) ++ skipn (S k) (j0 :: js)).
  { unfold j. clearbody k. generalize (j0 :: js) Hk. clear. intros l Hk. revert k Hk. induction l as [|x l IH]; intros k Hk; [simpl in Hk; lia|].
    destruct k as [|k]; simpl; auto. simpl in Hk. destruct (IH k ltac:(lia)) as [A B]. split; [rewrite A at 1; auto|]. simpl in B |- *. rewrite B. auto. }
  destruct S1 as [S1 S2]. unfold ona in Hw. rewrite EJ, S1 in Hw. specialize (H2 j _ _ _ _ (e_out e) Hw). rewrite <- S2 in H2.
  assert (H2' : ona (K' (result_ind j (e_out e), j_rung j, e_out e))
    (mkW (w_lists w) (remove_nth k (j0 :: js)) (w_n w) es (w_rng w) (w_uid w) (w_stop w) (w_rungs w) (w_trace w ++ [TDone (result_ind j (e_out e)) (j_rung j) (e_out e)]))) by exact H2.
  destruct (e_out e) as [|s f] eqn:EO; [exact H2'|]. destruct (e_callback e); [|exact H2']. eapply H3. exact H2'.
Qed.
End Rules.

Section Asha.
Context (o : ops) (eta : nat) (min_res max_res : Q) (first_rung : nat) (max_rung : Z) (start : nat).
Notation rung_numbers := (rung_numbers first_rung max_rung).
Notation resource := (resource eta min_res max_res).

(** One event of a run, after the events [t]. *)
Definition asha_step (t : list item) (x : item) : Prop :=
  match x with
  | TSubmit i r q => exists n, r = Some n /\ q = Some (resource n) /\ In n rung_numbers /\
      ((n = first_rung /\ forall t0 m e a b, t <> t0 ++ [TPromote m e a b]) \/
       exists m t0 e a b, n = S m /\ t = t0 ++ [TPromote m e a b] /\ snd e = i)
  | TPromote r e inds prom =>
      In r rung_numbers /\ In (S r) rung_numbers /\ inds = results_on r t /\ prom = promoted_from r t /\
      In e inds /\ (forall y, In y prom -> entry_eqb e y = false) /\ S (length prom) <= length inds / eta /\
      ((forall y, In y inds -> fst y <> NaN) -> forall y, In y inds -> (forall z, In z prom -> entry_eqb y z = false) -> nle (fst y) (fst e)) /\
      (forall t0 m e a b, t <> t0 ++ [TPromote m e a b])
  | TDone i r oc => (exists n i0 q, r = Some n /\ In (TSubmit i0 r q) t /\ i_id i0 = i_id i) /\ (forall t0 m e a b, t <> t0 ++ [TPromote m e a b])
  | _ => False
  end.
Definition exact (R : list rung) (T : list item) : Prop :=
  map r_no R = rev rung_numbers /\ Forall (fun r => r_inds r = results_on (r_no r) T /\ r_prom r = promoted_from (r_no r) T) R.
Definition jobs_ok (J : list job) (T : list item) : Prop :=
  forall j, In j J -> exists n q, j_rung j = Some n /\ In n rung_numbers /\ In (TSubmit (j_ind j) (Some n) q) T.
Definition calm_end (T : list item) : Prop := forall t0 m e a b, T <> t0 ++ [TPromote m e a b].
Definition I (R : list rung) (J : list job) (T : list item) : Prop := exact R T /\ jobs_ok J T /\ each asha_step T /\ calm_end T.
(** the last result was not recorded *)
Definition I1 (R : list rung) (T : list item) : Prop :=
  exists T' i r oc, T = T' ++ [TDone i r oc] /\ exact R T' /\ each asha_step T.
Definition EI (_ : exn) (w : world) : Prop :=
  (exact (w_rungs w) (w_trace w) /\ each asha_step (w_trace w)) \/ I1 (w_rungs w) (w_trace w).
Lemma I_EI e w : ona I w -> EI e w.
Proof. intros (A & B & C & D). left. auto. Qed.

Lemma exact_quiet R T x : (match x with TDone _ (Some _) (Evaluated (_ :: _) _) | TPromote _ _ _ _ => False | _ => True end) -> exact R T -> exact R (T ++ [x]).
Proof.
  intros Q [H1 H2]. split; auto. rewrite Forall_forall in *. intros r Hr. rewrite results_app, promoted_app.
  destruct (H2 r Hr) as [-> ->]. destruct x as [| |i [q|] [|[|s ss] f]| |]; simpl in *; try tauto; rewrite !app_nil_r; auto.
Qed.
Lemma map_set_rung r R : map r_no (set_rung r R) = map r_no R.
Proof. unfold set_rung. rewrite map_map. apply map_ext. intros x. destruct (Nat.eqb_spec (r_no x) (r_no r)); auto. Qed.

Lemma tl_rungs : forall r, In r (tl (rev rung_numbers)) -> In r rung_numbers /\ In (S r) rung_numbers.
Proof.
  unfold Search_Model.rung_numbers. set (n := Z.to_nat (max_rung + 1 - Z.of_nat first_rung)). intros r H. destruct n as [|n]; [destruct H|].
  rewrite seq_S, rev_app_distr in H. simpl in H. apply in_rev in H. apply in_seq in H. split; apply in_seq; lia.
Qed.

Definition pending (i : ind) (n : nat) (T : list item) : Prop := exists m t0 e a b, n = S m /\ T = t0 ++ [TPromote m e a b] /\ snd e = i.
Lemma promote_ok : forall (l all : list rung), incl l (tl all) ->
  triple (ona (fun R J T => I R J T /\ R = all)) (promote_from eta l)
   (fun x => ona (fun R J T => match x with None => I R J T /\ R = all
                                       | Some (i, n) => exact R T /\ jobs_ok J T /\ each asha_step T /\ In n rung_numbers /\ pending i n T end)) EI.
Proof.
  induction l as [|r l IH]; intros all HI; cbn [promote_from].
  - apply t_ret. auto.
  - assert (HI' : incl l (tl all)) by (intros x Hx; apply HI; right; auto).
    destruct (Nat.ltb_spec (length (r_prom r)) (length (r_inds r) / eta)) as [HL|HL]; [|apply IH; auto].
    destruct (not_promoted r) as [|y0 ys] eqn:ENP; [apply IH; auto|]. rewrite <- ENP.
    intros w Hw. unfold bind at 1. unfold random. destruct (set_max_ok (not_promoted r) (w_rng w)) as (x & r' & E & HX & HM); [rewrite ENP; discriminate|].
    rewrite E. set (w1 := mkW (w_lists w) (w_jobs w) (w_n w) (w_events w) r' (w_uid w) (w_stop w) (w_rungs w) (w_trace w)).
    assert (Hw1 : ona (fun R J T => I R J T /\ R = all) w1) by exact Hw. clearbody w1. revert w1 Hw1. clear w Hw r' E.
    change (triple (ona (fun R J T => I R J T /\ R = all))
      (all0 <- get_rungs;; note (TPromote (r_no r) x (r_inds r) (r_prom r));; put_rungs (set_rung (mkRung (r_no r) (r_inds r) (r_prom r ++ [x])) all0);; tick;; ret (Some (snd x, S (r_no r))))
      (fun x => ona (fun R J T => match x with None => I R J T /\ R = all
                                       | Some (i, n) => exact R T /\ jobs_ok J T /\ each asha_step T /\ In n rung_numbers /\ pending i n T end)) EI).
    eapply t_bind; [apply a_get|]. intros all0.
    set (K2 := fun R J T => R = all /\ all0 = all /\ exists T', T = T' ++ [TPromote (r_no r) x (r_inds r) (r_prom r)] /\ exact R T' /\ jobs_ok J T' /\ each asha_step T).
    eapply t_bind with (R := fun _ => ona K2).
    { apply a_note. intros R J T [[(H1 & H2 & H3 & H4) HR] HA]. subst R. subst all0. split; auto. split; auto. exists T. split; auto. split; auto. split; auto.
      apply each_snoc; auto. destruct H1 as [N1 N2].
      assert (Hr : In r all). { specialize (HI r (or_introl eq_refl)). destruct all; [destruct HI|right; auto]. }
      assert (Hrn : In (r_no r) (tl (rev rung_numbers))).
      { rewrite <- N1. specialize (HI r (or_introl eq_refl)). destruct all; [destruct HI|]. simpl in *. apply in_map; auto. }
      rewrite Forall_forall in N2. destruct (N2 r Hr) as [E1 E2]. destruct (tl_rungs _ Hrn) as [T1 T2].
      destruct (not_promoted_spec r x HX) as [P1 P2]. do 7 (split; auto). split; [|exact H4]. intros HN y Hy Hz.
      assert (Yf : In y (filter (fun x => negb (existsb (entry_eqb x) (r_prom r))) (r_inds r))).
      { apply filter_In. split; auto. apply negb_true_iff. destruct (existsb (entry_eqb y) (r_prom r)) eqn:EX; auto. apply existsb_exists in EX as (z & Z1 & Z2). rewrite Hz in Z2; auto. }
      destruct (dedup_covers _ _ Yf) as (y' & Y1 & Y2). unfold entry_eqb in Y2. apply andb_true_iff in Y2 as [Y2 _].
      apply same_num_fst in Y2 as [_ Y2]. unfold nle. rewrite <- Y2. apply HM; auto.
      intros u Hu. apply HN. apply not_promoted_spec in Hu. tauto. }
    intros ?. set (K3 := fun R J T => exact R T /\ jobs_ok J T /\ each asha_step T /\ In (S (r_no r)) rung_numbers /\ pending (snd x) (S (r_no r)) T).
    eapply t_bind with (R := fun _ => ona K3).
    { apply a_put. intros R J T (H1 & H2 & T' & H3 & H4 & H5 & H6). subst R all0. unfold K3. split; [|split; [|split; [|split]]]; auto.
      - destruct H4 as [N1 N2]. split; [rewrite map_set_rung; auto|]. rewrite Forall_forall in *. intros z Hz. unfold set_rung in Hz. apply in_map_iff in Hz as (z0 & <- & Hz0).
        cbn [r_no]. rewrite H3, results_app, promoted_app. simpl. destruct (Nat.eqb_spec (r_no z0) (r_no r)) as [En|En]; cbn [r_no r_inds r_prom].
        + assert (Hr : In r all). { specialize (HI r (or_introl eq_refl)). destruct all; [destruct HI|right; auto]. }
          destruct (N2 r Hr) as [E1 E2]. rewrite Nat.eqb_refl, E2, app_nil_r. auto.
        + destruct (N2 z0 Hz0) as [E1 E2]. destruct (Nat.eqb_spec (r_no r) (r_no z0)); [congruence|]. rewrite !app_nil_r. auto.
      - intros j Hj. destruct (H5 j Hj) as (n & q & J1 & J2 & J3). exists n, q. split; auto. split; auto. rewrite H3. apply in_or_app; auto.
      - specialize (H6 T' _ [] H3). apply H6.
      - exists (r_no r), T', x, (r_inds r), (r_prom r). auto. }
    intros ?. eapply t_bind with (R := fun _ => ona K3).
    { apply a_tick. intros e w (H1 & H2 & H3 & _). left. auto. }
    intros ?. apply t_ret. intros w Hw. exact Hw.
Qed.

Lemma get_job_ok : triple (ona I) (get_job o eta first_rung start)
  (fun x => ona (fun R J T => exact R T /\ jobs_ok J T /\ each asha_step T /\ ((snd x = first_rung /\ calm_end T) \/ In (snd x) rung_numbers /\ pending (fst x) (snd x) T))) EI.
Proof.
  unfold get_job. eapply t_bind; [apply a_get|]. intros all. eapply t_bind.
  { eapply t_weak; [| | |apply (promote_ok (tl all) all); apply incl_refl].
    - intros w [H1 H2]. split; auto.
    - intros a w H. exact H.
    - auto. }
  intros [[i n]|].
  - apply t_ret. intros w (H1 & H2 & H3 & H4 & H5). repeat (split; auto).
  - eapply t_pre with (P' := ona I); [intros w [Hw _]; exact Hw|]. eapply t_bind; [apply a_read|]. intros l.
    assert (FIN : forall i w, ona I w -> ona (fun R J T => exact R T /\ jobs_ok J T /\ each asha_step T /\
        ((snd (i, first_rung) = first_rung /\ calm_end T) \/ In (snd (i : ind, first_rung)) rung_numbers /\ pending (fst (i, first_rung)) (snd (i, first_rung)) T)) w).
    { intros i w (H1 & H2 & H3 & H4). repeat (split; auto). }
    destruct (rev l) as [|i l'].
    + eapply t_bind with (R := fun _ => ona I); [|intros i; apply t_ret; apply FIN].
      unfold new_individual. eapply t_bind; [apply a_random; apply I_EI|]. intros ?. apply a_fresh.
    + eapply t_bind; [apply a_write|]. intros ?. eapply t_bind; [apply a_tick; apply I_EI|]. intros ?. apply t_ret. apply FIN.
Qed.

Lemma start_job_ok : triple (ona I) (start_new_job o eta min_res max_res first_rung max_rung start) (fun _ => ona I) EI.
Proof.
  unfold start_new_job. eapply t_bind; [apply a_tick; apply I_EI|]. intros ?. eapply t_bind; [apply get_job_ok|]. intros [i n]. cbn [fst snd].
  assert (KE : forall e w, ona (fun R J T => exact R T /\ jobs_ok J T /\ each asha_step T /\ (n = first_rung /\ calm_end T \/ In n rung_numbers /\ pending i n T)) w -> EI e w).
  { intros e w (H1 & H2 & H3 & _). left. auto. }
  destruct (existsb (Nat.eqb n) rung_numbers) eqn:EX; [|apply t_fail; apply KE].
  apply existsb_exists in EX as (n' & HN & En). apply Nat.eqb_eq in En. subst n'.
  eapply t_bind; [apply a_tick; apply KE|]. intros ?. apply a_submit. intros R J T (H1 & H2 & H3 & H4). split; [|split; [|split]].
  - apply exact_quiet; auto.
  - intros j Hj. apply in_app_or in Hj as [Hj|[<-|[]]].
    + destruct (H2 j Hj) as (m & q & J1 & J2 & J3). exists m, q. split; auto. split; auto. apply in_or_app; auto.
    + exists n, (Some (resource n)). split; auto. split; auto. apply in_or_app. simpl. auto.
  - apply each_snoc; auto. exists n. repeat (split; auto). destruct H4 as [[H4 H5]|[H4 H5]]; auto.
  - intros t0 m e aa b E. apply app_inj_tail in E as [_ E]. discriminate.
Qed.
Lemma start_jobs_ok n : triple (ona I) (start_jobs o eta min_res max_res first_rung max_rung start n) (fun _ => ona I) EI.
Proof. induction n as [|n IH]; cbn [start_jobs]; [apply t_ret; auto|]. eapply t_bind; [apply start_job_ok|]. intros ?. exact IH. Qed.

Definition after (x : ind * option nat * outcome) (R : list rung) (J : list job) (T : list item) : Prop :=
  match x with (i, r, oc) => exists T' n, T = T' ++ [TDone i r oc] /\ exact R T' /\ jobs_ok J T' /\ each asha_step T /\ r = Some n /\ In n rung_numbers end.
Lemma after_EI x w e : ona (after x) w -> EI e w.
Proof.
  destruct x as [[i r] oc]. intros (T' & n & H1 & H2 & H3 & H4 & _). right. exists T', i, r, oc. auto.
Qed.
Lemma wait_asha : triple (ona I) wait_next (fun x => ona (after x)) EI.
Proof.
  apply a_wait.
  - apply I_EI.
  - intros j J1 J2 R T oc (H1 & H2 & H3 & H4). destruct (H2 j) as (n & q & E1 & E2 & E3); [apply in_or_app; simpl; auto|].
    exists T, n. split; auto. split; auto. split; [intros j' Hj'; apply H2; apply in_app_or in Hj'; apply in_or_app; simpl; tauto|]. split; auto.
    apply each_snoc; auto. split; auto. exists n, (j_ind j), q. split; auto. rewrite E1. split; auto. destruct oc; auto.
  - intros x w e Hw. eapply after_EI; eauto.
Qed.
Lemma record_ok x : triple (ona (after x)) (record_result x) (fun _ => ona I) EI.
Proof.
  destruct x as [[i r] oc]. unfold record_result.
  assert (NOREC : forall w, ona (after (i, r, oc)) w -> (match r, oc with Some _, Evaluated (_ :: _) _ => False | _, _ => True end) -> ona I w).
  { intros w (T' & n & H1 & H2 & H3 & H4 & H5 & H6) Q. unfold ona, I. rewrite H1. split; [|split; [|split]].
    - apply exact_quiet; auto.
    - intros j Hj. destruct (H3 j Hj) as (m & q & J1 & J2 & J3). exists m, q. split; auto. split; auto. apply in_or_app; auto.
    - rewrite <- H1. auto.
    - intros t0 m e aa b E. apply app_inj_tail in E as [_ E]. discriminate. }
  destruct r as [r|]; [|apply t_ret; intros w Hw; apply NOREC; auto].
  destruct oc as [|s f]; [apply t_ret; intros w Hw; apply NOREC; auto|]. destruct s as [|loss s].
  - apply t_fail. intros w Hw. eapply after_EI; eauto.
  - eapply t_bind; [apply a_tick; intros e w Hw; eapply after_EI; eauto|]. intros ?. eapply t_bind; [apply a_get|]. intros all.
    destruct (find (fun y => r_no y =? r) all) as [y|] eqn:EF.
    2:{ apply t_fail. intros w [Hw _]. eapply after_EI; eauto. }
    apply find_some in EF as [Fy Ey]. apply Nat.eqb_eq in Ey.
    apply a_put. intros R J T [(T' & n & H1 & H2 & H3 & H4 & H5 & H6) ->]. subst T. split; [|split; [|split]]; auto.
    + destruct H2 as [N1 N2]. split; [rewrite map_set_rung; auto|]. rewrite Forall_forall in *. intros z Hz. unfold set_rung in Hz. apply in_map_iff in Hz as (z0 & <- & Hz0).
      cbn [r_no]. rewrite results_app, promoted_app. destruct (Nat.eqb_spec (r_no z0) r) as [En|En]; cbn [r_no r_inds r_prom].
      * destruct (N2 y Fy) as [E1 E2]. rewrite E1, E2. simpl. rewrite Ey, Nat.eqb_refl, ?app_nil_r. auto.
      * destruct (N2 z0 Hz0) as [E1 E2]. simpl. destruct (Nat.eqb_spec r (r_no z0)); [congruence|]. rewrite !app_nil_r. auto.
    + intros j Hj. destruct (H3 j Hj) as (m & q & J1 & J2 & J3). exists m, q. split; auto. split; auto. apply in_or_app; auto.
    + intros t0 m e aa b E. apply app_inj_tail in E as [_ E]. discriminate.
Qed.
Definition done (max_full : option Z) (R : list rung) : Prop := top_full max_rung max_full R = Ok true.
Lemma asha_loop_ok max_full fuel : triple (ona I) (asha_loop o eta min_res max_res first_rung max_rung start max_full fuel)
  (fun _ => ona (fun R J T => I R J T /\ done max_full R)) EI.
Proof.
  induction fuel as [|fuel IH]; cbn [asha_loop]; [apply t_fail; apply I_EI|]. eapply t_bind; [apply a_get|]. intros all.
  destruct (top_full max_rung max_full all) as [[|]|e] eqn:ET.
  - apply t_ret. intros w [Hw ->]. split; auto.
  - eapply t_pre with (P' := ona I); [intros w [Hw _]; exact Hw|]. eapply t_bind; [apply a_tick; apply I_EI|]. intros ?.
    eapply t_bind; [apply wait_asha|]. intros x. eapply t_bind; [apply record_ok|]. intros ?. eapply t_bind; [apply start_job_ok|]. intros ?. exact IH.
  - apply t_fail. intros w [Hw _]. apply I_EI. exact Hw.
Qed.
Lemma exact_empty : exact (empty_rungs first_rung max_rung) [].
Proof.
  split; [unfold empty_rungs; rewrite map_map; simpl; apply map_id|]. unfold empty_rungs. rewrite Forall_forall. intros r Hr. apply in_map_iff in Hr as (n & <- & _). auto.
Qed.
(** The state when the try statement ends. *)
Definition asha_run (max_full : option Z) (w : world) : res unit * world :=
  leave (start_jobs o eta min_res max_res first_rung max_rung start 8 ;; tick ;; asha_loop o eta min_res max_res first_rung max_rung start max_full (length (w_events w) + 1))
   (mkW (w_lists w) (w_jobs w) (w_n w) (w_events w) (w_rng w) (w_uid w) (w_stop w) (empty_rungs first_rung max_rung) (w_trace w)).
Lemma asha_run_ok max_full lists nw events r uid stop :
  match asha_run max_full (start_world lists nw events r uid stop) with
  | (Ok _, w) => exact (w_rungs w) (w_trace w) /\ each asha_step (w_trace w) /\ done max_full (w_rungs w)
  | (Err e, w) => EI e w
  end.
Proof.
  unfold asha_run, leave. cbn [w_lists w_jobs w_n w_events w_rng w_uid w_stop w_trace start_world].
  set (w0 := mkW lists [] nw events r uid stop (empty_rungs first_rung max_rung) []).
  assert (G : triple (ona I) (start_jobs o eta min_res max_res first_rung max_rung start 8 ;; tick ;; asha_loop o eta min_res max_res first_rung max_rung start max_full (length events + 1))
     (fun _ => ona (fun R J T => I R J T /\ done max_full R)) EI).
  { eapply t_bind; [apply start_jobs_ok|]. intros ?. eapply t_bind; [apply a_tick; apply I_EI|]. intros ?. apply asha_loop_ok. }
  specialize (G w0). assert (I0 : ona I w0).
  { split; [apply exact_empty|]. split; [intros j []|]. split; [apply each_nil|]. intros t0 m e a b E. destruct t0; discriminate. }
  specialize (G I0). destruct ((start_jobs o eta min_res max_res first_rung max_rung start 8 ;; tick ;; asha_loop o eta min_res max_res first_rung max_rung start max_full (length events + 1)) w0) as [[[]|e] w1].
  - destruct G as [(G1 & G2 & G3 & G4) G5]. auto.
  - destruct G as [G|G]; [left|right]; exact G.
Qed.
End Asha.

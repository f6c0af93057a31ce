(** C148: random search. *)
Require Import Permutation.
From Verif Require Import Base Num Nsga_Model Gp_Model Gp_Spec Gp_Proofs Gp_Proofs2 Gp_Proofs3 Gp_Proofs4 Gp_Main
  Evo_Model Evo_Spec Evo_Proofs Evo_Proofs2 Rnd_Model Rnd_Spec Rnd_Proofs.
Open Scope nat_scope.
Open Scope list_scope.

Section Random.
Context (ps : pset) (mx : option Z) (start : list individual).
Definition rs_allowed (t : list hitem) (i : individual) (r : nat) : Prop :=
  r = 0 /\ (In i start \/ (is_new i /\ forall j, seen t j -> i_id j < i_id i)).
Notation RInv := (Inv ps mx rs_allowed).
Definition once (w : hst) : Prop := NoDup (map i_id start) -> NoDup (map key (started (q_trace w))).
Definition in_order (w : hst) : Prop := exists l, map fst (started (q_trace w)) = start ++ l /\ Forall is_new l.
Definition out_ok (w : hst) : Prop := q_out w = results (q_trace w).

Lemma once_snoc (t : list hitem) i r : NoDup (map key (started t)) -> ~ In (i_id i) (map i_id (map fst (started t))) -> NoDup (map key (started (t ++ [Started i r]))).
Proof.
  intros ND N. rewrite started_app, map_app. simpl. apply Permutation_NoDup with (l := key (i, r) :: map key (started t)); [apply Permutation_cons_append|].
  constructor; auto. intros H. apply N. apply in_map_iff in H as ([j r'] & E & H). injection E as E _. simpl in E. rewrite <- E.
  apply in_map, in_map_iff. exists (j, r'). auto.
Qed.
Lemma started_seen t j : In j (map fst (started t)) -> seen t j.
Proof. intros H. apply in_map_iff in H as ([j' r'] & <- & H). apply in_started in H. exists r'. auto. Qed.

Lemma each_inv l : forall w, RInv w -> Forall (good ps mx (q_st w)) l -> incl l start ->
  (NoDup (map i_id start) -> NoDup (map key (started (q_trace w)) ++ map key (map (fun i => (i, 0)) l))) -> out_ok w ->
  exists w', submit_each l w = (Ok tt, w') /\ RInv w' /\ once w' /\ out_ok w' /\ length (q_jobs w') = length (q_jobs w) + length l /\ finished (q_trace w') = finished (q_trace w)
    /\ q_out w' = q_out w /\ map fst (started (q_trace w')) = map fst (started (q_trace w)) ++ l.
Proof.
  induction l as [|i l IH]; intros w I G IN ND O.
  { exists w. split; auto. split; auto. split; [|split; [auto|split; [simpl; lia|split; [auto|split; [auto|rewrite app_nil_r; auto]]]]]. intros H. specialize (ND H). rewrite app_nil_r in ND. auto. }
  inversion G as [|? ? G1 G2]; subst. cbn [submit_each]. unfold hbind. destruct (hsubmit i 0 w) as [x w1] eqn:E1.
  destruct (submit_inv ps mx rs_allowed w i 0 I G1 (conj eq_refl (or_introl (IN i (or_introl eq_refl)))) x w1 E1) as (I1 & -> & T1 & J1 & S1 & _ & _ & O1).
  destruct (IH w1) as (w2 & E2 & I2 & N2 & O2 & J2 & F2 & O3 & P2); auto.
  - rewrite S1. auto.
  - intros j Hj. apply IN. simpl. auto.
  - intros H. specialize (ND H). rewrite T1, started_app, map_app, <- app_assoc. exact ND.
  - unfold out_ok in *. rewrite O1, O, T1, results_app, app_nil_r. auto.
  - exists w2. split; auto. split; auto. split; auto. split; auto. rewrite J2, J1, app_length, F2, T1, finished_app, O3. simpl. rewrite app_nil_r. split; [lia|]. split; auto. split; auto. rewrite P2, T1, started_app, map_app, <- app_assoc. auto.
Qed.

(** one turn *)
Definition rs_turn (e : event) : MH unit :=
  x <+ hwait e ;; (match x with (i, _, Evaluated scores _) => append_output (mkMem i scores) | _ => hret tt end) ;;+
  i <+ hgp (op_individual ps mx) ;; hsubmit i 0.
Lemma rs_turn_inv e w x w' : RInv w -> once w -> out_ok w -> rs_turn e w = (x, w') ->
  RInv w' /\ once w' /\ out_ok w' /\ (in_order w -> in_order w') /\
  match x with
  | Ok _ => length (q_jobs w') = length (q_jobs w) /\ length (finished (q_trace w')) = S (length (finished (q_trace w))) /\
      length (q_out w') = length (q_out w) + (if was_evaluated e then 1 else 0)
  | Err ex => (ex = RuntimeError /\ q_jobs w = []) \/ creation_error ps mx ex
  end.
Proof.
  intros I N O H. unfold rs_turn in H. unfold hbind at 1 in H. destruct (hwait e w) as [y w1] eqn:E1.
  destruct (wait_inv_h ps mx rs_allowed w e y w1 I E1) as (I1 & _ & _ & O1 & U1 & Hy).
  destruct y as [[[i r] o]|ex].
  2:{ injection H as <- <-. destruct Hy as (-> & J & ->). auto 12. }
  destruct Hy as (-> & T1 & J1 & _).
  assert (N1 : once w1). { intros ND. rewrite T1, started_app, app_nil_r. auto. }
  assert (H2 : exists w2, (match (i, r, e_out e) with (i, _, Evaluated scores _) => append_output (mkMem i scores) | _ => hret tt end) w1 = (Ok tt, w2) /\ RInv w2 /\ once w2 /\ out_ok w2 /\
     q_trace w2 = q_trace w1 /\ q_jobs w2 = q_jobs w1 /\ q_st w2 = q_st w1 /\ length (q_out w2) = length (q_out w) + (if was_evaluated e then 1 else 0)).
  { unfold was_evaluated. destruct (e_out e) as [|sc f] eqn:EO.
    - exists w1. split; auto. split; auto. split; auto. split; [unfold out_ok in *; rewrite O1, O, T1, results_app, app_nil_r; auto|]. rewrite O1. simpl. auto.
    - eexists. split; [reflexivity|]. split; [apply (inv_rungs ps mx rs_allowed w1); auto|]. split; auto. simpl. split; [|rewrite O1, app_length; auto].
      unfold out_ok in *. simpl. rewrite O1, O, T1, results_app. auto. }
  destruct H2 as (w2 & E2 & I2 & N2 & O2 & T2 & J2 & S2 & L2).
  unfold hbind at 1 in H. rewrite E2 in H. unfold hbind at 1 in H. destruct (hgp (op_individual ps mx) w2) as [z w3] eqn:E3.
  destruct (new_inv ps mx rs_allowed w2 z w3 I2 E3) as (I3 & J3 & _ & _ & O3 & T3 & U3 & Hz).
  assert (N3 : once w3) by (unfold once; rewrite T3; auto).
  assert (O3' : out_ok w3) by (unfold out_ok in *; rewrite O3, T3; auto).
  assert (OR : in_order w -> in_order w3) by (unfold in_order; rewrite T3, T2, T1, started_app, app_nil_r; auto).
  destruct z as [i'|ex]; [|injection H as <- <-; auto 10].
  destruct Hz as (G & IN & UI).
  assert (LT : forall j, seen (q_trace w3) j -> i_id j < i_id i').
  { intros j Hj. rewrite T3 in Hj. pose proof (h_seen _ _ _ w2 I2 j Hj) as (Lt & _). lia. }
  destruct (submit_inv ps mx rs_allowed w3 i' 0 I3 G (conj eq_refl (or_intror (conj IN LT))) x w' H) as (I4 & -> & T4 & J4 & _ & _ & _ & O4).
  split; auto. split; [|split; [|split; [|split; [|split]]]].
  - intros ND. rewrite T4. apply once_snoc; [rewrite T3; apply N2; auto|]. intros Hin. apply in_map_iff in Hin as (j & Hj & Hin). apply started_seen, LT in Hin. lia.
  - unfold out_ok in *. rewrite O4, O3', T4, results_app, app_nil_r. auto.
  - intros OO. destruct (OR OO) as (l & K1 & K2). exists (l ++ [i']). rewrite T4, started_app, map_app, K1, <- app_assoc. split; auto. apply Forall_app. auto.
  - rewrite J4, app_length, J3, J2. simpl. lia.
  - rewrite T4, finished_app, app_nil_r, T3, T2, T1, finished_app, app_length. simpl. lia.
  - rewrite O4, O3. auto.
Qed.
Lemma rs_turns_step max_n e es w : rs_turns ps mx max_n (e :: es) w = if below max_n (length (q_out w)) then hbind (rs_turn e) (fun _ => rs_turns ps mx max_n es) w else (Ok tt, w).
Proof.
  cbn [rs_turns]. destruct (below max_n (length (q_out w))); auto. unfold rs_turn, hbind. destruct (hwait e w) as [[[[i r] o]|ex] w1]; auto.
  destruct (match o with Raised => hret tt | Evaluated scores _ => append_output (mkMem i scores) end w1) as [[[]|ex] w2]; auto.
  destruct (hgp (op_individual ps mx) w2) as [[i'|ex] w3]; auto.
Qed.
Lemma rs_turns_inv max_n es : forall w x w', RInv w -> once w -> out_ok w -> rs_turns ps mx max_n es w = (x, w') ->
  RInv w' /\ once w' /\ out_ok w' /\ (in_order w -> in_order w') /\
  (pset_rich ps -> allows_one mx -> q_jobs w <> [] ->
   length (q_jobs w') = length (q_jobs w) /\
   match max_n with
   | None => x = Err Diverges /\ length (finished (q_trace w')) = length (finished (q_trace w)) + length es
   | Some m => (x = Ok tt /\ (m <= Z.of_nat (length (q_out w')))%Z /\ ((Z.of_nat (length (q_out w)) <= m)%Z -> Z.of_nat (length (q_out w')) = m)) \/
       (x = Err Diverges /\ (Z.of_nat (length (q_out w')) < m)%Z /\ length (finished (q_trace w')) = length (finished (q_trace w)) + length es /\
        length (q_out w') = length (q_out w) + n_evaluated es)
   end).
Proof.
  induction es as [|e es IH]; intros w x w' I N O H.
  - cbn [rs_turns] in H. destruct (below max_n (length (q_out w))) eqn:EB.
    + destruct (q_jobs w) eqn:EJ; injection H as <- <-; (split; [auto|split; [auto|split; [auto|split; [auto|]]]]); intros _ _ NJ; [congruence|]. split; [rewrite EJ; auto|].
      destruct max_n as [m|]; [|split; auto; simpl; lia]. right. split; auto. simpl in EB. apply Z.ltb_lt in EB. split; auto.
    + injection H as <- <-. split; auto. split; auto. split; auto. split; auto. intros _ _ NJ. split; auto. destruct max_n as [m|]; [|discriminate].
      left. split; auto. simpl in EB. apply Z.ltb_ge in EB. split; [auto|lia].
  - rewrite rs_turns_step in H. destruct (below max_n (length (q_out w))) eqn:EB.
    2:{ injection H as <- <-. split; auto. split; auto. split; auto. split; auto. intros _ _ NJ. split; auto. destruct max_n as [m|]; [|discriminate].
        left. split; auto. simpl in EB. apply Z.ltb_ge in EB. split; [auto|lia]. }
    unfold hbind in H. destruct (rs_turn e w) as [y w1] eqn:E1. destruct (rs_turn_inv e w y w1 I N O E1) as (I1 & N1 & O1 & D1 & Hy).
    destruct y as [[]|ex].
    + destruct Hy as (J1 & F1 & L1). destruct (IH w1 x w' I1 N1 O1 H) as (I2 & N2 & O2 & D2 & R). split; auto. split; auto. split; auto. split; auto.
      intros R1 R2 NJ. assert (NJ1 : q_jobs w1 <> []) by (intros H0; rewrite H0 in J1; destruct (q_jobs w); [congruence|discriminate]).
      destruct (R R1 R2 NJ1) as (J2 & M). split; [congruence|]. destruct max_n as [m|].
      * simpl in EB. apply Z.ltb_lt in EB. destruct M as [(-> & M1 & M2)|(-> & M1 & M2 & M3)]; [left|right].
        -- split; auto. split; auto. intros _. apply M2. rewrite L1. destruct (was_evaluated e); lia.
        -- split; auto. split; auto. split; [simpl; lia|]. rewrite M3, L1. unfold n_evaluated. simpl. destruct (was_evaluated e); simpl; lia.
      * destruct M as (-> & M). split; auto. simpl. lia.
    + injection H as <- <-. split; auto. split; auto. split; auto. split; auto. intros R1 R2 NJ. exfalso. destruct Hy as [(_ & Hy)|Hy]; [congruence|]. eapply no_creation; eauto.
Qed.
Lemma random_search_inv max_n es s x w' : wf_heap (s_heap s) -> Forall (good ps mx s) start -> random_search ps mx max_n start es (fresh_h s) = (x, w') ->
  RInv w' /\ once w' /\ out_ok w' /\ in_order w' /\
  (pset_rich ps -> allows_one mx -> start <> [] ->
   length (q_jobs w') = length start /\
   match max_n with
   | None => x = Err Diverges /\ length (finished (q_trace w')) = length es
   | Some m => (x = Ok tt /\ (m <= Z.of_nat (length (q_out w')))%Z /\ ((0 <= m)%Z -> Z.of_nat (length (q_out w')) = m)) \/
       (x = Err Diverges /\ (Z.of_nat (length (q_out w')) < m)%Z /\ length (finished (q_trace w')) = length es /\ length (q_out w') = n_evaluated es)
   end).
Proof.
  intros W G H. unfold random_search, hbind in H.
  destruct (each_inv start (fresh_h s)) as (w1 & E1 & I1 & N1 & O1 & J1 & F1 & Q1 & P1); auto.
  - constructor; simpl; auto.
    + intros i (r & [[]|(o & [])]).
    + intros t1 i r t2 H0. destruct t1; discriminate.
    + intros t1 i r o t2 H0. destruct t1; discriminate.
  - apply incl_refl.
  - simpl. rewrite map_map. intros ND. assert (EQ : map (fun i => key (i, 0)) start = map (fun k => (k, 0)) (map i_id start)) by (rewrite map_map; auto).
    rewrite EQ. apply FinFun.Injective_map_NoDup; auto. intros a b E. congruence.
  - reflexivity.
  - rewrite E1 in H. destruct (rs_turns_inv max_n es w1 x w' I1 N1 O1 H) as (I2 & N2 & O2 & D2 & R). split; auto. split; auto. split; auto. split; [apply D2; exists []; rewrite P1, app_nil_r; auto|].
    intros R1 R2 NS. simpl in *. assert (NJ : q_jobs w1 <> []) by (intros H0; rewrite H0 in J1; destruct start; [congruence|discriminate]).
    destruct (R R1 R2 NJ) as (J2 & M). split; [congruence|]. rewrite F1, Q1 in M. simpl in M. exact M.
Qed.
End Random.

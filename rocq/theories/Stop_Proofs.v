(** Invariant and progress measure of the shutdown protocol. *)
From Verif Require Import Base Stop_Model Stop_Spec.
Require Import Lia.
Open Scope nat_scope.

Lemma phase_in p s x : phase_of p s = Some x -> In (p, x) (s_live s).
Proof.
  unfold phase_of. destruct (find _ _) as [[q y]|] eqn:F; [|discriminate]. apply find_some in F as [F E].
  cbn in E. apply Nat.eqb_eq in E. intros [= <-]. subst. exact F.
Qed.
Lemma phase_live p s : lives p s -> exists x, phase_of p s = Some x.
Proof.
  unfold lives, phase_of. intros H. apply in_map_iff in H as ((q & y) & <- & H). destruct (find _ _) as [w|] eqn:F; [eauto|].
  pose proof (find_none _ _ F _ H) as N. cbn in N. rewrite Nat.eqb_refl in N. discriminate.
Qed.
Lemma in_phase p s x : NoDup (map fst (s_live s)) -> In (p, x) (s_live s) -> phase_of p s = Some x.
Proof.
  intros ND H. destruct (phase_live p s) as (y & E); [apply in_map_iff; exists (p, x); auto|]. rewrite E. f_equal.
  apply phase_in in E. clear - ND H E. induction (s_live s) as [|[q z] l IH]; [destruct H|]. inversion ND as [|? ? N1 N2]; subst.
  destruct H as [H|H], E as [E|E]; auto.
  - congruence.
  - exfalso. injection H as -> ->. apply N1. apply in_map_iff. exists (p, y). auto.
  - exfalso. injection E as -> ->. apply N1. apply in_map_iff. exists (p, x). auto.
Qed.
Lemma set_phase_fst p x l : map fst (set_phase p x l) = map fst l.
Proof. unfold set_phase. rewrite map_map. apply map_ext. intros [q y]. cbn. destruct (Nat.eqb_spec q p); subst; reflexivity. Qed.
Lemma in_set_phase q y p x l : In (q, y) (set_phase p x l) <-> (q <> p /\ In (q, y) l) \/ (q = p /\ y = x /\ In p (map fst l)).
Proof.
  unfold set_phase. rewrite in_map_iff. split.
  - intros ((r & z) & E & H). cbn in E. destruct (Nat.eqb_spec r p); [|left; injection E as <- <-; auto].
    injection E as <- <-. subst. right. repeat split. apply in_map_iff. exists (p, z). auto.
  - intros [[N H]|(-> & -> & H)].
    + exists (q, y). cbn. destruct (Nat.eqb_spec q p); [congruence|auto].
    + apply in_map_iff in H as ((r & z) & <- & H). exists (r, z). cbn. rewrite Nat.eqb_refl. auto.
Qed.
Lemma in_without q y p l : In (q, y) (without p l) <-> q <> p /\ In (q, y) l.
Proof.
  unfold without. rewrite filter_In. cbn. destruct (Nat.eqb_spec q p); cbn; split; intros [A B]; split; auto; congruence.
Qed.
Lemma without_fst q p l : In q (map fst (without p l)) <-> q <> p /\ In q (map fst l).
Proof.
  rewrite !in_map_iff. split.
  - intros ((r & z) & <- & H). apply in_without in H as [N H]. split; [exact N|]. exists (r, z). auto.
  - intros [N ((r & z) & <- & H)]. exists (r, z). split; [reflexivity|]. apply in_without. auto.
Qed.
Lemma without_nodup p l : NoDup (map fst l) -> NoDup (map fst (without p l)).
Proof.
  induction l as [|[q y] l IH]; cbn; [auto|]. intros ND. inversion ND as [|? ? N1 N2]; subst.
  destruct (q =? p); cbn; auto. constructor; auto. intros K. apply without_fst in K as [_ K]. auto.
Qed.
Lemma in_filter_ne q p l : In q (filter (fun r => negb (r =? p)) l) <-> q <> p /\ In q l.
Proof. rewrite filter_In. destruct (Nat.eqb_spec q p); cbn; split; intros [A B]; split; auto; congruence. Qed.

(** * The invariant *)
Record Inv (s : st) : Prop := {
  i_nodup : NoDup (map fst (s_live s));
  i_procs : forall p, lives p s -> In p (s_procs s);
  i_next : forall p, In p (s_procs s) -> p < s_next s;
  i_in1 : forall p, In (p, HoldInput) (s_live s) -> s_ilock s = Some p;
  i_in2 : forall p, s_ilock s = Some p -> lives p s -> In (p, HoldInput) (s_live s);
  i_in3 : forall p, s_ilock s = Some p -> p < s_next s;
  i_c1 : forall p, In (p, HoldCommand) (s_live s) -> s_clock s = Some p;
  i_c2 : forall p, s_clock s = Some p -> lives p s -> In (p, HoldCommand) (s_live s);
  i_c3 : forall p, s_clock s = Some p -> p < s_next s;
  i_cleared : match s_main s with ClearOutput | ClearCommand | Reap | Left => s_input s = [] | _ => True end;
  i_slept : match s_main s with Inside | Stops _ => s_slept s = 0 | Waiting t => s_slept s = t /\ t <= s_limit s + 1 | _ => s_slept s <= s_limit s + 1 end;
  i_left : s_main s = Left -> s_procs s = [] }.

Lemma inv_entered n limit : Inv (entered n limit).
Proof.
  assert (F : map fst (map (fun p => (p, Top)) (seq 1 n)) = seq 1 n). { rewrite map_map. cbn. apply map_id. }
  assert (T : forall p x, In (p, x) (map (fun p => (p, Top)) (seq 1 n)) -> x = Top). { intros p x H. apply in_map_iff in H as (q & E & _). congruence. }
  constructor; cbn [entered s_main s_limit s_slept s_procs s_live s_next s_commands s_input s_output s_clock s_ilock s_started]; try discriminate; auto; unfold lives;
  cbn [entered s_main s_limit s_slept s_procs s_live s_next s_commands s_input s_output s_clock s_ilock s_started].
  - rewrite F. apply seq_NoDup.
  - rewrite F. auto.
  - intros p H. apply in_seq in H. lia.
  - intros p H. apply T in H. discriminate.
  - intros p H. apply T in H. discriminate.
Qed.

Ltac fields := cbn [s_main s_limit s_slept s_procs s_live s_next s_commands s_input s_output s_clock s_ilock s_started] in *.

(** a worker moves to another place *)
Lemma inv_worker p s : Inv s -> Inv (worker_step p s).
Proof.
  intros V. unfold worker_step. destruct (phase_of p s) as [x|] eqn:P; [|exact V].
  pose proof (phase_in _ _ _ P) as HIN. assert (LP : In p (map fst (s_live s))). { apply in_map_iff. exists (p, x). auto. }
  pose proof (i_procs s V p LP) as PP. pose proof (i_next s V p PP) as PN. destruct V as [ND PR NX A1 A2 A3 B1 B2 B3 CL SL LE].
  assert (U : forall y, In (p, y) (s_live s) -> y = x). { intros y H. apply in_phase in H; [|auto]. congruence. }
  unfold lives in *.
  assert (SET : forall y q, In q (map fst (set_phase p y (s_live s))) <-> In q (map fst (s_live s))).
  { intros. rewrite set_phase_fst. reflexivity. }
  destruct x.
  - destruct (s_clock s) as [h|] eqn:CK; constructor; fields; unfold lives; fields; try rewrite set_phase_fst; auto.
    + intros q H. apply in_set_phase in H as [[N H]|(-> & K & _)]; [auto|discriminate].
    + intros q E L. apply in_set_phase. left. destruct (Nat.eq_dec q p); [|split; auto]. subst. specialize (A2 _ E L). apply U in A2. discriminate.
    + intros q H. apply in_set_phase in H as [[N H]|(-> & K & _)]; [apply B1; auto|discriminate].
    + intros q E L. apply in_set_phase. left. destruct (Nat.eq_dec q p); [|split; auto; apply B2; auto]. subst. specialize (B2 _ E L). apply U in B2. discriminate.
    + intros q H. apply in_set_phase in H as [[N H]|(-> & K & _)]; [auto|discriminate].
    + intros q E L. apply in_set_phase. left. destruct (Nat.eq_dec q p); [|split; auto]. subst. specialize (A2 _ E L). apply U in A2. discriminate.
    + intros q H. apply in_set_phase in H as [[N H]|(-> & K & _)]; [|reflexivity]. apply B1 in H. discriminate.
    + intros q [= <-] L. apply in_set_phase. right. auto.
    + intros q [= <-]. auto.
  - assert (CK : s_clock s = Some p) by (apply B1; exact HIN).
    destruct (s_commands s) as [|c]; constructor; fields; unfold lives; fields; try rewrite set_phase_fst; auto; try discriminate.
    + intros q H. apply in_set_phase in H as [[N H]|(-> & K & _)]; [auto|discriminate].
    + intros q E L. apply in_set_phase. left. destruct (Nat.eq_dec q p); [|split; auto]. subst. specialize (A2 _ E L). apply U in A2. discriminate.
    + intros q H. apply in_set_phase in H as [[N H]|(-> & K & _)]; [|discriminate]. apply B1 in H. congruence.
    + apply without_nodup. auto.
    + intros q H. apply without_fst in H as [_ H]. auto.
    + intros q H. apply in_without in H as [N H]. auto.
    + intros q E L. apply without_fst in L as [N L]. apply in_without. auto.
    + intros q H. apply in_without in H as [N H]. apply B1 in H. congruence.
  - destruct (s_ilock s) as [h|] eqn:IK; constructor; fields; unfold lives; fields; try rewrite set_phase_fst; auto.
    + intros q H. apply in_set_phase in H as [[N H]|(-> & K & _)]; [apply A1; auto|discriminate].
    + intros q E L. apply in_set_phase. left. destruct (Nat.eq_dec q p); [|split; auto; apply A2; auto]. subst. specialize (A2 _ E L). apply U in A2. discriminate.
    + intros q H. apply in_set_phase in H as [[N H]|(-> & K & _)]; [auto|discriminate].
    + intros q E L. apply in_set_phase. left. destruct (Nat.eq_dec q p); [|split; auto]. subst. specialize (B2 _ E L). apply U in B2. discriminate.
    + intros q H. apply in_set_phase in H as [[N H]|(-> & K & _)]; [|reflexivity]. apply A1 in H. discriminate.
    + intros q [= <-] L. apply in_set_phase. right. auto.
    + intros q [= <-]. auto.
    + intros q H. apply in_set_phase in H as [[N H]|(-> & K & _)]; [auto|discriminate].
    + intros q E L. apply in_set_phase. left. destruct (Nat.eq_dec q p); [|split; auto]. subst. specialize (B2 _ E L). apply U in B2. discriminate.
  - assert (IK : s_ilock s = Some p) by (apply A1; exact HIN).
    destruct (s_input s) as [|j q0] eqn:IQ; constructor; fields; unfold lives; fields; try rewrite set_phase_fst; auto; try discriminate.
    + intros q H. apply in_set_phase in H as [[N H]|(-> & K & _)]; [|discriminate]. apply A1 in H. congruence.
    + intros q H. apply in_set_phase in H as [[N H]|(-> & K & _)]; [auto|discriminate].
    + intros q E L. apply in_set_phase. left. destruct (Nat.eq_dec q p); [|split; auto]. subst. specialize (B2 _ E L). apply U in B2. discriminate.
    + intros q H. apply in_set_phase in H as [[N H]|(-> & K & _)]; [|discriminate]. apply A1 in H. congruence.
    + intros q H. apply in_set_phase in H as [[N H]|(-> & K & _)]; [auto|discriminate].
    + intros q E L. apply in_set_phase. left. destruct (Nat.eq_dec q p); [|split; auto]. subst. specialize (B2 _ E L). apply U in B2. discriminate.
    + destruct (s_main s); auto; discriminate.
  - constructor; fields; unfold lives; fields; try rewrite set_phase_fst; auto.
    + intros q H. apply in_set_phase in H as [[N H]|(-> & K & _)]; [auto|discriminate].
    + intros q E L. apply in_set_phase. left. destruct (Nat.eq_dec q p); [|split; auto]. subst. specialize (A2 _ E L). apply U in A2. discriminate.
    + intros q H. apply in_set_phase in H as [[N H]|(-> & K & _)]; [auto|discriminate].
    + intros q E L. apply in_set_phase. left. destruct (Nat.eq_dec q p); [|split; auto]. subst. specialize (B2 _ E L). apply U in B2. discriminate.
Qed.
Lemma inv_gone p s : Inv s -> Inv (gone p s).
Proof.
  intros [ND PR NX A1 A2 A3 B1 B2 B3 CL SL LE]. constructor; unfold gone; fields; unfold lives in *; fields; auto.
  - apply without_nodup. auto.
  - intros q H. apply without_fst in H as [_ H]. auto.
  - intros q H. apply in_without in H as [_ H]. auto.
  - intros q E L. apply without_fst in L as [N L]. apply in_without. auto.
  - intros q H. apply in_without in H as [_ H]. auto.
  - intros q E L. apply without_fst in L as [N L]. apply in_without. auto.
Qed.
Lemma inv_stop p s : Inv s -> Inv (stop p s).
Proof.
  intros V. apply (inv_gone p) in V. destruct V as [ND PR NX A1 A2 A3 B1 B2 B3 CL SL LE].
  constructor; unfold stop, set_procs, gone in *; fields; unfold lives in *; fields; auto.
  - intros q H. apply in_filter_ne. split; [|auto]. apply without_fst in H as [N _]. exact N.
  - intros q H. apply in_filter_ne in H as [_ H]. auto.
  - intros E. rewrite (LE E). reflexivity.
Qed.
Lemma inv_start s : Inv s -> s_main s <> Left -> Inv (start s).
Proof.
  intros [ND PR NX A1 A2 A3 B1 B2 B3 CL SL LE] NL.
  assert (NEW : ~ In (s_next s) (map fst (s_live s))). { intros H. apply PR, NX in H. lia. }
  constructor; unfold start in *; fields; unfold lives in *; fields; auto; try rewrite map_app; cbn [map fst].
  - apply NoDup_Add with (a := s_next s) (l := map fst (s_live s)); [rewrite <- (app_nil_r (map fst (s_live s))) at 1; apply Add_app|]. auto.
  - intros q H. rewrite in_app_iff in *. destruct H as [H|[<-|[]]]; [left; auto|right; left; reflexivity].
  - intros q H. apply in_app_iff in H as [H|[<-|[]]]; [apply NX in H|]; lia.
  - intros q H. apply in_app_iff in H as [H|[H|[]]]; [auto|discriminate].
  - intros q E H. apply in_app_iff. left. apply A2; auto. apply in_app_iff in H as [H|[<-|[]]]; auto. apply A3 in E. lia.
  - intros q H. apply A3 in H. lia.
  - intros q H. apply in_app_iff in H as [H|[H|[]]]; [auto|discriminate].
  - intros q E H. apply in_app_iff. left. apply B2; auto. apply in_app_iff in H as [H|[<-|[]]]; auto. apply B3 in E. lia.
  - intros q H. apply B3 in H. lia.
  - intros E. congruence.
Qed.
Lemma inv_main s : Inv s -> Inv (main_step s).
Proof.
  intros V. unfold main_step. destruct (s_main s) eqn:M; auto.
  - destruct V as [ND PR NX A1 A2 A3 B1 B2 B3 CL SL LE]. rewrite M in *.
    destruct k; constructor; unfold set_main, set_queues; fields; auto; try discriminate. lia.
  - destruct V as [ND PR NX A1 A2 A3 B1 B2 B3 CL SL LE]. rewrite M in *.
    destruct (s_limit s + 1 <=? t) eqn:T; [|destruct (s_commands s =? 0)]; constructor; unfold set_main, set_queues, sleep; fields; auto; try discriminate; try lia.
    apply Nat.leb_gt in T. lia.
  - destruct V as [ND PR NX A1 A2 A3 B1 B2 B3 CL SL LE]. destruct (s_input s) as [|j q] eqn:IQ; [|destruct (s_ilock s) eqn:IK].
    + rewrite M in *. constructor; unfold set_main; fields; auto; discriminate.
    + constructor; auto; rewrite ?IK, ?M in *; auto.
    + rewrite M in *. constructor; unfold set_queues; fields; rewrite ?M, ?IK; auto; discriminate.
  - destruct V as [ND PR NX A1 A2 A3 B1 B2 B3 CL SL LE]. rewrite M in *.
    destruct (s_output s); constructor; unfold set_main, set_queues; fields; rewrite ?M; auto; discriminate.
  - pose proof V as V0. destruct V as [ND PR NX A1 A2 A3 B1 B2 B3 CL SL LE].
    destruct (s_commands s) as [|c]; [|destruct (s_clock s) eqn:CK]; [|exact V0|]; rewrite M in *; constructor; unfold set_main, set_queues; fields; rewrite ?M, ?CK; auto; discriminate.
  - destruct (s_procs s) eqn:PS; [|apply inv_stop; exact V]. destruct V as [ND PR NX A1 A2 A3 B1 B2 B3 CL SL LE]. rewrite M in *.
    constructor; unfold set_main; fields; rewrite ?PS in *; auto.
Qed.
Lemma inv_step a s : Inv s -> Inv (step a s).
Proof.
  intros V. destruct a; cbn [step]; try (destruct (s_main s) eqn:M; auto); try (apply inv_main; exact V); try (apply inv_worker; exact V); try (apply inv_gone; exact V).
  - destruct V as [ND PR NX A1 A2 A3 B1 B2 B3 CL SL LE]. rewrite M in *. constructor; unfold set_queues; fields; rewrite ?M; auto; discriminate.
  - destruct V as [ND PR NX A1 A2 A3 B1 B2 B3 CL SL LE]. rewrite M in *. constructor; unfold set_queues; fields; rewrite ?M; auto; discriminate.
  - destruct (existsb _ _); auto. destruct (again || _); [|apply inv_stop; exact V]. apply inv_start; [apply inv_stop; exact V|].
    unfold stop, set_procs, gone. fields. congruence.
  - destruct V as [ND PR NX A1 A2 A3 B1 B2 B3 CL SL LE]. rewrite M in *. constructor; unfold set_main; fields; auto; discriminate.
Qed.
Lemma run_app l l' s : run (l ++ l') s = run l' (run l s).
Proof. apply fold_left_app. Qed.
Lemma inv_run l : forall s, Inv s -> Inv (run l s).
Proof. induction l as [|a l IH]; intros s V; [exact V|]. apply IH. apply inv_step. exact V. Qed.
Lemma inv_reach n limit l : Inv (run l (entered n limit)).
Proof. apply inv_run, inv_entered. Qed.

(** * Progress of __exit__ *)
Definition rank (s : st) : nat :=
  let T := outstanding s in let i := length (s_input s) in let c := s_commands s in let p := length (s_procs s) in
  match s_main s with
  | Inside => 0
  | Stops k => (S k) + (s_limit s + 2) + (i + 1) + (T + 1) + (c + k + 1) + (p + 1)
  | Waiting t => (s_limit s + 2 - t) + (i + 1) + (T + 1) + (c + 1) + (p + 1)
  | ClearInput => (i + 1) + (T + 1) + (c + 1) + (p + 1)
  | ClearOutput => (T + 1) + (c + 1) + (p + 1)
  | ClearCommand => (c + 1) + (p + 1)
  | Reap => p + 1
  | Left => 0
  end.
Lemma busy_without p l : busy (without p l) <= busy l.
Proof.
  unfold busy, without. induction l as [|[q y] l IH]; cbn; [lia|]. destruct (q =? p); cbn; destruct y; cbn; lia.
Qed.
(** what a change of the place of [p] does to the number of busy workers *)
Definition b2n (x : wphase) : nat := match x with Running _ => 1 | _ => 0 end.
Lemma busy_cons p x l : busy ((p, x) :: l) = b2n x + busy l.
Proof. unfold busy. destruct x; reflexivity. Qed.
Lemma busy_set p x y l : NoDup (map fst l) -> In (p, x) l -> busy (set_phase p y l) + b2n x = busy l + b2n y.
Proof.
  induction l as [|[q z] l IH]; cbn [map fst]; [intros _ []|]. intros ND. inversion ND as [|? ? N1 N2]; subst.
  intros [E|H].
  - injection E as -> ->. cbn [set_phase map fst]. rewrite Nat.eqb_refl. fold (set_phase p y l).
    assert (SAME : set_phase p y l = l).
    { unfold set_phase. rewrite <- (map_id l) at 2. apply map_ext_in. intros [r w] Hr. cbn. destruct (Nat.eqb_spec r p); [|reflexivity].
      subst. exfalso. apply N1. apply in_map_iff. exists (p, w). auto. }
    rewrite SAME, !busy_cons. lia.
  - cbn [set_phase map fst]. fold (set_phase p y l). destruct (Nat.eqb_spec q p).
    + subst. exfalso. apply N1. apply in_map_iff. exists (p, x). auto.
    + rewrite !busy_cons. specialize (IH N2 H). lia.
Qed.
Lemma rank_worker p s : Inv s -> s_main s <> Inside -> rank (worker_step p s) <= rank s /\ s_main (worker_step p s) = s_main s.
Proof.
  intros V NI. unfold worker_step. destruct (phase_of p s) as [x|] eqn:P; [|auto]. pose proof (phase_in _ _ _ P) as HIN.
  pose proof (fun y => busy_set p x y (s_live s) (i_nodup s V) HIN) as B. pose proof (busy_without p (s_live s)) as BW.
  destruct x; cbn [b2n] in B.
  - pose proof (B HoldCommand) as B1. pose proof (B Between) as B2. cbn [b2n] in *.
    destruct (s_clock s); split; fields; auto; unfold rank, outstanding; fields; destruct (s_main s); lia.
  - pose proof (B Between) as B2. cbn [b2n] in *.
    destruct (s_commands s) eqn:C; split; fields; auto; unfold rank, outstanding; fields; rewrite C; destruct (s_main s); lia.
  - pose proof (B HoldInput) as B1. pose proof (B Top) as B2. cbn [b2n] in *.
    destruct (s_ilock s); split; fields; auto; unfold rank, outstanding; fields; destruct (s_main s); lia.
  - pose proof (B Top) as B1. destruct (s_input s) as [|j q] eqn:IQ.
    + cbn [b2n] in *. split; fields; auto; unfold rank, outstanding; fields; rewrite IQ; cbn [length]; destruct (s_main s); lia.
    + pose proof (B (Running j)) as B2. cbn [b2n] in *. split; fields; auto; unfold rank, outstanding; fields; rewrite IQ; cbn [length]; destruct (s_main s); lia.
  - pose proof (B Top) as B1. cbn [b2n] in *. split; fields; auto; unfold rank, outstanding; fields; rewrite app_length; cbn [length]; destruct (s_main s); lia.
Qed.
Lemma rank_gone p s : rank (gone p s) <= rank s /\ s_main (gone p s) = s_main s.
Proof. split; [|reflexivity]. pose proof (busy_without p (s_live s)). unfold rank, outstanding, gone. fields. destruct (s_main s); lia. Qed.
Lemma filter_shorter p l : length (filter (fun q => negb (q =? p)) l) <= length l.
Proof. induction l as [|x l IH]; cbn; [lia|]. destruct (x =? p); cbn; lia. Qed.
(** after every step of __exit__ that is not blocked it is closer to its end *)
Lemma rank_main s : Inv s -> s_main s <> Inside -> s_main s <> Left -> ~ blocked s -> rank (main_step s) < rank s.
Proof.
  intros V NI NL NB. unfold main_step. destruct (s_main s) eqn:M; try congruence.
  - destruct k; unfold set_main, set_queues, rank, outstanding; fields; rewrite M; lia.
  - pose proof (i_slept s V) as SL. rewrite M in SL.
    destruct (s_limit s + 1 <=? t) eqn:T; [|destruct (s_commands s =? 0)]; unfold set_main, sleep, set_queues, rank, outstanding; fields; rewrite M; try lia.
  - destruct (s_input s) as [|j q] eqn:IQ; [|destruct (s_ilock s) eqn:IK].
    + unfold set_main, rank, outstanding; fields. rewrite M, IQ. cbn. lia.
    + exfalso. apply NB. left. repeat split; auto; congruence.
    + unfold set_queues, rank, outstanding; fields. rewrite M, IQ. cbn. lia.
  - destruct (s_output s) as [|j q] eqn:OQ; unfold set_main, set_queues, rank, outstanding; fields; rewrite M, ?OQ; cbn; lia.
  - destruct (s_commands s) as [|c] eqn:C; [|destruct (s_clock s) eqn:CK].
    + unfold set_main, rank, outstanding; fields. rewrite M, C. lia.
    + exfalso. apply NB. right. repeat split; auto; congruence.
    + unfold set_queues, rank, outstanding; fields. rewrite M, C. lia.
  - destruct (s_procs s) as [|p ps] eqn:PS; unfold set_main, stop, set_procs, gone, rank; fields; rewrite M, PS; [lia|].
    cbn [filter length]. rewrite Nat.eqb_refl. cbn [negb]. pose proof (filter_shorter p ps). lia.
Qed.
Lemma rank_blocked s : blocked s -> main_step s = s.
Proof.
  intros [(M & I & L)|(M & I & L)]; unfold main_step; rewrite M.
  - destruct (s_input s); [congruence|]. destruct (s_ilock s); [reflexivity|congruence].
  - destruct (s_commands s); [congruence|]. destruct (s_clock s); [reflexivity|congruence].
Qed.
Lemma step_left a s : s_main s = Left -> s_main (step a s) = Left.
Proof.
  intros M. destruct a; cbn [step]; rewrite ?M; auto.
  - unfold main_step. rewrite M. exact M.
  - unfold worker_step. destruct (phase_of p s) as [[]|]; auto; [destruct (s_clock s)|destruct (s_commands s)|destruct (s_ilock s)|destruct (s_input s)]; auto.
Qed.
Lemma run_left l : forall s, s_main s = Left -> s_main (run l s) = Left.
Proof. induction l as [|a l IH]; intros s M; [exact M|]. apply IH, step_left, M. Qed.
Lemma main_outside s : Inv s -> s_main s <> Inside -> s_main (main_step s) <> Inside.
Proof.
  intros V NI. unfold main_step. destruct (s_main s) eqn:M; try congruence.
  - destruct k; discriminate.
  - destruct (_ <=? _); [discriminate|]. destruct (_ =? _); discriminate.
  - destruct (s_input s); [discriminate|]. destruct (s_ilock s); cbn; congruence.
  - destruct (s_output s); cbn; congruence.
  - destruct (s_commands s); [discriminate|]. destruct (s_clock s); cbn; congruence.
  - destruct (s_procs s); cbn; congruence.
Qed.
Lemma outside_step a s : Inv s -> s_main s <> Inside -> s_main (step a s) <> Inside.
Proof.
  intros V NI. destruct a; cbn [step]; try (destruct (s_main s) eqn:M; congruence).
  - apply main_outside; auto.
  - destruct (rank_worker p s V NI) as [_ ->]. exact NI.
  - exact NI.
Qed.
Lemma other_rank a s : Inv s -> s_main s <> Inside -> a <> Main -> rank (step a s) <= rank s.
Proof.
  intros V NI NM. destruct a; cbn [step]; try (destruct (s_main s) eqn:M; [congruence|reflexivity..]).
  - congruence.
  - apply rank_worker; auto.
  - apply rank_gone.
Qed.
(** The bound: [rank] counts the steps that are left. *)
Lemma exit_bounded l s n : exit_steps l s n -> Inv s -> s_main s <> Inside -> n > rank s -> s_main (run l s) = Left.
Proof.
  induction 1 as [s|l s n NB _ IH|l s n B _ IH|a l s n NM _ IH]; intros V NI G.
  - lia.
  - change (s_main (run l (step Main s)) = Left). destruct (s_main s) eqn:M; try congruence; try (apply IH; [apply inv_step; exact V|apply outside_step; auto; congruence|
      cbn [step]; assert (rank (main_step s) < rank s) by (apply rank_main; auto; congruence); lia]).
    apply run_left, step_left, M.
  - change (s_main (run l (step Main s)) = Left). apply IH; [apply inv_step; exact V|apply outside_step; auto|]. cbn [step]. rewrite rank_blocked; auto.
  - change (s_main (run l (step a s)) = Left). apply IH; [apply inv_step; exact V|apply outside_step; auto|].
    pose proof (other_rank a s V NI NM). lia.
Qed.

(** * The other counters *)
Record Inv2 (n limit : nat) (s : st) : Prop := {
  k_limit : s_limit s = limit;
  k_inside : s_main s = Inside -> s_commands s = 0;
  k_procs : length (s_procs s) <= n;
  k_some : n > 0 -> match s_main s with Reap | Left => True | _ => s_procs s <> [] end;
  k_nodup : NoDup (s_procs s) }.
Lemma worker_kept p s : s_limit (worker_step p s) = s_limit s /\ s_main (worker_step p s) = s_main s /\ s_procs (worker_step p s) = s_procs s /\ s_commands (worker_step p s) <= s_commands s /\ s_next (worker_step p s) = s_next s.
Proof.
  unfold worker_step. destruct (phase_of p s) as [[]|]; auto; [destruct (s_clock s)|destruct (s_commands s) eqn:C|destruct (s_ilock s)|destruct (s_input s)]; fields; repeat split; lia.
Qed.
Lemma filter_ne_nodup p l : NoDup l -> NoDup (filter (fun q => negb (q =? p)) l).
Proof. apply NoDup_filter. Qed.
Lemma filter_ne_in p l : In p l -> length (filter (fun q => negb (q =? p)) l) < length l.
Proof.
  induction l as [|x l IH]; cbn; [intros []|]. intros [->|H].
  - rewrite Nat.eqb_refl. cbn. pose proof (filter_shorter p l). lia.
  - specialize (IH H). destruct (x =? p); cbn; lia.
Qed.
Lemma filter_ne_two p l : NoDup l -> length l > 1 -> filter (fun q => negb (q =? p)) l <> [].
Proof.
  intros ND G E. destruct l as [|x [|y l]]; cbn [length] in G; try lia.
  inversion ND as [|? ? N1 _]; subst. destruct (Nat.eq_dec x p).
  - subst. assert (H : In y (filter (fun q => negb (q =? p)) (p :: y :: l))). { apply in_filter_ne. split; [intros ->; apply N1; left; reflexivity|right; left; reflexivity]. }
    rewrite E in H. destruct H.
  - assert (H : In x (filter (fun q => negb (q =? p)) (x :: y :: l))). { apply in_filter_ne. split; [auto|left; reflexivity]. }
    rewrite E in H. destruct H.
Qed.
Lemma inv2_step n limit a s : Inv s -> Inv2 n limit s -> Inv2 n limit (step a s).
Proof.
  intros V W. destruct a; cbn [step]. 1-4: (destruct (s_main s) eqn:M; try exact W).
  - destruct W as [W1 W2 W3 W4 W5]. rewrite M in *. constructor; unfold set_queues; fields; rewrite ?M; auto.
  - destruct W as [W1 W2 W3 W4 W5]. rewrite M in *. constructor; unfold set_queues; fields; rewrite ?M; auto.
  - destruct (existsb _ _) eqn:E; [|exact W]. apply existsb_exists in E as (q & Hq & E). apply Nat.eqb_eq in E. subst q.
    destruct W as [W1 W2 W3 W4 W5]. rewrite M in *. pose proof (filter_ne_in _ _ Hq) as FL.
    destruct (again || _) eqn:AG; constructor; unfold start, stop, set_procs, gone; fields; rewrite ?M; auto.
    + rewrite app_length. cbn. lia.
    + intros _ K. apply app_eq_nil in K as [_ K]. discriminate.
    + apply NoDup_Add with (a := s_next s) (l := filter (fun q => negb (q =? p)) (s_procs s)); [rewrite <- (app_nil_r (filter _ _)) at 1; apply Add_app|].
      split; [apply filter_ne_nodup; auto|]. intros K. apply in_filter_ne in K as [_ K]. apply (i_next s V) in K. lia.
    + lia.
    + intros _. apply filter_ne_two; auto. apply orb_false_iff in AG as [_ AG]. apply Nat.eqb_neq in AG. destruct (s_procs s); [destruct Hq|]. cbn in *. lia.
    + apply filter_ne_nodup. auto.
  - destruct W as [W1 W2 W3 W4 W5]. rewrite M in *. constructor; unfold set_main; fields; auto; discriminate.
  - unfold main_step. destruct (s_main s) eqn:M; auto.
    + destruct W as [W1 W2 W3 W4 W5]. rewrite M in *. destruct k; constructor; unfold set_main, set_queues; fields; auto; discriminate.
    + destruct W as [W1 W2 W3 W4 W5]. rewrite M in *. destruct (_ <=? _); [|destruct (_ =? _)]; constructor; unfold set_main, set_queues, sleep; fields; auto; discriminate.
    + destruct (s_input s) eqn:IQ; [|destruct (s_ilock s) eqn:IK; [exact W|]]; destruct W as [W1 W2 W3 W4 W5]; rewrite M in *; constructor; unfold set_main, set_queues; fields; rewrite ?M; auto; discriminate.
    + destruct (s_output s) eqn:OQ; destruct W as [W1 W2 W3 W4 W5]; rewrite M in *; constructor; unfold set_main, set_queues; fields; rewrite ?M; auto; discriminate.
    + destruct (s_commands s) eqn:C; [|destruct (s_clock s) eqn:CK; [exact W|]]; destruct W as [W1 W2 W3 W4 W5]; rewrite M in *; constructor; unfold set_main, set_queues; fields; rewrite ?M; auto; discriminate.
    + destruct (s_procs s) as [|p ps] eqn:PS; destruct W as [W1 W2 W3 W4 W5]; rewrite ?M, ?PS in *; constructor; unfold set_main, stop, set_procs, gone; fields; rewrite ?M, ?PS; auto; try discriminate.
      * pose proof (filter_shorter p (p :: ps)). lia.
      * apply filter_ne_nodup. auto.
  - destruct (worker_kept p s) as (K1 & K2 & K3 & K4 & _). destruct W as [W1 W2 W3 W4 W5]. constructor; rewrite ?K1, ?K2, ?K3; auto.
    intros E. specialize (W2 E). lia.
  - destruct W as [W1 W2 W3 W4 W5]. constructor; unfold gone; fields; auto.
Qed.
Lemma inv2_entered n limit : Inv2 n limit (entered n limit).
Proof.
  constructor; cbn; auto.
  - rewrite seq_length. lia.
  - intros G E. destruct n; [lia|discriminate].
  - apply seq_NoDup.
Qed.
Lemma inv2_run n limit l : forall s, Inv s -> Inv2 n limit s -> Inv2 n limit (run l s).
Proof. induction l as [|a l IH]; intros s V W; [exact W|]. apply IH; [apply inv_step; auto|apply inv2_step; auto]. Qed.
Lemma inv2_reach n limit l : Inv2 n limit (run l (entered n limit)).
Proof. apply inv2_run; [apply inv_entered|apply inv2_entered]. Qed.

(** * Locks *)
Lemma release_input p s : Inv s -> s_ilock s = Some p -> lives p s -> s_ilock (worker_step p s) = None.
Proof.
  intros V E L. pose proof (i_in2 s V p E L) as H. apply in_phase in H; [|apply V]. unfold worker_step. rewrite H. destruct (s_input s); reflexivity.
Qed.
Lemma release_command p s : Inv s -> s_clock s = Some p -> lives p s -> s_clock (worker_step p s) = None.
Proof.
  intros V E L. pose proof (i_c2 s V p E L) as H. apply in_phase in H; [|apply V]. unfold worker_step. rewrite H. destruct (s_commands s); reflexivity.
Qed.
Lemma lives_dec p s : lives p s \/ ~ lives p s.
Proof. unfold lives. destruct (in_dec Nat.eq_dec p (map fst (s_live s))); auto. Qed.
Lemma lock_holder lock s : ~ abandoned lock s -> lock = None \/ exists p, lock = Some p /\ lives p s.
Proof.
  intros N. destruct lock as [p|]; [|auto]. right. exists p. split; [reflexivity|]. destruct (lives_dec p s) as [L|L]; [exact L|].
  exfalso. apply N. exists p. auto.
Qed.
(** what a step of a worker does to the set of running processes *)
Lemma worker_lives p q s : Inv s -> lives q s -> lives q (worker_step p s) \/ (q = p /\ In (p, HoldCommand) (s_live s)).
Proof.
  intros V L. unfold worker_step. destruct (phase_of p s) as [x|] eqn:P; [|auto]. pose proof (phase_in _ _ _ P) as HIN. unfold lives in *.
  destruct x; [destruct (s_clock s)|destruct (s_commands s)|destruct (s_ilock s)|destruct (s_input s)|]; fields; rewrite ?set_phase_fst; auto.
  destruct (Nat.eq_dec q p); [right; subst; auto|]. left. apply without_fst. auto.
Qed.
Lemma worker_locks p s : Inv s -> (s_ilock (worker_step p s) = s_ilock s \/ s_ilock (worker_step p s) = None \/ (s_ilock (worker_step p s) = Some p /\ lives p (worker_step p s))) /\
  (s_clock (worker_step p s) = s_clock s \/ s_clock (worker_step p s) = None \/ (s_clock (worker_step p s) = Some p /\ lives p (worker_step p s))).
Proof.
  intros V. unfold worker_step. destruct (phase_of p s) as [x|] eqn:P; [|auto]. pose proof (phase_in _ _ _ P) as HIN.
  assert (LP : In p (map fst (s_live s))). { apply in_map_iff. exists (p, x). auto. } unfold lives.
  destruct x; [destruct (s_clock s)|destruct (s_commands s)|destruct (s_ilock s)|destruct (s_input s)|]; fields; rewrite ?set_phase_fst; auto.
Qed.
Lemma sound_worker p s : Inv s -> ~ abandoned (s_ilock s) s -> ~ abandoned (s_clock s) s ->
  ~ abandoned (s_ilock (worker_step p s)) (worker_step p s) /\ ~ abandoned (s_clock (worker_step p s)) (worker_step p s).
Proof.
  intros V NA NB. destruct (worker_locks p s V) as [A B]. split; intros (q & E & NL).
  - destruct A as [A|[A|[A A']]]; try congruence. rewrite A in E. destruct (lock_holder _ _ NA) as [X|(r & X & L)]; [congruence|].
    assert (r = q) by congruence. subst r. destruct (worker_lives p q s V L) as [K|(-> & K)]; [auto|].
    pose proof (i_in2 s V p X L) as K2. apply in_phase in K, K2; try apply V. congruence.
  - destruct B as [B|[B|[B B']]]; try congruence. rewrite B in E. destruct (lock_holder _ _ NB) as [X|(r & X & L)]; [congruence|].
    assert (r = q) by congruence. subst r. destruct (worker_lives p q s V L) as [K|(-> & K)]; [auto|].
    pose proof (release_command p s V X L) as R. congruence.
Qed.
(** * __exit__ can always go on to its end *)
Lemma reap_ends k : forall s, Inv s -> s_main s = Reap -> length (s_procs s) <= k -> exists l, ordinary l /\ s_main (run l s) = Left.
Proof.
  induction k as [|k IH]; intros s V M G.
  - exists [Main]. split; [intros a [<-|[]]; auto|]. cbn. unfold main_step. rewrite M. destruct (s_procs s); [reflexivity|cbn in G; lia].
  - destruct (s_procs s) as [|p ps] eqn:PS.
    + exists [Main]. split; [intros a [<-|[]]; auto|]. cbn. unfold main_step. rewrite M, PS. reflexivity.
    + destruct (IH (step Main s)) as (l & O & L).
      * apply inv_step. exact V.
      * cbn. unfold main_step. rewrite M, PS. exact M.
      * cbn [step]. unfold main_step. rewrite M, PS. unfold stop, set_procs, gone. fields. rewrite PS. cbn [filter]. rewrite Nat.eqb_refl. cbn [negb].
        pose proof (filter_shorter p ps). cbn in G. lia.
      * exists (Main :: l). split; [|exact L]. intros a [<-|H]; auto.
Qed.
Lemma main_sound s : s_main s <> Reap -> s_live (main_step s) = s_live s /\ s_ilock (main_step s) = s_ilock s /\ s_clock (main_step s) = s_clock s.
Proof.
  intros NR. unfold main_step. destruct (s_main s) eqn:M; auto.
  - destruct k; auto.
  - destruct (_ <=? _); [|destruct (_ =? _)]; auto.
  - destruct (s_input s); [|destruct (s_ilock s) eqn:E]; cbn; auto.
  - destruct (s_output s); auto.
  - destruct (s_commands s); [|destruct (s_clock s) eqn:E]; cbn; auto.
  - congruence.
Qed.
Lemma blocked_dec s : blocked s \/ ~ blocked s.
Proof.
  unfold blocked. destruct (s_main s); try (right; intros [(A & _)|(A & _)]; discriminate).
  - destruct (s_input s); [right; intros [(A & B & C)|(A & _)]; congruence|]. destruct (s_ilock s); [left; left; repeat split; congruence|].
    right; intros [(A & B & C)|(A & _)]; congruence.
  - destruct (s_commands s); [right; intros [(A & _)|(A & B & C)]; congruence|]. destruct (s_clock s); [left; right; repeat split; congruence|].
    right; intros [(A & _)|(A & B & C)]; congruence.
Qed.
Lemma exit_can_end k : forall s, Inv s -> s_main s <> Inside -> rank s <= k ->
  ~ abandoned (s_ilock s) s -> ~ abandoned (s_clock s) s -> exists l, ordinary l /\ s_main (run l s) = Left.
Proof.
  induction k as [|k IH]; intros s V NI G NA NB.
  - assert (s_main s = Left). { unfold rank in G. destruct (s_main s); try lia; congruence. } exists []. split; [intros a []|exact H].
  - assert (DEC : s_main s = Left \/ s_main s = Reap \/ (s_main s <> Left /\ s_main s <> Reap)). { destruct (s_main s); auto; right; right; split; discriminate. }
    destruct DEC as [M|[M|[NL NR]]]; [exists []; split; [intros a []|exact M]|eapply reap_ends; eauto|].
    assert (FREE : forall s', Inv s' -> s_main s' <> Inside -> s_main s' <> Left -> s_main s' <> Reap -> rank s' <= S k -> ~ blocked s' ->
       ~ abandoned (s_ilock s') s' -> ~ abandoned (s_clock s') s' -> exists l, ordinary l /\ s_main (run l s') = Left).
    { intros s' V' NI' NL' NR' G' F' NA' NB'. pose proof (rank_main s' V' NI' NL' F') as R. destruct (main_sound s' NR') as (K1 & K2 & K3).
      destruct (IH (step Main s')) as (l & O & L).
      - apply inv_step. exact V'.
      - apply outside_step; auto.
      - cbn [step]. lia.
      - cbn [step]. rewrite K2. unfold abandoned, lives. rewrite K1. exact NA'.
      - cbn [step]. rewrite K3. unfold abandoned, lives. rewrite K1. exact NB'.
      - exists (Main :: l). split; [intros a [<-|H]; auto|exact L]. }
    destruct (blocked_dec s) as [B|F]; [|apply FREE; auto].
    assert (HOLD : exists p, lives p s /\ ((s_main s = ClearInput /\ s_ilock s = Some p) \/ (s_main s = ClearCommand /\ s_clock s = Some p))).
    { destruct B as [(M & _ & H)|(M & _ & H)].
      - destruct (lock_holder _ _ NA) as [X|(p & X & L)]; [congruence|]. eauto.
      - destruct (lock_holder _ _ NB) as [X|(p & X & L)]; [congruence|]. eauto. }
    destruct HOLD as (p & LP & H). destruct (rank_worker p s V NI) as [R MM]. destruct (sound_worker p s V NA NB) as [NA' NB'].
    destruct (FREE (worker_step p s)) as (l & O & L); auto.
    + apply inv_worker. exact V.
    + congruence.
    + congruence.
    + congruence.
    + lia.
    + intros [(M & _ & X)|(M & _ & X)]; rewrite MM in M; destruct H as [[M' E]|[M' E]]; try congruence; apply X.
      * apply release_input; auto.
      * apply release_command; auto.
    + exists (Worker p :: l). split; [|exact L]. intros a [<-|K]; eauto.
Qed.
(** * An abandoned lock *)
Lemma lives_old p s a : Inv s -> p < s_next s -> ~ lives p s -> ~ lives p (step a s) /\ p < s_next (step a s).
Proof.
  intros V PN NL. destruct a; cbn [step]; try (destruct (s_main s) eqn:M; auto; fail).
  - destruct (s_main s); auto. destruct (existsb _ _); auto.
    assert (NS : ~ lives p (stop p0 s)). { unfold lives, stop, set_procs, gone. fields. intros K. apply without_fst in K as [_ K]. auto. }
    destruct (again || _); [|split; [exact NS|exact PN]]. split; [|unfold start, stop, set_procs, gone; fields; lia].
    unfold start, stop, set_procs, gone, lives in *. fields. rewrite map_app, in_app_iff. cbn. intros [K|[K|[]]]; [auto|lia].
  - split.
    + unfold main_step. destruct (s_main s); auto.
      * destruct k; auto.
      * destruct (_ <=? _); [|destruct (_ =? _)]; auto.
      * destruct (s_input s); [|destruct (s_ilock s)]; auto.
      * destruct (s_output s); auto.
      * destruct (s_commands s); [|destruct (s_clock s)]; auto.
      * destruct (s_procs s); auto. unfold lives, stop, set_procs, gone. fields. intros K. apply without_fst in K as [_ K]. auto.
    + unfold main_step. destruct (s_main s); auto.
      * destruct k; auto.
      * destruct (_ <=? _); [|destruct (_ =? _)]; auto.
      * destruct (s_input s); [|destruct (s_ilock s)]; auto.
      * destruct (s_output s); auto.
      * destruct (s_commands s); [|destruct (s_clock s)]; auto.
      * destruct (s_procs s); auto.
  - destruct (worker_kept p0 s) as (_ & _ & _ & _ & ->). split; [|exact PN]. intros K. apply NL. revert K. unfold worker_step, lives.
    destruct (phase_of p0 s) as [[]|]; auto; [destruct (s_clock s)|destruct (s_commands s)|destruct (s_ilock s)|destruct (s_input s)|]; fields; rewrite ?set_phase_fst; auto.
    intros K. apply without_fst in K as [_ K]. exact K.
  - split; [|exact PN]. unfold lives, gone. fields. intros K. apply without_fst in K as [_ K]. auto.
Qed.
Lemma keeps_ilock p s a : Inv s -> s_ilock s = Some p -> ~ lives p s -> s_ilock (step a s) = Some p /\ s_started (step a s) = s_started s.
Proof.
  intros V E NL. destruct a; cbn [step]; try (destruct (s_main s) eqn:M; auto; fail).
  - destruct (s_main s); auto. destruct (existsb _ _); auto. destruct (again || _); auto.
  - unfold main_step. destruct (s_main s); auto.
    + destruct k; auto.
    + destruct (_ <=? _); [|destruct (_ =? _)]; auto.
    + destruct (s_input s); auto. rewrite E. auto.
    + destruct (s_output s); auto.
    + destruct (s_commands s); [|destruct (s_clock s)]; auto.
    + destruct (s_procs s); auto.
  - unfold worker_step. destruct (phase_of p0 s) as [[]|] eqn:P; auto.
    + destruct (s_clock s); auto.
    + destruct (s_commands s); auto.
    + rewrite E. auto.
    + exfalso. apply phase_in in P. pose proof (i_in1 s V _ P) as K. rewrite E in K. injection K as <-. apply NL. apply in_map_iff. exists (p, HoldInput). auto.
Qed.
Lemma keeps_clock p s a : Inv s -> s_clock s = Some p -> ~ lives p s -> s_clock (step a s) = Some p /\ s_commands s <= s_commands (step a s).
Proof.
  intros V E NL. destruct a; cbn [step]; try (destruct (s_main s) eqn:M; auto; fail).
  - destruct (s_main s); auto. destruct (existsb _ _); auto. destruct (again || _); auto.
  - unfold main_step. destruct (s_main s); auto.
    + destruct k; cbn; auto.
    + destruct (_ <=? _); [|destruct (_ =? _)]; auto.
    + destruct (s_input s); auto. destruct (s_ilock s); auto.
    + destruct (s_output s); auto.
    + destruct (s_commands s) eqn:C; cbn; [rewrite C; auto|]. rewrite E. rewrite C. auto.
    + destruct (s_procs s); auto.
  - unfold worker_step. destruct (phase_of p0 s) as [[]|] eqn:P; auto.
    + rewrite E. auto.
    + exfalso. apply phase_in in P. pose proof (i_c1 s V _ P) as K. rewrite E in K. injection K as <-. apply NL. apply in_map_iff. exists (p, HoldCommand). auto.
    + destruct (s_ilock s); auto.
    + destruct (s_input s); auto.
Qed.

(** * One stop command per worker *)
Definition calm_inv (limit : nat) (s : st) : Prop :=
  s_limit s = limit /\
  match s_main s with
  | Inside => length (s_live s) = length (s_procs s) /\ s_commands s = 0
  | Stops k => length (s_live s) = s_commands s + k
  | Waiting _ => length (s_live s) = s_commands s
  | _ => s_slept s <= limit -> s_live s = []
  end.
Lemma without_length p x l : NoDup (map fst l) -> In (p, x) l -> S (length (without p l)) = length l.
Proof.
  induction l as [|[q y] l IH]; intros ND H; [destruct H|]. inversion ND as [|? ? NI ND']; subst. cbn [without filter fst].
  destruct (Nat.eqb_spec q p) as [->|N]; cbn.
  - f_equal. clear - NI. induction l as [|[q z] l IH]; [reflexivity|]. cbn in *. destruct (Nat.eqb_spec q p) as [->|]; [tauto|]. cbn. f_equal. apply IH. tauto.
  - f_equal. apply IH; [exact ND'|]. destruct H as [H|H]; [congruence|exact H].
Qed.
Lemma set_phase_length p x l : length (set_phase p x l) = length l.
Proof. apply map_length. Qed.
Lemma calm_worker limit p s : Inv s -> calm_inv limit s -> calm_inv limit (worker_step p s).
Proof.
  intros V H. unfold worker_step. destruct (phase_of p s) as [x|] eqn:E; [|exact H]. pose proof (phase_in _ _ _ E) as HI.
  assert (K : forall l : list (nat * wphase), length l = length (s_live s) -> match s_main s with
    | Inside => length l = length (s_procs s) /\ s_commands s = 0 | Stops k => length l = s_commands s + k
    | Waiting _ => length l = s_commands s | _ => s_slept s <= limit -> l = [] end).
  { destruct H as [_ H]. intros l L. destruct (s_main s); rewrite ?L; auto; intros Q; rewrite (H Q) in L; destruct l; auto; discriminate. }
  destruct H as [HL HM].
  destruct x.
  - destruct (s_clock s); (split; [exact HL|apply K, set_phase_length]).
  - destruct (s_commands s) as [|c] eqn:C; (split; [exact HL|]); cbn [s_main s_live s_commands s_procs s_slept].
    + apply K, set_phase_length.
    + pose proof (without_length _ _ _ (i_nodup _ V) HI) as W. destruct (s_main s); try (intros Q; rewrite (HM Q) in HI; destruct HI).
      * destruct HM as [_ HM]. discriminate.
      * lia.
      * lia.
  - destruct (s_ilock s); (split; [exact HL|apply K, set_phase_length]).
  - destruct (s_input s); (split; [exact HL|apply K, set_phase_length]).
  - split; [exact HL|apply K, set_phase_length].
Qed.
Lemma calm_main limit s : Inv s -> calm_inv limit s -> calm_inv limit (main_step s).
Proof.
  intros V [HL HM]. unfold main_step. pose proof (i_slept _ V) as SL. destruct (s_main s) as [|k|t| | | | |] eqn:M.
  - split; [exact HL|]. rewrite M. exact HM.
  - destruct k as [|k]; (split; [exact HL|]); cbn; lia.
  - destruct (Nat.leb_spec (s_limit s + 1) t) as [L|L].
    + split; [exact HL|]. cbn. lia.
    + destruct (Nat.eqb_spec (s_commands s) 0) as [Z|Z]; (split; [exact HL|]); cbn; [|exact HM].
      intros _. destruct (s_live s); [reflexivity|]. cbn in HM. lia.
  - destruct (s_input s); [|destruct (s_ilock s)]; (split; [exact HL|]); cbn; rewrite ?M; exact HM.
  - destruct (s_output s); (split; [exact HL|]); cbn; rewrite ?M; exact HM.
  - destruct (s_commands s); [|destruct (s_clock s)]; (split; [exact HL|]); cbn; rewrite ?M; exact HM.
  - destruct (s_procs s); (split; [exact HL|]); cbn; rewrite ?M; [exact HM|]. intros Q. rewrite (HM Q). reflexivity.
  - split; [exact HL|]. rewrite M. exact HM.
Qed.
Lemma calm_step limit a s : Inv s -> calm_inv limit s -> (forall p g, a <> Stop p g) -> (forall p, a <> Ends p) -> calm_inv limit (step a s).
Proof.
  intros V H N1 N2. destruct a; cbn [step].
  - destruct H as [HL HM]. destruct (s_main s) eqn:M; (split; [exact HL|]); cbn; rewrite ?M; exact HM.
  - destruct H as [HL HM]. destruct (s_main s) eqn:M; (split; [exact HL|]); cbn; rewrite ?M; exact HM.
  - exfalso. eapply N1. reflexivity.
  - destruct H as [HL HM]. destruct (s_main s) eqn:M; (split; [exact HL|]); cbn; rewrite ?M; try exact HM. lia.
  - apply calm_main; auto.
  - apply calm_worker; auto.
  - exfalso. eapply N2. reflexivity.
Qed.

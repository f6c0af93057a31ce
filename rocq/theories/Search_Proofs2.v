From Verif Require Import Base Num Nsga_Model Nsga_Main Par_Model Search_Model Search_Spec Search_Proofs.
Require Import Permutation.
Open Scope nat_scope.

(** * Selection does not fail *)
Lemma remove_first_id (x : ind) l : In (i_id x) (map i_id l) -> exists l', remove_first (fun y => ind_eqb y x) l = Some l' /\
  Permutation (map i_id l) (i_id x :: map i_id l') /\ incl l' l.
Proof.
  induction l as [|y l IH]; simpl; [intros []|]. intros H. unfold ind_eqb at 1. destruct (Nat.eqb_spec (i_id y) (i_id x)).
  - exists l. rewrite e. split; auto. split; auto. apply incl_tl, incl_refl.
  - destruct H as [H|H]; [congruence|]. destruct (IH H) as (l' & E & P & I). rewrite E. exists (y :: l'). split; auto. split.
    + simpl. rewrite P. apply perm_swap.
    + intros z [<-|Hz]; simpl; auto.
Qed.
Lemma remove_all_total : forall tr (front : list ind) rest, Permutation (map i_id front) (map i_id tr ++ rest) ->
  exists f', remove_all ind_eqb tr front = Ok f' /\ incl f' front.
Proof.
  induction tr as [|x tr IH]; intros front rest P; simpl; [exists front; split; auto; apply incl_refl|].
  destruct (remove_first_id x front) as (l' & E & P' & I).
  { eapply Permutation_in; [symmetry; exact P|]. simpl. auto. }
  rewrite E. destruct (IH l' rest) as (f' & E2 & I2).
  { rewrite P' in P. simpl in P. apply Permutation_cons_inv in P. exact P. }
  exists f'. split; auto. eapply incl_tran; eauto.
Qed.
Lemma scan_perm vals v (front tr : list ind) : scan vals v front = Some tr -> exists rest, Permutation front (tr ++ rest).
Proof.
  revert tr. induction front as [|y front IH]; simpl; intros tr H; [injection H as <-; exists []; auto|].
  destruct (all_le v (vals y)); [discriminate|]. destruct (scan vals v front) as [t|]; [|discriminate].
  destruct (IH t eq_refl) as [rest P]. injection H as <-. destruct (all_le (vals y) v).
  - exists rest. simpl. constructor. auto.
  - exists (y :: rest). rewrite P. apply Permutation_middle.
Qed.
Lemma updates_id_total (vals : ind -> list num) k items : forall front, (forall x, In x (front ++ items) -> length (vals x) = k) -> front ++ items <> [] ->
  exists f', updates vals ind_eqb (fun _ => false) front items = Ok f' /\ incl f' (front ++ items) /\ f' <> [].
Proof.
  induction items as [|x items IH]; intros front HA NE; simpl.
  - rewrite app_nil_r in *. exists front. split; auto. split; auto. apply incl_refl.
  - assert (HU : exists f' b, update vals ind_eqb (fun _ => false) front x = (f', Ok b) /\ incl f' (front ++ [x]) /\ f' <> []).
    { unfold update. destruct front as [|f0 fr] eqn:EF; [exists [x], true; split; auto; split; [apply incl_refl|discriminate]|].
      assert (EL : length (vals f0) = length (vals x)).
      { rewrite (HA f0), (HA x); auto; [apply in_or_app; right; simpl; auto|simpl; auto]. }
      apply Nat.eqb_eq in EL. rewrite EL. rewrite <- EF. destruct (scan vals (vals x) front) as [tr|] eqn:ES.
      - destruct (scan_perm _ _ _ _ ES) as [rest P]. destruct (remove_all_total tr front (map i_id rest)) as (f' & E & I).
        { rewrite P at 1. rewrite map_app. auto. }
        rewrite E. exists (f' ++ [x]), true. split; auto. split; [|destruct f'; discriminate]. intros z Hz. apply in_app_or in Hz as [Hz|Hz]; apply in_or_app; auto.
      - exists front, false. split; auto. split; [apply incl_appl, incl_refl|subst; discriminate]. }
    destruct HU as (f' & b & E & I & NE'). rewrite E. destruct (IH f') as (g & Eg & Ig & Ng).
    + intros z Hz. apply HA. apply in_app_or in Hz as [Hz|Hz]; [|apply in_or_app; simpl; auto]. apply I in Hz.
      apply in_app_or in Hz as [Hz|[<-|[]]]; apply in_or_app; simpl; auto.
    + destruct f'; [congruence|discriminate].
    + exists g. split; auto. split; auto. intros z Hz. apply Ig in Hz. apply in_app_or in Hz as [Hz|Hz]; [|apply in_or_app; simpl; auto].
      apply I in Hz. apply in_app_or in Hz as [Hz|[<-|[]]]; apply in_or_app; simpl; auto.
Qed.
Lemma eliminate_id pop k r : (forall x, In x pop -> length (fitness x) = k) -> pop <> [] ->
  exists x r', eliminate ind_eqb fitness pop 1 r = (Ok [x], r') /\ In x pop.
Proof.
  intros HA NE. unfold eliminate. simpl Z.eqb. cbv iota.
  destruct (updates_id_total (fun i => map nopp (fitness i)) k pop []) as (f & E & I & NF); auto.
  { simpl. intros x Hx. rewrite map_length. auto. }
  rewrite E. unfold rchoice. destruct f as [|f0 fs]; [congruence|]. destruct (draw r) as [d r']. 
  destruct (nth_error (f0 :: fs) (d mod length (f0 :: fs))) as [x|] eqn:En.
  - exists x, r'. split; auto. apply I. eapply nth_error_In; eauto.
  - apply nth_error_None in En. pose proof (Nat.mod_upper_bound d (length (f0 :: fs)) ltac:(discriminate)). lia.
Qed.
Lemma remove_first_self (x : ind) l : In x l -> exists l', remove_first (ind_eqb x) l = Some l' /\ incl l' l /\ length l = S (length l').
Proof.
  intros H. assert (E : exists l', remove_first (ind_eqb x) l = Some l').
  { clear - H. induction l as [|y l IH]; [destruct H|]. simpl. unfold ind_eqb at 1. destruct (Nat.eqb_spec (i_id x) (i_id y)); eauto.
    destruct H as [->|H]; [congruence|]. destruct (IH H) as [l' ->]. eauto. }
  destruct E as [l' E]. exists l'. split; auto. apply remove_first_len in E. tauto.
Qed.

(** * The run does not raise *)
Lemma tick_none w : w_stop w = None -> tick w = (Ok tt, w).
Proof. intros H. unfold tick. rewrite H. auto. Qed.
Lemma bind_ok {A B} (m : M A) (f : A -> M B) w a w' : m w = (Ok a, w') -> bind m f w = f a w'.
Proof. intros H. unfold bind. rewrite H. auto. Qed.
Lemma length_remove_nth {A} i (l : list A) : i < length l -> length (remove_nth i l) = length l - 1.
Proof. revert i. induction l as [|x l IH]; intros [|i] H; simpl in *; try lia. rewrite IH; lia. Qed.
Definition no_job := mkJob (mkI 0 None None) None.
Lemma wait_ok w e es : w_events w = e :: es -> e_callback e = None -> w_jobs w <> [] ->
  let kk := e_pick e mod length (w_jobs w) in let j := nth kk (w_jobs w) no_job in let i := result_ind j (e_out e) in
  wait_next w = (Ok (i, j_rung j, e_out e), mkW (w_lists w) (remove_nth kk (w_jobs w)) (w_n w) es (w_rng w) (w_uid w) (w_stop w) (w_rungs w) (w_trace w ++ [TDone i (j_rung j) (e_out e)])).
Proof.
  intros HE HC NJ. cbv zeta. unfold wait_next. rewrite HE, HC. destruct (w_jobs w); [congruence|]. destruct (e_out e); reflexivity.
Qed.
Lemma submit_all_calm l : forall w, w_stop w = None -> exists w', submit_all l w = (Ok tt, w') /\ w_stop w' = None /\ w_lists w' = w_lists w /\
  w_n w' = w_n w /\ length (w_jobs w') = length (w_jobs w) + length l /\ w_events w' = w_events w /\ submissions (w_trace w') = submissions (w_trace w) ++ l.
Proof.
  induction l as [|i l IH]; intros w HS.
  - exists w. simpl. rewrite app_nil_r. repeat split; auto. 
  - cbn [submit_all]. rewrite (bind_ok _ _ w tt w (tick_none w HS)).
    set (w1 := mkW (w_lists w) (w_jobs w ++ [mkJob i None]) (w_n w) (w_events w) (w_rng w) (w_uid w) (w_stop w) (w_rungs w) (w_trace w ++ [TSubmit i None None])).
    rewrite (bind_ok (submit i None None) _ w tt w1 eq_refl). destruct (IH w1 HS) as (w' & E & A1 & A2 & A3 & A4 & A5 & A6).
    exists w'. split; auto. simpl in *. rewrite submissions_app in A6. rewrite app_length in A4. simpl in *. rewrite <- app_assoc in A6. simpl in A6.
    repeat split; auto. lia.
Qed.
Section Live.
Context (can_cross : ind -> ind -> bool) (mate : ind -> ind -> rng -> res unit * rng) (mutate : ind -> rng -> res unit * rng) (create_new : rng -> res unit * rng).
Hypothesis MATE : forall a b r, exists r', mate a b r = (Ok tt, r').
Hypothesis MUTATE : forall a r, exists r', mutate a r = (Ok tt, r').
Let o := gama_ops can_cross mate mutate create_new.

Lemma offspring_total pop ps : forall r, exists r', offspring can_cross mate mutate pop ps r = (Ok (length ps), r').
Proof.
  induction ps as [|[p q] ps IH]; intros r; simpl; [eauto|]. destruct (rcoin r) as [c r1].
  assert (H : exists r2, (if c && can_cross (nth p pop (mkI 0 None None)) (nth q pop (mkI 0 None None)) then mate (nth p pop (mkI 0 None None)) (nth q pop (mkI 0 None None)) r1 else mutate (nth p pop (mkI 0 None None)) r1) = (Ok tt, r2)).
  { destruct (c && _); auto. }
  destruct H as [r2 ->]. destruct (IH r2) as [r3 ->]. simpl. eauto.
Qed.
Lemma create_total pop r k : 3 <= length pop -> 2 <= k -> (forall x, In x pop -> exists v, i_fit x = Some v /\ length v = k) ->
  exists r', o_create o pop 1 r = (Ok 1, r').
Proof.
  intros H3 H2 HF. simpl. unfold create_from_population. destruct (Nat.ltb_spec (length pop) 3); [lia|].
  assert (ME : metric_error pop = None).
  { clear - HF H2. induction pop as [|x pop IH]; simpl; auto. destruct (HF x (or_introl eq_refl)) as (v & -> & L).
    destruct v as [|a [|b v]]; simpl in L; try lia. apply IH. intros y Hy. apply HF. right; auto. }
  rewrite ME. destruct (C29_pairs_main ind [metric 0; metric 1] pop 1 r ltac:(discriminate) H3) as (ps & r' & E & L & _).
  rewrite E. destruct (offspring_total pop ps r') as [r2 E2]. rewrite E2, L. eauto.
Qed.

Context (out pop_size nw k S0 : nat) (max_n : option Z).
Hypothesis K2 : 2 <= k.
Hypothesis P3 : 3 <= pop_size.
Hypothesis S4 : nw + 4 <= S0.

Notation succ_event := succeeded.
Notation count := n_succeeded.
Notation calm := (calm k).
Definition good (past : list event) (w : world) : Prop :=
  w_stop w = None /\ out < length (w_lists w) /\ w_n w = nw /\
  length (w_jobs w) = Nat.max (S0 - length past) (nw + 2) /\
  length (nth out (w_lists w) []) = Nat.min pop_size (count past) /\
  (forall x, In x (nth out (w_lists w) []) -> exists v, i_fit x = Some v /\ length v = k).

Definition turn : M unit :=
  tick ;; pop <- read out ;; note (TWait pop) ;; x <- wait_next ;;
  match x with
  | (i, _, Evaluated _ false) => add_to_population o out pop_size i
  | _ => ret tt
  end ;;
  refill o out ;; tick ;; restart_now false ;; tick.

Lemma bind_ret_r {B} (f : unit -> M B) w : bind (ret tt) f w = f tt w.
Proof. auto. Qed.

(** Two lists compared up to what does not matter here. *)
Lemma add_ok w past i v : w_stop w = None -> out < length (w_lists w) -> i_fit i = Some v -> length v = k ->
  length (nth out (w_lists w) []) = Nat.min pop_size (count past) ->
  (forall x, In x (nth out (w_lists w) []) -> exists v, i_fit x = Some v /\ length v = k) ->
  exists w', add_to_population o out pop_size i w = (Ok tt, w') /\ w_stop w' = None /\ out < length (w_lists w') /\ w_n w' = w_n w /\
    w_jobs w' = w_jobs w /\ w_events w' = w_events w /\ (forall a, a <> out -> nth a (w_lists w') [] = nth a (w_lists w) []) /\
    length (nth out (w_lists w') []) = Nat.min pop_size (S (count past)) /\
    (forall x, In x (nth out (w_lists w') []) -> exists v, i_fit x = Some v /\ length v = k).
Proof.
  clear K2 P3 S4 MATE MUTATE. intros HS HO HF HK HL HP. unfold add_to_population. rewrite (bind_ok _ _ w tt w (tick_none w HS)).
  set (w1 := mkW (set_nth out (nth out (w_lists w) [] ++ [i]) (w_lists w)) (w_jobs w) (w_n w) (w_events w) (w_rng w) (w_uid w) (w_stop w) (w_rungs w) (w_trace w)).
  rewrite (bind_ok (append out i) _ w tt w1 eq_refl). set (pop := nth out (w_lists w) [] ++ [i]) in *.
  assert (EP : nth out (w_lists w1) [] = pop) by (simpl; apply nth_set_nth; auto).
  assert (OW : out < length (w_lists w1)) by (simpl; rewrite length_set_nth; auto).
  rewrite (bind_ok (read out) _ w1 pop w1) by (unfold read; rewrite EP; auto).
  assert (HP' : forall x, In x pop -> exists v, i_fit x = Some v /\ length v = k).
  { intros x Hx. unfold pop in Hx. apply in_app_or in Hx as [Hx|[<-|[]]]; eauto. }
  assert (LP : length pop = S (Nat.min pop_size (count past))) by (unfold pop; rewrite app_length; simpl; lia).
  destruct (Nat.ltb_spec pop_size (length pop)) as [HB|HB].
  - rewrite (bind_ok _ _ w1 tt w1 (tick_none w1 HS)).
    destruct (eliminate_id pop k (w_rng w1)) as (x & r' & E & Hx).
    { intros y Hy. unfold fitness. destruct (HP' y Hy) as (u & -> & L). auto. }
    { intros H. rewrite H in LP. discriminate. }
    set (w2 := mkW (w_lists w1) (w_jobs w1) (w_n w1) (w_events w1) r' (w_uid w1) (w_stop w1) (w_rungs w1) (w_trace w1)).
    rewrite (bind_ok _ _ w1 [x] w2).
    2:{ unfold random. change (o_eliminate o pop 1 (w_rng w1)) with (eliminate ind_eqb fitness pop 1 (w_rng w1)). rewrite E. auto. }
    rewrite (bind_ok _ _ w2 tt w2 (tick_none w2 HS)).
    destruct (remove_first_self x pop Hx) as (l' & E2 & I2 & L2). unfold remove.
    rewrite (bind_ok (read out) _ w2 pop w2) by (unfold read; simpl w_lists; simpl in EP; rewrite EP; auto).
    rewrite E2. eexists. split; [reflexivity|]. simpl. simpl in OW. rewrite !length_set_nth in *. rewrite nth_set_nth by (rewrite length_set_nth; auto).
    repeat split; auto; [intros; rewrite !nth_set_nth_ne; auto|lia].
  - exists w1. split; auto. rewrite EP. repeat split; auto; [intros; simpl; rewrite nth_set_nth_ne; auto|lia].
Qed.



Lemma turn_ok past w e es : good past w -> w_events w = e :: es -> calm e ->
  (S0 - nw - 1 <= length past + 1 -> 3 <= count (past ++ [e])) ->
  exists w', turn w = (Ok tt, w') /\ good (past ++ [e]) w' /\ w_events w' = es.
Proof.
  intros (HS & HO & HN & HJ & HL & HP) HE [HC HK] H3. unfold turn.
  rewrite (bind_ok _ _ w tt w (tick_none w HS)). rewrite (bind_ok (read out) _ w (nth out (w_lists w) []) w eq_refl).
  set (w1 := mkW (w_lists w) (w_jobs w) (w_n w) (w_events w) (w_rng w) (w_uid w) (w_stop w) (w_rungs w) (w_trace w ++ [TWait (nth out (w_lists w) [])])).
  rewrite (bind_ok (note _) _ w tt w1 eq_refl).
  assert (NJ : length (w_jobs w) > 0) by lia.
  set (kk := e_pick e mod length (w_jobs w)). assert (Hk : kk < length (w_jobs w)) by (apply Nat.mod_upper_bound; lia).
  set (j := nth kk (w_jobs w) (mkJob (mkI 0 None None) None)). set (i := result_ind j (e_out e)).
  set (w2 := mkW (w_lists w) (remove_nth kk (w_jobs w)) (w_n w) es (w_rng w) (w_uid w) (w_stop w) (w_rungs w) (w_trace w1 ++ [TDone i (j_rung j) (e_out e)])).
  assert (EW : wait_next w1 = (Ok (i, j_rung j, e_out e), w2)).
  { apply (wait_ok w1 e es); auto. simpl. destruct (w_jobs w); [simpl in NJ; lia|discriminate]. }
  rewrite (bind_ok _ _ w1 _ w2 EW).
  assert (HX : exists w3, (match (i, j_rung j, e_out e) with (i, _, Evaluated _ false) => add_to_population o out pop_size i | _ => ret tt end) w2 = (Ok tt, w3) /\
     w_stop w3 = None /\ out < length (w_lists w3) /\ w_n w3 = nw /\ w_jobs w3 = remove_nth kk (w_jobs w) /\ w_events w3 = es /\
     length (nth out (w_lists w3) []) = Nat.min pop_size (count (past ++ [e])) /\
     (forall x, In x (nth out (w_lists w3) []) -> exists v, i_fit x = Some v /\ length v = k)).
  { assert (CN : count (past ++ [e]) = count past + (if succ_event e then 1 else 0)).
    { unfold n_succeeded. rewrite filter_app, app_length. simpl. destruct (succ_event e); auto. }
    rewrite CN. unfold succeeded. destruct (e_out e) as [|s [|]] eqn:EO.
    - exists w2. rewrite Nat.add_0_r. repeat split; auto.
    - exists w2. rewrite Nat.add_0_r. repeat split; auto.
    - destruct (add_ok w2 past i s) as (w3 & E3 & A1 & A2 & A3 & A4 & A5 & _ & A6 & A7); auto.
      exists w3. rewrite Nat.add_1_r. repeat split; auto. rewrite A3. exact HN. }
  destruct HX as (w3 & E3 & A1 & A2 & A3 & A4 & A5 & A6 & A7). rewrite (bind_ok _ _ w2 tt w3 E3).
  assert (LJ : length (w_jobs w3) = length (w_jobs w) - 1) by (rewrite A4; apply length_remove_nth; auto).
  assert (HR : exists w4, refill o out w3 = (Ok tt, w4) /\ good (past ++ [e]) w4 /\ w_events w4 = es).
  { unfold refill. rewrite (bind_ok queue_size _ w3 (Z.of_nat (length (w_jobs w3)) - Z.of_nat (w_n w3))%Z w3 eq_refl). rewrite A3.
    destruct (Z.leb_spec (Z.of_nat (length (w_jobs w3)) - Z.of_nat nw) 1) as [HQ|HQ].
    - rewrite (bind_ok _ _ w3 tt w3 (tick_none w3 A1)). rewrite (bind_ok (read out) _ w3 (nth out (w_lists w3) []) w3 eq_refl).
      destruct (create_total (nth out (w_lists w3) []) (w_rng w3) k) as [r' E4]; auto.
      { rewrite A6. specialize (H3 ltac:(lia)). lia. }
      set (w4 := mkW (w_lists w3) (w_jobs w3) (w_n w3) (w_events w3) r' (w_uid w3) (w_stop w3) (w_rungs w3) (w_trace w3)).
      rewrite (bind_ok _ _ w3 1 w4) by (unfold random; rewrite E4; reflexivity).
      set (w5 := mkW (w_lists w3) (w_jobs w3) (w_n w3) (w_events w3) r' (S (w_uid w3)) (w_stop w3) (w_rungs w3) (w_trace w3)).
      rewrite (bind_ok fresh _ w4 (mkI (w_uid w4) None None) w5 eq_refl). rewrite (bind_ok _ _ w5 tt w5 (tick_none w5 A1)).
      eexists. split; [reflexivity|]. simpl. split; [|exact A5]. unfold good. simpl. rewrite !app_length. simpl.
      repeat split; auto. lia.
    - exists w3. split; auto. split; auto. unfold good. rewrite app_length. simpl. repeat split; auto. lia. }
  destruct HR as (w4 & E4 & G4 & Ev4). rewrite (bind_ok _ _ w3 tt w4 E4).
  destruct G4 as (G1 & G2). rewrite (bind_ok _ _ w4 tt w4 (tick_none w4 G1)). rewrite (bind_ok (restart_now false) _ w4 false w4 eq_refl).
  exists w4. rewrite tick_none; auto. repeat split; tauto.
Qed.

(** one turn of the loop is [turn] *)
Lemma loop_turn f n w w' : below max_n n = true -> turn w = (Ok tt, w') ->
  ea_loop o out false max_n pop_size (S f) None n w = ea_loop o out false max_n pop_size f None (S n) w'.
Proof.
  intros B HT. cbn [ea_loop]. rewrite B. unfold turn in HT. unfold bind in *.
  destruct (tick w) as [[[]|?] w1]; [|discriminate]. destruct (read out w1) as [[pop|?] w2]; [|discriminate].
  destruct (note (TWait pop) w2) as [[[]|?] w3]; [|discriminate]. destruct (wait_next w3) as [[[[i r] oc]|?] w4]; [|discriminate].
  destruct ((match oc with Raised => ret tt | Evaluated _ true => ret tt | Evaluated _ false => add_to_population o out pop_size i end) w4) as [[[]|?] w5]; [|discriminate].
  destruct (refill o out w5) as [[[]|?] w6]; [|discriminate]. destruct (tick w6) as [[[]|?] w7]; [|discriminate].
  unfold restart_now in *. unfold ret in HT |- *. destruct (tick w7) as [[[]|?] w8]; [|discriminate]. injection HT as ->. reflexivity.
Qed.

Lemma live_loop : forall es past f w, good past w -> w_events w = es -> Forall calm es -> length es < f ->
  (forall l1 l2, es = l1 ++ l2 -> S0 - nw - 1 <= length (past ++ l1) -> l1 <> [] -> 3 <= count (past ++ l1)) ->
  match max_n with
  | Some m => (Z.of_nat (length past) <= m <= Z.of_nat (length past + length es))%Z ->
     exists w', ea_loop o out false max_n pop_size f None (length past) w = (Ok tt, w') /\ w_stop w' = None
  | None => exists w', ea_loop o out false max_n pop_size f None (length past) w = (Err Diverges, w') /\ w_events w' = []
  end.
Proof.
  induction es as [|e es IH]; intros past f w G HE HC HF H3.
  - destruct f as [|f]; [lia|]. destruct max_n as [m|] eqn:EM.
    + intros HM. simpl in HM. cbn [ea_loop]. unfold below. destruct (Z.ltb_spec (Z.of_nat (length past)) m); [lia|].
      exists w. split; auto. apply G.
    + cbn [ea_loop]. unfold below. destruct G as (HS & HO & HN & HJ & HL & HP).
      rewrite (bind_ok _ _ w tt w (tick_none w HS)). rewrite (bind_ok (read out) _ w (nth out (w_lists w) []) w eq_refl).
      unfold bind at 1. unfold note. unfold bind at 1. unfold wait_next. simpl w_jobs. simpl w_events. rewrite HE.
      destruct (w_jobs w) eqn:EJ; [simpl in HJ; lia|]. eexists. split; [reflexivity|]. simpl. auto.
  - destruct f as [|f]; [simpl in HF; lia|]. inversion HC as [|? ? C1 C2]; subst.
    destruct (turn_ok past w e es G HE C1) as (w' & ET & G' & HE').
    { intros HX. apply (H3 [e] es); auto; [rewrite app_length; simpl; lia|discriminate]. }
    specialize (IH (past ++ [e]) f w' G' HE' C2 ltac:(simpl in HF; lia)).
    assert (H3' : forall l1 l2, es = l1 ++ l2 -> S0 - nw - 1 <= length ((past ++ [e]) ++ l1) -> l1 <> [] -> 3 <= count ((past ++ [e]) ++ l1)).
    { intros l1 l2 El Hl Nl. rewrite <- app_assoc in *. apply (H3 ([e] ++ l1) l2); auto; [rewrite El; auto|discriminate]. }
    specialize (IH H3'). rewrite app_length in IH. simpl length in IH. rewrite Nat.add_1_r in IH. destruct max_n as [m|] eqn:EM.
    + intros HM. rewrite <- EM in *. destruct (below max_n (length past)) eqn:B.
      * rewrite (loop_turn f (length past) w w' B ET). apply IH. rewrite EM in B. unfold below in B. apply Z.ltb_lt in B. simpl in HM. lia.
      * cbn [ea_loop]. rewrite B. exists w. split; auto. apply G.
    + rewrite <- EM in *. rewrite (loop_turn f (length past) w w' ltac:(rewrite EM; auto) ET). exact IH.
Qed.


(** all of async_ea *)
Lemma ea_live start lists es r uid : out < length lists -> start <> out -> length (nth start lists []) = S0 ->
  Forall calm es -> (forall l1 l2, es = l1 ++ l2 -> S0 - nw - 1 <= length l1 -> 3 <= count l1) ->
  match max_n with
  | Some m => (0 < m <= Z.of_nat (length es))%Z ->
     exists w', async_ea o out false max_n pop_size start (start_world lists nw es r uid None) = (Ok out, w')
  | None => exists w', async_ea o out false max_n pop_size start (start_world lists nw es r uid None) = (Err Diverges, w') /\ w_events w' = []
  end.
Proof.
  intros HO NE HS HC H3.
  assert (Q : match max_n with
    | Some m => (0 <= m <= Z.of_nat (length es))%Z -> exists w', ea_loop o out false max_n pop_size (2 * length es + 3) (Some (Given start)) 0 (start_world lists nw es r uid None) = (Ok tt, w')
    | None => exists w', ea_loop o out false max_n pop_size (2 * length es + 3) (Some (Given start)) 0 (start_world lists nw es r uid None) = (Err Diverges, w') /\ w_events w' = []
    end).
  { replace (2 * length es + 3) with (S (2 * length es + 2)) by lia. cbn [ea_loop]. set (w0 := start_world lists nw es r uid None).
    rewrite (bind_ok _ _ w0 tt w0 (tick_none w0 eq_refl)).
    set (w1 := mkW (set_nth out [] lists) [] nw es r uid None [] []).
    rewrite (bind_ok (write out []) _ w0 tt w1 eq_refl).
    rewrite (bind_ok (read start) _ w1 (nth start lists []) w1) by (unfold read; simpl; rewrite nth_set_nth_ne; auto).
    destruct (submit_all_calm (nth start lists []) w1 eq_refl) as (w2 & E2 & A1 & A2 & A3 & A4 & A5 & _).
    rewrite (bind_ok _ _ w1 tt w2 E2).
    assert (G : good [] w2).
    { unfold good. rewrite A2, A3, A4. simpl. rewrite length_set_nth, nth_set_nth by auto. simpl. unfold n_succeeded. simpl.
      repeat split; auto; try lia; intros x []. }
    pose proof (live_loop es [] (2 * length es + 2) w2 G ltac:(rewrite A5; auto) HC ltac:(lia)) as L.
    assert (H3' : forall l1 l2, es = l1 ++ l2 -> S0 - nw - 1 <= length ([] ++ l1) -> l1 <> [] -> 3 <= count ([] ++ l1)) by (simpl; intros; eapply H3; eauto).
    specialize (L H3'). simpl length in L. destruct max_n as [m|]; auto. intros HM. destruct L as (w' & E & _); [lia|]. eauto. }
  unfold async_ea. change (w_events (start_world lists nw es r uid None)) with es. destruct max_n as [m|].
  - intros HM. destruct (Z.leb_spec m 0); [lia|]. destruct Q as [w' Q]; [lia|]. unfold leave. rewrite (bind_ok _ _ _ _ _ Q). simpl. eauto.
  - destruct Q as (w' & Q & Q2). unfold leave, bind. rewrite Q. eexists. split; [reflexivity|]. simpl. auto.
Qed.
End Live.

(** * Too few candidates for the number of workers *)
Lemma starved can_cross mate mutate create_new out restart max_n pop_size start lists nw e es r uid :
  out < length lists -> start <> out -> nth start lists [] <> [] -> length (nth start lists []) <= nw + 2 ->
  e_callback e = None -> (match max_n with None => True | Some m => (0 < m)%Z end) ->
  exists w', async_ea (gama_ops can_cross mate mutate create_new) out restart max_n pop_size start (start_world lists nw (e :: es) r uid None) = (Err ValueError, w')
    /\ w_events w' = es /\ list_at start w' = nth start lists [].
Proof.
  intros HO NE NN HL HC HM. set (o := gama_ops can_cross mate mutate create_new). set (N := length (nth start lists [])) in *.
  assert (NP : 0 < N) by (unfold N; destruct (nth start lists []); simpl; [congruence|lia]).
  assert (Q : exists w', ea_loop o out restart max_n pop_size (2 * length (e :: es) + 3) (Some (Given start)) 0 (start_world lists nw (e :: es) r uid None) = (Err ValueError, w') /\ w_events w' = es /\ list_at start w' = nth start lists []).
  { replace (2 * length (e :: es) + 3) with (S (S (2 * length es + 3))) by (simpl; lia). set (w0 := start_world lists nw (e :: es) r uid None).
    change (ea_loop o out restart max_n pop_size (S (S (2 * length es + 3))) (Some (Given start)) 0) with
      (tick ;; write out [] ;; l <- read start ;; submit_all l ;; ea_loop o out restart max_n pop_size (S (2 * length es + 3)) None 0).
    rewrite (bind_ok _ _ w0 tt w0 (tick_none w0 eq_refl)).
    set (w1 := mkW (set_nth out [] lists) [] nw (e :: es) r uid None [] []).
    rewrite (bind_ok (write out []) _ w0 tt w1 eq_refl).
    rewrite (bind_ok (read start) _ w1 (nth start lists []) w1) by (unfold read; simpl; rewrite nth_set_nth_ne; auto).
    destruct (submit_all_calm (nth start lists []) w1 eq_refl) as (w2 & E2 & A1 & A2 & A3 & A4 & A5 & _).
    rewrite (bind_ok _ _ w1 tt w2 E2). simpl in A2, A3, A4, A5. cbn [ea_loop].
    assert (B : below max_n 0 = true) by (unfold below; destruct max_n; auto; apply Z.ltb_lt; lia). rewrite B.
    rewrite (bind_ok _ _ w2 tt w2 (tick_none w2 A1)). rewrite (bind_ok (read out) _ w2 (nth out (w_lists w2) []) w2 eq_refl).
    set (w3 := mkW (w_lists w2) (w_jobs w2) (w_n w2) (w_events w2) (w_rng w2) (w_uid w2) (w_stop w2) (w_rungs w2) (w_trace w2 ++ [TWait (nth out (w_lists w2) [])])).
    rewrite (bind_ok (note _) _ w2 tt w3 eq_refl).
    pose proof (wait_ok w3 e es ltac:(simpl; auto) HC ltac:(simpl; intros X; rewrite X in A4; fold N in A4; simpl in A4; lia)) as EW. cbv zeta in EW.
    set (kk := e_pick e mod length (w_jobs w3)) in *. set (j := nth kk (w_jobs w3) no_job) in *. set (i := result_ind j (e_out e)) in *.
    set (w4 := mkW (w_lists w3) (remove_nth kk (w_jobs w3)) (w_n w3) es (w_rng w3) (w_uid w3) (w_stop w3) (w_rungs w3) (w_trace w3 ++ [TDone i (j_rung j) (e_out e)])) in *.
    rewrite (bind_ok _ _ w3 _ w4 EW).
    assert (HK : kk < length (w_jobs w3)) by (apply Nat.mod_upper_bound; simpl; fold N in A4; lia).
    assert (OW : out < length (w_lists w4)) by (simpl; rewrite A2, length_set_nth; auto).
    assert (SL : list_at start w4 = nth start lists []) by (unfold list_at; simpl; rewrite A2; apply nth_set_nth_ne; auto).
    assert (HX : exists w5, (match e_out e with Evaluated _ false => add_to_population o out pop_size i | _ => ret tt end) w4 = (Ok tt, w5) /\
       w_stop w5 = None /\ w_n w5 = nw /\ length (w_jobs w5) = N - 1 /\ w_events w5 = es /\ length (nth out (w_lists w5) []) <= 1 /\ list_at start w5 = nth start lists []).
    { assert (LJ : length (w_jobs w4) = N - 1) by (simpl; rewrite length_remove_nth by auto; simpl; fold N in A4; lia).
      assert (E0 : nth out (w_lists w4) [] = []) by (simpl; rewrite A2; apply nth_set_nth; auto).
      destruct (e_out e) as [|s [|]] eqn:EO.
      - exists w4. rewrite E0. repeat split; auto.
      - exists w4. rewrite E0. repeat split; auto.
      - destruct (add_ok can_cross mate mutate create_new out pop_size (length s) w4 [] i s) as (w5 & E5 & B1 & B2 & B3 & B4 & B5 & BL & B6 & B7); auto.
        + rewrite E0. unfold n_succeeded. simpl. lia.
        + rewrite E0. intros x [].
        + exists w5. rewrite B3, B4, B5, B6. repeat split; auto; [unfold n_succeeded; simpl; lia|].
          unfold list_at in *. rewrite BL by auto. exact SL. }
    destruct HX as (w5 & E5 & B1 & B3 & B4 & B5 & B6 & B7).
    rewrite (bind_ok _ _ w4 tt w5 E5). unfold refill. unfold bind at 1.
    rewrite (bind_ok queue_size _ w5 (Z.of_nat (length (w_jobs w5)) - Z.of_nat (w_n w5))%Z w5 eq_refl). rewrite B4, B3.
    destruct (Z.leb_spec (Z.of_nat (N - 1) - Z.of_nat nw) 1); [|lia].
    rewrite (bind_ok _ _ w5 tt w5 (tick_none w5 B1)). rewrite (bind_ok (read out) _ w5 (nth out (w_lists w5) []) w5 eq_refl).
    unfold bind at 1. unfold random. change (o_create o) with (create_from_population can_cross mate mutate). unfold create_from_population at 1.
    destruct (Nat.ltb_spec (length (nth out (w_lists w5) [])) 3); [|lia]. eexists. split; [reflexivity|]. simpl. auto. }
  destruct Q as (w' & Q & Q2 & Q3). unfold async_ea, leave, bind. change (w_events (start_world lists nw (e :: es) r uid None)) with (e :: es).
  destruct max_n as [m|]; [destruct (Z.leb_spec m 0); [lia|]|]; rewrite Q; eexists; split; try reflexivity; simpl; auto.
Qed.

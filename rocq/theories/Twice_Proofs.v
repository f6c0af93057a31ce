(** Proofs for C156: what the heap keeps when nothing can be written. *)
Require Import Permutation Qcanon.
From Verif Require Import Base Num Heap_Model Heap_Proofs Lib_Model Lib_Spec Lib_Proofs Lib_Proofs2 Lib_Proofs3 Lib_Main Hist_Model Twice_Model.
From Verif Require Gp_Proofs Ens_Model Ens_Spec Pred_Model Fac_Model Misc_Model Mix_Spec.
Open Scope nat_scope.
Open Scope list_scope.

Section Perm.
Context {T : Type} (lt : T -> T -> bool) (d : T).
Lemma siftdown_perm : forall fuel pos l, pos < length l -> Permutation l (siftdown lt d fuel pos l).
Proof.
  induction fuel as [|fuel IH]; intros pos l Hl; cbn [siftdown]; auto. destruct (Nat.eqb_spec pos 0); auto. destruct (lt _ _); auto.
  assert (parent pos < length l) by (pose proof (parent_lt pos ltac:(lia)); lia).
  eapply perm_trans; [apply (swap_perm d pos (parent pos)); auto|]. apply IH. rewrite swap_len. auto.
Qed.
Lemma to_leaf_perm : forall fuel pos l pos' l', pos < length l -> to_leaf lt d fuel pos l = (pos', l') -> Permutation l l' /\ pos' < length l'.
Proof.
  induction fuel as [|fuel IH]; intros pos l pos' l' Hl E; cbn [to_leaf] in E; [injection E as <- <-; auto|].
  destruct (Nat.ltb_spec (2 * pos + 1) (length l)) as [L|L]; [|injection E as <- <-; auto].
  set (c := if _ && _ then _ else _) in E. assert (HC : c < length l).
  { unfold c. destruct (Nat.ltb_spec (2 * pos + 1 + 1) (length l)); simpl; auto. destruct (negb _); auto. }
  apply IH in E as [E1 E2]; [|rewrite swap_len; auto]. split; auto. eapply perm_trans; [apply (swap_perm d pos c); auto|exact E1].
Qed.
Lemma pushpop_perm l x y l' : heappushpop lt d l x = (y, l') -> Permutation (x :: l) (y :: l').
Proof.
  unfold heappushpop. destruct l as [|h l0]; [intros [= <- <-]; auto|]. destruct (lt h x); [|intros [= <- <-]; auto].
  destruct (to_leaf lt d (S (length l0)) 0 (x :: l0)) as [pos l2] eqn:E. intros [= <- <-]. apply to_leaf_perm in E as [E1 E2]; [|simpl; lia].
  eapply perm_trans; [apply perm_swap|]. constructor. eapply perm_trans; [exact E1|]. exact (siftdown_perm (S (length l2)) pos l2 E2).
Qed.
End Perm.

Definition full (l : lib) : bool := match l_m l with None => false | Some m => negb (length (l_top l) <? m) end.
Definition dead (l : lib) (u : nat) : Prop := u < length (l_objs l) /\ ev_pred (obj l u) = None /\ ev_file (obj l u) <> None.
(** at least [k] of the kept evaluations can no longer be read *)
Definition unread (l : lib) (k : nat) : Prop :=
  l_disk l = [] /\ exists bad, NoDup bad /\ Forall (dead l) bad /\ incl bad (map snd (l_top l)) /\ k <= length bad.
(** [l'] has the files of [l] and its evaluations, at most cleared *)
Definition grown (l l' : lib) : Prop :=
  l_disk l' = l_disk l /\ l_m l' = l_m l /\ length (l_top l') = length (l_top l) /\
  forall u, dead l u -> dead l' u.

Lemma grown_refl l : grown l l.
Proof. repeat split; auto; apply H. Qed.
Lemma grown_trans a b c : grown a b -> grown b c -> grown a c.
Proof. intros (A1 & A2 & A3 & A4) (B1 & B2 & B3 & B4). split; [congruence|]. split; [congruence|]. split; [congruence|]. auto. Qed.
Lemma full_grown l l' : grown l l' -> full l' = full l.
Proof. intros (_ & A & B & _). unfold full. rewrite A, B. reflexivity. Qed.

Lemma unread_same l l' k : grown l l' -> l_top l' = l_top l -> unread l k -> unread l' k.
Proof.
  intros (A & _ & _ & B) C (D & bad & E1 & E2 & E3 & E4). split; [congruence|]. exists bad. rewrite C.
  split; auto. split; [eapply Forall_impl; [|exact E2]; auto|]. auto.
Qed.
Lemma unread_less l k k' : unread l k -> k' <= k -> unread l k'.
Proof. intros (D & bad & E1 & E2 & E3 & E4) L. split; auto. exists bad. repeat split; auto. lia. Qed.

Lemma remove_len (u : nat) l : NoDup l -> length l <= S (length (remove Nat.eq_dec u l)).
Proof.
  induction 1 as [|x l H N IH]; cbn [remove length]; auto. destruct (Nat.eq_dec u x) as [->|].
  - rewrite notin_remove; auto.
  - cbn [length]. lia.
Qed.
Lemma remove_nodup (u : nat) l : NoDup l -> NoDup (remove Nat.eq_dec u l).
Proof.
  induction 1 as [|x l H N IH]; cbn [remove]; [constructor|]. destruct (Nat.eq_dec u x); auto.
  constructor; auto. intros K. apply in_remove in K. tauto.
Qed.
Lemma unread_pop l l' k new y : grown l l' -> Permutation (new :: l_top l) (y :: l_top l') -> unread l (S k) -> unread l' k.
Proof.
  intros (A & _ & _ & B) C (D & bad & E1 & E2 & E3 & E4). split; [congruence|]. exists (remove Nat.eq_dec (snd y) bad).
  split; [apply remove_nodup; auto|]. split.
  - apply Forall_forall. intros u Hu. apply in_remove in Hu as [Hu _]. rewrite Forall_forall in E2. auto.
  - split.
    + intros u Hu. apply in_remove in Hu as [Hu Hn]. apply E3 in Hu.
      assert (K : In u (map snd (new :: l_top l))) by (right; auto).
      apply (Permutation_in u (Permutation_map snd C)) in K. destruct K as [K|K]; auto. congruence.
    + pose proof (remove_len (snd y) bad E1). lia.
Qed.

Lemma dead_app l e u : dead l u -> dead (add_obj e l) u.
Proof.
  intros (A & B & C). unfold dead, obj. cbn [add_obj l_objs]. rewrite app_length, app_nth1 by auto. split; [simpl; lia|]. split; auto.
Qed.
Lemma dead_clear l v u : dead l u -> dead (clear_obj v l) u.
Proof.
  intros (A & B & C). unfold dead, obj in *. cbn [clear_obj l_objs]. unfold on_obj. destruct (nth_error (l_objs l) v) as [e|] eqn:E; [|auto].
  rewrite set_nth_len. split; auto.
  assert (V : v < length (l_objs l)) by (apply nth_error_Some; congruence).
  destruct (Nat.eq_dec u v) as [->|NE].
  - rewrite nth_set_eq by auto. apply (nth_error_nth _ _ (new_ev 0 "" [] None [] None)) in E. rewrite E in B, C. cbn. auto.
  - rewrite nth_set_neq by auto. auto.
Qed.

Lemma process_core l e r l1 p r1 : process l e r = (l1, p, r1) ->
  l_objs l1 = l_objs l /\ l_top l1 = l_top l /\ l_disk l1 = l_disk l /\ l_m l1 = l_m l.
Proof.
  unfold process. intros E. set (e0 := match l_n l with Some 0 => _ | _ => _ end) in E. destruct (ev_pred e0) as [q|]; [|injection E as <- <- <-; auto].
  destruct (match l_sample l with NotSet => _ | _ => _ end) as [[l2 d] r2] eqn:ED.
  assert (C : l_objs l2 = l_objs l /\ l_top l2 = l_top l /\ l_disk l2 = l_disk l /\ l_m l2 = l_m l).
  { destruct (l_sample l); [|injection ED as <- <- <-; auto|injection ED as <- <- <-; auto]. unfold determine in ED. destruct (l_n l) as [k|]; [|injection ED as <- <- <-; auto].
    destruct (k <? length q); [|injection ED as <- <- <-; auto]. match type of ED with context[let (s, r2) := ?q in _] => destruct q as [[rows|] r3] end; injection ED as <- <- <-; auto. }
  destruct d; [|injection E as <- <- <-; auto]. destruct (l_sample l2); try (injection E as <- <- <-; auto).
  destruct (pick _ q); injection E as <- <- <-; auto.
Qed.
Lemma process_error l e r l1 e1 r1 : process l e r = (l1, Ok e1, r1) -> ev_error e1 = ev_error e.
Proof.
  unfold process. intros E. set (e0 := match l_n l with Some 0 => _ | _ => _ end) in E.
  assert (H0 : ev_error e0 = ev_error e) by (unfold e0; destruct (l_n l) as [[|]|]; reflexivity).
  destruct (ev_pred e0) as [q|]; [|injection E as _ <- _; auto].
  destruct (match l_sample l with NotSet => _ | _ => _ end) as [[l2 d] r2] eqn:ED.
  destruct d; [|discriminate]. destruct (l_sample l2); try (injection E as _ <- _; auto).
  destruct (pick _ q); [|discriminate]. injection E as _ <- _. exact H0.
Qed.
Lemma core_grown l l1 : l_objs l1 = l_objs l -> l_top l1 = l_top l -> l_disk l1 = l_disk l -> l_m l1 = l_m l -> grown l l1.
Proof. intros A B C D. split; auto. split; auto. split; [congruence|]. unfold dead, obj. rewrite A. auto. Qed.
Lemma add_grown e l : grown l (add_obj e l).
Proof. repeat (split; [reflexivity|]). intros. apply dead_app; auto. Qed.
Lemma clear_grown v l : grown l (clear_obj v l).
Proof. repeat (split; [reflexivity|]). intros. apply dead_clear; auto. Qed.

Lemma save_gone_step l e r l' x r' k : Fac_Model.save_gone l e r = (l', x, r') -> unread l (k + (if full l && successb e then 1 else 0)) ->
  grown l l' /\ unread l' k.
Proof.
  intros E U. unfold Fac_Model.save_gone in E. destruct (process l e r) as [[l1 p] r1] eqn:EP. pose proof (process_core _ _ _ _ _ _ EP) as (C1 & C2 & C3 & C4).
  pose proof (core_grown l l1 C1 C2 C3 C4) as G1.
  destruct p as [e1|x1]; [|injection E as <- <- <-; split; auto; apply (unread_same l); auto; eapply unread_less; [exact U|lia]].
  pose proof (process_error _ _ _ _ _ _ EP) as EE.
  destruct (ev_error e1) as [er|] eqn:EF.
  - unfold save in E. rewrite EP, EF in E. injection E as <- <- <-.
    assert (G : grown l (clear_obj (length (l_objs l1)) (add_obj e1 l1))) by (eapply grown_trans; [exact G1|]; eapply grown_trans; [apply add_grown|apply clear_grown]).
    split; [exact G|]. apply (unread_same l); [exact G|exact C2|]. eapply unread_less; [exact U|lia].
  - assert (SU : successb e = true) by (unfold successb; rewrite <- EE; reflexivity).
    set (la := add_obj _ l1) in E. assert (Ga : grown l la) by (eapply grown_trans; [exact G1|apply add_grown]).
    pose proof (full_grown _ _ Ga) as FG. unfold full in FG at 1.
    destruct (l_m la) as [m|] eqn:EM.
    + destruct (length (l_top la) <? m) eqn:EL.
      * injection E as <- <- <-. split; auto. apply (unread_same l); auto. eapply unread_less; [exact U|lia].
      * cbn [negb] in FG. rewrite <- FG, SU in U. cbn [andb] in U. replace (k + 1) with (S k) in U by lia.
        destruct (heappushpop item_lt dummy (l_top la) (ev_score e1, length (l_objs l1))) as [rm top'] eqn:EH.
        pose proof (pushpop_perm _ _ _ _ _ _ EH) as PP. assert (TA : l_top la = l_top l) by exact C2. rewrite TA in PP.
        assert (LT : length top' = length (l_top l)) by (apply Permutation_length in PP; simpl in PP; lia).
        destruct (tuple_eq (fst rm) (ev_score e1)) eqn:ET.
        -- unfold save in E. rewrite EP, EF in E.
           assert (M1 : l_m (add_obj e1 l1) = Some m) by exact EM. rewrite M1 in E.
           change (l_top (add_obj e1 l1)) with (l_top la) in E. rewrite EL, EH, ET in E. injection E as <- <- <-.
           assert (G : grown l (add_lookup (ev_key e1) (length (l_objs l1)) (add_other (snd rm) (clear_obj (snd rm) (set_top top' (add_obj e1 l1)))))).
           { assert (G0 : grown l (clear_obj (snd rm) (add_obj e1 l1))) by (eapply grown_trans; [exact G1|]; eapply grown_trans; [apply add_grown|apply clear_grown]).
             destruct G0 as (A1 & A2 & A3 & A4). split; [exact A1|]. split; [exact A2|]. split; [exact LT|]. exact A4. }
           split; [exact G|]. eapply unread_pop; [exact G|exact PP|exact U].
        -- injection E as <- <- <-. assert (G : grown l (set_top top' la)).
           { destruct Ga as (A1 & A2 & A3 & A4). split; [exact A1|]. split; [exact A2|]. split; [exact LT|]. exact A4. }
           split; [exact G|]. eapply unread_pop; [exact G|exact PP|exact U].
    + injection E as <- <- <-. split; auto. apply (unread_same l); auto. eapply unread_less; [exact U|lia].
Qed.
Lemma saves_gone_step : forall es l r l' out k, saves_gone l es r = (l', out) ->
  unread l (k + (if full l then successes es else 0)) -> grown l l' /\ unread l' k.
Proof.
  induction es as [|e es IH]; intros l r l' out k E U; cbn [saves_gone] in E.
  - injection E as <- <-. split; [apply grown_refl|]. eapply unread_less; [exact U|lia].
  - destruct (Fac_Model.save_gone l e r) as [[l1 x] r1] eqn:E1. destruct (saves_gone l1 es r1) as [l2 xs] eqn:E2. injection E as <- <-.
    destruct (save_gone_step l e r l1 x r1 (k + (if full l then successes es else 0)) E1) as [G1 U1].
    { eapply unread_less; [exact U|]. unfold successes. cbn [filter]. destruct (full l), (successb e); simpl; lia. }
    destruct (IH l1 r1 l2 xs k E2) as [G2 U2]; [rewrite (full_grown _ _ G1); auto|]. split; auto. eapply grown_trans; eauto.
Qed.

(** Reading the kept evaluations then fails, and nothing is chosen. *)
Lemma unread_best row l : unread l 1 -> length (l_top l) <= 200 ->
  exists en, In en (Ens_Model.candidates row l 200) /\ Ens_Model.n_pred en = Err FileNotFoundError.
Proof.
  intros (D & bad & E1 & E2 & E3 & E4) L. destruct bad as [|u bad]; [simpl in E4; lia|]. inversion E2 as [|? ? (A & B & C) _]; subst.
  assert (Hu : In u (n_best l 200 true)).
  { unfold n_best. assert (Q : (match l_m l with None => true | Some m => (200 <=? m) || true end) = true) by (destruct (l_m l); [apply orb_true_r|reflexivity]).
    rewrite Q. set (q := py_sorted _ (l_top l)). assert (PQ : Permutation (l_top l) q) by apply Gp_Proofs.py_sorted_perm.
    rewrite firstn_all2 by (rewrite <- (Permutation_length PQ); exact L). apply (Permutation_in u (Permutation_map snd PQ)). apply E3. left; auto. }
  eexists. split; [unfold Ens_Model.candidates; apply in_map; exact Hu|]. cbn [Ens_Model.n_pred].
  unfold get_predictions. rewrite B, D. destruct (ev_file (obj l u)); [reflexivity|congruence].
Qed.
Lemma fill_fails tr smp : forall raw acc, (exists en x, In en raw /\ Ens_Model.n_pred en = Err x) -> exists l x, Ens_Model.fill tr smp raw acc = (l, Err x).
Proof.
  induction raw as [|e raw IH]; intros acc (en & x & Hi & Hx); cbn [Ens_Model.fill]; [destruct Hi|]. destruct Hi as [<-|Hi].
  - unfold Ens_Model.fetch. rewrite Hx. cbn [rbind]. eauto.
  - destruct (Ens_Model.fetch tr smp e); eauto.
Qed.
Lemma build_fit_fails raw tr smp score size left e x : (exists en y, In en raw /\ Ens_Model.n_pred en = Err y) ->
  Ens_Model.build_fit raw tr smp score size left Ens_Model.new_ens = (e, x) -> x <> Ok tt /\ Mix_Spec.useless tr e.
Proof.
  intros H E. destruct (fill_fails tr smp raw [] H) as (l & y & F). unfold Ens_Model.build_fit, Ens_Model.build_initial in E.
  assert (Z1 : ((if (size <=? 10)%Z then 1 else 10) <=? 0)%Z = false) by (destruct (size <=? 10)%Z; reflexivity). rewrite Z1 in E.
  unfold Ens_Model.model_library in E. cbn [Ens_Model.new_ens Ens_Model.e_models Ens_Model.e_lib] in E. rewrite F in E. cbn in E. injection E as <- <-.
  split; [discriminate|]. split; [reflexivity|]. intros. reflexivity.
Qed.
Lemma post_process_fails {A} row tr (metric : list A -> Ens_Model.mat -> res num) task options y left l r e x :
  unread l 1 -> length (l_top l) <= 200 -> fst (Pred_Model.post_process row tr metric task options y left l r) = Ok (e, x) ->
  x <> Ok tt /\ Mix_Spec.useless tr e.
Proof.
  intros U L E. unfold Pred_Model.post_process in E. destruct (Misc_Model.hp _ _) as [v|]; [|discriminate]. destruct (Pred_Model.int_of v) as [z|]; [|discriminate].
  unfold Pred_Model.build_fit_ensemble in E. match type of E with context[let (i, r') := ?q in _] => destruct q as [i r'] end. destruct i as [[y1 smp]|]; [|discriminate].
  cbn [fst rbind] in E. injection E as E. eapply build_fit_fails; [|exact E]. destruct (unread_best row l U L) as (en & H1 & H2). eauto.
Qed.

(** * The calls *)
Section Calls.
Context {B : Type} (split : nat -> list B -> rng -> res (list nat) * rng) (classifier : bool).
Lemma determine_core l y (t : list B) r l1 x r1 : determine split l None None (Some t) r = (l1, x, r1) -> y = l ->
  l_objs l1 = l_objs l /\ l_top l1 = l_top l /\ l_disk l1 = l_disk l /\ l_m l1 = l_m l /\ l_other l1 = l_other l /\ l_lookup l1 = l_lookup l /\ l_n l1 = l_n l.
Proof.
  intros E _. unfold determine in E. destruct (l_n l) as [k|] eqn:EN; [|injection E as <- <- <-; auto 10].
  destruct (k <? length t); [|injection E as <- <- <-; auto 10]. destruct (split k t r) as [[rows|] r3]; injection E as <- <- <-; auto 10.
Qed.
Lemma during_gone l f l' y k : during split classifier "logs" (l, false) f = (l', y) ->
  unread l (k + (if full l then successes (f_evs f) else 0)) -> grown l l' /\ unread l' k.
Proof.
  intros E U. unfold during in E. cbn [fst snd] in E. change (String.eqb "logs" "nothing") with false in E. cbv iota in E.
  assert (S : forall l1 x, (let (l1, x) := if classifier then match determine split l None None (Some (f_targets f)) (f_draws f) with (l1, x, _) => (l1, x) end else (l, Ok tt)
     in (l1, x)) = (l1, x) -> grown l l1 /\ l_top l1 = l_top l).
  { intros l1 x. destruct classifier; [|intros [= <- <-]; split; [apply grown_refl|reflexivity]].
    destruct (determine split l None None (Some (f_targets f)) (f_draws f)) as [[l2 x2] r2] eqn:ED. intros [= <- <-].
    destruct (determine_core _ l _ _ _ _ _ ED eq_refl) as (A1 & A2 & A3 & A4 & _). split; auto. apply core_grown; auto. }
  destruct (if classifier then _ else _) as [l1 x]. destruct (S l1 x eq_refl) as [G1 T1].
  assert (U1 : unread l1 (k + (if full l1 then successes (f_evs f) else 0))) by (rewrite (full_grown _ _ G1); apply (unread_same l); auto).
  destruct x as [[]|].
  - destruct (saves_gone l1 (f_evs f) (f_rng f)) as [l2 out] eqn:E2. injection E as <- <-.
    destruct (saves_gone_step _ _ _ _ _ k E2 U1) as [G2 U2]. split; auto. eapply grown_trans; eauto.
  - injection E as <- <-. split; auto. eapply unread_less; [exact U1|lia].
Qed.
Lemma wipe_grown l : l_disk l = [] -> grown l (Fac_Model.wipe l).
Proof. intros H. split; [symmetry; exact H|]. repeat (split; [reflexivity|]). auto. Qed.
Lemma after_gone l f k : unread l (k + (if full l then successes (f_evs f) else 0)) ->
  exists l', after split classifier "logs" (l, false) f = (l', false) /\ grown l l' /\ unread l' k.
Proof.
  intros U. unfold after. destruct (during split classifier "logs" (l, false) f) as [l1 x] eqn:E.
  destruct (during_gone _ _ _ _ _ E U) as [G1 U1]. destruct x; [|exists l1; auto]. exists (Fac_Model.wipe l1). split; [reflexivity|].
  destruct U1 as (D & R). pose proof (wipe_grown l1 D) as GW. split; [eapply grown_trans; eauto|]. apply (unread_same l1); auto. split; auto.
Qed.
Lemma successes_app a b : successes (a ++ b) = successes a + successes b.
Proof. unfold successes. rewrite filter_app, app_length. reflexivity. Qed.
Lemma afters_gone : forall fs l k, unread l (k + (if full l then successes (concat (map f_evs fs)) else 0)) ->
  exists l', afters split classifier "logs" (l, false) fs = (l', false) /\ grown l l' /\ unread l' k.
Proof.
  induction fs as [|f fs IH]; intros l k U; unfold afters; cbn [fold_left].
  - exists l. split; auto. split; [apply grown_refl|]. eapply unread_less; [exact U|lia].
  - cbn [map concat] in U. rewrite successes_app in U.
    destruct (after_gone l f (k + (if full l then successes (concat (map f_evs fs)) else 0))) as (l1 & E & G & U1).
    { eapply unread_less; [exact U|]. destruct (full l); lia. }
    rewrite E. destruct (IH l1 k) as (l2 & E2 & G2 & U2); [rewrite (full_grown _ _ G); auto|]. exists l2. split; auto. split; auto. eapply grown_trans; eauto.
Qed.
(** the first call *)
Lemma first_gone m n f l1 out : Forall ordinary (f_evs f) -> distinct (f_evs f) ->
  during split classifier "logs" (new_lib m n None, true) f = (l1, Ok out) ->
  after split classifier "logs" (new_lib m n None, true) f = (Fac_Model.wipe l1, false) /\ l_m l1 = m /\
  length (l_top l1) = (match m with None => successes (saved out) | Some m => Nat.min m (successes (saved out)) end) /\
  unread (Fac_Model.wipe l1) (length (l_top l1)).
Proof.
  intros HO HD E. split; [unfold after; rewrite E; reflexivity|]. unfold during, fit_library in E. cbn [fst snd] in E.
  assert (S : exists l0 r, empty_lib l0 /\ l_m l0 = m /\ saves l0 (f_evs f) r = (l1, out)).
  { destruct classifier.
    - destruct (determine split (new_lib m n None) None None (Some (f_targets f)) (f_draws f)) as [[l0 x] r0] eqn:ED.
      destruct (determine_core _ (new_lib m n None) _ _ _ _ _ ED eq_refl) as (A1 & A2 & A3 & A4 & A5 & A6 & _).
      destruct x; [|discriminate]. destruct (saves l0 (f_evs f) (f_rng f)) as [l2 o] eqn:E2. injection E as <- <-.
      exists l0, (f_rng f). split; [|split; auto]. repeat split; auto.
    - destruct (saves (new_lib m n None) (f_evs f) (f_rng f)) as [l2 o] eqn:E2. injection E as <- <-.
      exists (new_lib m n None), (f_rng f). split; [|split; auto]. repeat split; auto. }
  destruct S as (l0 & r & H0 & HM & HS). pose proof (run_inv _ _ _ _ _ H0 HO HD HS) as I.
  destruct (saves_m_n _ _ _ _ _ HS) as [Em _].
  split; [congruence|]. split; [rewrite (v_size _ _ I), Em, HM; reflexivity|].
  split; [reflexivity|]. exists (map snd (l_top l1)). split.
  - pose proof (v_perm _ _ I) as P. assert (ND : NoDup (map snd (l_top l1) ++ l_other l1)) by (eapply Permutation_NoDup; [symmetry; exact P|apply seq_NoDup]).
    clear - ND. induction (map snd (l_top l1)) as [|u q IH]; [constructor|]. cbn in ND. inversion ND; subst. constructor; auto. intros K. apply H1. apply in_or_app; auto.
  - split; [|split; [apply incl_refl|rewrite map_length; auto]]. apply Forall_forall. intros u Hu.
    destruct (v_disk _ _ I u Hu) as (A1 & A2 & A3 & A4). apply in_map_iff in Hu as (z & <- & Hz). destruct (v_item _ _ I z Hz) as (Hl & _).
    split; [cbn; rewrite (v_len _ _ I); auto|]. split; [exact A2|]. change (ev_file (obj l1 (snd z)) <> None). rewrite A3. discriminate.
Qed.
End Calls.

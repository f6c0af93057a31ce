From Verif Require Import Base Num Num_Proofs Nsga_Model Nsga_Spec Nsga_Proofs Nsga_Proofs2 Nsga_Proofs3 Nsga_Proofs4.
Require Import Permutation Sorting Lqa.
Open Scope nat_scope.

(** * crowd never fails and only touches distances *)
Lemma sbd_refl ms : same_but_dist ms ms. Proof. split; auto. Qed.
Lemma sbd_trans a b c : same_but_dist a b -> same_but_dist b c -> same_but_dist a c.
Proof. intros [A1 A2] [B1 B2]. split; [congruence|]. intros p. destruct (A2 p), (B2 p). split; congruence. Qed.
Lemma sbd_upd i f ms : (forall m, m_vals (f m) = m_vals m /\ m_rank (f m) = m_rank m) -> same_but_dist ms (upd i f ms).
Proof.
  intros H. split; [apply upd_length|]. intros p. destruct (Nat.lt_ge_cases i (length ms)); [|rewrite upd_out; auto].
  rewrite get_upd by auto. destruct (Nat.eqb_spec p i) as [->|]; auto.
Qed.
Lemma crowd_metric_sbd st m : same_but_dist (snd st) (snd (crowd_metric st m)).
Proof.
  destruct st as [I0 ms]. unfold crowd_metric. cbn [snd].
  set (I := sort_by ms m I0). set (ms1 := upd _ _ (upd _ _ ms)).
  assert (H1 : same_but_dist ms ms1).
  { eapply sbd_trans; apply sbd_upd; intros []; simpl; auto. }
  destruct (_ || _ || _); cbn [snd]; auto.
  set (g := fun ms' (abc : nat * nat * nat) => _).
  enough (HH : forall T ms', same_but_dist ms' (fold_left g T ms')) by (eapply sbd_trans; eauto).
  induction T as [|[[a b] c] T IH]; intros ms'; [apply sbd_refl|]. cbn [fold_left].
  eapply sbd_trans; [|apply IH]. apply sbd_upd. intros []; simpl; auto.
Qed.
Lemma crowd_sbd ms I : I <> [] -> exists ms', crowd ms I = Ok ms' /\ same_but_dist ms ms'.
Proof.
  intros H. destruct I as [|i0 I]; [congruence|]. eexists. split; [reflexivity|].
  generalize (seq 0 (length (m_vals (get ms i0)))) as l, (i0 :: I) as I0. clear.
  assert (HH : forall l st, same_but_dist (snd st) (snd (fold_left crowd_metric l st))).
  { induction l as [|m l IH]; intros st; [apply sbd_refl|]. cbn [fold_left].
    eapply sbd_trans; [apply crowd_metric_sbd|apply IH]. }
  intros l I0. apply (HH l (I0, ms)).
Qed.

Lemma crowd_sort_perm ms I : Permutation I (crowd_sort ms I).
Proof. apply sorted_perm. Qed.

(** * fill *)
Definition ended (fs : list (list nat)) : Prop := exists body, fs = body ++ [[]] /\ Forall (fun F => F <> []) body.

Lemma fill_done fs n sel ms : length sel = n -> fill fs n sel ms = Ok (ms, sel).
Proof. intros H. destruct fs; simpl; rewrite (proj2 (Nat.ltb_ge (length sel) n)) by lia; auto. Qed.

Definition cut (fs : list (list nat)) (ms' : list meta) (sel' : list nat) (j : nat) (F : list nat) (c : nat) : Prop :=
  nth_error fs j = Some F /\ 0 < c <= length F /\ sel' = concat (firstn j fs) ++ firstn c (crowd_sort ms' F).

Lemma fill_ok : forall fs n sel ms, ended fs -> length sel < n <= length sel + length (concat fs) ->
  exists ms' sel', fill fs n sel ms = Ok (ms', sel ++ sel') /\ same_but_dist ms ms' /\ length (sel ++ sel') = n /\
    exists j F c, cut fs ms' sel' j F c.
Proof.
  induction fs as [|F fs IH]; intros n sel ms (body & Eb & Hb) Hn; [destruct body; discriminate|].
  destruct body as [|F' body]; simpl in Eb; inversion Eb; subst; [simpl in Hn; lia|].
  inversion Hb; subst. cbn [fill]. rewrite (proj2 (Nat.ltb_lt (length sel) n)) by lia.
  destruct (crowd_sbd ms F') as (ms1 & E1 & S1); auto. rewrite E1. cbn [rbind].
  destruct (Nat.ltb_spec (length sel + length F') n) as [Hlt|Hge].
  - destruct (IH n (sel ++ F') ms1) as (ms' & sel' & E2 & S2 & L2 & j & G & c & HC1 & HC2 & HC3).
    { exists body; auto. } { cbn [concat] in Hn. rewrite app_length in *. lia. }
    exists ms', (F' ++ sel'). rewrite app_assoc. split; auto. split; [eapply sbd_trans; eauto|]. split; auto.
    exists (S j), G, c. split; auto. split; auto. cbn [firstn concat]. rewrite HC3, app_assoc. auto.
  - set (s := firstn (n - length sel) (crowd_sort ms1 F')).
    assert (Ls : length s = n - length sel).
    { unfold s. apply firstn_length_le. rewrite <- (Permutation_length (crowd_sort_perm ms1 F')). lia. }
    rewrite fill_done by (rewrite app_length; lia).
    exists ms1, s. split; auto. split; auto. split; [rewrite app_length; lia|].
    exists 0, F', (n - length sel). split; auto. split; auto. lia.
Qed.

(** * Values are ordinary numbers *)
Definition plain (k : nat) (ms : list meta) (I : list nat) : Prop :=
  NoDup I /\ forall p, In p I -> p < length ms /\ length (m_vals (get ms p)) = k /\ forall m, m < k -> value_at ms m p <> NaN.

Lemma smallest_eq ms I m p : smallest ms I m p <-> smallest_in (value_at ms m) I p. Proof. reflexivity. Qed.
Lemma largest_eq ms I m p : largest ms I m p <-> largest_in (value_at ms m) I p. Proof. reflexivity. Qed.

Lemma crowd_ok k ms I : I <> [] -> plain k ms I -> (forall p, In p I -> m_dist (get ms p) = Fin 0) ->
  exists ms', crowd ms I = Ok ms' /\ same_but_dist ms ms' /\ (forall p, ~ In p I -> get ms' p = get ms p) /\
    crowding k (value_at ms) I (fun p => m_dist (get ms' p)).
Proof.
  intros NE [ND HP] H0. destruct I as [|i0 I']; [congruence|]. set (I := i0 :: I') in *.
  destruct (HP i0) as (L0 & K0 & V0); [simpl; auto|].
  destruct (crowd_fold I ND NE (seq 0 k) I ms) as (I1 & ms1 & E1 & SB & OUT & G & P & EX & INF & GAP); auto.
  { intros; apply HP; auto. } { intros m p Hm Hp. apply HP; auto. apply in_seq in Hm. lia. }
  { intros p Hp. right. exists 0%Q. split; auto. lra. }
  exists ms1. unfold crowd, I. fold I. rewrite K0, E1. split; auto. split; auto. split; auto.
  split; [|split; [|split]].
  - intros m Hm. destruct (EX m) as (lo & hi & H1 & H2 & H3 & H4); [apply in_seq; lia|]. exists lo, hi. auto.
  - intros p Hp Hd. destruct (INF p Hp Hd) as [H|(m & Hm & H)]; [rewrite H0 in H; [discriminate|auto]|].
    exists m. apply in_seq in Hm. split; [lia|auto].
  - intros p Hp. apply (G p Hp).
  - intros HF p Hp Hd. destruct (GAP) with (p := p) (d0 := 0%Q) as (ds & t & F2 & Et & Ht); auto.
    { intros m q Hm Hq. apply HF; auto. apply in_seq in Hm. lia. }
    exists ds, t. split; auto. split; auto. rewrite Ht. lra.
Qed.

Lemma plain_sbd k ms ms' I : same_but_dist ms ms' -> plain k ms I -> plain k ms' I.
Proof.
  intros SB [ND H]. split; auto. intros p Hp. destruct (H p Hp) as (H1 & H2 & H3). pose proof SB as [S1 S2].
  split; [lia|]. split; [destruct (S2 p) as [-> _]; auto|]. intros m Hm. rewrite (sbd_value ms ms'); auto.
Qed.

Lemma crowding_ext k v v' I d d' : (forall m p, m < k -> In p I -> v m p = v' m p) -> (forall p, In p I -> d p = d' p) ->
  crowding k v I d -> crowding k v' I d'.
Proof.
  intros EV ED (C1 & C2 & C3 & C4).
  assert (SM : forall m p, m < k -> smallest_in (v m) I p -> smallest_in (v' m) I p).
  { intros m p Hm [H1 H2]. split; auto. intros q Hq. rewrite <- !EV; auto. }
  assert (LG : forall m p, m < k -> largest_in (v m) I p -> largest_in (v' m) I p).
  { intros m p Hm [H1 H2]. split; auto. intros q Hq. rewrite <- !EV; auto. }
  split; [|split; [|split]].
  - intros m Hm. destruct (C1 m Hm) as (lo & hi & H1 & H2 & H3 & H4). exists lo, hi.
    rewrite <- !ED by (try apply H1; try apply H2). auto.
  - intros p Hp Hd. rewrite <- ED in Hd by auto. destruct (C2 p Hp Hd) as (m & Hm & H). exists m. split; auto. destruct H; auto.
  - intros p Hp. rewrite <- ED; auto.
  - intros HF p Hp Hd. rewrite <- ED in Hd by auto.
    destruct (C4) with (p := p) as (ds & t & F2 & Et & Ht); auto.
    { intros m q Hm Hq. rewrite EV; auto. }
    exists ds, t. split; [|rewrite <- ED; auto].
    assert (HH : forall l ds, (forall m, In m l -> m < k) -> Forall2 (fun m d => relative_gap (v m) I p d) l ds -> Forall2 (fun m d => relative_gap (v' m) I p d) l ds).
    { clear - EV SM LG Hp. intros l ds Hl F2. induction F2 as [|m q l ds Hr F2 IH]; constructor.
      - assert (Hm : m < k) by (apply Hl; simpl; auto).
        destruct Hr as (lo & hi & vl & vh & H1 & H2 & H3 & H4 & H5). exists lo, hi, vl, vh.
        split; auto. split; auto. rewrite <- !EV by (auto; try apply H1; try apply H2). split; auto. split; auto.
        destruct H5 as [H5|(H5 & a & c & va & vc & Ha & Hc & Na & Nc & Ea & Ec & Lap & Lpc & NB & Ed)]; auto.
        right. split; auto. exists a, c, va, vc. rewrite <- !EV by auto. repeat split; auto.
        intros x Hx Hxp. rewrite <- !EV by auto. auto.
      - apply IH. intros; apply Hl; simpl; auto. }
    apply HH; auto. intros m Hm. apply in_seq in Hm. lia.
Qed.

Lemma fill_crowding k : forall fs n sel ms ms' sel', ended fs -> NoDup (concat fs) ->
  (forall F, In F fs -> plain k ms F) -> (forall p, In p (concat fs) -> m_dist (get ms p) = Fin 0) ->
  length sel < n <= length sel + length (concat fs) ->
  fill fs n sel ms = Ok (ms', sel ++ sel') ->
  (forall p, ~ In p (concat fs) -> get ms' p = get ms p) /\
  exists j F c, cut fs ms' sel' j F c /\
    forall i G, i <= j -> nth_error fs i = Some G -> crowding k (value_at ms) G (fun p => m_dist (get ms' p)).
Proof.
  induction fs as [|F fs IH]; intros n sel ms ms' sel' (body & Eb & Hb) ND PL D0 Hn HF; [destruct body; discriminate|].
  destruct body as [|F' body]; simpl in Eb; inversion Eb; subst; [simpl in Hn; lia|].
  inversion Hb; subst. cbn [fill] in HF. rewrite (proj2 (Nat.ltb_lt (length sel) n)) in HF by lia.
  cbn [concat] in *. destruct (NoDup_app_split _ _ ND) as (NDF & NDr & DIS).
  destruct (crowd_ok k ms F') as (ms1 & E1 & S1 & OUT1 & C1); auto.
  { apply PL; simpl; auto. } { intros; apply D0, in_or_app; auto. }
  rewrite E1 in HF. cbn [rbind] in HF.
  destruct (Nat.ltb_spec (length sel + length F') n) as [Hlt|Hge].
  - destruct (fill_ok (body ++ [[]]) n (sel ++ F') ms1) as (ms2 & sel2 & E2 & S2 & L2 & _).
    { exists body; auto. } { rewrite app_length in *. lia. }
    rewrite E2 in HF. inversion HF. subst ms2.
    assert (Es : sel' = F' ++ sel2) by (apply (app_inv_head sel); rewrite app_assoc; auto).
    destruct (IH n (sel ++ F') ms1 ms' sel2) as (OUT2 & j & G & c & HC & HCR); auto.
    { exists body; auto. }
    { intros F HinF. eapply plain_sbd; eauto. apply PL; simpl; auto. }
    { intros p Hp. rewrite OUT1; [apply D0, in_or_app; auto|]. intros Hp'. eapply DIS; eauto. }
    { rewrite app_length in *. lia. }
    split.
    + intros p Hp. rewrite in_app_iff in Hp. rewrite OUT2, OUT1; auto.
    + exists (S j), G, c. destruct HC as (HC1 & HC2 & HC3). split.
      * split; auto. split; auto. cbn [firstn concat]. rewrite Es, HC3, app_assoc. auto.
      * intros [|i] G' Hi HG'.
        { simpl in HG'. inversion HG'; subst G'. eapply crowding_ext; [| |exact C1]; auto.
          intros p Hp. simpl. rewrite OUT2; auto. }
        { simpl in HG'. specialize (HCR i G' ltac:(lia) HG'). eapply crowding_ext; [| |exact HCR]; auto.
          intros m p _ _. rewrite (sbd_value ms ms1); auto. }
  - set (s := firstn (n - length sel) (crowd_sort ms1 F')) in *.
    assert (Ls : length s = n - length sel).
    { unfold s. apply firstn_length_le. rewrite <- (Permutation_length (crowd_sort_perm ms1 F')). lia. }
    rewrite fill_done in HF by (rewrite app_length; lia).
    injection HF as Hms Hsel. subst ms1. apply app_inv_head in Hsel. subst sel'.
    split.
    + intros p Hp. rewrite in_app_iff in Hp. apply OUT1; auto.
    + exists 0, F', (n - length sel). split; [split; [auto|split; [lia|auto]]|].
      intros i G Hi HG. assert (i = 0) by lia. subst i. simpl in HG. inversion HG; subst G. auto.
Qed.

(** * Tournaments *)
Lemma remove_nth_ok {A} : forall (L : list A) i x, NoDup L -> nth_error L i = Some x ->
  NoDup (remove_nth i L) /\ length (remove_nth i L) = length L - 1 /\ incl (remove_nth i L) L /\ ~ In x (remove_nth i L).
Proof.
  induction L as [|y L IH]; intros [|i] x ND En; simpl in *; try discriminate.
  - inversion En; subst. inversion ND; subst. split; auto. split; [lia|]. split; auto. intros z Hz; simpl; auto.
  - inversion ND; subst. destruct (IH i x H2 En) as (I1 & I2 & I3 & I4).
    assert (Lp : 0 < length L) by (assert (i < length L) by (apply nth_error_Some; congruence); lia).
    split; [constructor; auto|]. split; [simpl; lia|]. split.
    + intros z [->|Hz]; simpl; auto.
    + intros [->|Hz]; [|auto]. apply H1. eapply nth_error_In; eauto.
Qed.
Lemma rsample_ok {A} : forall k (l : list A) r, NoDup l -> k <= length l ->
  exists xs r', rsample k l r = (Ok xs, r') /\ length xs = k /\ NoDup xs /\ incl xs l.
Proof.
  induction k as [|k IH]; intros l r ND HL.
  - exists [], r. repeat split; auto. constructor. intros x [].
  - destruct l as [|a l]; [simpl in HL; lia|]. set (L := a :: l) in *. cbn [rsample]. unfold L at 1.
    destruct (draw r) as [d r1]. fold L.
    assert (Hd : d mod length L < length L) by (apply Nat.mod_upper_bound; unfold L; simpl; lia).
    destruct (nth_error L (d mod length L)) as [x|] eqn:En; [|apply nth_error_None in En; lia].
    set (i := d mod length L) in *.
    assert (HR : NoDup (remove_nth i L) /\ length (remove_nth i L) = length L - 1 /\ incl (remove_nth i L) L /\ ~ In x (remove_nth i L)).
    { apply remove_nth_ok; auto. }
    destruct HR as (R1 & R2 & R3 & R4).
    destruct (IH (remove_nth i L) r1) as (xs & r' & E1 & L1 & N1 & I1); auto; [lia|].
    unfold L in E1 |- *. fold L in E1 |- *. rewrite E1. exists (x :: xs), r'. split; [reflexivity|].
    split; [simpl; lia|]. split; [constructor; auto|]. intros z [->|Hz]; auto. eapply nth_error_In; eauto.
Qed.

Lemma better_asym x y : better x y = true -> better y x = false.
Proof.
  unfold better. intros H. destruct (m_rank y <? m_rank x) eqn:E1; destruct (m_rank y =? m_rank x) eqn:E2;
    destruct (nltb (m_dist x) (m_dist y)) eqn:E3; auto; simpl in *;
    rewrite ?Nat.ltb_lt, ?Nat.ltb_ge, ?Nat.eqb_eq, ?Nat.eqb_neq in *;
    destruct (Nat.ltb_spec (m_rank x) (m_rank y)), (Nat.eqb_spec (m_rank x) (m_rank y)); simpl in *; try lia; try discriminate;
    exfalso; eapply nlt_irrefl; eapply nlt_trans; eauto.
Qed.

Lemma select_one_ok ms cands ex r : NoDup cands -> 3 <= length cands ->
  exists w r', select_one ms cands ex r = (Ok w, r') /\ In w cands /\ (forall e, ex = Some e -> w <> e) /\
    exists l, In l cands /\ l <> w /\ (forall e, ex = Some e -> l <> e) /\ better (get ms l) (get ms w) = false.
Proof.
  intros ND HL. unfold select_one. destruct (rsample_ok 3 cands r ND HL) as (xs & r' & E & L & N & I). rewrite E. cbn [rbind].
  set (f := fun x => match ex with None => true | Some e => negb (x =? e) end).
  assert (HF : exists a b l, filter f xs = a :: b :: l).
  { destruct xs as [|x [|y [|z [|? ?]]]]; simpl in L; try lia.
    inversion N; subst. inversion H2; subst. simpl in H1, H3. unfold f. destruct ex as [e|]; simpl; eauto.
    destruct (Nat.eqb_spec x e); destruct (Nat.eqb_spec y e); destruct (Nat.eqb_spec z e); simpl; eauto; exfalso; subst; tauto. }
  destruct HF as (a & b & l & EF). rewrite EF.
  assert (NF : NoDup (filter f xs)) by (apply NoDup_filter; auto). rewrite EF in NF. inversion NF; subst.
  assert (Ha : In a (filter f xs)) by (rewrite EF; simpl; auto). assert (Hb : In b (filter f xs)) by (rewrite EF; simpl; auto).
  apply filter_In in Ha as [Ha1 Ha2], Hb as [Hb1 Hb2].
  assert (Fex : forall x, f x = true -> forall e, ex = Some e -> x <> e).
  { intros x Hx e ->. unfold f in Hx. rewrite negb_true_iff, Nat.eqb_neq in Hx. auto. }
  assert (Hab : a <> b) by (intros ->; simpl in *; tauto).
  destruct (better (get ms a) (get ms b)) eqn:B.
  - exists a, r'. repeat split; auto. exists b. repeat split; auto. apply better_asym; auto.
  - exists b, r'. repeat split; auto. exists a. repeat split; auto.
Qed.

Lemma select_pairs_ok ms cands : NoDup cands -> 3 <= length cands -> forall n r,
  exists ps r', select_pairs ms cands n r = (Ok ps, r') /\ length ps = n /\
    forall f g, In (f, g) ps -> In f cands /\ In g cands /\ f <> g /\
      (exists l, In l cands /\ l <> f /\ better (get ms l) (get ms f) = false) /\
      (exists l, In l cands /\ l <> g /\ l <> f /\ better (get ms l) (get ms g) = false).
Proof.
  intros ND HL. induction n as [|n IH]; intros r.
  - exists [], r. repeat split; auto; destruct H.
  - cbn [select_pairs].
    destruct (select_one_ok ms cands None r ND HL) as (f & r1 & E1 & If & _ & l1 & Il1 & Nl1 & _ & B1). rewrite E1.
    destruct (select_one_ok ms cands (Some f) r1 ND HL) as (g & r2 & E2 & Ig & Ng & l2 & Il2 & Nl2 & Nf2 & B2). rewrite E2.
    destruct (IH r2) as (ps & r3 & E3 & L3 & H3). rewrite E3. exists ((f, g) :: ps), r3. split; auto. split; [simpl; lia|].
    intros f' g' [E|Hin]; [|auto]. inversion E; subst f' g'. split; auto. split; auto. split; [intros ->; eapply Ng; eauto|].
    split; [exists l1; auto|]. exists l2. repeat split; auto.
Qed.

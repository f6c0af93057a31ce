From Verif Require Import Base Num Num_Proofs Heap_Model Nsga_Model Lib_Model Lib_Spec Lib_Proofs Lib_Proofs2 Lib_Proofs3 Lib_Main
  Ens_Model Ens_Spec Ens_Proofs Ens_Proofs2 Ens_Main Hist_Model Hist_Spec Hist_Proofs.
Require Import Permutation Sorting.
Open Scope nat_scope.

(** * Without sampling the draws do not matter *)
Definition plain (l : lib) : Prop := l_sample l = NotSet \/ l_sample l = KeepAll.
Definition whole (n : option nat) (e : ev) : Prop := exists p, ev_pred e = Some p /\ all_stored n (length p).
Lemma process_keep l e : plain l -> whole (l_n l) e -> forall r, process l e r = (set_sample KeepAll l, Ok e, r).
Proof.
  intros PL (p & EP & A) r. unfold process.
  assert (E0 : match l_n l with Some 0 => with_pred None e | _ => e end = e) by (destruct (l_n l) as [[|]|]; auto; simpl in A; lia).
  rewrite E0, EP. destruct PL as [PL|PL]; rewrite PL.
  - unfold determine. destruct (l_n l) as [n|]; [|reflexivity]. simpl in A. destruct (Nat.ltb_spec n (length p)); [lia|]. reflexivity.
  - rewrite PL. replace (set_sample KeepAll l) with l by (rewrite <- PL; symmetry; apply set_sample_same). reflexivity.
Qed.
Lemma save_keep l e : plain l -> whole (l_n l) e -> exists l1 x, (forall r, save l e r = (l1, x, r)) /\ l_sample l1 = KeepAll /\ l_n l1 = l_n l.
Proof.
  intros PL W. pose proof (process_keep l e PL W) as PK.
  destruct (save l e []) as [[l1 x] r1] eqn:E.
  exists l1, x. split; [|split; [rewrite (save_sample _ _ _ _ _ _ E), PK; reflexivity|apply (save_m_n _ _ _ _ _ _ E)]].
  intros r. unfold save in *. rewrite PK in *.
  destruct (ev_error e); [injection E as <- <- <-; reflexivity|].
  destruct (match l_m (add_obj e (set_sample KeepAll l)) with None => true | Some m => length (l_top (add_obj e (set_sample KeepAll l))) <? m end);
    [injection E as <- <- <-; reflexivity|].
  destruct (heappushpop _ _ _ _) as [rm t]. destruct (tuple_eq _ _); [injection E as <- <- <-; reflexivity|].
  destruct (remove_from_disk _ _) as [l4 [|]]; injection E as <- <- <-; reflexivity.
Qed.
Lemma saves_app : forall es1 es2 l r, plain l -> Forall (whole (l_n l)) es1 -> exists l1 o1,
  (forall r, saves l es1 r = (l1, o1)) /\ plain l1 /\ l_n l1 = l_n l /\ (l_sample l = KeepAll -> l_sample l1 = KeepAll) /\
  saves l (es1 ++ es2) r = (let (l2, o2) := saves l1 es2 r in (l2, o1 ++ o2)).
Proof.
  induction es1 as [|e es1 IH]; intros es2 l r PL W.
  - exists l, []. repeat split; auto. simpl. destruct (saves l es2 r); reflexivity.
  - inversion W; subst. destruct (save_keep l e PL H1) as (l1 & x & S1 & K1 & N1).
    destruct (IH es2 l1 r) as (l2 & o2 & A & B & C & K & D); [right; auto|rewrite N1; auto|].
    exists l2, ((e, x) :: o2). split; [intros r0; simpl; rewrite S1, A; reflexivity|]. split; auto. split; [congruence|]. split; auto.
    simpl. rewrite S1, D. destruct (saves l2 es2 r). reflexivity.
Qed.
Lemma saves_whole : forall es l S r l' out, inv l S -> Forall ordinary es -> distinct (S ++ es) -> plain l -> Forall (whole (l_n l)) es ->
  saves l es r = (l', out) -> saved out = es.
Proof.
  induction es as [|e es IH]; intros l S r l' out I O D PL W E; simpl in E; [inversion E; subst; auto|].
  destruct (save l e r) as [[l1 x] r1] eqn:ES. destruct (saves l1 es r1) as [l2 xs] eqn:EV. inversion E; subst.
  inversion O; subst. inversion W; subst. destruct (save_keep l e PL H3) as (l1' & x' & S1 & K1 & N1).
  rewrite S1 in ES. injection ES as -> -> ->.
  destruct (save_inv l S e r1 l1 x r1 I H1 (distinct_app _ _ _ D) (S1 r1)) as [[-> I1]|(y & -> & I1 & Q)].
  - unfold saved. cbn. f_equal. apply (IH l1 (S ++ [e]) r1 l' xs); auto; [rewrite <- app_assoc; auto|right; auto|rewrite N1; auto].
  - rewrite process_keep in Q by auto. discriminate.
Qed.

(** A sequence of fits is one history. *)
Section Fits.
Context {B : Type} (split : nat -> list B -> rng -> res (list nat) * rng) (classifier : bool).
Lemma determine_keep l y r : all_stored (l_n l) (length y) -> determine split l None None (Some y) r = (set_sample KeepAll l, Ok tt, r).
Proof.
  intros A. unfold determine. destruct (l_n l) as [n|]; auto. simpl in A. destruct (Nat.ltb_spec n (length y)); auto. lia.
Qed.
Definition fits_whole n (f : fit_run) : Prop := all_stored n (length (f_targets (B := B) f)) /\ Forall (whole n) (f_evs f).
Lemma fits_saves : forall fs l, plain l -> (classifier = true -> l_sample l = KeepAll) -> Forall (fits_whole (l_n l)) fs ->
  forall r, exists out, saves l (concat (map f_evs fs)) r = (fits split classifier l fs, out).
Proof.
  induction fs as [|f fs IH]; intros l PL CL W r; simpl; [eauto|]. inversion W as [|? ? [W1 W2] W3]; subst.
  destruct (saves_app (f_evs f) (concat (map f_evs fs)) l r PL W2) as (l1 & o1 & A & PL1 & N1 & KK & D).
  assert (FL : fst (fit_library split classifier l f) = l1).
  { unfold fit_library. destruct classifier; [|rewrite A; auto]. rewrite determine_keep by auto.
    rewrite <- (CL eq_refl), set_sample_same, A. reflexivity. }
  rewrite FL, D. destruct (IH l1 PL1) with (r := r) as (out & EO); [|rewrite N1; auto|rewrite EO; eauto].
  auto.
Qed.
End Fits.

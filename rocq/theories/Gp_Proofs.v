From Verif Require Import Base Gp_Model Gp_Spec.
Require Import Permutation Sorted.
Open Scope nat_scope.


(** * Weakest preconditions *)
Definition wp {A} (m : M A) (s : st) (Q : A -> st -> Prop) (E : exn -> st -> Prop) : Prop :=
  match m s with (Ok a, s') => Q a s' | (Err e, s') => E e s' end.

Lemma wp_bind {A B} (m : M A) (k : A -> M B) s Q E :
  wp m s (fun a s' => wp (k a) s' Q E) E -> wp (mbind m k) s Q E.
Proof. unfold wp, mbind. destruct (m s) as [[a|e] s']; auto. Qed.

Lemma wp_bind_inv {A B} (m : M A) (k : A -> M B) s Q E :
  wp (mbind m k) s Q E -> wp m s (fun a s' => wp (k a) s' Q E) E.
Proof. unfold wp, mbind. destruct (m s) as [[a|e] s']; auto. Qed.

Lemma wp_mono {A} (m : M A) s (Q Q' : A -> st -> Prop) (E E' : exn -> st -> Prop) :
  wp m s Q E -> (forall a s', Q a s' -> Q' a s') -> (forall e s', E e s' -> E' e s') ->
  wp m s Q' E'.
Proof. unfold wp. destruct (m s) as [[a|e] s']; auto. Qed.

Lemma wp_eq {A} (m : M A) s a s' (Q : A -> st -> Prop) E : m s = (Ok a, s') -> Q a s' -> wp m s Q E.
Proof. unfold wp. intros -> H; exact H. Qed.
Lemma wp_err {A} (m : M A) s e s' Q (E : exn -> st -> Prop) : m s = (Err e, s') -> E e s' -> wp m s Q E.
Proof. unfold wp. intros -> H; exact H. Qed.
Lemma wp_ok {A} (m : M A) s a s' (Q : A -> st -> Prop) E : m s = (Ok a, s') -> wp m s Q E -> Q a s'.
Proof. unfold wp. intros ->. auto. Qed.
Lemma wp_fail {A} (m : M A) s e s' Q (E : exn -> st -> Prop) : m s = (Err e, s') -> wp m s Q E -> E e s'.
Proof. unfold wp. intros ->. auto. Qed.
Lemma wp_ret {A} (a : A) s (Q : A -> st -> Prop) E : Q a s -> wp (mret a) s Q E.
Proof. auto. Qed.

Lemma wp_bind_eq {A B} (m : M A) (k : A -> M B) s a s' Q E :
  m s = (Ok a, s') -> wp (k a) s' Q E -> wp (mbind m k) s Q E.
Proof. intros H H2. apply wp_bind. eapply wp_eq; eauto. Qed.

(** * Segments of the data chain *)
Inductive seg (h : heap) : dref -> list loc -> list step -> dref -> Prop :=
| seg_nil : forall d, seg h d [] [] d
| seg_cons : forall l c ls ss d',
    h_get h l = Some c -> seg h (c_data c) ls ss d' ->
    seg h (DRef l) (l :: ls) ((c_prim c, c_terms c) :: ss) d'.

Lemma chain_seg h d ls ss : chain h d ls ss <-> seg h d ls ss DData.
Proof.
  split.
  - induction 1; econstructor; eauto.
  - remember DData as e. induction 1; subst; econstructor; eauto.
Qed.

Lemma seg_app h d l1 s1 m l2 s2 d' :
  seg h d l1 s1 m -> seg h m l2 s2 d' -> seg h d (l1 ++ l2) (s1 ++ s2) d'.
Proof. induction 1; simpl; intros; auto. econstructor; eauto. Qed.

Lemma seg_split h l1 : forall d l2 ss d',
  seg h d (l1 ++ l2) ss d' ->
  exists s1 s2 m, ss = s1 ++ s2 /\ seg h d l1 s1 m /\ seg h m l2 s2 d'.
Proof.
  induction l1 as [|l l1 IH]; simpl; intros d l2 ss d' H.
  - exists [], ss, d. repeat split; auto. constructor.
  - inversion H as [|? c ? ? ? Hg Hseg]; subst. apply IH in Hseg as (s1 & s2 & m & -> & Hs1 & Hs2).
    exists ((c_prim c, c_terms c) :: s1), s2, m. repeat split; auto.
    econstructor; eauto.
Qed.

Lemma seg_frame h h' d ls ss d' :
  seg h d ls ss d' -> (forall l, In l ls -> h_get h' l = h_get h l) -> seg h' d ls ss d'.
Proof.
  induction 1; intros F; constructor.
  - rewrite F; simpl; auto.
  - apply IHseg. intros; apply F; simpl; auto.
Qed.

Lemma seg_len h d ls ss d' : seg h d ls ss d' -> length ls = length ss.
Proof. induction 1; simpl; auto. Qed.

Lemma chain_len h d ls ss : chain h d ls ss -> length ls = length ss.
Proof. intros H; apply chain_seg in H; eapply seg_len; eauto. Qed.

Lemma chain_fun h d ls ss : chain h d ls ss ->
  forall ls' ss', chain h d ls' ss' -> ls = ls' /\ ss = ss'.
Proof.
  induction 1 as [|l c ls ss G C IH]; intros ls' ss' H'; inversion H' as [|? c2 ? ? G2 C2]; subst; auto.
  rewrite G in G2; inversion G2; subst.
  destruct (IH _ _ C2); subst; auto.
Qed.

Lemma chain_frame h h' d ls ss :
  chain h d ls ss -> (forall l, In l ls -> h_get h' l = h_get h l) -> chain h' d ls ss.
Proof. rewrite !chain_seg. intros; eapply seg_frame; eauto. Qed.

Lemma chain_nodup h d ls ss : chain h d ls ss -> NoDup ls.
Proof.
  induction 1 as [|l c ls ss G C IH]; constructor; auto.
  intros Hin. apply in_split in Hin as (a & b & ->).
  pose proof C as Hc. apply chain_seg in C. apply seg_split in C as (s1 & s2 & m & -> & S1 & S2).
  inversion S2 as [|? c0 ? ss0 ? G0 S0]; subst.
  assert (C1 : chain h (DRef l) (l :: b) ((c_prim c0, c_terms c0) :: ss0)) by (apply chain_seg; auto).
  assert (C2 : chain h (DRef l) (l :: a ++ l :: b) ((c_prim c, c_terms c) :: s1 ++ (c_prim c0, c_terms c0) :: ss0))
    by (econstructor; eauto).
  destruct (chain_fun _ _ _ _ C1 _ _ C2) as [E _].
  apply (f_equal (@length _)) in E. simpl in E. rewrite app_length in E. simpl in E. lia.
Qed.

Lemma chain_dom h d ls ss : chain h d ls ss -> forall l, In l ls -> exists c, h_get h l = Some c.
Proof. induction 1; simpl; intros l' Hin; [tauto|]. destruct Hin as [<-|]; eauto. Qed.

Lemma chain_lt h d ls ss : wf_heap h -> chain h d ls ss -> forall l, In l ls -> l < h_next h.
Proof.
  intros W C l Hin. destruct (chain_dom _ _ _ _ C _ Hin) as [c E].
  destruct (Nat.lt_ge_cases l (h_next h)) as [?|Hge]; auto. rewrite W in E; [discriminate|auto].
Qed.

Lemma chain_bound h d ls ss : wf_heap h -> chain h d ls ss -> length ls <= h_next h.
Proof.
  intros W C. rewrite <- (seq_length (h_next h) 0).
  apply NoDup_incl_length; [eapply chain_nodup; eauto|].
  intros l Hin. apply in_seq. pose proof (chain_lt _ _ _ _ W C _ Hin). lia.
Qed.

Lemma chain_at h d a l b ss :
  chain h d (a ++ l :: b) ss ->
  exists (sa : list step) c (sb : list step),
    ss = sa ++ (c_prim c, c_terms c) :: sb /\ seg h d a sa (DRef l) /\
    h_get h l = Some c /\ chain h (c_data c) b sb /\
    ~ In l a /\ ~ In l b /\ length sa = length a.
Proof.
  intros C. pose proof (chain_nodup _ _ _ _ C) as ND.
  apply chain_seg in C. apply seg_split in C as (s1 & s2 & m & -> & S1 & S2).
  inversion S2 as [|? c ? ss ? G0 S0]; subst. apply NoDup_remove_2 in ND. rewrite in_app_iff in ND.
  exists s1, c, ss. repeat split; auto.
  - apply chain_seg; auto.
  - symmetry. eapply seg_len; eauto.
Qed.

Lemma chain_rebuild h h' d a sa l c' b sb :
  seg h d a sa (DRef l) ->
  (forall x, In x a -> h_get h' x = h_get h x) ->
  h_get h' l = Some c' -> chain h' (c_data c') b sb ->
  chain h' d (a ++ l :: b) (sa ++ (c_prim c', c_terms c') :: sb).
Proof.
  intros S F G C. apply chain_seg. eapply seg_app.
  - eapply seg_frame; eauto.
  - econstructor; eauto. apply chain_seg; auto.
Qed.

(** * Primitive operations *)

Lemma walk_chain h d ls ss : chain h d ls ss -> forall f, length ls <= f -> walk f h d = Ok ls.
Proof.
  induction 1; intros f Hf.
  - destruct f; reflexivity.
  - destruct f; simpl in *; [lia|]. rewrite H. rewrite IHchain by lia. reflexivity.
Qed.

Lemma primitives_ok ind s ls ss :
  wf_heap (s_heap s) -> pipeline (s_heap s) ind ls ss -> primitives ind s = (Ok ls, s).
Proof.
  intros W C. unfold primitives. erewrite walk_chain; eauto.
  pose proof (chain_bound _ _ _ _ W C). lia.
Qed.

Definition cell_step (c : cell) : step := (c_prim c, c_terms c).

Lemma mread_all_ok s : forall d ls ss, chain (s_heap s) d ls ss ->
  exists cs, mread_all ls s = (Ok cs, s) /\ map cell_step cs = ss.
Proof.
  induction 1; simpl.
  - exists []; split; reflexivity.
  - destruct IHchain as (cs & E & M). exists (c :: cs).
    unfold mbind, mread. rewrite H, E. simpl. rewrite M. split; reflexivity.
Qed.

Lemma flat_map_cells cs : flat_map c_terms cs = flat_map snd (map cell_step cs).
Proof. induction cs; simpl; congruence. Qed.

Lemma terminals_ok ind s ls ss :
  wf_heap (s_heap s) -> pipeline (s_heap s) ind ls ss ->
  terminals ind s = (Ok (flat_map snd ss), s).
Proof.
  intros W C. unfold terminals, mbind. erewrite primitives_ok by eauto.
  destruct (mread_all_ok s _ _ _ C) as (cs & -> & M). unfold mret.
  rewrite flat_map_cells, M. reflexivity.
Qed.

Lemma mchoice_ok {A} (l : list A) s : l <> [] ->
  exists x r, In x l /\ mchoice l s = (Ok x, mkSt (s_heap s) r (s_uid s)).
Proof.
  intros N. unfold mchoice, rchoice. destruct l as [|d l]; [congruence|].
  destruct (draw (s_rng s)) as [k r] eqn:Ed. simpl rchoice.
  destruct (nth_error (d :: l) (k mod length (d :: l))) eqn:E.
  - exists a, r. split; auto. eapply nth_error_In; eauto.
  - apply nth_error_None in E. pose proof (Nat.mod_upper_bound k (length (d :: l))).
    simpl in *. lia.
Qed.

Lemma mchoice_nil {A} s : @mchoice A [] s = (Err IndexError, s).
Proof. unfold mchoice; simpl. destruct s; reflexivity. Qed.

Lemma wp_choice {A} (l : list A) s (Q : A -> st -> Prop) (E : exn -> st -> Prop) :
  (forall x r, In x l -> Q x (mkSt (s_heap s) r (s_uid s))) ->
  (l = [] -> E IndexError s) ->
  wp (mchoice l) s Q E.
Proof.
  intros HQ HE. destruct l as [|x l].
  - unfold wp. rewrite mchoice_nil. auto.
  - destruct (mchoice_ok (x :: l) s) as (y & r & Hin & E'); [congruence|].
    eapply wp_eq; eauto.
Qed.

Lemma wp_randint a b s (Q : Z -> st -> Prop) (E : exn -> st -> Prop) :
  (forall k r, (a <= k <= b)%Z -> Q k (mkSt (s_heap s) r (s_uid s))) ->
  ((b < a)%Z -> E ValueError s) ->
  wp (mrandint a b) s Q E.
Proof.
  intros HQ HE. unfold wp, mrandint, rrandint.
  destruct (Z.ltb_spec b a).
  - simpl. destruct s; simpl in *; auto.
  - destruct (draw (s_rng s)) as [k r]. apply HQ.
    pose proof (Z.mod_pos_bound (Z.of_nat k) (b - a + 1)). lia.
Qed.

Lemma set_data_ok s l d c :
  h_get (s_heap s) l = Some c ->
  set_data l d s = (Ok tt, mkSt (h_set (s_heap s) l (mkCell (c_prim c) d (c_terms c)))
                               (s_rng s) (s_uid s)).
Proof. intros H. unfold set_data, mbind, mread. rewrite H. reflexivity. Qed.

Lemma set_term_ok s l i t c :
  h_get (s_heap s) l = Some c ->
  set_term l i t s = (Ok tt, mkSt (h_set (s_heap s) l
     (mkCell (c_prim c) (c_data c) (set_nth i t (c_terms c)))) (s_rng s) (s_uid s)).
Proof. intros H. unfold set_term, mbind, mread. rewrite H. reflexivity. Qed.

Lemma mread_ok s l c : h_get (s_heap s) l = Some c -> mread l s = (Ok c, s).
Proof. intros H; unfold mread; rewrite H; reflexivity. Qed.

Lemma h_set_same h l c : h_get (h_set h l c) l = Some c.
Proof. simpl. rewrite Nat.eqb_refl. reflexivity. Qed.
Lemma h_set_other h l c l' : l' <> l -> h_get (h_set h l c) l' = h_get h l'.
Proof. simpl. intros H. apply Nat.eqb_neq in H. rewrite H. reflexivity. Qed.

Lemma wf_h_set h l c c0 : wf_heap h -> h_get h l = Some c0 -> wf_heap (h_set h l c).
Proof.
  intros W G l' Hl. simpl in *. destruct (Nat.eqb_spec l' l).
  - subst. rewrite W in G; [discriminate|auto].
  - auto.
Qed.

Lemma same_refl ws h : same_except ws h h.
Proof. split; auto. Qed.
Lemma same_trans ws h1 h2 h3 :
  same_except ws h1 h2 -> same_except ws h2 h3 -> same_except ws h1 h3.
Proof.
  intros [N1 F1] [N2 F2]. split; [lia|]. intros l Hl Hn.
  rewrite F2, F1; auto. lia.
Qed.
Lemma same_weaken ws ws' h h' :
  same_except ws h h' -> (forall l, l < h_next h -> In l ws -> In l ws') -> same_except ws' h h'.
Proof. intros [N F] I. split; auto. Qed.
Lemma same_h_set ws h l c : In l ws -> same_except ws h (h_set h l c).
Proof.
  intros I. split; auto. intros l' Hl Hn. apply h_set_other. intros ->; auto.
Qed.

Definition alloc (h : heap) (c : cell) : heap :=
  mkHeap (S (h_next h)) (h_get (h_set h (h_next h) c)).

Lemma wf_alloc h c : wf_heap h -> wf_heap (alloc h c).
Proof.
  intros W l Hl. simpl in *. destruct (Nat.eqb_spec l (h_next h)); [lia|]. apply W. lia.
Qed.
Lemma alloc_same h c : h_get (alloc h c) (h_next h) = Some c.
Proof. simpl. rewrite Nat.eqb_refl. reflexivity. Qed.
Lemma alloc_other h c l : l <> h_next h -> h_get (alloc h c) l = h_get h l.
Proof. simpl. intros H. apply Nat.eqb_neq in H. rewrite H. reflexivity. Qed.
Lemma same_alloc ws h c : same_except ws h (alloc h c).
Proof. split; [simpl; lia|]. intros. apply alloc_other. lia. Qed.

Lemma new_node_ok p d ts s :
  new_node p d ts s =
  (Ok (h_next (s_heap s)),
   mkSt (alloc (s_heap s) (mkCell p d (py_sorted term_leb ts))) (s_rng s) (s_uid s)).
Proof. reflexivity. Qed.

(** * Sorting *)
Lemma insert_sorted_perm {A} leb (x : A) l : Permutation (x :: l) (insert_sorted leb x l).
Proof.
  induction l as [|y l IH]; simpl; auto.
  destruct (leb x y); auto.
  apply perm_trans with (y :: x :: l); [constructor|]. constructor; auto.
Qed.
Lemma py_sorted_perm {A} leb (l : list A) : Permutation l (py_sorted leb l).
Proof.
  induction l as [|x l IH]; simpl; auto.
  apply perm_trans with (x :: py_sorted leb l); [constructor; auto|apply insert_sorted_perm].
Qed.

(** * random_primitive_node *)
Lemma wp_random_terminals ps : forall ks s (Q : list terminal -> st -> Prop) (E : exn -> st -> Prop),
  (forall ts r, Forall2 (fun i t => In t (terms_of ps i)) ks ts ->
                Q ts (mkSt (s_heap s) r (s_uid s))) ->
  ((exists i, In i ks /\ terms_of ps i = []) ->
   forall r, E IndexError (mkSt (s_heap s) r (s_uid s))) ->
  wp (random_terminals ps ks) s Q E.
Proof.
  induction ks as [|k ks IH]; intros s Q E HQ HE; simpl.
  - apply wp_ret. specialize (HQ [] (s_rng s)). destruct s; simpl in *. apply HQ. constructor.
  - apply wp_bind. apply wp_choice.
    + intros t r Hin. apply wp_bind. apply IH.
      * intros ts r' F. apply wp_ret. apply HQ. constructor; auto.
      * intros (i & Hi & Hn) r'. simpl. apply HE. exists i; simpl; auto.
    + intros Hnil. specialize (HE (ex_intro _ k (conj (or_introl eq_refl) Hnil)) (s_rng s)).
      destruct s; auto.
Qed.

Lemma strs_eqb_eq a b : strs_eqb a b = true <-> a = b.
Proof.
  revert b; induction a as [|x a IH]; destruct b; simpl; split; intros; try discriminate; auto.
  - apply andb_true_iff in H as [H1 H2]. apply String.eqb_eq in H1. apply IH in H2. congruence.
  - inversion H; subst. rewrite String.eqb_refl. simpl. apply IH; auto.
Qed.
Lemma prim_eqb_spec p q : prim_eqb p q = true <-> same_algorithm p q.
Proof.
  unfold prim_eqb, same_algorithm. rewrite !andb_true_iff, strs_eqb_eq, String.eqb_eq, Nat.eqb_eq.
  tauto.
Qed.

(** The candidates of random_primitive_node. *)
Definition candidates (ps : pset) (out : string) (ex : option primitive) : list primitive :=
  filter (not_excluded ex) (prims_of ps out).

Lemma wp_random_node ps out ex s (Q : loc -> st -> Prop) (E : exn -> st -> Prop) :
  (forall p ts r,
     In p (candidates ps out ex) -> step_ok ps out (p, py_sorted term_leb ts) ->
     Forall2 (fun i t => In t (terms_of ps i)) (p_input p) ts ->
     Q (h_next (s_heap s))
       (mkSt (alloc (s_heap s) (mkCell p DData (py_sorted term_leb ts))) r (s_uid s))) ->
  ((candidates ps out ex = [] \/ exists p i, In p (candidates ps out ex) /\ In i (p_input p)
                                             /\ terms_of ps i = []) ->
   forall r, E IndexError (mkSt (s_heap s) r (s_uid s))) ->
  wp (random_primitive_node ps out ex) s Q E.
Proof.
  intros HQ HE. unfold random_primitive_node. fold (candidates ps out ex).
  apply wp_bind. apply wp_choice.
  - intros p r Hin. apply wp_bind. apply wp_random_terminals.
    + intros ts r' F. simpl. unfold wp. rewrite new_node_ok. simpl. apply HQ; auto.
      split; simpl.
      * apply filter_In in Hin. tauto.
      * exists ts. split; auto. apply Permutation_sym, py_sorted_perm.
    + intros (i & Hi & Hn) r'. simpl. apply HE. right. eauto.
  - intros Hn. specialize (HE (or_introl Hn) (s_rng s)). destruct s; auto.
Qed.

(** * Copying *)
Definition resort (s : step) : step := (fst s, py_sorted term_leb (snd s)).

Lemma copy_node_ok s d ls ss : wf_heap (s_heap s) -> chain (s_heap s) d ls ss ->
  forall l f, d = DRef l -> length ls <= f ->
  exists h' l', copy_node f l s = (Ok l', mkSt h' (s_rng s) (s_uid s)) /\
    wf_heap h' /\ same_except [] (s_heap s) h' /\
    exists ls', chain h' (DRef l') ls' (map resort ss) /\ all_new (s_heap s) ls'.
Proof.
  intros W. induction 1 as [|l0 c ls ss G C IH]; intros l f Hd Hf; [discriminate|].
  inversion Hd; subst l0. destruct f as [|f]; simpl in Hf; [lia|].
  simpl copy_node. unfold mbind. rewrite (mread_ok _ _ _ G).
  destruct (c_data c) as [|l1] eqn:Ed.
  - rewrite new_node_ok. inversion C; subst.
    eexists _, _. split; [reflexivity|].
    split; [apply wf_alloc; auto|]. split; [apply same_alloc|].
    exists [h_next (s_heap s)]. split.
    + change (map resort [(c_prim c, c_terms c)]) with
        [(c_prim (mkCell (c_prim c) DData (py_sorted term_leb (c_terms c))),
         c_terms (mkCell (c_prim c) DData (py_sorted term_leb (c_terms c))))].
      econstructor; [apply alloc_same|]. constructor.
    + constructor; auto.
  - destruct (IH l1 f eq_refl ltac:(lia)) as (h' & l' & -> & W' & F & ls' & C' & N).
    rewrite new_node_ok. simpl.
    eexists _, _. split; [reflexivity|].
    split; [apply wf_alloc; auto|].
    split; [eapply same_trans; [exact F|apply same_alloc]|].
    exists (h_next h' :: ls'). split.
    + change (resort (c_prim c, c_terms c)) with
        (c_prim (mkCell (c_prim c) (DRef l') (py_sorted term_leb (c_terms c))),
         c_terms (mkCell (c_prim c) (DRef l') (py_sorted term_leb (c_terms c)))).
      econstructor; [apply alloc_same|]. simpl.
      eapply chain_frame; [exact C'|]. intros x Hx. apply alloc_other.
      pose proof (chain_lt _ _ _ _ W' C' _ Hx). lia.
    + constructor; auto. destruct F. lia.
Qed.

Lemma copy_loc_ok s l ls ss : wf_heap (s_heap s) -> chain (s_heap s) (DRef l) ls ss ->
  exists h' l', copy_loc l s = (Ok l', mkSt h' (s_rng s) (s_uid s)) /\
    wf_heap h' /\ same_except [] (s_heap s) h' /\
    exists ls', chain h' (DRef l') ls' (map resort ss) /\ all_new (s_heap s) ls'.
Proof.
  intros W C. unfold copy_loc, mbind, mget.
  eapply copy_node_ok; eauto. pose proof (chain_bound _ _ _ _ W C). lia.
Qed.

Lemma copy_as_new_ok s ind ls ss : wf_heap (s_heap s) -> pipeline (s_heap s) ind ls ss ->
  exists h' l', copy_as_new ind s
      = (Ok (mkInd l' (s_uid s) [] ""%string), mkSt h' (s_rng s) (S (s_uid s))) /\
    wf_heap h' /\ same_except [] (s_heap s) h' /\
    exists ls', chain h' (DRef l') ls' (map resort ss) /\ all_new (s_heap s) ls'.
Proof.
  intros W C. destruct (copy_loc_ok s (i_main ind) ls ss W C) as (h' & l' & E & R).
  exists h', l'. split; [|exact R].
  unfold copy_as_new, mbind. rewrite E. reflexivity.
Qed.

(** * replace_terminal *)
Lemma set_nth_split {A} (l : list A) : forall i old x, nth_error l i = Some old ->
  exists a b, l = a ++ old :: b /\ length a = i /\ set_nth i x l = a ++ x :: b.
Proof.
  induction l as [|y l IH]; intros [|i] old x H; simpl in *; try discriminate.
  - inversion H; subst. exists [], l. auto.
  - destruct (IH _ _ x H) as (a & b & -> & <- & E). exists (y :: a), b.
    simpl. rewrite E. auto.
Qed.

Lemma replace_loop_ok s t : forall d ls ss, chain (s_heap s) d ls ss ->
  forall scan pos, scan <= pos ->
  (exists l1 l l2 c (pre : list step) a old b (post : list step),
      ls = l1 ++ l :: l2 /\ h_get (s_heap s) l = Some c /\
      ss = pre ++ (c_prim c, a ++ old :: b) :: post /\
      c_terms c = a ++ old :: b /\ length pre = length l1 /\
      pos = scan + length (flat_map snd pre) + length a /\
      replace_terminal_loop ls scan pos t s =
        if String.eqb (t_ident old) (t_ident t)
        then (Ok tt, mkSt (h_set (s_heap s) l (mkCell (c_prim c) (c_data c) (a ++ t :: b)))
                          (s_rng s) (s_uid s))
        else (Err ValueError, s))
  \/ (pos = scan + length (flat_map snd ss) /\ replace_terminal_loop ls scan pos t s = (Ok tt, s))
  \/ (scan + length (flat_map snd ss) < pos /\
      replace_terminal_loop ls scan pos t s = (Err ValueError, s)).
Proof.
  induction 1 as [|l c ls ss G C IH]; intros scan pos Hle; simpl.
  - destruct (Nat.ltb_spec scan pos).
    + right; right. split; [lia|reflexivity].
    + right; left. split; [lia|reflexivity].
  - rewrite app_length. unfold mbind. rewrite (mread_ok _ _ _ G).
    destruct (Nat.ltb_spec pos (scan + length (c_terms c))) as [Hlt|Hge].
    + left. destruct (nth_error (c_terms c) (pos - scan)) as [old|] eqn:En.
      2: { apply nth_error_None in En. lia. }
      destruct (set_nth_split _ _ _ t En) as (a & b & E1 & E2 & E3).
      exists [], l, ls, c, [], a, old, b, ss. rewrite <- E1. simpl.
      repeat (split; auto); [lia|].
      destruct (String.eqb (t_ident old) (t_ident t)); [|reflexivity].
      rewrite (set_term_ok _ _ _ _ _ G), E3. reflexivity.
    + destruct (IH (scan + length (c_terms c)) pos ltac:(lia))
        as [(l1 & l' & l2 & c' & pre & a & old & b & post & E1 & E2 & E3 & E4 & E7 & E5 & E6)|[[E1 E2]|[E1 E2]]].
      * left. exists (l :: l1), l', l2, c', ((c_prim c, c_terms c) :: pre), a, old, b, post.
        subst ls ss. simpl. rewrite app_length.
        repeat (split; auto). lia.
      * right; left. split; [lia|exact E2].
      * right; right. split; [lia|exact E2].
Qed.

Definition keeps (ws : list loc) (s s' : st) : Prop :=
  wf_heap (s_heap s') /\ same_except ws (s_heap s) (s_heap s') /\ s_uid s' = s_uid s.

Lemma keeps_refl ws s : wf_heap (s_heap s) -> keeps ws s s.
Proof. intros; split; auto. split; auto. apply same_refl. Qed.

Lemma chain_set_terms h d l1 l l2 ss c pre a old b post new :
  chain h d (l1 ++ l :: l2) ss -> h_get h l = Some c ->
  ss = pre ++ (c_prim c, a ++ old :: b) :: post -> length pre = length l1 ->
  chain (h_set h l (mkCell (c_prim c) (c_data c) (a ++ new :: b))) d (l1 ++ l :: l2)
        (pre ++ (c_prim c, a ++ new :: b) :: post).
Proof.
  intros C G Hss Hlen. destruct (chain_at _ _ _ _ _ _ C) as (sa & c' & sb & E & S & G' & C' & N1 & N2 & L).
  rewrite G in G'; inversion G'; subst c'.
  assert (HH : sa = pre /\ sb = post).
  { rewrite E in Hss.
    assert (EL : length sa = length pre) by congruence.
    clear - Hss EL. revert pre EL Hss. induction sa as [|x sa IH]; destruct pre; simpl; intros; try discriminate.
    - inversion Hss; auto.
    - inversion Hss; subst. destruct (IH pre); auto. subst; auto. }
  destruct HH; subst sa sb.
  eapply (chain_rebuild h _ d l1 pre l (mkCell (c_prim c) (c_data c) (a ++ new :: b)) l2 post S).
  - intros x Hx. apply h_set_other. intros ->; contradiction.
  - apply h_set_same.
  - simpl. eapply chain_frame; eauto. intros x Hx. apply h_set_other. intros ->; contradiction.
Qed.

(** ** replace_terminal as a whole *)
Lemma replace_terminal_cases ind s ls ss pos t :
  wf_heap (s_heap s) -> pipeline (s_heap s) ind ls ss ->
  (exists old, nth_error (flat_map snd ss) pos = Some old /\
     ((t_ident old = t_ident t /\
       exists s' ss', replace_terminal ind pos t s = (Ok tt, s') /\
          pipeline (s_heap s') ind ls ss' /\ value_changed_at pos old t ss ss' /\
          keeps ls s s' /\ s_rng s' = s_rng s)
      \/ (t_ident old <> t_ident t /\ replace_terminal ind pos t s = (Err ValueError, s))))
  \/ (pos = length (flat_map snd ss) /\ replace_terminal ind pos t s = (Ok tt, s))
  \/ (length (flat_map snd ss) < pos /\ replace_terminal ind pos t s = (Err ValueError, s)).
Proof.
  intros W C. unfold replace_terminal, mbind. rewrite (primitives_ok _ _ _ _ W C).
  destruct (replace_loop_ok s t _ _ _ C 0 pos (Nat.le_0_l _))
    as [(l1 & l & l2 & c & pre & a & old & b & post & E1 & E2 & E3 & E4 & E7 & E5 & E6)|[[E1 E2]|[E1 E2]]];
    [left|right; left; auto|right; right; auto].
  exists old. split.
  { subst ss pos. rewrite flat_map_app. simpl. rewrite nth_error_app2 by lia.
    replace (length (flat_map snd pre) + length a - length (flat_map snd pre)) with (length a) by lia.
    rewrite nth_error_app1 by (rewrite app_length; simpl; lia).
    rewrite nth_error_app2 by lia. rewrite Nat.sub_diag. reflexivity. }
  destruct (String.eqb_spec (t_ident old) (t_ident t)) as [Heq|Hne].
  - left. split; auto. eexists _, (pre ++ (c_prim c, a ++ t :: b) :: post). split; [exact E6|].
    split; [|split; [|split]].
    + subst ls. simpl. eapply chain_set_terms; eauto.
    + exists pre, (c_prim c), a, b, post. subst; auto.
    + split; [|split]; simpl; auto.
      * eapply wf_h_set; eauto.
      * apply same_h_set. subst ls. rewrite in_app_iff; simpl; auto.
    + reflexivity.
  - right. auto.
Qed.

Lemma enum_from_nth {A} (l : list A) : forall i k x, In (k, x) (enum_from i l) <-> (i <= k /\ nth_error l (k - i) = Some x).
Proof.
  induction l as [|y l IH]; intros i k x; simpl.
  - split; [tauto|]. intros [_ H]. destruct (k - i); discriminate.
  - rewrite IH. split.
    + intros [H|[H1 H2]].
      * inversion H; subst. split; auto. rewrite Nat.sub_diag; reflexivity.
      * split; [lia|]. replace (k - i) with (S (k - S i)) by lia. exact H2.
    + intros [H1 H2]. destruct (Nat.eq_dec k i) as [->|Hn].
      * rewrite Nat.sub_diag in H2. simpl in H2. inversion H2; auto.
      * right. split; [lia|]. replace (k - i) with (S (k - S i)) in H2 by lia. exact H2.
Qed.
Lemma enumerate_nth {A} (l : list A) k x : In (k, x) (enumerate l) <-> nth_error l k = Some x.
Proof. unfold enumerate. rewrite enum_from_nth, Nat.sub_0_r. split; [tauto|]. split; auto; lia. Qed.

Lemma filter_enum_nil {A} (f : A -> bool) (l : list A) :
  filter (fun it => f (snd it)) (enumerate l) = [] <-> filter f l = [].
Proof.
  unfold enumerate. generalize 0. induction l as [|x l IH]; simpl; [tauto|].
  intros n. destruct (f x); simpl; [split; discriminate|apply IH].
Qed.

Lemma wp_mut_replace_terminal ps ind s ls ss :
  wf_heap (s_heap s) -> pipeline (s_heap s) ind ls ss -> pset_typed ps ->
  wp (mut_replace_terminal ind ps) s
     (fun ind' s' => ind' = ind /\ keeps ls s s' /\
        exists ss', pipeline (s_heap s') ind ls ss' /\ terminal_replaced ps ss ss')
     (fun e s' => s_heap s' = s_heap s /\ s_uid s' = s_uid s /\
        ((e = ValueError /\ filter (term_replaceable ps) (flat_map snd ss) = [])
         \/ (e = IndexError /\ exists old, In old (flat_map snd ss) /\
             term_replaceable ps old = true /\
             forall t, In t (terms_of ps (t_ident old)) -> v_eq (t_value t) = v_eq (t_value old)))).
Proof.
  intros W C [_ TT]. unfold mut_replace_terminal.
  eapply wp_bind_eq; [eapply terminals_ok; eauto|].
  destruct (filter _ (enumerate (flat_map snd ss))) as [|it0 its] eqn:Ef.
  - simpl. unfold wp, mraise. repeat split; auto. left. split; auto.
    apply (filter_enum_nil (term_replaceable ps)); auto.
  - apply wp_bind. apply wp_choice; [|discriminate].
    intros [i old] r Hin. rewrite <- Ef in Hin. apply filter_In in Hin as [Hin Hrep].
    apply enumerate_nth in Hin. simpl in Hrep. simpl fst; simpl snd.
    apply wp_bind. apply wp_choice.
    + intros new r' Hnew. apply filter_In in Hnew as [Hnew Hneq].
      apply negb_true_iff, Z.eqb_neq in Hneq.
      simpl s_heap; simpl s_uid.
      destruct (replace_terminal_cases ind (mkSt (s_heap s) r' (s_uid s)) ls ss i new W C)
        as [(old' & En & [(Hid & s' & ss' & E & P & V & K & _)|(Hid & E)])|[[El E]|[El E]]].
      * eapply wp_bind_eq; [exact E|]. apply wp_ret. split; auto.
        rewrite En in Hin; inversion Hin; subst old'.
        split; [exact K|]. exists ss'. split; auto.
        exists i, old, new. auto.
      * exfalso. rewrite En in Hin; inversion Hin; subst old'. apply Hid.
        symmetry. apply TT in Hnew. auto.
      * exfalso. assert (i < length (flat_map snd ss)) by (apply nth_error_Some; congruence). lia.
      * exfalso. assert (i < length (flat_map snd ss)) by (apply nth_error_Some; congruence). lia.
    + intros Hnil. simpl. repeat split; auto. right. split; auto. exists old.
      split; [eapply nth_error_In; eauto|]. split; auto.
      intros t Ht. destruct (Z.eq_dec (v_eq (t_value t)) (v_eq (t_value old))) as [|Hn]; auto.
      exfalso. assert (In t []) as []. rewrite <- Hnil. apply filter_In. split; auto.
      apply negb_true_iff, Z.eqb_neq. auto.
Qed.

(** * mut_shrink *)
Lemma step_down_ok s : forall d ls ss, chain (s_heap s) d ls ss -> forall n, n < length ls ->
  exists l, nth_error ls n = Some l /\ step_down n d s = (Ok (DRef l), s).
Proof.
  induction 1 as [|l c ls ss G C IH]; intros [|n] Hn; simpl in *; try lia.
  - exists l; auto.
  - unfold mbind. rewrite (mread_ok _ _ _ G). apply IH. lia.
Qed.
Lemma step_down_over s : forall d ls ss, chain (s_heap s) d ls ss -> forall n, length ls <= n ->
  step_down n d s = (Ok DData, s) \/ step_down n d s = (Err AttributeError, s).
Proof.
  induction 1 as [|l c ls ss G C IH]; intros [|n] Hn; simpl in *; try lia; auto.
  unfold mbind. rewrite (mread_ok _ _ _ G). apply IH. lia.
Qed.

Lemma cut_chain s ind ls ss n l :
  wf_heap (s_heap s) -> pipeline (s_heap s) ind ls ss -> nth_error ls n = Some l ->
  exists s', set_data l DData s = (Ok tt, s') /\ keeps ls s s' /\
    pipeline (s_heap s') ind (firstn (S n) ls) (firstn (S n) ss) /\ s_rng s' = s_rng s.
Proof.
  intros W C En.
  destruct (nth_error_split _ _ En) as (a & b & -> & Hlen).
  destruct (chain_at _ _ _ _ _ _ C) as (sa & c & sb & -> & S & G & C' & N1 & N2 & L).
  eexists. split; [apply set_data_ok; eauto|]. split; [|split]; [| |reflexivity].
  - split; [eapply wf_h_set; eauto|]. split; [|reflexivity]. apply same_h_set. rewrite in_app_iff; simpl; auto.
  - cbn [s_heap]. unfold pipeline. rewrite (firstn_app (Datatypes.S n) a). replace (Datatypes.S n - length a) with 1 by lia.
    rewrite firstn_all2 by lia.
    rewrite (firstn_app (Datatypes.S n) sa). replace (Datatypes.S n - length sa) with 1 by lia.
    rewrite (firstn_all2 sa) by lia. simpl firstn.
    eapply (chain_rebuild (s_heap s) _ _ a sa l (mkCell (c_prim c) DData (c_terms c)) [] [] S).
    + intros x Hx. apply h_set_other. intros ->; contradiction.
    + apply h_set_same.
    + constructor.
Qed.

Lemma chain_nonempty h l ls ss : chain h (DRef l) ls ss -> 0 < length ls.
Proof. intros H; inversion H; subst; simpl; lia. Qed.

Lemma mut_shrink_by ind s ls ss k :
  wf_heap (s_heap s) -> pipeline (s_heap s) ind ls ss ->
  ((Z.of_nat (length ss) <= k)%Z /\ mut_shrink ind (Some k) s = (Err ValueError, s))
  \/ ((k < 0)%Z /\ mut_shrink ind (Some k) s = (Err AttributeError, s))
  \/ ((0 <= k < Z.of_nat (length ss))%Z /\
      exists s' ls' ss', mut_shrink ind (Some k) s = (Ok ind, s') /\ keeps ls s s' /\
         pipeline (s_heap s') ind ls' ss' /\ incl ls' ls /\ s_rng s' = s_rng s /\
         shrunk (Z.to_nat k) ss ss').
Proof.
  intros W C. pose proof (chain_len _ _ _ _ C) as HL. pose proof (chain_nonempty _ _ _ _ C) as HN.
  unfold mut_shrink, mbind. rewrite (primitives_ok _ _ _ _ W C). rewrite HL.
  destruct (Z.leb_spec (Z.of_nat (length ss)) k) as [|Hlt]; [left; auto|right].
  cbn [mret].
  destruct (Z.ltb_spec k 0) as [Hneg|Hpos].
  - left. split; auto. change (mret k s) with (Ok k, s).
    destruct (step_down_over s _ _ _ C (Z.to_nat (Z.of_nat (length ss) - 1 - k))) as [-> | ->];
      [lia| |]; reflexivity.
  - right. split; auto. change (mret k s) with (Ok k, s).
    destruct (step_down_ok s _ _ _ C (Z.to_nat (Z.of_nat (length ss) - 1 - k))) as (l & En & E);
      [lia|]. cbv beta iota. rewrite E.
    destruct (cut_chain s ind ls ss _ l W C En) as (s' & E' & K & P & R).
    exists s', (firstn (S (Z.to_nat (Z.of_nat (length ss) - 1 - k))) ls),
      (firstn (S (Z.to_nat (Z.of_nat (length ss) - 1 - k))) ss).
    rewrite E'. split; [reflexivity|]. split; [exact K|]. split; [exact P|].
    split; [intros x Hx; rewrite <- (firstn_skipn (S (Z.to_nat (Z.of_nat (length ss) - 1 - k))) ls); apply in_or_app; left; exact Hx|].
    split; [exact R|].
    exists (skipn (S (Z.to_nat (Z.of_nat (length ss) - 1 - k))) ss).
    rewrite firstn_skipn. split; auto. rewrite skipn_length. split; [lia|].
    destruct ss; simpl in *; [lia|discriminate].
Qed.

Lemma mut_shrink_eq ind s ls ss k r :
  wf_heap (s_heap s) -> pipeline (s_heap s) ind ls ss ->
  (0 < k < Z.of_nat (length ss))%Z ->
  rrandint 1 (Z.of_nat (length ls) - 1) (s_rng s) = (Ok k, r) ->
  mut_shrink ind None s = mut_shrink ind (Some k) (mkSt (s_heap s) r (s_uid s)).
Proof.
  intros W C Hk Hr. pose proof (chain_len _ _ _ _ C) as HL.
  unfold mut_shrink, mbind.
  rewrite (primitives_ok _ _ _ _ W C), (primitives_ok ind (mkSt (s_heap s) r (s_uid s)) _ _ W C).
  rewrite HL in *. destruct (Z.leb_spec (Z.of_nat (length ss)) k); [lia|].
  unfold mrandint. rewrite Hr. reflexivity.
Qed.

Lemma wp_mut_shrink_any ind s ls ss :
  wf_heap (s_heap s) -> pipeline (s_heap s) ind ls ss ->
  wp (mut_shrink ind None) s
     (fun ind' s' => ind' = ind /\ keeps ls s s' /\
        exists k ls' ss', 0 < k < length ss /\ pipeline (s_heap s') ind ls' ss' /\ incl ls' ls /\
                          shrunk k ss ss')
     (fun e s' => e = ValueError /\ s' = s /\ length ss = 1).
Proof.
  intros W C. pose proof (chain_len _ _ _ _ C) as HL. pose proof (chain_nonempty _ _ _ _ C) as HN.
  destruct (Nat.eq_dec (length ss) 1) as [H1|H1].
  - unfold mut_shrink, wp, mbind. rewrite (primitives_ok _ _ _ _ W C), HL, H1.
    simpl. unfold mrandint. simpl. destruct s; auto.
  - destruct (rrandint 1 (Z.of_nat (length ls) - 1) (s_rng s)) as [[k|e] r] eqn:Er.
    + assert (Hk : (0 < k < Z.of_nat (length ss))%Z).
      { unfold rrandint in Er. destruct (Z.ltb_spec (Z.of_nat (length ls) - 1) 1); [discriminate|].
        destruct (draw (s_rng s)).
        pose proof (Z.mod_pos_bound (Z.of_nat n) (Z.of_nat (length ls) - 1 - 1 + 1) ltac:(lia)) as B.
        revert B Er. generalize (Z.of_nat n mod (Z.of_nat (length ls) - 1 - 1 + 1))%Z. intros m B Er.
        assert (E1 : k = (1 + m)%Z) by congruence. lia. }
      unfold wp. rewrite (mut_shrink_eq _ _ _ _ _ _ W C Hk Er).
      destruct (mut_shrink_by ind (mkSt (s_heap s) r (s_uid s)) ls ss k W C)
        as [[? _]|[[? _]|(_ & s' & ls' & ss' & -> & K & P & I & _ & Sh)]]; try lia.
      split; auto. split; [exact K|]. exists (Z.to_nat k), ls', ss'. split; [lia|]. auto.
    + unfold rrandint in Er. destruct (Z.ltb_spec (Z.of_nat (length ls) - 1) 1); [lia|].
      destruct (draw (s_rng s)); discriminate.
Qed.

(** * mut_insert *)
Lemma insert_sorted_head {A} (leb : A -> A -> bool) x l :
  Forall (fun y => leb x y = true) l -> insert_sorted leb x l = x :: l.
Proof. destruct l as [|y l]; simpl; auto. intros H; inversion H; subst. rewrite H2. reflexivity. Qed.

Lemma py_sorted_id {A} (leb : A -> A -> bool) l :
  StronglySorted (fun a b => leb a b = true) l -> py_sorted leb l = l.
Proof.
  induction 1; simpl; auto. rewrite IHStronglySorted. apply insert_sorted_head; auto.
Qed.

Lemma resort_same s : same_step s (resort s).
Proof. split; simpl; auto. apply py_sorted_perm. Qed.
Lemma resort_all_same ss : Forall2 same_step ss (map resort ss).
Proof. induction ss; simpl; constructor; auto. apply resort_same. Qed.
Lemma resort_id s : in_order s -> resort s = s.
Proof. intros H. unfold resort. destruct s as [p ts]. simpl. f_equal. apply py_sorted_id; auto. Qed.
Lemma resort_all_id ss : Forall in_order ss -> map resort ss = ss.
Proof. induction 1; simpl; auto. rewrite resort_id, IHForall; auto. Qed.

Lemma str_leb_total a b : String.leb a b = true \/ String.leb b a = true.
Proof.
  unfold String.leb. rewrite (String.compare_antisym b a).
  destruct (String.compare a b); simpl; auto.
Qed.

Lemma ascii_compare_trans_lt a b c : Ascii.compare a b = Lt -> Ascii.compare b c = Lt -> Ascii.compare a c = Lt.
Proof. unfold Ascii.compare. rewrite !N.compare_lt_iff. lia. Qed.
Lemma ascii_compare_eq a b : Ascii.compare a b = Eq -> a = b.
Proof. apply Ascii.compare_eq_iff. Qed.
Lemma ascii_compare_refl a : Ascii.compare a a = Eq.
Proof. unfold Ascii.compare. apply N.compare_refl. Qed.

Lemma str_compare_trans a : forall b c,
  String.compare a b <> Gt -> String.compare b c <> Gt -> String.compare a c <> Gt.
Proof.
  induction a as [|x a IH]; intros [|y b] [|z c]; simpl; auto; try congruence.
  destruct (Ascii.compare x y) eqn:Exy; try congruence; intros H1 H2.
  - apply ascii_compare_eq in Exy; subst y. destruct (Ascii.compare x z); auto. eapply IH; eauto.
  - destruct (Ascii.compare y z) eqn:Eyz; try congruence.
    + apply ascii_compare_eq in Eyz; subst z. rewrite Exy. congruence.
    + rewrite (ascii_compare_trans_lt _ _ _ Exy Eyz). congruence.
Qed.
Lemma str_leb_trans a b c : String.leb a b = true -> String.leb b c = true -> String.leb a c = true.
Proof.
  unfold String.leb. pose proof (str_compare_trans a b c) as H.
  destruct (String.compare a b), (String.compare b c), (String.compare a c); auto;
    try congruence; exfalso; apply H; congruence.
Qed.

Lemma insert_sorted_ss {A} (leb : A -> A -> bool)
  (tot : forall a b, leb a b = true \/ leb b a = true)
  (tr : forall a b c, leb a b = true -> leb b c = true -> leb a c = true) x l :
  StronglySorted (fun a b => leb a b = true) l ->
  StronglySorted (fun a b => leb a b = true) (insert_sorted leb x l).
Proof.
  induction 1 as [|y l S IH F]; simpl.
  - constructor; constructor.
  - destruct (leb x y) eqn:E.
    + constructor; [constructor; auto|]. constructor; auto.
      eapply Forall_impl; [|exact F]. simpl; intros; eauto.
    + constructor; auto.
      assert (Hyx : leb y x = true) by (destruct (tot x y); congruence).
      eapply Permutation_Forall; [apply insert_sorted_perm|]. constructor; auto.
Qed.
Lemma py_sorted_ss {A} (leb : A -> A -> bool)
  (tot : forall a b, leb a b = true \/ leb b a = true)
  (tr : forall a b c, leb a b = true -> leb b c = true -> leb a c = true) l :
  StronglySorted (fun a b => leb a b = true) (py_sorted leb l).
Proof. induction l; simpl; [constructor|]. apply insert_sorted_ss; auto. Qed.

Lemma py_sorted_in_order p ts : in_order (p, py_sorted term_leb ts).
Proof.
  unfold in_order; simpl. apply (py_sorted_ss term_leb).
  - intros; apply str_leb_total.
  - intros a b c; apply str_leb_trans.
Qed.
Lemma resort_in_order s : in_order (resort s).
Proof. apply py_sorted_in_order. Qed.

(** * mut_replace_primitive *)
Definition grows (h : heap) (ls ls' : list loc) : Prop :=
  forall l, In l ls' -> In l ls \/ h_next h <= l.

Definition no_node (ps : pset) (out : string) (ex : option primitive) : Prop :=
  candidates ps out ex = [] \/
  exists p i, In p (candidates ps out ex) /\ In i (p_input p) /\ terms_of ps i = [].

Lemma wp_mut_insert ps ind s ls ss :
  wf_heap (s_heap s) -> pipeline (s_heap s) ind ls ss ->
  wp (mut_insert ind ps) s
     (fun ind' s' => ind' = ind /\ keeps ls s s' /\
        exists ls' ss', pipeline (s_heap s') ind ls' ss' /\ inserted ps ss ss' /\
                        grows (s_heap s) ls ls')
     (fun e s' => e = IndexError /\ s_heap s' = s_heap s /\ s_uid s' = s_uid s /\
                  no_node ps DATA None).
Proof.
  intros W C. pose proof (chain_nonempty _ _ _ _ C) as HN.
  unfold mut_insert. eapply wp_bind_eq; [eapply primitives_ok; eauto|].
  apply wp_bind. apply wp_choice; [|intros ->; simpl in HN; lia].
  intros l r Hin. apply in_split in Hin as (a & b & ->).
  destruct (chain_at _ _ _ _ _ _ C) as (sa & c & sb & -> & S & G & C' & N1 & N2 & L).
  apply wp_bind. apply wp_random_node.
  - intros p ts r' Hp Hok _. cbn [s_heap s_uid].
    set (c0 := mkCell p DData (py_sorted term_leb ts)).
    set (new := h_next (s_heap s)).
    assert (Hl : l < new).
    { apply (chain_lt _ _ _ _ W C). rewrite in_app_iff; simpl; auto. }
    assert (Ha : forall x, In x a -> x < new).
    { intros x Hx. apply (chain_lt _ _ _ _ W C). rewrite in_app_iff; auto. }
    assert (Hb : forall x, In x b -> x < new).
    { intros x Hx. apply (chain_lt _ _ _ _ W C). rewrite in_app_iff; simpl; auto. }
    set (h1 := alloc (s_heap s) c0).
    assert (W1 : wf_heap h1) by (apply wf_alloc; auto).
    assert (G1 : h_get h1 l = Some c) by (unfold h1; rewrite alloc_other; auto; lia).
    assert (Gn : h_get h1 new = Some c0) by apply alloc_same.
    eapply wp_bind_eq; [apply mread_ok; exact G1|].
    eapply wp_bind_eq; [apply set_data_ok; exact Gn|]. cbn [s_heap s_rng s_uid].
    set (h2 := h_set h1 new (mkCell (c_prim c0) (c_data c) (c_terms c0))).
    assert (G2 : h_get h2 l = Some c) by (unfold h2; rewrite h_set_other; auto; lia).
    eapply wp_bind_eq; [apply set_data_ok; exact G2|]. cbn [s_heap s_rng s_uid].
    set (h3 := h_set h2 l (mkCell (c_prim c) (DRef new) (c_terms c))).
    assert (W2 : wf_heap h2) by (eapply wf_h_set; eauto).
    assert (W3 : wf_heap h3) by (eapply wf_h_set; eauto).
    apply wp_ret. split; auto. split.
    + split; [exact W3|]. split; [|reflexivity]. cbn [s_heap].
      split; [simpl; lia|]. intros x Hx Hn. unfold h3, h2.
      rewrite h_set_other, h_set_other.
      * apply alloc_other. lia.
      * fold new in Hx. lia.
      * intros ->. apply Hn. rewrite in_app_iff; simpl; auto.
    + exists (a ++ l :: new :: b), (sa ++ (c_prim c, c_terms c) :: (p, py_sorted term_leb ts) :: sb).
      assert (F3 : forall x, x <> l -> x <> new -> h_get h3 x = h_get (s_heap s) x).
      { intros x X1 X2. unfold h3, h2. rewrite h_set_other, h_set_other by auto.
        apply alloc_other. auto. }
      split; [|split].
      * cbn [s_heap]. unfold pipeline.
        eapply (chain_rebuild (s_heap s) h3 _ a sa l (mkCell (c_prim c) (DRef new) (c_terms c))
                  (new :: b) ((p, py_sorted term_leb ts) :: sb) S).
        -- intros x Hx. apply F3; [intros ->; contradiction|]. specialize (Ha _ Hx). lia.
        -- apply h_set_same.
        -- simpl.
           assert (G3 : h_get h3 new = Some (mkCell (c_prim c0) (c_data c) (c_terms c0))).
           { unfold h3. rewrite h_set_other by lia. apply h_set_same. }
           change (p, py_sorted term_leb ts) with
             (c_prim (mkCell (c_prim c0) (c_data c) (c_terms c0)),
              c_terms (mkCell (c_prim c0) (c_data c) (c_terms c0))).
           econstructor; [exact G3|]. simpl.
           eapply chain_frame; [exact C'|]. intros x Hx. apply F3; [intros ->; contradiction|].
           specialize (Hb _ Hx). lia.
      * exists (sa ++ [(c_prim c, c_terms c)]), (p, py_sorted term_leb ts), sb.
        rewrite <- !app_assoc. simpl. split; auto. split; [|split; [|split]; auto using py_sorted_in_order].
        intros E. apply app_eq_nil in E as [_ E]. discriminate.
      * intros x. rewrite !in_app_iff. simpl. fold new. intros [?|[?|[?|?]]]; auto. right; lia.
  - intros HE r'. simpl. repeat split; auto.
Qed.

(** * replace_primitive *)
Lemma last_default {A} (l : list A) : forall x y d d', List.last (x :: l) d = List.last (y :: x :: l) d'.
Proof.
  induction l as [|z l IH]; intros x y d d'; [reflexivity|].
  change (List.last (x :: z :: l) d) with (List.last (z :: l) d).
  change (List.last (y :: x :: z :: l) d') with (List.last (x :: z :: l) d'). apply IH.
Qed.
Lemma replace_loop_in s new cn : wf_heap (s_heap s) -> h_get (s_heap s) new = Some cn ->
  forall d ls ss, chain (s_heap s) d ls ss -> ~ In new ls ->
  forall i pos last0, i <= pos -> pos - i < length ls ->
  exists l1 l l2 (sa : list step) c (sb : list step),
    ls = l1 ++ l :: l2 /\ length l1 = pos - i /\ ss = sa ++ (c_prim c, c_terms c) :: sb /\
    length sa = length l1 /\
    ((p_output (c_prim c) <> p_output (c_prim cn) /\
      replace_primitive_loop ls i pos last0 new s = (Err ValueError, s))
     \/ (p_output (c_prim c) = p_output (c_prim cn) /\
         exists h' d' ls2,
           replace_primitive_loop ls i pos last0 new s =
             (Ok (List.last (map Some l1) last0),
              mkSt (h_set h' new (mkCell (c_prim cn) d' (c_terms cn))) (s_rng s) (s_uid s)) /\
           wf_heap h' /\ same_except [] (s_heap s) h' /\
           chain h' d' ls2 (map resort sb) /\ all_new (s_heap s) ls2)).
Proof.
  intros W Gn. induction 1 as [|l c ls ss G C IH]; intros Hni i pos last0 Hle Hlt; simpl in Hlt; [lia|].
  simpl in Hni. simpl replace_primitive_loop.
  destruct (Nat.eqb_spec i pos) as [->|Hne].
  - exists [], l, ls, [], c, ss. rewrite Nat.sub_diag. simpl. repeat (split; auto).
    unfold mbind. rewrite (mread_ok _ _ _ G), (mread_ok _ _ _ Gn).
    destruct (String.eqb_spec (p_output (c_prim c)) (p_output (c_prim cn))) as [He|Hn]; simpl;
      [right|left; auto].
    split; auto.
    destruct (c_data c) as [|l'] eqn:Ed.
    + rewrite (set_data_ok _ _ _ _ Gn). inversion C; subst.
      exists (s_heap s), DData, []. simpl. split; [reflexivity|]. split; [exact W|].
      split; [apply same_refl|]. split; constructor.
    + destruct (copy_loc_ok s l' ls ss W C) as (h' & l'' & -> & W' & F & ls' & C' & N).
      assert (Gn' : h_get h' new = Some cn).
      { destruct F as [_ F]. rewrite F; auto.
        destruct (Nat.lt_ge_cases new (h_next (s_heap s))); auto.
        rewrite W in Gn by auto. discriminate. }
      erewrite (set_data_ok (mkSt h' (s_rng s) (s_uid s))) by exact Gn'. simpl.
      exists h', (DRef l''), ls'. auto.
  - destruct (IH ltac:(tauto) (S i) pos (Some l) ltac:(lia) ltac:(lia))
      as (l1 & l0 & l2 & sa & c0 & sb & -> & E2 & -> & E4 & E5).
    exists (l :: l1), l0, l2, ((c_prim c, c_terms c) :: sa), c0, sb.
    simpl length. split; [reflexivity|]. split; [lia|]. split; [reflexivity|]. split; [lia|].
    replace (List.last (map Some (l :: l1)) last0) with (List.last (map Some l1) (Some l)).
    + exact E5.
    + destruct l1; [reflexivity|]. simpl map. apply last_default.
Qed.

Lemma replace_loop_out s new : forall d ls ss, chain (s_heap s) d ls ss ->
  forall i pos last0, i <= pos -> length ls <= pos - i ->
  replace_primitive_loop ls i pos last0 new s = (Ok (List.last (map Some ls) last0), s).
Proof.
  induction 1 as [|l c ls ss G C IH]; intros i pos last0 Hle Hlt; simpl in Hlt; simpl replace_primitive_loop.
  - reflexivity.
  - destruct (Nat.eqb_spec i pos); [lia|]. rewrite IH by lia.
    f_equal. f_equal. destruct ls as [|l0 ls]; [reflexivity|]. simpl map. apply last_default.
Qed.

Lemma last_map_some l1 x : List.last (map Some (l1 ++ [x])) None = Some (x : loc).
Proof.
  rewrite map_app. simpl. induction (map Some l1) as [|y l IH]; simpl; auto.
  destruct l; simpl in *; auto.
Qed.

Lemma replace_primitive_in ind s ls ss new cn pos :
  wf_heap (s_heap s) -> pipeline (s_heap s) ind ls ss ->
  h_get (s_heap s) new = Some cn -> ~ In new ls -> pos < length ls ->
  exists (sa : list step) p (sb : list step), ss = sa ++ p :: sb /\ length sa = pos /\
    ((p_output (fst p) <> p_output (c_prim cn) /\ replace_primitive ind pos new s = (Err ValueError, s))
     \/ (p_output (fst p) = p_output (c_prim cn) /\
         exists ind' s' ls',
           replace_primitive ind pos new s = (Ok ind', s') /\
           pipeline (s_heap s') ind' ls' (sa ++ (c_prim cn, c_terms cn) :: map resort sb) /\
           keeps (new :: ls) s s' /\ grows (s_heap s) (new :: ls) ls' /\
           s_rng s' = s_rng s /\
           i_id ind' = i_id ind /\ i_parents ind' = i_parents ind /\ i_origin ind' = i_origin ind)).
Proof.
  intros W C Gn Hni Hpos.
  destruct (replace_loop_in s new cn W Gn _ _ _ C Hni 0 pos None (Nat.le_0_l _) ltac:(lia))
    as (l1 & l & l2 & sa & c & sb & E1 & E2 & E3 & E4 & E5).
  exists sa, (c_prim c, c_terms c), sb. split; auto. split; [lia|].
  unfold replace_primitive, mbind. rewrite (primitives_ok _ _ _ _ W C).
  destruct E5 as [[Hn E]|(He & h' & d' & ls2 & E & W' & F & C2 & N)]; rewrite E.
  - left. split; auto.
  - right. split; auto.
    assert (Hlt : new < h_next (s_heap s)).
    { destruct (Nat.lt_ge_cases new (h_next (s_heap s))); auto.
      rewrite W in Gn by auto. discriminate. }
    assert (Gn' : h_get h' new = Some cn).
    { destruct F as [_ F]. rewrite F; auto. }
    set (cn' := mkCell (c_prim cn) d' (c_terms cn)).
    set (h2 := h_set h' new cn').
    assert (W2 : wf_heap h2) by (eapply wf_h_set; eauto).
    assert (Hls : forall x, In x ls -> x < h_next (s_heap s)) by (apply (chain_lt _ _ _ _ W C)).
    assert (N2 : forall x, In x ls2 -> h_next (s_heap s) <= x).
    { intros x Hx. unfold all_new in N. rewrite Forall_forall in N. auto. }
    assert (F2 : forall x, x < h_next (s_heap s) -> x <> new -> h_get h2 x = h_get (s_heap s) x).
    { intros x X1 X2. unfold h2. rewrite h_set_other by auto. destruct F as [_ F]. apply F; auto. }
    assert (C3 : chain h2 (c_data cn') ls2 (map resort sb)).
    { eapply chain_frame; [exact C2|]. intros x Hx. unfold h2. apply h_set_other.
      specialize (N2 _ Hx). lia. }
    assert (Gn2 : h_get h2 new = Some cn') by apply h_set_same.
    destruct l1 as [|y l1''] eqn:El1.
    + simpl. destruct sa; [|simpl in E4; lia]. eexists _, _, (new :: ls2).
      split; [reflexivity|]. split; [|split; [|split]].
      * simpl. change (c_prim cn, c_terms cn) with (c_prim cn', c_terms cn'). econstructor; eauto.
      * split; [exact W2|]. split; [|reflexivity]. cbn [s_heap].
        split; [simpl; destruct F; lia|]. intros x Hx Hn. simpl in Hn. apply F2; tauto || lia.
      * intros x. simpl. intros [?|Hx]; auto.
      * simpl; auto.
    + assert (Hsp : exists l1' x, l1 = l1' ++ [x]).
      { subst l1. destruct (exists_last (l := y :: l1'')) as (a & b & ->); [discriminate|eauto]. }
      destruct Hsp as (l1' & x & El). rewrite <- El1 in *. clear El1.
      rewrite El in *. rewrite last_map_some.
      assert (Cx : chain (s_heap s) (DRef (i_main ind)) (l1' ++ x :: l :: l2) ss).
      { replace (l1' ++ x :: l :: l2) with ls; [exact C|]. rewrite E1, <- app_assoc. reflexivity. }
      destruct (chain_at _ _ _ _ _ _ Cx) as (sx & cx & sy & Ess & Sx & Gx & Cy & Nx1 & Nx2 & Lx).
      assert (Hx : In x ls) by (rewrite E1, !in_app_iff; simpl; auto).
      assert (Hxn : x <> new) by (intros ->; contradiction).
      assert (Gx2 : h_get h2 x = Some cx) by (rewrite F2; auto).
      erewrite (set_data_ok (mkSt h2 (s_rng s) (s_uid s))) by exact Gx2. cbn [s_heap s_rng s_uid].
      set (h3 := h_set h2 x (mkCell (c_prim cx) (DRef new) (c_terms cx))).
      eexists _, _, (l1' ++ x :: new :: ls2). split; [reflexivity|].
      assert (Esa : sa = sx ++ [(c_prim cx, c_terms cx)]).
      { assert (EE : sx ++ [(c_prim cx, c_terms cx)] ++ sy = sa ++ (c_prim c, c_terms c) :: sb)
          by (simpl; congruence).
        rewrite app_assoc in EE.
        rewrite app_length in E4. simpl in E4.
        assert (LL : length (sx ++ [(c_prim cx, c_terms cx)]) = length sa) by (rewrite app_length; simpl; lia).
        clear - EE LL. revert sa LL EE. generalize (sx ++ [(c_prim cx, c_terms cx)]).
        induction l as [|u l IH]; destruct sa; simpl; intros; try discriminate; auto.
        inversion EE; subst. f_equal. apply IH; auto. }
      split; [|split; [|split]].
      * cbn [s_heap]. unfold pipeline. rewrite Esa, <- app_assoc. simpl.
        eapply (chain_rebuild (s_heap s) h3 _ l1' sx x (mkCell (c_prim cx) (DRef new) (c_terms cx))
                  (new :: ls2) ((c_prim cn, c_terms cn) :: map resort sb) Sx).
        -- intros z Hz. unfold h3. rewrite h_set_other by (intros ->; contradiction).
           apply F2.
           ++ apply Hls. rewrite E1, !in_app_iff. auto.
           ++ intros ->. apply Hni. rewrite E1, !in_app_iff. auto.
        -- apply h_set_same.
        -- simpl. change (c_prim cn, c_terms cn) with (c_prim cn', c_terms cn').
           econstructor.
           ++ unfold h3. rewrite h_set_other by auto. exact Gn2.
           ++ eapply chain_frame; [exact C3|]. intros z Hz. unfold h3. apply h_set_other.
              specialize (N2 _ Hz). specialize (Hls _ Hx). lia.
      * split; [eapply wf_h_set; eauto|]. split; [|reflexivity]. cbn [s_heap].
        split; [simpl; destruct F; lia|]. intros z Hz Hn. simpl in Hn.
        unfold h3. rewrite h_set_other by (intros ->; tauto). apply F2; tauto || lia.
      * intros z. rewrite in_app_iff. simpl. intros [Hz|[Hz|[Hz|Hz]]]; auto.
        -- left. right. rewrite E1, !in_app_iff. auto.
        -- left. right. subst z; auto.
      * simpl; auto.
Qed.

(** * Re-sorting *)
Lemma wp_mut_replace_primitive ps ind s ls ss :
  wf_heap (s_heap s) -> pipeline (s_heap s) ind ls ss -> pset_typed ps ->
  wp (mut_replace_primitive ind ps) s
     (fun ind' s' => keeps ls s s' /\
        i_id ind' = i_id ind /\ i_parents ind' = i_parents ind /\ i_origin ind' = i_origin ind /\
        exists ls' ss', pipeline (s_heap s') ind' ls' ss' /\ primitive_replaced ps ss ss' /\
                        grows (s_heap s) ls ls' /\
                        (Forall in_order ss -> Forall in_order ss'))
     (fun e s' => s_heap s' = s_heap s /\ s_uid s' = s_uid s /\
        ((e = ValueError /\ forall st, In st ss -> length (prims_of ps (p_output (fst st))) <= 1)
         \/ (e = IndexError /\ exists st, In st ss /\ 1 < length (prims_of ps (p_output (fst st))) /\
              no_node ps (p_output (fst st)) (Some (fst st))))).
Proof.
  intros W C [TP _]. unfold mut_replace_primitive.
  eapply wp_bind_eq; [eapply primitives_ok; eauto|].
  destruct (mread_all_ok s _ _ _ C) as (cs & Ecs & Mcs).
  eapply wp_bind_eq; [exact Ecs|].
  destruct (filter _ (enumerate cs)) as [|ic0 ics] eqn:Ef.
  - unfold wp, mraise. split; [reflexivity|]. split; [reflexivity|]. left. split; [reflexivity|].
    apply (filter_enum_nil (prim_replaceable ps)) in Ef.
    intros st Hst. rewrite <- Mcs in Hst. apply in_map_iff in Hst as (c & <- & Hc). simpl.
    destruct (Nat.ltb_spec 1 (length (prims_of ps (p_output (c_prim c))))) as [Hl|]; [|lia].
    exfalso. assert (In c []) as []. rewrite <- Ef. apply filter_In. split; auto.
    unfold prim_replaceable. apply Nat.ltb_lt; auto.
  - apply wp_bind. apply wp_choice; [|discriminate].
    intros [i c] r Hin. rewrite <- Ef in Hin. apply filter_In in Hin as [Hin Hrep].
    apply enumerate_nth in Hin. cbn [fst snd] in *. unfold prim_replaceable in Hrep.
    apply Nat.ltb_lt in Hrep.
    assert (Hst : nth_error ss i = Some (cell_step c)) by (rewrite <- Mcs; apply map_nth_error; auto).
    apply wp_bind. apply wp_random_node.
    + intros p ts r' Hp Hok _. cbn [s_heap s_uid].
      set (c0 := mkCell p DData (py_sorted term_leb ts)).
      set (h1 := alloc (s_heap s) c0).
      set (new := h_next (s_heap s)).
      assert (W1 : wf_heap h1) by (apply wf_alloc; auto).
      assert (Hls : forall x, In x ls -> x < new) by (apply (chain_lt _ _ _ _ W C)).
      assert (C1 : pipeline h1 ind ls ss).
      { eapply chain_frame; [exact C|]. intros x Hx. apply alloc_other. specialize (Hls _ Hx). fold new; lia. }
      assert (Hni : ~ In new ls) by (intros Hx; specialize (Hls _ Hx); lia).
      assert (Hi : i < length ls).
      { rewrite (chain_len _ _ _ _ C). apply nth_error_Some. congruence. }
      assert (Hpc : p_output p = p_output (c_prim c)).
      { apply TP. apply filter_In in Hp. tauto. }
      destruct (replace_primitive_in ind (mkSt h1 r' (s_uid s)) ls ss new c0 i W1 C1)
        as (sa & q & sb & Ess & Lsa & Hcase); auto.
      { apply alloc_same. }
      assert (q = cell_step c).
      { rewrite Ess in Hst. rewrite nth_error_app2 in Hst by lia. rewrite Lsa, Nat.sub_diag in Hst.
        simpl in Hst. congruence. }
      subst q. simpl fst in Hcase.
      destruct Hcase as [[Hbad _]|(_ & ind' & s' & ls' & E & P & (W' & F' & U') & Gr & _ & I1 & I2 & I3)].
      * exfalso. apply Hbad. simpl. auto.
      * eapply wp_eq; [exact E|].
        assert (F2 : same_except ls (s_heap s) (s_heap s')).
        { destruct F' as [N' F']. cbn [s_heap] in *. split; [simpl in N'; lia|].
          intros x Hx Hn. rewrite F'.
          - apply alloc_other. lia.
          - simpl. lia.
          - simpl. fold new in Hx. intros [?|?]; [lia|auto]. }
        split; [split; [exact W'|split; [exact F2|exact U']]|].
        split; [exact I1|]. split; [exact I2|]. split; [exact I3|].
        exists ls', (sa ++ (p, py_sorted term_leb ts) :: map resort sb).
        split; [exact P|]. split; [|split].
        -- exists sa, (cell_step c), (p, py_sorted term_leb ts), sb, (map resort sb).
           split; [exact Ess|]. split; [reflexivity|]. split; [apply resort_all_same|].
           split; [apply resort_all_id|]. split; [exact Hok|]. split; [apply py_sorted_in_order|].
           split; [exact Hpc|].
           simpl. intros Hsame. apply prim_eqb_spec in Hsame. apply filter_In in Hp as [_ Hp].
           simpl in Hp. rewrite Hsame in Hp. discriminate.
        -- intros x Hx. apply Gr in Hx. simpl in Hx. fold new. destruct Hx as [[<-|?]|?]; auto. right; lia.
        -- intros HO. rewrite Ess in HO. apply Forall_app in HO as [O1 O2]. apply Forall_app. split; auto.
           constructor; [apply py_sorted_in_order|]. apply Forall_map. apply Forall_forall.
           intros x _. apply resort_in_order.
    + intros HE r'. cbn [s_heap s_uid]. split; [reflexivity|]. split; [reflexivity|]. right.
      split; [reflexivity|]. exists (cell_step c). split; [eapply nth_error_In; eauto|].
      split; [exact Hrep|exact HE].
Qed.

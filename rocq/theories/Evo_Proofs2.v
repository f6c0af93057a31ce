(** C144-C146: what holds throughout the evolutionary search. *)
Require Import Permutation.
From Verif Require Import Base Num Nsga_Model Nsga_Main Par_Model Gp_Model Gp_Spec Gp_Proofs Gp_Proofs2 Gp_Proofs3 Gp_Proofs4 Gp_Main
  Cov_Spec Evo_Model Evo_Spec Evo_Proofs.
Open Scope nat_scope.
Open Scope list_scope.

(** * Traces *)
Lemma submitted_app t u : submitted (t ++ u) = submitted t ++ submitted u.
Proof. induction t as [|[]]; simpl; auto; rewrite IHt; auto. Qed.
Lemma collected_app t u : collected (t ++ u) = collected t ++ collected u.
Proof. induction t as [|[]]; simpl; auto; rewrite IHt; auto. Qed.
Lemma successes_app t u : successes (t ++ u) = successes t ++ successes u.
Proof. induction t as [|[| |i [|sc []]|]]; simpl; auto; rewrite IHt; auto. Qed.
Lemma since_snoc t x : since_restart (t ++ [x]) = match x with Restarted => [] | _ => since_restart t ++ [x] end.
Proof.
  assert (H : forall t acc, since_restart_from acc (t ++ [x]) = match x with Restarted => [] | _ => since_restart_from acc t ++ [x] end).
  { clear t. induction t as [|y t IH]; intros acc; simpl; [destruct x; auto|]. destruct y; apply IH. }
  apply H.
Qed.
Lemma in_submitted t i : In i (submitted t) <-> In (Submitted i) t.
Proof.
  induction t as [|[j pop|j|j o|] t IH]; simpl; try rewrite IH; [tauto| | | |]; split.
  all: try (intros H; right; exact H).
  all: try (intros [H|H]; [discriminate|exact H]).
  - intros [->|H]; auto.
  - intros [H|H]; [injection H as ->|]; auto.
Qed.
Lemma snoc_split {A} (t : list A) x t1 y t2 : t ++ [x] = t1 ++ y :: t2 -> (t2 = [] /\ t1 = t /\ y = x) \/ exists t2', t2 = t2' ++ [x] /\ t = t1 ++ y :: t2'.
Proof.
  intros H. destruct t2 as [|z t2 _] using rev_ind.
  - left. apply app_inj_tail in H as [-> ->]. auto.
  - right. exists t2. change (y :: t2 ++ [z]) with ((y :: t2) ++ [z]) in H. rewrite app_assoc in H. apply app_inj_tail in H as [-> ->]. auto.
Qed.
Lemma mentioned_app t u i : mentioned (t ++ u) i <-> mentioned t i \/ mentioned u i.
Proof.
  split.
  - intros (x & Hx & H). apply in_app_or in Hx as [Hx|Hx]; [left|right]; exists x; auto.
  - intros [(x & Hx & H)|(x & Hx & H)]; exists x; split; auto; apply in_or_app; auto.
Qed.
Lemma mentioned_submitted t i : In (Submitted i) t -> mentioned t i.
Proof. intros H. exists (Submitted i). auto. Qed.
Lemma in_successes t m : In m (successes t) -> In (Collected (m_ind m) (Evaluated (m_fit m) false)) t.
Proof. induction t as [|[| |i [|sc []]|]]; simpl; intros H; auto. destruct H as [<-|H]; simpl; auto. Qed.
Lemma since_incl t x : In x (since_restart t) -> In x t.
Proof.
  induction t as [|y t IH] using rev_ind; [intros []|]. rewrite since_snoc. intros H. apply in_or_app.
  assert (H' : In x (since_restart t ++ [y])) by (destruct y; auto; destruct H).
  apply in_app_or in H' as [H'|H']; auto.
Qed.

Section Safe.
(** the texts of the pipelines that earlier fits of the object evaluated *)
Context (seen : list string).
Context (ps : pset) (mx : option Z) (n workers pop_size : nat) (max_n : option Z) (restart : bool).
Hypothesis T : pset_typed ps.
Hypothesis HN : 0 < n.
(** a property of pipelines kept by the operators *)
Context (P : list step -> Prop).
Hypothesis PMUT : forall m old copy ss, P old -> within mx old -> within mx ss -> same_pipeline old copy -> mutated ps m copy ss -> P ss.
Hypothesis PCROSS : forall old1 old2 copy1 copy2 ss other, P old1 -> P old2 -> within mx old1 -> within mx old2 ->
  same_pipeline old1 copy1 -> same_pipeline old2 copy2 -> crossed copy1 copy2 ss other -> P ss.
Hypothesis PNEW : forall ss, pipeline_ok ps ss -> (1 <= Z.of_nat (length ss) <= max_start_length mx)%Z -> P ss.
Context (start : list individual).

Definition relative_of (h : heap) (pop : list member) (i : individual) (ss : list step) : Prop :=
  mutant_of ps h pop i ss \/ child_of h pop i ss.
Definition new_individual (h : heap) (i : individual) : Prop := i_parents i = [] /\ i_origin i = "new"%string.
(** The text of a pipeline that was evaluated, in this fit or an earlier one. *)
Definition already (h : heap) (t : list item) (x : string) : Prop := In x seen \/ exists ss, evaluated h t ss /\ x = text ss.
Definition item_ok (h : heap) (t : list item) (x : item) : Prop :=
  match x with
  | Bred i pop =>
    (forall m, In m pop -> In m (successes (since_restart t))) /\
    (forall j, mentioned t j -> i_id j < i_id i) /\
    exists ss, is_pipeline h i ss /\ relative_of h pop i ss /\
      (~ already h t (text ss) \/
       exists tries, length tries = n /\ In i tries /\ NoDup (map i_id tries) /\
         Forall (fun j => exists ss', is_pipeline h j ss' /\ relative_of h pop j ss' /\
           already h t (text ss')) tries)
  | Submitted i =>
    In i start \/ (exists t' pop, t = t' ++ [Bred i pop]) \/ (In Restarted t /\ new_individual h i)
  | Collected i o =>
    exists j ss, In (Submitted j) t /\ is_pipeline h j ss /\ is_pipeline h i ss /\
      i_id i = i_id j /\ i_parents i = i_parents j /\ i_origin i = i_origin j
  | Restarted => restart = true
  end.
Definition known (s : st) (t : list item) : Prop :=
  forall i, mentioned t i -> i_id i < s_uid s /\ exists ss, is_pipeline (s_heap s) i ss /\ P ss.

Record Inv (w : evo) : Prop := {
  n_wf : wf_heap (objects w);
  n_jobs : Permutation (map i_id (submitted (v_trace w))) (map i_id (collected (v_trace w)) ++ map i_id (v_jobs w));
  n_jobs_in : forall j, In j (v_jobs w) -> In (Submitted j) (v_trace w);
  n_saved : forall x, In x (v_saved w) <-> already (objects w) (v_trace w) x;
  n_known : known (v_st w) (v_trace w);
  n_items : forall t1 x t2, v_trace w = t1 ++ x :: t2 -> item_ok (objects w) t1 x;
  n_once : NoDup (map i_id start) -> NoDup (map i_id (submitted (v_trace w))) }.
Definition popok (w : evo) : Prop := forall m, In m (v_pop w) -> In m (successes (since_restart (v_trace w))).

(** * More objects *)
Lemma evaluated_extends s s' t ss : wf_heap (s_heap s) -> extends s s' -> known s t -> evaluated (s_heap s') t ss <-> evaluated (s_heap s) t ss.
Proof.
  intros W X K. split; intros (i & sc & f & I & C); exists i, sc, f; split; auto.
  - assert (M : mentioned t i) by (exists (Collected i (Evaluated sc f)); auto). destruct (K i M) as (_ & ss' & C' & _).
    pose proof (is_pipeline_extends _ _ _ _ W X C') as C2. rewrite (is_pipeline_fun _ _ _ _ C C2). auto.
  - eapply is_pipeline_extends; eauto.
Qed.
Lemma ev_fwd s s' t ss : wf_heap (s_heap s) -> extends s s' -> known s t -> evaluated (s_heap s) t ss -> evaluated (s_heap s') t ss.
Proof. intros W X K. apply (evaluated_extends s s' t ss W X K). Qed.
Lemma ev_back s s' t ss : wf_heap (s_heap s) -> extends s s' -> known s t -> evaluated (s_heap s') t ss -> evaluated (s_heap s) t ss.
Proof. intros W X K. apply (evaluated_extends s s' t ss W X K). Qed.
Lemma al_fwd s s' t x : wf_heap (s_heap s) -> extends s s' -> known s t -> already (s_heap s) t x -> already (s_heap s') t x.
Proof. intros W X K [H|(ss & H & ->)]; [left; auto|]. right. exists ss. split; auto. exact (ev_fwd _ _ _ _ W X K H). Qed.
Lemma al_back s s' t x : wf_heap (s_heap s) -> extends s s' -> known s t -> already (s_heap s') t x -> already (s_heap s) t x.
Proof. intros W X K [H|(ss & H & ->)]; [left; auto|]. right. exists ss. split; auto. exact (ev_back _ _ _ _ W X K H). Qed.
Lemma relative_extends s s' pop i ss : wf_heap (s_heap s) -> extends s s' -> relative_of (s_heap s) pop i ss -> relative_of (s_heap s') pop i ss.
Proof.
  intros W X [H|H]; [left|right].
  - destruct H as (p & m & old & copy & H). exists p, m, old, copy. intuition. eapply is_pipeline_extends; eauto.
  - destruct H as (a & b & p & q & o1 & o2 & c1 & c2 & o & H). exists a, b, p, q, o1, o2, c1, c2, o. intuition; eapply is_pipeline_extends; eauto.
Qed.
Lemma item_extends s s' t x : wf_heap (s_heap s) -> extends s s' -> known s t -> item_ok (s_heap s) t x -> item_ok (s_heap s') t x.
Proof.
  intros W X K H. destruct x as [i pop|i|i o|]; simpl in *; auto.
  - destruct H as (H1 & H2 & ss & C & R & N). split; auto. split; auto. exists ss. split; [eapply is_pipeline_extends; eauto|].
    split; [eapply relative_extends; eauto|]. destruct N as [N|(tries & L & I & D & F)].
    + left. intros E. apply N. exact (al_back _ _ _ _ W X K E).
    + right. exists tries. split; auto. split; auto. split; auto. eapply Forall_impl; [|exact F]. simpl.
      intros j (ss' & C' & R' & E). exists ss'. split; [eapply is_pipeline_extends; eauto|]. split; [eapply relative_extends; eauto|].
      exact (al_fwd _ _ _ _ W X K E).
  - destruct H as (j & ss & H). exists j, ss. intuition; eapply is_pipeline_extends; eauto.
Qed.
Lemma known_extends s s' t : wf_heap (s_heap s) -> extends s s' -> known s t -> known s' t.
Proof.
  intros W X K i M. destruct (K i M) as (L & ss & C & HP). split; [pose proof (proj2 (proj2 X)); lia|].
  exists ss. split; auto. eapply is_pipeline_extends; eauto.
Qed.
Lemma known_prefix s t1 t2 : known s (t1 ++ t2) -> known s t1.
Proof. intros K i M. apply K. apply mentioned_app. auto. Qed.
Definition with_st (s : st) (w : evo) : evo := mkEvo s (v_pop w) (v_jobs w) (v_saved w) (v_trace w).
Lemma inv_extends w s : extends (v_st w) s -> Inv w -> Inv (with_st s w).
Proof.
  intros X [A B B' C D E F]. constructor; simpl; auto.
  - exact (proj1 X).
  - intros x. rewrite C. split; intros H; [exact (al_fwd _ _ _ _ A X D H)|exact (al_back _ _ _ _ A X D H)].
  - eapply known_extends; eauto.
  - intros t1 x t2 H. eapply item_extends; eauto. rewrite H in D. eapply known_prefix; eauto.
Qed.
Lemma inv_pop w l : Inv w -> Inv (mkEvo (v_st w) l (v_jobs w) (v_saved w) (v_trace w)).
Proof. intros [A B B' C D E F]. constructor; auto. Qed.

(** * More trace *)
Lemma items_snoc h t y : (forall t1 x t2, t = t1 ++ x :: t2 -> item_ok h t1 x) -> item_ok h t y ->
  forall t1 x t2, t ++ [y] = t1 ++ x :: t2 -> item_ok h t1 x.
Proof. intros H Hy t1 x t2 E. apply snoc_split in E as [(-> & -> & ->)|(t2' & -> & ->)]; eauto. Qed.
Lemma evaluated_snoc h t x ss : (forall i sc f, x <> Collected i (Evaluated sc f)) -> evaluated h (t ++ [x]) ss <-> evaluated h t ss.
Proof.
  intros N. split; intros (i & sc & f & I & C); exists i, sc, f; split; auto.
  - apply in_app_or in I as [I|[I|[]]]; auto. exfalso. eapply N. exact I.
  - apply in_or_app. auto.
Qed.
Lemma already_snoc h t x y : (forall i sc f, x <> Collected i (Evaluated sc f)) -> already h (t ++ [x]) y <-> already h t y.
Proof. intros N. split; (intros [H|(ss & H & ->)]; [left; auto|right; exists ss; split; auto; apply (evaluated_snoc h t x ss N); auto]). Qed.
Lemma known_snoc s t x : known s t -> (forall i, mentioned [x] i -> i_id i < s_uid s /\ exists ss, is_pipeline (s_heap s) i ss /\ P ss) -> known s (t ++ [x]).
Proof. intros K H i M. apply mentioned_app in M as [M|M]; auto. Qed.
Lemma mentioned_one x i : mentioned [x] i -> match x with Bred j pop => i = j \/ In i (map m_ind pop) | Submitted j => i = j | Collected j _ => i = j | Restarted => False end.
Proof. intros (y & [<-|[]] & H). exact H. Qed.

Lemma inv_submit w i w' x : Inv w -> i_id i < s_uid (v_st w) -> (exists ss, is_pipeline (objects w) i ss /\ P ss) ->
  item_ok (objects w) (v_trace w) (Submitted i) -> (NoDup (map i_id start) -> ~ In (i_id i) (map i_id (submitted (v_trace w)))) ->
  submit i w = (x, w') -> Inv w' /\ x = Ok tt /\ v_st w' = v_st w /\ v_pop w' = v_pop w /\ v_trace w' = v_trace w ++ [Submitted i].
Proof.
  intros [A B B' C D E F] L G O U H. injection H as <- <-. split; [|auto]. constructor; simpl; auto.
  - rewrite submitted_app, collected_app, !map_app. simpl. rewrite app_nil_r, B, <- app_assoc. auto.
  - intros j Hj. apply in_or_app. apply in_app_or in Hj as [Hj|[<-|[]]]; simpl; auto.
  - intros y. rewrite C. symmetry. apply already_snoc. discriminate.
  - apply known_snoc; auto. intros j M. apply mentioned_one in M as ->. auto.
  - apply items_snoc; auto.
  - intros ND. rewrite submitted_app, map_app. simpl. apply Permutation_NoDup with (l := i_id i :: map i_id (submitted (v_trace w))); [apply Permutation_cons_append|].
    constructor; auto.
Qed.
Lemma popok_submit w w' i : popok w -> v_pop w' = v_pop w -> v_trace w' = v_trace w ++ [Submitted i] -> popok w'.
Proof. intros H Ep Et m Hm. rewrite Ep in Hm. rewrite Et, since_snoc, successes_app. simpl. rewrite app_nil_r. auto. Qed.

Definition good_new (s : st) (i : individual) : Prop := i_id i < s_uid s /\ exists ss, is_pipeline (s_heap s) i ss /\ P ss.
Lemma inv_submit_all l : forall w w' x, Inv w -> Forall (good_new (v_st w)) l ->
  Forall (fun i => In i start \/ (In Restarted (v_trace w) /\ new_individual (objects w) i)) l ->
  (NoDup (map i_id start) -> NoDup (map i_id (submitted (v_trace w)) ++ map i_id l)) ->
  submit_all l w = (x, w') -> Inv w' /\ x = Ok tt /\ v_st w' = v_st w /\ v_pop w' = v_pop w /\ v_trace w' = v_trace w ++ map Submitted l.
Proof.
  induction l as [|i l IH]; intros w w' x I G O U H.
  - injection H as <- <-. rewrite app_nil_r. auto.
  - cbn [submit_all] in H. unfold ebind in H. destruct (submit i w) as [y w1] eqn:E1.
    inversion G as [|? ? G1 G2]; subst. inversion O as [|? ? O1 O2]; subst. 
    destruct (inv_submit w i w1 y I (proj1 G1) (proj2 G1)) as (I1 & -> & S1 & P1 & T1); auto.
    { simpl. tauto. }
    { intros ND. specialize (U ND). simpl in U. apply NoDup_remove_2 in U. intros H0. apply U, in_or_app. auto. }
    destruct (IH w1 w' x I1) as (I2 & -> & S2 & P2 & T2); auto.
    + rewrite S1. exact G2.
    + eapply Forall_impl; [|exact O2]. simpl. intros j [Hj|(Hj & Hk)]; auto. right. split; [|exact Hk]. rewrite T1. apply in_or_app. auto.
    + intros ND. specialize (U ND). rewrite T1, submitted_app, map_app, <- app_assoc. exact U.
    + split; auto. split; auto. rewrite S2, P2, T2, T1, <- app_assoc. auto.
Qed.

(** * Waiting *)
Lemma in_nth_of k (l : list individual) d : k < length l -> In (nth k l d) l.
Proof. apply nth_In. Qed.
Lemma perm_remove_nth {A} (d : A) : forall k l, k < length l -> Permutation l (nth k l d :: remove_nth k l).
Proof.
  induction k as [|k IH]; intros [|x l] H; simpl in *; try lia; auto.
  rewrite (IH l) at 1 by lia. apply perm_swap.
Qed.
Lemma wait_inv e w w' x : Inv w -> popok w -> wait_next e w = (x, w') ->
  Inv w' /\ popok w' /\ v_pop w' = v_pop w /\
  match x with
  | Err ex => v_jobs w = [] /\ ex = RuntimeError /\ w' = w
  | Ok (i, o) => v_jobs w <> [] /\ o = e_out e /\ length (v_jobs w) = S (length (v_jobs w')) /\
      match o with Evaluated sc false => In (mkMem i sc) (successes (since_restart (v_trace w'))) | _ => True end
  end.
Proof.
  intros I PO H. pose proof I as [A B B' C D E F]. unfold wait_next in H. destruct (v_jobs w) as [|j0 js] eqn:EJ.
  { injection H as <- <-. split; auto. }
  rewrite <- EJ in *. assert (NJ : v_jobs w <> []) by (rewrite EJ; discriminate).
  set (k := e_pick e mod length (v_jobs w)) in *. assert (Hk : k < length (v_jobs w)) by (apply Nat.mod_upper_bound; rewrite EJ; discriminate).
  set (j := nth k (v_jobs w) j0) in *. assert (Hj : In j (v_jobs w)) by (apply nth_In; auto).
  assert (PJ : Permutation (map i_id (v_jobs w)) (i_id j :: map i_id (remove_nth k (v_jobs w)))) by (rewrite (perm_remove_nth j0 k _ Hk) at 1; auto).
  assert (IJ : forall y, In y (remove_nth k (v_jobs w)) -> In y (v_jobs w)).
  { intros y Hy. eapply Permutation_in; [symmetry; apply (perm_remove_nth j0 k _ Hk)|]. right. auto. }
  assert (LJ : length (v_jobs w) = S (length (remove_nth k (v_jobs w)))) by (rewrite (Permutation_length (perm_remove_nth j0 k _ Hk)) at 1; auto).
  pose proof (B' _ Hj) as Sj. destruct (D j (mentioned_submitted _ _ Sj)) as (Lj & ss & Cj & Pj).
  assert (BB : forall y i o, i_id i = i_id j -> Permutation (map i_id (submitted (v_trace w ++ [Collected i o]))) (map i_id (collected (v_trace w ++ [Collected i o])) ++ map i_id (remove_nth k (v_jobs w)))
     /\ (NoDup (map i_id start) -> NoDup (map i_id (submitted (v_trace w ++ [Collected i o])))) /\ (In y (remove_nth k (v_jobs w)) -> In (Submitted y) (v_trace w ++ [Collected i o]))).
  { intros y i o Hi. rewrite submitted_app, collected_app, !map_app. simpl. rewrite !app_nil_r. split; [|split; auto].
    - rewrite B, PJ, <- app_assoc, Hi. auto.
    - intros Hy. apply in_or_app. auto. }
  destruct (e_out e) as [|sc failed] eqn:EO.
  - unfold ebind, note, eret in H. injection H as <- <-. destruct (BB j j Raised eq_refl) as (B1 & B2 & _). split; [|split; [|simpl; auto]].
    + constructor; simpl; auto.
      * intros y Hy. apply (BB y j Raised eq_refl). auto.
      * intros y. rewrite C. symmetry. apply already_snoc. discriminate.
      * apply known_snoc; auto. intros j' M. apply mentioned_one in M as ->. eauto.
      * apply items_snoc; auto. exists j, ss. auto 8.
    + intros m Hm. simpl in *. rewrite since_snoc, successes_app. apply in_or_app. left. auto.
  - destruct (unpickle_ok (v_st w) j ss A Cj) as (i & s' & Eu & X & Us & Ci & Ii & Ip & Io).
    unfold ebind at 1 in H. unfold gp in H. cbn [v_st] in H. rewrite Eu in H. unfold ebind, note, eret in H. cbn [v_st v_pop v_jobs v_saved v_trace] in H.
    unfold save in H. cbn [v_st v_pop v_jobs v_saved v_trace] in H.
    rewrite (is_pipeline_str s' i ss (proj1 X) Ci) in H. injection H as <- <-. destruct (BB j i (Evaluated sc failed) Ii) as (B1 & B2 & _).
    pose proof (known_extends _ _ _ A X D) as D'.
    assert (GI : forall j', mentioned [Collected i (Evaluated sc failed)] j' -> i_id j' < s_uid s' /\ exists ss0, is_pipeline (s_heap s') j' ss0 /\ P ss0).
    { intros j' M. apply mentioned_one in M as ->. rewrite Us, Ii. eauto. }
    split; [|split; [|split; [auto|]]].
    + constructor; simpl; auto.
      * exact (proj1 X).
      * intros y Hy. apply (BB y i (Evaluated sc failed) Ii). auto.
      * intros y. rewrite in_app_iff, C. unfold objects. simpl. split.
        -- intros [[Hs|(ss' & H & ->)]|[<-|[]]]; [left; exact Hs| |]; right.
           ++ exists ss'. split; auto. destruct H as (i' & sc' & f' & Hi & Hc). exists i', sc', f'. split; [apply in_or_app; auto|]. eapply is_pipeline_extends; eauto.
           ++ exists ss. split; auto. exists i, sc, failed. split; auto. apply in_or_app. simpl. auto.
        -- intros [Hs|(ss' & (i' & sc' & f' & Hi & Hc) & ->)]; [left; left; exact Hs|]. apply in_app_or in Hi as [Hi|[Hi|[]]].
           ++ left. right. exists ss'. split; auto. apply (ev_back _ _ _ _ A X D). exists i', sc', f'. auto.
           ++ right. injection Hi as <- <- <-. rewrite (is_pipeline_fun _ _ _ _ Hc Ci). auto.
      * apply known_snoc; auto.
      * apply items_snoc.
        -- intros t1 y t2 H. eapply item_extends; eauto. rewrite H in D. eapply known_prefix; eauto.
        -- exists j, ss. split; auto. split; [eapply is_pipeline_extends; eauto|]. auto.
    + intros m Hm. simpl in *. rewrite since_snoc, successes_app. apply in_or_app. left. auto.
    + split; auto. split; auto. split; auto. destruct failed; auto. simpl. rewrite since_snoc, successes_app. apply in_or_app. right. simpl. auto.
Qed.

(** * Adding to the population *)
Lemma remove_first_in {A} (f : A -> bool) l l' : remove_first f l = Some l' -> forall x, In x l' -> In x l.
Proof.
  revert l'. induction l as [|y l IH]; simpl; intros l' H; [discriminate|]. destruct (f y); [injection H as <-; auto|].
  destruct (remove_first f l) as [r|]; [|discriminate]. injection H as <-. intros x [->|Hx]; auto. right. eapply IH; eauto.
Qed.
Lemma add_inv m w w' x : Inv w -> popok w -> In m (successes (since_restart (v_trace w))) ->
  add_to_population pop_size m w = (x, w') -> Inv w' /\ popok w' /\ v_jobs w' = v_jobs w /\ v_trace w' = v_trace w.
Proof.
  intros I PO Hm H. unfold add_to_population in H. unfold ebind at 1 in H. unfold population in H. unfold ebind at 1 in H. unfold set_population at 1 in H.
  set (w1 := mkEvo (v_st w) (v_pop w ++ [m]) (v_jobs w) (v_saved w) (v_trace w)) in *.
  assert (I1 : Inv w1) by (apply inv_pop; auto).
  assert (P1 : popok w1). { intros y Hy. simpl in *. apply in_app_or in Hy as [Hy|[<-|[]]]; auto. }
  destruct (pop_size <? length (v_pop w ++ [m])); [|injection H as <- <-; auto].
  unfold ebind at 1 in H. unfold gp, mrandom in H. destruct (eliminate same_id m_fit (v_pop w ++ [m]) 1 (s_rng (v_st w1))) as [y r].
  set (w2 := mkEvo _ (v_pop w1) (v_jobs w1) (v_saved w1) (v_trace w1)) in *.
  assert (I2 : Inv w2). { apply (inv_extends w1); auto. apply rng_extends. apply I1. }
  assert (P2 : popok w2) by exact P1.
  destruct y as [[|d l]|ex]; [injection H as <- <-; auto| |injection H as <- <-; auto].
  destruct (remove_first (same_id d) (v_pop w ++ [m])) as [pop'|] eqn:ER; [|injection H as <- <-; auto].
  injection H as <- <-. split; [apply (inv_pop w2); auto|]. split; auto. intros z Hz. simpl in Hz. apply P2. simpl. eapply remove_first_in; eauto.
Qed.

(** * A new individual *)
Lemma relative_from_pair s s' pop a b p q old1 old2 i ss : wf_heap (s_heap s) -> extends s s' ->
  nth_error pop a = Some p -> nth_error pop b = Some q -> a <> b -> is_pipeline (s_heap s) (m_ind p) old1 -> is_pipeline (s_heap s) (m_ind q) old2 ->
  from_pair ps mx (m_ind p) (m_ind q) old1 old2 i ss -> relative_of (s_heap s') pop i ss.
Proof.
  intros W X Ha Hb Hab C1 C2 [(Hp & W1 & W2 & m & copy & S & Mu & L)|(Hp & Ho & W1 & W2 & c1 & c2 & o & S1 & S2 & Cr)]; [left|right].
  - exists p, m, old1, copy. split; [eapply nth_error_In; eauto|]. split; auto. split; [eapply is_pipeline_extends; eauto|]. auto.
  - exists a, b, p, q, old1, old2, c1, c2, o. repeat (split; auto); eapply is_pipeline_extends; eauto.
Qed.
Lemma P_from_pair p q old1 old2 i ss : P old1 -> P old2 -> from_pair ps mx p q old1 old2 i ss -> P ss.
Proof.
  intros P1 P2 [(Hp & W1 & W2 & m & copy & S & Mu & L)|(Hp & Ho & W1 & W2 & c1 & c2 & o & S1 & S2 & Cr)].
  - exact (PMUT m old1 copy ss P1 W1 W2 S Mu).
  - exact (PCROSS old1 old2 c1 c2 ss o P1 P2 W1 W2 S1 S2 Cr).
Qed.
Lemma pop_known w m : Inv w -> popok w -> In m (v_pop w) -> mentioned (v_trace w) (m_ind m).
Proof. intros I PO Hm. apply PO in Hm. apply in_successes, since_incl in Hm. exists (Collected (m_ind m) (Evaluated (m_fit m) false)). auto. Qed.
Lemma pop_pipes_of w : Inv w -> popok w -> pop_pipes (objects w) (v_pop w).
Proof. intros I PO m Hm. destruct (n_known w I _ (pop_known _ _ I PO Hm)) as (_ & ss & C & _). eauto. Qed.
Lemma refill_inv w w' x : Inv w -> popok w -> refill ps mx n workers w = (x, w') ->
  Inv w' /\ popok w' /\ v_pop w' = v_pop w /\
  match x with
  | Ok _ => length (v_jobs w') = Nat.max (length (v_jobs w)) (if (length (v_jobs w) <=? workers + 1) then S (length (v_jobs w)) else 0)
  | Err ex => length (v_jobs w) <= workers + 1 /\
      exists s', create_one ps mx n (v_saved w) (v_pop w) (v_st w) = (Err ex, s')
  end.
Proof.
  intros I PO H. unfold refill in H. assert (EQ : ((Z.of_nat (length (v_jobs w)) - Z.of_nat workers <=? 1)%Z) = (length (v_jobs w) <=? workers + 1)).
  { destruct (Z.leb_spec (Z.of_nat (length (v_jobs w)) - Z.of_nat workers) 1); destruct (Nat.leb_spec (length (v_jobs w)) (workers + 1)); lia. }
  rewrite EQ in H. destruct (Nat.leb_spec (length (v_jobs w)) (workers + 1)) as [LE|LE].
  2:{ injection H as <- <-. split; auto. split; auto. split; auto. lia. }
  unfold ebind at 1 in H. unfold gp in H. destruct (create_one ps mx n (v_saved w) (v_pop w) (v_st w)) as [y s'] eqn:EC.
  pose proof I as [A B B' C D E F].
  destruct (create_made ps mx n T HN (v_pop w) (v_st w) (v_saved w) y s' A (pop_pipes_of w I PO) EC) as (X & Hy).
  pose proof (inv_extends w s' X I) as I1. unfold with_st in I1. set (w1 := mkEvo s' (v_pop w) (v_jobs w) (v_saved w) (v_trace w)) in *.
  destruct y as [i|ex].
  2:{ injection H as <- <-. split; auto. split; auto. split; auto. split; auto. exists s'. reflexivity. }
  destruct Hy as (a & b & p & q & old1 & old2 & Ha & Hb & Hab & C1 & C2 & HI & ss & Ci & R & N).
  unfold ebind at 1 in H. unfold note in H. cbn [v_st v_pop v_jobs v_saved v_trace w1] in H.
  set (w2 := mkEvo s' (v_pop w) (v_jobs w) (v_saved w) (v_trace w ++ [Bred i (v_pop w)])) in *.
  assert (PSS : P ss).
  { destruct (D _ (pop_known w p I PO (nth_error_In _ _ Ha))) as (_ & o1 & C1' & P1). destruct (D _ (pop_known w q I PO (nth_error_In _ _ Hb))) as (_ & o2 & C2' & P2).
    rewrite (is_pipeline_fun _ _ _ _ C1' C1) in P1. rewrite (is_pipeline_fun _ _ _ _ C2' C2) in P2. exact (P_from_pair _ _ _ _ _ _ P1 P2 R). }
  assert (I2 : Inv w2).
  { destruct I1 as [A1 B1 B1' C1' D1 E1 F1]. constructor; simpl; auto.
    - rewrite submitted_app, collected_app, !map_app. simpl. rewrite !app_nil_r. exact B1.
    - intros j Hj. apply in_or_app. auto.
    - intros z. etransitivity; [apply C1'|]. symmetry. apply already_snoc. discriminate.
    - apply known_snoc; auto. intros j M. apply mentioned_one in M as [->|M]; [split; [lia|eauto]|].
      apply in_map_iff in M as (m & <- & Hm). apply D1. apply (pop_known w m); auto.
    - apply items_snoc; auto. split; auto. split; [intros j M; destruct (D j M); lia|]. exists ss. split; auto. split; [exact (relative_from_pair _ _ _ _ _ _ _ _ _ _ _ A X Ha Hb Hab C1 C2 R)|].
      destruct N as [N|(tries & L & It & ND & FT)].
      + left. intros Hs. apply N. apply C. exact (al_back _ _ _ _ A X D Hs).
      + right. exists tries. split; auto. split; auto. split; auto. eapply Forall_impl; [|exact FT]. simpl. intros j (ss' & Cj & Rj & Dj).
        exists ss'. split; auto. split; [exact (relative_from_pair _ _ _ _ _ _ _ _ _ _ _ A X Ha Hb Hab C1 C2 Rj)|]. apply C in Dj. exact (al_fwd _ _ _ _ A X D Dj).
    - rewrite submitted_app, app_nil_r. exact F1. }
  assert (P2 : popok w2). { intros m Hm. simpl in *. rewrite since_snoc, successes_app. simpl. rewrite app_nil_r. auto. }
  destruct (submit i w2) as [z w3] eqn:ES. 
  destruct (inv_submit w2 i w3 z I2) as (I3 & -> & S3 & P3 & T3); auto.
  { simpl. lia. } { exists ss. auto. } { simpl. right. left. exists (v_trace w), (v_pop w). auto. }
  { intros _ Hin. simpl in Hin. rewrite submitted_app, app_nil_r in Hin. apply in_map_iff in Hin as (j & Hid & Hj). apply in_submitted in Hj.
    destruct (D j (mentioned_submitted _ _ Hj)) as (Lj & _). lia. }
  assert (LJ : length (v_jobs w3) = S (length (v_jobs w))) by (unfold submit in ES; injection ES as <-; simpl; rewrite app_length; simpl; lia).
  injection H as <- <-. split; auto. split; [eapply popok_submit; eauto|]. split; auto. rewrite LJ. lia.
Qed.

(** * Random individuals *)
Lemma individuals_inv k : forall w w' x, Inv w -> individuals ps mx k w = (x, w') ->
  Inv w' /\ w' = with_st (v_st w') w /\ s_uid (v_st w) <= s_uid (v_st w') /\ extends (v_st w) (v_st w') /\
  match x with
  | Ok l => length l = k /\ NoDup (map i_id l) /\
      Forall (fun i => s_uid (v_st w) <= i_id i /\ good_new (v_st w') i /\ new_individual (objects w') i) l
  | Err e => creation_error ps mx e
  end.
Proof.
  induction k as [|k IH]; intros w w' x I H.
  { injection H as <- <-. split; auto. split; [destruct w; auto|]. split; auto. split; [apply extends_refl, I|]. split; auto. split; constructor. }
  cbn [individuals] in H. unfold ebind at 1 in H. unfold gp in H.
  pose proof (wp_op_individual ps mx (v_st w) (n_wf w I)) as WP. unfold wp in WP.
  destruct (op_individual ps mx (v_st w)) as [[i|ex] s1].
  2:{ injection H as <- <-. destruct WP as (X & He). split; [apply inv_extends; auto|]. split; auto. split; [apply X|]. auto. }
  destruct WP as (X & HI & Hp & Ho & ls & ss & C & _ & Ok1 & _ & Len).
  pose proof (inv_extends w s1 X I) as I1. fold (with_st s1 w) in H. 
  unfold ebind at 1 in H. destruct (individuals ps mx k (with_st s1 w)) as [y w2] eqn:E2.
  destruct (IH _ _ _ I1 E2) as (I2 & Ew & U & X2 & Hy). 
  assert (XX : extends (v_st w) (v_st w2)) by (eapply extends_trans; eauto).
  assert (EW : w2 = with_st (v_st w2) w) by (rewrite Ew at 1; reflexivity).
  pose proof (proj2 (proj2 X)) as U1. simpl in U.
  destruct y as [l|ex]; injection H as <- <-; (split; [auto|split; [auto|split; [lia|split; [auto|]]]]); auto.
  destruct Hy as (L & ND & FA). split; [simpl; auto|]. split.
  - simpl. constructor; auto. intros Hin. apply in_map_iff in Hin as (j & Hj & Hin). rewrite Forall_forall in FA. apply FA in Hin as (Hin & _). simpl in Hin. lia.
  - constructor.
    + split; [lia|]. split; [|split; auto]. split; [lia|]. exists ss. split; [|apply PNEW; auto].
      eapply (is_pipeline_extends s1); eauto; [apply X|]. exists ls. exact C.
    + eapply Forall_impl; [|exact FA]. simpl. intros j (Hj & Hk). split; [lia|auto].
Qed.

(** * Turns *)
Lemma begin_inv l w w' x : Inv w -> In Restarted (v_trace w) \/ v_trace w = [] /\ incl l start /\ (NoDup (map i_id start) -> NoDup (map i_id l)) ->
  Forall (good_new (v_st w)) l -> (In Restarted (v_trace w) -> Forall (new_individual (objects w)) l /\ NoDup (map i_id l) /\
    Forall (fun i => forall j, In j (submitted (v_trace w)) -> i_id j < i_id i) l) ->
  begin l w = (x, w') -> Inv w' /\ popok w' /\ x = Ok tt /\ v_pop w' = [] /\ v_st w' = v_st w /\ v_trace w' = v_trace w ++ map Submitted l.
Proof.
  intros I OR G R H. unfold begin, ebind, set_population in H. set (w1 := mkEvo (v_st w) [] (v_jobs w) (v_saved w) (v_trace w)) in *.
  assert (I1 : Inv w1) by (apply inv_pop; auto).
  destruct (inv_submit_all l w1 w' x I1) as (I2 & -> & S2 & P2 & T2); auto.
  - apply Forall_forall. intros i Hi. simpl. destruct OR as [OR|(_ & OR & _)]; [|left; auto].
    right. split; auto. destruct (R OR) as (R1 & _). rewrite Forall_forall in R1. auto.
  - intros ND. simpl. destruct OR as [OR|(-> & _ & OR)]; [|simpl; auto].
    destruct (R OR) as (_ & R2 & R3). clear - I ND R2 R3. pose proof (n_once w I ND) as N1. induction l as [|i l IH]; [rewrite app_nil_r; auto|].
    inversion R2; subst. inversion R3 as [|? ? H5 H6]; subst. simpl. apply Permutation_NoDup with (l := i_id i :: map i_id (submitted (v_trace w)) ++ map i_id l).
    + apply Permutation_middle.
    + constructor; auto. intros Hin. apply in_app_or in Hin as [Hin|Hin]; [|auto].
      apply in_map_iff in Hin as (j & Hj & Hin). apply H5 in Hin. lia.
  - split; auto. split; [intros m Hm; rewrite P2 in Hm; destruct Hm|]. rewrite S2, T2, P2. auto.
Qed.
Lemma turn_inv e w w' x : Inv w -> popok w -> turn ps mx n workers pop_size restart e w = (x, w') -> Inv w' /\ (forall a, x = Ok a -> popok w').
Proof.
  intros I PO H. unfold turn in H. unfold ebind at 1 in H. destruct (wait_next e w) as [y w1] eqn:E1.
  destruct (wait_inv e w w1 y I PO E1) as (I1 & P1 & Ep & Hy).
  destruct y as [[i o]|ex]; [|injection H as <- <-; split; [auto|intros a Ha; discriminate]].
  destruct Hy as (NJ & Eo & LJ & HS). unfold ebind at 1 in H.
  assert (H2 : exists z w2, (match o with Evaluated scores false => add_to_population pop_size (mkMem i scores) | _ => eret tt end) w1 = (z, w2) /\ Inv w2 /\ popok w2 /\ v_trace w2 = v_trace w1).
  { destruct o as [|sc []]; try (exists (Ok tt), w1; split; [reflexivity|auto]).
    destruct (add_to_population pop_size (mkMem i sc) w1) as [z w2] eqn:E2. exists z, w2. split; auto.
    destruct (add_inv _ _ _ _ I1 P1 HS E2) as (A & B & _ & D). auto. }
  destruct H2 as (z & w2 & E2 & I2 & P2 & T2). 
  match type of H with (match ?t with _ => _ end) = _ => change t with ((match o with Evaluated scores false => add_to_population pop_size (mkMem i scores) | _ => eret tt end) w1) in H end.
  rewrite E2 in H. destruct z as [[]|ex]; [|injection H as <- <-; split; [auto|intros a Ha; discriminate]].
  unfold ebind at 1 in H. destruct (refill ps mx n workers w2) as [z w3] eqn:E3.
  destruct (refill_inv w2 w3 z I2 P2 E3) as (I3 & P3 & _ & _).
  destruct z as [[]|ex]; [|injection H as <- <-; split; [auto|intros a Ha; discriminate]].
  unfold ebind at 1 in H.
  assert (HB : exists b w4, (if restart then gp (mrandom (fun r => let (b, r') := rcoin r in (Ok b, r'))) else eret false) w3 = (Ok b, w4) /\ Inv w4 /\ popok w4 /\ v_trace w4 = v_trace w3 /\ (b = true -> restart = true)).
  { destruct restart; [|exists false, w3; split; [reflexivity|auto]]. unfold gp, mrandom. destruct (rcoin (s_rng (v_st w3))) as [b r'].
    exists b. eexists. split; [reflexivity|]. split; [|split; auto]. apply (inv_extends w3); auto. apply rng_extends, I3. }
  destruct HB as (b & w4 & E4 & I4 & P4 & T4 & B4). rewrite E4 in H.
  destruct b; [|injection H as <- <-; split; auto]. specialize (B4 eq_refl).
  unfold ebind at 1 in H. unfold note in H. set (w5 := mkEvo (v_st w4) (v_pop w4) (v_jobs w4) (v_saved w4) (v_trace w4 ++ [Restarted])) in *.
  assert (I5 : Inv w5).
  { destruct I4 as [A1 B1 B1' C1' D1 E1' F1]. constructor; simpl; auto.
    - rewrite submitted_app, collected_app, !map_app. simpl. rewrite !app_nil_r. exact B1.
    - intros j Hj. apply in_or_app. auto.
    - intros z. rewrite C1'. symmetry. apply already_snoc. discriminate.
    - apply known_snoc; auto. intros j M. apply mentioned_one in M as [].
    - apply items_snoc; auto.
    - rewrite submitted_app, app_nil_r. exact F1. }
  unfold ebind at 1 in H. destruct (individuals ps mx pop_size w5) as [z w6] eqn:E6.
  destruct (individuals_inv _ _ _ _ I5 E6) as (I6 & W6 & U6 & X6 & H6).
  destruct z as [l|ex]; [|injection H as <- <-; split; [auto|intros a Ha; discriminate]].
  destruct H6 as (_ & ND & FA).
  assert (T6 : v_trace w6 = v_trace w5) by (rewrite W6; reflexivity).
  destruct (begin_inv l w6 w' x I6) as (I7 & P7 & _); auto.
  - left. rewrite T6. simpl. apply in_or_app. simpl. auto.
  - eapply Forall_impl; [|exact FA]. simpl. intros j Hj. apply Hj.
  - intros _. split; [eapply Forall_impl; [|exact FA]; simpl; intros j Hj; apply Hj|]. split; auto.
    eapply Forall_impl; [|exact FA]. simpl. intros j (Hj & _) j' Hj'. rewrite T6 in Hj'. apply in_submitted in Hj'.
    destruct (n_known w5 I5 j' (mentioned_submitted _ _ Hj')) as (Lj & _). simpl in Lj. lia.
Qed.
Lemma turns_inv es : forall k w w' x, Inv w -> popok w -> turns ps mx n workers pop_size max_n restart k es w = (x, w') -> Inv w'.
Proof.
  induction es as [|e es IH]; intros k w w' x I PO H; cbn [turns] in H; destruct (below max_n k); try (injection H as <- <-; auto; fail).
  - destruct (v_jobs w); injection H as <- <-; auto.
  - unfold ebind in H. destruct (turn ps mx n workers pop_size restart e w) as [y w1] eqn:E1.
    destruct (turn_inv e w w1 y I PO E1) as (I1 & P1). destruct y as [a|ex]; [|injection H as <- <-; auto]. eauto.
Qed.
Lemma fresh_inv_seen (s : setting) : seen_before s = seen -> wf_heap (s_heap s) -> Inv (fresh_search s).
Proof.
  intros SB W. constructor; simpl.
  - exact W.
  - constructor.
  - intros j [].
  - intros x. rewrite SB. split; [left; auto|]. intros [H|(ss & (i & sc & f & [] & _) & _)]; auto.
  - intros i (x & [] & _).
  - intros t1 x t2 H. destruct t1; discriminate.
  - intros _. constructor.
Qed.
Lemma ea_inv_seen (s : setting) es w' x : seen_before s = seen -> wf_heap (s_heap s) -> Forall (good_new s) start ->
  async_ea ps mx n workers pop_size max_n restart start es (fresh_search s) = (x, w') -> Inv w'.
Proof.
  intros SB W G H. unfold async_ea in H. destruct (match max_n with Some m => (m <=? 0)%Z | None => false end).
  { injection H as <- <-. apply fresh_inv_seen; auto. }
  unfold ebind in H. destruct (begin start (fresh_search s)) as [y w1] eqn:E1.
  destruct (begin_inv start (fresh_search s) w1 y (fresh_inv_seen s SB W)) as (I1 & P1 & -> & _); auto.
  - right. split; auto. split; [apply incl_refl|auto].
  - simpl. intros [].
  - eapply turns_inv; eauto.
Qed.
End Safe.
Lemma fresh_inv ps n restart P start (s : setting) : wf_heap (s_heap s) -> Inv (seen_before s) ps n restart P start (fresh_search s).
Proof. apply fresh_inv_seen. reflexivity. Qed.

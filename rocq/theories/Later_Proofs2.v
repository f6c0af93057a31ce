(** A search with a higher limit on the number of evaluations begins in the same way. *)
Require Import ZArith Lia.
From Verif Require Import Base Num Gp_Model Evo_Model Rnd_Model Proc_Model Limit_Model Later_Spec Later_Proofs.
From Verif Require Async_Model Sys_Model.
Open Scope nat_scope.
Open Scope list_scope.

Section Later2.
Context (call : nat -> list nat -> Async_Model.kwargs -> nat -> Async_Model.outcome) (scores : nat -> list num).

Section Programs.
Context {T J : Type} (ext : T -> T -> Prop) (ext_refl : forall w, ext w w).
(** The same, or the first has ended and the second goes on. *)
Definition onward (end1 : res unit -> Prop) (m m' : MP T J unit) : Prop := forall y,
  m' y = m y \/ (end1 (fst (m y)) /\ ext (fst (snd (m y))) (fst (snd (m' y)))).
Lemma onward_bind end1 {A} (m : MP T J A) (f f' : A -> MP T J unit) : (forall a, onward end1 (f a) (f' a)) -> onward end1 (pbind m f) (pbind m f').
Proof. intros F y. unfold pbind. destruct (m y) as [[a|e] y1]; [apply F|left; reflexivity]. Qed.
Lemma onward_refl end1 m : onward end1 m m.
Proof. intros y. left. reflexivity. Qed.
Lemma onward_ends (end1 : res unit -> Prop) x m' : end1 x -> grows ext m' -> onward end1 (fun y => (x, y)) m'.
Proof. intros H G y. right. split; [exact H|apply G]. Qed.
End Programs.

Definition ended (x : res unit) : Prop := x = Ok tt.
Section EA.
Context (ps : pset) (max_length : option Z) (max_retry pop_size : nat) (max_n max_n' : option Z) (restart : bool) (N : no_lower max_n max_n').
Lemma below_more k : below max_n k = true -> below max_n' k = true.
Proof. revert N. unfold no_lower, below. destruct max_n, max_n'; auto; try contradiction. intros H K. apply Z.ltb_lt in K. apply Z.ltb_lt. lia. Qed.
Lemma turns_onward f : forall k, onward vext ended (p_turns call scores ps max_length max_retry pop_size max_n restart f k) (p_turns call scores ps max_length max_retry pop_size max_n' restart f k).
Proof.
  induction f as [|f IH]; intros k.
  - pose proof (below_more k) as B. pose proof (grows_turns call [] scores ps max_length max_retry pop_size max_n' restart 0 k) as G. cbn [p_turns] in *.
    destruct (below max_n k); [rewrite B by reflexivity; apply onward_refl|]. apply onward_ends; [reflexivity|exact G].
  - pose proof (below_more k) as B. pose proof (grows_turns call [] scores ps max_length max_retry pop_size max_n' restart (S f) k) as G. cbn [p_turns] in *.
    destruct (below max_n k); [rewrite B by reflexivity; apply onward_bind; intros _; apply IH|]. apply onward_ends; [reflexivity|exact G].
Qed.
End EA.
Section RS.
Context (ps : pset) (max_length max_n max_n' : option Z) (N : no_lower max_n max_n').
Lemma rs_onward f : onward hext ended (q_rs_turns call scores ps max_length max_n f) (q_rs_turns call scores ps max_length max_n' f).
Proof.
  induction f as [|f IH]; cbn [q_rs_turns]; apply onward_bind; intros l; pose proof (below_more max_n max_n' N (length l)) as B; destruct (below max_n (length l)); try rewrite B by reflexivity.
  - apply onward_refl.
  - apply onward_ends; [reflexivity|]. destruct (below max_n' (length l)); [apply (grows_raise _ hext_refl)|apply (grows_ret _ hext_refl)].
  - apply onward_bind. intros x. apply onward_bind. intros _. apply onward_bind. intros i. apply onward_bind. intros _. exact IH.
  - apply onward_ends; [reflexivity|]. destruct (below max_n' (length l)); [|apply (grows_ret _ hext_refl)].
    apply grows_bind; [apply hext_trans|apply (hs_wait call [])|intros x]. apply grows_bind; [apply hext_trans|apply (hs_output [])|intros _].
    apply grows_bind; [apply hext_trans|apply grows_own, ho_gp|intros i]. apply grows_bind; [apply hext_trans|apply (hs_submit call [])|intros _; apply (grows_rs call [])].
Qed.
End RS.
(** The rungs stay the same. *)
Definition nos (w : hst) : list nat := map g_no (q_rungs w).
Definition no_o {A} (m : MH A) : Prop := forall w, nos (snd (m w)) = nos w.
Definition no_p {A} (m : Q A) : Prop := forall y, nos (fst (snd (m y))) = nos (fst y).
Lemma no_obind {A B} (m : MH A) (f : A -> MH B) : no_o m -> (forall a, no_o (f a)) -> no_o (hbind m f).
Proof. intros M F w. unfold hbind. specialize (M w). destruct (m w) as [[a|e] w1]; auto. rewrite <- M. apply F. Qed.
Lemma no_pbind {A B} (m : Q A) (f : A -> Q B) : no_p m -> (forall a, no_p (f a)) -> no_p (pbind m f).
Proof. intros M F y. unfold pbind. specialize (M y). destruct (m y) as [[a|e] y1]; auto. rewrite <- M. apply F. Qed.
Lemma no_own {A} (m : MH A) : no_o m -> no_p (own m).
Proof. intros G y. unfold own. specialize (G (fst y)). destruct (m (fst y)); auto. Qed.
Lemma no_gp {A} (m : M A) : no_o (hgp m).
Proof. intros w. unfold hgp. destruct (m (q_st w)). reflexivity. Qed.
Lemma set_rung_nos r l : map g_no (set_rung r l) = map g_no l.
Proof. unfold set_rung. rewrite map_map. apply map_ext. intros x. destruct (Nat.eqb_spec (g_no x) (g_no r)); auto. Qed.
Lemma no_promote eta l : no_o (promote_from eta l).
Proof.
  induction l as [|r l IH]; cbn [promote_from]; [intros w; reflexivity|]. destruct (length (g_prom r) <? length (g_inds r) / eta); [|exact IH].
  destruct (not_promoted r); [exact IH|]. apply no_obind; [apply no_gp|]. intros x w. unfold hbind, get_rungs, set_rungs, hret, nos. cbn [snd q_rungs]. apply set_rung_nos.
Qed.
Lemma no_job ps mx eta fr : no_o (get_job ps mx eta fr).
Proof.
  unfold get_job. apply no_obind; [intros w; reflexivity|]. intros all. apply no_obind; [apply no_promote|]. intros [j|]; [intros w; reflexivity|].
  apply no_obind; [intros w; unfold pop_candidate; destruct (rev (q_start w)); reflexivity|]. intros [i|]; [intros w; reflexivity|]. apply no_obind; [apply no_gp|]. intros i w. reflexivity.
Qed.
Lemma no_record x : no_o (record_result x).
Proof.
  destruct x as [[i r] [|sc b]]; cbn [record_result]; [intros w; reflexivity|]. destruct sc as [|l sc]; [intros w; reflexivity|]. intros w. unfold hbind, get_rungs.
  destruct (find (fun y => g_no y =? r) (q_rungs w)) as [y|]; [|reflexivity]. unfold set_rungs, nos. cbn [snd q_rungs]. apply set_rung_nos.
Qed.
Lemma no_collect j o : no_o (hcollect j o).
Proof.
  destruct o as [|sc b]; cbn [hcollect]; [|apply no_obind; [apply no_gp|]; intros i]; intros w; reflexivity.
Qed.
Lemma no_wait : no_p (q_wait_next call scores).
Proof.
  intros [w p]. unfold q_wait_next. destruct (pool_wait call p) as [[[k r]|e] p1]; [|reflexivity]. destruct (nth_error (p_jobs p1) k); [|reflexivity]. apply (no_own _ (no_collect _ _) (w, p1)).
Qed.
Section ASHA.
Context (ps : pset) (max_length : option Z) (eta first_rung : nat) (max_rung : Z) (m m' : option Z) (N : no_lower m m').
Lemma no_new_job : no_p (q_start_new_job call ps max_length eta first_rung max_rung).
Proof. unfold q_start_new_job. apply no_pbind; [apply no_own, no_job|]. intros j. destruct (existsb (Nat.eqb (snd j)) (rung_numbers first_rung max_rung)); intros [w p]; reflexivity. Qed.
(** There is a top rung. *)
Definition topped (w : hst) : Prop := exists k, In k (nos w) /\ Z.of_nat k = max_rung.
Lemma find_top w : topped w -> exists y, find (fun y => Z.eqb (Z.of_nat (g_no y)) max_rung) (q_rungs w) = Some y.
Proof.
  intros (k & H & E). apply in_map_iff in H as (y & <- & H). destruct (find _ (q_rungs w)) as [z|] eqn:F; [eauto|].
  exfalso. apply (find_none _ _ F) in H. apply Z.eqb_neq in H. auto.
Qed.
Definition onward_a (x x' : Q unit) : Prop := forall y, topped (fst y) -> x' y = x y \/ (fst (x y) = Ok tt /\ hext (fst (snd (x y))) (fst (snd (x' y)))).
Lemma onward_a_bind {A} (x : Q A) (f f' : A -> Q unit) : no_p x -> (forall a, onward_a (f a) (f' a)) -> onward_a (pbind x f) (pbind x f').
Proof.
  intros P F y T. unfold pbind. specialize (P y). destruct (x y) as [[a|e] y1]; [|left; reflexivity]. apply F. unfold topped. cbn [snd] in P. rewrite P. exact T.
Qed.
Lemma asha_onward f : onward_a (q_asha_turns call scores ps max_length eta first_rung max_rung m f) (q_asha_turns call scores ps max_length eta first_rung max_rung m' f).
Proof.
  induction f as [|f IH].
  - intros [w p] T. pose proof (grows_asha call [] scores ps max_length eta first_rung max_rung m' 0 (w, p)) as G. destruct (find_top w T) as [y FT]. revert G.
    cbn [q_asha_turns]. unfold pbind, own, get_rungs. cbn [fst snd]. unfold top_below. rewrite FT. revert N. unfold no_lower. destruct m as [a|], m' as [b|]; try contradiction.
    + intros H. destruct (Z.ltb_spec (Z.of_nat (length (g_inds y))) a), (Z.ltb_spec (Z.of_nat (length (g_inds y))) b); auto; lia.
    + intros H. destruct (Z.ltb_spec (Z.of_nat (length (g_inds y))) a); auto.
    + auto.
  - intros [w p] T. pose proof (grows_asha call [] scores ps max_length eta first_rung max_rung m' (S f) (w, p)) as G. destruct (find_top w T) as [y FT]. revert G. cbn [q_asha_turns].
    set (X := x <# q_wait_next call scores;; own (record_result x) ;;# q_start_new_job call ps max_length eta first_rung max_rung ;;# q_asha_turns call scores ps max_length eta first_rung max_rung m f).
    set (X' := x <# q_wait_next call scores;; own (record_result x) ;;# q_start_new_job call ps max_length eta first_rung max_rung ;;# q_asha_turns call scores ps max_length eta first_rung max_rung m' f).
    assert (O : onward_a X X').
    { apply onward_a_bind; [apply no_wait|]. intros x. apply onward_a_bind; [apply no_own, no_record|]. intros _. apply onward_a_bind; [apply no_new_job|]. intros _. exact IH. }
    specialize (O (w, p) T). clearbody X X'.
    unfold pbind, own, get_rungs. cbn [fst snd]. unfold top_below. rewrite FT. revert N. unfold no_lower. destruct m as [a|], m' as [b|]; try contradiction.
    + intros H. destruct (Z.ltb_spec (Z.of_nat (length (g_inds y))) a), (Z.ltb_spec (Z.of_nat (length (g_inds y))) b); auto; lia.
    + intros H. destruct (Z.ltb_spec (Z.of_nat (length (g_inds y))) a); auto.
    + auto.
Qed.
(** When the first job could be started there is a top rung. *)
Lemma jobs_topped k y : nos (fst y) = rev (rung_numbers first_rung max_rung) ->
  (exists e, fst (q_start_jobs call ps max_length eta first_rung max_rung (S k) y) = Err e) \/ topped (fst y).
Proof.
  intros E. cbn [q_start_jobs]. unfold pbind at 1. destruct (q_start_new_job call ps max_length eta first_rung max_rung y) as [[u|e] y1] eqn:J; [right|left; exists e; reflexivity].
  unfold q_start_new_job, pbind in J. destruct (own (get_job ps max_length eta first_rung) y) as [[j|e] y2]; [|discriminate].
  destruct (existsb (Nat.eqb (snd j)) (rung_numbers first_rung max_rung)) eqn:X; [|discriminate]. apply existsb_exists in X as (r & X & _). unfold rung_numbers in *. apply in_seq in X.
  exists (Z.to_nat max_rung). rewrite E. split; [|lia]. apply -> in_rev. apply in_seq. lia.
Qed.
Lemma nos_empty : map g_no (empty_rungs first_rung max_rung) = rev (rung_numbers first_rung max_rung).
Proof. unfold empty_rungs. rewrite map_map. cbn. apply map_id. Qed.
Lemma no_start_jobs k : no_p (q_start_jobs call ps max_length eta first_rung max_rung k).
Proof. induction k as [|k IH]; cbn [q_start_jobs]; [intros y; reflexivity|]. apply no_pbind; [apply no_new_job|]. intros _. exact IH. Qed.
End ASHA.
End Later2.

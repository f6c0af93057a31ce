(** Theorems about evaluation_library.py; restated in [Lib_Props.v]. *)
(*IMPORTS*)
From Verif Require Import Base Num Nsga_Model Lib_Model Lib_Spec.
Require Import Permutation Sorting.
Open Scope nat_scope.
(*END*)
From Verif Require Import Num_Proofs Heap_Model Heap_Proofs Nsga_Proofs5 Gp_Proofs Lib_Proofs Lib_Proofs2 Lib_Proofs3.

(** A history used in the examples: room for two evaluations, samples of two
    rows; the third evaluation failed, the fourth replaces the worst. *)
Definition ex_ev (i : nat) (q : Q) (err : option string) : ev :=
  new_ev i (if i =? 1 then "pipeA" else "pipeB") [Fin q; Fin 1] err [i] (Some [i; i + 1; i + 2; i + 3]).
Definition ex_es : list ev := [ex_ev 1 1 None; ex_ev 2 3 None; ex_ev 3 9 (Some "boom"%string); ex_ev 4 2 None].
Definition ex_lib : lib := new_lib (Some 2) (Some 2) None.

Lemma nodup_l {A} (a b : list A) : NoDup (a ++ b) -> NoDup a.
Proof.
  induction a as [|x a IH]; simpl; intros H; [constructor|]. apply NoDup_cons_iff in H as [H1 H2]. constructor; auto.
  intros K. apply H1, in_or_app; auto.
Qed.
Lemma run_inv l es r l' out : empty_lib l -> Forall ordinary es -> distinct es -> saves l es r = (l', out) ->
  inv l' (saved out).
Proof. intros H1 H2 H3 H4. apply (saves_inv es l [] r l' out); auto. apply inv_empty; auto. Qed.
Lemma okn_at S t : Forall ordinary S -> t < length S -> okn (ev_score (nth t S de)).
Proof. intros H Ht. rewrite Forall_forall in H. apply H, nth_In; auto. Qed.

(** C32. After any history of evaluations with distinct successful individuals, every saved evaluation is
    in the top or among the others, exactly once, unchanged; the top holds as many
    successful evaluations as fit, and none of the others is better. *)
Lemma C32_best_kept_main : forall l0 es r l out,
  empty_lib l0 -> Forall ordinary es -> distinct es -> saves l0 es r = (l, out) ->
  let S := saved out in
  Permutation (top l ++ l_other l) (seq 0 (length S)) /\
  (forall u, u < length S -> same_report (obj l u) (nth_ev S u)) /\
  length (top l) = (match l_m l0 with None => successes S | Some m => Nat.min m (successes S) end) /\
  (forall t, In t (top l) -> success (nth_ev S t)) /\
  (forall t u, In t (top l) -> In u (l_other l) -> success (nth_ev S u) ->
     ~ lex_lt (ev_score (nth_ev S t)) (ev_score (nth_ev S u))).
Proof.
  intros l0 es r l out H1 H2 H3 H4 S. pose proof (run_inv _ _ _ _ _ H1 H2 H3 H4) as I. fold S in I.
  destruct (saves_m_n _ _ _ _ _ H4) as [Em _].
  split; [apply (v_perm _ _ I)|]. split; [apply (v_same _ _ I)|].
  split; [unfold top; rewrite map_length, <- Em; apply (v_size _ _ I)|]. split.
  - intros t Ht. apply in_map_iff in Ht as (x & <- & Hx). apply (v_item _ _ I x Hx).
  - intros t u Ht Hu Su L. apply in_map_iff in Ht as (x & <- & Hx). destruct (v_item _ _ I x Hx) as (A & B & C).
    pose proof (v_best _ _ I x u Hx Hu Su) as Q. unfold nth_ev in L. fold de in L.
    assert (Hul : u < length S) by (apply (in_range l S u I), in_or_app; auto).
    apply tuple_lt_lex in L; [|apply okn_at; auto; apply (v_ok _ _ I)|apply okn_at; auto; apply (v_ok _ _ I)].
    rewrite B in Q. congruence.
Qed.
(** C32, no exceptions: if all predictions have the same number of rows, and a
    given sample only names such rows, every call returns normally. *)
Lemma C32_no_exception_main : forall l0 es r l out k,
  empty_lib l0 -> Forall ordinary es -> distinct es -> rows_below k (l_sample l0) -> Forall (rows_of k) es ->
  saves l0 es r = (l, out) -> saved out = es /\ Forall (fun x => snd x = Ok tt) out.
Proof.
  intros l0 es r l out k H1 H2 H3 H4 H5 H6.
  rewrite (saves_fine k es l0 [] r l out); auto; [|apply inv_empty; auto].
  split.
  - clear. unfold saved. induction es; simpl; auto. f_equal. auto.
  - rewrite Forall_map. apply Forall_forall. auto.
Qed.
Example C32_ex_main : empty_lib ex_lib /\ Forall ordinary ex_es /\ distinct ex_es /\
  rows_below 4 (l_sample ex_lib) /\ Forall (rows_of 4) ex_es /\
  exists l out, saves ex_lib ex_es [0; 1] = (l, out) /\ top l = [3; 1] /\ l_other l = [2; 0].
Proof.
  split; [repeat split|]. split.
  { repeat constructor; discriminate. }
  split; [unfold distinct; simpl; repeat constructor; simpl; lia|]. split; [exact I|]. split; [repeat constructor|].
  eexists _, _. split; [apply surjective_pairing|]. vm_compute. auto.
Qed.

(** C33. n_best(n): when the pipelines are wanted (or n is within m), as many of the
    top as asked for, best first, and nothing better left out. *)
Lemma C33_n_best_main : forall l0 es r l out n with_pipelines,
  empty_lib l0 -> Forall ordinary es -> distinct es -> saves l0 es r = (l, out) ->
  (match l_m l0 with None => True | Some m => n <= m \/ with_pipelines = true end) ->
  let S := saved out in let best := n_best l n with_pipelines in
  NoDup best /\ length best = Nat.min n (length (top l)) /\ incl best (top l) /\
  StronglySorted (fun a b => ~ lex_lt (ev_score (nth_ev S a)) (ev_score (nth_ev S b))) best /\
  (forall a b, In a best -> b < length S -> ~ In b best -> success (nth_ev S b) ->
     ~ lex_lt (ev_score (nth_ev S a)) (ev_score (nth_ev S b))).
Proof.
  intros l0 es r l out n wp H1 H2 H3 H4 HN S best. pose proof (run_inv _ _ _ _ _ H1 H2 H3 H4) as I. fold S in I.
  destruct (saves_m_n _ _ _ _ _ H4) as [Em _].
  assert (EB : best = map snd (firstn n (py_sorted (fun x y => negb (item_lt x y)) (l_top l)))).
  { unfold best, n_best. rewrite Em. destruct (l_m l0) as [m|]; auto.
    destruct HN as [HN| ->]; [apply Nat.leb_le in HN; rewrite HN|rewrite orb_true_r]; auto. }
  set (q := py_sorted (fun x y => negb (item_lt x y)) (l_top l)) in *.
  pose proof (top_all_ok _ _ I) as OK. unfold all_P in OK.
  assert (SQ : StronglySorted (fun a b => item_lt a b = false) q).
  { assert (SS : StronglySorted (fun a b => negb (item_lt a b) = true) q).
    { apply (sorted_ss okitem); auto.
      - intros a b Pa Pb. destruct (item_lt a b) eqn:E; auto. right. rewrite item_asym; auto.
      - intros a b c Pa Pb Pc A B. apply negb_true_iff in A, B. rewrite (item_trans a b c); auto. }
    clear - SS. induction SS; constructor; auto. eapply Forall_impl; [|exact H]. intros z Hz. apply negb_true_iff in Hz. auto. }
  destruct (best_of (l_top l) q n (py_sorted_perm _ _) OK SQ) as (P & HL & S1 & S2).
  assert (LEX : forall x u, In x (l_top l) -> u < length S -> okn (ev_score (nth_ev S u)) ->
     tuple_lt (fst x) (ev_score (nth_ev S u)) = false -> ~ lex_lt (ev_score (nth_ev S (snd x))) (ev_score (nth_ev S u))).
  { intros x u Hx Hu Ou Q L. destruct (v_item _ _ I x Hx) as (A & B & C). unfold nth_ev in *. fold de in *.
    apply tuple_lt_lex in L; auto; [|apply okn_at; auto; apply (v_ok _ _ I)]. rewrite B in Q. congruence. }
  assert (INQ : forall x, In x (firstn n q) -> In x (l_top l)).
  { intros x Hx. eapply Permutation_in; [exact P|apply in_or_app; auto]. }
  assert (LEX2 : forall x y, In x (l_top l) -> In y (l_top l) -> item_lt x y = false ->
     ~ lex_lt (ev_score (nth_ev S (snd x))) (ev_score (nth_ev S (snd y)))).
  { intros x y Hx Hy Q. destruct (v_item _ _ I y Hy) as (A & B & C). apply LEX; auto.
    - apply (okn_at S); auto. apply (v_ok _ _ I).
    - unfold nth_ev. fold de. rewrite <- B. exact Q. }
  rewrite EB. split; [|split; [|split; [|split]]].
  - assert (ND : NoDup (map snd (firstn n q ++ skipn n q))).
    { eapply Permutation_NoDup; [apply Permutation_sym, Permutation_map, P|].
      pose proof (nodup_top_other _ _ I) as ND. exact (nodup_l _ _ ND). }
    rewrite map_app in ND. exact (nodup_l _ _ ND).
  - unfold top. rewrite !map_length. exact HL.
  - intros b Hb. apply in_map_iff in Hb as (x & <- & Hx). apply in_map; auto.
  - clear - S1 INQ LEX2. induction S1 as [|x w SS IH F]; simpl; [constructor|]. constructor.
    + apply IH. intros; apply INQ; simpl; auto.
    + rewrite Forall_map. rewrite Forall_forall in *. intros y Hy. apply LEX2; auto; apply INQ; simpl; auto.
  - intros a b Ha Hb NI Sb. apply in_map_iff in Ha as (x & <- & Hx).
    apply (in_range l S b I) in Hb. assert (Hbl : b < length S) by (apply (in_range l S b I); auto).
    apply in_app_or in Hb as [Hb|Hb].
    + apply in_map_iff in Hb as (y & <- & Hy). apply LEX2; auto. apply S2; auto.
      apply (Permutation_in _ (Permutation_sym P)) in Hy. apply in_app_or in Hy as [Hy|Hy]; auto.
      exfalso. apply NI. apply in_map; auto.
    + apply LEX; auto; [apply (okn_at S); auto; apply (v_ok _ _ I)|]. apply (v_best _ _ I); auto.
Qed.
(** C33, beyond the top: with n > m and without pipelines, all evaluations count,
    also failed ones. *)
Lemma C33_n_best_all_main : forall l0 es r l out n m,
  empty_lib l0 -> Forall ordinary es -> distinct es -> saves l0 es r = (l, out) -> l_m l0 = Some m -> m < n ->
  let S := saved out in let best := n_best l n false in
  NoDup best /\ length best = Nat.min n (length S) /\
  StronglySorted (fun a b => ~ lex_lt (ev_score (nth_ev S a)) (ev_score (nth_ev S b))) best /\
  (forall a b, In a best -> b < length S -> ~ In b best -> ~ lex_lt (ev_score (nth_ev S a)) (ev_score (nth_ev S b))).
Proof.
  intros l0 es r l out n m H1 H2 H3 H4 HM HN S best. pose proof (run_inv _ _ _ _ _ H1 H2 H3 H4) as I. fold S in I.
  destruct (saves_m_n _ _ _ _ _ H4) as [Em _].
  set (all := l_top l ++ map (fun u => (ev_score (obj l u), u)) (l_other l)).
  assert (EB : best = map snd (firstn n (rev (py_sorted (fun x y => negb (item_lt y x)) all)))).
  { unfold best, n_best. rewrite Em, HM. destruct (Nat.leb_spec n m); [lia|]. auto. }
  assert (AL : forall x, In x all -> snd x < length S /\ fst x = ev_score (nth (snd x) S de)).
  { intros x Hx. apply in_app_or in Hx as [Hx|Hx].
    - destruct (v_item _ _ I x Hx) as (A & B & C). auto.
    - apply in_map_iff in Hx as (u & <- & Hu). assert (u < length S) by (apply (in_range l S u I), in_or_app; auto).
      split; auto. simpl. apply (v_same _ _ I u); auto. }
  assert (OK : Forall okitem all).
  { apply Forall_forall. intros x Hx. destruct (AL x Hx) as [A B]. unfold okitem. rewrite B. apply okn_at; auto. apply (v_ok _ _ I). }
  assert (PA : Permutation (map snd all) (seq 0 (length S))).
  { unfold all. rewrite map_app, map_map. simpl. rewrite map_id. apply (v_perm _ _ I). }
  set (q := rev (py_sorted (fun x y => negb (item_lt y x)) all)) in *.
  assert (PQ : Permutation all q).
  { eapply perm_trans; [apply (py_sorted_perm (fun x y => negb (item_lt y x)))|]. apply Permutation_rev. }
  assert (SQ : StronglySorted (fun a b => item_lt a b = false) q).
  { assert (SS : StronglySorted (fun a b => negb (item_lt b a) = true) (py_sorted (fun x y => negb (item_lt y x)) all)).
    { apply (sorted_ss okitem (fun x y => negb (item_lt y x))); auto.
      - intros a b Pa Pb. destruct (item_lt b a) eqn:E; auto. right. rewrite item_asym; auto.
      - intros a b c Pa Pb Pc A B. apply negb_true_iff in A, B. rewrite (item_trans c b a); auto. }
    apply SS_rev in SS. fold q in SS. clear - SS. induction SS; constructor; auto. eapply Forall_impl; [|exact H].
    intros z Hz. apply negb_true_iff in Hz. auto. }
  destruct (best_of all q n PQ OK SQ) as (P & HL & S1 & S2).
  assert (INQ : forall x, In x (firstn n q) -> In x all).
  { intros x Hx. eapply Permutation_in; [exact P|apply in_or_app; auto]. }
  assert (LEX2 : forall x y, In x all -> In y all -> item_lt x y = false ->
     ~ lex_lt (ev_score (nth_ev S (snd x))) (ev_score (nth_ev S (snd y)))).
  { intros x y Hx Hy Q L. destruct (AL x Hx) as [A B]. destruct (AL y Hy) as [C D]. unfold nth_ev in L. fold de in L.
    apply tuple_lt_lex in L; try (apply okn_at; auto; apply (v_ok _ _ I)). unfold item_lt in Q. rewrite B, D in Q. congruence. }
  rewrite EB. split; [|split; [|split]].
  - assert (ND : NoDup (map snd (firstn n q ++ skipn n q))).
    { eapply Permutation_NoDup; [apply Permutation_sym, Permutation_map, P|].
      eapply Permutation_NoDup; [apply Permutation_sym, PA|apply seq_NoDup]. }
    rewrite map_app in ND. exact (nodup_l _ _ ND).
  - apply Permutation_length in PA. rewrite map_length, seq_length in PA. rewrite map_length, <- PA. exact HL.
  - clear - S1 INQ LEX2. induction S1 as [|x w SS IH F]; simpl; [constructor|]. constructor.
    + apply IH. intros; apply INQ; simpl; auto.
    + rewrite Forall_map. rewrite Forall_forall in *. intros y Hy. apply LEX2; auto; apply INQ; simpl; auto.
  - intros a b Ha Hb NI. apply in_map_iff in Ha as (x & <- & Hx).
    assert (Hb' : In b (map snd all)) by (eapply Permutation_in; [apply Permutation_sym, PA|apply in_seq; lia]).
    apply in_map_iff in Hb' as (y & <- & Hy). apply LEX2; auto. apply S2; auto.
    apply (Permutation_in _ (Permutation_sym P)) in Hy. apply in_app_or in Hy as [Hy|Hy]; auto.
    exfalso. apply NI. apply in_map; auto.
Qed.
Example C33_ex_main : exists l out, saves ex_lib ex_es [0; 1] = (l, out) /\
  n_best l 2 true = [1; 3] /\ n_best l 1 true = [1] /\ n_best l 3 false = [2; 1; 3].
Proof. eexists _, _. split; [apply surjective_pairing|]. vm_compute. auto. Qed.

(** C34. Every top evaluation can produce the estimators it was saved with and the
    sampled rows of its predictions; they are on disk, not in memory.  Every other
    evaluation holds neither.  There is one file per top evaluation and no other. *)
Lemma C34_top_readable_main : forall l0 es r l out,
  empty_lib l0 -> Forall ordinary es -> distinct es -> saves l0 es r = (l, out) ->
  let S := saved out in
  (forall t, In t (top l) ->
     get_estimators l t = Ok (ev_est (nth_ev S t)) /\
     get_predictions l t = Ok (kept (l_n l0) (l_sample l) (ev_pred (nth_ev S t))) /\
     ev_est (obj l t) = [] /\ ev_pred (obj l t) = None) /\
  (forall u, In u (l_other l) -> get_estimators l u = Ok [] /\ get_predictions l u = Ok None /\ ev_file (obj l u) = None) /\
  Permutation (map fst (l_disk l)) (map (fun t => ev_ind (nth_ev S t)) (top l)) /\ NoDup (map fst (l_disk l)).
Proof.
  intros l0 es r l out H1 H2 H3 H4 S. pose proof (run_inv _ _ _ _ _ H1 H2 H3 H4) as I. fold S in I.
  destruct (saves_m_n _ _ _ _ _ H4) as [_ En].
  split; [|split; [|split]].
  - intros t Ht. destruct (v_disk _ _ I t Ht) as (A & B & C & D). unfold get_estimators, get_predictions.
    rewrite A, B, C. unfold nth_ev. fold de. rewrite D, <- En. auto.
  - intros u Hu. destruct (v_gone _ _ I u Hu) as (A & B & C). unfold get_estimators, get_predictions. rewrite A, B, C. auto.
  - apply (v_files _ _ I).
  - eapply Permutation_NoDup; [apply Permutation_sym, (v_files _ _ I)|].
    pose proof (nodup_top_other _ _ I) as ND.
    assert (NT : NoDup (map snd (l_top l))).
    { exact (nodup_l _ _ ND). }
    assert (HS : forall u, In u (map snd (l_top l)) -> u < length S /\ success (nth u S de)).
    { intros u Hu. apply in_map_iff in Hu as (x & <- & Hx). apply (v_item _ _ I) in Hx. tauto. }
    pose proof (v_dist _ _ I) as DI. clear - NT HS DI. induction NT as [|u w NI NT IH]; simpl; constructor.
    + intros H. apply in_map_iff in H as (v & E & Hv). apply NI.
      replace u with v; auto. apply (distinct_inj S); auto; apply HS; simpl; auto.
    + apply IH. intros; apply HS; simpl; auto.
Qed.
Example C34_ex_main : exists l out, saves ex_lib ex_es [0; 1] = (l, out) /\
  get_predictions l 1 = Ok (Some [2; 4]) /\ get_estimators l 1 = Ok [2] /\
  get_predictions l 0 = Ok None /\ get_estimators l 0 = Ok [] /\ map fst (l_disk l) = [4; 2].
Proof. eexists _, _. split; [apply surjective_pairing|]. vm_compute. auto. Qed.

(** C35 is false: with room for one evaluation, evaluating individual 1 again
    leaves a top evaluation whose predictions cannot be read, and the next
    better evaluation makes save_evaluation raise; the evaluation in the way is in
    neither list afterwards. *)
Definition again : list ev :=
  [new_ev 1 "A" [Fin 1] None [1] (Some [1]); new_ev 1 "A" [Fin 2] None [2] (Some [2]);
   new_ev 3 "B" [Fin 3] None [3] (Some [3])].
Lemma C35_repeated_refuted_main :
  Forall ordinary again /\
  (exists l out, saves (new_lib (Some 1) None None) (firstn 2 again) [] = (l, out) /\
    top l = [1] /\ get_predictions l 1 = Err FileNotFoundError /\ get_estimators l 1 = Err FileNotFoundError) /\
  (exists l out, saves (new_lib (Some 1) None None) again [] = (l, out) /\
    map snd out = [Ok tt; Ok tt; Err FileNotFoundError] /\ ~ In 1 (top l ++ l_other l)).
Proof.
  split; [repeat constructor; discriminate|]. split; eexists _, _; (split; [apply surjective_pairing|]).
  - vm_compute. auto.
  - vm_compute. split; auto. intros [|[|[]]]; discriminate.
Qed.
(** C35, the part that holds: an individual may be evaluated again as long as at most
    one of its evaluations is successful (asha.py:139 marks the evaluations on its
    lower rungs with an error, so that only the last one can be). *)
Lemma C35_repeated_partial_main : forall l0 es r l out,
  empty_lib l0 -> Forall ordinary es ->
  (forall i j, i < length es -> j < length es -> i <> j -> ev_ind (nth_ev es i) = ev_ind (nth_ev es j) ->
     ~ (success (nth_ev es i) /\ success (nth_ev es j))) ->
  saves l0 es r = (l, out) ->
  forall t, In t (top l) ->
    get_estimators l t = Ok (ev_est (nth_ev (saved out) t)) /\
    get_predictions l t = Ok (kept (l_n l0) (l_sample l) (ev_pred (nth_ev (saved out) t))).
Proof.
  intros l0 es r l out H1 H2 H3 H4 t Ht.
  assert (D : distinct es).
  { clear - H3. unfold distinct. induction es as [|e es IH]; simpl; [constructor|].
    assert (IH' : NoDup (map ev_ind (filter successb es))).
    { apply IH. intros i j Hi Hj N E. apply (H3 (S i) (S j)); simpl; auto; lia. }
    destruct (successb e) eqn:Q; auto. simpl. constructor; auto.
    intros K. apply in_map_iff in K as (e' & E & K). apply filter_In in K as [K1 K2].
    apply In_nth with (d := de) in K1 as (j & Hj & Ej).
    apply (H3 0 (S j)); simpl; try lia.
    - change (ev_ind e = ev_ind (nth j es de)). rewrite Ej. auto.
    - change (success e /\ success (nth j es de)). rewrite Ej. split; apply successb_iff; auto. }
  destruct (C34_top_readable_main l0 es r l out H1 H2 D H4) as [A _]. destruct (A t Ht) as (B & C & _). auto.
Qed.
(** Individual 1 first fails ("Not a full evaluation."), then is evaluated in full. *)
Example C35_ex_main : let es := [ex_ev 1 1 (Some "Not a full evaluation."%string); ex_ev 1 2 None] in
  (forall i j, i < length es -> j < length es -> i <> j -> ev_ind (nth_ev es i) = ev_ind (nth_ev es j) ->
     ~ (success (nth_ev es i) /\ success (nth_ev es j))) /\
  exists l out, saves ex_lib es [0; 1] = (l, out) /\ top l = [1] /\ get_predictions l 1 = Ok (Some [1; 3]).
Proof.
  split.
  - intros [|[|i]] [|[|j]] Hi Hj N _ [A B]; try congruence; try discriminate; simpl in Hi, Hj; lia.
  - eexists _, _. split; [apply surjective_pairing|]. vm_compute. auto.
Qed.

(** C36. The table maps the text of a pipeline to the last evaluation saved for it,
    and no other text; for any history, also with repeated individuals, NaN scores
    and failing calls. *)
Lemma C36_lookup_main : forall l0 es r l out key, empty_lib l0 -> saves l0 es r = (l, out) ->
  match find_key key (l_lookup l), last_with key (saved out) with
  | Some u, Some i => u < length (l_objs l) /\ same_report (obj l u) (nth_ev (saved out) i)
  | None, None => True
  | _, _ => False
  end.
Proof.
  intros l0 es r l out key (H1 & H2 & H3 & H4 & H5) E.
  assert (I : lookup_inv l0 []) by (intros k; rewrite H4; simpl; auto).
  exact (lookup_saves es l0 [] r l out I E key).
Qed.
(** With distinct individuals, it is that very evaluation. *)
Lemma C36_lookup_position_main : forall l0 es r l out key,
  empty_lib l0 -> Forall ordinary es -> distinct es -> saves l0 es r = (l, out) ->
  find_key key (l_lookup l) = last_with key (saved out).
Proof.
  intros l0 es r l out key H1 H2 H3 H4. apply (positions_saves es l0 [] r l out); auto.
  - apply inv_empty; auto.
  - destruct H1 as (_ & _ & _ & -> & _). auto.
Qed.
(** [last_with] is what its name says. *)
Lemma C36_last_main : forall key S,
  match last_with key S with
  | None => forall e, In e S -> ev_key e <> key
  | Some i => i < length S /\ ev_key (nth_ev S i) = key /\ forall j, i < j -> j < length S -> ev_key (nth_ev S j) <> key
  end.
Proof.
  intros key. induction S as [|e S IH]; simpl; [tauto|]. destruct (last_with key S) as [i|].
  - destruct IH as (A & B & C). split; [lia|]. split; [exact B|]. intros [|j] Hj Hl; [lia|]. apply (C j); lia.
  - destruct (String.eqb_spec (ev_key e) key) as [E|E].
    + split; [lia|]. split; [exact E|]. intros [|j] Hj Hl; [lia|]. apply IH. change (In (nth j S de) S). apply nth_In. lia.
    + intros x [<-|H]; auto.
Qed.
Example C36_ex_main : exists l out, saves ex_lib ex_es [0; 1] = (l, out) /\
  find_key "pipeA" (l_lookup l) = Some 0 /\ find_key "pipeB" (l_lookup l) = Some 3 /\ find_key "pipeC" (l_lookup l) = None.
Proof. eexists _, _. split; [apply surjective_pairing|]. vm_compute. auto. Qed.

Lemma remove_nth_split {A} (l : list A) : forall i, i < length l -> remove_nth i l = firstn i l ++ skipn (S i) l.
Proof. induction l as [|x l IH]; intros [|i] H; simpl in *; auto; try lia. f_equal. apply IH. lia. Qed.

(** C37. determine_sample_indices: the number of rows is the argument n or, without one,
    the library's.  [size] is the number of predictions, or of labels when
    stratifying; a stratified split that succeeds is required to give n distinct
    rows (scikit-learn's StratifiedShuffleSplit with train_size=n). *)
Definition good_split {B} (split : nat -> list B -> rng -> res (list nat) * rng) : Prop :=
  forall n labels r rows r', split n labels r = (Ok rows, r') ->
    length rows = n /\ NoDup rows /\ forall i, In i rows -> i < length labels.
Lemma C37_sample_main : forall (B : Type) (split : nat -> list B -> rng -> res (list nat) * rng) l n prediction_size stratify r l' x r',
  good_split split -> determine split l n prediction_size stratify r = (l', x, r') ->
  let wanted := match n with Some k => Some k | None => l_n l end in
  match prediction_size, stratify with
  | Some size, None =>
    x = Ok tt /\ match wanted with
                 | None => l_sample l' = KeepAll
                 | Some k => if k <? size then exists rows, l_sample l' = Rows rows /\ length rows = k /\ NoDup rows /\
                                                  forall i, In i rows -> i < size
                             else l_sample l' = KeepAll
                 end
  | None, Some labels =>
    match wanted with
    | None => x = Ok tt /\ l_sample l' = KeepAll
    | Some k => if k <? length labels then
                  (exists rows, x = Ok tt /\ l_sample l' = Rows rows /\ length rows = k /\ NoDup rows /\
                     forall i, In i rows -> i < length labels) \/
                  (exists e, x = Err e /\ fst (split k labels r) = Err e /\ l' = l)
                else x = Ok tt /\ l_sample l' = KeepAll
    end
  | _, _ => x = Err ValueError /\ l' = l
  end.
Proof.
  intros B split l n ps st r l' x r' GS E wanted. unfold determine in E.
  destruct ps as [size|], st as [labels|]; try (inversion E; subst; auto; fail).
  - assert (W : (match n with Some _ => n | None => l_n l end) = wanted) by (unfold wanted; destruct n; auto).
    rewrite W in E. destruct wanted as [k|]; [|inversion E; subst; auto].
    destruct (Nat.ltb_spec k size) as [L|L]; [|inversion E; subst; auto].
    destruct (rsample_ok k (seq 0 size) r) as (xs & r2 & ES & A & C & D); [apply seq_NoDup|rewrite seq_length; lia|].
    rewrite ES in E. inversion E; subst. split; auto. exists xs. repeat split; auto.
    intros i Hi. apply D, in_seq in Hi. lia.
  - assert (W : (match n with Some _ => n | None => l_n l end) = wanted) by (unfold wanted; destruct n; auto).
    rewrite W in E. destruct wanted as [k|]; [|inversion E; subst; auto].
    destruct (k <? length labels) eqn:L; [|inversion E; subst; auto].
    destruct (split k labels r) as [[rows|e] r2] eqn:ES; inversion E; subst.
    + left. exists rows. destruct (GS _ _ _ _ _ ES) as (A & C & D). auto.
    + right. exists e. rewrite ?ES. auto.
Qed.
(** Every set of rows of that size, in every order, can be the outcome. *)
Lemma C37_every_sample_main : forall l k size rows, k < size -> length rows = k -> NoDup rows ->
  (forall i, In i rows -> i < size) ->
  exists r r', determine (B := unit) (fun _ _ r => (Err ValueError, r)) l (Some k) (Some size) None r = (set_sample (Rows rows) l, Ok tt, r').
Proof.
  intros l k size rows HK HL ND HI. unfold determine. apply Nat.ltb_lt in HK. rewrite HK.
  assert (H : forall rows pool : list nat, NoDup rows -> incl rows pool -> exists r r', rsample (length rows) pool r = (Ok rows, r')).
  { clear. induction rows as [|x rows IH]; intros pool ND IN.
    - exists [], []. destruct pool; auto.
    - inversion ND; subst. assert (Hx : In x pool) by (apply IN; simpl; auto).
      apply In_nth with (d := x) in Hx as (i & Hi & Ei).
      assert (IN' : incl rows (firstn i pool ++ skipn (S i) pool)).
      { intros y Hy. assert (Hyp : In y pool) by (apply IN; simpl; auto).
        assert (SP : pool = firstn i pool ++ x :: skipn (S i) pool).
        { rewrite <- Ei at 1. clear - Hi. revert i Hi. induction pool as [|p pool IH]; intros i Hi; [simpl in Hi; lia|].
          destruct i; [auto|]. simpl. f_equal. apply IH. simpl in Hi. lia. }
        rewrite SP in Hyp. apply in_app_or in Hyp as [Hyp|[->|Hyp]]; [apply in_or_app; auto|tauto|apply in_or_app; auto]. }
      destruct (IH _ H2 IN') as (r & r' & E). exists (i :: r), r'.
      cbn [length rsample]. destruct pool as [|p pool]; [simpl in Hi; lia|]. set (pl := p :: pool) in *.
      cbn [draw]. rewrite Nat.mod_small by auto.
      rewrite (nth_error_nth' pl x Hi), Ei. cbn [rbind]. rewrite remove_nth_split by auto. rewrite E. auto. }
  subst k. destruct (H rows (seq 0 size) ND) as (r & r' & E).
  { intros i Hi. apply in_seq. specialize (HI i Hi). lia. }
  exists r, r'. rewrite E. auto.
Qed.
Example C37_ex_main : fst (fst (determine (B := unit) (fun _ _ r => (Err ValueError, r)) ex_lib None (Some 5) None [3; 0]))
    = set_sample (Rows [3; 0]) ex_lib /\
  good_split (B := nat) (fun n labels r => (if n <? length labels then Ok (seq 0 n) else Err ValueError, r)).
Proof.
  split; [reflexivity|]. intros n labels r rows r' E. destruct (Nat.ltb_spec n (length labels)); inversion E; subst.
  rewrite seq_length. repeat split; [apply seq_NoDup|]. intros i Hi. apply in_seq in Hi. lia.
Qed.

(** Theorems about the views of fronts, libraries and individuals; restated in
    [Seq_Props.v]. *)
(*IMPORTS*)
Require Import Ascii Permutation.
From Verif Require Import Base Num Par_Model Par_Spec Gp_Model Gp_Spec Str_Spec Seq_Model Seq_Spec.
From Verif Require Import Par_Main Gp_Examples Lib_Model Lib_Spec Lib_Main.
From Verif Require Fac_Model.
Open Scope nat_scope.
Open Scope list_scope.
(*END*)
From Verif Require Import Par_Proofs Gp_Proofs Gp_Proofs4 Str_Proofs Lib_Proofs Lib_Proofs2 Lib_Proofs3 Seq_Proofs.

(** C157: the front holds the items offered since it was cleared, some of them left
    out, the others in the order in which they were offered, whatever the calls were
    (also those that raise). *)
Lemma C157_order_main :
  forall (A : Type) (vals : A -> list num) (eqb : A -> A -> bool) (has_len : A -> bool) (earlier since : list op),
    ~ In Clear since ->
    let front := run vals eqb has_len (earlier ++ Clear :: since) in
    subseq front (offers since) /\ run vals eqb has_len since = front /\
    forall x y, before front x y -> before (offers since) x y.
Proof.
  intros A vals eqb has_len earlier since NC front.
  assert (E : run vals eqb has_len since = front).
  { unfold front, run. rewrite fold_left_app. reflexivity. }
  assert (S : subseq front (offers since)) by (rewrite <- E; exact (run_subseq vals eqb has_len since [] [] NC ss_nil)).
  split; [exact S|]. split; [exact E|]. intros x y. apply subseq_before. exact S.
Qed.
(** A front made from a list is the one that offering its items one by one gives. *)
Lemma C157_start_list_main :
  forall (A : Type) (vals : A -> list num) (eqb : A -> A -> bool) (has_len : A -> bool) (items front : list A),
    updates vals eqb has_len [] items = Ok front -> run vals eqb has_len (map Update items) = front.
Proof. intros A vals eqb has_len items front. apply updates_run. Qed.
(** Length, indices, loops, [reversed] and [in] show the same items. *)
Lemma C157_sequence_main :
  forall (A : Type) (eqb : A -> A -> bool) (front : list A),
    (forall i, (0 <= i < Z.of_nat (front_len front))%Z -> exists x, nth_error front (Z.to_nat i) = Some x /\
       front_item front i = Ok x /\ front_item front (i - Z.of_nat (front_len front)) = Ok x) /\
    (forall i, (i < - Z.of_nat (front_len front) \/ Z.of_nat (front_len front) <= i)%Z -> front_item front i = Err IndexError) /\
    (forall fuel, front_len front < fuel -> iterate fuel front 0 = Ok front) /\
    front_reversed front = Ok (rev front) /\
    (forall fuel x, item_eq eqb -> front_len front < fuel ->
       exists b, front_contains eqb fuel front x = Ok b /\ (b = true <-> In x front)).
Proof.
  intros A eqb front. assert (IT : forall fuel, front_len front < fuel -> iterate fuel front 0 = Ok front).
  { intros fuel H. apply iterate_all; auto. lia. }
  split; [|split; [|split; [exact IT|split; [apply reversed_all|]]]].
  - intros i Hi. unfold front_len in *. destruct (nth_error front (Z.to_nat i)) as [x|] eqn:N; [|apply nth_error_None in N; lia].
    exists x. split; auto. split.
    + rewrite <- (Z2Nat.id i) by lia. apply item_nth. auto.
    + unfold front_item. assert ((i - Z.of_nat (length front) <? 0)%Z = true) as -> by (apply Z.ltb_lt; lia).
      replace (i - Z.of_nat (length front) + Z.of_nat (length front))%Z with i by lia.
      rewrite (proj2 (Z.ltb_ge _ _)) by lia. rewrite N. reflexivity.
  - intros i Hi. unfold front_len in *. unfold front_item. destruct Hi as [Hi|Hi].
    + assert ((i <? 0)%Z = true) as -> by (apply Z.ltb_lt; lia). rewrite (proj2 (Z.ltb_lt _ _)) by lia. reflexivity.
    + assert ((i <? 0)%Z = false) as -> by (apply Z.ltb_ge; lia). rewrite (proj2 (Z.ltb_ge _ _)) by lia.
      rewrite (proj2 (nth_error_None _ _)) by lia. reflexivity.
  - intros fuel x EQ H. unfold front_contains. rewrite IT by auto. cbn [rbind]. eexists. split; [reflexivity|].
    rewrite existsb_exists. split.
    + intros (y & Hy & E). apply EQ in E. subst. auto.
    + intros Hx. exists x. split; auto. apply EQ. reflexivity.
Qed.
Example C157_ex_main :
  run ex_vals Nat.eqb (fun _ => true) ([Update 4; Clear] ++ map Update [2; 1; 0; 2; 3]) = [1; 0; 3] /\
  front_item [1; 0; 3] (-1) = Ok 3 /\ front_item [1; 0; 3] 3 = Err IndexError /\ iterate 4 [1; 0; 3] 0 = Ok [1; 0; 3] /\
  updates ex_vals Nat.eqb (fun _ => true) [] [2; 1; 0; 2; 3] = Ok [1; 0; 3].
Proof. repeat split; reflexivity. Qed.

(** C158: if no call of save_evaluation raised, the evaluations of a library are the
    saved ones, each listed once, with what was reported about them; pipelines may have
    been evaluated several times. *)
Lemma C158_listed_main : forall l0 es r l out,
  empty_lib l0 -> Forall ordinary es -> saves l0 es r = (l, out) -> Forall (fun x => snd x = Ok tt) out ->
  Permutation (evaluations l) (seq 0 (length es)) /\
  forall i, i < length es -> same_report (obj l i) (nth_ev es i).
Proof.
  intros l0 es r l out (H1 & H2 & H3 & H4 & H5) _ E F.
  destruct (saves_listed es l0 r l out E F) as (A1 & A2 & _ & A4).
  - unfold evaluations. rewrite H1, H2, H3. constructor.
  - rewrite H1 in A1, A4. simpl in A1, A4. rewrite A1 in A2. split; auto.
Qed.
(** clear_cache leaves no file behind, changes neither the list nor the reports, and
    the models and predictions of the kept evaluations cannot be read any more; the
    others never could. A second call raises. *)
Lemma C158_cleared_main : forall l0 es r l out l' there x,
  empty_lib l0 -> Forall ordinary es -> distinct es -> saves l0 es r = (l, out) ->
  clear_cache (l, true) = ((l', there), x) ->
  x = Ok tt /\ there = false /\ l_disk l' = [] /\ evaluations l' = evaluations l /\ (forall u, obj l' u = obj l u) /\
  (forall t, In t (top l) -> get_estimators l' t = Err FileNotFoundError /\ get_predictions l' t = Err FileNotFoundError) /\
  (forall u, In u (l_other l) -> get_estimators l' u = Ok [] /\ get_predictions l' u = Ok None) /\
  clear_cache (l', there) = ((l', there), Err FileNotFoundError).
Proof.
  intros l0 es r l out l' there x H1 H2 H3 H4 E. injection E as <- <- <-.
  pose proof (Lib_Main.run_inv _ _ _ _ _ H1 H2 H3 H4) as I. split; auto. split; auto. split; auto. split; auto. split; [reflexivity|]. split; [|split; [|reflexivity]].
  - intros t Ht. destruct (v_disk _ _ I t Ht) as (A & B & C & D). unfold get_estimators, get_predictions.
    change (obj (Fac_Model.wipe l) t) with (obj l t). cbn [fst Fac_Model.wipe l_disk]. change (obj (Fac_Model.wipe l) t) with (obj l t). rewrite A, B, C. split; reflexivity.
  - intros u Hu. destruct (v_gone _ _ I u Hu) as (A & B & C). unfold get_estimators, get_predictions. cbn [fst].
    change (obj (Fac_Model.wipe l) u) with (obj l u). rewrite A, B, C. split; reflexivity.
Qed.
Example C158_ex_main : empty_lib ex_lib /\ Forall ordinary ex_es /\ distinct ex_es /\
  exists l out, saves ex_lib ex_es [0; 1] = (l, out) /\ Forall (fun x => snd x = Ok tt) out /\ evaluations l = [3; 1; 2; 0].
Proof.
  destruct C32_ex_main as (A & B & C & _ & _ & (l & out & E & T & O)). split; auto. split; auto. split; auto.
  exists l, out. split; auto. split; [|unfold evaluations; fold (top l); rewrite T, O; reflexivity].
  clear T O. assert (out = snd (saves ex_lib ex_es [0; 1])) as -> by (rewrite E; reflexivity). clear. vm_compute. repeat constructor.
Qed.

(** C159: the short name of an individual names its steps in the order in which they
    are applied, and tells two individuals apart exactly if their steps have other
    names (the separator, one character, is not part of a name). *)
Lemma C159_short_name_main : forall (c : ascii) ind ind' s ls ss ls' ss',
  wf_heap (s_heap s) -> pipeline (s_heap s) ind ls ss -> pipeline (s_heap s) ind' ls' ss' ->
  Forall (fun st => ~ contains (String c "") (p_name (fst st))) (ss ++ ss') ->
  exists n n', short_name (String c "") ind s = (Ok n, s) /\ short_name (String c "") ind' s = (Ok n', s) /\
    n = String.concat (String c "") (map (fun st => p_name (fst st)) (rev ss)) /\
    (n = n' <-> map (fun st => p_name (fst st)) ss = map (fun st => p_name (fst st)) ss').
Proof.
  intros c ind ind' s ls ss ls' ss' W P P' F. eexists _, _. split; [apply (short_name_ok _ _ _ ls ss); auto|].
  split; [apply (short_name_ok _ _ _ ls' ss'); auto|]. split; [reflexivity|]. apply Forall_app in F as [F F'].
  assert (G : forall tt, Forall (fun st : step => ~ contains (String c "") (p_name (fst st))) tt -> tt <> [] ->
    Str_Model.split (String c "") (String.concat (String c "") (map (fun st => p_name (fst st)) (rev tt))) = map (fun st => p_name (fst st)) (rev tt)).
  { intros tt Ft Nt. apply split_concat.
    - intros E. apply map_eq_nil in E. apply Nt. rewrite <- (rev_involutive tt), E. reflexivity.
    - apply Forall_map. apply Forall_rev. auto. }
  assert (N : ss <> []) by (inversion P; discriminate). assert (N' : ss' <> []) by (inversion P'; discriminate).
  rewrite !map_rev. split.
  - intros E. apply (f_equal (Str_Model.split (String c ""))) in E. rewrite <- !map_rev, !G, !map_rev in E by auto.
    apply (f_equal (@rev string)) in E. rewrite !rev_involutive in E. exact E.
  - intros ->. reflexivity.
Qed.
(** Printing an individual: the identifier, the pipeline and the fitness can all be
    told from the text (neither the identifier nor the pipeline contains a line
    break). *)
Lemma C159_text_main : forall ind ind' s ls ss ls' ss' id id' fitness fitness' p p',
  wf_heap (s_heap s) -> pipeline (s_heap s) ind ls ss -> pipeline (s_heap s) ind' ls' ss' ->
  pipeline_str ind s = (Ok p, s) -> pipeline_str ind' s = (Ok p', s) ->
  (forall x, In x [id; id'; p; p'] -> ~ contains newline x) ->
  exists t t', individual_str id fitness ind s = (Ok t, s) /\ individual_str id' fitness' ind' s = (Ok t', s) /\
    (t = t' <-> id = id' /\ p = p' /\ fitness = fitness').
Proof.
  intros ind ind' s ls ss ls' ss' id id' fitness fitness' p p' W P P' E E' NL. unfold individual_str, mbind. rewrite E, E'.
  eexists _, _. split; [reflexivity|]. split; [reflexivity|]. split; [|intros (-> & -> & ->); reflexivity].
  intros H. cbn [append] in H. injection H as H. unfold newline in H. cbn [append] in H.
  apply first_line in H as [-> H]; [|apply NL; simpl; auto|apply NL; simpl; auto]. injection H as H.
  apply first_line in H as [-> H]; [|apply NL; simpl; auto|apply NL; simpl; auto]. injection H as H. auto.
Qed.
Example C159_ex_main :
  wf_heap (s_heap (ex_state [])) /\ pipeline (s_heap (ex_state [])) ex_ind1 [0; 1; 2; 3] ex_long /\
  Forall (fun st => ~ contains ">" (p_name (fst st))) ex_long /\
  fst (short_name ">" ex_ind1 (ex_state [])) = Ok "Bin>PCA>Bin>BNB"%string.
Proof.
  split; [apply ex_wf|]. split; [apply ex_pipe1|]. split; [|vm_compute; reflexivity].
  repeat constructor; (apply Str_Proofs.after_first_none; vm_compute; reflexivity).
Qed.

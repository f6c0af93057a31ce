(** C173: fit succeeds, when its workers get their turns. *)
(*IMPORTS*)
Require Import ZArith QArith Qcanon.
From Verif Require Import Base Num Lib_Spec Data_Model Data_Spec Gp_Model Gp_Spec Gp_Examples Eval_Model Evo_Model Evo_Spec Rnd_Model Rnd_Spec End_Model End_Spec Pred_Model Fit_Model Fit_Spec Proc_Spec Whole_Model Whole_Spec Done_Spec.
From Verif Require Async_Model Sys_Model Proc_Model Sys_Main Again_Main Whole_Main Live_Main.
Open Scope string_scope.
Open Scope nat_scope.
Open Scope list_scope.
(*END*)
Require Import Lia.
From Verif Require Import Whole_Proofs Whole_Proofs2 Whole_Proofs3 Whole_Proofs4.
From Verif Require Live_Spec Proc_Main Proc_Proofs2 Proc_Proofs3 Evo_Main Evo_Proofs2 End_Main End_Proofs.

Lemma one_more (ks failing : list nat) : NoDup ks -> length failing < length ks -> exists k, In k ks /\ ~ In k failing.
Proof.
  intros N L. destruct (Exists_dec (fun k => ~ In k failing) ks) as [D|D].
  - intros k. destruct (in_dec Nat.eq_dec k failing); [right|left]; auto.
  - apply Exists_exists in D as (k & A & B). eauto.
  - exfalso. assert (I : incl ks failing). { intros k K. destruct (in_dec Nat.eq_dec k failing) as [H|H]; auto. exfalso. apply D. apply Exists_exists. eauto. }
    pose proof (NoDup_incl_length N I). lia.
Qed.
Lemma F2_pick {A B} (R : A -> B -> Prop) l l' x : Forall2 R l l' -> In x l -> exists y, In y l' /\ R x y.
Proof. induction 1 as [|a b l l' H F IH]; intros []; [subst; exists b; split; [left|]; auto|]. destruct IH as (y & I & J); auto. exists y. split; [right|]; auto. Qed.
Lemma F2_number {A B} (R : A -> B -> Prop) l l' : Forall2 R l l' -> length l = length l'.
Proof. induction 1; cbn; auto. Qed.
Lemma h_one call scores d failing w : h_from_workers call scores d w -> yields call d failing -> length failing < length (arrivals (q_trace w)) ->
  exists i r v f, In (Finished i r (Evaluated (scores v) f)) (q_trace w).
Proof.
  intros (ks & N & F) (_ & Y) L. destruct (one_more ks failing N) as (k & K & NF); [rewrite (F2_number _ _ _ F); auto|].
  destruct (F2_pick _ _ _ _ F K) as ([[i r] o] & I & j & _ & _ & c & _ & LE). destruct (Y k c NF) as (v & e & EC). rewrite EC in LE. destruct LE as (f & -> & _).
  destruct (Proc_Main.in_arrivals _ _ _ _ I) as (t1 & t2 & ->). exists i, r, v, f. apply in_or_app. right. left. auto.
Qed.
Lemma some_result t i r sc f : In (Finished i r (Evaluated sc f)) t -> results t <> [].
Proof.
  induction t as [|y t IH]; intros []; [subst; discriminate|]. destruct y as [|i' r' [|sc' f']]; cbn [results]; auto. discriminate.
Qed.
Lemma some_scored t i r z sc f : In (Finished i r (Evaluated (z :: sc) f)) t -> scored r t <> [].
Proof.
  intros I E. apply in_split in I as (t1 & t2 & ->). unfold scored in E. rewrite flat_map_app in E. apply app_eq_nil in E as [_ E]. cbn [flat_map] in E. rewrite Nat.eqb_refl in E. discriminate.
Qed.
Lemma start_number pop i f b s pop' k : pop = Obj i f b s :: pop' -> length pop <= k -> match individuals_of pop with [] => 50 | _ => length (individuals_of pop) end <= k.
Proof.
  intros -> L. cbn [individuals_of]. eapply Nat.le_trans; [|exact L]. cbn. apply le_n_S. clear. induction pop' as [|[] l IH]; cbn; auto with arith.
Qed.

(** C173.  fit with random search returns: its arguments are accepted, pipelines can be made
    from the search space, estimators can be built and trained; the workers get so many turns
    that the first candidates can be submitted, and more rounds than there are failing
    evaluations. *)
Lemma C173_random_main :
  forall E (build : nat -> list (string * value) -> res E) estimator train rate fit_transform fitted knn poly takes_labels max_n max_length n log defaults g e xe y r g' candidates failing,
  accepted rate fit_transform (this_call build estimator train (RandomSearch max_n) max_length n log defaults e) g xe y ->
  ready (i_pset g') max_length e g -> pset_rich (i_pset g') -> allows_one max_length ->
  (forall c kwargs, exists x, build c kwargs = Ok x) -> (forall made x y, exists m, train made x y = Ok m) ->
  (match max_n with Some m => (0 < m)%Z | None => True end) -> 0 < n ->
  (forall labels deadline, yields (e_call e xe y labels deadline) defaults failing) ->
  (forall pop, started_from (this_call build estimator train (RandomSearch max_n) max_length n log defaults e) g (i_pset g') pop -> length pop <= candidates) ->
  long_enough n candidates (length failing) (e_plan e) ->
  fit rate fit_transform fitted knn poly fitness_of takes_labels (this_call build estimator train (RandomSearch max_n) max_length n log defaults e) g = (r, g') ->
  exists v, r = Ok v.
Proof.
  intros E build estimator train rate ft fitted knn poly tl max_n ml n log d g e xe y r g' cand failing A R R1 R2 B T MN POS Y NC (init & rounds & rest & EPL & NK & FR & LI & LF) F.
  destruct (Whole_Main.accepted_search build estimator train rate ft fitted knn poly tl (RandomSearch max_n) ml n log d e g xe y r g' ml A R (or_introl eq_refl) R1 R2 B T F) as (pop & s & limit & dl & ending & out & S & SE & W & SO & ND & (i & f & b & pop' & EP) & K & _).
  unfold Whole_Model.search in SE. rewrite EP in SE. rewrite <- EP in SE.
  destruct (Proc_Model.q_rs_phase (e_call e xe y (i_labels g') dl) (e_scores e) (i_pset g') ml max_n n log d (individuals_of pop) (Proc_Model.before_h s (e_plan e))) as [x [w p]] eqn:ER. injection SE as H1 H2.
  destruct (rs_found _ _ _ _ _ _ _ _ _ _ _ _ _ _ W SO ND ER) as (FW & QO & FO). cbn [fst] in H2. rewrite QO in H2.
  destruct (Proc_Main.C161_random_runs_main _ _ _ _ _ _ _ _ _ _ _ _ _ _ W SO R1 R2 ER) as (X & _).
  assert (EN : ended ending) by (rewrite <- H1; left; destruct X as [-> | ->]; reflexivity).
  destruct (K EN _ _ _ _ _ FO (eq_sym H2)) as [(Z & _)|(_ & Z)]; [exfalso|exact Z].
  rewrite EPL in ER. pose proof (start_number pop i f b s pop' (length init) EP (Nat.le_trans _ _ _ (NC pop S) LI)) as LC.
  pose proof (Live_Main.C172_random_main _ _ _ _ _ _ _ _ _ _ _ _ _ _ _ _ POS (proj1 (Y _ _)) NK FR LC W SO R1 R2 ER) as C.
  assert (G : length rounds <= length (arrivals (q_trace w)) -> False).
  { intros G. destruct (h_one _ _ _ failing w FW (Y _ _) ltac:(lia)) as (j & q & v & h & I0). exact (some_result _ _ _ _ _ I0 Z). }
  destruct max_n as [m|]; [destruct C as [(_ & C)|(_ & C & _)]|destruct C as (_ & C)]; auto. rewrite Z in C. cbn in C. lia.
Qed.
(** C173: ASHA, which submits eight pipelines at first. *)
Lemma C173_asha_main :
  forall E (build : nat -> list (string * value) -> res E) estimator train rate fit_transform fitted knn poly takes_labels eta first_rung max_rung max_full max_length n log defaults g e xe y r g' failing,
  accepted rate fit_transform (this_call build estimator train (Halving eta first_rung max_rung max_full) max_length n log defaults e) g xe y ->
  ready (i_pset g') max_length e g -> pset_rich (i_pset g') -> allows_one max_length -> (Z.of_nat first_rung <= max_rung)%Z -> (forall k, e_scores e k <> []) ->
  (forall c kwargs, exists x, build c kwargs = Ok x) -> (forall made x y, exists m, train made x y = Ok m) ->
  (match max_full with None => True | Some m => (0 < m)%Z end) -> 0 < n ->
  (forall labels deadline, yields (e_call e xe y labels deadline) defaults failing) ->
  long_enough n 8 (length failing) (e_plan e) ->
  fit rate fit_transform fitted knn poly fitness_of takes_labels (this_call build estimator train (Halving eta first_rung max_rung max_full) max_length n log defaults e) g = (r, g') ->
  exists v, r = Ok v.
Proof.
  intros E build estimator train rate ft fitted knn poly tl eta fr mr mf ml n log d g e xe y r g' failing A R R1 R2 R3 R4 B T R5 POS Y (init & rounds & rest & EPL & NK & FR & LI & LF) F.
  destruct (Whole_Main.accepted_search build estimator train rate ft fitted knn poly tl (Halving eta fr mr mf) ml n log d e g xe y r g' ml A R (or_introl eq_refl) R1 R2 B T F) as (pop & s & limit & dl & ending & out & S & SE & W & SO & ND & (i & f & b & pop' & EP) & K & K2).
  unfold Whole_Model.search in SE. rewrite EP in SE. rewrite <- EP in SE.
  destruct (Proc_Model.q_asha_phase (e_call e xe y (i_labels g') dl) (e_scores e) (i_pset g') ml eta fr mr mf n log d (individuals_of pop) (Proc_Model.before_h s (e_plan e))) as [x [w p]] eqn:ER. cbn [fst] in SE.
  assert (EI : exists i start', individuals_of pop = i :: start') by (exists i, (individuals_of pop'); rewrite EP; reflexivity).
  destruct (asha_ends _ _ _ _ _ _ _ _ _ _ _ _ _ _ _ _ _ W SO ND R1 R2 R3 R4 R5 EI ER) as [(N & EO)|(N & l & EO & NE)].
  - exfalso. assert (ER' := ER). rewrite EPL in ER'.
    pose proof (Proc_Main.C161_asha_results_main _ _ _ _ _ _ _ _ _ _ _ _ _ _ _ _ _ W SO ND ER) as FW.
    pose proof (Live_Main.C172_asha_main _ _ _ _ _ _ _ _ _ _ _ _ _ _ _ _ _ _ _ POS (proj1 (Y _ _)) NK FR LI R4 W SO R1 R2 R3 ER') as C.
    assert (G : length rounds <= length (arrivals (q_trace w)) -> False).
    { intros G. destruct (h_one _ _ _ failing w FW (Y _ _) ltac:(lia)) as (j & q & v & h & I0). pose proof (R4 v) as NV. destruct (e_scores e v) as [|z sc]; [congruence|]. exact (some_scored _ _ _ _ _ _ I0 (N q)). }
    destruct mf as [m|]; [destruct C as [(_ & C)|(_ & C & _)]|destruct C as (_ & C)]; auto. rewrite N in C. cbn in C. lia.
  - rewrite EO in SE. injection SE as <- H2. destruct (asha_found _ _ _ _ _ _ _ _ _ _ _ _ _ _ _ _ _ _ W SO ND R1 R2 R3 R4 ER EO) as (_ & FO & _).
    destruct (K (or_introl eq_refl) _ _ _ _ _ FO (eq_sym H2)) as [(Z & _)|(_ & Z)]; [contradiction|exact Z].
Qed.
Lemma e_one call scores d failing w : from_workers call scores d w -> succeeds call d failing -> length failing < length (collections (v_trace w)) ->
  exists i v, In (Collected i (Evaluated (scores v) false)) (v_trace w).
Proof.
  intros (ks & N & F) (_ & Y) L. destruct (one_more ks failing N) as (k & K & NF); [rewrite (F2_number _ _ _ F); auto|].
  destruct (F2_pick _ _ _ _ F K) as ([i o] & I & j & _ & _ & c & _ & LE). destruct (Y k c NF) as (v & EC). rewrite EC in LE. destruct LE as (f & EO & FF). cbn [snd] in EO. subst o.
  assert (f = false) by (apply FF; auto). subst f.
  destruct (Proc_Main.in_collections _ _ _ I) as (t1 & t2 & ->). exists i, v. apply in_or_app. right. left. auto.
Qed.
Lemma no_restart t : ~ In Restarted t -> since_restart t = t.
Proof.
  induction t as [|y t IH] using rev_ind; intros N; auto. rewrite Evo_Proofs2.since_snoc. assert (H : since_restart t = t) by (apply IH; intros I; apply N; apply in_or_app; auto).
  destruct y; rewrite ?H; auto. exfalso. apply N, in_or_app. right. left. auto.
Qed.
Lemma some_success t i sc : In (Collected i (Evaluated sc false)) t -> successes t <> [].
Proof.
  intros I E. apply in_split in I as (t1 & t2 & ->). rewrite Evo_Proofs2.successes_app in E. apply app_eq_nil in E as [_ E]. discriminate.
Qed.
(** C173: the evolutionary search without restarts, where the exceptions of C160 remain possible: the
    ValueError of selecting from fewer than three pipelines; with single scores, or a limit of one step, an
    IndexError; with a limit of three or more steps an AttributeError or a ValueError.  Missing: restarts. *)
Lemma C173_evolutionary_partial_main :
  forall E (build : nat -> list (string * value) -> res E) estimator train rate fit_transform fitted knn poly takes_labels max_retry pop_size max_n max_length n log defaults g e xe y r g' k candidates failing,
  accepted rate fit_transform (this_call build estimator train (Evolution max_retry pop_size max_n false) max_length n log defaults e) g xe y ->
  ready (i_pset g') max_length e g -> pset_typed (i_pset g') -> pset_rich (i_pset g') -> allows_one max_length -> 0 < max_retry ->
  (forall j, length (e_scores e j) = k) ->
  (forall c kwargs, exists x, build c kwargs = Ok x) -> (forall made x y, exists m, train made x y = Ok m) ->
  (match max_n with Some m => (Z.of_nat (length failing) < m)%Z | None => True end) -> 0 < pop_size -> 0 < n ->
  (forall labels deadline, succeeds (e_call e xe y labels deadline) defaults failing) ->
  (forall pop, started_from (this_call build estimator train (Evolution max_retry pop_size max_n false) max_length n log defaults e) g (i_pset g') pop -> length pop <= candidates) ->
  long_enough n candidates (length failing) (e_plan e) ->
  fit rate fit_transform fitted knn poly fitness_of takes_labels (this_call build estimator train (Evolution max_retry pop_size max_n false) max_length n log defaults e) g = (r, g') ->
  (exists v, r = Ok v) \/ r = Err ValueError \/
  (r = Err IndexError /\ (k < 2 \/ max_length = Some 1%Z)) \/
  (r = Err AttributeError /\ exists limit, max_length = Some limit /\ (3 <= limit)%Z).
Proof.
  intros E build estimator train rate ft fitted knn poly tl mr pz mn ml n log d g e xe y r g' k cand failing A R TY R1 R2 HN K1 B T HM PZ POS Y NC (init & rounds & rest & EPL & NK & FR & LI & LF) F.
  assert (HM' : match mn with Some m => (0 < m)%Z | None => True end) by (destruct mn; auto; lia).
  destruct (Whole_Main.accepted_search build estimator train rate ft fitted knn poly tl (Evolution mr pz mn false) ml n log d e g xe y r g' ml A R (or_introl eq_refl) R1 R2 B T F) as (pop & s & limit & dl & ending & out & S & SE & W & SO & ND & (i & f & b & pop' & EP) & K & K2).
  unfold Whole_Model.search in SE. rewrite EP in SE. rewrite <- EP in SE.
  destruct (Proc_Model.p_search (e_call e xe y (i_labels g') dl) (e_scores e) (i_pset g') ml mr pz mn false n log d (individuals_of pop) (Proc_Model.before_search (mkSetting s (seen_before (e_mem e))) (e_plan e))) as [x [w p]] eqn:ER. injection SE as H1 H2. cbn [fst] in H2.
  change (wf_heap (s_heap (mkSetting s (seen_before (e_mem e))))) in W. change (start_ok (i_pset g') ml (mkSetting s (seen_before (e_mem e))) (individuals_of pop)) in SO.
  assert (SO' : start_ok (i_pset g') None (mkSetting s (seen_before (e_mem e))) (individuals_of pop)) by (eapply Whole_Main.start_none; exact SO).
  assert (ER' := ER). rewrite EPL in ER'. pose proof (start_number pop i f b s pop' (length init) EP (Nat.le_trans _ _ _ (NC pop S) LI)) as LC.
  pose proof (Live_Main.C172_evolutionary_main _ _ _ _ _ _ _ _ _ _ _ _ _ _ _ _ _ _ _ k POS (proj1 (Y _ _)) NK FR LC TY R1 R2 HN K1 W SO HM' ER') as C.
  assert (C' : ((x = Ok tt \/ x = Err Diverges) /\ length failing < length (collections (v_trace w))) \/
    exists ex, x = Err ex /\ (ex = ValueError \/ (ex = IndexError /\ (k < 2 \/ ml = Some 1%Z)) \/ (ex = AttributeError /\ exists limit, ml = Some limit /\ (3 <= limit)%Z))).
  { destruct C as [(-> & C)|[(-> & _)|[C|(-> & C & _)]]]; [left; split; auto; destruct mn; [lia|contradiction]|right; eauto 6|right|left; split; auto; lia].
    destruct C as [(C1 & C2)|(m & ss & lim & _ & _ & C1 & [(C2 & [C3|C3])|(C2 & _ & _ & C3)])].
    - exists IndexError. auto 8.
    - exists AttributeError. split; auto. right. right. split; auto. exists lim. split; auto. lia.
    - exists ValueError. auto 8.
    - exists IndexError. subst lim. auto 8. }
  clear C. destruct C' as [(C & LC')|(ex & -> & C)].
  - left. assert (X : End_Proofs.stopped x) by (destruct C as [-> | ->]; repeat split; discriminate).
    destruct (evo_found _ _ _ _ _ _ _ _ _ _ _ _ _ _ _ _ _ TY HN W SO' ND X ER) as (FW & _ & _ & FO).
    assert (EN : ended ending) by (rewrite <- H1; left; destruct C as [-> | ->]; reflexivity).
    destruct (K EN _ _ _ _ _ FO (eq_sym H2)) as [(Z & _)|(_ & Z)]; [exfalso|exact Z].
    destruct (Proc_Proofs2.search_top _ _ _ _ _ _ _ _ _ _ _ _ _ _ _ _ _ ER) as (_ & _ & es & _ & _ & D).
    destruct (End_Main.search_kept _ _ _ _ _ _ _ _ _ _ _ _ TY HN W SO' D X) as (_ & _ & KP). unfold End_Proofs.since in KP. cbn [Proc_Proofs2.setj v_pop v_trace] in KP.
    destruct (Evo_Main.search_ok _ _ _ _ _ _ _ _ _ _ _ _ TY HN W SO' D) as (start & I & _).
    assert (NR : ~ In Restarted (v_trace w)). { intros HR. apply in_split in HR as (t1 & t2 & ET). pose proof (Evo_Proofs2.n_items _ _ _ _ _ _ _ I t1 Restarted t2 ET) as Q. discriminate Q. }
    rewrite (no_restart _ NR), Z in KP. destruct (e_one _ _ _ failing w FW (Y _ _) LC') as (j & v & IN). apply some_success in IN. destruct (successes (v_trace w)); [congruence|]. cbn in KP. lia.
  - assert (RX : r = Err ex).
    { destruct C as [-> |[(-> & _)|(-> & _)]]; (apply K2; [rewrite <- H1; reflexivity|]; rewrite <- H1; intros [Z|[Z|Z]]; discriminate). }
    rewrite RX. right. destruct C as [-> |[(-> & C)|(-> & C)]]; auto.
Qed.

(** * Examples: two workers, in each round one of them is slower; after the last round both are killed *)
Definition ex_killing : Sys_Model.turn := Sys_Main.at_work [Async_Model.Crash 1; Async_Model.Crash 2].
Definition ex_turns (k : nat) : list Sys_Model.turn := repeat (Sys_Main.at_work []) 50 ++ concat (repeat Live_Main.ex_round k) ++ [ex_killing].
Notation ex_rounds k := (Whole_Main.ex_circ (Whole_Main.ex_shops 2) (Some []) (ex_turns k)).
Notation ex_done how k := (fit 1 ex_ft ex_fitted no_prim Whole_Main.ex_poly fitness_of true (this_call Whole_Main.ex_made Whole_Main.ex_estimator Whole_Main.ex_trained how (Some 2%Z) 2 true [] (ex_rounds k)) (Whole_Main.ex_object false)).
Lemma ex_long k c : c <= 50 -> long_enough 2 c k (ex_turns (S k)).
Proof.
  intros C. exists (repeat (Sys_Main.at_work []) 50), (repeat Live_Main.ex_round (S k)), [ex_killing]. split; [reflexivity|].
  destruct Live_Main.C172_ex_main as (_ & N & L & _). split; [apply N|]. split; [apply L|]. rewrite !repeat_length. lia.
Qed.
Lemma ex_yields : succeeds Again_Main.steady_call [] [].
Proof. split; [intros k c; left; eexists _, _; reflexivity|]. intros k c _. eexists. reflexivity. Qed.
Lemma ex_number how k space pop : started_from (this_call Whole_Main.ex_made Whole_Main.ex_estimator Whole_Main.ex_trained how (Some 2%Z) 2 true [] (ex_rounds k)) (Whole_Main.ex_object false) space pop -> length pop <= 50.
Proof. intros (_ & _ & _ & H). rewrite H by (left; reflexivity). rewrite map_length, seq_length. apply le_n. Qed.
Example C173_ex_main :
  (forall how ml k, (exists xe y, accepted 1 ex_ft (this_call Whole_Main.ex_made Whole_Main.ex_estimator Whole_Main.ex_trained how ml 2 true [] (ex_rounds k)) (Whole_Main.ex_object false) xe y) /\
     ready ex_ps ml (ex_rounds k) (Whole_Main.ex_object false)) /\
  (forall how k space pop, started_from (this_call Whole_Main.ex_made Whole_Main.ex_estimator Whole_Main.ex_trained how (Some 2%Z) 2 true [] (ex_rounds k)) (Whole_Main.ex_object false) space pop -> length pop <= 50) /\
  (forall k, long_enough 2 50 k (ex_turns (S k))) /\ yields Again_Main.steady_call [] [] /\ succeeds Again_Main.steady_call [] [] /\
  (forall how k, In how [RandomSearch None; RandomSearch (Some 1%Z); Halving 3 0 2%Z (Some 1%Z); Evolution 50 50 None false] -> In k [0; 1] -> i_pset (snd (ex_done how k)) = ex_ps) /\
  (forall how, In how [RandomSearch None; RandomSearch (Some 1%Z); Halving 3 0 2%Z (Some 1%Z); Evolution 50 50 None false] -> fst (ex_done how 1) = Ok Self) /\
  fst (ex_done (RandomSearch None) 0) = Err IndexError.
Proof.
  split; [intros how ml k; split; [apply Whole_Main.ex_accepted|apply Whole_Main.ex_ready]|]. split; [apply ex_number|]. split; [intros k; apply ex_long; lia|].
  split; [split; [apply ex_yields|]; intros k c _; eexists _, _; reflexivity|]. split; [apply ex_yields|].
  split; [intros how k [<-|[<-|[<-|[<-|[]]]]] [<-|[<-|[]]]; vm_compute; reflexivity|]. split; [intros how [<-|[<-|[<-|[<-|[]]]]]; vm_compute; reflexivity|]. vm_compute. reflexivity.
Qed.
(** C173 is false for the evolutionary search with restarts: a restart forgets all pipelines found
    so far, and when no result arrives after it fit fails, although workers delivered results. *)
Lemma C173_restart_refuted_main :
  ~ (forall E (build : nat -> list (string * value) -> res E) estimator train rate fit_transform fitted knn poly takes_labels max_retry pop_size restart max_length n log defaults g e xe y r g' k candidates failing,
     accepted rate fit_transform (this_call build estimator train (Evolution max_retry pop_size None restart) max_length n log defaults e) g xe y ->
     ready (i_pset g') max_length e g -> pset_typed (i_pset g') -> pset_rich (i_pset g') -> roomy (i_pset g') max_length -> 0 < max_retry ->
     2 <= k -> (forall j, length (e_scores e j) = k) ->
     (forall c kwargs, exists x, build c kwargs = Ok x) -> (forall made x y, exists m, train made x y = Ok m) ->
     0 < pop_size -> 0 < n ->
     (forall labels deadline, succeeds (e_call e xe y labels deadline) defaults failing) ->
     (forall pop, started_from (this_call build estimator train (Evolution max_retry pop_size None restart) max_length n log defaults e) g (i_pset g') pop -> length pop <= candidates) ->
     long_enough n candidates (length failing) (e_plan e) ->
     fit rate fit_transform fitted knn poly fitness_of takes_labels (this_call build estimator train (Evolution max_retry pop_size None restart) max_length n log defaults e) g = (r, g') ->
     (exists v, r = Ok v) \/ r = Err ValueError).
Proof.
  intros H.
  assert (E1 : fst (ex_done (Evolution 50 50 None true) 1) = Err IndexError) by (vm_compute; reflexivity).
  assert (E2 : i_pset (snd (ex_done (Evolution 50 50 None true) 1)) = ex_ps) by (vm_compute; reflexivity).
  assert (E3 := surjective_pairing (ex_done (Evolution 50 50 None true) 1)). rewrite E1 in E3. clear E1.
  destruct (Whole_Main.ex_accepted (Evolution 50 50 None true) (Some 2%Z) (ex_turns 1)) as (xe & y & A).
  specialize (H _ Whole_Main.ex_made Whole_Main.ex_estimator Whole_Main.ex_trained 1%positive ex_ft ex_fitted no_prim Whole_Main.ex_poly true 50 50 true (Some 2%Z) 2 true [] (Whole_Main.ex_object false) (ex_rounds 1)
    xe y (Err IndexError) (snd (ex_done (Evolution 50 50 None true) 1)) 2 50 [] A).
  remember (snd (ex_done (Evolution 50 50 None true) 1)) as g' eqn:EG. clear EG. rewrite E2 in H.
  destruct (H (Whole_Main.ex_ready _ _ _) ex_typed ex_rich (or_intror (or_introl eq_refl)) (Nat.lt_0_succ 49) (le_n 2) (fun _ => eq_refl)
    (fun c _ => ex_intro _ c eq_refl) (fun _ _ _ => ex_intro _ _ eq_refl) (Nat.lt_0_succ 49) (Nat.lt_0_succ 1) (fun _ _ => ex_yields) (ex_number _ 1 ex_ps) (ex_long 0 50 (le_n 50)) E3) as [(v & Q)|Q]; discriminate.
Qed.

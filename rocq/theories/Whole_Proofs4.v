(** Lemmas about fit from the data to the model: when it returns. *)
Require Import ZArith Permutation Ascii.
From Verif Require Import Base Num Lib_Spec Data_Model Data_Spec Tk_Model Gp_Model Gp_Spec Eval_Model Evo_Model Evo_Spec Rnd_Model Rnd_Spec End_Model End_Spec Pred_Model Fit_Model Fit_Spec Proc_Spec Whole_Model Whole_Spec Whole_Proofs Whole_Proofs2 Whole_Proofs3.
From Verif Require Async_Model Sys_Model Proc_Model Fac_Model Proc_Main End_Proofs Fac_Main Fac_Proofs Fit_Proofs Fit_Proofs2 Fit_Main Gp_Proofs Gp_Proofs4 Eval_Main.
Open Scope string_scope.
Open Scope nat_scope.
Open Scope list_scope.

(** * The output directory *)
Lemma ends_log n : Fac_Model.ends_with ".log" (append n ".log") = true.
Proof. induction n as [|a n IH]; [reflexivity|]. cbn [append Fac_Model.ends_with]. rewrite IH. apply orb_true_r. Qed.
Lemma log_not_cache n : append n ".log" <> "cache".
Proof. intros H. pose proof (ends_log n) as E. rewrite H in E. discriminate. Qed.
Section Dir.
Context (d : Fac_Model.dir)
  (T : forall x, In x d -> Fac_Model.en_name x = "cache" /\ Fac_Model.en_dir x = true \/ (exists n, Fac_Model.en_name x = append n ".log") /\ Fac_Model.en_dir x = false).
Lemma removed_logs : forall l, incl l d -> exists l', Fac_Model.remove_logs l = (Ok tt, l') /\ forall x, In x l' -> Fac_Model.en_name x = "cache" /\ Fac_Model.en_dir x = true.
Proof.
  induction l as [|x l IH]; intros I0; [exists []; split; [reflexivity|intros x []]|]. destruct IH as (l' & E & H); [intros y Hy; apply I0; right; auto|].
  destruct (T x (I0 x (or_introl eq_refl))) as [(A & B)|((n & A) & B)]; cbn [Fac_Model.remove_logs]; unfold Fac_Model.is_log; rewrite A.
  - cbn [Fac_Model.ends_with String.eqb Ascii.eqb Bool.eqb orb]. rewrite E. exists (x :: l'). split; [reflexivity|]. intros y [<- |Hy]; auto.
  - rewrite ends_log, B. exists l'. auto.
Qed.
Lemma removed_cache : forall l, (forall x, In x l -> In x d \/ Fac_Model.en_name x = "cache" /\ Fac_Model.en_dir x = true) -> Fac_Model.remove_cache l = (Ok tt, filter (fun e => negb (String.eqb (Fac_Model.en_name e) "cache")) l).
Proof.
  intros l I0. unfold Fac_Model.remove_cache. destruct (find _ l) as [x|] eqn:F.
  - apply find_some in F as (F1 & F2). apply String.eqb_eq in F2. assert (D : Fac_Model.en_dir x = true).
    { destruct (I0 x F1) as [H|(_ & H)]; [|exact H]. destruct (T x H) as [(_ & B)|((n & A) & _)]; [exact B|]. exfalso. apply (log_not_cache n). congruence. }
    rewrite D. reflexivity.
  - f_equal. symmetry. clear - F. induction l as [|x l IH]; [reflexivity|]. cbn [find filter] in *. destruct (String.eqb (Fac_Model.en_name x) "cache"); [discriminate|]. cbn [negb]. f_equal. auto.
Qed.
End Dir.
Lemma tidy_end store d : tidy store d -> fst (Fac_Model.fit_end store d) = Ok tt.
Proof.
  intros (S & T). unfold Fac_Model.fit_end. destruct S as [-> |[-> |[-> | ->]]]; cbn [String.eqb Ascii.eqb Bool.eqb]; [reflexivity| | |];
    (destruct d as [d|]; [|reflexivity]); specialize (T d eq_refl); unfold Fac_Model.cleanup; cbn [Fac_Model.mem existsb String.eqb Ascii.eqb Bool.eqb orb].
  - rewrite (removed_cache d T d) by auto. reflexivity.
  - destruct (removed_logs d T d (incl_refl d)) as (l' & -> & _). reflexivity.
  - destruct (removed_logs d T d (incl_refl d)) as (l' & -> & H). rewrite (removed_cache d T l') by auto.
    assert (N : filter (fun e => negb (String.eqb (Fac_Model.en_name e) "cache")) l' = []).
    { clear - H. induction l' as [|x l IH]; [reflexivity|]. cbn [filter]. rewrite (proj1 (H x (or_introl eq_refl))). cbn. apply IH. intros y Hy. apply H. right. exact Hy. }
    rewrite N. reflexivity.
Qed.

(** * The course of a fit whose data are accepted *)
Section Goes.
Context {I : Type} (rate : positive) (ft : enc_step -> frame -> res frame) (fitted : list enc_step -> frame -> frame -> res frame) (knn poly : primitive -> bool)
  (key : I -> option (list num)) (tl : bool).
Notation base_fit := (base_fit rate ft fitted knn poly key).
Definition course (c : call I) (g g' : inst I) (ext : list enc_step) (xe : frame) (y : yout) (r : res unit) : Prop :=
  exists pop limit dl ending out,
    Fac_Model.start_population (c_warm c) (i_final g) (c_fresh c (i_pset g')) = Ok pop /\
    c_search c (i_pset g') (i_extension g') pop xe y (i_labels g') limit dl = (ending, out) /\
    ((ended ending /\ (Forall (fun i => key i <> None) out -> exists rest,
        match c_post c xe y rest (Fac_Model.best_individuals (Fit_Proofs.values key) out) with
        | Ok _ => r = fst (Fac_Model.fit_end (i_store g) (c_dir c))
        | Err ex => r = Err ex
        end)) \/
     (exists ex, ending = Err ex /\ ex <> TimeoutException /\ ex <> KeyboardInterrupt /\ r = Err ex)).
(** the end of a fit after its search *)
Definition finished (c : call I) (g : inst I) (xe : frame) (y : yout) (ending : res unit) (out : list I) (r : res unit) : Prop :=
  (ended ending /\ (Forall (fun i => key i <> None) out -> exists rest,
     match c_post c xe y rest (Fac_Model.best_individuals (Fit_Proofs.values key) out) with
     | Ok _ => r = fst (Fac_Model.fit_end (i_store g) (c_dir c))
     | Err ex => r = Err ex
     end)) \/
  (exists ex, ending = Err ex /\ ex <> TimeoutException /\ ex <> KeyboardInterrupt /\ r = Err ex).
Lemma pre_facts (c : call I) (g : inst I) x y types xe steps ext r1 (g1 : inst I) :
  format_x_y (c_x c) (c_y c) TSeries true = Ok (x, y) -> inferred_dtypes (c_x c) (c_declared c) = Ok types ->
  basic_encoding ft x (i_classifier g) = Ok (xe, steps) -> basic_pipeline_extension xe (i_classifier g) = Ok ext ->
  preprocessing ft fitted knn poly c (Fit_Proofs.begun rate c g) = (r1, g1) ->
  i_final g1 = i_final g /\ i_labels g1 = i_labels g /\ i_store g1 = i_store g /\ i_y g1 = Some y /\ i_x g1 = Some xe /\ r1 = Ok tt /\ i_extension g1 = ext /\
  i_pset g1 = Fac_Model.restrict (i_stores g) (length (f_index xe)) (length (f_cols xe)) knn poly (i_pset g).
Proof.
  intros F D B X P. apply Fit_Proofs.pre_cases in P as (_ & SS & F1 & LB & _ & _ & _ & P).
  change (i_final (Fit_Proofs.begun rate c g)) with (i_final g) in F1. change (i_labels (Fit_Proofs.begun rate c g)) with (i_labels g) in LB.
  change (i_classifier (Fit_Proofs.begun rate c g)) with (i_classifier g) in P. change (i_stores (Fit_Proofs.begun rate c g)) with (i_stores g) in P. change (i_pset (Fit_Proofs.begun rate c g)) with (i_pset g) in P.
  rewrite F in P. destruct P as [Y1 P]. rewrite D in P. destruct P as [_ P]. rewrite B in P. destruct P as (X1 & G1 & P). rewrite X in P. destruct P as (-> & XE & PS).
  destruct SS as (_ & _ & _ & _ & SS). change (i_store (Fit_Proofs.begun rate c g)) with (i_store g) in SS. auto 12.
Qed.
Lemma search_at (c : call I) limit (h : inst I) xe y pop r2 g3 : i_x h = Some xe -> i_y h = Some y ->
  Fac_Model.start_population (c_warm c) (i_final h) (c_fresh c (i_pset h)) = Ok pop -> search_phase rate c limit h = (r2, g3) ->
  i_pset g3 = i_pset h /\ i_extension g3 = i_extension h /\ i_labels g3 = i_labels h /\ i_x g3 = Some xe /\ i_y g3 = Some y /\ exists ending out,
  c_search c (i_pset h) (i_extension h) pop xe y (i_labels h) limit (c_clock c 5 + ticks rate limit)%Z = (ending, out) /\
  ((ended ending /\ r2 = Ok tt /\ i_final g3 = out /\ i_dir g3 = c_dir c) \/ (exists ex, ending = Err ex /\ ex <> TimeoutException /\ ex <> KeyboardInterrupt /\ r2 = Err ex)).
Proof.
  intros X Y PP E. unfold search_phase in E. rewrite PP, X, Y in E.
  destruct (c_search c (i_pset h) (i_extension h) pop xe y (i_labels h) limit (c_clock c 5 + ticks rate limit)%Z) as [ending out].
  assert (CASES : (ended ending /\ Fac_Model.search_phase ending out (i_final h) = (Ok tt, out)) \/ (exists ex, ending = Err ex /\ ex <> TimeoutException /\ ex <> KeyboardInterrupt /\ Fac_Model.search_phase ending out (i_final h) = (Err ex, i_final h))).
  { unfold ended. destruct ending as [[]|ex]; [left; auto|]. destruct ex; try (right; eexists; split; [reflexivity|]; split; [discriminate|]; split; [discriminate|reflexivity]); left; auto. }
  destruct CASES as [(EN & CA)|(ex & -> & N1 & N2 & CA)]; rewrite CA in E; injection E as <- <-; do 3 (split; [reflexivity|]); (split; [exact X|]); (split; [exact Y|]).
  - exists ending, out. split; [reflexivity|]. left. auto.
  - exists (Err ex), out. split; [reflexivity|]. right. exists ex. auto.
Qed.
Lemma post_at (c : call I) (h : inst I) xe y l r3 g5 : i_x h = Some xe -> i_y h = Some y -> total_time_remaining (c_clock c 9) (i_keeper h) = Ok l ->
  Forall (fun i => key i <> None) (i_final h) -> post_processing key c h = (r3, g5) ->
  r3 = match c_post c xe y l (Fac_Model.best_individuals (Fit_Proofs.values key) (i_final h)) with Ok _ => Ok tt | Err e => Err e end.
Proof.
  intros X Y T K Q. unfold post_processing in Q.
  replace (existsb (fun i => match key i with None => true | Some _ => false end) (i_final h)) with false in Q.
  2:{ symmetry. clear - K. induction K as [|i l H K IH]; [reflexivity|]. cbn [existsb]. destruct (key i); [exact IH|congruence]. }
  rewrite X, Y, T in Q. change (fun i : I => match key i with Some v => v | None => [] end) with (Fit_Proofs.values key) in Q.
  destruct (c_post c xe y l (Fac_Model.best_individuals (Fit_Proofs.values key) (i_final h))); injection Q as <- _; reflexivity.
Qed.
Lemma base_goes_at c g x y types xe steps ext pop ps r g' :
  format_x_y (c_x c) (c_y c) TSeries true = Ok (x, y) -> inferred_dtypes (c_x c) (c_declared c) = Ok types ->
  basic_encoding ft x (i_classifier g) = Ok (xe, steps) -> basic_pipeline_extension xe (i_classifier g) = Ok ext ->
  (0 <= Fit_Proofs.left1 rate c g)%Z ->
  Fac_Model.restrict (i_stores g) (length (f_index xe)) (length (f_cols xe)) knn poly (i_pset g) = ps ->
  Fac_Model.start_population (c_warm c) (i_final g) (c_fresh c ps) = Ok pop ->
  base_fit c g = (r, g') ->
  i_pset g' = ps /\ i_extension g' = ext /\ i_labels g' = i_labels g /\ exists ending out,
  c_search c ps ext pop xe y (i_labels g) (Fit_Proofs.limit1 rate c g) (c_clock c 5 + ticks rate (Fit_Proofs.limit1 rate c g))%Z = (ending, out) /\ finished c g xe y ending out r.
Proof.
  intros F D B X L PR PP E. apply Fit_Proofs.base_fit_cases in E as (r1 & g1 & P & E).
  destruct (pre_facts c g x y types xe steps ext r1 g1 F D B X P) as (F1 & LB & SS & Y1 & X1 & -> & XE & PS). clear P. rewrite PR in PS.
  destruct E as [(N & _)|(_ & r2 & g3 & P2 & E)]; [lia|].
  match type of P2 with search_phase _ _ _ ?z = _ => set (h := z) in * end.
  assert (H1 : i_x h = i_x g1 /\ i_y h = i_y g1 /\ i_final h = i_final g1 /\ i_pset h = i_pset g1 /\ i_extension h = i_extension g1 /\ i_labels h = i_labels g1 /\ i_store h = i_store g1) by (repeat split). clearbody h.
  destruct H1 as (H1 & H2 & H3 & H4 & H5 & H6 & H7). rewrite X1 in H1. rewrite Y1 in H2. rewrite F1 in H3. rewrite PS in H4. rewrite XE in H5. rewrite LB in H6. rewrite SS in H7.
  assert (PP' : Fac_Model.start_population (c_warm c) (i_final h) (c_fresh c (i_pset h)) = Ok pop) by (rewrite H3, H4; exact PP).
  destruct (search_at c _ h xe y pop r2 g3 H1 H2 PP' P2) as (S1 & S1b & S1c & S2 & S3 & ending & out & S4 & S5). rewrite H4, H5, H6 in S4. rewrite H4 in S1. rewrite H5 in S1b. rewrite H6 in S1c.
  destruct S5 as [(EN & -> & S6 & S7)|(ex & -> & N1 & N2 & ->)].
  - destruct E as (r3 & g5 & Q & TR & E).
    match type of Q with post_processing _ _ ?z = _ => set (k := z) in * end.
    assert (K1 : i_x k = i_x g3 /\ i_y k = i_y g3 /\ i_final k = i_final g3 /\ i_pset k = i_pset g3 /\ i_dir k = i_dir g3 /\ i_extension k = i_extension g3 /\ i_labels k = i_labels g3) by (repeat split).
    assert (TR' : total_time_remaining (c_clock c 9) (i_keeper k) = Ok (Fit_Proofs.left3 rate c g)) by exact TR. clear TR. clearbody k.
    destruct K1 as (K1 & K2 & K3 & K4 & K5 & K6 & K7). rewrite S2 in K1. rewrite S3 in K2. rewrite S6 in K3. rewrite S1 in K4. rewrite S7 in K5. rewrite S1b in K6. rewrite S1c in K7.
    assert (Q' := Q). apply Fit_Proofs.post_cases in Q' as (_ & SS2 & PL & _ & _ & PE & PPS & PF & PD & _).
    assert (GG : i_pset g' = ps /\ i_extension g' = ext /\ i_labels g' = i_labels g).
    { destruct r3 as [u3|e3]; destruct E as (_ & ->); cbn [set_keeper set_dir i_pset i_extension i_labels]; split; [congruence|split; congruence|congruence|split; congruence]. }
    destruct GG as (GG1 & GG2 & GG3). split; [exact GG1|]. split; [exact GG2|]. split; [exact GG3|].
    exists ending, out. split; [exact S4|]. left. split; [exact EN|]. intros K. exists (Fit_Proofs.left3 rate c g).
    rewrite <- K3 in K. pose proof (post_at c k xe y _ r3 g5 K1 K2 TR' K Q) as R3. rewrite K3 in R3.
    destruct (c_post c xe y (Fit_Proofs.left3 rate c g) (Fac_Model.best_individuals (Fit_Proofs.values key) out)) as [m|ex]; subst r3; destruct E as (-> & _); [|reflexivity].
    rewrite PD, K5. reflexivity.
  - destruct E as (-> & ->). split; [exact S1|]. split; [exact S1b|]. split; [exact S1c|]. exists (Err ex), out. split; [exact S4|]. right. exists ex. auto.
Qed.
Lemma base_goes c g x y types xe steps ext r g' :
  format_x_y (c_x c) (c_y c) TSeries true = Ok (x, y) -> inferred_dtypes (c_x c) (c_declared c) = Ok types ->
  basic_encoding ft x (i_classifier g) = Ok (xe, steps) -> basic_pipeline_extension xe (i_classifier g) = Ok ext ->
  (0 <= Fit_Proofs.left1 rate c g)%Z -> (forall l, c_warm c = Some l -> ~ In None l) ->
  base_fit c g = (r, g') -> course c g g' ext xe y r.
Proof.
  intros F D B X L W E. set (ps := Fac_Model.restrict (i_stores g) (length (f_index xe)) (length (f_cols xe)) knn poly (i_pset g)).
  destruct (Fit_Proofs2.start_ok (c_warm c) (i_final g) (c_fresh c ps) W) as (pop & PP).
  destruct (base_goes_at c g x y types xe steps ext pop ps r g' F D B X L eq_refl PP E) as (G1 & G2 & G3 & ending & out & S & FI).
  exists pop, (Fit_Proofs.limit1 rate c g), (c_clock c 5 + ticks rate (Fit_Proofs.limit1 rate c g))%Z, ending, out. rewrite G1, G2, G3. split; [exact PP|]. split; [exact S|exact FI].
Qed.
Lemma fit_goes c g x y classes types xe steps ext r g' :
  training_data c (i_classifier g) x y classes -> (forall ls, c_sampling c ls = Ok tt) ->
  inferred_dtypes (c_x c) (c_declared c) = Ok types -> preprocess ft x (i_classifier g) = Ok (xe, steps, ext) ->
  (spent (c_clock c) 0 1 <= i_total g * Zpos rate)%Z -> (forall l, c_warm c = Some l -> ~ In None l) ->
  Fit_Model.fit rate ft fitted knn poly key tl c g = (r, g') ->
  exists r0, course c g g' ext xe y r0 /\ match r0 with Ok _ => exists v, r = Ok v | Err ex => r = Err ex end.
Proof.
  intros T Sa D P TL W E. unfold preprocess in P. destruct (basic_encoding ft x (i_classifier g)) as [[xe' st']|] eqn:B; [|discriminate]. cbn [rbind] in P.
  destruct (basic_pipeline_extension xe' (i_classifier g)) as [ext'|] eqn:X; [|discriminate]. cbn [rbind] in P. injection P as -> -> ->.
  unfold Fit_Model.fit in E. unfold training_data in T. destruct (i_classifier g) eqn:C.
  - destruct T as (cs & -> & T). unfold classifier_format in T. change (match c_y c with YVec ls => _ | _ => _ end) with (target_labels (c_y c)) in T.
    destruct (target_labels (c_y c)) as [ls|] eqn:TL2; [|discriminate]. cbn [rbind] in T. destruct (classifier_labels ls) as [[cs' ls']|] eqn:CL; [|discriminate]. cbn [rbind] in T.
    destruct (format_x_y _ _ _ _) as [[x' y']|] eqn:F; [|discriminate]. cbn [rbind] in T. injection T as -> -> ->.
    destruct (classifier_fit rate ft fitted knn poly key tl c g) as [r0 g0] eqn:E0. exists r0. split.
    2:{ destruct r0; injection E as <- <-; eauto. }
    assert (g0 = g') by (destruct r0; injection E as _ <-; reflexivity). subst g0. clear E.
    apply Fit_Proofs2.classifier_cases in E0 as [(e0 & _ & _ & [K|(ls0 & K & K2)])|(ls0 & classes & K & K2 & E)]; rewrite TL2 in K; try discriminate; injection K as <-.
    { unfold classifier_labels in CL. rewrite K2 in CL. discriminate. }
    destruct E as [(e0 & _ & _ & [K|(ls0 & K & K3)])|(ls0 & K & _ & E)]; rewrite CL in K; [discriminate| |].
    { rewrite Sa in K3. discriminate. }
    injection K as <- <-. destruct (Fit_Proofs2.inner_same c ls ls') as (Q1 & Q2 & QW & Q3 & Qf & Q4 & Qd & Q5). destruct (Fit_Proofs2.inner_inst_same tl g cs ls') as ((QC & QT & _ & _ & QS) & QF & _ & QG & _).
    assert (H : course (Fit_Proofs2.inner_call c ls ls') (Fit_Proofs2.inner_inst tl g cs ls') g' ext xe y r0).
    { eapply base_goes; [| | | | | |exact E].
      + rewrite Q1. unfold Fit_Proofs2.inner_call. destruct (existsb is_str ls); exact F.
      + rewrite Q1, Q2. exact D.
      + rewrite QC, C. exact B.
      + rewrite QC, C. exact X.
      + unfold Fit_Proofs.left1, ticks, spent in *. rewrite Q3, QT. lia.
      + rewrite QW. exact W. }
    unfold course in H. rewrite QW, QF, Qf, Q4, Qd, Q5, QS in H. exact H.
  - destruct T as (-> & T). destruct (base_fit c g) as [r0 g0] eqn:E0. exists r0.
    split; [|destruct r0; injection E as <- <-; eauto]. assert (g0 = g') by (destruct r0; injection E as _ <-; reflexivity). subst g0.
    eapply base_goes; [exact T|exact D| | | |exact W|exact E0]; [rewrite C; exact B|rewrite C; exact X|]. unfold Fit_Proofs.left1, ticks, spent in *. lia.
Qed.
End Goes.

(** * The best object can be made *)
Section Made.
Context {E : Type} (build : nat -> list (string * value) -> res E) (estimator : enc_step -> string * E) (train : list (string * E) -> frame -> yout -> res model).
Lemma post_total ps mx fixed mem l x y rest : found_ok ps mx mem l -> (forall c kwargs, exists e, build c kwargs = Ok e) -> (forall made, exists m, train made x y = Ok m) ->
  let sel := Fac_Model.best_individuals (Fit_Proofs.values fitness_of) (as_objects fixed mem l) in
  (l = [] /\ best_fit_post (train_object build estimator train) x y rest sel = Err IndexError) \/
  (l <> [] /\ exists m, best_fit_post (train_object build estimator train) x y rest sel = Ok m).
Proof.
  intros (W & G & _) B T sel. destruct l as [|m0 l]; [left; split; reflexivity|]. right. split; [discriminate|]. unfold best_fit_post.
  destruct (Fac_Model.best_fit sel) as [o|ex] eqn:EB.
  - assert (HO : In o (as_objects fixed mem (m0 :: l))).
    { unfold Fac_Model.best_fit in EB. destruct sel as [|o' sel'] eqn:ES; [discriminate|]. injection EB as ->. assert (Hy : In o sel) by (rewrite ES; left; auto). unfold sel, Fac_Model.best_individuals in Hy.
      apply in_rev in Hy. eapply Permutation_in; [apply Permutation_sym, Gp_Proofs.py_sorted_perm|exact Hy]. }
    apply in_map_iff in HO as (m & <- & Hm). destruct (G m Hm) as (_ & ss & (ls & C) & _). cbn [rbind]. unfold train_object.
    destruct (Eval_Main.C58_total_main E build (m_ind m) (Some (map estimator (fixed (i_id (m_ind m))))) mem ls ss W C B) as (steps & EC). rewrite EC. cbn [fst rbind].
    destruct (T steps) as (md & ->). cbn [rbind]. eauto.
  - exfalso. assert (ex = IndexError) by (unfold Fac_Model.best_fit in EB; destruct sel; congruence). subst ex. apply Fac_Proofs.best_empty in EB. discriminate.
Qed.
Lemma all_evaluated fixed mem l : Forall (fun o => fitness_of o <> None) (as_objects fixed mem l).
Proof. apply Forall_forall. intros o H. apply in_map_iff in H as (m & <- & _). discriminate. Qed.
End Made.

(** * The search can start *)
Lemma start_rich E (build : nat -> list (string * value) -> res E) estimator train how ml n log d e g mx ps pop :
  ready ps mx e g -> (mx = ml \/ mx = None) -> pset_rich ps -> allows_one ml -> started_from (this_call build estimator train how ml n log d e) g ps pop ->
  exists s, usable ps mx pop /\ wf_heap (s_heap s) /\ start_ok ps mx s (individuals_of pop) /\ NoDup (map i_id (individuals_of pop)) /\ (exists i f b pop', pop = Obj i f b s :: pop').
Proof.
  intros (W & R1 & R2) M RI AO (S0 & S1 & S2 & S3). cbn [this_call c_warm c_fresh] in *.
  assert (NEW : pop = map (fresh ml (e_mem e) ps) (seq 0 50) -> usable ps mx pop /\ pop <> []).
  { intros ->. destruct (fresh_list ml (e_mem e) ps W) as [(ex & rest & A & B)|(l & s & A & L & B)]; [exfalso; exact (Rnd_Proofs.no_creation _ _ _ RI AO B)|rewrite A; split].
    - destruct M as [-> | ->]; [exact B|eapply usable_none; exact B].
    - destruct l; discriminate. }
  assert (U : usable ps mx pop /\ pop <> []).
  { destruct (e_warm e) as [l|] eqn:EW.
    - destruct (S0 l eq_refl) as (l' & ->). destruct l' as [|o l']; [apply NEW, S3; left; reflexivity|].
      assert (NE : o :: l' <> []) by discriminate. rewrite (S1 _ eq_refl NE). auto.
    - destruct (i_final g) as [|o f] eqn:EF; [apply NEW, S3; right; auto|].
      assert (NE : o :: f <> []) by discriminate. rewrite (S2 eq_refl NE). auto. }
  destruct U as (U & NE). destruct (usable_head _ _ _ U NE) as (i & f & b & s & pop' & EP & W' & SO & ND). exists s. split; auto. split; auto. split; auto. split; auto. exists i, f, b, pop'. exact EP.
Qed.
(** * The output of ASHA *)
Lemma asha_ends call scores n log d ps ml eta fr mr mf start s plan x w p : wf_heap (s_heap s) -> start_ok ps ml s start -> NoDup (map i_id start) -> pset_rich ps -> allows_one ml ->
  (Z.of_nat fr <= mr)%Z -> (forall k, scores k <> []) -> (match mf with None => True | Some m => (0 < m)%Z end) -> (exists i start', start = i :: start') ->
  Proc_Model.q_asha_phase call scores ps ml eta fr mr mf n log d start (Proc_Model.before_h s plan) = (x, (w, p)) ->
  ((forall r, scored r (q_trace w) = []) /\ asha_output x (q_rungs w) = Err UnboundLocalError) \/
  ((exists r, scored r (q_trace w) <> []) /\ exists l, asha_output x (q_rungs w) = Ok l /\ l <> []).
Proof.
  intros W SO ND R1 R2 R3 R4 R5 (i & start' & ES) ER.
  assert (AL := Proc_Main.C162_asha_always_main unit (fun _ _ => Ok tt) [] call scores n log d ps ml eta fr mr mf start s plan).
  assert (EQ : Proc_Model.q_asha_phase call scores ps ml eta fr mr mf n log d start (Proc_Model.before_h s plan) = Proc_Model.q_asha call scores ps ml eta fr mr mf n log d (mkH s [] start [] [] [], Proc_Model.idle plan)) by (subst start; reflexivity).
  rewrite EQ in ER.
  assert (FT : Proc_Model.fit_asha_p call scores (fun _ _ => Ok tt) [] ps ml n log d eta fr mr mf start (Proc_Model.before_h s plan) =
    (let (x, y1) := Proc_Model.q_asha call scores ps ml eta fr mr mf n log d (mkH s [] start [] [] [], Proc_Model.idle plan) in
    match asha_output x (q_rungs (fst y1)) with
    | Err e => (Err e, y1)
    | Ok pop => Proc_Model.own (hgp (best_model (fun _ _ => Ok tt) [] pop)) y1
    end)) by (subst start; reflexivity).
  rewrite ER in FT. cbn [fst] in FT. rewrite ER in EQ.
  destruct (asha_output x (q_rungs w)) as [l|e] eqn:EO.
  - right. destruct (asha_found _ _ _ _ _ _ _ _ _ _ _ _ _ _ _ _ _ _ W SO ND R1 R2 R3 R4 EQ EO) as (_ & _ & LL). destruct l as [|m l].
    + exfalso. cbn in FT. unfold Proc_Model.own in FT. destruct (AL _ _ _ W SO R1 R2 R3 R4 R5 (fun _ _ => ex_intro _ tt eq_refl) FT) as [(_ & Z)|(_ & st & Z)]; discriminate.
    + destruct LL as (r & LE & _); [discriminate|]. split; [exists r; intros Z; rewrite Z in LE; discriminate|]. eexists. split; [reflexivity|discriminate].
  - left. destruct (AL _ _ _ W SO R1 R2 R3 R4 R5 (fun _ _ => ex_intro _ tt eq_refl) FT) as [(N & Z)|(_ & st & Z)]; [|discriminate]. injection Z as ->. auto.
Qed.

Require Import Ascii Permutation Sorted QArith Qround.
From Verif Require Import Base Num Num_Proofs Gp_Model Gp_Proofs Heap_Model Heap_Proofs Lib_Model Lib_Spec Lib_Proofs Lib_Proofs2 Lib_Main Fac_Model Fac_Spec.
Open Scope string_scope.
Open Scope string_scope.
Open Scope list_scope.
Open Scope nat_scope.

Lemma ends_app s t : ends_with t (s ++ t) = true.
Proof. induction s as [|c s IH]; [destruct t; simpl; rewrite ?Ascii.eqb_refl, ?String.eqb_refl; reflexivity|]. change (String c s ++ t)%string with (String c (s ++ t)). cbn [ends_with]. rewrite IH. apply orb_true_r. Qed.
Lemma log_is e : log_entry e -> is_log e = true /\ en_dir e = false.
Proof. intros (D & st & N). split; [|exact D]. unfold is_log. rewrite N. apply ends_app. Qed.
Lemma cache_not_log e : cache_entry e -> is_log e = false.
Proof. intros ->. reflexivity. Qed.
Lemma log_not_cache e : is_log e = true -> String.eqb (en_name e) "cache" = false.
Proof.
  intros H. destruct (String.eqb_spec (en_name e) "cache") as [E|]; auto. unfold is_log in H. rewrite E in H. discriminate.
Qed.
Lemma filter_all {A} (f : A -> bool) l : (forall x, In x l -> f x = true) -> filter f l = l.
Proof. induction l as [|a l IH]; intros H; [reflexivity|]. simpl. rewrite (H a) by (left; reflexivity). f_equal. apply IH. intros x I. apply H. right. exact I. Qed.
(** cleanup in terms of filters *)
Lemma remove_logs_ok d : (forall e, In e d -> is_log e = true -> en_dir e = false) -> remove_logs d = (Ok tt, filter (fun e => negb (is_log e)) d).
Proof.
  induction d as [|e d IH]; intros H; [reflexivity|]. cbn [remove_logs filter]. destruct (is_log e) eqn:L; simpl.
  - rewrite (H e (or_introl eq_refl) L). apply IH. intros x I. apply H. right. exact I.
  - rewrite IH by (intros x I; apply H; right; exact I). reflexivity.
Qed.
Definition not_cache (e : entry) : bool := negb (String.eqb (en_name e) "cache").
Lemma remove_cache_ok d : (forall e, In e d -> String.eqb (en_name e) "cache" = true -> en_dir e = true) -> remove_cache d = (Ok tt, filter not_cache d).
Proof.
  intros H. unfold remove_cache. destruct (find (fun e => String.eqb (en_name e) "cache") d) as [e|] eqn:F.
  - apply find_some in F. destruct F as (I & E). rewrite (H e I E). reflexivity.
  - f_equal. symmetry. apply filter_all. intros x I. unfold not_cache. rewrite (find_none _ _ F x I). reflexivity.
Qed.
Lemma fit_output_facts d : fit_output d ->
  (forall e, In e d -> is_log e = true -> en_dir e = false) /\ (forall e, In e d -> String.eqb (en_name e) "cache" = true -> en_dir e = true) /\
  filter (fun e => negb (is_log e)) d = filter (fun e => String.eqb (en_name e) "cache") d /\ filter not_cache d = filter is_log d /\
  filter not_cache (filter (fun e => negb (is_log e)) d) = [].
Proof.
  intros F. assert (C : forall e, In e d -> is_log e = negb (String.eqb (en_name e) "cache")).
  { intros e I. destruct (proj1 (Forall_forall _ _) F e I) as [L|L].
    - destruct (log_is _ L) as (-> & _). rewrite (log_not_cache e) by apply (log_is _ L). reflexivity.
    - rewrite L. reflexivity. }
  split; [|split; [|split; [|split]]].
  - intros e I L. destruct (proj1 (Forall_forall _ _) F e I) as [K|K]; [apply K|]. rewrite (cache_not_log _ K) in L. discriminate.
  - intros e I L. destruct (proj1 (Forall_forall _ _) F e I) as [K|K]; [|rewrite K; reflexivity]. rewrite (log_not_cache e) in L by apply (log_is _ K). discriminate.
  - apply filter_ext_in. intros e I. rewrite (C e I), negb_involutive. reflexivity.
  - apply filter_ext_in. intros e I. unfold not_cache. rewrite (C e I). reflexivity.
  - clear F. induction d as [|e d IH]; [reflexivity|]. simpl. rewrite (C e) by (left; reflexivity). rewrite negb_involutive.
    destruct (String.eqb (en_name e) "cache") eqn:E; simpl; [unfold not_cache; rewrite E; simpl|]; apply IH; intros x I; apply C; right; exact I.
Qed.
Lemma store_all d : fit_end "all" (Some d) = (Ok tt, Some d).
Proof. reflexivity. Qed.
Lemma store_logs d : fit_output d -> fit_end "logs" (Some d) = (Ok tt, Some (filter is_log d)).
Proof.
  intros F. destruct (fit_output_facts d F) as (A & B & C & D & E). unfold fit_end, cleanup. simpl. rewrite remove_cache_ok by exact B. rewrite D. reflexivity.
Qed.
Lemma store_models d : fit_output d -> fit_end "models" (Some d) = (Ok tt, Some (filter (fun e => String.eqb (en_name e) "cache") d)).
Proof.
  intros F. destruct (fit_output_facts d F) as (A & B & C & D & E). unfold fit_end, cleanup. simpl. rewrite remove_logs_ok by exact A. rewrite C. reflexivity.
Qed.
Lemma store_nothing d : fit_output d -> fit_end "nothing" (Some d) = (Ok tt, None).
Proof.
  intros F. destruct (fit_output_facts d F) as (A & B & C & D & E). unfold fit_end, cleanup. simpl. rewrite remove_logs_ok by exact A.
  rewrite remove_cache_ok by (intros e I; apply filter_In in I; apply B; tauto). rewrite E. reflexivity.
Qed.
(** something else in the directory *)
Lemma store_nothing_other d e : (forall e, In e d -> is_log e = true -> en_dir e = false) -> (forall e, In e d -> String.eqb (en_name e) "cache" = true -> en_dir e = true) ->
  In e d -> is_log e = false -> String.eqb (en_name e) "cache" = false ->
  exists d', fit_end "nothing" (Some d) = (Err (OtherError 4), Some d') /\ In e d'.
Proof.
  intros A B I L N. unfold fit_end, cleanup. simpl. rewrite remove_logs_ok by exact A. rewrite remove_cache_ok by (intros x J; apply filter_In in J; apply B; tauto).
  assert (J : In e (filter not_cache (filter (fun e => negb (is_log e)) d))).
  { apply filter_In. split; [apply filter_In; rewrite L; auto|]. unfold not_cache. rewrite N. reflexivity. }
  exists (filter not_cache (filter (fun e => negb (is_log e)) d)). split; [|exact J]. destruct (filter not_cache (filter (fun e => negb (is_log e)) d)); [destruct J|reflexivity].
Qed.

(** * construction *)
Lemma invalid_spec a : 1 <= a_cpus a -> (invalid a = true <-> bad_total a \/ bad_eval a \/ bad_jobs a).
Proof.
  intros P. unfold invalid, bad_total, bad_eval, bad_jobs, jobs. rewrite !orb_true_iff.
  assert (H1 : match a_total a with None => true | Some t => (t <=? 0)%Z end = true <-> match a_total a with None => True | Some t => (t <= 0)%Z end).
  { destruct (a_total a); [apply Z.leb_le|tauto]. }
  assert (H2 : match a_eval a with None => false | Some t => (t <=? 0)%Z end = true <-> match a_eval a with None => False | Some t => (t <= 0)%Z end).
  { destruct (a_eval a); [apply Z.leb_le|split; [discriminate|tauto]]. }
  rewrite H1, H2. rewrite Z.ltb_lt, Z.eqb_eq. destruct (a_jobs a) as [j|].
  - destruct (Z.eqb_spec j (-1)) as [->|N]; [|tauto]. split; [intros [[[?|?]|?]|?]; auto; lia|]. intros [?|[?|[?|?]]]; auto; lia.
  - assert (Q : (Z.of_nat (a_cpus a / 2) = 0)%Z <-> a_cpus a < 2).
    { split; [intros E|intros E; rewrite Nat.div_small by exact E; reflexivity]. assert (D : a_cpus a / 2 = 0) by lia. apply Nat.div_small_iff in D; lia. }
    rewrite Q. split; [intros [[[?|?]|?]|?]; auto; lia|]. intros [?|[?|?]]; auto.
Qed.
Lemma mem_in x l : mem x l = true <-> In x l.
Proof. unfold mem. rewrite existsb_exists. split; [intros (y & I & E); apply String.eqb_eq in E; subst; exact I|]. intros I. exists x. split; auto. apply String.eqb_refl. Qed.
Lemma preset_spec a : negb (a_post a) && negb (mem (a_preset a) ["simple"; "performance"]) = true <-> unknown_preset a.
Proof.
  unfold unknown_preset. rewrite andb_true_iff, !negb_true_iff. split.
  - intros (A & B). split; [exact A|]. split; intros E; rewrite E in B; discriminate.
  - intros (A & B & C). split; [exact A|]. destruct (mem _ _) eqn:M; auto. apply mem_in in M. simpl in M. destruct M as [M|[M|[]]]; congruence.
Qed.
Lemma clean_new a : cleanup "all" (Some (log_file a)) = (Ok tt, None).
Proof. unfold log_file. destruct (mem (a_store a) ["logs"; "all"]); reflexivity. Qed.
Lemma length_spec b n : (pipeline_length b n = Err ValueError <-> b = false /\ match n with Some n => (1 < n)%Z | None => False end) /\
  (forall e, pipeline_length b n = Err e -> e = ValueError).
Proof.
  unfold pipeline_length. destruct b; [split; [split; [discriminate|intros (? & _); discriminate]|discriminate]|]. destruct n as [n|].
  - destruct (n >? 1)%Z eqn:G; rewrite Z.gtb_ltb in G; [apply Z.ltb_lt in G|apply Z.ltb_ge in G]; (split; [split|]); try congruence; try (intros (_ & ?); lia); auto.
  - split; [split; [discriminate|tauto]|discriminate].
Qed.
Lemma init_cases a : 1 <= a_cpus a -> a_scoring a <> Err ValueError -> a_space a <> Err ValueError ->
  (fst (init a) = Err ValueError <-> unknown_preset a \/ occupied a \/ bad_total a \/ bad_eval a \/ bad_jobs a \/ (a_scoring a = Ok tt /\ bad_length a)).
Proof.
  intros P S1 S2. unfold init, bad_length. destruct (negb (a_post a) && negb (mem (a_preset a) ["simple"; "performance"])) eqn:E.
  { apply preset_spec in E. split; auto. }
  assert (NP : ~ unknown_preset a) by (rewrite <- preset_spec; congruence).
  assert (O : match a_out a with Some (e :: d) => occupied a | _ => ~ occupied a end) by (unfold occupied; destruct (a_out a) as [[|]|]; auto).
  assert (G : ~ occupied a -> fst (if invalid a then match cleanup "all" (Some (log_file a)) with (Ok _, d) => (Err ValueError, d) | (Err e, d) => (Err e, d) end
      else match a_total a with None => (Err ValueError, Some (log_file a)) | Some total => match a_scoring a with Err e => (Err e, Some (log_file a)) | Ok _ =>
            match a_space a with Err e => (Err e, Some (log_file a ++ [mkEntry "cache" true; file "evaluations.log"])) | Ok has_data =>
              match pipeline_length has_data (a_length a) with Err e => (Err e, Some (log_file a ++ [mkEntry "cache" true; file "evaluations.log"]))
              | Ok n => (Ok (mkGama (a_store a) (jobs a) total (eval_time a total) n), Some (log_file a ++ [mkEntry "cache" true; file "evaluations.log"])) end end end end) = Err ValueError <->
    unknown_preset a \/ occupied a \/ bad_total a \/ bad_eval a \/ bad_jobs a \/ a_scoring a = Ok tt /\ a_space a = Ok false /\ match a_length a with Some n => (1 < n)%Z | None => False end).
  { intros NO. destruct (invalid a) eqn:I.
    - rewrite clean_new. apply (invalid_spec a P) in I. tauto.
    - assert (NI : ~ (bad_total a \/ bad_eval a \/ bad_jobs a)) by (rewrite <- (invalid_spec a P); congruence).
      destruct (a_total a) as [t|] eqn:T; [|exfalso; apply NI; left; unfold bad_total; rewrite T; exact Logic.I].
      destruct (a_scoring a) as [[]|e] eqn:Sc; [|simpl; split; [intros Q; congruence|intros [?|[?|[?|[?|[?|(Q & _)]]]]]; tauto || discriminate]].
      destruct (a_space a) as [h|e] eqn:Sp; [|simpl; split; [intros Q; congruence|intros [?|[?|[?|[?|[?|(_ & Q & _)]]]]]; tauto || discriminate]].
      destruct (length_spec h (a_length a)) as (L1 & L2). destruct (pipeline_length h (a_length a)) as [n|e] eqn:L; simpl.
      + split; [discriminate|]. intros [?|[?|[?|[?|[?|(_ & Q & R)]]]]]; try tauto. injection Q as ->. discriminate (proj2 L1 (conj eq_refl R)).
      + rewrite (L2 e eq_refl). split; [|reflexivity]. intros _. right. right. right. right. right. rewrite (L2 e eq_refl) in L1. destruct (proj1 L1 eq_refl) as (-> & R). auto. }
  destruct (a_out a) as [[|x d]|]; [exact (G O)| |exact (G O)]. split; auto.
Qed.
Lemma init_reject a : 1 <= a_cpus a -> ~ unknown_preset a -> ~ occupied a -> bad_total a \/ bad_eval a \/ bad_jobs a -> init a = (Err ValueError, None).
Proof.
  intros P U O B. unfold init. rewrite <- preset_spec in U. apply not_true_is_false in U. rewrite U.
  apply (invalid_spec a P) in B. rewrite B, clean_new. unfold occupied in O. destruct (a_out a) as [[|]|]; auto. destruct (O Logic.I).
Qed.
(** later failures *)
Lemma init_left a : 1 <= a_cpus a -> ~ unknown_preset a -> ~ occupied a -> ~ bad_total a -> ~ bad_eval a -> ~ bad_jobs a -> 
  a_scoring a = Ok tt -> bad_length a \/ (exists e, a_space a = Err e) ->
  exists e d, init a = (Err e, Some d) /\ In (mkEntry "cache" true) d.
Proof.
  intros P U O B1 B2 B3 S L. unfold init. rewrite <- preset_spec in U. apply not_true_is_false in U. rewrite U.
  assert (I : invalid a = false). { apply not_true_is_false. rewrite (invalid_spec a P). tauto. }
  rewrite I. unfold bad_total in B1. destruct (a_total a) as [t|] eqn:T; [|tauto]. rewrite S.
  assert (J : In (mkEntry "cache" true) (log_file a ++ [mkEntry "cache" true; file "evaluations.log"])) by (apply in_or_app; right; left; reflexivity).
  assert (G : exists e d, match a_space a with Err e => (Err e, Some (log_file a ++ [mkEntry "cache" true; file "evaluations.log"])) | Ok has_data =>
     match pipeline_length has_data (a_length a) with Err e => (Err e, Some (log_file a ++ [mkEntry "cache" true; file "evaluations.log"]))
     | Ok n => (Ok (mkGama (a_store a) (jobs a) t (eval_time a t) n), Some (log_file a ++ [mkEntry "cache" true; file "evaluations.log"])) end end = (Err e, Some d) /\ In (mkEntry "cache" true) d).
  { destruct L as [(Sp & L)|(e & Sp)]; rewrite Sp; [|eauto]. rewrite (proj2 (proj1 (length_spec false (a_length a)))) by auto. eauto. }
  unfold occupied in O. destruct (a_out a) as [[|]|]; auto. destruct (O Logic.I).
Qed.
Lemma init_ok a g d : init a = (Ok g, d) -> exists t, a_total a = Some t /\ (0 < t)%Z /\ g_total g = t /\ g_jobs g = jobs a /\ g_eval g = eval_time a t /\ g_store g = a_store a /\
  (match a_eval a with None => True | Some e => (0 < e)%Z end) /\ d = Some (log_file a ++ [mkEntry "cache" true; file "evaluations.log"]).
Proof.
  unfold init. destruct (negb (a_post a) && _); [discriminate|]. 
  assert (G : (if invalid a then match cleanup "all" (Some (log_file a)) with (Ok _, d) => (Err ValueError, d) | (Err e, d) => (Err e, d) end
      else match a_total a with None => (Err ValueError, Some (log_file a)) | Some total => match a_scoring a with Err e => (Err e, Some (log_file a)) | Ok _ =>
            match a_space a with Err e => (Err e, Some (log_file a ++ [mkEntry "cache" true; file "evaluations.log"])) | Ok has_data =>
              match pipeline_length has_data (a_length a) with Err e => (Err e, Some (log_file a ++ [mkEntry "cache" true; file "evaluations.log"]))
              | Ok n => (Ok (mkGama (a_store a) (jobs a) total (eval_time a total) n), Some (log_file a ++ [mkEntry "cache" true; file "evaluations.log"])) end end end end) = (Ok g, d) -> 
     exists t, a_total a = Some t /\ (0 < t)%Z /\ g_total g = t /\ g_jobs g = jobs a /\ g_eval g = eval_time a t /\ g_store g = a_store a /\
  (match a_eval a with None => True | Some e => (0 < e)%Z end) /\ d = Some (log_file a ++ [mkEntry "cache" true; file "evaluations.log"])).
  { rewrite clean_new. destruct (invalid a) eqn:I; [discriminate|]. destruct (a_total a) as [t|] eqn:T; [|discriminate]. destruct (a_scoring a); [|discriminate]. destruct (a_space a) as [h|]; [|discriminate].
    destruct (pipeline_length h (a_length a)); [|discriminate]. intros [= <- <-]. exists t. unfold invalid in I. rewrite T in I. rewrite !orb_false_iff in I. destruct I as (((I1 & I2) & _) & _). apply Z.leb_gt in I1.
    assert (match a_eval a with None => True | Some e => (0 < e)%Z end) by (destruct (a_eval a); [apply Z.leb_gt in I2; lia|exact Logic.I]). repeat split; auto. }
  destruct (a_out a) as [[|]|]; auto. discriminate.
Qed.
Lemma init_works a : 1 <= a_cpus a -> ~ unknown_preset a -> ~ occupied a -> ~ bad_total a -> ~ bad_eval a -> ~ bad_jobs a -> a_scoring a = Ok tt -> (exists h, a_space a = Ok h) -> ~ bad_length a ->
  exists g, init a = (Ok g, Some (log_file a ++ [mkEntry "cache" true; file "evaluations.log"])).
Proof.
  intros P U O B1 B2 B3 S (h & Sp) L. unfold init. rewrite <- preset_spec in U. apply not_true_is_false in U. rewrite U.
  assert (I : invalid a = false). { apply not_true_is_false. rewrite (invalid_spec a P). tauto. }
  rewrite I. unfold bad_total in B1. destruct (a_total a) as [t|] eqn:T; [|tauto]. rewrite S, Sp.
  assert (exists n, pipeline_length h (a_length a) = Ok n) as (n & N).
  { destruct (pipeline_length h (a_length a)) as [n|e] eqn:E; eauto. pose proof (proj2 (length_spec h (a_length a)) e E). subst e. apply (proj1 (length_spec h (a_length a))) in E. exfalso. apply L. unfold bad_length. rewrite Sp. destruct E as (-> & E). auto. }
  rewrite N. unfold occupied in O. destruct (a_out a) as [[|]|]; eauto. destruct (O Logic.I).
Qed.
(** default evaluation time *)
Lemma round_small t : (0 < t <= 5)%Z -> round_tenth t = 0%Z.
Proof. intros H. assert (t = 1 \/ t = 2 \/ t = 3 \/ t = 4 \/ t = 5)%Z as [->|[->|[->|[->| ->]]]] by lia; reflexivity. Qed.
Lemma round_large t : (6 <= t)%Z -> (1 <= round_tenth t <= t)%Z.
Proof.
  intros H. unfold round_tenth. pose proof (Z.div_mod t 10 ltac:(lia)). pose proof (Z.mod_pos_bound t 10 ltac:(lia)).
  destruct (Z.compare_spec (t mod 10) 5) as [E|E|E].
  - destruct (Z.even (t / 10)) eqn:Ev; [|lia]. destruct (Z.eq_dec (t / 10) 0); [lia|lia].
  - lia.
  - lia.
Qed.
Lemma eval_default a t : a_eval a = None -> (0 < t)%Z -> ((t <= 5)%Z -> eval_time a t = 0%Z) /\ ((6 <= t)%Z -> (1 <= eval_time a t <= t)%Z).
Proof.
  intros E P. unfold eval_time. rewrite E. split; intros H.
  - rewrite round_small by lia. destruct (0 >? t)%Z eqn:G; auto. apply Z.gtb_lt in G. lia.
  - pose proof (round_large t H). destruct (_ >? t)%Z eqn:G; [lia|lia].
Qed.
Lemma eval_own a t e : a_eval a = Some e -> eval_time a t = Z.min e t.
Proof. intros E. unfold eval_time. rewrite E. destruct (e >? t)%Z eqn:G; [apply Z.gtb_lt in G|rewrite Z.gtb_ltb in G; apply Z.ltb_ge in G]; lia. Qed.

(** * callbacks *)
Lemma safe_harmless c : harmless c <-> safe_call c = Ok tt.
Proof.
  unfold harmless, safe_call. split.
  - intros (L & A & B). rewrite L. destruct (c_end c) as [|[]]; congruence.
  - destruct (c_end c) as [[]|[]], (c_late c); intros H; try discriminate; repeat split; discriminate.
Qed.
Lemma safe_err c : ~ harmless c -> exists e, safe_call c = Err e /\ (e = TimeoutException \/ e = KeyboardInterrupt /\ c_end c = Err KeyboardInterrupt).
Proof.
  intros H. rewrite safe_harmless in H. unfold safe_call in *. destruct (c_end c) as [[]|[]], (c_late c); eauto; congruence.
Qed.
Lemma on_completed_all {C V} (behave : C -> V -> call) e ks : Forall (fun k => harmless (behave k e)) ks -> on_completed behave e ks = (ks, Ok tt).
Proof. induction 1 as [|k ks H F IH]; [reflexivity|]. cbn [on_completed]. rewrite (proj1 (safe_harmless _) H), IH. reflexivity. Qed.
Lemma on_completed_stop {C V} (behave : C -> V -> call) e ks k rest : Forall (fun k => harmless (behave k e)) ks -> ~ harmless (behave k e) ->
  exists x, on_completed behave e (ks ++ k :: rest) = (ks ++ [k], Err x) /\ (x = TimeoutException \/ x = KeyboardInterrupt /\ c_end (behave k e) = Err KeyboardInterrupt).
Proof.
  intros F H. destruct (safe_err _ H) as (x & E & X). exists x. split; [|exact X]. induction F as [|a ks Ha F IH]; simpl.
  - rewrite E. reflexivity.
  - rewrite (proj1 (safe_harmless _) Ha), IH. reflexivity.
Qed.
Lemma fold_register {C} (ks l : list C) : fold_left (fun cs k => register_callback k cs) ks l = l ++ ks.
Proof. revert l. induction ks as [|k ks IH]; intros l; simpl; [rewrite app_nil_r; reflexivity|]. rewrite IH. unfold register_callback. rewrite <- app_assoc. reflexivity. Qed.

(** * the best individual *)
Lemma insert_ss_on {A} (leb : A -> A -> bool) (P : A -> Prop) (tot : forall a b, P a -> P b -> leb a b = true \/ leb b a = true)
  (tr : forall a b c, P a -> P b -> P c -> leb a b = true -> leb b c = true -> leb a c = true) x l :
  P x -> Forall P l -> StronglySorted (fun a b => leb a b = true) l -> StronglySorted (fun a b => leb a b = true) (insert_sorted leb x l).
Proof.
  intros Px Pl. induction 1 as [|y l S IH F]; simpl; [constructor; constructor|].
  pose proof (Forall_inv Pl) as Py. pose proof (Forall_inv_tail Pl) as Pt. destruct (leb x y) eqn:E.
  - constructor; [constructor; auto|]. constructor; auto. rewrite Forall_forall in *. intros z I. apply (tr x y z); auto.
  - constructor; auto. assert (leb y x = true) by (destruct (tot x y); auto; congruence).
    eapply Permutation_Forall; [apply insert_sorted_perm|]. constructor; auto.
Qed.
Lemma py_sorted_ss_on {A} (leb : A -> A -> bool) (P : A -> Prop) (tot : forall a b, P a -> P b -> leb a b = true \/ leb b a = true)
  (tr : forall a b c, P a -> P b -> P c -> leb a b = true -> leb b c = true -> leb a c = true) l :
  Forall P l -> StronglySorted (fun a b => leb a b = true) (py_sorted leb l).
Proof.
  induction 1 as [|a l Pa F IH]; simpl; [constructor|]. apply (insert_ss_on leb P); auto.
  eapply Permutation_Forall; [|exact F]. apply py_sorted_perm.
Qed.
Lemma ss_rev {A} (R : A -> A -> Prop) l : StronglySorted R l -> StronglySorted (fun a b => R b a) (rev l).
Proof.
  induction 1 as [|a l S IH F]; simpl; [constructor|]. clear S.
  assert (G : forall m, StronglySorted (fun a b => R b a) m -> Forall (R a) m -> StronglySorted (fun a b => R b a) (m ++ [a])).
  { induction 1 as [|x m Sm IHm Fm]; intros Fa; simpl; [constructor; constructor|]. constructor; [apply IHm; exact (Forall_inv_tail Fa)|].
    apply Forall_app. split; auto. constructor; [exact (Forall_inv Fa)|constructor]. }
  apply G; auto. apply Forall_rev. exact F.
Qed.
Lemma best_sorted {I} (key : I -> list num) pop : (forall i, In i pop -> okn (key i)) ->
  Permutation (best_individuals key pop) pop /\ StronglySorted (fun a b => ~ lex_lt (key a) (key b)) (best_individuals key pop).
Proof.
  intros OK. unfold best_individuals. split.
  - eapply Permutation_trans; [apply Permutation_sym, Permutation_rev|]. apply Permutation_sym, py_sorted_perm.
  - assert (S : StronglySorted (fun a b => tuple_le (key a) (key b) = true) (py_sorted (fun a b => tuple_le (key a) (key b)) pop)).
    { apply (py_sorted_ss_on _ (fun i => okn (key i))).
      - intros a b A B. unfold tuple_le. destruct (tuple_lt (key b) (key a)) eqn:E; auto. right. rewrite (tuple_lt_asym (key b) (key a)); auto.
      - intros a b c A B C. unfold tuple_le. rewrite !negb_true_iff. intros E1 E2. exact (tuple_nlt_trans (key c) (key b) (key a) C B A E2 E1).
      - rewrite Forall_forall. exact OK. }
    apply ss_rev in S. assert (M : forall x, In x (rev (py_sorted (fun a b => tuple_le (key a) (key b)) pop)) -> okn (key x)).
    { intros x J. apply OK. apply in_rev in J. eapply Permutation_in; [|exact J]. apply Permutation_sym, py_sorted_perm. }
    revert S M. generalize (rev (py_sorted (fun a b => tuple_le (key a) (key b)) pop)). intros l S M. induction S as [|a l S IH F]; constructor.
    + apply IH. intros x J. apply M. right. exact J.
    + rewrite Forall_forall in *. intros x J L. specialize (F x J). unfold tuple_le in F. rewrite (proj2 (tuple_lt_lex (key a) (key x) (M a (or_introl eq_refl)) (M x (or_intror J))) L) in F. discriminate.
Qed.
Lemma best_max {I} (key : I -> list num) pop i : (forall i, In i pop -> okn (key i)) -> best_fit (best_individuals key pop) = Ok i ->
  In i pop /\ forall j, In j pop -> ~ lex_lt (key i) (key j).
Proof.
  intros OK. destruct (best_sorted key pop OK) as (P & S). unfold best_fit. destruct (best_individuals key pop) as [|x l]; [discriminate|]. intros [= ->]. split.
  - eapply Permutation_in; [exact P|]. left. reflexivity.
  - intros j J. apply (Permutation_in _ (Permutation_sym P)) in J. inversion S as [|? ? _ F]; subst. destruct J as [<-|J].
    + intros L. assert (OKi : okn (key i)) by (apply OK; eapply Permutation_in; [exact P|left; reflexivity]). apply (tuple_lt_lex _ _ OKi OKi) in L.
      pose proof (tuple_lt_asym (key i) (key i) OKi OKi L). congruence.
    + rewrite Forall_forall in F. exact (F j J).
Qed.
Lemma best_empty {I} (key : I -> list num) pop : best_fit (best_individuals key pop) = Err IndexError <-> pop = [].
Proof.
  assert (Permutation (best_individuals key pop) pop). { unfold best_individuals. eapply Permutation_trans; [apply Permutation_sym, Permutation_rev|]. apply Permutation_sym, py_sorted_perm. }
  split; [|intros ->; reflexivity]. unfold best_fit. destruct (best_individuals key pop) as [|x l]; [|discriminate]. intros _. apply Permutation_nil. exact H.
Qed.

(** * instances *)
Lemma session_newest s es es' i : session s (es ++ Fit i :: es') = session s es ++ (i, newest es (call_init s)) :: session (fold_left (fun s e => match e with New _ k => Partial s k | Fit _ => s end) es s) es'.
Proof. revert s. induction es as [|[j k|j] es IH]; intros s; simpl; [reflexivity| |]; rewrite IH; reflexivity. Qed.
Lemma newest_fits rest k : Forall (fun e => match e with New _ _ => False | Fit _ => True end) rest -> newest rest k = k.
Proof. induction 1 as [|[j k'|j] rest H F IH]; simpl; auto. destruct H. Qed.
Lemma newest_app es j k rest k0 : Forall (fun e => match e with New _ _ => False | Fit _ => True end) rest -> newest (es ++ New j k :: rest) k0 = k.
Proof.
  intros F. revert k0. induction es as [|[a b|a] es IH]; intros k0; simpl; auto. apply newest_fits. exact F.
Qed.

(** * time *)
Lemma py_int_floor q : (0 <= q)%Q -> (inject_Z (py_int q) <= q < inject_Z (py_int q + 1))%Q /\ (0 <= py_int q)%Z.
Proof.
  intros H. assert (E : py_int q = Qfloor q).
  { destruct q as [n d]. unfold py_int, Qfloor. simpl. unfold Qle in H. simpl in H. apply Z.quot_div_nonneg; lia. }
  rewrite E. split; [split; [apply Qfloor_le|apply Qlt_floor]|]. change 0%Z with (Qfloor 0). apply Qfloor_resp_le. exact H.
Qed.

(** * the search space for large data *)
Lemma drop_assoc b t bad (l : list (string * list primitive)) k :
  assoc k (if b : bool then map (fun kv => if String.eqb (fst kv) t then (fst kv, filter (fun p => negb (bad p)) (snd kv)) else kv) l else l) =
  if b && String.eqb k t then filter (fun p => negb (bad p)) (assoc k l) else assoc k l.
Proof.
  destruct b; [|reflexivity]. cbn [andb]. induction l as [|[x ps] l IH]; [destruct (String.eqb k t); reflexivity|]. cbn [map assoc fst snd].
  destruct (String.eqb x t) eqn:N; cbn [assoc fst snd]; destruct (String.eqb k x) eqn:M; try exact IH; apply String.eqb_eq in M; subst x; rewrite N; reflexivity.
Qed.
Lemma restrict_in sp rows cols knn poly s k p :
  In p (prims_of (restrict sp rows cols knn poly s) k) <->
  In p (prims_of s k) /\ ~ (sp = true /\ k = "prediction" /\ (6000000 < Z.of_nat rows * Z.of_nat cols)%Z /\ knn p = true)
                     /\ ~ (sp = true /\ k = "data" /\ 50 < cols /\ poly p = true).
Proof.
  unfold prims_of, restrict. cbn [ps_prims]. rewrite drop_assoc, drop_assoc.
  assert (A : sp && (50 <? cols) && String.eqb k "data" = true <-> sp = true /\ 50 < cols /\ k = "data") by (rewrite !andb_true_iff, Nat.ltb_lt, String.eqb_eq; tauto).
  assert (B : sp && (6000000 <? Z.of_nat rows * Z.of_nat cols)%Z && String.eqb k "prediction" = true <-> sp = true /\ (6000000 < Z.of_nat rows * Z.of_nat cols)%Z /\ k = "prediction") by (rewrite !andb_true_iff, Z.ltb_lt, String.eqb_eq; tauto).
  destruct (sp && (50 <? cols) && String.eqb k "data"), (sp && (6000000 <? Z.of_nat rows * Z.of_nat cols)%Z && String.eqb k "prediction"); 
  rewrite ?filter_In, ?negb_true_iff.
  - destruct (proj1 A eq_refl) as (_ & _ & ->). destruct (proj1 B eq_refl) as (_ & _ & F). discriminate.
  - destruct (proj1 A eq_refl) as (a & b & c). assert (~ (sp = true /\ (6000000 < Z.of_nat rows * Z.of_nat cols)%Z /\ k = "prediction")) by (rewrite <- B; discriminate).
    destruct (poly p); intuition congruence.
  - destruct (proj1 B eq_refl) as (a & b & c). assert (~ (sp = true /\ 50 < cols /\ k = "data")) by (rewrite <- A; discriminate). destruct (knn p); intuition congruence.
  - assert (~ (sp = true /\ (6000000 < Z.of_nat rows * Z.of_nat cols)%Z /\ k = "prediction")) by (rewrite <- B; discriminate).
    assert (~ (sp = true /\ 50 < cols /\ k = "data")) by (rewrite <- A; discriminate). intuition congruence.
Qed.

Lemma opened_touch d d0 : opened d d0 -> touch "memory.log" d = d0.
Proof.
  unfold touch. intros [((e & I & N) & ->)|(N & ->)].
  - replace (existsb _ d) with true; [reflexivity|]. symmetry. apply existsb_exists. exists e. split; [exact I|]. apply String.eqb_eq. exact N.
  - replace (existsb _ d) with false; [reflexivity|]. symmetry. apply not_true_is_false. intros H. apply existsb_exists in H as (e & I & E). apply String.eqb_eq in E. exact (N e I E).
Qed.
Lemma eval_nearest a t : a_eval a = None -> (0 < t)%Z -> (2 * Z.abs (10 * eval_time a t - t) <= 10)%Z /\ ((2 * Z.abs (10 * eval_time a t - t) = 10)%Z -> Z.Even (eval_time a t)).
Proof.
  intros E P. unfold eval_time. rewrite E.
  assert (K : (round_tenth t <= t)%Z). { destruct (Z_le_gt_dec 6 t). - apply round_large; auto. - rewrite round_small by lia. lia. }
  destruct (Z.gtb_spec (round_tenth t) t); [lia|]. clear K H. unfold round_tenth.
  pose proof (Z.div_mod t 10 ltac:(lia)). pose proof (Z.mod_pos_bound t 10 ltac:(lia)).
  destruct (Z.compare_spec (t mod 10) 5).
  - destruct (Z.even (t / 10)) eqn:Ev.
    + apply Z.even_spec in Ev. split; [lia|auto].
    + assert (O : Z.even (t / 10 + 1) = true). { rewrite Z.even_add, Ev. reflexivity. } apply Z.even_spec in O. split; [lia|auto].
  - split; lia.
  - split; lia.
Qed.

(** ** saving after the directory was removed *)
Lemma gone_room : forall l e r l1 r1,
  save l e r = (l1, Ok tt, r1) -> success e -> match l_m l with None => True | Some m => length (top l) < m end ->
  exists l', save_gone l e r = (l', Err FileNotFoundError, r1) /\ top l' = top l /\ l_lookup l' = l_lookup l /\ l_other l' = l_other l.
Proof.
  intros l e r l1 r1 S U M. unfold save in S. unfold save_gone. destruct (process l e r) as [[lp p] rp] eqn:P.
  destruct (process_ok _ _ _ _ _ _ P) as (s & -> & _ & Q). destruct p as [e1|x]; [|discriminate].
  destruct (Q _ eq_refl) as (-> & _). clear Q P.
  assert (E : ev_error (with_pred (kept (l_n l) s (ev_pred e)) e) = None) by exact U. rewrite E in *.
  cbn [add_obj set_sample l_m l_top] in *. unfold top in M. rewrite map_length in M.
  replace (match l_m l with None => true | Some m => length (l_top l) <? m end) with true in * by (destruct (l_m l); [symmetry; apply Nat.ltb_lt; exact M|reflexivity]).
  injection S as _ <-. eexists. split; [reflexivity|]. auto.
Qed.
Lemma gone_others : forall l0 es r l out e r2,
  empty_lib l0 -> Forall ordinary es -> distinct es -> saves l0 es r = (l, out) -> ordinary e ->
  ~ success e \/ (exists m, l_m l = Some m /\ m <= length (top l) /\ forall t, In t (top l) -> ~ lex_lt (ev_score (nth_ev (saved out) t)) (ev_score e)) ->
  save_gone l e r2 = save l e r2.
Proof.
  intros l0 es r l out e r2 H1 H2 H3 H4 O H. pose proof (run_inv _ _ _ _ _ H1 H2 H3 H4) as I. unfold save_gone.
  destruct (process l e r2) as [[lp p] rp] eqn:P. destruct (process_ok _ _ _ _ _ _ P) as (s & -> & _ & Q).
  destruct p as [e1|x]; [|unfold save; rewrite P; reflexivity].
  destruct (Q _ eq_refl) as (-> & _). clear Q. cbn [with_pred ev_error].
  destruct H as [H|(m & M & L & B)].
  - unfold success in H. destruct (ev_error e) eqn:Ee; [reflexivity|contradiction].
  - destruct (ev_error e) eqn:Ee; [reflexivity|]. cbn [add_obj set_sample l_m l_top]. rewrite M. unfold top in L. rewrite map_length in L.
    replace (length (l_top l) <? m) with false by (symmetry; apply Nat.ltb_ge; exact L).
    destruct (heappushpop item_lt dummy (l_top l) _) as [rm t] eqn:EH. cbn [with_pred ev_score] in EH |- *.
    assert (K : rm = (ev_score e, length (l_objs (set_sample s l)))).
    { destruct (heappushpop_ok item_lt dummy okitem item_asym item_trans (l_top l) (ev_score e, length (l_objs (set_sample s l))) rm t (top_all_ok _ _ I) (proj2 O) (v_heap _ _ I) EH) as (_ & _ & _ & [(K & _)|(h & Hh & -> & Lt)]); [exact K|exfalso].
      assert (J : In h (l_top l)) by (destruct (l_top l); [discriminate|injection Hh as ->; left; reflexivity]).
      destruct (v_item _ _ I h J) as (J1 & J2 & J3). apply (B (snd h)); [apply in_map; exact J|].
      apply tuple_lt_lex; [|exact (proj2 O)|].
      - pose proof (v_ok _ _ I) as V. rewrite Forall_forall in V. apply (V (nth_ev (saved out) (snd h))). apply nth_In. exact J1.
      - unfold item_lt in Lt. cbn [fst] in Lt. rewrite J2 in Lt. exact Lt. }
    subst rm. cbn [fst]. replace (tuple_eq (ev_score e) (ev_score e)) with true; [reflexivity|].
    symmetry. destruct O as (_ & O). clear -O. induction O as [|x a X A IH]; [reflexivity|]. cbn [tuple_eq]. rewrite IH, andb_true_r.
    destruct x as [| |q|]; try reflexivity; try congruence. simpl. apply Qeq_bool_iff. apply Qeq_refl.
Qed.
Lemma lt_not_eq a b : okn a -> okn b -> tuple_lt a b = true -> tuple_eq a b = false.
Proof.
  revert b. induction a as [|x a IH]; intros [|y b] A B L; try discriminate; try reflexivity.
  cbn [tuple_lt] in L. cbn [tuple_eq]. inversion A; inversion B; subst. destruct (neqb x y); [|reflexivity]. simpl. apply IH; auto.
Qed.
Lemma gone_full : forall l0 es r l out m e r2 l1 r1,
  empty_lib l0 -> Forall ordinary es -> distinct es -> saves l0 es r = (l, out) ->
  save l e r2 = (l1, Ok tt, r1) -> success e -> ordinary e -> l_m l = Some m -> length (top l) = m ->
  (exists t, In t (top l) /\ lex_lt (ev_score (nth_ev (saved out) t)) (ev_score e)) ->
  exists l' worst rest, save_gone l e r2 = (l', Err FileNotFoundError, r1) /\
    Permutation (top l) (worst :: rest) /\ Permutation (top l') (length (saved out) :: rest) /\
    (forall t, In t (top l) -> ~ lex_lt (ev_score (nth_ev (saved out) t)) (ev_score (nth_ev (saved out) worst))) /\
    l_lookup l' = l_lookup l.
Proof.
  intros l0 es r l out m e r2 l1 r1 H1 H2 H3 H4 S U O M L (t0 & T0 & B). pose proof (run_inv _ _ _ _ _ H1 H2 H3 H4) as I.
  unfold save in S. unfold save_gone. destruct (process l e r2) as [[lp p] rp] eqn:P.
  destruct (process_ok _ _ _ _ _ _ P) as (s & -> & _ & Q). destruct p as [e1|x]; [|discriminate].
  destruct (Q _ eq_refl) as (-> & _). clear Q P. unfold success in U.
  cbn [with_pred ev_error ev_score add_obj set_sample l_m l_top] in *. rewrite U in *. rewrite M in *. unfold top in L. rewrite map_length in L.
  assert (NL : (length (l_top l) <? m) = false) by (apply Nat.ltb_ge; exact (Nat.eq_le_incl _ _ (eq_sym L))). rewrite NL in *.
  assert (LO : length (l_objs l) = length (saved out)) by apply (v_len _ _ I).
  change (l_objs (set_sample s l)) with (l_objs l) in *. rewrite LO in *.
  destruct (heappushpop item_lt dummy (l_top l) (ev_score e, length (saved out))) as [rm t] eqn:EH.
  assert (OK : forall u, In u (top l) -> okn (ev_score (nth_ev (saved out) u))).
  { intros u Hu. apply in_map_iff in Hu as (x & <- & Hx). pose proof (v_ok _ _ I) as V. rewrite Forall_forall in V. apply (V (nth_ev (saved out) (snd x))). apply nth_In. apply (v_item _ _ I x Hx). }
  destruct (heappushpop_ok item_lt dummy okitem item_asym item_trans (l_top l) (ev_score e, length (saved out)) rm t (top_all_ok _ _ I) (proj2 O) (v_heap _ _ I) EH) as (_ & PM & MIN & C).
  assert (LT0 : tuple_lt (ev_score (nth_ev (saved out) t0)) (ev_score e) = true) by (apply tuple_lt_lex; [apply OK; exact T0|exact (proj2 O)|exact B]).
  destruct (proj1 (in_map_iff _ _ _) T0) as (x0 & X0 & J0). destruct (v_item _ _ I x0 J0) as (_ & J0' & _).
  change (nth (snd x0) (saved out) de) with (nth_ev (saved out) (snd x0)) in J0'.
  destruct C as [(K & -> & C)|(h & Hh & K & Lt)].
  { exfalso. specialize (MIN x0 J0). subst rm. unfold item_lt in MIN. cbn [fst] in MIN. rewrite J0', X0 in MIN. congruence. }
  assert (HI : In h (l_top l)) by (destruct (l_top l); [discriminate|injection Hh as ->; left; reflexivity]).
  destruct (v_item _ _ I h HI) as (_ & Hs & _). change (nth (snd h) (saved out) de) with (nth_ev (saved out) (snd h)) in Hs.
  unfold item_lt in Lt. cbn [fst] in Lt.
  assert (NE : tuple_eq (fst rm) (ev_score e) = false).
  { subst rm. apply lt_not_eq; [rewrite Hs; apply OK, in_map, HI|exact (proj2 O)|exact Lt]. }
  rewrite NE in *. assert (RR : r1 = rp).
  { destruct (remove_from_disk _ _) as [l4 [u|x]]; [injection S as _ <-|discriminate]; reflexivity. }
  clear S. subst rp.
  destruct (l_top l) as [|h' rest] eqn:ET; [discriminate|]. injection Hh as ->.
  exists (set_top t (add_obj (with_file (Some (ev_ind e)) (with_pred (kept (l_n l) s (ev_pred e)) e)) (set_sample s l))), (snd h), (map snd rest).
  split; [reflexivity|]. unfold top. rewrite ET. cbn [map set_top l_top add_obj set_sample l_lookup]. split; [reflexivity|]. split; [|split; [|reflexivity]].
  - subst rm. assert (PM2 : Permutation t ((ev_score e, length (saved out)) :: rest)).
    { apply Permutation_cons_inv with (a := h). eapply perm_trans; [apply Permutation_sym; exact PM|apply perm_swap]. }
    apply (Permutation_map snd) in PM2. exact PM2.
  - intros u Hu LU. assert (Hu' : In u (top l)) by (unfold top; rewrite ET; exact Hu).
    assert (KK : forall z, In z (h :: rest) -> item_lt z h = false).
    { intros z Hz. apply (heap_root_in item_lt dummy okitem item_asym item_trans (h :: rest) h rest eq_refl); [rewrite <- ET; apply (top_all_ok _ _ I)|rewrite <- ET; apply (v_heap _ _ I)|exact Hz]. }
    change (snd h :: map snd rest) with (map snd (h :: rest)) in Hu. apply in_map_iff in Hu as (z & <- & Hz). specialize (KK z Hz).
    assert (Hz2 : In z (l_top l)) by (rewrite ET; exact Hz).
    destruct (v_item _ _ I z Hz2) as (_ & Zs & _). change (nth (snd z) (saved out) de) with (nth_ev (saved out) (snd z)) in Zs.
    unfold item_lt in KK. rewrite Zs, Hs in KK. apply tuple_lt_lex in LU; [congruence|apply OK; exact Hu'|apply OK; unfold top; rewrite ET; left; reflexivity].
Qed.

(** Whole searches. *)
Require Import Permutation ZArith QArith.
From Verif Require Import Base Num Search_Model Search_Spec Search_Proofs Search_Proofs4.
From Verif Require Async_Model Async_Spec.
From Verif Require Import Sys_Model Sys_Spec Sys_Proofs2.
From Verif Require Sys_Proofs.
Open Scope nat_scope.

Section Top.
Context (call : nat -> list nat -> Async_Model.kwargs -> nat -> Async_Model.outcome) (scores : nat -> list num) (d : Async_Model.kwargs).
Notation wf0 := (wf0 call scores d).
Notation sim := (sim call scores d).
Lemma seen o o' : Async_Spec.reported o' o -> seen_as scores o (outcome_of scores o').
Proof.
  unfold Async_Spec.reported, seen_as. destruct o as [v|e|]; [|intros ->; reflexivity|intros ->; reflexivity].
  destruct v as [n|n|n|n e|[|z l]]; intros H; try (subst o'; reflexivity).
  - destruct e; subst o'; cbn [outcome_of]; eexists; (split; [reflexivity|split; congruence]).
  - destruct z as [n|n|n|n e|l']; try (subst o'; reflexivity). destruct e; subst o'; reflexivity.
Qed.
Lemma workers_ok y : wf0 y -> from_workers call scores d (w_trace (y_w y)).
Proof.
  intros [W1 W2 W3 W4 W5 W6 W7]. exists (map fst (Async_Model.a_returned (y_s y))). destruct (Sys_Proofs.ids_ok call d _ W1) as (_ & N & _). split; auto.
  assert (OR : forall k o, In (k, o) (Async_Model.a_returned (y_s y)) -> exists choice, call 0 [k] d choice <> Async_Model.Die /\ Async_Spec.reported o (call 0 [k] d choice)).
  { intros k o H. apply (Sys_Proofs.origin_ok call d _ W1) in H; [tauto|]. intros k' j' H'. rewrite W5 in H'. apply in_map_iff in H' as (k'' & E & _). congruence. }
  clear - W7 OR. induction W7 as [|[k o] [[i r] oc] l l' (i0 & r0 & M1 & M2) _ IH]; cbn [map]; constructor.
  - injection M2 as -> -> ->. destruct (OR k o) as (c & ND & R); [left; auto|]. exists i0, c. cbn [fst snd] in *. split; auto. split; [destruct (outcome_of scores o); auto|]. split; auto. apply seen; auto.
  - apply IH. intros k' o' H. apply OR. right. auto.
Qed.
Lemma top {A} (m : M A) (ms : MS A) lists n log r uid stop rungs plan calls x y' : sim m ms ->
  within_context call n None log d ms (mkSys (mkW lists [] n [] r uid stop rungs []) (Async_Model.new_evaluator n None true []) [] plan calls) = (x, y') ->
  exists evs, length evs <= length plan /\ leave m (mkW lists [] n evs r uid stop rungs []) = (x, y_w y') /\ from_workers call scores d (w_trace (y_w y')).
Proof.
  intros S E. unfold within_context in E. cbn [y_w y_plan y_calls] in E.
  destruct (Sys_Proofs.good_enter call d n log) as [G (G1 & G2 & G3 & G4 & G5 & G6)].
  set (s := Async_Model.step call (Async_Model.new_evaluator n None log d) Async_Model.Enter) in *. clearbody s.
  set (y := mkSys (mkW lists [] n [] r uid stop rungs []) s [] plan calls) in *.
  assert (W : wf call scores d y).
  { split; auto. split; cbn [y y_s y_w y_jobs w_n w_jobs w_events w_trace length seq map starts dones flat_map]; auto. rewrite G3. constructor. }
  assert (AB : forall evs, abs y evs = mkW lists [] n evs r uid stop rungs []).
  { intros evs. unfold abs, je, jobs_of. cbn [y y_s y_w]. rewrite G1. auto. }
  destruct (ms y) as [x1 y1] eqn:E1. injection E as <- <-. cbn [y_w y_s]. destruct (S _ _ _ W E1) as (evs & L & K1 & K2). exists evs.
  assert (K : wf0 y1 /\ m (abs y evs) = (x1, abs y1 [])).
  { assert (D : x1 = Err Diverges \/ x1 <> Err Diverges) by (destruct x1 as [a|e]; [right; discriminate|destruct e; auto; right; discriminate]).
    destruct D as [D|D]; [auto|]. destruct (K1 D) as [[K0 _] K3]. split; auto. specialize (K3 []). rewrite app_nil_r in K3. auto. }
  destruct K as [K3 K4]. split; [cbn [y y_plan] in L; lia|]. split; [|apply workers_ok; auto].
  unfold leave. rewrite <- AB, K4. f_equal. destruct K3 as [_ _ H1 H2 _ _ _]. unfold abs, je. destruct (y_w y1). cbn in *. congruence.
Qed.

Lemma leave_ext {A} (m m' : M A) w : m w = m' w -> leave m w = leave m' w.
Proof. intros E. unfold leave. rewrite E. auto. Qed.
Lemma bind_ext {A B} (m m' : M A) (f : A -> M B) w : m w = m' w -> bind m f w = bind m' f w.
Proof. intros E. unfold bind. rewrite E. auto. Qed.

Lemma ea_top o out restart max_n pop_size start lists n log r uid stop plan calls x y' :
  s_async_ea call scores n None log d o out restart max_n pop_size start (before lists n r uid stop plan calls) = (x, y') ->
  exists evs, length evs <= length plan /\
    async_ea o out restart max_n pop_size start (start_world lists n evs r uid stop) = (x, y_w y') /\
    from_workers call scores d (w_trace (y_w y')).
Proof.
  intros E. unfold s_async_ea in E. cbn [y_plan before] in E.
  set (go := within_context call n None log d _) in E.
  assert (GO : go (before lists n r uid stop plan calls) = (x, y') ->
    exists evs, length evs <= length plan /\
    leave (ea_loop o out restart max_n pop_size (2 * length evs + 3) (Some (Given start)) 0 ;; ret out) (start_world lists n evs r uid stop) = (x, y_w y') /\
    from_workers call scores d (w_trace (y_w y'))).
  { clear E. intros E. destruct (top (ea_loop o out restart max_n pop_size (2 * length plan + 3) (Some (Given start)) 0 ;; ret out) _ _ _ _ _ _ _ _ _ _ _ _
      (s_bind_sim _ _ _ _ _ _ _ (ea_sim call scores d o out restart max_n pop_size (2 * length plan + 3) (Some (Given start)) 0) (fun _ => s_ret_sim _ _ _ out)) E) as (evs & L & H & F).
    exists evs. split; auto. split; auto. rewrite <- H. apply leave_ext, bind_ext.
    replace (2 * length plan + 3) with (2 * length evs + 3 + (2 * (length plan - length evs))) by lia.
    symmetry. apply (ea_fuel o out restart max_n pop_size _ _ _ (start_world lists n evs r uid stop)). }
  unfold async_ea. cbn [w_events start_world]. destruct max_n as [m|]; [|auto]. destruct (m <=? 0)%Z; [|auto]. injection E as <- <-. exists []. simpl.
  split; [lia|]. split; auto. exists []. split; constructor.
Qed.
Lemma rs_top o out max_n start lists n log r uid stop plan calls x y' :
  s_random_search call scores n None log d o out max_n start (before lists n r uid stop plan calls) = (x, y') ->
  exists evs, length evs <= length plan /\
    random_search o out max_n start (start_world lists n evs r uid stop) = (x, y_w y') /\
    from_workers call scores d (w_trace (y_w y')).
Proof.
  intros E. unfold s_random_search in E. cbn [y_plan before] in E.
  destruct (top (l <- read start ;; submit_all l ;; rs_loop o out max_n (length plan + 1) ;; ret out) _ _ _ _ _ _ _ _ _ _ _ _
     (s_bind_sim _ _ _ _ _ _ _ (own_sim _ _ _ _ (f_read start)) (fun l => s_bind_sim _ _ _ _ _ _ _ (submit_all_sim _ _ _ l)
        (fun _ => s_bind_sim _ _ _ _ _ _ _ (rs_sim call scores d o out max_n (length plan + 1)) (fun _ => s_ret_sim _ _ _ out)))) E) as (evs & L & H & F).
  exists evs. split; auto. split; auto. rewrite <- H. unfold random_search. apply leave_ext. cbn [w_events start_world].
  assert (X : ext (ev (length evs)) (l <- read start ;; submit_all l ;; rs_loop o out max_n (length evs + 1) ;; ret out)
                (l <- read start ;; submit_all l ;; rs_loop o out max_n (length plan + 1) ;; ret out)); [|apply X; reflexivity].
  eapply e_bind with (R := fun _ => ev (length evs)); [v|intros l]. eapply e_bind with (R := fun _ => ev (length evs)).
  { induction l; cbn [submit_all]; v; auto. }
  intros _ w Hw. apply bind_ext. replace (length plan + 1) with (length evs + 1 + (length plan - length evs)) by lia.
  unfold ev in Hw. rewrite <- Hw. symmetry. apply rs_fuel.
Qed.
Lemma asha_top o eta a b fr mr start same mf lists n log r uid stop plan calls x y' :
  s_asha call scores n None log d o eta a b fr mr start same mf (before lists n r uid stop plan calls) = (x, y') ->
  exists evs, length evs <= length plan /\
    asha o eta a b fr mr start same mf (start_world lists n evs r uid stop) = (x, y_w y') /\
    from_workers call scores d (w_trace (y_w y')).
Proof.
  intros E. unfold s_asha in E. cbn [y_plan before] in E. unfold asha. destruct same; cbn [negb] in *.
  2: { injection E as <- <-. exists []. cbn. split; [lia|]. split; auto. exists []. split; constructor. }
  unfold sbind at 1 in E. unfold own at 1 in E. cbn [put_rungs before y_w y_s y_jobs y_plan y_calls start_world w_lists w_jobs w_n w_events w_rng w_uid w_stop w_trace] in E.
  match type of E with context [within_context _ _ _ _ _ ?ms ?y] => destruct (within_context call n None log d ms y) as [x1 y1] eqn:E1 end.
  destruct (top (start_jobs o eta a b fr mr start 8 ;; tick ;; asha_loop o eta a b fr mr start mf (length plan + 1)) _ _ _ _ _ _ _ _ _ _ _ _
     (s_bind_sim _ _ _ _ _ _ _ (start_jobs_sim _ _ _ o eta a b fr mr start 8) (fun _ => s_bind_sim _ _ _ _ _ _ _ (own_sim _ _ _ _ f_tick)
        (fun _ => asha_sim call scores d o eta a b fr mr start mf (length plan + 1)))) E1) as (evs & L & H & F).
  exists evs. split; auto.
  assert (EX : leave (start_jobs o eta a b fr mr start 8 ;; tick ;; asha_loop o eta a b fr mr start mf (length evs + 1))
     (mkW lists [] n evs r uid stop (empty_rungs fr mr) []) = (x1, y_w y1)).
  { rewrite <- H. apply leave_ext.
    assert (X : ext (ev (length evs)) (start_jobs o eta a b fr mr start 8 ;; tick ;; asha_loop o eta a b fr mr start mf (length evs + 1))
                  (start_jobs o eta a b fr mr start 8 ;; tick ;; asha_loop o eta a b fr mr start mf (length plan + 1))); [|apply X; reflexivity].
    eapply e_bind with (R := fun _ => ev (length evs)).
    { generalize 8. intros k. induction k; cbn [start_jobs]; [v|]. eapply t_bind; [apply v_start|auto]. }
    intros _. eapply e_bind with (R := fun _ => ev (length evs)); [apply v_tick|]. intros _ w Hw.
    replace (length plan + 1) with (length evs + 1 + (length plan - length evs)) by lia.
    unfold ev in Hw. rewrite <- Hw. symmetry. apply asha_fuel. }
  cbn [w_lists w_jobs w_n w_events w_rng w_uid w_stop w_trace start_world]. rewrite EX.
  destruct x1 as [u|e].
  - destruct (w_rungs (y_w y1)); injection E as <- <-; auto.
  - destruct e; try (injection E as <- <-; auto). destruct (reached (w_rungs (y_w y1))); injection E as <- <-; auto.
Qed.
End Top.

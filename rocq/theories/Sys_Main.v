(** Theorems about searches on top of the worker processes; restated in [Sys_Props.v]. *)
(*IMPORTS*)
Require Import Permutation ZArith QArith.
From Verif Require Import Base Num Search_Model Search_Spec.
From Verif Require Async_Model Async_Spec.
From Verif Require Import Sys_Model Sys_Spec.
Open Scope nat_scope.
(*END*)
From Verif Require Import Sys_Proofs2 Sys_Proofs3 Sys_Proofs4.
From Verif Require Search_Main.

(** Examples: two workers; evaluation number [k] has the score [k], the sixth fails, the third kills its worker. *)
Definition ex_call (fn : nat) (args : list nat) (kw : Async_Model.kwargs) (choice : nat) : Async_Model.outcome :=
  match args with
  | [k] => if k =? 2 then Async_Model.Die else Async_Model.Ret (Async_Model.VEval (k + choice) (if k =? 5 then Async_Model.MemErr else Async_Model.NoError))
  | _ => Async_Model.Exc 0
  end.
Definition ex_scores (k : nat) : list num := [Fin (inject_Z (Z.of_nat k)); Fin 0].
Definition some_ops : ops := gama_ops (fun _ _ => true) (fun _ _ r => (Ok tt, r)) (fun _ r => (Ok tt, r)) (fun r => (Ok tt, r)).
Definition some_ind (k : nat) : ind := mkI k None None.
Definition at_work (l : list Async_Model.act) : turn :=
  mkTurn l (fun _ => Some 1) (fun _ => Some 1) (fun p => if p =? 2 then None else Some 1) true.
Definition get := Async_Model.Get.
Definition exec (p : nat) := Async_Model.Exec p 0.
Definition flush := Async_Model.Flush.
Definition ex_plan : list turn :=
  [at_work []; at_work [get 2]; at_work [exec 2; get 1]; at_work [flush 2; get 2]; at_work [exec 1]; at_work [flush 1]; at_work [get 1];
   at_work []; at_work [exec 2; exec 1; get 1]; at_work [get 3; exec 1; flush 1]; at_work [exec 3; flush 3; get 3]; at_work [flush 1]; at_work []].

(** C127: the evolutionary search.  However the worker processes take turns, and whichever of
    them die, the search behaves like one in which the evaluations finish one after
    another ([async_ea], [Search_Model.v]), and its results are results of different submitted jobs. *)
Lemma C127_async_ea_main :
  forall call scores n log defaults o out restart max_n pop_size start lists r uid stop plan calls x y,
  s_async_ea call scores n None log defaults o out restart max_n pop_size start (before lists n r uid stop plan calls) = (x, y) ->
  exists events, length events <= length plan /\
    async_ea o out restart max_n pop_size start (start_world lists n events r uid stop) = (x, y_w y) /\
    from_workers call scores defaults (w_trace (y_w y)).
Proof. intros. eapply ea_top; eauto. Qed.
(** C127: random search. *)
Lemma C127_random_search_main :
  forall call scores n log defaults o out max_n start lists r uid stop plan calls x y,
  s_random_search call scores n None log defaults o out max_n start (before lists n r uid stop plan calls) = (x, y) ->
  exists events, length events <= length plan /\
    random_search o out max_n start (start_world lists n events r uid stop) = (x, y_w y) /\
    from_workers call scores defaults (w_trace (y_w y)).
Proof. intros. eapply rs_top; eauto. Qed.
(** C127: ASHA. *)
Lemma C127_asha_main :
  forall call scores n log defaults o eta min_res max_res first_rung max_rung start same max_full lists r uid stop plan calls x y,
  s_asha call scores n None log defaults o eta min_res max_res first_rung max_rung start same max_full (before lists n r uid stop plan calls) = (x, y) ->
  exists events, length events <= length plan /\
    asha o eta min_res max_res first_rung max_rung start same max_full (start_world lists n events r uid stop) = (x, y_w y) /\
    from_workers call scores defaults (w_trace (y_w y)).
Proof. intros. eapply asha_top; eauto. Qed.
(** C127: what that gives, for the evolutionary search: when it returns, exactly max_n
    results were collected, of different jobs, and everyone in the population is one of them. *)
Lemma C127_population_main :
  forall call scores n log defaults o out restart max_n pop_size start lists r uid stop plan calls a y, out < length lists ->
  s_async_ea call scores n None log defaults o out restart max_n pop_size start (before lists n r uid stop plan calls) = (Ok a, y) ->
  a = out /\ max_n = Some (Z.of_nat (length (dones (w_trace (y_w y))))) /\ length (list_at out (y_w y)) <= pop_size /\
  exists ks, NoDup ks /\ Forall2 (result_of call scores defaults (w_trace (y_w y))) ks (dones (w_trace (y_w y))) /\
    forall i, In i (list_at out (y_w y)) -> exists r scores, In (i, r, Evaluated scores false) (dones (w_trace (y_w y))).
Proof.
  intros call scores n log defaults o out restart max_n pop_size start lists r uid stop plan calls a y HO E.
  destruct (ea_top _ _ _ _ _ _ _ _ _ _ _ _ _ _ _ _ _ _ _ E) as (evs & _ & E' & ks & F1 & F2).
  destruct (Search_Main.C46_exact_main _ _ _ _ _ _ _ _ _ _ _ _ _ _ HO E') as (m & -> & M).
  destruct (Search_Main.C45_population_partial_main _ _ _ _ _ _ _ _ _ _ _ _ _ _ HO E') as (_ & -> & P1 & P2).
  assert (LD : forall t, length (collected t) = length (dones t)).
  { unfold collected, dones. induction t as [|z t IH]; auto. simpl. rewrite !app_length, IH. destruct z; auto. }
  split; auto. split; [rewrite <- LD, M; auto|]. split; auto. exists ks. split; auto. split; auto. intros i Hi. apply P2 in Hi.
  assert (SR : forall t acc, incl (fold_left (fun acc x => match x with TRestart => [] | _ => acc ++ [x] end) t acc) (acc ++ t)).
  { induction t as [|z t IH]; intros acc; simpl; [rewrite app_nil_r; apply incl_refl|]. intros u Hu. destruct z; apply IH in Hu; try (rewrite <- app_assoc in Hu; exact Hu).
    apply in_or_app. right. right. exact Hu. }
  unfold successes in Hi. apply in_flat_map in Hi as (z & Hz & Hi). apply (SR _ []) in Hz. simpl in Hz.
  destruct z as [| |i' r' [|sc [|]]| |]; try (destruct Hi; fail). destruct Hi as [->|[]]. exists r', sc. unfold dones. apply in_flat_map. eexists. split; [exact Hz|left; auto].
Qed.
Example C127_ex_main :
  exists y, s_async_ea ex_call ex_scores 2 None true [] some_ops 0 false (Some 5%Z) 3 1 (before [[]; map some_ind [10; 11; 12; 13; 14; 15; 16]] 2 [] 50 None ex_plan []) = (Ok 0, y) /\
    map (fun x => i_id (fst (fst x))) (dones (w_trace (y_w y))) = [10; 11; 13; 15; 14] /\ map i_id (list_at 0 (y_w y)) = [11; 13; 14] /\
    map (fun x => i_id (fst x)) (starts (w_trace (y_w y))) = [10; 11; 12; 13; 14; 15; 16; 50; 51].
Proof. eexists. split; [vm_compute; reflexivity|]. split; [reflexivity|]. split; reflexivity. Qed.

(** C128: as long as at most n+1 jobs are lost with their workers (and there were at least
    n+2 start candidates), the evolutionary search never waits in vain: whenever it waits there
    is a job that was submitted, whose result was not collected, and which is not lost. *)
Lemma C128_not_in_vain_partial_main :
  forall call scores n log defaults o out restart max_n pop_size start lists r uid stop plan calls x y, out < length lists -> start <> out ->
  s_async_ea call scores n None log defaults o out restart max_n pop_size start (before lists n r uid stop plan calls) = (x, y) ->
  exists ks, NoDup ks /\ Forall2 (result_of call scores defaults (w_trace (y_w y))) ks (dones (w_trace (y_w y))) /\
    forall t1 pop t2 lost, w_trace (y_w y) = t1 ++ TWait pop :: t2 -> length lost < Nat.min (length (nth start lists [])) (n + 2) ->
    exists k, k < length (starts t1) /\ ~ In k (firstn (length (dones t1)) ks) /\ ~ In k lost.
Proof.
  intros call scores n log defaults o out restart max_n pop_size start lists r uid stop plan calls x y HO NS E.
  destruct (ea_top _ _ _ _ _ _ _ _ _ _ _ _ _ _ _ _ _ _ _ E) as (evs & _ & E' & ks & F1 & F2). exists ks. split; auto. split; auto.
  intros t1 pop t2 lost Et HL. pose proof (Search_Main.C105_ea_partial_main _ _ _ _ _ _ _ _ _ _ _ _ _ _ HO NS E' _ _ _ Et) as R.
  unfold running in R. assert (S1 : length (submissions t1) = length (starts t1)).
  { unfold submissions, starts. clear. induction t1 as [|z t IH]; auto. simpl. rewrite !app_length, IH. destruct z; auto. }
  assert (S2 : length (collected t1) = length (dones t1)).
  { unfold collected, dones. clear. induction t1 as [|z t IH]; auto. simpl. rewrite !app_length, IH. destruct z; auto. }
  destruct (existsb (fun k => negb (existsb (Nat.eqb k) (firstn (length (dones t1)) ks ++ lost))) (seq 0 (length (starts t1)))) eqn:EX.
  - apply existsb_exists in EX as (k & Hk & Hn). apply in_seq in Hk. exists k. split; [lia|].
    assert (N : ~ In k (firstn (length (dones t1)) ks ++ lost)).
    { intros H. apply negb_true_iff in Hn. assert (existsb (Nat.eqb k) (firstn (length (dones t1)) ks ++ lost) = true) by (apply existsb_exists; exists k; split; auto; apply Nat.eqb_refl). congruence. }
    rewrite in_app_iff in N. tauto.
  - exfalso. assert (I : incl (seq 0 (length (starts t1))) (firstn (length (dones t1)) ks ++ lost)).
    { intros k Hk. destruct (existsb (Nat.eqb k) (firstn (length (dones t1)) ks ++ lost)) eqn:EK.
      - apply existsb_exists in EK as (k' & Hk' & EE). apply Nat.eqb_eq in EE. subst. auto.
      - assert (Y : existsb (fun k => negb (existsb (Nat.eqb k) (firstn (length (dones t1)) ks ++ lost))) (seq 0 (length (starts t1))) = true) by (apply existsb_exists; exists k; rewrite EK; auto). congruence. }
    apply NoDup_incl_length in I; [|apply seq_NoDup]. rewrite seq_length, app_length, firstn_length in I. lia.
Qed.
(** C128: but when the evaluations of n+2 of the start candidates kill their workers, then, whatever
    the processes do, the search never makes a new individual: only start candidates are
    ever evaluated, and the search ends by itself only if that is enough. *)
Lemma C128_stalls_main :
  forall call scores n log defaults o out max_n pop_size start lists r uid stop plan calls x y dead, out < length lists -> start <> out ->
  NoDup dead -> (forall k, In k dead -> k < length (nth start lists [])) -> (forall k choice, In k dead -> call 0 [k] defaults choice = Async_Model.Die) ->
  n + 2 <= length dead ->
  s_async_ea call scores n None log defaults o out false max_n pop_size start (before lists n r uid stop plan calls) = (x, y) ->
  (exists l1 l2, nth start lists [] = l1 ++ l2 /\ submissions (w_trace (y_w y)) = l1) /\
  length (collected (w_trace (y_w y))) + length dead <= length (nth start lists []) /\
  (forall a, x = Ok a -> exists m, max_n = Some m /\ (m <= Z.of_nat (length (nth start lists []) - length dead))%Z).
Proof.
  intros call scores n log defaults o out max_n pop_size start lists r uid stop plan calls x y dead HO NS HN HL HD LD E.
  destruct (stalls _ _ _ _ _ _ _ _ _ _ _ _ _ _ _ _ _ _ _ HN HD HL LD NS E) as (l1 & l2 & H1 & H2 & H3).
  destruct (ea_top _ _ _ _ _ _ _ _ _ _ _ _ _ _ _ _ _ _ _ E) as (evs & _ & E' & ks & F1 & F2).
  assert (S1 : submissions (w_trace (y_w y)) = map fst (starts (w_trace (y_w y)))).
  { unfold submissions, starts. generalize (w_trace (y_w y)). induction l as [|z t IH]; auto. simpl. rewrite map_app, IH. destruct z; auto. }
  assert (S2 : length (collected (w_trace (y_w y))) = length (dones (w_trace (y_w y)))).
  { unfold collected, dones. generalize (w_trace (y_w y)). induction l as [|z t IH]; auto. simpl. rewrite !app_length, IH. destruct z; auto. }
  assert (C : length (collected (w_trace (y_w y))) + length dead <= length (nth start lists [])).
  { rewrite S2. destruct H3 as [H3|H3].
    - rewrite H3. cbn [length]. apply NoDup_incl_length with (l' := seq 0 (length (nth start lists []))) in HN; [rewrite seq_length in HN; lia|].
      intros k Hk. apply in_seq. specialize (HL k Hk). lia.
    - subst l2. rewrite app_nil_r in H1. assert (L2 : length ks = length (dones (w_trace (y_w y)))) by (clear - F2; induction F2; simpl; auto).
      rewrite <- L2, <- app_length, <- (seq_length (length (nth start lists [])) 0). apply NoDup_incl_length.
      + assert (DJ : forall k, In k ks -> ~ In k dead).
        { intros k Hk Hd. clear - F2 Hk Hd HD. induction F2 as [|k0 [[i r0] oc] l l' (i0 & c & _ & _ & N & _) _ IH]; [destruct Hk|]. destruct Hk as [->|Hk]; [|auto].
          apply N. apply HD. auto. }
        clear - F1 HN DJ. induction ks as [|k ks IH]; auto. cbn [app]. apply NoDup_cons_iff in F1 as [F1 F1']. constructor; [|apply IH; auto; intros k' Hk'; apply DJ; right; auto].
        rewrite in_app_iff. intros [H|H]; [auto|]. eapply DJ; [left; eauto|auto].
      + intros k Hk. apply in_seq. apply in_app_or in Hk as [Hk|Hk]; [|specialize (HL k Hk); lia].
        assert (K : k < length (starts (w_trace (y_w y)))).
        { clear - F2 Hk. set (t := w_trace (y_w y)) in *. revert F2. generalize (dones t). clearbody t. induction ks as [|k0 ks IH]; intros l F2; [destruct Hk|].
          inversion F2 as [|? [[i r0] oc] ? l' (i0 & c & A & _) F3]; subst. destruct Hk as [->|Hk]; [apply nth_error_Some; congruence|eauto]. }
        rewrite H2, map_length in K. rewrite H1. lia. }
  split; [|split; auto].
  - exists l1, l2. split; auto. rewrite S1, H2, map_map. cbn [fst]. apply map_id.
  - intros a ->. destruct (Search_Main.C46_exact_main _ _ _ _ _ _ _ _ _ _ _ _ _ _ HO E') as (m & -> & M). exists m. split; auto. lia.
Qed.
(** C128: with one worker (always replaced when it dies), three start candidates that kill it are
    enough; the others are evaluated, and then nothing happens any more. *)
Definition deadly (fn : nat) (args : list nat) (kw : Async_Model.kwargs) (choice : nat) : Async_Model.outcome :=
  match args with
  | [k] => if k <? 3 then Async_Model.Die else Async_Model.Ret (Async_Model.VEval k Async_Model.NoError)
  | _ => Async_Model.Exc 0
  end.
Lemma C128_progress_refuted_main :
  ~ (forall call scores n log defaults o out max_n pop_size start lists r uid calls,
     out < length lists -> start <> out -> 1 <= n -> n + 4 <= length (nth start lists []) -> 3 <= pop_size ->
     length (filter (fun k => match call 0 [k] defaults 0 with Async_Model.Die => true | _ => false end) (seq 0 100)) <= 3 ->
     (0 < max_n)%Z -> exists plan y,
     s_async_ea call scores n None log defaults o out false (Some max_n) pop_size start (before lists n r uid None plan calls) = (Ok out, y)).
Proof.
  intros H. destruct (H deadly ex_scores 1 true [] some_ops 0 8%Z 3 1 [[]; map some_ind (seq 0 10)] [] 50 []) as (plan & y & E); try (vm_compute; lia); try reflexivity; try discriminate.
  destruct (C128_stalls_main deadly ex_scores 1 true [] some_ops 0 (Some 8%Z) 3 1 [[]; map some_ind (seq 0 10)] [] 50 None plan [] (Ok 0) y [0; 1; 2]) as (_ & _ & K); auto.
  - clear. simpl; lia.
  - clear. repeat constructor; simpl; intuition discriminate.
  - clear. intros k Hk. simpl in *. lia.
  - clear. intros k c Hk. destruct Hk as [<-|[<-|[<-|[]]]]; reflexivity.
  - destruct (K 0 eq_refl) as (m & Em & Hm). injection Em as <-. vm_compute in Hm. apply Hm. reflexivity.
Qed.
Example C128_stalls_ex_main :
  let at1 p l := mkTurn l (fun _ => Some 1) (fun _ => Some 1) (fun q => if q <=? p then None else Some 1) true in
  let plan := map (fun _ => at_work []) (seq 0 6) ++ map (fun p => at1 p [get p; exec p]) [1; 2; 3] ++ map (fun _ => at1 3 [get 4; exec 4; flush 4]) (seq 0 8) in
  exists y, s_async_ea deadly ex_scores 1 None true [] some_ops 0 false None 3 1 (before [[]; map some_ind (seq 10 6)] 1 [] 50 None plan []) = (Err Diverges, y) /\
    map i_id (list_at 0 (y_w y)) = [13; 14; 15] /\ submissions (w_trace (y_w y)) = map some_ind (seq 10 6).
Proof. cbv zeta. eexists. split; [vm_compute; reflexivity|]. split; reflexivity. Qed.

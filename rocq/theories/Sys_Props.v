(** Property theorems; proofs in Sys_Main.v. *)
Require Import Permutation ZArith QArith.
From Verif Require Import Base Num Search_Model Search_Spec.
From Verif Require Async_Model Async_Spec.
From Verif Require Import Sys_Model Sys_Spec.
Open Scope nat_scope.
From Verif Require Import Sys_Main.

(** C127: the evolutionary search.  However the worker processes take turns, and whichever of
    them die, the search behaves like one in which the evaluations finish one after
    another ([async_ea], [Search_Model.v]), and its results are results of different submitted jobs. *)
Theorem C127_async_ea :
  forall call scores n log defaults o out restart max_n pop_size start lists r uid stop plan calls x y,
  s_async_ea call scores n None log defaults o out restart max_n pop_size start (before lists n r uid stop plan calls) = (x, y) ->
  exists events, length events <= length plan /\
    async_ea o out restart max_n pop_size start (start_world lists n events r uid stop) = (x, y_w y) /\
    from_workers call scores defaults (w_trace (y_w y)).
Proof. exact C127_async_ea_main. Qed.
Print Assumptions C127_async_ea.

(** C127: random search. *)
Theorem C127_random_search :
  forall call scores n log defaults o out max_n start lists r uid stop plan calls x y,
  s_random_search call scores n None log defaults o out max_n start (before lists n r uid stop plan calls) = (x, y) ->
  exists events, length events <= length plan /\
    random_search o out max_n start (start_world lists n events r uid stop) = (x, y_w y) /\
    from_workers call scores defaults (w_trace (y_w y)).
Proof. exact C127_random_search_main. Qed.
Print Assumptions C127_random_search.

(** C127: ASHA. *)
Theorem C127_asha :
  forall call scores n log defaults o eta min_res max_res first_rung max_rung start same max_full lists r uid stop plan calls x y,
  s_asha call scores n None log defaults o eta min_res max_res first_rung max_rung start same max_full (before lists n r uid stop plan calls) = (x, y) ->
  exists events, length events <= length plan /\
    asha o eta min_res max_res first_rung max_rung start same max_full (start_world lists n events r uid stop) = (x, y_w y) /\
    from_workers call scores defaults (w_trace (y_w y)).
Proof. exact C127_asha_main. Qed.
Print Assumptions C127_asha.

(** C127: what that gives, for the evolutionary search: when it returns, exactly max_n
    results were collected, of different jobs, and everyone in the population is one of them. *)
Theorem C127_population :
  forall call scores n log defaults o out restart max_n pop_size start lists r uid stop plan calls a y, out < length lists ->
  s_async_ea call scores n None log defaults o out restart max_n pop_size start (before lists n r uid stop plan calls) = (Ok a, y) ->
  a = out /\ max_n = Some (Z.of_nat (length (dones (w_trace (y_w y))))) /\ length (list_at out (y_w y)) <= pop_size /\
  exists ks, NoDup ks /\ Forall2 (result_of call scores defaults (w_trace (y_w y))) ks (dones (w_trace (y_w y))) /\
    forall i, In i (list_at out (y_w y)) -> exists r scores, In (i, r, Evaluated scores false) (dones (w_trace (y_w y))).
Proof. exact C127_population_main. Qed.
Print Assumptions C127_population.

Example C127_ex :
  exists y, s_async_ea ex_call ex_scores 2 None true [] some_ops 0 false (Some 5%Z) 3 1 (before [[]; map some_ind [10; 11; 12; 13; 14; 15; 16]] 2 [] 50 None ex_plan []) = (Ok 0, y) /\
    map (fun x => i_id (fst (fst x))) (dones (w_trace (y_w y))) = [10; 11; 13; 15; 14] /\ map i_id (list_at 0 (y_w y)) = [11; 13; 14] /\
    map (fun x => i_id (fst x)) (starts (w_trace (y_w y))) = [10; 11; 12; 13; 14; 15; 16; 50; 51].
Proof. exact C127_ex_main. Qed.

(** C128: as long as at most n+1 jobs are lost with their workers (and there were at least
    n+2 start candidates), the evolutionary search never waits in vain: whenever it waits there
    is a job that was submitted, whose result was not collected, and which is not lost. *)
Theorem C128_not_in_vain_partial :
  forall call scores n log defaults o out restart max_n pop_size start lists r uid stop plan calls x y, out < length lists -> start <> out ->
  s_async_ea call scores n None log defaults o out restart max_n pop_size start (before lists n r uid stop plan calls) = (x, y) ->
  exists ks, NoDup ks /\ Forall2 (result_of call scores defaults (w_trace (y_w y))) ks (dones (w_trace (y_w y))) /\
    forall t1 pop t2 lost, w_trace (y_w y) = t1 ++ TWait pop :: t2 -> length lost < Nat.min (length (nth start lists [])) (n + 2) ->
    exists k, k < length (starts t1) /\ ~ In k (firstn (length (dones t1)) ks) /\ ~ In k lost.
Proof. exact C128_not_in_vain_partial_main. Qed.
Print Assumptions C128_not_in_vain_partial.

(** C128: but when the evaluations of n+2 of the start candidates kill their workers, then, whatever
    the processes do, the search never makes a new individual: only start candidates are
    ever evaluated, and the search ends by itself only if that is enough. *)
Theorem C128_stalls :
  forall call scores n log defaults o out max_n pop_size start lists r uid stop plan calls x y dead, out < length lists -> start <> out ->
  NoDup dead -> (forall k, In k dead -> k < length (nth start lists [])) -> (forall k choice, In k dead -> call 0 [k] defaults choice = Async_Model.Die) ->
  n + 2 <= length dead ->
  s_async_ea call scores n None log defaults o out false max_n pop_size start (before lists n r uid stop plan calls) = (x, y) ->
  (exists l1 l2, nth start lists [] = l1 ++ l2 /\ submissions (w_trace (y_w y)) = l1) /\
  length (collected (w_trace (y_w y))) + length dead <= length (nth start lists []) /\
  (forall a, x = Ok a -> exists m, max_n = Some m /\ (m <= Z.of_nat (length (nth start lists []) - length dead))%Z).
Proof. exact C128_stalls_main. Qed.
Print Assumptions C128_stalls.

Theorem C128_progress_refuted :
  ~ (forall call scores n log defaults o out max_n pop_size start lists r uid calls,
     out < length lists -> start <> out -> 1 <= n -> n + 4 <= length (nth start lists []) -> 3 <= pop_size ->
     length (filter (fun k => match call 0 [k] defaults 0 with Async_Model.Die => true | _ => false end) (seq 0 100)) <= 3 ->
     (0 < max_n)%Z -> exists plan y,
     s_async_ea call scores n None log defaults o out false (Some max_n) pop_size start (before lists n r uid None plan calls) = (Ok out, y)).
Proof. exact C128_progress_refuted_main. Qed.
Print Assumptions C128_progress_refuted.

Example C128_stalls_ex :
  let at1 p l := mkTurn l (fun _ => Some 1) (fun _ => Some 1) (fun q => if q <=? p then None else Some 1) true in
  let plan := map (fun _ => at_work []) (seq 0 6) ++ map (fun p => at1 p [get p; exec p]) [1; 2; 3] ++ map (fun _ => at1 3 [get 4; exec 4; flush 4]) (seq 0 8) in
  exists y, s_async_ea deadly ex_scores 1 None true [] some_ops 0 false None 3 1 (before [[]; map some_ind (seq 10 6)] 1 [] 50 None plan []) = (Err Diverges, y) /\
    map i_id (list_at 0 (y_w y)) = [13; 14; 15] /\ submissions (w_trace (y_w y)) = map some_ind (seq 10 6).
Proof. exact C128_stalls_ex_main. Qed.

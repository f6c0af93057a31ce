(** Property theorems; proofs in Det_Main.v. *)
Require Import ZArith QArith.
From Verif Require Import Base Num Search_Model Search_Spec.
From Verif Require Async_Model.
From Verif Require Import Sys_Model Sys_Spec Det_Model Det_Spec.
Open Scope nat_scope.
From Verif Require Import Det_Main.

(** C143: the evolutionary search with one worker process: when fit is the first thing after
    the instance was made with this random_state, then, whatever happened before in the two processes, whatever
    the timing of the worker, and whenever the time limit arrives, one of the two searches
    continues the other: the same candidates, results and populations in the same order; and if neither
    is cut short they end in the same way. *)
Theorem C143_async_ea_partial :
  forall call scores defaults, steady call defaults ->
  forall seeded s g1 g2 h1 h2 log1 log2 o out restart max_n pop_size start lists uid stop1 stop2 plan1 plan2 calls x1 x2 y1 y2,
  undisturbed plan1 -> undisturbed plan2 ->
  s_async_ea call scores 1 None log1 defaults o out restart max_n pop_size start
    (before lists 1 (generator seeded g1 (h1 ++ [Construct (Some s)])) uid stop1 plan1 calls) = (x1, y1) ->
  s_async_ea call scores 1 None log2 defaults o out restart max_n pop_size start
    (before lists 1 (generator seeded g2 (h2 ++ [Construct (Some s)])) uid stop2 plan2 calls) = (x2, y2) ->
  comparable (w_trace (y_w y1)) (w_trace (y_w y2)) /\
  (~ cut_short [stop1; stop2] x1 -> ~ cut_short [stop1; stop2] x2 ->
   x1 = x2 /\ w_trace (y_w y1) = w_trace (y_w y2) /\ w_lists (y_w y1) = w_lists (y_w y2)).
Proof. exact C143_async_ea_partial_main. Qed.
Print Assumptions C143_async_ea_partial.

(** C143: the same for random search. *)
Theorem C143_random_search_partial :
  forall call scores defaults, steady call defaults ->
  forall seeded s g1 g2 h1 h2 log1 log2 o out max_n start lists uid stop1 stop2 plan1 plan2 calls x1 x2 y1 y2,
  undisturbed plan1 -> undisturbed plan2 ->
  s_random_search call scores 1 None log1 defaults o out max_n start
    (before lists 1 (generator seeded g1 (h1 ++ [Construct (Some s)])) uid stop1 plan1 calls) = (x1, y1) ->
  s_random_search call scores 1 None log2 defaults o out max_n start
    (before lists 1 (generator seeded g2 (h2 ++ [Construct (Some s)])) uid stop2 plan2 calls) = (x2, y2) ->
  comparable (w_trace (y_w y1)) (w_trace (y_w y2)) /\
  (~ cut_short [stop1; stop2] x1 -> ~ cut_short [stop1; stop2] x2 ->
   x1 = x2 /\ w_trace (y_w y1) = w_trace (y_w y2) /\ w_lists (y_w y1) = w_lists (y_w y2)).
Proof. exact C143_random_search_partial_main. Qed.
Print Assumptions C143_random_search_partial.

(** C143: and for ASHA, if whenever candidates have equal losses the same one is picked (here
    the random numbers decide; see C143_asha_refuted). *)
Theorem C143_asha_partial :
  forall call scores defaults, steady call defaults ->
  forall seeded s g1 g2 h1 h2 log1 log2 o eta min_res max_res first_rung max_rung start same max_full lists uid stop1 stop2 plan1 plan2 calls x1 x2 y1 y2,
  undisturbed plan1 -> undisturbed plan2 ->
  s_asha call scores 1 None log1 defaults o eta min_res max_res first_rung max_rung start same max_full
    (before lists 1 (generator seeded g1 (h1 ++ [Construct (Some s)])) uid stop1 plan1 calls) = (x1, y1) ->
  s_asha call scores 1 None log2 defaults o eta min_res max_res first_rung max_rung start same max_full
    (before lists 1 (generator seeded g2 (h2 ++ [Construct (Some s)])) uid stop2 plan2 calls) = (x2, y2) ->
  comparable (w_trace (y_w y1)) (w_trace (y_w y2)) /\
  (stop1 = None -> stop2 = None -> x1 <> Err Diverges -> x2 <> Err Diverges -> x1 = x2 /\ w_trace (y_w y1) = w_trace (y_w y2)).
Proof. exact C143_asha_partial_main. Qed.
Print Assumptions C143_asha_partial.

(** C143: it takes one worker: with two the order of the results depends on the timing. *)
Theorem C143_two_workers_refuted :
  ~ (forall call scores defaults, steady call defaults ->
     forall log o out restart max_n pop_size start lists r uid plan1 plan2 calls x1 x2 y1 y2, undisturbed plan1 -> undisturbed plan2 ->
     s_async_ea call scores 2 None log defaults o out restart max_n pop_size start (before lists 2 r uid None plan1 calls) = (x1, y1) ->
     s_async_ea call scores 2 None log defaults o out restart max_n pop_size start (before lists 2 r uid None plan2 calls) = (x2, y2) ->
     comparable (w_trace (y_w y1)) (w_trace (y_w y2))).
Proof. exact C143_two_workers_refuted_main. Qed.
Print Assumptions C143_two_workers_refuted.

(** C143: and fit has to be the first thing after the instance was made: the generator belongs to
    the process, so the second of two instances made with the same random_state, or the second fit of
    one instance, goes another way. *)
Theorem C143_seed_refuted :
  ~ (forall call scores defaults, steady call defaults ->
     forall seeded s h log o out restart max_n pop_size start lists uid plan calls x1 x2 y1 y2, undisturbed plan ->
     (forall a, In a h -> exists k, a = Draws k) ->
     s_async_ea call scores 1 None log defaults o out restart max_n pop_size start
       (before lists 1 (generator seeded [] [Construct (Some s)]) uid None plan calls) = (x1, y1) ->
     s_async_ea call scores 1 None log defaults o out restart max_n pop_size start
       (before lists 1 (generator seeded [] ([Construct (Some s)] ++ h)) uid None plan calls) = (x2, y2) ->
     comparable (w_trace (y_w y1)) (w_trace (y_w y2))).
Proof. exact C143_seed_refuted_main. Qed.
Print Assumptions C143_seed_refuted.

(** C143: ASHA is not reproducible in this way at all: among candidates with equal losses the
    promoted one is the first in the order of a set of objects whose hashes are new in every
    process.  Here nothing else is random. *)
Theorem C143_asha_refuted :
  ~ (forall call scores defaults, steady call defaults ->
     forall log o eta min_res max_res first_rung max_rung start same max_full lists r1 r2 uid plan calls x1 x2 y1 y2, undisturbed plan ->
     (forall r, o_individual o r = (Ok tt, r)) ->
     s_asha call scores 1 None log defaults o eta min_res max_res first_rung max_rung start same max_full (before lists 1 r1 uid None plan calls) = (x1, y1) ->
     s_asha call scores 1 None log defaults o eta min_res max_res first_rung max_rung start same max_full (before lists 1 r2 uid None plan calls) = (x2, y2) ->
     comparable (w_trace (y_w y1)) (w_trace (y_w y2))).
Proof. exact C143_asha_refuted_main. Qed.
Print Assumptions C143_asha_refuted.

(** C143: two runs with one worker, one faster than the other and one that meets its time limit early. *)
Example C143_ex :
  steady det_call [] /\ undisturbed (map working (repeat 1 14)) /\ undisturbed (map working ([2; 3] ++ repeat 1 14)) /\
  exists y1 y2,
  s_async_ea det_call det_scores 1 None true [] det_ops 0 false (Some 5%Z) 3 1
    (before det_lists 1 (generator det_seeded [4; 4] ([Draws 1; Construct None] ++ [Construct (Some 0)])) 50 None (map working (repeat 1 14)) []) = (Ok 0, y1) /\
  s_async_ea det_call det_scores 1 None false [] det_ops 0 false (Some 5%Z) 3 1
    (before det_lists 1 (generator det_seeded [] ([] ++ [Construct (Some 0)])) 50 (Some (20, TimeoutException)) (map working ([2; 3] ++ repeat 1 14)) []) = (Err TimeoutException, y2) /\
  map (fun x => i_id (fst (fst x))) (dones (w_trace (y_w y1))) = [10; 11; 12; 13; 14] /\
  map (fun x => i_id (fst (fst x))) (dones (w_trace (y_w y2))) = [10; 11; 12; 13].
Proof. exact C143_ex_main. Qed.

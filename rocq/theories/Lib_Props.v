(** Property theorems; proofs in Lib_Main.v. *)
From Verif Require Import Base Num Nsga_Model Lib_Model Lib_Spec.
Require Import Permutation Sorting.
Open Scope nat_scope.
From Verif Require Import Lib_Main.

(** C32. After any history of evaluations with distinct successful individuals, every saved evaluation is
    in the top or among the others, exactly once, unchanged; the top holds as many
    successful evaluations as fit, and none of the others is better. *)
Theorem C32_best_kept : forall l0 es r l out,
  empty_lib l0 -> Forall ordinary es -> distinct es -> saves l0 es r = (l, out) ->
  let S := saved out in
  Permutation (top l ++ l_other l) (seq 0 (length S)) /\
  (forall u, u < length S -> same_report (obj l u) (nth_ev S u)) /\
  length (top l) = (match l_m l0 with None => successes S | Some m => Nat.min m (successes S) end) /\
  (forall t, In t (top l) -> success (nth_ev S t)) /\
  (forall t u, In t (top l) -> In u (l_other l) -> success (nth_ev S u) ->
     ~ lex_lt (ev_score (nth_ev S t)) (ev_score (nth_ev S u))).
Proof. exact C32_best_kept_main. Qed.
Print Assumptions C32_best_kept.

(** C32, no exceptions: if all predictions have the same number of rows, and a
    given sample only names such rows, every call returns normally. *)
Theorem C32_no_exception : forall l0 es r l out k,
  empty_lib l0 -> Forall ordinary es -> distinct es -> rows_below k (l_sample l0) -> Forall (rows_of k) es ->
  saves l0 es r = (l, out) -> saved out = es /\ Forall (fun x => snd x = Ok tt) out.
Proof. exact C32_no_exception_main. Qed.
Print Assumptions C32_no_exception.

Example C32_ex : empty_lib ex_lib /\ Forall ordinary ex_es /\ distinct ex_es /\
  rows_below 4 (l_sample ex_lib) /\ Forall (rows_of 4) ex_es /\
  exists l out, saves ex_lib ex_es [0; 1] = (l, out) /\ top l = [3; 1] /\ l_other l = [2; 0].
Proof. exact C32_ex_main. Qed.

(** C33. n_best(n): when the pipelines are wanted (or n is within m), as many of the
    top as asked for, best first, and nothing better left out. *)
Theorem C33_n_best : forall l0 es r l out n with_pipelines,
  empty_lib l0 -> Forall ordinary es -> distinct es -> saves l0 es r = (l, out) ->
  (match l_m l0 with None => True | Some m => n <= m \/ with_pipelines = true end) ->
  let S := saved out in let best := n_best l n with_pipelines in
  NoDup best /\ length best = Nat.min n (length (top l)) /\ incl best (top l) /\
  StronglySorted (fun a b => ~ lex_lt (ev_score (nth_ev S a)) (ev_score (nth_ev S b))) best /\
  (forall a b, In a best -> b < length S -> ~ In b best -> success (nth_ev S b) ->
     ~ lex_lt (ev_score (nth_ev S a)) (ev_score (nth_ev S b))).
Proof. exact C33_n_best_main. Qed.
Print Assumptions C33_n_best.

(** C33, beyond the top: with n > m and without pipelines, all evaluations count,
    also failed ones. *)
Theorem C33_n_best_all : forall l0 es r l out n m,
  empty_lib l0 -> Forall ordinary es -> distinct es -> saves l0 es r = (l, out) -> l_m l0 = Some m -> m < n ->
  let S := saved out in let best := n_best l n false in
  NoDup best /\ length best = Nat.min n (length S) /\
  StronglySorted (fun a b => ~ lex_lt (ev_score (nth_ev S a)) (ev_score (nth_ev S b))) best /\
  (forall a b, In a best -> b < length S -> ~ In b best -> ~ lex_lt (ev_score (nth_ev S a)) (ev_score (nth_ev S b))).
Proof. exact C33_n_best_all_main. Qed.
Print Assumptions C33_n_best_all.

Example C33_ex : exists l out, saves ex_lib ex_es [0; 1] = (l, out) /\
  n_best l 2 true = [1; 3] /\ n_best l 1 true = [1] /\ n_best l 3 false = [2; 1; 3].
Proof. exact C33_ex_main. Qed.

(** C34. Every top evaluation can produce the estimators it was saved with and the
    sampled rows of its predictions; they are on disk, not in memory.  Every other
    evaluation holds neither.  There is one file per top evaluation and no other. *)
Theorem C34_top_readable : forall l0 es r l out,
  empty_lib l0 -> Forall ordinary es -> distinct es -> saves l0 es r = (l, out) ->
  let S := saved out in
  (forall t, In t (top l) ->
     get_estimators l t = Ok (ev_est (nth_ev S t)) /\
     get_predictions l t = Ok (kept (l_n l0) (l_sample l) (ev_pred (nth_ev S t))) /\
     ev_est (obj l t) = [] /\ ev_pred (obj l t) = None) /\
  (forall u, In u (l_other l) -> get_estimators l u = Ok [] /\ get_predictions l u = Ok None /\ ev_file (obj l u) = None) /\
  Permutation (map fst (l_disk l)) (map (fun t => ev_ind (nth_ev S t)) (top l)) /\ NoDup (map fst (l_disk l)).
Proof. exact C34_top_readable_main. Qed.
Print Assumptions C34_top_readable.

Example C34_ex : exists l out, saves ex_lib ex_es [0; 1] = (l, out) /\
  get_predictions l 1 = Ok (Some [2; 4]) /\ get_estimators l 1 = Ok [2] /\
  get_predictions l 0 = Ok None /\ get_estimators l 0 = Ok [] /\ map fst (l_disk l) = [4; 2].
Proof. exact C34_ex_main. Qed.

Theorem C35_repeated_refuted :
  Forall ordinary again /\
  (exists l out, saves (new_lib (Some 1) None None) (firstn 2 again) [] = (l, out) /\
    top l = [1] /\ get_predictions l 1 = Err FileNotFoundError /\ get_estimators l 1 = Err FileNotFoundError) /\
  (exists l out, saves (new_lib (Some 1) None None) again [] = (l, out) /\
    map snd out = [Ok tt; Ok tt; Err FileNotFoundError] /\ ~ In 1 (top l ++ l_other l)).
Proof. exact C35_repeated_refuted_main. Qed.
Print Assumptions C35_repeated_refuted.

(** C35, the part that holds: an individual may be evaluated again as long as at most
    one of its evaluations is successful (asha.py:139 marks the evaluations on its
    lower rungs with an error, so that only the last one can be). *)
Theorem C35_repeated_partial : forall l0 es r l out,
  empty_lib l0 -> Forall ordinary es ->
  (forall i j, i < length es -> j < length es -> i <> j -> ev_ind (nth_ev es i) = ev_ind (nth_ev es j) ->
     ~ (success (nth_ev es i) /\ success (nth_ev es j))) ->
  saves l0 es r = (l, out) ->
  forall t, In t (top l) ->
    get_estimators l t = Ok (ev_est (nth_ev (saved out) t)) /\
    get_predictions l t = Ok (kept (l_n l0) (l_sample l) (ev_pred (nth_ev (saved out) t))).
Proof. exact C35_repeated_partial_main. Qed.
Print Assumptions C35_repeated_partial.

(** Individual 1 first fails ("Not a full evaluation."), then is evaluated in full. *)
Example C35_ex : let es := [ex_ev 1 1 (Some "Not a full evaluation."%string); ex_ev 1 2 None] in
  (forall i j, i < length es -> j < length es -> i <> j -> ev_ind (nth_ev es i) = ev_ind (nth_ev es j) ->
     ~ (success (nth_ev es i) /\ success (nth_ev es j))) /\
  exists l out, saves ex_lib es [0; 1] = (l, out) /\ top l = [1] /\ get_predictions l 1 = Ok (Some [1; 3]).
Proof. exact C35_ex_main. Qed.

(** C36. The table maps the text of a pipeline to the last evaluation saved for it,
    and no other text; for any history, also with repeated individuals, NaN scores
    and failing calls. *)
Theorem C36_lookup : forall l0 es r l out key, empty_lib l0 -> saves l0 es r = (l, out) ->
  match find_key key (l_lookup l), last_with key (saved out) with
  | Some u, Some i => u < length (l_objs l) /\ same_report (obj l u) (nth_ev (saved out) i)
  | None, None => True
  | _, _ => False
  end.
Proof. exact C36_lookup_main. Qed.
Print Assumptions C36_lookup.

(** With distinct individuals, it is that very evaluation. *)
Theorem C36_lookup_position : forall l0 es r l out key,
  empty_lib l0 -> Forall ordinary es -> distinct es -> saves l0 es r = (l, out) ->
  find_key key (l_lookup l) = last_with key (saved out).
Proof. exact C36_lookup_position_main. Qed.
Print Assumptions C36_lookup_position.

(** [last_with] is what its name says. *)
Theorem C36_last : forall key S,
  match last_with key S with
  | None => forall e, In e S -> ev_key e <> key
  | Some i => i < length S /\ ev_key (nth_ev S i) = key /\ forall j, i < j -> j < length S -> ev_key (nth_ev S j) <> key
  end.
Proof. exact C36_last_main. Qed.
Print Assumptions C36_last.

Example C36_ex : exists l out, saves ex_lib ex_es [0; 1] = (l, out) /\
  find_key "pipeA" (l_lookup l) = Some 0 /\ find_key "pipeB" (l_lookup l) = Some 3 /\ find_key "pipeC" (l_lookup l) = None.
Proof. exact C36_ex_main. Qed.

Theorem C37_sample : forall (B : Type) (split : nat -> list B -> rng -> res (list nat) * rng) l n prediction_size stratify r l' x r',
  good_split split -> determine split l n prediction_size stratify r = (l', x, r') ->
  let wanted := match n with Some k => Some k | None => l_n l end in
  match prediction_size, stratify with
  | Some size, None =>
    x = Ok tt /\ match wanted with
                 | None => l_sample l' = KeepAll
                 | Some k => if k <? size then exists rows, l_sample l' = Rows rows /\ length rows = k /\ NoDup rows /\
                                                  forall i, In i rows -> i < size
                             else l_sample l' = KeepAll
                 end
  | None, Some labels =>
    match wanted with
    | None => x = Ok tt /\ l_sample l' = KeepAll
    | Some k => if k <? length labels then
                  (exists rows, x = Ok tt /\ l_sample l' = Rows rows /\ length rows = k /\ NoDup rows /\
                     forall i, In i rows -> i < length labels) \/
                  (exists e, x = Err e /\ fst (split k labels r) = Err e /\ l' = l)
                else x = Ok tt /\ l_sample l' = KeepAll
    end
  | _, _ => x = Err ValueError /\ l' = l
  end.
Proof. exact C37_sample_main. Qed.
Print Assumptions C37_sample.

(** Every set of rows of that size, in every order, can be the outcome. *)
Theorem C37_every_sample : forall l k size rows, k < size -> length rows = k -> NoDup rows ->
  (forall i, In i rows -> i < size) ->
  exists r r', determine (B := unit) (fun _ _ r => (Err ValueError, r)) l (Some k) (Some size) None r = (set_sample (Rows rows) l, Ok tt, r').
Proof. exact C37_every_sample_main. Qed.
Print Assumptions C37_every_sample.

Example C37_ex : fst (fst (determine (B := unit) (fun _ _ r => (Err ValueError, r)) ex_lib None (Some 5) None [3; 0]))
    = set_sample (Rows [3; 0]) ex_lib /\
  good_split (B := nat) (fun n labels r => (if n <? length labels then Ok (seq 0 n) else Err ValueError, r)).
Proof. exact C37_ex_main. Qed.

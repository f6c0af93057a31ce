(** Property theorems; proofs in Nsga_Main.v. *)
From Verif Require Import Base Num Nsga_Model Nsga_Spec.
Require Import Permutation.
Open Scope nat_scope.
From Verif Require Import Nsga_Main.

(** C27: the fronts contain everybody exactly once; nobody is beaten (in every
    metric) by someone of the same or a later front; everybody outside the first
    front is beaten by someone in the front just before. *)
Theorem C27_fronts :
  forall (A : Type) (metrics : list (A -> num)) (pop : list A), metrics <> [] ->
  exists ms fronts, fast_sort (metas metrics pop) = Ok (ms, fronts) /\
    Permutation (concat fronts) (seq 0 (length pop)) /\
    (forall k1 k2 i j, k1 <= k2 -> in_front fronts k1 i -> in_front fronts k2 j -> ~ beats metrics pop j i) /\
    (forall k i, in_front fronts (S k) i -> exists j, in_front fronts k j /\ beats metrics pop j i).
Proof. exact C27_fronts_main. Qed.
Print Assumptions C27_fronts.

(** the list of fronts ends with one empty front, no other front is empty *)
Theorem C27_one_empty_front :
  forall (A : Type) (metrics : list (A -> num)) (pop : list A) ms fronts, metrics <> [] ->
  fast_sort (metas metrics pop) = Ok (ms, fronts) ->
  exists body, fronts = body ++ [[]] /\ Forall (fun F => F <> []) body.
Proof. exact C27_one_empty_front_main. Qed.
Print Assumptions C27_one_empty_front.

Example C27_ex : exists ms, fast_sort (metas ex_metrics ex_pop) = Ok (ms, [[1; 2; 5]; [3]; [0]; [4]; []]).
Proof. exact C27_ex_main. Qed.

(** C28: exactly n different members, whole fronts before later ones; nobody is
    selected while someone beating them is not. *)
Theorem C28_selection :
  forall (A : Type) (metrics : list (A -> num)) (pop : list A) (n : nat), metrics <> [] -> 0 < n <= length pop ->
  exists ms0 fronts ms sel, fast_sort (metas metrics pop) = Ok (ms0, fronts) /\ nsga2 pop n metrics = Ok (ms, sel) /\
    length sel = n /\ NoDup sel /\ (forall i, In i sel -> i < length pop) /\
    (forall k1 k2 i j, k1 < k2 -> in_front fronts k1 i -> in_front fronts k2 j -> In j sel -> In i sel).
Proof. exact C28_selection_main. Qed.
Print Assumptions C28_selection.

Theorem C28_no_better_left_out :
  forall (A : Type) (metrics : list (A -> num)) (pop : list A) (n : nat) ms sel i j, metrics <> [] ->
  nsga2 pop n metrics = Ok (ms, sel) -> In j sel -> i < length pop -> ~ In i sel -> ~ beats metrics pop i j.
Proof. exact C28_no_better_left_out_main. Qed.
Print Assumptions C28_no_better_left_out.

(** of a front that is only partly selected the least crowded members are taken,
    where the distances are crowding distances within their front *)
Theorem C28_least_crowded :
  forall (A : Type) (metrics : list (A -> num)) (pop : list A) (n : nat) ms0 fronts ms sel k F, metrics <> [] ->
  (forall m i, m < length metrics -> i < length pop -> value metrics pop m i <> NaN) ->
  fast_sort (metas metrics pop) = Ok (ms0, fronts) -> nsga2 pop n metrics = Ok (ms, sel) ->
  nth_error fronts k = Some F -> (exists i, In i F /\ In i sel) ->
  crowding (length metrics) (value metrics pop) F (dist_of ms) /\
  forall i j, In i F -> In j F -> In i sel -> ~ In j sel -> ~ nlt (dist_of ms i) (dist_of ms j).
Proof. exact C28_least_crowded_main. Qed.
Print Assumptions C28_least_crowded.

Theorem C28_errors :
  forall (A : Type) (metrics : list (A -> num)) (pop : list A) (n : nat),
  n = 0 \/ length pop < n -> nsga2 pop n metrics = Err ValueError.
Proof. exact C28_errors_main. Qed.
Print Assumptions C28_errors.

Example C28_ex : exists ms, nsga2 ex_pop 2 ex_metrics = Ok (ms, [1; 2]).
Proof. exact C28_ex_main. Qed.

(** C29: n pairs of two different members. *)
Theorem C29_pairs :
  forall (A : Type) (metrics : list (A -> num)) (pop : list A) (n : nat) (r : rng), metrics <> [] -> 3 <= length pop ->
  exists ps r', nsga2_select pop n metrics r = (Ok ps, r') /\ length ps = n /\
    forall f g, In (f, g) ps -> f < length pop /\ g < length pop /\ f <> g.
Proof. exact C29_pairs_main. Qed.
Print Assumptions C29_pairs.

Theorem C29_too_few :
  forall (A : Type) (metrics : list (A -> num)) (pop : list A) (n : nat) (r : rng), length pop < 3 ->
  nsga2_select pop n metrics r = (Err ValueError, r).
Proof. exact C29_too_few_main. Qed.
Print Assumptions C29_too_few.

(** both parents won a tournament: some other member is not preferable to them *)
Theorem C29_tournament :
  forall (A : Type) (metrics : list (A -> num)) (pop : list A) (n : nat) (r : rng) ps r' ms sel f g, metrics <> [] ->
  nsga2_select pop n metrics r = (Ok ps, r') -> nsga2 pop (length pop) metrics = Ok (ms, sel) -> In (f, g) ps ->
  forall w, w = f \/ w = g -> exists loser, loser < length pop /\ loser <> w /\
    (rank_of ms w < rank_of ms loser \/ rank_of ms w = rank_of ms loser /\ ~ nlt (dist_of ms w) (dist_of ms loser)).
Proof. exact C29_tournament_main. Qed.
Print Assumptions C29_tournament.

Example C29_ex : exists r', nsga2_select ex_pop 2 ex_metrics [1; 2; 3; 0; 5; 4; 2; 2; 1] = (Ok [(3, 2); (3, 2)], r').
Proof. exact C29_ex_main. Qed.

(** C30: false: the first two fronts get the same rank. *)
Theorem C30_rank_refuted :
  exists (A : Type) (metrics : list (A -> num)) (pop : list A) ms fronts i j,
    metrics <> [] /\ fast_sort (metas metrics pop) = Ok (ms, fronts) /\
    in_front fronts 0 i /\ in_front fronts 1 j /\ beats metrics pop i j /\ rank_of ms i = rank_of ms j.
Proof. exact C30_rank_refuted_main. Qed.
Print Assumptions C30_rank_refuted.

(** From the second front on, ranks are strictly increasing, and the first front
    never has a larger rank. *)
Theorem C30_rank_partial :
  forall (A : Type) (metrics : list (A -> num)) (pop : list A) ms fronts, metrics <> [] ->
    fast_sort (metas metrics pop) = Ok (ms, fronts) ->
    (forall k i, in_front fronts (S k) i -> rank_of ms i = S k) /\ (forall i, in_front fronts 0 i -> rank_of ms i = 1).
Proof. exact C30_rank_partial_main. Qed.
Print Assumptions C30_rank_partial.

Example C30_ex : exists ms fronts, fast_sort (metas ex_metrics ex_pop) = Ok (ms, fronts) /\
  map (rank_of ms) [1; 3; 0; 4] = [1; 1; 2; 3].
Proof. exact C30_ex_main. Qed.

(** C31: crowding distances of a front [I] of (freshly made) individuals. *)
Theorem C31_crowding :
  forall (A : Type) (metrics : list (A -> num)) (pop : list A) (I : list nat),
    metrics <> [] -> I <> [] -> NoDup I -> (forall i, In i I -> i < length pop) ->
    (forall m i, m < length metrics -> In i I -> value metrics pop m i <> NaN) ->
    exists ms', crowd (metas metrics pop) I = Ok ms' /\
      crowding (length metrics) (value metrics pop) I (dist_of ms') /\
      (forall i, ~ In i I -> dist_of ms' i = Fin 0) /\ (forall i, rank_of ms' i = 0).
Proof. exact C31_crowding_main. Qed.
Print Assumptions C31_crowding.

(** the empty front is an IndexError *)
Theorem C31_empty : forall ms, crowd ms [] = Err IndexError.
Proof. exact C31_empty_main. Qed.
Print Assumptions C31_empty.

Example C31_ex :
  exists ms', crowd (metas ex_metrics ex_pop) [1; 2; 3; 5] = Ok ms' /\
    map (fun i => match dist_of ms' i with Fin q => Fin (Qred q) | d => d end) [1; 2; 3; 5] =
      [PInf; PInf; Fin (4 # 3); Fin (4 # 3)].
Proof. exact C31_ex_main. Qed.

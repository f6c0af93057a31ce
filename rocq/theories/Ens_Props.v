(** Property theorems; proofs in Ens_Main.v. *)
From Verif Require Import Base Num Nsga_Model Lib_Model Lib_Spec Lib_Main Ens_Model Ens_Spec.
Open Scope nat_scope.
From Verif Require Import Ens_Main.

(** C54. Building from a library with predictions and a metric that gives numbers:
    the total weight is the requested size (at least one), members come from the
    library, have positive weight, and occur once; with time left and readable
    estimators, every estimator of every member is used with its weight; with no
    time left nothing is fitted.
    [lib] is what the property model_library returns, built from [raw]. *)
Theorem C54_total_weight : forall raw tr smp score r c lib size left s x,
  fill tr smp raw [] = (lib, Ok tt) -> lib <> [] -> Forall (usable r c) lib -> scores r c score ->
  build_fit raw tr smp score size left new_ens = (s, x) ->
  total_weight (members s) = Z.to_nat (Z.max size 1) /\
  Forall (fun mw => In (fst mw) lib /\ 1 <= snd mw) (members s) /\
  NoDup (map (fun mw => m_id (fst mw)) (members s)) /\
  (nlt (Fin 0) left -> (forall m, In m lib -> exists es, m_est m = Ok es /\ es <> []) ->
     x = Ok tt /\ exists l, e_fit s = Some l /\ l <> [] /\
       forall e w, In (e, w) l <-> exists m es, In (m, w) (members s) /\ m_est m = Ok es /\ In e es) /\
  (nle left (Fin 0) -> x = Err ValueError /\ e_fit s = None).
Proof. exact C54_total_weight_main. Qed.
Print Assumptions C54_total_weight.

(** C54 for a library filled by the evaluations of a search ([EvaluationLibrary] of
    C32-C36): if something was evaluated successfully and predictions are kept, the
    200 best evaluations are the candidates, the ensemble has the requested size, and the
    estimators of its members' evaluations are the fitted models. *)
Theorem C54_history : forall l0 es rr l out (row : nat -> list Qc) tr k c score size left s x,
  empty_lib l0 -> Forall ordinary es -> distinct es -> saves l0 es rr = (l, out) ->
  l_n l0 <> Some 0 -> l_m l0 <> Some 0 -> 0 < successes (saved out) ->
  (forall e, In e (saved out) -> success e -> exists p, ev_pred e = Some p /\ length p = k) ->
  readable row tr (length (stored (l_sample l) k)) c -> scores (length (stored (l_sample l) k)) c score ->
  build_fit (candidates row l 200) tr None score size left new_ens = (s, x) ->
  total_weight (members s) = Z.to_nat (Z.max size 1) /\
  Forall (fun mw => 1 <= snd mw /\ exists t, In t (n_best l 200 true) /\
            m_id (fst mw) = ev_ind (nth_ev (saved out) t) /\ success (nth_ev (saved out) t)) (members s) /\
  NoDup (map (fun mw => m_id (fst mw)) (members s)) /\
  (nlt (Fin 0) left -> (forall e, In e (saved out) -> success e -> ev_est e <> []) ->
     x = Ok tt /\ exists fitted, e_fit s = Some fitted /\ fitted <> [] /\
       forall e w, In (e, w) fitted <-> exists m t, In (m, w) (members s) /\ In t (n_best l 200 true) /\
         m_id m = ev_ind (nth_ev (saved out) t) /\ In e (ev_est (nth_ev (saved out) t))) /\
  (nle left (Fin 0) -> x = Err ValueError /\ e_fit s = None).
Proof. exact C54_history_main. Qed.
Print Assumptions C54_history.

(** C54 needs a library: with none, the error is only logged, the ensemble stays
    unfitted, and predicting with it is a TypeError. *)
Theorem C54_empty_library : forall tr smp score size left X (call : nat -> X -> res mat) (q : X),
  let s := fst (build_fit [] tr smp score size left new_ens) in
  snd (build_fit [] tr smp score size left new_ens) = Err ZeroDivisionError /\ members s = [] /\
  predict_mean tr call q s = Err TypeError.
Proof. exact C54_empty_library_main. Qed.
Print Assumptions C54_empty_library.

(** C54: nothing is built or fitted for a number of models or a time that is not
    positive, nor fitted before models were chosen; the ensemble stays as it was. *)
Theorem C54_refused : forall raw tr smp score n timeout s,
  ((n <= 0)%Z -> build_initial raw tr smp score n s = (s, Err ValueError) /\ expand raw tr smp score n s = (s, Err ValueError)) /\
  (members s = [] -> fit timeout s = (s, Err RuntimeError)) /\
  (members s <> [] -> nle timeout (Fin 0) -> fit timeout s = (s, Err ValueError)).
Proof. exact C54_refused_main. Qed.
Print Assumptions C54_refused.

Example C54_ex : fill None None ex_raw [] = (ex_libm, Ok tt) /\ Forall (usable 2 1) ex_libm /\ scores 2 1 (sq_err [1; 0]%Qc) /\
  exists s, build_fit ex_raw None None (sq_err [1; 0]%Qc) 4 (Fin 1) new_ens = (s, Ok tt) /\
    shown s = [(7, 1); (9, 3)] /\ e_fit s = Some [(70, 1); (90, 3)].
Proof. exact C54_ex_main. Qed.

Example C54_history_ex : exists l out, saves ex_lib ex_es [0; 1] = (l, out) /\ 0 < successes (saved out) /\
  (forall e, In e (saved out) -> success e -> exists p, ev_pred e = Some p /\ length p = 4) /\ length (stored (l_sample l) 4) = 2 /\ readable ex_row None 2 1 /\
  exists s, build_fit (candidates ex_row l 200) None None (sq_err [qn 3; qn 4]) 3 (Fin 1) new_ens = (s, Ok tt) /\ total_weight (members s) = 3 /\
    e_fit s = Some [(2, 2); (4, 1)] /\ shown s = [(2, 2); (4, 1)].
Proof. exact C54_history_ex_main. Qed.

(** C55. Every addition by expand_ensemble is a greedy step: the recorded score is the
    score of the weighted mean of the new ensemble, and adding any other library
    model would not have scored higher. *)
Theorem C55_greedy : forall raw tr smp score r c lib n s s' x,
  fill tr smp raw [] = (lib, Ok tt) -> Forall (usable r c) lib -> scores r c score -> NoDup (map m_id lib) -> lib <> [] ->
  (e_lib s = [] \/ e_lib s = lib) -> (exists d, e_models s = Some d /\ NoDup (map fst d) /\ d <> [] /\
     forall k m w, In (k, (m, w)) d -> k = m_id m /\ In m lib /\ 1 <= w) ->
  (0 < n)%Z -> expand raw tr smp score n s = (s', x) ->
  x = Ok tt /\ greedy_run r c score lib (Z.to_nat n) (members s) (e_score s) (members s') (e_score s').
Proof. exact C55_greedy_main. Qed.
Print Assumptions C55_greedy.

(** The state after building the initial ensemble meets the hypotheses. *)
Theorem C55_initial : forall raw tr smp score r c lib n s x,
  fill tr smp raw [] = (lib, Ok tt) -> Forall (usable r c) lib -> scores r c score -> lib <> [] ->
  (0 < n)%Z -> build_initial raw tr smp score n new_ens = (s, x) ->
  x = Ok tt /\ (e_lib s = [] \/ e_lib s = lib) /\ total_weight (members s) = Nat.min (Z.to_nat n) (length lib) /\
  initial (Z.to_nat n) lib (members s) /\
  exists d, e_models s = Some d /\ NoDup (map fst d) /\ d <> [] /\ forall k m w, In (k, (m, w)) d -> k = m_id m /\ In m lib /\ 1 <= w.
Proof. exact C55_initial_main. Qed.
Print Assumptions C55_initial.

(** The whole construction: one unit for each of the ten best library models (for the
    best only, if at most ten are wanted), then greedy additions up to the size. *)
Theorem C55_whole : forall raw tr smp score r c lib size left s x,
  fill tr smp raw [] = (lib, Ok tt) -> Forall (usable r c) lib -> scores r c score -> NoDup (map m_id lib) -> lib <> [] ->
  build_fit raw tr smp score size left new_ens = (s, x) ->
  exists ms0, initial (if (size <=? 10)%Z then 1 else 10) lib ms0 /\
    greedy_run r c score lib (Z.to_nat (size - Z.of_nat (total_weight ms0))) ms0 NInf (members s) (e_score s).
Proof. exact C55_whole_main. Qed.
Print Assumptions C55_whole.

Example C55_ex : exists s1 s2 s3, build_initial ex_raw None None (sq_err [1; 0]%Qc) 1 new_ens = (s1, Ok tt) /\
  expand ex_raw None None (sq_err [1; 0]%Qc) 1 s1 = (s2, Ok tt) /\ expand ex_raw None None (sq_err [1; 0]%Qc) 2 s1 = (s3, Ok tt) /\
  shown s1 = [(7, 1)] /\ shown s2 = [(7, 1); (9, 1)] /\ shown s3 = [(7, 1); (9, 2)].
Proof. exact C55_ex_main. Qed.

(** C56. The prediction of a fitted ensemble is the weighted mean of its members'
    predictions, hence between the smallest and the largest of them. *)
Theorem C56_between : forall X (call : nat -> X -> res mat) q s l r c,
  e_fit s = Some l -> l <> [] -> Forall (fun ew => 1 <= snd ew) l ->
  (forall e w, In (e, w) l -> exists p, call e q = Ok p /\ shape r c p) ->
  exists m, predict_mean None call q s = Ok m /\ shape r c m /\
  (exists ps, Forall2 (fun ew pw => call (fst ew) q = Ok (fst pw) /\ snd ew = snd pw) l ps /\ is_mean r c ps m) /\
  forall i j lo hi, i < r -> j < c ->
    (forall e w p, In (e, w) l -> call e q = Ok p -> (lo <= at_ p i j)%Qc /\ (at_ p i j <= hi)%Qc) ->
    (lo <= at_ m i j)%Qc /\ (at_ m i j <= hi)%Qc.
Proof. exact C56_between_main. Qed.
Print Assumptions C56_between.

(** C56, classification: predict_proba gives distributions, whether the members'
    probabilities or their votes are averaged. *)
Theorem C56_distribution : forall X requires cats (proba : nat -> X -> res mat) label q s l r,
  e_fit s = Some l -> l <> [] -> Forall (fun ew => 1 <= snd ew) l -> NoDup cats ->
  (forall e w, In (e, w) l -> if requires : bool
     then exists p, proba e q = Ok p /\ shape r (length cats) p /\ Forall distribution p
     else exists ys, label e q = Ok ys /\ length ys = r /\ Forall (fun y => In y cats) ys) ->
  exists m, predict_proba requires cats proba label q s = Ok m /\ shape r (length cats) m /\ Forall distribution m.
Proof. exact C56_distribution_main. Qed.
Print Assumptions C56_distribution.

(** C56, classification: predict answers with a class of the largest averaged
    probability in the row, in the words of the label encoder if there is one. *)
Theorem C56_class : forall X requires cats (proba : nat -> X -> res mat) label q s r p names,
  predict_proba requires cats proba label q s = Ok p -> shape r (length cats) p -> cats <> [] ->
  exists ys, predict requires cats names proba label q s = Ok (match names with None => ys | Some f => map f ys end) /\
    length ys = r /\
    forall i, i < r -> exists j, j < length cats /\ nth i ys 0 = nth j cats 0 /\
      forall k, k < length cats -> (at_ p i k <= at_ p i j)%Qc.
Proof. exact C56_class_main. Qed.
Print Assumptions C56_class.

(** C56, tuned on labels: the predicted class of a row has the largest total weight
    of members voting for it. *)
Theorem C56_majority : forall X cats (proba : nat -> X -> res mat) label q s l r (lab : nat -> list nat) names,
  e_fit s = Some l -> l <> [] -> Forall (fun ew => 1 <= snd ew) l -> NoDup cats -> cats <> [] ->
  (forall e w, In (e, w) l -> label e q = Ok (lab e) /\ length (lab e) = r /\ Forall (fun y => In y cats) (lab e)) ->
  exists ys, predict false cats names proba label q s = Ok (match names with None => ys | Some f => map f ys end) /\
    length ys = r /\
    forall i, i < r -> In (nth i ys 0) cats /\ forall k, In k cats ->
      wsum (map snd (filter (fun ew => k =? nth i (lab (fst ew)) 0) l)) <=
      wsum (map snd (filter (fun ew => nth i ys 0 =? nth i (lab (fst ew)) 0) l)).
Proof. exact C56_majority_main. Qed.
Print Assumptions C56_majority.

(** C56: a member answering with a class that was not in the training labels makes
    the whole prediction fail with a ValueError, whatever its weight. *)
Theorem C56_unseen : forall X cats (proba : nat -> X -> res mat) label q s l names,
  e_fit s = Some l -> (forall e w, In (e, w) l -> exists ys, label e q = Ok ys) ->
  (exists e w ys y, In (e, w) l /\ label e q = Ok ys /\ In y ys /\ ~ In y cats) ->
  predict_proba false cats proba label q s = Err ValueError /\ predict false cats names proba label q s = Err ValueError.
Proof. exact C56_unseen_main. Qed.
Print Assumptions C56_unseen.

(** C56, pickling: __getstate__ empties the object's models, yet predictions stay the
    same for it and for the pickled copy; the ensemble cannot be extended any more. *)
Theorem C56_pickle : forall X (call : nat -> X -> res mat) q s raw tr smp score n,
  predict_mean tr call q (getstate s) = predict_mean tr call q s /\
  ((0 < n)%Z -> snd (expand raw tr smp score n (getstate s)) = Err AttributeError).
Proof. exact C56_pickle_main. Qed.
Print Assumptions C56_pickle.

Example C56_ex : predict false [5; 6] None ex_proba ex_label tt ex_fit = Ok [6; 6] /\
  predict true [5; 6] None ex_proba ex_label tt ex_fit = Ok [5; 6] /\
  predict_proba true [5; 6] ex_proba ex_label tt ex_fit =
    Ok [[Q2Qc (5 # 8); Q2Qc (3 # 8)]; [Q2Qc (1 # 8); Q2Qc (7 # 8)]].
Proof. exact C56_ex_main. Qed.

(** C57. For metrics on labels and for regression ([requires] false), or when nothing
    has to be sampled, and downsample_to is not 0: construction succeeds for all
    sizes, and targets and compared predictions are those of the same rows. *)
Theorem C57_aligned_partial : forall A (y : list A) dy lib_sample downsample_to requires r,
  lib_sample <> NotSet -> rows_below (length y) lib_sample -> downsample_to <> Some 0 ->
  (requires = true -> match downsample_to with None => True | Some k => length (stored lib_sample (length y)) <= k end) ->
  exists y' smp r' idx, init_classifier requires y lib_sample downsample_to r = (Ok (y', smp), r') /\
    y' = map (fun i => nth i y dy) idx /\
    length idx = (match downsample_to with None => length (stored lib_sample (length y))
                  | Some k => Nat.min k (length (stored lib_sample (length y))) end) /\
    forall B (p : list B) dp, length p = length y -> compared p lib_sample smp = Ok (map (fun i => nth i p dp) idx).
Proof. exact C57_aligned_partial_main. Qed.
Print Assumptions C57_aligned_partial.

Example C57_ex : exists r', init_classifier false [10; 11; 12; 13] (Rows [3; 1; 0]) (Some 2) [2; 0] = (Ok ([10; 13], Some [2; 0]), r') /\
  rows_below 4 (Rows [3; 1; 0]) /\ compared [20; 21; 22; 23] (Rows [3; 1; 0]) (Some [2; 0]) = Ok [20; 23].
Proof. exact C57_ex_main. Qed.

(** C57 fails when the metric needs probabilities and the library keeps more rows than
    downsample_to: the targets are sampled twice.  Whatever the data, unless all drawn
    rows happen to be among the first, construction is an IndexError; and when it
    succeeds, the targets need not belong to the compared predictions. *)
Theorem C57_downsample_refuted :
  (forall (y : list nat) k r rows r', k < length y -> rsample k (seq 0 (length y)) r = (Ok rows, r') ->
     Exists (fun i => k <= i) rows -> fst (init_classifier true y KeepAll (Some k) r) = Err IndexError) /\
  (exists (y y' : list nat) smp r y2, fst (init_classifier true y KeepAll (Some 2) r) = Ok (y', smp) /\
     compared y KeepAll smp = Ok y2 /\ y2 <> y').
Proof. exact C57_downsample_refuted_main. Qed.
Print Assumptions C57_downsample_refuted.

Example C57_downsample_refuted_ex : rsample 2 (seq 0 (length [10; 11; 12])) [2; 0] = (Ok [2; 0], []) /\ Exists (fun i => 2 <= i) [2; 0].
Proof. exact C57_downsample_refuted_ex_main. Qed.

(** C57 also fails for downsample_to = 0: an empty sample counts as no sample for the
    predictions but not for the targets. *)
Theorem C57_zero_refuted : forall (y : list nat) requires r, y <> [] ->
  fst (init_classifier requires y KeepAll (Some 0) r) = Ok ([], Some []) /\ compared y KeepAll (Some []) = Ok y.
Proof. exact C57_zero_refuted_main. Qed.
Print Assumptions C57_zero_refuted.

(** C134, refuted: [str] of any ensemble with members raises AttributeError, in
    particular of every ensemble built as in C54; afterwards pickling makes it
    claim to have no models, although it still predicts with them. *)
Theorem C134_str_refuted : forall raw tr smp score r c lib size left s x,
  fill tr smp raw [] = (lib, Ok tt) -> lib <> [] -> Forall (usable r c) lib -> scores r c score ->
  build_fit raw tr smp score size left new_ens = (s, x) ->
  members s <> [] /\ ens_str s = Err AttributeError /\ e_fit (getstate s) = e_fit s /\
  ens_str (getstate s) = Ok "Ensemble with no models."%string.
Proof. exact C134_str_refuted_main. Qed.
Print Assumptions C134_str_refuted.

(** C134, what holds: an ensemble without members says so. *)
Theorem C134_str_partial : forall s, members s = [] <-> ens_str s = Ok "Ensemble with no models."%string.
Proof. exact C134_str_partial_main. Qed.
Print Assumptions C134_str_partial.

Example C134_ex : exists s, build_fit ex_raw None None (sq_err [1; 0]%Qc) 4 (Fin 1) new_ens = (s, Ok tt) /\
  ens_str s = Err AttributeError /\ ens_str new_ens = Ok "Ensemble with no models."%string.
Proof. exact C134_ex_main. Qed.

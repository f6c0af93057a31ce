(** Property theorems; proofs in Hist_Main.v. *)
From Verif Require Import Base Num Lib_Model Lib_Spec Lib_Main Ens_Model Ens_Spec Ens_Main Hist_Model Hist_Spec.
Open Scope nat_scope.
From Verif Require Import Hist_Main.

(** C126, the part that holds: whatever was evaluated, every estimator of a fitted
    ensemble was trained successfully in some fit of the object. *)
Theorem C126_some_fit_partial : forall B (split : nat -> list B -> rng -> res (list nat) * rng) classifier m n fs
    row tr smp score size left s x l est w,
  build_fit (candidates row (fits split classifier (new_lib m n None) fs) 200) tr smp score size left new_ens = (s, x) ->
  e_fit s = Some l -> In (est, w) l -> exists f, In f fs /\ trained_in f est.
Proof. exact C126_some_fit_partial_main. Qed.
Print Assumptions C126_some_fit_partial.

(** C126, the first fit: only models of that fit. *)
Theorem C126_first_fit_partial : forall B (split : nat -> list B -> rng -> res (list nat) * rng) classifier m n f
    row tr smp score size left s x l est w,
  build_fit (candidates row (fits split classifier (new_lib m n None) [f]) 200) tr smp score size left new_ens = (s, x) ->
  e_fit s = Some l -> In (est, w) l -> trained_in f est.
Proof. exact C126_first_fit_partial_main. Qed.
Print Assumptions C126_first_fit_partial.

(** C126 is false for a later fit: if some pipeline of an earlier fit scored better
    than all pipelines of this one, the ensemble of this fit contains an estimator
    that was trained in an earlier fit, on the earlier data.  The fits had data of
    [k] rows, predictions are kept completely, and estimators are different
    objects. *)
Theorem C126_earlier_fit_refuted : forall B (split : nat -> list B -> rng -> res (list nat) * rng) classifier m n fs f g b k c
    row score size left,
  m <> Some 0 -> all_stored n k -> Forall (on_rows k) (fs ++ [f]) -> distinct (concat (map f_evs (fs ++ [f]))) ->
  In g fs -> In b (f_evs g) -> success b -> (forall e, In e (f_evs f) -> success e -> lex_lt (ev_score e) (ev_score b)) ->
  (forall h est, In h fs -> trained_in h est -> ~ trained_in f est) ->
  (forall v, length (row v) = c) -> scores k c score -> nlt (Fin 0) left ->
  exists s l est w,
    build_fit (candidates row (fits split classifier (new_lib m n None) (fs ++ [f])) 200) None None score size left new_ens = (s, Ok tt) /\
    e_fit s = Some l /\ In (est, w) l /\ ~ trained_in f est.
Proof. exact C126_earlier_fit_refuted_main. Qed.
Print Assumptions C126_earlier_fit_refuted.

(** Worse, if two of the fits had data with different numbers of rows, building the
    ensemble fails (it needs at least two models): nothing is fitted and predict
    raises TypeError.  Here all evaluations fit into the library. *)
Theorem C126_other_rows_refuted : forall B (split : nat -> list B -> rng -> res (list nat) * rng) classifier m n fs f1 f2 k1 k2 e1 e2
    row score size left X (call : nat -> X -> res mat) q,
  (forall f, In f fs -> exists k, on_rows k f /\ all_stored n k) -> distinct (concat (map f_evs fs)) ->
  length (concat (map f_evs fs)) <= 200 -> match m with None => True | Some m => length (concat (map f_evs fs)) <= m end ->
  In f1 fs -> In f2 fs -> on_rows k1 f1 -> on_rows k2 f2 -> 1 < k1 < k2 ->
  In e1 (f_evs f1) -> success e1 -> In e2 (f_evs f2) -> success e2 -> (2 <= size)%Z ->
  exists s e,
    build_fit (candidates row (fits split classifier (new_lib m n None) fs) 200) None None score size left new_ens = (s, Err e) /\
    e_fit s = None /\ predict_mean None call q s = Err TypeError.
Proof. exact C126_other_rows_refuted_main. Qed.
Print Assumptions C126_other_rows_refuted.

(** The model of the second fit uses only estimator 11, of the first. *)
Example C126_ex : on_rows 2 run1 /\ on_rows 2 run2 /\ on_rows 3 run3 /\ all_stored (Some 1000) 3 /\
  distinct (concat (map f_evs [run1; run2])) /\ (forall e, In e (f_evs run2) -> lex_lt (ev_score e) [Fin (9 # 10)]) /\
  exists s, build_fit (candidates ex_row (fits hist_split true (new_lib (Some 200) (Some 1000) None) [run1; run2]) 200)
      None None (sq_err [1; 0]%Qc) 3 (Fin 1) new_ens = (s, Ok tt) /\ e_fit s = Some [(11, 3)] /\
    trained_in run1 11 /\ ~ trained_in run2 11.
Proof. exact C126_ex_main. Qed.

(** With three rows in the second fit there is no model. *)
Example C126_rows_ex :
  exists s, build_fit (candidates ex_row (fits hist_split true (new_lib (Some 200) (Some 1000) None) [run1; run3]) 200)
      None None (sq_err [1; 0; 1]%Qc) 3 (Fin 1) new_ens = (s, Err ValueError) /\ e_fit s = None.
Proof. exact C126_rows_ex_main. Qed.

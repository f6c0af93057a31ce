(** Property theorems; proofs in Str_Main.v. *)
From Verif Require Import Base Gp_Model Gp_Spec Gp_Examples Str_Model Str_Spec.
Require Import Permutation.
Open Scope nat_scope.
From Verif Require Import Str_Main.

(** C19: parsing the text of a pipeline rebuilds it in new objects. *)
Theorem C19_round_trip :
  forall ps strict ind s ls ss,
    wf_heap (s_heap s) -> pipeline (s_heap s) ind ls ss ->
    pset_typed ps -> pset_readable ps -> pipeline_ok ps ss ->
    exists str ind' s' ls' ss',
      pipeline_str ind s = (Ok str, s) /\
      individual_from_string str ps strict s = (Ok ind', s') /\
      pipeline (s_heap s') ind' ls' ss' /\ same_pipeline ss ss' /\
      extends s s' /\ all_new (s_heap s) ls' /\ s_uid s <= i_id ind' < s_uid s'.
Proof. exact C19_round_trip_main. Qed.
Print Assumptions C19_round_trip.

(** C19 for the individuals of a search: whatever calls were made, reading back
    the text of an individual gives exactly its steps, and the same text. *)
Theorem C19_round_trip_in_search :
  forall ps max_length max_retry r calls i ind,
    pset_typed ps -> pset_readable ps -> pset_named ps -> 0 < max_retry ->
    let s := w_st (gp_run ps max_length max_retry (empty_world r) calls) in
    nth_error (w_pool (gp_run ps max_length max_retry (empty_world r) calls)) i = Some ind ->
    exists str ls ss ind' s' ls',
      pipeline (s_heap s) ind ls ss /\
      pipeline_str ind s = (Ok str, s) /\
      individual_from_string str ps true s = (Ok ind', s') /\
      pipeline (s_heap s') ind' ls' ss /\ pipeline_str ind' s' = (Ok str, s').
Proof. exact C19_round_trip_in_search_main. Qed.
Print Assumptions C19_round_trip_in_search.

Example C19_ex :
  pset_typed ex_ps /\ pset_readable ex_ps /\ pset_named ex_ps /\ pipeline_ok ex_ps ex_long /\
  text ex_long = "BNB(Bin(PCA(Bin(data, Bin.threshold=0.6)), Bin.threshold=0.5), alpha=0.1, BNB.fit_prior=True)"%string /\
  fst (individual_from_string (text ex_long) ex_ps true (ex_state [])) = Ok (mkInd 9 2 [] ""%string).
Proof. exact C19_ex_main. Qed.

(** C17, C19: pipelines with the same text are the same pipeline, so comparing
    texts is a faithful test for "already evaluated". *)
Theorem C17_same_text_same_pipeline :
  forall ps ss1 ss2,
    pset_typed ps -> pset_readable ps -> pipeline_ok ps ss1 -> pipeline_ok ps ss2 ->
    Forall in_order ss1 -> Forall in_order ss2 -> text ss1 = text ss2 -> ss1 = ss2.
Proof. exact C17_same_text_same_pipeline_main. Qed.
Print Assumptions C17_same_text_same_pipeline.

(** C20: a text in which some step lacks a declared hyperparameter is rejected in
    strict mode, and otherwise accepted with the hyperparameters present. *)
Theorem C20_strict :
  forall ps ss s,
    wf_heap (s_heap s) -> ss <> [] -> Forall (step_readable ps) ss ->
    ((exists ind s', individual_from_string (text ss) ps true s = (Ok ind, s')) <-> Forall complete ss) /\
    (~ Forall complete ss ->
     exists s', individual_from_string (text ss) ps true s = (Err ValueError, s') /\ extends s s').
Proof. exact C20_strict_main. Qed.
Print Assumptions C20_strict.

Theorem C20_not_strict :
  forall ps ss s,
    wf_heap (s_heap s) -> ss <> [] -> Forall (step_readable ps) ss ->
    exists ind s' ls ss', individual_from_string (text ss) ps false s = (Ok ind, s') /\
      pipeline (s_heap s') ind ls ss' /\ same_pipeline ss ss' /\ extends s s'.
Proof. exact C20_not_strict_main. Qed.
Print Assumptions C20_not_strict.

Example C20_ex :
  Forall (step_readable ex_ps) ex_incomplete /\ ~ Forall complete ex_incomplete /\
  fst (individual_from_string (text ex_incomplete) ex_ps true (ex_state [])) = Err ValueError.
Proof. exact C20_ex_main. Qed.

Theorem C21_round_trip_all_values_refuted :
  exists ps ss s, pset_typed ps /\ pset_inhabited ps /\ pipeline_ok ps ss /\ Forall in_order ss /\
    fst (individual_from_string (text ss) ps true s) = Err IndexError.
Proof. exact C21_round_trip_all_values_refuted_main. Qed.
Print Assumptions C21_round_trip_all_values_refuted.

Theorem C21_other_pipeline_refuted :
  exists ps ss s ind s' ls other, pset_typed ps /\ pipeline_ok ps ss /\
    individual_from_string (text ss) ps true s = (Ok ind, s') /\
    pipeline (s_heap s') ind ls other /\ ~ same_pipeline ss other.
Proof. exact C21_other_pipeline_refuted_main. Qed.
Print Assumptions C21_other_pipeline_refuted.

(** What does hold in every search space: only the entries the pipeline itself
    uses need to be recognisable. *)
Theorem C21_round_trip_partial :
  forall ps strict ind s ls ss,
    wf_heap (s_heap s) -> pipeline (s_heap s) ind ls ss ->
    pset_typed ps -> pipeline_ok ps ss -> Forall (step_readable ps) ss ->
    exists ind' s' ls' ss',
      individual_from_string (text ss) ps strict s = (Ok ind', s') /\
      pipeline (s_heap s') ind' ls' ss' /\ same_pipeline ss ss' /\ extends s s'.
Proof. exact C21_round_trip_partial_main. Qed.
Print Assumptions C21_round_trip_partial.

Example C21_ex : Forall (step_readable ex_ps) ex_long.
Proof. exact C21_ex_main. Qed.

(** C135.  A text written for another search space [other] (in which it can be
    read) is refused by a search space that lacks one of its algorithms or one of
    its hyperparameter values, wherever in the pipeline it stands. *)
Theorem C135_refused :
  forall other ps strict ss s,
    wf_heap (s_heap s) -> Forall (step_readable other) ss ->
    Exists (fun x =>
      (forall q, In q (prims_of ps DATA) \/ In q (prims_of ps PREDICTION) -> p_name q <> p_name (fst x)) \/
      Exists (fun t => forall u, In u (terms_of ps (t_ident t)) -> term_text u <> term_text t) (snd x)) ss ->
    exists e s', individual_from_string (text ss) ps strict s = (Err e, s') /\ extends s s' /\
      (e = IndexError \/ e = RuntimeError \/ (strict = true /\ e = ValueError)).
Proof. exact C135_refused_main. Qed.
Print Assumptions C135_refused.

(** Steps are read from the data end.  The first one that cannot be read decides
    the exception: an unknown algorithm is an IndexError ... *)
Theorem C135_algorithm :
  forall other ps strict outer p ts inner s,
    wf_heap (s_heap s) -> Forall (step_readable other) (outer ++ (p, ts) :: inner) ->
    Forall (step_readable ps) inner -> strict = false \/ Forall complete inner ->
    (forall q, In q (prims_of ps DATA) \/ In q (prims_of ps PREDICTION) -> p_name q <> p_name p) ->
    exists s', individual_from_string (text (outer ++ (p, ts) :: inner)) ps strict s = (Err IndexError, s') /\
      extends s s'.
Proof. exact C135_algorithm_main. Qed.
Print Assumptions C135_algorithm.

(** ... and an unknown value of a known algorithm is a RuntimeError. *)
Theorem C135_value :
  forall other ps strict outer p ts inner s,
    wf_heap (s_heap s) -> Forall (step_readable other) (outer ++ (p, ts) :: inner) ->
    Forall (step_readable ps) inner -> strict = false \/ Forall complete inner ->
    (exists q, (In q (prims_of ps DATA) \/ In q (prims_of ps PREDICTION)) /\ p_name q = p_name p) ->
    Exists (fun t => forall u, In u (terms_of ps (t_ident t)) -> term_text u <> term_text t) ts ->
    exists s', individual_from_string (text (outer ++ (p, ts) :: inner)) ps strict s = (Err RuntimeError, s') /\
      extends s s'.
Proof. exact C135_value_main. Qed.
Print Assumptions C135_value.

(** A text that never mentions the data is a ValueError, and nothing is made. *)
Theorem C135_no_data :
  forall ps strict str s, ~ contains "data" str ->
    individual_from_string str ps strict s = (Err ValueError, s).
Proof. exact C135_no_data_main. Qed.
Print Assumptions C135_no_data.

Example C135_ex :
  Forall (step_readable ex_ps) ex_incomplete /\
  fst (individual_from_string (text ex_incomplete) ex_smaller_values false (ex_state [])) = Err RuntimeError /\
  fst (individual_from_string (text ex_incomplete) ex_smaller_algorithms false (ex_state [])) = Err IndexError /\
  fst (individual_from_string (text ex_incomplete) ex_ps true (ex_state [])) = Err ValueError /\
  fst (individual_from_string "BNB(input)" ex_ps true (ex_state [])) = Err ValueError.
Proof. exact C135_ex_main. Qed.

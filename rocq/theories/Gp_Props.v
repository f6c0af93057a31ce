(** Property theorems; proofs in Gp_Main.v. *)
From Verif Require Import Base Gp_Model Gp_Spec Gp_Examples.
Require Import Permutation.
Open Scope nat_scope.
From Verif Require Import Gp_Main.

(** C01: every pipeline obtained by any sequence of calls of the operators,
    from nothing, with any random numbers, lies in the search space. *)
Theorem C01_generated_pipelines_in_search_space :
  forall ps max_length max_retry r calls ind,
    pset_typed ps -> 0 < max_retry ->
    In ind (w_pool (gp_run ps max_length max_retry (empty_world r) calls)) ->
    exists ls ss,
      pipeline (s_heap (w_st (gp_run ps max_length max_retry (empty_world r) calls))) ind ls ss
      /\ pipeline_ok ps ss.
Proof. exact C01_generated_pipelines_in_search_space_main. Qed.
Print Assumptions C01_generated_pipelines_in_search_space.

Example C01_generated_ex :
  pset_typed ex_ps /\
  length (w_pool (gp_run ex_ps (Some 4%Z) 5 (empty_world [2; 0; 1; 0; 1; 0; 3; 1; 0; 2; 1; 1; 0; 0; 1; 1; 1])
                    [CallIndividual; CallIndividual; CallMutate 0 []; CallMate 0 1 []; CallMutate 3 []])) = 5.
Proof. exact C01_generated_ex_main. Qed.

(** C01 for the in-place operators on their own. *)
Theorem C01_mutation_in_search_space :
  forall ps max_length ind s ls ss ind' m s',
    wf_heap (s_heap s) -> pipeline (s_heap s) ind ls ss -> pset_typed ps -> pipeline_ok ps ss ->
    random_valid_mutation ind ps max_length s = (Ok (ind', m), s') ->
    exists ls' ss', pipeline (s_heap s') ind' ls' ss' /\ pipeline_ok ps ss'.
Proof. exact C01_mutation_in_search_space_main. Qed.
Print Assumptions C01_mutation_in_search_space.

Example C01_mutation_ex :
  wf_heap (s_heap (ex_state [0; 0; 1])) /\ pipeline (s_heap (ex_state [0; 0; 1])) ex_ind1 [0; 1; 2; 3] ex_long
  /\ pset_typed ex_ps /\ pipeline_ok ex_ps ex_long /\
  exists m, fst (random_valid_mutation ex_ind1 ex_ps (Some 5%Z) (ex_state [0; 2; 1])) = Ok (ex_ind1, m).
Proof. exact C01_mutation_ex_main. Qed.

Theorem C01_crossover_in_search_space :
  forall ps max_length ind1 ind2 s ls1 ss1 ls2 ss2 c1 c2 s',
    wf_heap (s_heap s) -> pipeline (s_heap s) ind1 ls1 ss1 -> pipeline (s_heap s) ind2 ls2 ss2 ->
    disjoint ls1 ls2 -> pset_typed ps -> pipeline_ok ps ss1 -> pipeline_ok ps ss2 ->
    random_crossover ind1 ind2 max_length s = (Ok (c1, c2), s') ->
    exists l1 t1 l2 t2, pipeline (s_heap s') c1 l1 t1 /\ pipeline_ok ps t1 /\
                        pipeline (s_heap s') c2 l2 t2 /\ pipeline_ok ps t2 /\ disjoint l1 l2.
Proof. exact C01_crossover_in_search_space_main. Qed.
Print Assumptions C01_crossover_in_search_space.

Example C01_crossover_ex :
  disjoint [0; 1; 2; 3] [4; 5] /\ pipeline_ok ex_ps ex_short /\
  fst (random_crossover ex_ind1 ex_ind2 (Some 4%Z) (ex_state [1; 2; 0])) = Ok (ex_ind1, ex_ind2).
Proof. exact C01_crossover_ex_main. Qed.

(** C02: length bounds of random pipelines, and when creation fails. *)
Theorem C02_creation_length :
  forall ps min_length max_length s,
    wf_heap (s_heap s) -> (1 <= min_length)%Z ->
    ((max_length < min_length)%Z ->
       create_random_expression ps min_length max_length s = (Err ValueError, s)) /\
    (forall l s', create_random_expression ps min_length max_length s = (Ok l, s') ->
       exists ls ss, chain (s_heap s') (DRef l) ls ss /\ pipeline_ok ps ss /\
         (min_length <= Z.of_nat (length ss) <= max_length)%Z /\
         all_new (s_heap s) ls /\ same_except [] (s_heap s) (s_heap s')) /\
    (pset_inhabited ps -> prims_of ps PREDICTION <> [] ->
     (prims_of ps DATA <> [] \/ max_length = 1%Z) -> (min_length <= max_length)%Z ->
       exists l s', create_random_expression ps min_length max_length s = (Ok l, s')).
Proof. exact C02_creation_length_main. Qed.
Print Assumptions C02_creation_length.

Example C02_creation_ex :
  pset_inhabited ex_ps /\ prims_of ex_ps PREDICTION <> [] /\ prims_of ex_ps DATA <> [] /\
  exists l s', create_random_expression ex_ps 1 3 (ex_state [2; 0; 1; 1; 0; 1; 1]) = (Ok l, s').
Proof. exact C02_creation_ex_main. Qed.

(** C03: mutation leaves at most max_length steps; longer pipelines are cut to
    exactly max_length. *)
Theorem C03_mutation_max_length :
  forall ps m ind s ls ss ind' mu s',
    wf_heap (s_heap s) -> pipeline (s_heap s) ind ls ss -> pset_typed ps ->
    random_valid_mutation ind ps (Some m) s = (Ok (ind', mu), s') ->
    exists ls' ss', pipeline (s_heap s') ind' ls' ss' /\
      (Z.of_nat (length ss') <= m)%Z /\
      ((m < Z.of_nat (length ss))%Z ->
         Z.of_nat (length ss') = m /\ ss' = firstn (length ss') ss).
Proof. exact C03_mutation_max_length_main. Qed.
Print Assumptions C03_mutation_max_length.

Example C03_mutation_ex :
  exists m s', random_valid_mutation ex_ind1 ex_ps (Some 2%Z) (ex_state []) = (Ok (ex_ind1, m), s').
Proof. exact C03_mutation_ex_main. Qed.

Theorem C04_mate_max_length_refuted :
  exists s ind1 ls1 ss1 ind2 ls2 ss2 ind' s' ls' ss',
    wf_heap (s_heap s) /\ pipeline (s_heap s) ind1 ls1 ss1 /\ pipeline (s_heap s) ind2 ls2 ss2 /\
    pipeline_ok ex_ps ss1 /\ pipeline_ok ex_ps ss2 /\
    length ss1 <= 4 /\ length ss2 <= 4 /\
    op_mate 50 [] (Some 4%Z) ind1 ind2 s = (Ok ind', s') /\
    pipeline (s_heap s') ind' ls' ss' /\ ~ (length ss' <= 4).
Proof. exact C04_mate_max_length_refuted_main. Qed.
Print Assumptions C04_mate_max_length_refuted.

(** What does hold: as many steps as the first parent or, if preprocessing tails were
    exchanged, at most two less than both parents together; so at most 2m - 2 (or m). *)
Theorem C04_mate_length_partial :
  forall max_retry done m ind1 ind2 s ls1 ss1 ls2 ss2 ind' s',
    wf_heap (s_heap s) -> pipeline (s_heap s) ind1 ls1 ss1 -> pipeline (s_heap s) ind2 ls2 ss2 ->
    0 < max_retry ->
    op_mate max_retry done (Some m) ind1 ind2 s = (Ok ind', s') ->
    exists ls' ss', pipeline (s_heap s') ind' ls' ss' /\
      (1 <= Z.of_nat (length ss') <= Z.max m (2 * m - 2))%Z /\
      (length ss' = length ss1 \/ 2 <= length ss1 /\ 2 <= length ss2 /\ 2 <= length ss' <= length ss1 + length ss2 - 2).
Proof. exact C04_mate_length_partial_main. Qed.
Print Assumptions C04_mate_length_partial.

Example C04_mate_partial_ex :
  exists ind' s', op_mate 50 [] (Some 4%Z) ex_ind1 ex_ind2 (ex_state [1; 2; 0]) = (Ok ind', s').
Proof. exact C04_mate_partial_ex_main. Qed.

(** C05: the first individual random_crossover returns respects the limit; over-long
    inputs are rejected and nothing is modified. *)
Theorem C05_crossover_first_result :
  forall m ind1 ind2 s ls1 ss1 ls2 ss2,
    wf_heap (s_heap s) -> pipeline (s_heap s) ind1 ls1 ss1 -> pipeline (s_heap s) ind2 ls2 ss2 ->
    disjoint ls1 ls2 ->
    (forall c1 c2 s', random_crossover ind1 ind2 (Some m) s = (Ok (c1, c2), s') ->
       (Z.of_nat (length ss1) <= m)%Z /\ (Z.of_nat (length ss2) <= m)%Z /\
       exists l1 t1 l2 t2, pipeline (s_heap s') c1 l1 t1 /\ pipeline (s_heap s') c2 l2 t2 /\
         (Z.of_nat (length t1) <= m)%Z /\
         ((c1, c2) = (ind1, ind2) \/ (c1, c2) = (ind2, ind1)) /\
         length t1 + length t2 = length ss1 + length ss2) /\
    ((m < Z.of_nat (length ss1))%Z \/ (m < Z.of_nat (length ss2))%Z ->
       random_crossover ind1 ind2 (Some m) s = (Err ValueError, s)).
Proof. exact C05_crossover_first_result_main. Qed.
Print Assumptions C05_crossover_first_result.

Example C05_crossover_ex :
  exists s', random_crossover ex_ind1 ex_ind2 (Some 4%Z) (ex_state [1; 0; 0]) = (Ok (ex_ind1, ex_ind2), s').
Proof. exact C05_crossover_ex_main. Qed.

(** C06: mutate and mate change no existing object (even when they fail) and
    return an individual made of new objects only, with a new id. *)
Theorem C06_mutate_leaves_parents :
  forall max_retry done ps max_length ind s ls ss r s',
    wf_heap (s_heap s) -> pipeline (s_heap s) ind ls ss -> pset_typed ps -> 0 < max_retry ->
    op_mutate max_retry done ps max_length ind s = (r, s') ->
    extends s s' /\
    (forall ind', r = Ok ind' ->
       s_uid s <= i_id ind' < s_uid s' /\ i_parents ind' = [i_id ind] /\
       exists ls' ss', pipeline (s_heap s') ind' ls' ss' /\ all_new (s_heap s) ls').
Proof. exact C06_mutate_leaves_parents_main. Qed.
Print Assumptions C06_mutate_leaves_parents.

Theorem C06_mate_leaves_parents :
  forall max_retry done max_length ind1 ind2 s ls1 ss1 ls2 ss2 r s',
    wf_heap (s_heap s) -> pipeline (s_heap s) ind1 ls1 ss1 -> pipeline (s_heap s) ind2 ls2 ss2 ->
    0 < max_retry ->
    op_mate max_retry done max_length ind1 ind2 s = (r, s') ->
    extends s s' /\
    (forall ind', r = Ok ind' ->
       s_uid s <= i_id ind' < s_uid s' /\ i_parents ind' = [i_id ind1; i_id ind2] /\
       exists ls' ss', pipeline (s_heap s') ind' ls' ss' /\ all_new (s_heap s) ls').
Proof. exact C06_mate_leaves_parents_main. Qed.
Print Assumptions C06_mate_leaves_parents.

(** C06 over whole histories: once created, an individual keeps its position,
    its nodes and its steps whatever calls follow; two individuals never share
    a node and never have the same id. *)
Theorem C06_individuals_never_change :
  forall ps max_length max_retry r calls1 calls2 i ind,
    pset_typed ps -> 0 < max_retry ->
    let w1 := gp_run ps max_length max_retry (empty_world r) calls1 in
    let w2 := gp_run ps max_length max_retry w1 calls2 in
    nth_error (w_pool w1) i = Some ind ->
    nth_error (w_pool w2) i = Some ind /\
    exists ls ss, pipeline (s_heap (w_st w1)) ind ls ss /\ pipeline (s_heap (w_st w2)) ind ls ss /\
      (forall j ind2 ls2 ss2, j <> i -> nth_error (w_pool w2) j = Some ind2 ->
         pipeline (s_heap (w_st w2)) ind2 ls2 ss2 ->
         disjoint ls ls2 /\ i_id ind <> i_id ind2).
Proof. exact C06_individuals_never_change_main. Qed.
Print Assumptions C06_individuals_never_change.

Example C06_ex :
  nth_error (w_pool (gp_run ex_ps (Some 4%Z) 5 (empty_world [2; 0; 1; 0; 1; 0; 3; 1; 0; 2; 1; 1; 0; 0; 1; 1; 1])
                    [CallIndividual; CallIndividual; CallMutate 0 []])) 2
  = Some (mkInd 8 2 [0] "mut_replace_primitive"%string).
Proof. exact C06_ex_main. Qed.

(** C07: shrinking. *)
Theorem C07_shrink_by :
  forall ind s ls ss k,
    wf_heap (s_heap s) -> pipeline (s_heap s) ind ls ss ->
    ((Z.of_nat (length ss) <= k)%Z -> mut_shrink ind (Some k) s = (Err ValueError, s)) /\
    ((0 <= k < Z.of_nat (length ss))%Z ->
       exists s' ls', mut_shrink ind (Some k) s = (Ok ind, s') /\
         pipeline (s_heap s') ind ls' (firstn (length ss - Z.to_nat k) ss) /\
         same_except ls (s_heap s) (s_heap s')).
Proof. exact C07_shrink_by_main. Qed.
Print Assumptions C07_shrink_by.

Theorem C07_shrink_random :
  forall ind s ls ss,
    wf_heap (s_heap s) -> pipeline (s_heap s) ind ls ss ->
    (length ss = 1 -> mut_shrink ind None s = (Err ValueError, s)) /\
    (2 <= length ss ->
       exists s' ls' n, mut_shrink ind None s = (Ok ind, s') /\ 1 <= n < length ss /\
         pipeline (s_heap s') ind ls' (firstn n ss) /\ same_except ls (s_heap s) (s_heap s')).
Proof. exact C07_shrink_random_main. Qed.
Print Assumptions C07_shrink_random.

Example C07_ex : exists s', mut_shrink ex_ind1 (Some 3%Z) (ex_state []) = (Ok ex_ind1, s').
Proof. exact C07_ex_main. Qed.

(** C08: insertion. *)
Theorem C08_insert :
  forall ps ind s ls ss,
    wf_heap (s_heap s) -> pipeline (s_heap s) ind ls ss ->
    pset_inhabited ps -> prims_of ps DATA <> [] ->
    exists s' ls' predictor above new below,
      mut_insert ind ps s = (Ok ind, s') /\
      ss = predictor :: above ++ below /\
      pipeline (s_heap s') ind ls' (predictor :: above ++ new :: below) /\
      step_ok ps DATA new /\
      same_except ls (s_heap s) (s_heap s').
Proof. exact C08_insert_main. Qed.
Print Assumptions C08_insert.

Example C08_ex : exists s', mut_insert ex_ind1 ex_ps (ex_state [2; 0; 1]) = (Ok ex_ind1, s').
Proof. exact C08_ex_main. Qed.

(** C09: terminal mutation. *)
Theorem C09_replace_terminal :
  forall ps ind s ls ss,
    wf_heap (s_heap s) -> pipeline (s_heap s) ind ls ss -> pset_typed ps -> pset_rich ps ->
    pipeline_ok ps ss ->
    (tunable ps ss = 0 /\ mut_replace_terminal ind ps s = (Err ValueError, s)) \/
    (0 < tunable ps ss /\
     exists s' ss', mut_replace_terminal ind ps s = (Ok ind, s') /\
       pipeline (s_heap s') ind ls ss' /\ terminal_replaced ps ss ss' /\
       same_except ls (s_heap s) (s_heap s')).
Proof. exact C09_replace_terminal_main. Qed.
Print Assumptions C09_replace_terminal.

Example C09_ex :
  wf_heap (s_heap (ex_state [1; 0])) /\ pipeline (s_heap (ex_state [1; 0])) ex_ind1 [0; 1; 2; 3] ex_long /\
  pset_typed ex_ps /\ pset_rich ex_ps /\ pipeline_ok ex_ps ex_long /\ tunable ex_ps ex_long = 4 /\
  exists s', mut_replace_terminal ex_ind1 ex_ps (ex_state [1; 0]) = (Ok ex_ind1, s').
Proof. exact C09_ex_main. Qed.

(** C10: primitive mutation.  ValueError iff no step has an alternative. *)
Theorem C10_replace_primitive :
  forall ps ind s ls ss,
    wf_heap (s_heap s) -> pipeline (s_heap s) ind ls ss -> pset_typed ps -> pset_rich ps ->
    pipeline_ok ps ss ->
    ((forall st, In st ss -> length (prims_of ps (p_output (fst st))) <= 1) /\
     mut_replace_primitive ind ps s = (Err ValueError, s)) \/
    ((exists st, In st ss /\ 1 < length (prims_of ps (p_output (fst st)))) /\
     exists ind' s' ls' ss', mut_replace_primitive ind ps s = (Ok ind', s') /\
       pipeline (s_heap s') ind' ls' ss' /\ i_id ind' = i_id ind /\
       primitive_replaced ps ss ss' /\ (Forall in_order ss -> Forall in_order ss') /\
       same_except ls (s_heap s) (s_heap s')).
Proof. exact C10_replace_primitive_main. Qed.
Print Assumptions C10_replace_primitive.

Example C10_ex :
  exists ind' s', mut_replace_primitive ex_ind1 ex_ps (ex_state [1; 0; 0; 1]) = (Ok ind', s').
Proof. exact C10_ex_main. Qed.

(** C11: terminal crossover. *)
Theorem C11_crossover_terminals :
  forall ind1 ind2 s ls1 ss1 ls2 ss2,
    wf_heap (s_heap s) -> pipeline (s_heap s) ind1 ls1 ss1 -> pipeline (s_heap s) ind2 ls2 ss2 ->
    disjoint ls1 ls2 -> share_different_value ss1 ss2 ->
    exists s' ss1' ss2',
      crossover_terminals ind1 ind2 s = (Ok (ind1, ind2), s') /\
      pipeline (s_heap s') ind1 ls1 ss1' /\ pipeline (s_heap s') ind2 ls2 ss2' /\
      terminals_swapped ss1 ss2 ss1' ss2' /\
      same_except (ls1 ++ ls2) (s_heap s) (s_heap s').
Proof. exact C11_crossover_terminals_main. Qed.
Print Assumptions C11_crossover_terminals.

Example C11_ex :
  share_different_value ex_long ex_short /\
  exists s', crossover_terminals ex_ind1 ex_ind2 (ex_state [0]) = (Ok (ex_ind1, ex_ind2), s').
Proof. exact C11_ex_main. Qed.

(** C12: primitive crossover. *)
Theorem C12_crossover_primitives :
  forall ind1 ind2 s ls1 ss1 ls2 ss2,
    wf_heap (s_heap s) -> pipeline (s_heap s) ind1 ls1 ss1 -> pipeline (s_heap s) ind2 ls2 ss2 ->
    disjoint ls1 ls2 ->
    (2 <= length ss1 /\ 2 <= length ss2 ->
     exists s' ls1' ss1' ls2' ss2',
       crossover_primitives ind1 ind2 s = (Ok (ind1, ind2), s') /\
       pipeline (s_heap s') ind1 ls1' ss1' /\ pipeline (s_heap s') ind2 ls2' ss2' /\
       tails_swapped ss1 ss2 ss1' ss2' /\
       length ss1' + length ss2' = length ss1 + length ss2 /\
       incl ls1' (ls1 ++ ls2) /\ incl ls2' (ls1 ++ ls2) /\ disjoint ls1' ls2' /\
       same_except (ls1 ++ ls2) (s_heap s) (s_heap s')) /\
    (length ss1 < 2 \/ length ss2 < 2 ->
     exists s', crossover_primitives ind1 ind2 s = (Err IndexError, s') /\ s_heap s' = s_heap s).
Proof. exact C12_crossover_primitives_main. Qed.
Print Assumptions C12_crossover_primitives.

Example C12_ex :
  exists s', crossover_primitives ex_ind1 ex_ind2 (ex_state [2; 0]) = (Ok (ex_ind1, ex_ind2), s').
Proof. exact C12_ex_main. Qed.

(** C13 at the boundary is false: position = number of hyperparameters is
    accepted silently. *)
Theorem C13_replace_terminal_refuted :
  exists s ind ls ss t,
    wf_heap (s_heap s) /\ pipeline (s_heap s) ind ls ss /\
    nth_error (flat_map snd ss) 4 = None /\ replace_terminal ind 4 t s = (Ok tt, s).
Proof. exact C13_replace_terminal_refuted_main. Qed.
Print Assumptions C13_replace_terminal_refuted.

Theorem C13_replace_terminal_partial :
  forall ind s ls ss position t,
    wf_heap (s_heap s) -> pipeline (s_heap s) ind ls ss ->
    match nth_error (flat_map snd ss) position with
    | Some old =>
      if String.eqb (t_ident old) (t_ident t)
      then exists s' ss', replace_terminal ind position t s = (Ok tt, s') /\
             pipeline (s_heap s') ind ls ss' /\ value_changed_at position old t ss ss' /\
             same_except ls (s_heap s) (s_heap s')
      else replace_terminal ind position t s = (Err ValueError, s)
    | None =>
      if position =? length (flat_map snd ss)
      then replace_terminal ind position t s = (Ok tt, s) (* accepted, without effect *)
      else replace_terminal ind position t s = (Err ValueError, s)
    end.
Proof. exact C13_replace_terminal_partial_main. Qed.
Print Assumptions C13_replace_terminal_partial.

Example C13_ex :
  exists s', replace_terminal ex_ind1 2 ex_thr2 (ex_state []) = (Ok tt, s').
Proof. exact C13_ex_main. Qed.

Theorem C14_replace_primitive_refuted :
  exists s ind ls ss new cn s' ls' ss',
    wf_heap (s_heap s) /\ pipeline (s_heap s) ind ls ss /\
    h_get (s_heap s) new = Some cn /\ ~ In new ls /\
    replace_primitive ind (length ss) new s = (Ok ind, s') /\
    pipeline (s_heap s') ind ls' ss' /\ length ss' = S (length ss).
Proof. exact C14_replace_primitive_refuted_main. Qed.
Print Assumptions C14_replace_primitive_refuted.

Theorem C14_replace_primitive_partial :
  forall ind s ls ss new cn position,
    wf_heap (s_heap s) -> pipeline (s_heap s) ind ls ss ->
    h_get (s_heap s) new = Some cn -> ~ In new ls -> position < length ss ->
    exists above old below, ss = above ++ old :: below /\ length above = position /\
      ((p_output (fst old) <> p_output (c_prim cn) /\
        replace_primitive ind position new s = (Err ValueError, s)) \/
       (p_output (fst old) = p_output (c_prim cn) /\
        exists ind' s' ls' below',
          replace_primitive ind position new s = (Ok ind', s') /\
          pipeline (s_heap s') ind' ls' (above ++ (c_prim cn, c_terms cn) :: below') /\
          same_pipeline below below' /\ i_id ind' = i_id ind /\
          same_except (new :: ls) (s_heap s) (s_heap s'))).
Proof. exact C14_replace_primitive_partial_main. Qed.
Print Assumptions C14_replace_primitive_partial.

Example C14_ex :
  wf_heap (s_heap ex_state_extra) /\ h_get (s_heap ex_state_extra) 6 = Some (mkCell ex_pca DData []) /\
  exists s', replace_primitive ex_ind1 1 6 ex_state_extra = (Ok ex_ind1, s').
Proof. exact C14_ex_main. Qed.

Theorem C15_mutation_exists_refuted :
  exists s ind ls ss,
    wf_heap (s_heap s) /\ pipeline (s_heap s) ind ls ss /\
    pset_typed ex_ps /\ pset_rich ex_ps /\ pipeline_ok ex_ps ss /\ within (Some 1%Z) ss /\
    fst (random_valid_mutation ind ex_ps (Some 1%Z) s) = Err IndexError.
Proof. exact C15_mutation_exists_refuted_main. Qed.
Print Assumptions C15_mutation_exists_refuted.

(** Exactly when it fails (for limits of at least 1, in rich search spaces). *)
Theorem C15_mutation_exists_partial :
  forall ps max_length ind s ls ss,
    wf_heap (s_heap s) -> pipeline (s_heap s) ind ls ss -> pset_typed ps -> pset_rich ps ->
    pipeline_ok ps ss ->
    match max_length with Some m => (1 <= m)%Z | None => True end ->
    ((exists ind' m s', random_valid_mutation ind ps max_length s = (Ok (ind', m), s')) <->
     ~ (max_length = Some 1%Z /\ length ss = 1 /\ tunable ps ss <= 1)).
Proof. exact C15_mutation_exists_partial_main. Qed.
Print Assumptions C15_mutation_exists_partial.

Example C15_ex :
  exists ind' m s', random_valid_mutation ex_ind1 ex_ps (Some 4%Z) (ex_state [1]) = (Ok (ind', m), s').
Proof. exact C15_ex_main. Qed.

Theorem C16_mutate_overlong_refuted :
  forall max_retry done ps m ind s ls ss,
    wf_heap (s_heap s) -> pipeline (s_heap s) ind ls ss -> 0 < max_retry ->
    (1 <= m < Z.of_nat (length ss))%Z ->
    exists s', op_mutate max_retry done ps (Some m) ind s = (Err AttributeError, s').
Proof. exact C16_mutate_overlong_refuted_main. Qed.
Print Assumptions C16_mutate_overlong_refuted.

Theorem C16_mutate_in_place_overlong_partial :
  forall ps m ind s ls ss,
    wf_heap (s_heap s) -> pipeline (s_heap s) ind ls ss -> (1 <= m < Z.of_nat (length ss))%Z ->
    exists s' ls' mutator, random_valid_mutation ind ps (Some m) s = (Ok (ind, mutator), s') /\
      pipeline (s_heap s') ind ls' (firstn (Z.to_nat m) ss) /\ same_except ls (s_heap s) (s_heap s').
Proof. exact C16_mutate_in_place_overlong_partial_main. Qed.
Print Assumptions C16_mutate_in_place_overlong_partial.

Example C16_ex :
  wf_heap (s_heap (ex_state [])) /\ pipeline (s_heap (ex_state [])) ex_ind1 [0; 1; 2; 3] ex_long /\
  (1 <= 2 < Z.of_nat (length ex_long))%Z.
Proof. exact C16_ex_main. Qed.

Theorem C17_mutate_avoids_duplicates :
  forall max_retry done ps max_length ind, 0 < max_retry ->
    avoids_duplicates (mutate_with_log ps max_length ind) (op_mutate max_retry done ps max_length ind)
                      max_retry done.
Proof. exact C17_mutate_avoids_duplicates_main. Qed.
Print Assumptions C17_mutate_avoids_duplicates.

Theorem C17_mate_avoids_duplicates :
  forall max_retry done max_length ind1 ind2, 0 < max_retry ->
    avoids_duplicates (mate_with_log max_length ind1 ind2) (op_mate max_retry done max_length ind1 ind2)
                      max_retry done.
Proof. exact C17_mate_avoids_duplicates_main. Qed.
Print Assumptions C17_mate_avoids_duplicates.

(** the text compared with the evaluated ones is the text of the pipeline *)
Theorem C17_compared_text :
  forall ind s ls ss, wf_heap (s_heap s) -> pipeline (s_heap s) ind ls ss ->
    pipeline_str ind s = (Ok (text ss), s).
Proof. exact C17_compared_text_main. Qed.
Print Assumptions C17_compared_text.

Example C17_ex :
  exists ind s', op_mutate 3 [text (removelast ex_long)] ex_ps (Some 4%Z) ex_ind1 (ex_state [1; 0; 2; 0; 1; 1; 0])
                 = (Ok ind, s') /\ 2 < s_uid s'.
Proof. exact C17_ex_main. Qed.

(** C18: which crossovers are offered, and when random_crossover succeeds. *)
Theorem C18_valid_crossovers :
  forall ind1 ind2 s ls1 ss1 ls2 ss2,
    wf_heap (s_heap s) -> pipeline (s_heap s) ind1 ls1 ss1 -> pipeline (s_heap s) ind2 ls2 ss2 ->
    exists offered, valid_crossovers ind1 ind2 s = (Ok offered, s) /\
      (In CxTerminals offered <-> share_different_value ss1 ss2) /\
      (In CxPrimitives offered <-> 2 <= length ss1 /\ 2 <= length ss2).
Proof. exact C18_valid_crossovers_main. Qed.
Print Assumptions C18_valid_crossovers.

Theorem C18_random_crossover :
  forall max_length ind1 ind2 s ls1 ss1 ls2 ss2,
    wf_heap (s_heap s) -> pipeline (s_heap s) ind1 ls1 ss1 -> pipeline (s_heap s) ind2 ls2 ss2 ->
    disjoint ls1 ls2 ->
    ((exists r s', random_crossover ind1 ind2 max_length s = (Ok r, s')) <->
     within max_length ss1 /\ within max_length ss2 /\
     (share_different_value ss1 ss2 \/ 2 <= length ss1 /\ 2 <= length ss2)) /\
    (forall e s', random_crossover ind1 ind2 max_length s = (Err e, s') -> e = ValueError /\ s' = s).
Proof. exact C18_random_crossover_main. Qed.
Print Assumptions C18_random_crossover.

Example C18_ex :
  share_different_value ex_long ex_short /\ not (share_different_value ex_long ex_one) /\
  exists s', valid_crossovers ex_ind1 ex_ind2 (ex_state []) = (Ok [CxTerminals; CxPrimitives], s').
Proof. exact C18_ex_main. Qed.

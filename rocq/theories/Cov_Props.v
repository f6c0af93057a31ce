(** Property theorems; proofs in Cov_Main.v. *)
From Verif Require Import Base Gp_Model Gp_Spec Cov_Spec Gp_Examples.
Require Import Permutation.
Open Scope nat_scope.
From Verif Require Import Cov_Main.

(** C91: a new individual is a pipeline of the search space with between one
    step and the limit (three steps without a limit), a fresh id, no parents and
    origin "new"; nothing existing changes.  A limit below one is a ValueError. *)
Theorem C91_new_individual :
  forall ps max_length s,
    wf_heap (s_heap s) ->
    (forall ind s', op_individual ps max_length s = (Ok ind, s') ->
       exists ls ss, pipeline (s_heap s') ind ls ss /\ pipeline_ok ps ss /\ 1 <= length ss /\
         match max_length with
         | Some m => (Z.of_nat (length ss) <= m)%Z
         | None => length ss <= 3
         end /\
         s_uid s <= i_id ind < s_uid s' /\ i_parents ind = [] /\ i_origin ind = "new"%string /\
         all_new (s_heap s) ls /\ extends s s') /\
    (forall m, max_length = Some m -> (m < 1)%Z -> fst (op_individual ps max_length s) = Err ValueError) /\
    (pset_inhabited ps -> prims_of ps PREDICTION <> [] -> prims_of ps DATA <> [] ->
     match max_length with Some m => (1 <= m)%Z | None => True end ->
       exists ind s', op_individual ps max_length s = (Ok ind, s')).
Proof. exact C91_new_individual_main. Qed.
Print Assumptions C91_new_individual.

Example C91_ex : pset_inhabited ex_ps /\ prims_of ex_ps DATA <> [] /\
  exists ind s' ls, op_individual ex_ps (Some 3%Z) (ex_state [2; 0; 1; 1; 0; 1; 1]) = (Ok ind, s') /\
    i_id ind = 2 /\ primitives ind s' = (Ok ls, s') /\ length ls = 3.
Proof. exact C91_ex_main. Qed.

(** C92: what the operators that the search calls return.  mutate: one mutation
    of (a copy of) the parent, logged under the name of that mutation. *)
Theorem C92_mutate :
  forall max_retry done ps max_length ind s ls ss ind' s',
    0 < max_retry -> wf_heap (s_heap s) -> pipeline (s_heap s) ind ls ss -> pset_typed ps ->
    op_mutate max_retry done ps max_length ind s = (Ok ind', s') ->
    exists m ls' ss0 ss',
      same_pipeline ss ss0 /\ mutated ps m ss0 ss' /\ pipeline (s_heap s') ind' ls' ss' /\
      logged_as m (i_origin ind') /\ i_parents ind' = [i_id ind] /\
      s_uid s <= i_id ind' < s_uid s' /\ within max_length ss' /\
      all_new (s_heap s) ls' /\ extends s s'.
Proof. exact C92_mutate_main. Qed.
Print Assumptions C92_mutate.

Example C92_mutate_ex :
  exists ind' s', op_mutate 50 [] ex_ps (Some 4%Z) ex_ind1 (ex_state [1; 0; 2; 0; 1; 1; 0]) = (Ok ind', s') /\
    i_origin ind' = "mut_shrink"%string.
Proof. exact C92_mutate_ex_main. Qed.

(** mate: the first result of one crossover of (copies of) the parents. *)
Theorem C92_mate :
  forall max_retry done max_length ind1 ind2 s ls1 ss1 ls2 ss2 ind' s',
    0 < max_retry -> wf_heap (s_heap s) -> pipeline (s_heap s) ind1 ls1 ss1 -> pipeline (s_heap s) ind2 ls2 ss2 ->
    op_mate max_retry done max_length ind1 ind2 s = (Ok ind', s') ->
    exists ls' ss10 ss20 ss' other,
      same_pipeline ss1 ss10 /\ same_pipeline ss2 ss20 /\ crossed ss10 ss20 ss' other /\
      pipeline (s_heap s') ind' ls' ss' /\
      i_origin ind' = "cx"%string /\ i_parents ind' = [i_id ind1; i_id ind2] /\
      s_uid s <= i_id ind' < s_uid s' /\ all_new (s_heap s) ls' /\ extends s s'.
Proof. exact C92_mate_main. Qed.
Print Assumptions C92_mate.

Example C92_mate_ex :
  exists ind' s', op_mate 50 [] (Some 4%Z) ex_ind1 ex_ind2 (ex_state [1; 2; 0]) = (Ok ind', s').
Proof. exact C92_mate_ex_main. Qed.

(** C93: every outcome the operators are meant to have does occur for some
    random numbers.  Creation: every pipeline of the search space within the
    length limits. *)
Theorem C93_create :
  forall ps min_length max_length h u ss,
    wf_heap h -> pipeline_ok ps ss -> (min_length <= Z.of_nat (length ss) <= max_length)%Z ->
    possible (create_random_expression ps min_length max_length) h u
      (fun l h' => exists ls ss', chain h' (DRef l) ls ss' /\ equivalent ss ss').
Proof. exact C93_create_main. Qed.
Print Assumptions C93_create.

Theorem C93_individual :
  forall ps max_length h u ss,
    wf_heap h -> pipeline_ok ps ss ->
    match max_length with Some m => (Z.of_nat (length ss) <= m)%Z | None => length ss <= 3 end ->
    possible (op_individual ps max_length) h u
      (fun ind h' => exists ls ss', pipeline h' ind ls ss' /\ equivalent ss ss').
Proof. exact C93_individual_main. Qed.
Print Assumptions C93_individual.

Example C93_create_ex : pipeline_ok ex_ps ex_short /\ (1 <= Z.of_nat (length ex_short) <= 3)%Z.
Proof. exact C93_create_ex_main. Qed.

(** Every single mutation: any position, any replacement. *)
Theorem C93_mutations :
  forall ps m ind h u ls ss ss',
    wf_heap h -> pipeline h ind ls ss -> pset_typed ps -> pipeline_ok ps ss -> mutated ps m ss ss' ->
    (forall k, m <> MutShrinkBy k) ->
    possible (run_mutator m ind ps) h u
      (fun ind' h' => exists ls' ss'', pipeline h' ind' ls' ss'' /\ equivalent ss' ss'').
Proof. exact C93_mutations_main. Qed.
Print Assumptions C93_mutations.

(** random_valid_mutation_in_place chooses each of them, provided the result is
    within the limit and (for replacements) the pipeline has two places where one
    is possible. *)
Theorem C93_random_mutation :
  forall ps max_length m ind h u ls ss ss',
    wf_heap h -> pipeline h ind ls ss -> pset_typed ps -> pipeline_ok ps ss -> mutated ps m ss ss' ->
    (forall k, m <> MutShrinkBy k) -> within max_length ss -> within max_length ss' ->
    (m = MutReplacePrimitive -> 2 <= swappable ps ss) -> (m = MutReplaceTerminal -> 2 <= tunable ps ss) ->
    possible (random_valid_mutation ind ps max_length) h u
      (fun im h' => snd im = m /\ exists ls' ss'', pipeline h' (fst im) ls' ss'' /\ equivalent ss' ss'').
Proof. exact C93_random_mutation_main. Qed.
Print Assumptions C93_random_mutation.

Example C93_mutations_ex : pipeline_ok ex_ps ex_long /\ 2 <= swappable ex_ps ex_long /\ 2 <= tunable ex_ps ex_long /\
  mutated ex_ps MutShrink ex_long (firstn 2 ex_long).
Proof. exact C93_mutations_ex_main. Qed.

(** Every crossover of two individuals. *)
Theorem C93_crossover :
  forall ind1 ind2 h u ls1 ls2 ss1 ss2 ss1' ss2' max_length,
    wf_heap h -> pipeline h ind1 ls1 ss1 -> pipeline h ind2 ls2 ss2 -> disjoint ls1 ls2 ->
    crossed ss1 ss2 ss1' ss2' -> within max_length ss1 -> within max_length ss2 -> within max_length ss1' ->
    possible (random_crossover ind1 ind2 max_length) h u
      (fun r h' => r = (ind1, ind2) /\ exists ls1' ls2', pipeline h' ind1 ls1' ss1' /\ pipeline h' ind2 ls2' ss2').
Proof. exact C93_crossover_main. Qed.
Print Assumptions C93_crossover.

Example C93_crossover_ex : exists a b, tails_swapped ex_long ex_short a b /\ disjoint [0; 1; 2; 3] [4; 5].
Proof. exact C93_crossover_ex_main. Qed.

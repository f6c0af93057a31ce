(** A concrete search space and concrete pipelines, used to show that the
    hypotheses of the theorems are met and as witnesses for refutations. *)
From Verif Require Import Base Gp_Model Gp_Spec.
Require Import Ascii.
Open Scope string_scope.
Open Scope list_scope.
Open Scope nat_scope.

Definition vi (t : string) (z : Z) : value := mkValue KOther t z.
Definition ex_alpha1 := mkTerm (vi "0.1" 1) "alpha" "alpha".
Definition ex_alpha2 := mkTerm (vi "1.0" 2) "alpha" "alpha".
Definition ex_fit1 := mkTerm (vi "True" 3) "fit_prior" "BNB.fit_prior".
Definition ex_fit2 := mkTerm (vi "False" 4) "fit_prior" "BNB.fit_prior".
Definition ex_thr1 := mkTerm (vi "0.5" 5) "threshold" "Bin.threshold".
Definition ex_thr2 := mkTerm (vi "0.6" 6) "threshold" "Bin.threshold".
Definition ex_bnb := mkPrim ["alpha"; "BNB.fit_prior"] "prediction" 0 "BNB".
Definition ex_gnb := mkPrim [] "prediction" 1 "GNB".
Definition ex_bin := mkPrim ["Bin.threshold"] "data" 2 "Bin".
Definition ex_pca := mkPrim [] "data" 3 "PCA".
Definition ex_ps : pset :=
  mkPset [("prediction", [ex_bnb; ex_gnb]); ("data", [ex_bin; ex_pca])]
         [("alpha", [ex_alpha1; ex_alpha2]); ("BNB.fit_prior", [ex_fit1; ex_fit2]);
          ("Bin.threshold", [ex_thr1; ex_thr2])].

(** Put a pipeline (predictor first) into an otherwise empty heap: object k
    is step k. *)
Fixpoint ex_cells (k : nat) (ss : list step) : list (nat * cell) :=
  match ss with
  | [] => []
  | (p, ts) :: rest =>
      (k, mkCell p (match rest with [] => DData | _ => DRef (S k) end) ts) :: ex_cells (S k) rest
  end.
Fixpoint find_cell (l : nat) (cs : list (nat * cell)) : option cell :=
  match cs with
  | [] => None
  | (k, c) :: cs' => if l =? k then Some c else find_cell l cs'
  end.
Definition ex_heap (sss : list (list step)) : heap :=
  let cs := snd (fold_left (fun acc ss => (fst acc + length ss, snd acc ++ ex_cells (fst acc) ss))
                           sss (0, [])) in
  mkHeap (length cs) (fun l => find_cell l cs).

Definition ex_long : list step :=
  [(ex_bnb, [ex_alpha1; ex_fit1]); (ex_bin, [ex_thr1]); (ex_pca, []); (ex_bin, [ex_thr2])].
Definition ex_short : list step := [(ex_bnb, [ex_alpha2; ex_fit1]); (ex_pca, [])].
(** objects 0-3: the long pipeline; objects 4-5: the short one *)
Definition ex_state (r : rng) : st := mkSt (ex_heap [ex_long; ex_short]) r 2.
Definition ex_ind1 : individual := mkInd 0 0 [] "new".
Definition ex_ind2 : individual := mkInd 4 1 [] "new".

Ltac psets := unfold prims_of, terms_of; simpl;
  repeat match goal with |- context [String.eqb ?a ?b] => destruct (String.eqb_spec a b); subst; simpl end.

Lemma ex_typed : pset_typed ex_ps.
Proof.
  split; intros k x; psets; intros H; repeat (destruct H as [<-|H]; [reflexivity|]); destruct H.
Qed.
Lemma ex_inhabited : pset_inhabited ex_ps.
Proof.
  intros k x i; unfold prims_of; simpl;
  repeat match goal with |- context [String.eqb ?a ?b] => destruct (String.eqb_spec a b); subst; simpl end;
  intros H Hi; repeat (destruct H as [<-|H]; [simpl in Hi|]); try destruct H;
  repeat (destruct Hi as [<-|Hi]; [discriminate|]); destruct Hi.
Qed.
Lemma ex_rich : pset_rich ex_ps.
Proof.
  split; [apply ex_inhabited|]. split; [discriminate|]. split; [discriminate|]. split.
  - intros k p; psets; intros H _; repeat (destruct H as [<-|H]); try destruct H.
    + exists ex_gnb. simpl. split; auto. intros (_ & _ & E); discriminate.
    + exists ex_bnb. simpl. split; auto. intros (_ & _ & E); discriminate.
    + exists ex_pca. simpl. split; auto. intros (_ & _ & E); discriminate.
    + exists ex_bin. simpl. split; auto. intros (_ & _ & E); discriminate.
  - intros k p; psets; intros H _; repeat (destruct H as [<-|H]); try destruct H.
    + exists ex_alpha2. simpl. split; auto. discriminate.
    + exists ex_alpha1. simpl. split; auto. discriminate.
    + exists ex_fit2. simpl. split; auto. discriminate.
    + exists ex_fit1. simpl. split; auto. discriminate.
    + exists ex_thr2. simpl. split; auto. discriminate.
    + exists ex_thr1. simpl. split; auto. discriminate.
Qed.
Definition ex_name (k : string) : string :=
  if String.eqb k "alpha" then "alpha" else
  if String.eqb k "BNB.fit_prior" then "fit_prior" else
  if String.eqb k "Bin.threshold" then "threshold" else "".
Lemma ex_named : pset_named ex_ps.
Proof.
  exists ex_name. split; [|split].
  - intros k t; psets; intros H; repeat (destruct H as [<-|H]; [reflexivity|]); destruct H.
  - intros k. unfold ex_name.
    repeat match goal with |- context [String.eqb ?a ?b] => destruct (String.eqb_spec a b); subst; simpl end; reflexivity.
  - intros k p; psets; intros H; repeat (destruct H as [<-|H]; [simpl; repeat constructor; simpl; intuition discriminate|]); destruct H.
Qed.

Lemma ex_wf r : wf_heap (s_heap (ex_state r)).
Proof.
  intros l H. change (h_next (s_heap (ex_state r))) with 6 in H.
  do 6 (destruct l as [|l]; [lia|]). reflexivity.
Qed.
Lemma ex_pipe1 r : pipeline (s_heap (ex_state r)) ex_ind1 [0; 1; 2; 3] ex_long.
Proof.
  unfold pipeline, ex_long. simpl.
  repeat match goal with |- chain _ _ _ (( ?p, ?ts) :: _) =>
    eapply (chain_node _ _ (mkCell p _ ts)); [reflexivity|]; simpl end. constructor.
Qed.
Lemma ex_pipe2 r : pipeline (s_heap (ex_state r)) ex_ind2 [4; 5] ex_short.
Proof.
  unfold pipeline, ex_short. simpl.
  repeat match goal with |- chain _ _ _ (( ?p, ?ts) :: _) =>
    eapply (chain_node _ _ (mkCell p _ ts)); [reflexivity|]; simpl end. constructor.
Qed.
Lemma ex_disjoint : disjoint [0; 1; 2; 3] [4; 5].
Proof. intros x; simpl; intuition lia. Qed.

Ltac step_ok_tac := split; [simpl; tauto|]; eexists; split; [apply Permutation.Permutation_refl|];
  simpl; repeat (constructor; [simpl; tauto|]); constructor.
Lemma ex_ok1 : pipeline_ok ex_ps ex_long.
Proof. split; [step_ok_tac|]. repeat (constructor; [step_ok_tac|]). constructor. Qed.
Lemma ex_ok2 : pipeline_ok ex_ps ex_short.
Proof. split; [step_ok_tac|]. repeat (constructor; [step_ok_tac|]). constructor. Qed.

(** Proofs about loading files. *)
From Verif Require Import Base Data_Model Load_Model Load_Spec.
Require Import Lia.
Open Scope list_scope.
Open Scope nat_scope.

Lemma enum_nth {A} (l : list A) : forall i j a, nth_error (enum_from i l) j = Some a <->
  exists x, nth_error l j = Some x /\ a = (i + j, x).
Proof.
  induction l as [|x l IH]; intros i j a; simpl.
  - destruct j; simpl; split; try discriminate; intros (? & K & _); discriminate.
  - destruct j as [|j]; simpl.
    + rewrite Nat.add_0_r. split; [intros E; injection E as <-; eauto|intros (y & E & ->); congruence].
    + rewrite IH. split; intros (y & E & ->); exists y; split; auto; f_equal; lia.
Qed.
Lemma enum_length {A} (l : list A) i : length (enum_from i l) = length l.
Proof. revert i. induction l; simpl; auto. Qed.

Lemma cname_eqb_str a b : cname_eqb (NStr a) (NStr b) = true <-> a = b.
Proof. simpl. apply String.eqb_eq. Qed.

(** The loop over the attributes, column by column. *)
Definition column_loop (attrs : list (string * atype)) (c : column) : column :=
  fold_left (fun c a => match snd a with
                        | Nominal _ => if cname_eqb (c_cname c) (NStr (fst a)) then set_category c else c
                        | Named _ => c end) attrs c.
Lemma loop_columns attrs : forall cols,
  fold_left (fun cs (a : string * atype) => match snd a with Nominal _ => make_category (fst a) cs | Named _ => cs end) attrs cols =
  map (column_loop attrs) cols.
Proof.
  induction attrs as [|[n t] attrs IH]; intros cols; simpl.
  - symmetry. apply map_id.
  - rewrite IH. destruct t; [|reflexivity]. unfold make_category. rewrite map_map. reflexivity.
Qed.
Lemma loop_keeps attrs : forall c, c_cname (column_loop attrs c) = c_cname c /\ c_cells (column_loop attrs c) = c_cells c.
Proof.
  induction attrs as [|[n t] attrs IH]; intros c; simpl; auto.
  destruct t; [|apply IH]. destruct (cname_eqb _ _); [|apply IH].
  destruct (IH (set_category c)) as (A & B). auto.
Qed.
Lemma loop_category attrs : forall c, c_dtype c = DCategory -> c_dtype (column_loop attrs c) = DCategory.
Proof.
  induction attrs as [|[n t] attrs IH]; intros c D; simpl; auto.
  destruct t; [|apply IH; auto]. destruct (cname_eqb _ _); apply IH; auto.
Qed.
Lemma loop_dtype attrs : NoDup (map fst attrs) -> forall c n, c_cname c = NStr n ->
  (forall v, In (n, Nominal v) attrs -> c_dtype (column_loop attrs c) = DCategory) /\
  ((forall v, ~ In (n, Nominal v) attrs) -> c_dtype (column_loop attrs c) = c_dtype c).
Proof.
  induction attrs as [|[m t] attrs IH]; intros N c n E; simpl.
  - split; [intros v []|auto].
  - inversion N as [|? ? N1 N2]; subst. destruct t as [vs|k]; simpl.
    + rewrite E. simpl. destruct (String.eqb_spec n m) as [->|NE]; simpl.
      * split; [intros v _; apply loop_category; reflexivity|]. intros H. exfalso. apply (H vs). auto.
      * destruct (IH N2 c n E) as (A & B). split; [intros v [X|X]; [congruence|eauto]|]. intros H. apply B. intros v X. apply (H v). auto.
    + destruct (IH N2 c n E) as (A & B). split; [intros v [X|X]; [congruence|eauto]|]. intros H. apply B. intros v X. apply (H v). auto.
Qed.

Lemma distinct_in l : forall c, In c (distinct l) -> In c l.
Proof.
  induction l as [|x l IH]; intros c; simpl; auto. destruct (_ || _); simpl; [auto|]. intros [->|H]; auto.
Qed.

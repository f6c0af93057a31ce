From Verif Require Import Base Num.
Require Import Lqa.
Open Scope nat_scope.

Lemma qltb_lt a b : qltb a b = true <-> (a < b)%Q.
Proof.
  unfold qltb. rewrite negb_true_iff. split; intros H.
  - apply Qnot_le_lt. intros L. apply Qle_bool_iff in L. congruence.
  - destruct (Qle_bool b a) eqn:E; auto. apply Qle_bool_iff in E. lra.
Qed.
Ltac nums := repeat match goal with
  | H : num |- _ => match goal with |- context [H] => destruct H | K : context [H] |- _ => destruct H end
  end; simpl in *; try discriminate; auto.

Lemma nle_trans a b c : nle a b -> nle b c -> nle a c.
Proof.
  unfold nle. destruct a, b, c; simpl; try discriminate; auto.
  rewrite !Qle_bool_iff. lra.
Qed.
Lemma nlt_trans a b c : nlt a b -> nlt b c -> nlt a c.
Proof.
  unfold nlt. destruct a, b, c; simpl; try discriminate; auto.
  rewrite !qltb_lt. lra.
Qed.
Lemma nlt_irrefl a : ~ nlt a a.
Proof. unfold nlt. destruct a; simpl; try discriminate. rewrite qltb_lt. lra. Qed.
Lemma nlt_nle a b : nlt a b -> nle a b.
Proof.
  unfold nlt, nle. destruct a, b; simpl; try discriminate; auto. rewrite qltb_lt, Qle_bool_iff. lra.
Qed.
Lemma nle_not_lt a b : nle a b -> ~ nlt b a.
Proof.
  unfold nlt, nle. destruct a, b; simpl; try discriminate; auto; try congruence.
  rewrite qltb_lt, Qle_bool_iff. lra.
Qed.
Lemma not_lt_nle a b : a <> NaN -> b <> NaN -> ~ nlt b a -> nle a b.
Proof.
  unfold nlt, nle. destruct a, b; simpl; try congruence; auto; try (intros _ _ H; exfalso; apply H; auto; fail).
  rewrite qltb_lt, Qle_bool_iff. intros. lra.
Qed.
Lemma nle_refl a : a <> NaN -> nle a a.
Proof. unfold nle. destruct a; simpl; try congruence; auto. rewrite Qle_bool_iff. lra. Qed.
Lemma nle_opp a b : nleb (nopp a) (nopp b) = nleb b a.
Proof.
  destruct a, b; simpl; auto. apply eq_true_iff_eq. rewrite !Qle_bool_iff. lra.
Qed.
Lemma nlt_opp a b : nltb (nopp a) (nopp b) = nltb b a.
Proof.
  destruct a, b; simpl; auto. apply eq_true_iff_eq. rewrite !qltb_lt. lra.
Qed.
Lemma nlt_le_trans a b c : nlt a b -> nle b c -> nlt a c.
Proof.
  unfold nlt, nle. destruct a, b, c; simpl; try discriminate; auto.
  rewrite !qltb_lt, !Qle_bool_iff. lra.
Qed.
Lemma nle_lt_trans a b c : nle a b -> nlt b c -> nlt a c.
Proof.
  unfold nlt, nle. destruct a, b, c; simpl; try discriminate; auto.
  rewrite !qltb_lt, !Qle_bool_iff. lra.
Qed.

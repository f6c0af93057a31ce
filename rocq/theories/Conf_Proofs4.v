(** Which configurations can be merged. *)
From Verif Require Import Base Gp_Model Gp_Spec Gp_Proofs Conf_Model Conf_Spec Conf_Proofs Conf_Proofs2 Conf_Proofs3.
Require Import Ascii Permutation Sorted.
Open Scope string_scope.
Open Scope list_scope.
Open Scope nat_scope.

Section S.
Context (f : list value -> list value).

Lemma kind_eqb_eq a b : kind_eqb a b = true <-> a = b.
Proof. destruct a, b; cbn; split; congruence. Qed.

Lemma merge_hp_ok h l n v :
  (forall v1, hget (h l) n = Some v1 -> same_container v1 v) ->
  exists h', merge_hp f h l (n, v) = Ok h' /\ (forall x, x <> l -> h' x = h x) /\ (forall n', n' <> n -> hget (h' l) n' = hget (h l) n').
Proof.
  intros H. unfold merge_hp. destruct (hget (h l) n) as [v1|] eqn:G.
  - destruct (H v1 eq_refl) as [K NS]. destruct (kind_eqb (hv_kind v1) HDict && kind_eqb (hv_kind v) HDict) eqn:D.
    + eexists. split; [reflexivity|]. split; [intros; apply dh_other; auto|]. intros n' N. rewrite dh_same, hget_set. apply String.eqb_neq in N. rewrite N. reflexivity.
    + rewrite K. assert (KK : kind_eqb (hv_kind v) (hv_kind v) = true) by (apply kind_eqb_eq; auto). rewrite KK.
      assert (SS : kind_eqb (hv_kind v) HScalar = false) by (destruct (kind_eqb (hv_kind v) HScalar) eqn:Z; auto; apply kind_eqb_eq in Z; contradiction). rewrite SS. cbn [andb negb].
      eexists. split; [reflexivity|]. split; [intros; apply dh_other; auto|]. intros n' N. rewrite dh_same, hget_set. apply String.eqb_neq in N. rewrite N. reflexivity.
  - eexists. split; [reflexivity|]. split; [intros; apply dh_other; auto|]. intros n' N. rewrite dh_same, hget_set. apply String.eqb_neq in N. rewrite N. reflexivity.
Qed.
Lemma merge_hp_bad h l n v v1 : hget (h l) n = Some v1 -> ~ same_container v1 v -> merge_hp f h l (n, v) = Err TypeError.
Proof.
  intros G N. unfold merge_hp. rewrite G. destruct (kind_eqb (hv_kind v1) HDict && kind_eqb (hv_kind v) HDict) eqn:D.
  - exfalso. apply andb_true_iff in D as [A B]. apply kind_eqb_eq in A, B. apply N. split; congruence.
  - destruct (kind_eqb (hv_kind v1) (hv_kind v) && negb (kind_eqb (hv_kind v) HScalar)) eqn:X; [|reflexivity].
    exfalso. apply andb_true_iff in X as [A B]. apply kind_eqb_eq in A. apply N. split; auto. intros Z. rewrite Z in B. discriminate.
Qed.
Lemma merge_hps_iff l : forall nvs h, NoDup (map fst nvs) ->
  (forall n v v1, In (n, v) nvs -> hget (h l) n = Some v1 -> same_container v1 v) /\ (exists h', merge_hps f h l nvs = (Ok tt, h') /\ forall x, x <> l -> h' x = h x) \/
  ~ (forall n v v1, In (n, v) nvs -> hget (h l) n = Some v1 -> same_container v1 v) /\ exists h', merge_hps f h l nvs = (Err TypeError, h').
Proof.
  induction nvs as [|[n v] nvs IH]; intros h ND.
  - left. split; [intros ? ? ? []|]. exists h. auto.
  - inversion ND as [|? ? Hn ND']; subst. cbn [merge_hps].
    assert (D : (forall v1, hget (h l) n = Some v1 -> same_container v1 v) \/ exists v1, hget (h l) n = Some v1 /\ ~ same_container v1 v).
    { destruct (hget (h l) n) as [v1|]; [|left; discriminate].
      assert (X : same_container v1 v \/ ~ same_container v1 v).
      { unfold same_container. destruct (hv_kind v1), (hv_kind v); first [left; split; congruence|right; intros [? ?]; congruence]. }
      destruct X; [left|right]; [intros v2 E; injection E as <-; auto|eauto]. }
    destruct D as [D|(v1 & G & N)].
    + destruct (merge_hp_ok h l n v D) as (h1 & E & F & Gt). rewrite E.
      assert (Q : forall n' v' v1, In (n', v') nvs -> (hget (h1 l) n' = Some v1 <-> hget (h l) n' = Some v1)).
      { intros n' v' v1 Hin. rewrite Gt; [tauto|]. intros ->. apply Hn. apply in_map_iff. exists (n, v'). auto. }
      destruct (IH h1 ND') as [[A (h2 & R & F2)]|[A (h2 & R)]].
      * left. split.
        -- intros n' v' v1 [X|X] G; [injection X as <- <-; auto|]. apply (A n' v'); auto. apply (Q n' v'); auto.
        -- exists h2. split; auto. intros x Hx. rewrite F2, F; auto.
      * right. split; [|eauto]. intros K. apply A. intros n' v' v1 X G. apply (K n' v'); [right; auto|]. apply (Q n' v'); auto.
    + right. rewrite (merge_hp_bad _ _ _ _ _ G N). split; [|eauto]. intros K. apply N. apply (K n v); auto. left; auto.
Qed.

Definition entry_ok (h : dheap) (o : option rval) (v2 : rval) : Prop :=
  match o, v2 with
  | None, _ => True
  | Some (RIter a), RIter b => hv_kind a = HList /\ hv_kind b = HList
  | Some (RDict l), RDict l2 => forall n v v1, In (n, v) (h l2) -> hget (h l) n = Some v1 -> same_container v1 v
  | Some (RDict _), RIter _ => False
  | Some (RIter _), RDict l2 => h l2 = []
  end.

Lemma merge_alg_iff h m k v2 : (forall l, v2 = RDict l -> NoDup (map fst (h l))) ->
  (entry_ok h (rget m k) v2 /\ exists m' h', merge_alg f h m (k, v2) = (Ok m', h')
     /\ (forall k', key_eqb k' k = false -> rget m' k' = rget m k')
     /\ (forall x, (forall l, rget m k = Some (RDict l) -> x <> l) -> h' x = h x)) \/
  (~ entry_ok h (rget m k) v2 /\ exists e h', merge_alg f h m (k, v2) = (Err e, h') /\ (e = TypeError \/ e = AttributeError)).
Proof.
  intros ND. unfold merge_alg, entry_ok. destruct (rget m k) as [[a|l]|] eqn:G.
  - destruct v2 as [b|l2].
    + destruct (kind_eqb (hv_kind a) HList && kind_eqb (hv_kind b) HList) eqn:D.
      * left. apply andb_true_iff in D as [A B]. apply kind_eqb_eq in A, B. split; auto. eexists _, h. split; [reflexivity|]. split; auto. intros k' N. rewrite rget_set, N. auto.
      * right. split; [|eauto 6]. intros [A B]. rewrite A, B in D. discriminate.
    + destruct (h l2) eqn:X; [left|right]; [split; eauto 7|split; [discriminate|eauto 6]].
  - destruct v2 as [b|l2]; [right; split; [tauto|eauto 6]|].
    destruct (merge_hps_iff l (h l2) h (ND l2 eq_refl)) as [[A (h1 & R & F)]|[A (h1 & R)]]; rewrite R.
    + left. split; auto. exists m, h1. split; auto.
    + right. split; eauto 6.
  - left. split; auto. eexists _, h. split; [reflexivity|]. split; auto. intros k' N. rewrite rget_set, N. auto.
Qed.

Context (h0 : dheap) (c1 : rconfig).
Hypothesis ND1 : NoDup (dictionaries c1).
Lemma merge_loop_iff : forall rest h m,
  distinct_keys rest -> (forall l, In l (dictionaries rest) -> NoDup (map fst (h0 l)) /\ ~ In l (dictionaries c1)) ->
  (forall k v, In (k, v) rest -> rget m k = rget c1 k) ->
  (forall k v l, In (k, v) rest -> rget c1 k = Some (RDict l) -> h l = h0 l) ->
  (forall l, In l (dictionaries rest) -> h l = h0 l) ->
  ((forall k v, In (k, v) rest -> entry_ok h0 (rget c1 k) v) /\ exists m' h', merge_loop f h m rest = (Ok m', h')) \/
  (~ (forall k v, In (k, v) rest -> entry_ok h0 (rget c1 k) v) /\ exists e h', merge_loop f h m rest = (Err e, h') /\ (e = TypeError \/ e = AttributeError)).
Proof.
  induction rest as [|[k v2] rest IH]; intros h m D DN I1 I2 I3.
  - left. split; [intros ? ? []|]. exists m, h. auto.
  - inversion D as [|? ? Dk D']; subst. cbn [merge_loop].
    assert (DR : forall l, In l (dictionaries rest) -> In l (dictionaries ((k, v2) :: rest))).
    { intros l Hl. cbn. apply in_or_app. auto. }
    assert (E0 : entry_ok h (rget m k) v2 <-> entry_ok h0 (rget c1 k) v2).
    { rewrite (I1 k v2) by (left; auto). unfold entry_ok. destruct (rget c1 k) as [[a|l]|] eqn:G; destruct v2 as [b|l2]; try tauto.
      - rewrite (I3 l2); [tauto|]. cbn. auto.
      - rewrite (I3 l2) by (cbn; auto). rewrite (I2 k (RDict l2) l); [tauto|left; auto|auto]. }
    destruct (merge_alg_iff h m k v2) as [[A (m1 & h1 & R & Fm & Fh)]|[A (e & h1 & R & T)]].
    { intros l ->. rewrite (I3 l) by (cbn; auto). apply DN. cbn. auto. }
    + rewrite R. rewrite Forall_forall in Dk.
      destruct (IH h1 m1 D') as [[B C]|[B C]].
      * intros l Hl. apply DN; auto.
      * intros k' v' Hin. rewrite Fm; [apply (I1 k' v'); right; auto|]. rewrite key_eqb_sym. apply (Dk _ Hin).
      * intros k' v' l Hin G. rewrite Fh; [apply (I2 k' v'); auto; right; auto|]. intros l' G' ->. rewrite (I1 k v2) in G' by (left; auto).
        apply rget_in in G as (ka & Ha & Ea). apply rget_in in G' as (kb & Hb & Eb). pose proof (ref_inj c1 ND1 _ _ _ Ha Hb) as <-.
        pose proof (Dk _ Hin) as X. cbn [fst] in X. rewrite key_eqb_sym in Ea. rewrite <- (key_eqb_trans k ka k' Eb) in X. congruence.
      * intros l Hl. rewrite Fh; [apply I3; auto|]. intros l' G ->. rewrite (I1 k v2) in G by (left; auto). apply rget_in in G as (ka & Ha & _). apply dict_in in Ha. apply (DN l'); auto.
      * left. split; auto. intros k' v' [X|X]; [injection X as <- <-; tauto|auto].
      * right. split; [|exact C]. intros K. apply B. intros k' v' X. apply K. right; exact X.
    + rewrite R. right. split; [|eauto]. intros K. apply A, E0. apply K. left; auto.
Qed.
End S.

From Verif Require Import Base Gp_Model Gp_Spec Gp_Proofs Conf_Model Conf_Spec Conf_Proofs Conf_Proofs2.
Require Import Ascii Permutation Sorted.
Open Scope string_scope.
Open Scope list_scope.
Open Scope nat_scope.

Lemma dict_in c k l : In (k, RDict l) c -> In l (dictionaries c).
Proof. intros H. apply in_flat_map. exists (k, RDict l). simpl; auto. Qed.
Lemma in_dict c l : In l (dictionaries c) -> exists k, In (k, RDict l) c.
Proof. intros H. apply in_flat_map in H as ([k [b|l']] & Hin & Hl); simpl in Hl; [destruct Hl|]. destruct Hl as [->|[]]. eauto. Qed.
Lemma distinct_rget c : distinct_keys c -> forall k v, In (k, v) c -> rget c k = Some v.
Proof.
  induction 1 as [|[k0 v0] c F _ IH]; intros k v Hin; [destruct Hin|]. simpl. destruct Hin as [E|Hin].
  - injection E as -> ->. rewrite key_eqb_refl. auto.
  - rewrite Forall_forall in F. specialize (F _ Hin). cbn [fst] in F. rewrite key_eqb_sym in F. rewrite F. auto.
Qed.
Lemma ref_inj c : NoDup (dictionaries c) -> forall k k' l, In (k, RDict l) c -> In (k', RDict l) c -> k = k'.
Proof.
  induction c as [|[k0 v0] c IH]; intros ND k k' l H1 H2; [destruct H1|].
  assert (ND' : NoDup (dictionaries c)) by (destruct v0; simpl in ND; auto; inversion ND; auto).
  destruct H1 as [E1|H1], H2 as [E2|H2].
  - congruence.
  - injection E1 as -> ->. simpl in ND. inversion ND as [|? ? Hn _]; subst. exfalso. apply Hn. eapply dict_in; eauto.
  - injection E2 as -> ->. simpl in ND. inversion ND as [|? ? Hn _]; subst. exfalso. apply Hn. eapply dict_in; eauto.
  - eauto.
Qed.

Section S.
Context (f : list value -> list value).
Hypothesis Hf : lists_set f.
Context (h0 : dheap) (c1 c2 : rconfig).

(** Only the dictionaries of c1 change. *)
Lemma loop_frame : forall rest h m r h',
  merge_loop f h m rest = (r, h') -> distinct_keys rest -> (forall kv, In kv rest -> rget m (fst kv) = rget c1 (fst kv)) ->
  forall x, ~ In x (dictionaries c1) -> h' x = h x.
Proof.
  induction rest as [|[k v2] rest IH]; intros h m r h' H D Hk x Hx; cbn [merge_loop] in H; [injection H as <- <-; auto|].
  inversion D as [|? ? D1 D2]; subst.
  assert (S1 : forall r1 h1, merge_alg f h m (k, v2) = (r1, h1) -> h1 x = h x).
  { intros r1 h1 E. unfold merge_alg in E. pose proof (Hk (k, v2) (or_introl eq_refl)) as K. cbn [fst] in K. destruct (rget m k) as [[a|l]|] eqn:G.
    - destruct v2 as [b|l2]; [destruct (_ && _)|destruct (h l2)]; injection E as <- <-; auto.
    - assert (N : x <> l).
      { intros ->. apply Hx. symmetry in K. apply rget_in in K as (k' & Hin & _). eapply dict_in; eauto. }
      destruct v2 as [b|l2]; [injection E as <- <-; auto|].
      assert (KK : forall nvs h r h', merge_hps f h l nvs = (r, h') -> h' x = h x).
      { clear - N. induction nvs as [|[nm hv] nvs IH]; intros h r h' H; cbn [merge_hps] in H; [injection H as <- <-; auto|].
        destruct (merge_hp f h l (nm, hv)) as [h1|] eqn:E; [|injection H as <- <-; auto]. rewrite (IH _ _ _ H).
        unfold merge_hp in E. destruct (hget (h l) nm); [destruct (_ && _); [|destruct (_ && _); [|discriminate]]|]; injection E as <-; apply dh_other; auto. }
      destruct (merge_hps f h l (h l2)) as [[u|] h2] eqn:E2; injection E as <- <-; eapply KK; eauto.
    - injection E as <- <-. auto. }
  destruct (merge_alg f h m (k, v2)) as [[m1|] h1] eqn:E.
  - rewrite (IH _ _ _ _ H D2); [eapply S1; eauto| |auto].
    intros [k' v'] Hin. rewrite Forall_forall in D1. pose proof (D1 _ Hin) as Dk. cbn [fst] in *. pose proof (Hk (k', v') (or_intror Hin)) as Hk2. cbn [fst] in Hk2. rewrite <- Hk2.
    unfold merge_alg in E. destruct (rget m k) as [[a|l]|].
    + destruct v2 as [b|l2]; [destruct (_ && _); [|discriminate]|destruct (h l2); [|discriminate]]; injection E as <- <-; auto.
      rewrite rget_set, key_eqb_sym, Dk. auto.
    + destruct v2 as [b|l2]; [discriminate|]. destruct (merge_hps f h l (h l2)) as [[u|] h2]; [|discriminate]. injection E as <- <-. auto.
    + injection E as <- <-. rewrite rget_set, key_eqb_sym, Dk. auto.
  - injection H as <- <-. eapply S1; eauto.
Qed.

Hypothesis D2 : distinct_keys c2.
Hypothesis SEP : separate c1 c2.
Hypothesis DN : distinct_names h0 c2.

Lemma offers_key h c k k' n v : key_eqb k k' = true -> offers h c k n v -> offers h c k' n v.
Proof. intros E (l & hv & w & R & X). exists l, hv, w. rewrite <- (rget_eq _ _ _ E). auto. Qed.
Lemma app_NoDup {A} (a b : list A) x : NoDup (a ++ b) -> In x a -> In x b -> False.
Proof. intros ND Ha Hb. apply in_split in Hb as (b1 & b2 & ->). rewrite app_assoc in ND. apply NoDup_remove_2 in ND. apply ND. rewrite !in_app_iff. auto. Qed.
Lemma NoDup_l {A} (a b : list A) : NoDup (a ++ b) -> NoDup a.
Proof. induction a; simpl; intros H; [constructor|]. inversion H; subst. constructor; auto. intros K. apply H2. apply in_or_app; auto. Qed.
Lemma NoDup_r {A} (a b : list A) : NoDup (a ++ b) -> NoDup b.
Proof. induction a; simpl; auto. intros H. inversion H; auto. Qed.

Lemma loop_exact : forall rest h m m' h' done,
  c2 = done ++ rest ->
  merge_loop f h m rest = (Ok m', h') ->
  (forall x, In x (dictionaries c2) -> h x = h0 x) ->
  (forall k l, rget m k = Some (RDict l) -> rget c1 k = Some (RDict l) \/ (exists k', In (k', RDict l) done /\ key_eqb k k' = true)) ->
  (forall k, In k (map fst rest) -> rget m k = rget c1 k) ->
  (forall k l n v, rget m k = Some (RDict l) -> has (h l) n v -> offers h0 c1 k n v \/ offers h0 c2 k n v) ->
  (forall k v, shas m k v -> shas c1 k v \/ shas c2 k v) ->
  (forall k l n v, rget m' k = Some (RDict l) -> has (h' l) n v -> offers h0 c1 k n v \/ offers h0 c2 k n v) /\
  (forall k v, shas m' k v -> shas c1 k v \/ shas c2 k v).
Proof.
  induction rest as [|[k0 v2] rest IH]; intros h m m' h' done Ec H I1 I2 I3 I4 I5; cbn [merge_loop] in H; [injection H as <- <-; auto|].
  destruct (merge_alg f h m (k0, v2)) as [[m1|] h1] eqn:E; [|discriminate].
  assert (Hin2 : In (k0, v2) c2) by (rewrite Ec; apply in_or_app; simpl; auto).
  assert (R2 : rget c2 k0 = Some v2) by (apply distinct_rget; auto).
  assert (Dk : forall k', In k' (map fst rest) -> key_eqb k' k0 = false).
  { intros k' Hk. rewrite Ec in D2. clear - D2 Hk. induction done as [|x done IH]; simpl in D2; inversion D2; subst; auto.
    apply in_map_iff in Hk as (kv & <- & Hkv). rewrite Forall_forall in H1. rewrite key_eqb_sym. apply (H1 _ Hkv). }
  assert (NK : ~ exists l, rget m k0 = Some (RDict l) /\ rget c1 k0 <> Some (RDict l)).
  { intros (l & G & X). rewrite (I3 k0) in G by (simpl; auto). contradiction. }
  assert (S1 : (forall x, In x (dictionaries c2) -> h1 x = h0 x) /\
    (forall k l, rget m1 k = Some (RDict l) -> rget c1 k = Some (RDict l) \/ (exists k', In (k', RDict l) (done ++ [(k0, v2)]) /\ key_eqb k k' = true)) /\
    (forall k, In k (map fst rest) -> rget m1 k = rget c1 k) /\
    (forall k l n v, rget m1 k = Some (RDict l) -> has (h1 l) n v -> offers h0 c1 k n v \/ offers h0 c2 k n v) /\
    (forall k v, shas m1 k v -> shas c1 k v \/ shas c2 k v)).
  { assert (I2' : forall k l, rget m k = Some (RDict l) -> rget c1 k = Some (RDict l) \/ (exists k', In (k', RDict l) (done ++ [(k0, v2)]) /\ key_eqb k k' = true)).
    { intros k l G. destruct (I2 k l G) as [X|(k' & Hk & X)]; auto. right. exists k'. rewrite in_app_iff. auto. }
    assert (I3' : forall k, In k (map fst rest) -> rget m k = rget c1 k) by (intros; apply I3; simpl; auto).
    unfold merge_alg in E. destruct (rget m k0) as [[a|l]|] eqn:G.
    - destruct v2 as [b|l2].
      + destruct (_ && _); [injection E as <- <-|discriminate]. split; auto. split; [|split; [|split]].
        * intros k l Hg. rewrite rget_set in Hg. destruct (key_eqb k k0); [discriminate|auto].
        * intros k Hk. rewrite rget_set, (Dk _ Hk). auto.
        * intros k l n v Hg. rewrite rget_set in Hg. destruct (key_eqb k k0); [discriminate|]. apply I4; auto.
        * intros k v (hv & w & Hg & Hw & Ev). rewrite rget_set in Hg. destruct (key_eqb k k0) eqn:Ek; [|apply I5; exists hv, w; auto].
          injection Hg as <-. cbn [hv_items] in Hw. destruct (proj1 (set_has f Hf (hv_items a) (hv_items b) v)) as [(u & Hu & Eu)|(u & Hu & Eu)]; [eauto| |].
          -- apply I5. exists a, u. rewrite (rget_eq _ _ _ Ek). auto.
          -- right. exists b, u. rewrite (rget_eq _ _ _ Ek). auto.
      + destruct (h l2); [injection E as <- <-|discriminate]. auto 10.
    - destruct v2 as [b|l2]; [discriminate|]. destruct (merge_hps f h l (h l2)) as [[[]|] h2] eqn:EM; [|discriminate]. injection E as <- <-.
      apply (merge_hps_has f Hf) in EM as [F A].
      assert (G1 : rget c1 k0 = Some (RDict l)) by (rewrite <- (I3 k0); simpl; auto).
      pose proof (rget_in _ _ _ G1) as (k1 & Hin1 & Ek1). pose proof (dict_in _ _ _ Hin1) as Hl1.
      split; [|split; [|split; [|split]]]; auto.
      + intros x Hx. rewrite F; auto. intros ->. eapply (app_NoDup _ _ _ SEP); eauto.
      + intros k l' n v Hg Hh. destruct (Nat.eq_dec l' l) as [-> |Nl]; [|apply (I4 k l'); auto; rewrite <- F; auto].
        assert (Ek : key_eqb k k0 = true).
        { destruct (I2 k l Hg) as [X|(k' & Hk' & X)].
          - apply rget_in in X as (k2 & Hin3 & Ek2). assert (k1 = k2) by (eapply (ref_inj c1); eauto; eapply NoDup_l; exact SEP). subst k2.
            rewrite key_eqb_sym in Ek1. rewrite <- (key_eqb_trans _ _ k0 Ek2). auto.
          - exfalso. apply (app_NoDup _ _ l SEP); auto. apply (dict_in _ k'). rewrite Ec. apply in_or_app; auto. }
        apply A in Hh as [Hh|(hv & w & Hn & Hw & Ev)].
        * apply (I4 k l); auto.
        * right. exists l2, hv, w. rewrite (rget_eq _ _ _ Ek), R2. split; auto. assert (Hl2 : In l2 (dictionaries c2)) by (eapply dict_in; eauto).
          rewrite (I1 l2 Hl2) in Hn. split; [|auto]. apply in_hget; auto.
    - injection E as <- <-. split; auto. split; [|split; [|split]].
      + intros k l Hg. rewrite rget_set in Hg. destruct (key_eqb k k0) eqn:Ek; [|auto]. injection Hg as ->. right. exists k0. rewrite in_app_iff. simpl. auto.
      + intros k Hk. rewrite rget_set, (Dk _ Hk). auto.
      + intros k l n v Hg Hh. rewrite rget_set in Hg. destruct (key_eqb k k0) eqn:Ek; [|apply (I4 k l); auto]. injection Hg as ->.
        right. destruct Hh as (hv & w & X). rewrite (I1 l) in X by (eapply dict_in; eauto). exists l, hv, w. rewrite (rget_eq _ _ _ Ek). auto.
      + intros k v (hv & w & Hg & Hw). rewrite rget_set in Hg. destruct (key_eqb k k0) eqn:Ek; [|apply I5; exists hv, w; auto]. injection Hg as ->.
        right. exists hv, w. rewrite (rget_eq _ _ _ Ek). auto. }
  destruct S1 as (J1 & J2 & J3 & J4 & J5).
  apply (IH h1 m1 m' h' (done ++ [(k0, v2)])); auto. rewrite <- app_assoc. auto.
Qed.
End S.

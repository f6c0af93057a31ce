From Verif Require Import Base Tk_Model Tk_Spec.
Open Scope string_scope.
Open Scope list_scope.
Open Scope Z_scope.

Definition act_of (s : span) : activity := mkAct (s_name s) (mkSw false (s_from s) (s_to s)) (s_limit s).
Definition act_open (r : open) : activity := let '(n, l, t) := r in mkAct n (mkSw true t 0) l.
(** the last finished activity, if its body raised, stays current *)
Fixpoint stale (cur : option nat) (i : nat) (done : list span) : option nat :=
  match done with [] => cur | s :: d => stale (if s_raised s then Some i else None) (S i) d end.

Lemma set_nth_last {A} (l : list A) x y : set_nth (length l) y (l ++ [x]) = l ++ [y].
Proof. induction l; simpl; f_equal; auto. Qed.
Lemma nth_last {A} (l : list A) x : nth_error (l ++ [x]) (length l) = Some x.
Proof. rewrite nth_error_app2, Nat.sub_diag by lia. reflexivity. Qed.
Lemma one_span total cur acts s :
  fold_left step [Begin (s_from s) (s_name s) (s_limit s); End (s_to s) (s_raised s)] (mkTk total cur acts, [])
  = (mkTk total (if s_raised s then Some (length acts) else None) (acts ++ [act_of s]), []).
Proof.
  simpl. unfold act_end, act_begin, stop_at. cbn [tk_acts tk_total tk_current]. rewrite nth_last, set_nth_last. reflexivity.
Qed.
Lemma run_spans total : forall done cur acts,
  fold_left step (flat_map (fun s => [Begin (s_from s) (s_name s) (s_limit s); End (s_to s) (s_raised s)]) done) (mkTk total cur acts, [])
  = (mkTk total (stale cur (length acts) done) (acts ++ map act_of done), []).
Proof.
  induction done as [|s done IH]; intros cur acts; [simpl; rewrite app_nil_r; reflexivity|].
  cbn [flat_map]. rewrite fold_left_app, one_span, IH. cbn [map stale]. rewrite app_length. simpl. rewrite <- app_assoc, Nat.add_1_r. reflexivity.
Qed.
Lemma run_consecutive total done r :
  run total (consecutive done r) =
  match r with
  | None => mkTk total (stale None 0 done) (map act_of done)
  | Some o => mkTk total (Some (length done)) (map act_of done ++ [act_open o])
  end.
Proof.
  unfold run, consecutive. rewrite fold_left_app. unfold tk_new. rewrite run_spans. destruct r as [[[n l] t]|]; simpl; auto.
  unfold act_begin. cbn [tk_acts]. rewrite map_length. reflexivity.
Qed.
Lemma sum_spans now done : fold_right Z.add 0 (map (fun a => sw_elapsed now (a_sw a)) (map act_of done)) = spent_in done.
Proof. rewrite map_map. reflexivity. Qed.
Lemma sum_app l l' : fold_right Z.add 0 (l ++ l') = fold_right Z.add 0 l + fold_right Z.add 0 l'.
Proof. induction l as [|x l IH]; simpl; lia. Qed.
Lemma remaining_eq total done r now :
  total_time_remaining now (run (Some total) (consecutive done r)) = Ok (total - spent_in done - spent_now r now).
Proof.
  rewrite run_consecutive. unfold total_time_remaining. destruct r as [[[n l] t]|]; cbn [tk_total tk_acts spent_now].
  - rewrite map_app, sum_app, sum_spans. simpl. f_equal. unfold sw_elapsed. simpl. lia.
  - rewrite sum_spans. f_equal. lia.
Qed.
Lemma spent_bounds : forall done t0 r now, in_order t0 done r now -> 0 <= spent_in done + spent_now r now <= now - t0.
Proof.
  induction done as [|s done IH]; intros t0 r now H; simpl in H.
  - unfold spent_in. simpl. destruct r as [[[n l] t]|]; simpl; lia.
  - destruct H as (A & B & C). apply IH in C. unfold spent_in in *. simpl. lia.
Qed.
Lemma stale_last cur i done s : stale cur i (done ++ [s]) = if s_raised s then Some (i + length done)%nat else None.
Proof.
  revert cur i. induction done as [|d done IH]; intros cur i; simpl; [rewrite Nat.add_0_r; reflexivity|]. rewrite IH. rewrite <- Nat.add_succ_comm. reflexivity.
Qed.
Lemma run_total total es : tk_total (run total es) = total.
Proof.
  unfold run. assert (G : forall es st, tk_total (fst (fold_left step es st)) = tk_total (fst st)).
  { clear es. induction es as [|e es IH]; intros [k s]; simpl; auto. rewrite IH. destruct e; simpl; auto. destruct s; reflexivity. }
  rewrite G. reflexivity.
Qed.

(** arbitrary histories *)
Lemma sum_set (f : activity -> Z) : forall l i x y, nth_error l i = Some x ->
  fold_right Z.add 0 (map f (set_nth i y l)) = fold_right Z.add 0 (map f l) - f x + f y.
Proof.
  induction l as [|a l IH]; intros i x y E; destruct i; simpl in *; try discriminate.
  - injection E as ->. lia.
  - rewrite (IH _ _ _ E). lia.
Qed.
Lemma nth_set_other {A} : forall (l : list A) i j y, i <> j -> nth_error (set_nth i y l) j = nth_error l j.
Proof. induction l as [|a l IH]; intros i j y H; destruct i, j; simpl; auto; try lia. Qed.
Definition runs (k : timekeeper) (i : nat) (t : Z) : Prop :=
  exists a, nth_error (tk_acts k) i = Some a /\ sw_running (a_sw a) = true /\ sw_start (a_sw a) = t.
Definition total_elapsed (k : timekeeper) (now : Z) : Z := fold_right Z.add 0 (map (fun a => sw_elapsed now (a_sw a)) (tk_acts k)).
Lemma runs_begin k t n l : forall idx starts, Forall2 (runs k) idx starts -> Forall2 (runs (act_begin t n l k)) idx starts.
Proof.
  intros idx starts F. induction F as [|i s idx starts (a & E & R & T) F IH]; constructor; auto. exists a. split; auto.
  unfold act_begin. cbn [tk_acts]. rewrite nth_error_app1; auto. apply nth_error_Some. rewrite E. discriminate.
Qed.
Lemma runs_lt k : forall idx starts, Forall2 (runs k) idx starts -> ~ In (length (tk_acts k)) idx.
Proof.
  intros idx starts F. induction F as [|i s idx starts (a & E & _) F IH]; simpl; auto. intros [H | H]; auto. subst i.
  assert (length (tk_acts k) < length (tk_acts k))%nat by (apply nth_error_Some; rewrite E; discriminate). lia.
Qed.
Lemma runs_end k now r j : forall idx starts, ~ In j idx -> Forall2 (runs k) idx starts -> Forall2 (runs (act_end now r j k)) idx starts.
Proof.
  intros idx starts N F. induction F as [|i s idx starts (a & E & R & T) F IH]; constructor; [|apply IH; intros H; apply N; right; exact H].
  exists a. split; auto. unfold act_end, stop_at. cbn [tk_acts]. destruct (nth_error (tk_acts k) j); auto.
  rewrite nth_set_other; auto. intros ->. apply N. left. reflexivity.
Qed.
Lemma running_inv : forall es k idx starts C,
  Forall2 (runs k) idx starts -> NoDup idx ->
  (forall n, total_elapsed k n = C + fold_right Z.add 0 (map (fun t => n - t) starts)) ->
  forall now, total_elapsed (fst (fold_left step es (k, idx))) now = C + running_time starts es now.
Proof.
  induction es as [|e es IH]; intros k idx starts C F ND S now; [simpl; apply S|]. cbn [fold_left step]. destruct e as [t n l|t r].
  - cbn [running_time]. apply IH.
    + constructor; [|apply runs_begin; exact F].
      exists (mkAct n (sw_enter t sw_new) l). unfold act_begin. cbn [tk_acts]. rewrite nth_last. repeat split.
    + constructor; [eapply runs_lt; exact F|exact ND].
    + intros m. unfold total_elapsed, act_begin. cbn [tk_acts]. rewrite map_app, sum_app. fold (total_elapsed k m). rewrite S. simpl. unfold sw_elapsed. simpl. lia.
  - inversion F as [|i s idx' starts' (a & E & R & T) F' A B]; subst.
    + cbn [running_time]. apply IH; auto.
    + cbn [running_time]. inversion ND as [|? ? NI ND']; subst. rewrite Z.add_assoc. apply IH; auto.
      * apply runs_end; auto.
      * intros m. unfold total_elapsed, act_end, stop_at. cbn [tk_acts]. rewrite E. rewrite (sum_set _ _ _ _ _ E). fold (total_elapsed k m). rewrite S.
        unfold sw_elapsed, sw_exit. cbn [a_sw sw_running sw_start sw_end]. rewrite R. simpl. lia.
Qed.
Lemma remaining_any total es now :
  total_time_remaining now (run (Some total) es) = Ok (total - running_time [] es now).
Proof.
  unfold total_time_remaining. rewrite run_total. fold (total_elapsed (run (Some total) es) now). unfold run.
  rewrite (running_inv es (tk_new (Some total)) [] [] 0); auto; constructor.
Qed.

(*IMPORTS*)
From Verif Require Import Base Num Gp_Model Str_Model Str_Spec Misc_Model Log_Model Log_Spec Rep_Model Rep_Spec.
Open Scope string_scope.
Open Scope list_scope.
Open Scope nat_scope.
(*END*)
Require Import Ascii.
From Verif Require Import Str_Proofs Log_Proofs Log_Proofs2 Log_Proofs3 Log_Proofs4 Log_Main Data_Proofs2.

Lemma qlt_le a b : qltb a b = false -> Qle_bool b a = true.
Proof. unfold qltb. intros H. apply negb_false_iff in H. exact H. Qed.
Lemma qltb_le a b : qltb a b = true -> Qle_bool a b = true.
Proof.
  unfold qltb. intros H. apply negb_true_iff in H. apply Qle_bool_iff. destruct (Qlt_le_dec a b) as [K|K]; [apply Qlt_le_weak; exact K|].
  apply Qle_bool_iff in K. congruence.
Qed.
Lemma nleb_refl x : x <> NaN -> nleb x x = true.
Proof. destruct x; try congruence; auto. intros _. apply Qle_bool_iff. apply Qle_refl. Qed.
Lemma nleb_trans x y z : nleb x y = true -> nleb y z = true -> nleb x z = true.
Proof. destruct x, y, z; cbn; try discriminate; auto. rewrite !Qle_bool_iff. intros. eapply Qle_trans; eauto. Qed.
Lemma nltb_cases x y : x <> NaN -> y <> NaN -> if nltb y x then nleb y x = true else nleb x y = true.
Proof. destruct x, y; cbn; try congruence; auto. intros _ _. destruct (qltb q0 q) eqn:E; [apply qltb_le|apply qlt_le]; exact E. Qed.
Lemma is_nan_dec (x : num) : {x = NaN} + {x <> NaN}.
Proof. destruct x; [left; reflexivity|right; discriminate..]. Qed.
Lemma cummax_cons best x l : x <> NaN -> cummax_from best (x :: l) =
  let b := match best with None => x | Some y => if nltb y x then x else y end in b :: cummax_from (Some b) l.
Proof. destruct x; congruence || reflexivity. Qed.
Lemma cummax_spec l : forall best seen, (forall b, best = Some b -> best_of seen b) -> (best = None -> Forall (fun x => x = NaN) seen) ->
  forall i x, nth_error l i = Some x ->
    exists c, nth_error (cummax_from best l) i = Some c /\ (x = NaN -> c = NaN) /\ (x <> NaN -> best_of (seen ++ firstn (S i) l) c).
Proof.
  induction l as [|x l IH]; intros best seen B N i y E; [destruct i; discriminate|].
  destruct (is_nan_dec x) as [->|NN].
  - cbn [cummax_from]. destruct i as [|i]; [exists NaN; injection E as <-; cbn; repeat split; auto; congruence|].
    cbn [nth_error] in E. destruct (IH best (seen ++ [NaN])) with (i := i) (x := y) as (c & C1 & C2 & C3); auto.
    + intros b Hb. destruct (B b Hb) as (H1 & H2 & H3). split; [apply in_or_app; auto|]. split; auto. intros z Hz Nz. apply in_app_or in Hz as [Hz|[<-|[]]]; [auto|congruence].
    + intros Hb. apply Forall_app. split; auto.
    + exists c. split; [exact C1|]. split; auto. intros H. specialize (C3 H). rewrite <- app_assoc in C3. exact C3.
  - rewrite cummax_cons by exact NN. cbv zeta. set (b := match best with None => x | Some y => if nltb y x then x else y end).
    assert (BO : best_of (seen ++ [x]) b).
    { unfold b. destruct best as [y0|].
      - destruct (B y0 eq_refl) as (H1 & H2 & H3). pose proof (nltb_cases x y0 NN H2) as C. destruct (nltb y0 x).
        + split; [apply in_or_app; simpl; auto|]. split; auto. intros z Hz Nz. apply in_app_or in Hz as [Hz|[<-|[]]]; [|apply nleb_refl; auto]. eapply nleb_trans; [apply H3; auto|exact C].
        + split; [apply in_or_app; auto|]. split; auto. intros z Hz Nz. apply in_app_or in Hz as [Hz|[<-|[]]]; [apply H3; auto|exact C].
      - specialize (N eq_refl). split; [apply in_or_app; simpl; auto|]. split; auto. intros z Hz Nz. apply in_app_or in Hz as [Hz|[<-|[]]]; [|apply nleb_refl; auto].
        rewrite Forall_forall in N. specialize (N z Hz). congruence. }
    destruct i as [|i].
    + injection E as <-. exists b. split; [reflexivity|]. split; [congruence|]. intros _. exact BO.
    + cbn [nth_error] in *. destruct (IH (Some b) (seen ++ [x])) with (i := i) (x := y) as (c & C1 & C2 & C3); auto.
      * intros b' Hb. injection Hb as <-. exact BO.
      * discriminate.
      * exists c. split; [exact C1|]. split; auto. intros H. specialize (C3 H). rewrite <- app_assoc in C3. exact C3.
Qed.
Lemma earliest_spec l : l <> [] -> In (earliest l) (map fst l) /\ forall p, In p l -> (earliest l <= fst p)%Z.
Proof.
  destruct l as [|[t d] l]; [congruence|]. intros _. cbn [earliest].
  assert (G : forall l m, let e := fold_left (fun m (p : Z * Z) => Z.min m (fst p)) l m in (e = m \/ In e (map fst l)) /\ (e <= m)%Z /\ forall p, In p l -> (e <= fst p)%Z).
  { clear. induction l as [|[t d] l IH]; intros m; cbn [fold_left map fst].
    - split; [auto|]. split; [lia|]. intros p [].
    - cbv zeta. destruct (IH (Z.min m t)) as (A & B & C). split; [|split; [lia|]].
      + destruct A as [A|A]; [|simpl; auto]. destruct (Z.min_spec m t) as [[_ E]|[_ E]]; rewrite E in A at 2; simpl; auto.
      + intros p [<-|Hp]; auto. cbn [fst]. lia. }
  destruct (G l t) as (A & B & C). split.
  - destruct A as [A|A]; simpl; auto.
  - intros p [<-|Hp]; auto.
Qed.
Lemma missing_iff q : existsb missing q = false <-> Forall real q.
Proof.
  induction q as [|x q IH]; cbn [existsb]; [split; auto|]. rewrite orb_false_iff, IH. split.
  - intros [A B]. constructor; auto. destruct x; cbn in A; try discriminate. eexists; reflexivity.
  - intros H. inversion H as [|? ? [y ->] H2]; subst. auto.
Qed.

(** C132. After any interleaving of complete writes to the evaluation log and updates,
    ending in an update: the cumulative maximum of a metric at an evaluation is the
    best value of that metric among it and those logged before it; values that are
    not a number have no maximum and do not count. *)
Lemma C132_cummax_main : forall ind (float_of : string -> res num) (parse : string -> res ind) m names ops f i j row q,
  Forall (clean ";") names -> 2 <= length names -> Forall (readable float_of parse m names) (writes ops) ->
  let r := snd (run_ops float_of parse m names (ops ++ [OUpdate f])) in
  nth_error (r_evals r) i = Some (i, (row, q)) -> j < m ->
  exists x c, nth_error q j = Some x /\ nth_error (cummax j r) i = Some c /\ (x = NaN -> c = NaN) /\
    (x <> NaN -> best_of (map (fun e => nth j (snd (snd e)) NaN) (firstn (S i) (r_evals r))) c).
Proof.
  intros ind float_of parse m names ops f i j row q A B G r E J.
  destruct (C82_every_row_once_partial_main num ind float_of parse m names ops f A B G) as (_ & _ & R & _). fold r in R.
  assert (L : length q = m). { rewrite Forall_forall in R. specialize (R _ (nth_error_In _ _ E)). cbn in R. apply R. }
  destruct (nth_error q j) as [x|] eqn:X; [|apply nth_error_None in X; lia].
  assert (Y : nth_error (metric_column j r) i = Some x).
  { unfold metric_column. rewrite nth_error_map, E. cbn. rewrite (nth_error_nth _ _ _ X). reflexivity. }
  unfold cummax. destruct (cummax_spec (metric_column j r) None []) with (i := i) (x := x) as (c & C1 & C2 & C3); auto; [discriminate|].
  exists x, c. split; [reflexivity|]. split; [exact C1|]. split; [exact C2|]. intros H. specialize (C3 H). cbn [app] in C3. unfold metric_column in C3. rewrite firstn_map in C3. exact C3.
Qed.
(** The end of an evaluation is reported relative to the earliest start among all
    evaluations read so far. *)
Lemma C132_relative_end_main : forall ind (r : report num ind) time_of duration_of names times ends,
  Forall2 (fun e p => (exists s, cell names (fst (snd e)) "t_start" s /\ time_of s = Ok (fst p)) /\
                      (exists s, cell names (fst (snd e)) "t_wallclock" s /\ duration_of s = Ok (snd p))) (r_evals r) times ->
  relative_end time_of duration_of names r = Ok ends ->
  (times = [] /\ ends = []) \/
  exists first, In first (map fst times) /\ (forall p, In p times -> (first <= fst p)%Z) /\ ends = map (fun p => fst p + snd p - first)%Z times.
Proof.
  intros ind r time_of duration_of names times ends F E. unfold relative_end in E.
  assert (R : rmap (row_times time_of duration_of names) (map (fun e => fst (snd e)) (r_evals r)) = Ok times).
  { clear E. induction F as [|e p es ps [(s & C & T) (u & D & V)] F IH]; [reflexivity|]. cbn [map rmap]. unfold row_times at 1. apply cell_of_iff in C, D. rewrite C. cbn [rbind]. rewrite T. cbn [rbind]. rewrite D. cbn [rbind]. rewrite V. cbn [rbind]. rewrite IH. destruct p; reflexivity. }
  rewrite R in E. cbn [rbind] in E. injection E as <-. destruct times as [|p times]; [left; auto|]. right. exists (earliest (p :: times)).
  destruct (earliest_spec (p :: times)) as [A B]; [discriminate|]. auto.
Qed.
Example C132_ex_main :
  let names := ["id"; "t_start"; "t_wallclock"; "score"; "pipeline"] in
  let fl s := if String.eqb s "-inf" then Ok NInf else if String.eqb s "nan" then Ok NaN else if String.eqb s "7" then Ok (Fin 7) else Ok (Fin 3) in
  let row i t x := [i; t; "2"; ("(" ++ x ++ ",1)")%string; "A"] in
  let rows := [row "1" "5" "-inf"; row "2" "4" "3"; row "3" "9" "nan"; row "4" "9" "7"; row "5" "9" "3"] in
  let r := snd (run_ops fl (fun s => Ok s) 2 names (map OWrite rows ++ [OUpdate true])) in
  let tm s := Ok (if String.eqb s "5" then 5 else if String.eqb s "4" then 4 else if String.eqb s "9" then 9 else 2)%Z in
  Forall (readable fl (fun s => Ok s) 2 names) rows /\ length (r_evals r) = 5 /\
  cummax 0 r = [NInf; Fin 3; NaN; Fin 7; Fin 7] /\ relative_end tm tm names r = Ok [3; 2; 7; 7; 7]%Z /\
  map (fun e => hd "" (fst (snd e))) (successful_evaluations r) = ["2"; "4"; "5"].
Proof.
  cbv zeta. split; [|vm_compute; auto].
  assert (Q : forall i t x y, clean ";" i -> clean ";" t -> clean ";" ("(" ++ x ++ ",1)")%string -> ~ contains "," x ->
    (if String.eqb x "-inf" then Ok NInf else if String.eqb x "nan" then Ok NaN else if String.eqb x "7" then Ok (Fin 7) else Ok (Fin 3)) = Ok y ->
    readable (fun s => if String.eqb s "-inf" then Ok NInf else if String.eqb s "nan" then Ok NaN else if String.eqb s "7" then Ok (Fin 7) else Ok (Fin 3)) (fun s => Ok s) 2
      ["id"; "t_start"; "t_wallclock"; "score"; "pipeline"] [i; t; "2"; ("(" ++ x ++ ",1)")%string; "A"]).
  { intros i t x y Hi Ht Hx Nx Ex. split; [|split; [reflexivity|split]].
    - constructor; [exact Hi|]. constructor; [exact Ht|]. constructor; [split; apply hasb_false; reflexivity|]. constructor; [exact Hx|]. cleans.
    - exists [y; Fin 3]. split; [reflexivity|]. exists ("(" ++ x ++ ",1)")%string, [x; "1"]. split; [apply cell_of_iff; reflexivity|]. split; [|repeat constructor; exact Ex].
      split; [discriminate|]. split; [constructor; [exact Nx|constructor; [apply hasb_false; reflexivity|constructor]]|]. rewrite join_cons by discriminate. rewrite !append_assoc. reflexivity.
    - exists (i, "A"). split; [apply cell_of_iff; reflexivity|]. exists "A". split; [apply cell_of_iff; reflexivity|reflexivity]. }
  repeat (apply Forall_cons; [eapply Q; [split; apply hasb_false; reflexivity|split; apply hasb_false; reflexivity|split; apply hasb_false; reflexivity|apply hasb_false; reflexivity|reflexivity]|]). constructor.
Qed.

(** C133. The successful evaluations of a report are those logged with finite scores
    only, in the order in which they were logged. *)
Lemma C133_successful_main : forall ind (float_of : string -> res num) (parse : string -> res ind) m names ops f,
  Forall (clean ";") names -> 2 <= length names -> Forall (readable float_of parse m names) (writes ops) ->
  let r := snd (run_ops float_of parse m names (ops ++ [OUpdate f])) in
  exists qs, Forall2 (row_metrics float_of m names) (writes ops) qs /\
    finite_rows (writes ops) qs (map (fun e => fst (snd e)) (successful_evaluations r)).
Proof.
  intros ind float_of parse m names ops f A B G r.
  destruct (C82_every_row_once_partial_main num ind float_of parse m names ops f A B G) as (_ & W & R & _). fold r in W, R. rewrite <- W.
  exists (map (fun e => snd (snd e)) (r_evals r)). unfold successful_evaluations. clear - R. induction R as [|e es H R [IH1 IH2]]; [split; constructor|]. cbn [map filter]. split; [constructor; auto|].
  destruct (existsb missing (snd (snd e))) eqn:E; cbn [negb map].
  - apply f_no; auto. intros K. apply missing_iff in K. congruence.
  - apply f_yes; auto. apply missing_iff. exact E.
Qed.
(** So an evaluation that failed, and was logged with score -inf, is not among them. *)
Lemma C133_failed_main : forall ind (float_of : string -> res num) (parse : string -> res ind) m names ops f,
  Forall (clean ";") names -> 2 <= length names -> Forall (readable float_of parse m names) (writes ops) ->
  float_of "-inf" = Ok NInf ->
  let r := snd (run_ops float_of parse m names (ops ++ [OUpdate f])) in
  forall e s parts, In e (successful_evaluations r) -> cell names (fst (snd e)) "score" s -> tuple_of s parts -> ~ In "-inf" parts.
Proof.
  intros ind float_of parse m names ops f A B G I r e s parts H C T K.
  destruct (C82_every_row_once_partial_main num ind float_of parse m names ops f A B G) as (_ & _ & R & _). fold r in R.
  unfold successful_evaluations in H. apply filter_In in H as [H F]. apply negb_true_iff, missing_iff in F.
  rewrite Forall_forall in R. destruct (R e H) as (_ & s' & parts' & C' & T' & P). assert (E : s' = s) by (apply cell_of_iff in C, C'; congruence). subst s'.
  assert (E : parts' = parts).
  { destruct T as (T1 & T2 & ->). destruct T' as (T1' & T2' & E). injection E as E. 
    assert (J : join "," parts' = join "," parts).
    { apply (f_equal (fun s => chop1 (String "("%char s))) in E. change (")"%string) with (String ")" "") in E. rewrite !chop1_wrap in E. congruence. }
    apply (f_equal (split ",")) in J. rewrite !(split_join ","%char) in J by auto. exact J. }
  subst parts'. clear - P K F I. induction P as [|p x ps xs E P IH]; [destruct K|]. inversion F as [|? ? [q Q] F2]; subst. destruct K as [->|K]; [congruence|auto].
Qed.
Example C133_ex_main : finite_rows [["a"]; ["b"]; ["c"]] [[Fin 1; Fin 2]; [Fin 1; NInf]; [Fin 0; Fin 0]] [["a"]; ["c"]].
Proof.
  apply f_yes; [repeat constructor; eexists; reflexivity|]. apply f_no.
  - intros H. inversion H as [|? ? _ H2]; subst. inversion H2 as [|? ? [q Q] _]; discriminate.
  - apply f_yes; [repeat constructor; eexists; reflexivity|constructor].
Qed.

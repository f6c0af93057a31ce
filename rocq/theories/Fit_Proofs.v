(** Proofs about fit. *)
Require Import QArith Qcanon.
From Verif Require Import Base Num Data_Model Tk_Model Gp_Model Pred_Model Fit_Model.
From Verif Require Fac_Model.
Open Scope string_scope.
Open Scope list_scope.
Open Scope nat_scope.

Section Fit.
  Context {I : Type} (rate : positive) (fit_transform : enc_step -> frame -> res frame)
          (fitted : list enc_step -> frame -> frame -> res frame)
          (knn poly : primitive -> bool) (key : I -> option (list num)) (takes_labels : bool).
  Notation preprocessing := (preprocessing fit_transform fitted knn poly).
  Notation search_phase := (search_phase rate).
  Notation post_processing := (post_processing key).
  Notation base_fit := (base_fit rate fit_transform fitted knn poly key).
  Notation ticks := (ticks rate).
  Notation seconds := (seconds rate).

  (** the attributes fit never assigns *)
  Definition same_setup (g g' : inst I) : Prop :=
    i_classifier g' = i_classifier g /\ i_total g' = i_total g /\ i_fraction g' = i_fraction g /\ i_stores g' = i_stores g /\
    i_store g' = i_store g.

  Lemma pre_cases c g r g' : preprocessing c g = (r, g') ->
    i_keeper g' = i_keeper g /\ same_setup g g' /\ i_final g' = i_final g /\ i_labels g' = i_labels g /\ i_dir g' = i_dir g /\
    g_model (i_gama g') = g_model (i_gama g) /\ g_classes (i_gama g') = g_classes (i_gama g) /\
    match format_x_y (c_x c) (c_y c) TSeries true with
    | Err e => r = Err e /\ i_gama g' = i_gama g
    | Ok (x, y) => i_y g' = Some y /\
      match inferred_dtypes (c_x c) (c_declared c) with
      | Err e => r = Err e /\ i_gama g' = i_gama g
      | Ok types => g_dtypes (i_gama g') = types /\
        match basic_encoding fit_transform x (i_classifier g) with
        | Err e => r = Err e /\ g_transform (i_gama g') = g_transform (i_gama g)
        | Ok (x', steps) => i_x g' = Some x' /\ i_gama g' = Pred_Model.mkGama types (Some (fitted steps x)) (g_classes (i_gama g)) (g_model (i_gama g)) /\
          match basic_pipeline_extension x' (i_classifier g) with
          | Err e => r = Err e
          | Ok ext => r = Ok tt /\ i_extension g' = ext /\
              i_pset g' = Fac_Model.restrict (i_stores g) (length (f_index x')) (length (f_cols x')) knn poly (i_pset g)
          end
        end
      end
    end.
  Proof.
    intros E. unfold Fit_Model.preprocessing in E. destruct (format_x_y _ _ _ _) as [[x y]|e].
    2:{ injection E as <- <-. repeat split; auto. }
    cbn zeta in E. destruct (inferred_dtypes _ _) as [types|e]; [|injection E as <- <-; repeat split; auto].
    cbn [set_gama set_y i_classifier] in E. destruct (basic_encoding _ _ _) as [[x' steps]|e]; [|injection E as <- <-; repeat split; auto].
    cbn [set_gama set_x set_y i_classifier] in E. destruct (basic_pipeline_extension _ _) as [ext|e]; injection E as <- <-; repeat split; auto.
  Qed.

  Lemma search_cases c limit g r g' : search_phase c limit g = (r, g') ->
    i_keeper g' = i_keeper g /\ same_setup g g' /\ i_labels g' = i_labels g /\ i_gama g' = i_gama g /\ i_x g' = i_x g /\ i_y g' = i_y g /\
    i_extension g' = i_extension g /\ i_pset g' = i_pset g /\
    match r with
    | Ok _ => exists pop x y outcome, Fac_Model.start_population (c_warm c) (i_final g) (c_fresh c (i_pset g)) = Ok pop /\ i_x g = Some x /\ i_y g = Some y /\
        c_search c (i_pset g) (i_extension g) pop x y (i_labels g) limit (c_clock c 5 + ticks limit)%Z = (outcome, i_final g') /\
        (outcome = Ok tt \/ outcome = Err TimeoutException \/ outcome = Err KeyboardInterrupt) /\ i_dir g' = c_dir c
    | Err e => Fac_Model.start_population (c_warm c) (i_final g) (c_fresh c (i_pset g)) = Err e \/ i_x g = None \/ i_y g = None \/
        exists pop x y output, Fac_Model.start_population (c_warm c) (i_final g) (c_fresh c (i_pset g)) = Ok pop /\ i_x g = Some x /\ i_y g = Some y /\
        c_search c (i_pset g) (i_extension g) pop x y (i_labels g) limit (c_clock c 5 + ticks limit)%Z = (Err e, output) /\ e <> TimeoutException /\ e <> KeyboardInterrupt
    end.
  Proof.
    intros E. unfold Fit_Model.search_phase in E. destruct (Fac_Model.start_population _ _ _) as [pop|e].
    2:{ injection E as <- <-. repeat (split; [repeat split|]). auto. }
    destruct (i_x g) as [x|] eqn:X; [|injection E as <- <-; repeat (split; [repeat split; auto|]); auto].
    destruct (i_y g) as [y|] eqn:Y; [|injection E as <- <-; repeat (split; [repeat split; auto|]); auto].
    destruct (c_search _ _ _ _ _ _ _ _ _) as [outcome output] eqn:S. unfold Fac_Model.search_phase in E.
    destruct outcome as [[]|e].
    { injection E as <- <-. repeat (split; [repeat split; auto|]). exists pop, x, y, (Ok tt). repeat split; auto. }
    destruct e; injection E as <- <-; repeat (split; [repeat split; auto|]);
      try (right; right; right; exists pop, x, y, output; repeat split; auto; discriminate); match type of S with _ = (?o, _) => exists pop, x, y, o end; repeat split; auto.
  Qed.

  Definition values (i : I) : list num := match key i with Some v => v | None => [] end.
  Lemma post_cases c g r g' : post_processing c g = (r, g') ->
    i_keeper g' = i_keeper g /\ same_setup g g' /\ i_labels g' = i_labels g /\ i_x g' = i_x g /\ i_y g' = i_y g /\
    i_extension g' = i_extension g /\ i_pset g' = i_pset g /\ i_final g' = i_final g /\ i_dir g' = i_dir g /\
    match r with
    | Ok _ => exists x y rest m, i_x g = Some x /\ i_y g = Some y /\ total_time_remaining (c_clock c 9) (i_keeper g) = Ok rest /\
        Forall (fun i => key i <> None) (i_final g) /\
        c_post c x y rest (Fac_Model.best_individuals values (i_final g)) = Ok m /\ i_gama g' = set_model m (i_gama g)
    | Err e => i_gama g' = i_gama g
    end.
  Proof.
    intros E. unfold Fit_Model.post_processing in E. fold values in E.
    change (fun i : I => match key i with Some v => v | None => [] end) with values in E.
    destruct (existsb _ (i_final g)) eqn:F; [injection E as <- <-; repeat split; auto|].
    destruct (i_x g) as [x|] eqn:X; destruct (i_y g) as [y|] eqn:Y; destruct (total_time_remaining _ _) as [rest|] eqn:T;
      try (injection E as <- <-; repeat split; auto; fail).
    destruct (c_post _ _ _ _ _) as [m|e] eqn:P; injection E as <- <-; repeat (split; [repeat split; auto|]); auto.
    exists x, y, rest, m. repeat split; auto. apply Forall_forall. intros i Hi K. assert (H : existsb (fun i => match key i with None => true | Some _ => false end) (i_final g) = true).
    { apply existsb_exists. exists i. rewrite K. auto. } congruence.
  Qed.

  Lemma block_cases clock b e name limit body (g : inst I) r g' :
    activity_block clock b e name limit body g = (r, g') ->
    exists g1, body (set_keeper g (act_begin (clock b) name limit (i_keeper g))) = (r, g1) /\
      g' = set_keeper g1 (act_end (clock e) (match r with Ok _ => false | Err _ => true end) (length (tk_acts (i_keeper g))) (i_keeper g1)).
  Proof.
    intros E. unfold activity_block in E. destruct (body _) as [r1 g1]. injection E as <- <-. exists g1. auto.
  Qed.

  (** a finished activity *)
  Definition done_act (clock : nat -> Z) (b e : nat) (name : string) (limit : option Z) : activity := mkAct name (mkSw false (clock b) (clock e)) limit.
  Lemma pre_keeper clock total raised : act_end (clock 1) raised 0 (act_begin (clock 0) "preprocessing" None (tk_new total)) =
    mkTk total (if raised then Some 0 else None) [done_act clock 0 1 "preprocessing" None].
  Proof. reflexivity. Qed.
  Lemma search_keeper clock total lim raised :
    act_end (clock 6) raised 1 (act_begin (clock 4) "search" lim (mkTk total None [done_act clock 0 1 "preprocessing" None])) =
    mkTk total (if raised then Some 1 else None) [done_act clock 0 1 "preprocessing" None; done_act clock 4 6 "search" lim].
  Proof. reflexivity. Qed.
  Lemma post_keeper clock total lim lim2 raised :
    act_end (clock 10) raised 2 (act_begin (clock 8) "postprocess" lim2
      (mkTk total None [done_act clock 0 1 "preprocessing" None; done_act clock 4 6 "search" lim])) =
    mkTk total (if raised then Some 2 else None)
      [done_act clock 0 1 "preprocessing" None; done_act clock 4 6 "search" lim; done_act clock 8 10 "postprocess" lim2].
  Proof. reflexivity. Qed.

  (** The stages of fit: how far it came. *)
  Definition left1 (c : call I) (g : inst I) : Z := (ticks (i_total g) - (c_clock c 1 - c_clock c 0))%Z.
  Definition limit1 (c : call I) (g : inst I) : Z := Fac_Model.py_int ((1 - i_fraction g) * seconds (left1 c g)).
  Definition left2 (c : call I) (g : inst I) : Z := (left1 c g - (c_clock c 6 - c_clock c 4))%Z.
  Definition limit2 (c : call I) (g : inst I) : Z := Fac_Model.py_int (seconds (left2 c g)).
  Definition left3 (c : call I) (g : inst I) : Z := (left2 c g - (c_clock c 9 - c_clock c 8))%Z.
  Definition acts (c : call I) (g : inst I) : list activity :=
    [done_act (c_clock c) 0 1 "preprocessing" None; done_act (c_clock c) 4 6 "search" (Some (ticks (limit1 c g)));
     done_act (c_clock c) 8 10 "postprocess" (Some (ticks (limit2 c g)))].

  Definition begun (c : call I) (g : inst I) : inst I :=
    set_keeper g (act_begin (c_clock c 0) "preprocessing" None (tk_new (Some (ticks (i_total g))))).

  Lemma base_fit_cases c g r g' : base_fit c g = (r, g') ->
    exists r1 g1, preprocessing c (begun c g) = (r1, g1) /\
    match r1 with
    | Err e => r = Err e /\ g' = set_keeper g1 (mkTk (Some (ticks (i_total g))) (Some 0) (firstn 1 (acts c g)))
    | Ok _ =>
      let g2 := set_keeper g1 (mkTk (Some (ticks (i_total g))) None (firstn 1 (acts c g))) in
      ((left1 c g < 0)%Z /\ r = Err RuntimeError /\ g' = g2) \/
      ((0 <= left1 c g)%Z /\ exists r2 g3,
        search_phase c (limit1 c g) (set_keeper g2 (act_begin (c_clock c 4) "search" (Some (ticks (limit1 c g))) (i_keeper g2))) = (r2, g3) /\
        match r2 with
        | Err e => r = Err e /\ g' = set_keeper g3 (mkTk (Some (ticks (i_total g))) (Some 1) (firstn 2 (acts c g)))
        | Ok _ =>
          let g4 := set_keeper g3 (mkTk (Some (ticks (i_total g))) None (firstn 2 (acts c g))) in
          exists r3 g5,
          post_processing c (set_keeper g4 (act_begin (c_clock c 8) "postprocess" (Some (ticks (limit2 c g))) (i_keeper g4))) = (r3, g5) /\
          total_time_remaining (c_clock c 9) (act_begin (c_clock c 8) "postprocess" (Some (ticks (limit2 c g))) (i_keeper g4)) = Ok (left3 c g) /\
          match r3 with
          | Err e => r = Err e /\ g' = set_keeper g5 (mkTk (Some (ticks (i_total g))) (Some 2) (acts c g))
          | Ok _ =>
            let g6 := set_keeper g5 (mkTk (Some (ticks (i_total g))) None (acts c g)) in
            r = fst (Fac_Model.fit_end (i_store g) (i_dir g5)) /\ g' = set_dir g6 (snd (Fac_Model.fit_end (i_store g) (i_dir g5)))
          end
        end)
    end.
  Proof.
    intros E. unfold Fit_Model.base_fit in E.
    destruct (activity_block (c_clock c) 0 1 _ _ _ _) as [r1 h1] eqn:B1. apply block_cases in B1 as (g1 & P & ->).
    fold (begun c g) in P. change (set_keeper (set_keeper g (tk_new (Some (ticks (i_total g))))) _) with (begun c g) in P.
    exists r1, g1. split; [exact P|]. apply pre_cases in P as (K1 & S1 & _). unfold begun in K1. cbn [set_keeper i_keeper] in K1.
    cbn [set_keeper i_keeper tk_new tk_acts length] in E. rewrite K1 in E. cbn [i_keeper] in E. rewrite pre_keeper in E.
    destruct r1 as [[]|e]; cbn [and_then] in E; [|injection E as <- <-; auto].
    change (mkTk (Some (ticks (i_total g))) None [done_act (c_clock c) 0 1 "preprocessing" None]) with (mkTk (Some (ticks (i_total g))) None (firstn 1 (acts c g))) in E.
    set (g2 := set_keeper g1 _) in *. cbn zeta. fold g2.
    assert (L : forall now, total_time_remaining now (i_keeper g2) = Ok (left1 c g)).
    { intros now. unfold g2, left1. cbn. f_equal. lia. }
    rewrite !L in E. destruct (left1 c g <? 0)%Z eqn:N.
    { injection E as <- <-. left. apply Z.ltb_lt in N. auto. }
    right. apply Z.ltb_ge in N. split; auto.
    assert (Fr : i_fraction g2 = i_fraction g) by (unfold g2; cbn; exact (proj1 (proj2 (proj2 S1)))). rewrite Fr in E. fold (limit1 c g) in E.
    destruct (activity_block (c_clock c) 4 6 _ _ _ _) as [r2 h2] eqn:B2. apply block_cases in B2 as (g3 & P2 & ->).
    exists r2, g3. split; [exact P2|]. apply search_cases in P2 as (K2 & S2 & _). cbn [set_keeper i_keeper] in K2. rewrite K2 in E.
    change (length (tk_acts (i_keeper g2))) with 1 in E.
    change (i_keeper g2) with (mkTk (Some (ticks (i_total g))) None [done_act (c_clock c) 0 1 "preprocessing" None]) in E. rewrite search_keeper in E.
    destruct r2 as [[]|e]; cbn [and_then] in E; [|injection E as <- <-; auto].
    set (g4 := set_keeper g3 _) in E. cbn zeta.
    change (set_keeper g3 (mkTk (Some (ticks (i_total g))) None (firstn 2 (acts c g)))) with g4.
    assert (L2 : total_time_remaining (c_clock c 7) (i_keeper g4) = Ok (left2 c g)).
    { unfold g4, left2, left1. cbn. f_equal. lia. }
    rewrite L2 in E. fold (limit2 c g) in E.
    destruct (activity_block (c_clock c) 8 10 _ _ _ _) as [r3 h3] eqn:B3. apply block_cases in B3 as (g5 & P3 & ->).
    exists r3, g5. split; [exact P3|]. split.
    { unfold g4, left3, left2, left1. cbn. f_equal. lia. }
    apply post_cases in P3 as (K3 & S3 & _). cbn [set_keeper i_keeper] in K3. rewrite K3 in E.
    change (length (tk_acts (i_keeper g4))) with 2 in E. unfold g4 in E. cbn [set_keeper i_keeper] in E. rewrite post_keeper in E.
    destruct r3 as [[]|e]; cbn [and_then] in E; [|injection E as <- <-; auto].
    cbn [set_keeper i_store i_dir] in E. assert (St : i_store g5 = i_store g).
    { destruct S1 as (_ & _ & _ & _ & S1), S2 as (_ & _ & _ & _ & S2), S3 as (_ & _ & _ & _ & S3). rewrite S3. cbn. rewrite S2. cbn. rewrite S1. reflexivity. }
    rewrite St in E. destruct (Fac_Model.fit_end _ _) as [r4 d]. injection E as <- <-. auto.
  Qed.
End Fit.

(** Property theorems; proofs in Seq_Main.v. *)
Require Import Ascii Permutation.
From Verif Require Import Base Num Par_Model Par_Spec Gp_Model Gp_Spec Str_Spec Seq_Model Seq_Spec.
From Verif Require Import Par_Main Gp_Examples Lib_Model Lib_Spec Lib_Main.
From Verif Require Fac_Model.
Open Scope nat_scope.
Open Scope list_scope.
From Verif Require Import Seq_Main.

(** C157: the front holds the items offered since it was cleared, some of them left
    out, the others in the order in which they were offered, whatever the calls were
    (also those that raise). *)
Theorem C157_order :
  forall (A : Type) (vals : A -> list num) (eqb : A -> A -> bool) (has_len : A -> bool) (earlier since : list op),
    ~ In Clear since ->
    let front := run vals eqb has_len (earlier ++ Clear :: since) in
    subseq front (offers since) /\ run vals eqb has_len since = front /\
    forall x y, before front x y -> before (offers since) x y.
Proof. exact C157_order_main. Qed.
Print Assumptions C157_order.

(** A front made from a list is the one that offering its items one by one gives. *)
Theorem C157_start_list :
  forall (A : Type) (vals : A -> list num) (eqb : A -> A -> bool) (has_len : A -> bool) (items front : list A),
    updates vals eqb has_len [] items = Ok front -> run vals eqb has_len (map Update items) = front.
Proof. exact C157_start_list_main. Qed.
Print Assumptions C157_start_list.

(** Length, indices, loops, [reversed] and [in] show the same items. *)
Theorem C157_sequence :
  forall (A : Type) (eqb : A -> A -> bool) (front : list A),
    (forall i, (0 <= i < Z.of_nat (front_len front))%Z -> exists x, nth_error front (Z.to_nat i) = Some x /\
       front_item front i = Ok x /\ front_item front (i - Z.of_nat (front_len front)) = Ok x) /\
    (forall i, (i < - Z.of_nat (front_len front) \/ Z.of_nat (front_len front) <= i)%Z -> front_item front i = Err IndexError) /\
    (forall fuel, front_len front < fuel -> iterate fuel front 0 = Ok front) /\
    front_reversed front = Ok (rev front) /\
    (forall fuel x, item_eq eqb -> front_len front < fuel ->
       exists b, front_contains eqb fuel front x = Ok b /\ (b = true <-> In x front)).
Proof. exact C157_sequence_main. Qed.
Print Assumptions C157_sequence.

Example C157_ex :
  run ex_vals Nat.eqb (fun _ => true) ([Update 4; Clear] ++ map Update [2; 1; 0; 2; 3]) = [1; 0; 3] /\
  front_item [1; 0; 3] (-1) = Ok 3 /\ front_item [1; 0; 3] 3 = Err IndexError /\ iterate 4 [1; 0; 3] 0 = Ok [1; 0; 3] /\
  updates ex_vals Nat.eqb (fun _ => true) [] [2; 1; 0; 2; 3] = Ok [1; 0; 3].
Proof. exact C157_ex_main. Qed.

(** C158: if no call of save_evaluation raised, the evaluations of a library are the
    saved ones, each listed once, with what was reported about them; pipelines may have
    been evaluated several times. *)
Theorem C158_listed : forall l0 es r l out,
  empty_lib l0 -> Forall ordinary es -> saves l0 es r = (l, out) -> Forall (fun x => snd x = Ok tt) out ->
  Permutation (evaluations l) (seq 0 (length es)) /\
  forall i, i < length es -> same_report (obj l i) (nth_ev es i).
Proof. exact C158_listed_main. Qed.
Print Assumptions C158_listed.

(** clear_cache leaves no file behind, changes neither the list nor the reports, and
    the models and predictions of the kept evaluations cannot be read any more; the
    others never could. A second call raises. *)
Theorem C158_cleared : forall l0 es r l out l' there x,
  empty_lib l0 -> Forall ordinary es -> distinct es -> saves l0 es r = (l, out) ->
  clear_cache (l, true) = ((l', there), x) ->
  x = Ok tt /\ there = false /\ l_disk l' = [] /\ evaluations l' = evaluations l /\ (forall u, obj l' u = obj l u) /\
  (forall t, In t (top l) -> get_estimators l' t = Err FileNotFoundError /\ get_predictions l' t = Err FileNotFoundError) /\
  (forall u, In u (l_other l) -> get_estimators l' u = Ok [] /\ get_predictions l' u = Ok None) /\
  clear_cache (l', there) = ((l', there), Err FileNotFoundError).
Proof. exact C158_cleared_main. Qed.
Print Assumptions C158_cleared.

Example C158_ex : empty_lib ex_lib /\ Forall ordinary ex_es /\ distinct ex_es /\
  exists l out, saves ex_lib ex_es [0; 1] = (l, out) /\ Forall (fun x => snd x = Ok tt) out /\ evaluations l = [3; 1; 2; 0].
Proof. exact C158_ex_main. Qed.

(** C159: the short name of an individual names its steps in the order in which they
    are applied, and tells two individuals apart exactly if their steps have other
    names (the separator, one character, is not part of a name). *)
Theorem C159_short_name : forall (c : ascii) ind ind' s ls ss ls' ss',
  wf_heap (s_heap s) -> pipeline (s_heap s) ind ls ss -> pipeline (s_heap s) ind' ls' ss' ->
  Forall (fun st => ~ contains (String c "") (p_name (fst st))) (ss ++ ss') ->
  exists n n', short_name (String c "") ind s = (Ok n, s) /\ short_name (String c "") ind' s = (Ok n', s) /\
    n = String.concat (String c "") (map (fun st => p_name (fst st)) (rev ss)) /\
    (n = n' <-> map (fun st => p_name (fst st)) ss = map (fun st => p_name (fst st)) ss').
Proof. exact C159_short_name_main. Qed.
Print Assumptions C159_short_name.

(** Printing an individual: the identifier, the pipeline and the fitness can all be
    told from the text (neither the identifier nor the pipeline contains a line
    break). *)
Theorem C159_text : forall ind ind' s ls ss ls' ss' id id' fitness fitness' p p',
  wf_heap (s_heap s) -> pipeline (s_heap s) ind ls ss -> pipeline (s_heap s) ind' ls' ss' ->
  pipeline_str ind s = (Ok p, s) -> pipeline_str ind' s = (Ok p', s) ->
  (forall x, In x [id; id'; p; p'] -> ~ contains newline x) ->
  exists t t', individual_str id fitness ind s = (Ok t, s) /\ individual_str id' fitness' ind' s = (Ok t', s) /\
    (t = t' <-> id = id' /\ p = p' /\ fitness = fitness').
Proof. exact C159_text_main. Qed.
Print Assumptions C159_text.

Example C159_ex :
  wf_heap (s_heap (ex_state [])) /\ pipeline (s_heap (ex_state [])) ex_ind1 [0; 1; 2; 3] ex_long /\
  Forall (fun st => ~ contains ">" (p_name (fst st))) ex_long /\
  fst (short_name ">" ex_ind1 (ex_state [])) = Ok "Bin>PCA>Bin>BNB"%string.
Proof. exact C159_ex_main. Qed.

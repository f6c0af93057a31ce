(** Model of genetic_programming/compilers/scikitlearn.py. *)
From Verif Require Import Base Num Gp_Model.
Require Import DecimalString.
Open Scope string_scope.
Open Scope list_scope.
Open Scope nat_scope.

(** * Compilation *)

(** [str(i)]. *)
Definition nat_str (n : nat) : string := NilEmpty.string_of_uint (Nat.to_uint n).

(** A dict comprehension keeps the last value of every key, in the position of the
    first. *)
Fixpoint dict_set {V} (k : string) (v : V) (d : list (string * V)) : list (string * V) :=
  match d with
  | [] => [(k, v)]
  | (k', v') :: d' => if String.eqb k' k then (k, v) :: d' else (k', v') :: dict_set k v d'
  end.
Definition dict_of {V} (l : list (string * V)) : list (string * V) :=
  fold_left (fun d kv => dict_set (fst kv) (snd kv) d) l [].

Section Compile.
(** [build c kwargs]: calling class [c] with keyword arguments. *)
Context {E : Type} (build : nat -> list (string * value) -> res E).
(** primitive_node_to_sklearn, scikitlearn.py:26-30. *)
Definition to_sklearn (c : cell) : res E :=
  build (p_class (c_prim c)) (dict_of (map (fun t => (t_output t, t_value t)) (c_terms c))).
(** compile_individual, scikitlearn.py:33-44.  Pipeline(...) itself is not
    modelled: the result is its list of steps. *)
Definition compile (ind : individual) (preprocessing : option (list (string * E))) : M (list (string * E)) :=
  ls <- primitives ind ;;
  cs <- mread_all ls ;;
  (fun s => (do steps <- rmap (fun ic => do e <- to_sklearn (snd ic); Ok (nat_str (fst ic), e)) (enumerate cs);
             let steps := match preprocessing with Some (x :: l) => steps ++ rev (x :: l) | _ => steps end in
             Ok (rev steps), s)).
End Compile.

(** * Evaluation of a pipeline *)

(** evaluate_pipeline's [subsample]. *)
Inductive subsample := NoSub | IntSub (n : Z) | FracSub (q : Q).
(** scikitlearn.py:91-93. *)
Definition require_subsample (s : subsample) (rows : nat) : bool :=
  match s with
  | NoSub => false
  | IntSub n => (n <? Z.of_nat rows)%Z
  | FracSub q => qltb q 1
  end.

(** What can interrupt the block under ThreadingTimeout at any moment: its own
    timer, the timer of an enclosing block (also a TimeoutException), or Ctrl-C. *)
Inductive strike := OwnTimer | OuterTimer | CtrlC.
Definition strike_exn (s : strike) : exn :=
  match s with OwnTimer | OuterTimer => TimeoutException | CtrlC => KeyboardInterrupt end.

(** The local variables that are returned: prediction (uninitialised entries are
    [None]), scores, estimators. *)
Record locals (E P : Type) := mkLocals {
  v_pred : option (nat * list (option P)); v_scores : list num; v_ests : option (list E) }.
Arguments mkLocals {E P}. Arguments v_pred {E P}. Arguments v_scores {E P}. Arguments v_ests {E P}.

(** object_is_valid_pipeline, scikitlearn.py:47-54.  [None] is Python's None; any
    other object is given by the names of its attributes. *)
Definition object_is_valid_pipeline (o : option (list string)) : bool :=
  match o with
  | None => false
  | Some attributes =>
    existsb (String.eqb "fit") attributes && existsb (String.eqb "predict") attributes && existsb (String.eqb "steps") attributes
  end.

Section Evaluate.
Context {E P : Type}.
(** [rows]: len(y_train); [index]: the labels of the rows of y_train (a pandas Series
    with integer labels, 0, 1, ... by default); [splits k]: the k-th call of the splitter's split (or of
    check_cv, if it raises); [sample xs ys]: the positions drawn by the (stratified)
    shuffle split when it is given the rows [xs] of x with the targets of the rows [ys]
    of y; [fit]: a clone of the pipeline fitted on these rows;
    [score]: metric number [m] of an estimator on these rows; [predict e proba]: its
    predictions (or class probabilities) for these rows, with the number of columns
    (0: a one-dimensional array); [metrics]: for every metric, whether it requires
    probabilities; [hit]: the strike that interrupts the block, if any, and the
    number of the step at which it does. *)
Context (rows : nat) (index : list nat) (splits : nat -> res (list (list nat * list nat)))
  (sample : list nat -> list nat -> res (list nat))
  (fit : list nat -> res E) (score : E -> nat -> list nat -> res num)
  (predict : E -> bool -> list nat -> res (nat * list P)) (metrics : list bool)
  (sub : subsample) (hit : option (nat * strike)).

(** The block as a state transformer: the locals survive an exception, the step
    counter decides when the strike comes, the flag remembers that it did. *)
Definition C (A : Type) := locals E P * (nat * bool) -> res A * (locals E P * (nat * bool)).
Definition cret {A} (a : A) : C A := fun s => (Ok a, s).
Definition cbind {A B} (m : C A) (f : A -> C B) : C B :=
  fun s => match m s with (Ok a, s') => f a s' | (Err e, s') => (Err e, s') end.
Definition lift {A} (r : res A) : C A := fun s => (r, s).
Definition tick : C unit :=
  fun s => match hit with
           | Some (k, x) => if fst (snd s) =? k then (Err (strike_exn x), (fst s, (k, true)))
                            else (Ok tt, (fst s, (S (fst (snd s)), snd (snd s))))
           | None => (Ok tt, (fst s, (S (fst (snd s)), snd (snd s))))
           end.
Definition set_local (f : locals E P -> locals E P) : C unit := fun s => (Ok tt, (f (fst s), snd s)).
Definition set_pred p := set_local (fun v => mkLocals p (v_scores v) (v_ests v)).
Definition set_scores x := set_local (fun v => mkLocals (v_pred v) x (v_ests v)).
Definition set_ests e := set_local (fun v => mkLocals (v_pred v) (v_scores v) e).
Fixpoint cmap {A B} (f : A -> C B) (l : list A) : C (list B) :=
  match l with
  | [] => cret []
  | x :: l' => cbind (f x) (fun y => cbind (cmap f l') (fun ys => cret (y :: ys)))
  end.

(** numpy.mean of the test scores of a metric. *)
Definition mean_of (l : list num) : num := ndiv (fold_right nadd (Fin 0) l) (Fin (inject_Z (Z.of_nat (length l)))).
(** [prediction[test] = fold_pred], scikitlearn.py:134-139.  Simplification: any
    mismatch of shapes is a ValueError. *)
Fixpoint put {A} (arr : list (option A)) (idx : list nat) (xs : list A) : res (list (option A)) :=
  match idx, xs with
  | [], [] => Ok arr
  | i :: idx', x :: xs' => if i <? length arr then put (set_nth i (Some x) arr) idx' xs' else Err IndexError
  | _, _ => Err ValueError
  end.
Definition store (test : list nat) (fp : nat * list P) : C unit :=
  fun s =>
    let (cols, arr) := match v_pred (fst s) with Some a => a | None => (fst fp, repeat None rows) end in
    if cols =? fst fp then
      match put arr test (snd fp) with
      | Ok arr' => set_pred (Some (cols, arr')) s
      | Err e => (Err e, (mkLocals (Some (cols, arr)) (v_scores (fst s)) (v_ests (fst s)), snd s))
      end
    else (Err ValueError, s).

(** [y_train[train]], scikitlearn.py:108: the numbers are looked up among the labels; a
    number that is no label is a KeyError, a label that occurs twice gives two rows.
    The sampler refuses different numbers of rows and targets. *)
Definition by_label (train : list nat) : res (list nat) :=
  if forallb (fun t => existsb (Nat.eqb t) index) train
  then Ok (flat_map (fun t => filter (fun p => nth p index 0 =? t) (seq 0 (length index))) train)
  else Err KeyError.
Definition draw (train : list nat) : res (list nat) :=
  do ys <- by_label train;
  if length ys =? length train then sample train ys else Err ValueError.
(** The training sets used, scikitlearn.py:89-111: the sampled numbers are positions
    in the training fold, but they are used as row numbers. *)
Definition training_sets : C (list (list nat * list nat)) :=
  cbind tick (fun _ =>
  cbind (lift (splits 0)) (fun folds =>
  if require_subsample sub rows then
    cmap (fun tt_ => cbind tick (fun _ =>
      cbind (lift (draw (fst tt_))) (fun idx => cret (idx, snd tt_)))) folds
  else cret folds)).
(** cross_validate, scikitlearn.py:113-121: fit and score fold by fold; the first
    error is raised. *)
Definition cross_validate (folds : list (list nat * list nat)) : C (list (E * list num)) :=
  cmap (fun tt_ => cbind tick (fun _ =>
    cbind (lift (fit (fst tt_))) (fun e => cbind tick (fun _ =>
    cbind (lift (rmap (fun m => score e m (snd tt_)) (seq 0 (length metrics)))) (fun xs => cret (e, xs)))))) folds.
(** The loop at scikitlearn.py:128-139; zip stops at the shorter list. *)
Fixpoint fold_predictions (ests : list E) (folds : list (list nat * list nat)) : C unit :=
  match ests, folds with
  | e :: ests', (_, test) :: folds' =>
    cbind tick (fun _ => cbind (lift (predict e (existsb (fun b => b) metrics) test)) (fun fp =>
    cbind tick (fun _ => cbind (store test fp) (fun _ => fold_predictions ests' folds'))))
  | _, _ => cret tt
  end.
(** The body of the try statement, scikitlearn.py:88-139. *)
Definition body : C unit :=
  cbind training_sets (fun folds =>
  cbind tick (fun _ => cbind (cross_validate folds) (fun result =>
  cbind tick (fun _ => cbind (set_scores (map (fun m => mean_of (map (fun ex => nth m (snd ex) NaN) result)) (seq 0 (length metrics)))) (fun _ =>
  cbind tick (fun _ => cbind (set_ests (Some (map fst result))) (fun _ =>
  cbind tick (fun _ =>
  cbind (if require_subsample sub rows then cret folds else lift (splits 1)) (fun folds2 =>
  fold_predictions (map fst result) folds2))))))))).

Record outcome := mkOut {
  o_pred : option (nat * list (option P)); o_scores : list num; o_ests : option (list E); o_error : option exn }.
Definition report (v : locals E P) (e : option exn) : outcome := mkOut (v_pred v) (v_scores v) (v_ests v) e.
(** evaluate_pipeline, scikitlearn.py:57-158.  [valid] is object_is_valid_pipeline.
    stopit's ThreadingTimeout swallows a TimeoutException; its state afterwards tells
    whether its own timer raised it.  A TimeoutException that is not its own (also one
    raised by the pipeline) leaves the state INTERRUPTED. *)
Definition initial : locals E P := mkLocals None (repeat NInf (length metrics)) None.
Definition own_timer : bool := match hit with Some (_, OwnTimer) => true | _ => false end.
Definition evaluate_pipeline (valid : bool) (timeout : num) : res outcome :=
  if negb valid then Err TypeError
  else if nleb timeout (Fin 0) then Err ValueError
  else
    match body (initial, (0, false)) with
    | (Ok _, (v, _)) => Ok (report v None)
    | (Err TimeoutException, (v, (_, struck))) =>
      if own_timer && struck then Ok (report v (Some TimeoutException)) else Err TimeoutException
    | (Err KeyboardInterrupt, _) => Err KeyboardInterrupt
    | (Err e, (v, _)) => Ok (report v (Some e))
    end.
End Evaluate.

(** * Evaluation of an individual *)

(** What evaluate_individual returns (the fields of Evaluation it fills) and the
    fitness it stores, scikitlearn.py:161-218. *)
Record evaluation (E P : Type) := mkEvaluation {
  r_pred : option (nat * list (option P)); r_score : list num; r_ests : option (list E);
  r_error : option exn; r_fitness : list num; r_duration : num }.
Arguments mkEvaluation {E P}. Arguments r_pred {E P}. Arguments r_score {E P}. Arguments r_ests {E P}.
Arguments r_error {E P}. Arguments r_fitness {E P}. Arguments r_duration {E P}.
(** [min(a, b)]: Python keeps the first unless the second is smaller. *)
Definition nmin (a b : num) : num := if nltb b a then b else a.
(** The time an evaluation gets, scikitlearn.py:198-200; [now] is the clock. *)
Definition time_limit (timeout : num) (deadline : option num) (now : num) : num :=
  match deadline with None => timeout | Some d => nmin timeout (nsub d now) end.
(** [run limit] is the call of evaluate_pipeline on the compiled pipeline;
    [start] and [stop] are the readings of the stopwatch. *)
Definition evaluate_individual {E P} (run : num -> res (@outcome E P)) (steps : nat) (timeout : num) (deadline : option num)
  (add_length : bool) (now start stop : num) : res (evaluation E P) :=
  do o <- run (time_limit timeout deadline now);
  let score := if add_length then o_scores o ++ [Fin (inject_Z (- Z.of_nat steps))] else o_scores o in
  Ok (mkEvaluation (o_pred o) score (o_ests o) (o_error o) score (nsub stop start)).

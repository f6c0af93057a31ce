(** fit from the data to the model: Gama.fit (gama.py:507-661, [Fit_Model.v]) with the
    searches on worker processes of [Proc_Model.v] and with BestFitPostProcessing
    (postprocessing/best_fit.py:16-29).

    [Fit_Model.v] takes the search, the new individuals and the post-processing as given; here
    they are those of the other models.  An Individual object is a reference into the
    memory of the process: in this file it comes with that memory. *)
Require Import ZArith.
From Verif Require Import Base Num Data_Model Gp_Model Eval_Model Evo_Model Rnd_Model End_Model Pred_Model Fit_Model.
From Verif Require Async_Model Sys_Model Proc_Model Fac_Model.
Open Scope nat_scope.
Open Scope list_scope.

(** An Individual (individual.py:11-30): [fitness] is None before it is evaluated; [fixed] are
    the preprocessing steps bound into [_to_pipeline] when it, or the individual it is
    a copy of, was made (operator_set.py:82-83, individual.py:137), None if that was at
    the beginning of this search; [mem]: the memory, random numbers and ids.
    [Unmade e]: making it raised [e]. *)
Inductive obj :=
| Obj (i : individual) (fitness : option (list num)) (fixed : option (list enc_step)) (mem : st)
| Unmade (e : exn).
(** [fitness.values], None before the evaluation. *)
Definition fitness_of (o : obj) : option (list num) := match o with Obj _ f _ _ => f | Unmade _ => None end.
Fixpoint individuals_of (l : list obj) : list individual :=
  match l with
  | [] => []
  | Obj i _ _ _ :: l' => i :: individuals_of l'
  | Unmade _ :: l' => individuals_of l'
  end.

(** The search method and its options (async_ea.py:32-60, random_search.py:13-23,
    asha.py:39-55; [first_rung], [max_rung] as in [Rnd_Model.v]). *)
Inductive method :=
| RandomSearch (max_n : option Z)
| Evolution (max_retry pop_size : nat) (max_n : option Z) (restart : bool)
| Halving (eta first_rung : nat) (max_rung : Z) (max_full : option Z).

Section Whole.
(** [build]: making an estimator, [Eval_Model.v]; [estimator]: the name and the estimator of a
    fixed step; [train]: Pipeline(steps).fit(x, y); the options max_pipeline_length, n_jobs, and those of the
    evaluator. *)
Context {E : Type} (build : nat -> list (string * value) -> res E) (estimator : enc_step -> string * E)
  (train : list (string * E) -> frame -> yout -> res model)
  (how : method) (max_length : option Z) (n : nat) (log : bool) (defaults : Async_Model.kwargs).

(** Circumstances of a call of fit: its arguments, the sample of rows, the clock and the
    output directory as in [Fit_Model.call]; [e_mem]: memory, random numbers and ids of
    the process, and the texts of the pipelines evaluated by earlier fits of the object; what evaluate_pipeline does in a worker with the given data, labels and
    deadline (gama.py:638-649), the scores it finds, what the workers do in
    which order ([Proc_Model.v]). *)
Record circumstances := mkCirc {
  e_x : xdata; e_y : ydata; e_declared : list coltype; e_warm : option (list (option obj));
  e_sampling : list label -> res unit;
  e_clock : nat -> Z;
  e_dir : option Fac_Model.dir;
  e_mem : setting;
  e_call : frame -> yout -> option (list label) -> Z -> nat -> list nat -> Async_Model.kwargs -> nat -> Async_Model.outcome;
  e_scores : nat -> list num;
  e_plan : list Sys_Model.turn }.

(** [[self._operator_set.individual() for _ in range(50)]], gama.py:634: the one with number
    [k].  If one cannot be made the exception ends _search_phase; here, before the search
    instead of before its time limit is started. *)
Definition fresh (mem : st) (ps : pset) (k : nat) : obj :=
  match random_individuals ps max_length 50 (fresh_h mem) with
  | (Ok l, w) => match nth_error l k with Some i => Obj i None None (q_st w) | None => Unmade IndexError end
  | (Err e, _) => Unmade e
  end.

(** The fixed steps of the individuals after the search: those of the start keep theirs
    and new ones get those of this fit. *)
Fixpoint bound (ext : list enc_step) (pop : list obj) (id : nat) : list enc_step :=
  match pop with
  | [] => ext
  | Obj i _ f _ :: pop' => if i_id i =? id then match f with Some l => l | None => ext end else bound ext pop' id
  | Unmade _ :: pop' => bound ext pop' id
  end.
(** Children are changed copies of their first parent (operator_set.py:52-77,
    individual.py:135-137): they keep what it has. *)
Fixpoint inherited (fixed : nat -> list enc_step) (t : list item) : nat -> list enc_step :=
  match t with
  | [] => fixed
  | Bred i _ :: t' =>
    inherited (match i_parents i with
               | p :: _ => fun id => if id =? i_id i then fixed p else fixed id
               | [] => fixed
               end) t'
  | _ :: t' => inherited fixed t'
  end.
(** The members of the output as objects. *)
Definition as_objects (fixed : nat -> list enc_step) (mem : st) (l : list member) : list obj :=
  map (fun m => Obj (m_ind m) (Some (m_fit m)) (Some (fixed (i_id (m_ind m)))) mem) l.

(** gama.py:636-659: how the search ended, and the output of the search method
    ([End_Model.v]).  An empty start population does not occur (gama.py:626-634). *)
Definition search (e : circumstances) (ps : pset) (ext : list enc_step) (pop : list obj) (x : frame) (y : yout)
    (labels : option (list label)) (limit deadline : Z) : res unit * list obj :=
  let call := e_call e x y labels deadline in
  let start := individuals_of pop in
  match pop with
  | [] => (Err IndexError, [])
  | Unmade ex :: _ => (Err ex, [])
  | Obj _ _ _ mem :: _ =>
    match how with
    | RandomSearch max_n =>
      let (r, wp) := Proc_Model.q_rs_phase call (e_scores e) ps max_length max_n n log defaults start (Proc_Model.before_h mem (e_plan e)) in
      (search_over r, as_objects (bound ext pop) (q_st (fst wp)) (q_out (fst wp)))
    | Evolution max_retry pop_size max_n restart =>
      let (r, wp) := Proc_Model.p_search call (e_scores e) ps max_length max_retry pop_size max_n restart n log defaults start (Proc_Model.before_search (mkSetting mem (seen_before (e_mem e))) (e_plan e)) in
      (search_over r, as_objects (inherited (bound ext pop) (v_trace (fst wp))) (v_st (fst wp)) (v_pop (fst wp)))
    | Halving eta first_rung max_rung max_full =>
      let (r, wp) := Proc_Model.q_asha_phase call (e_scores e) ps max_length eta first_rung max_rung max_full n log defaults start (Proc_Model.before_h mem (e_plan e)) in
      match asha_output r (q_rungs (fst wp)) with
      | Err ex => (Err ex, [])
      | Ok l => (Ok tt, as_objects (bound ext pop) (q_st (fst wp)) l)
      end
    end
  end.

(** [individual.pipeline] (individual.py:44-51, compilers/scikitlearn.py:33-44), then its fit,
    best_fit.py:28. *)
Definition train_object (o : obj) (x : frame) (y : yout) : res model :=
  match o with
  | Obj i _ (Some fixed) mem =>
    do steps <- fst (compile build i (Some (map estimator fixed)) mem);
    train steps x y
  | _ => Err AttributeError
  end.

(** The call of fit under these circumstances. *)
Definition this_call (e : circumstances) : call obj :=
  mkCall (e_x e) (e_y e) (e_declared e) (e_warm e) (e_sampling e) (e_clock e) (fresh (e_mem e)) (search e) (e_dir e)
    (best_fit_post train_object).
End Whole.

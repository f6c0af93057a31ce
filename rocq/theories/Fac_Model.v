(** The class Gama itself (gama/gama.py): construction, the phases of fit, what
    is left on disk, callbacks, and the state shared between instances. *)
From Verif Require Import Base Num Gp_Model Heap_Model Lib_Model.
Require Import Ascii.
Open Scope string_scope.
Open Scope list_scope.
Open Scope nat_scope.

(** * The output directory *)

(** An entry of a directory and a directory; [None] where it does not exist. *)
Record entry := mkEntry { en_name : string; en_dir : bool }.
Definition dir := list entry.
Fixpoint ends_with (suffix s : string) : bool :=
  String.eqb s suffix || match s with "" => false | String _ s' => ends_with suffix s' end.
Definition is_log (e : entry) : bool := ends_with ".log" (en_name e).
(** the loop at gama.py:344-346: os.remove raises an OSError ([OtherError 3]) on
    a directory; files removed so far stay removed *)
Fixpoint remove_logs (d : dir) : res unit * dir :=
  match d with
  | [] => (Ok tt, [])
  | e :: d' =>
    if is_log e then if en_dir e then (Err (OtherError 3), e :: d') else remove_logs d'
    else let (r, d'') := remove_logs d' in (r, e :: d'')
  end.
(** shutil.rmtree of the cache, gama.py:347-348: NotADirectoryError on a file *)
Definition remove_cache (d : dir) : res unit * dir :=
  match find (fun e => String.eqb (en_name e) "cache") d with
  | None => (Ok tt, d)
  | Some e => if en_dir e then (Ok tt, filter (fun e => negb (String.eqb (en_name e) "cache")) d) else (Err NotADirectory, d)
  end.
(** os.rmdir, gama.py:350: OSError ([OtherError 4]) unless empty *)
Definition remove_dir (d : dir) : res unit * option dir :=
  match d with [] => (Ok tt, None) | _ => (Err (OtherError 4), Some d) end.
(** cleanup, gama.py:338-350 *)
Definition mem (x : string) (l : list string) : bool := existsb (String.eqb x) l.
Definition cleanup (which : string) (d : option dir) : res unit * option dir :=
  match d with
  | None => (Ok tt, None)
  | Some d =>
    let (r1, d1) := if mem which ["logs"; "all"] then remove_logs d else (Ok tt, d) in
    match r1 with
    | Err e => (Err e, Some d1)
    | Ok _ =>
      let (r2, d2) := if mem which ["evaluations"; "all"] then remove_cache d1 else (Ok tt, d1) in
      match r2 with
      | Err e => (Err e, Some d2)
      | Ok _ => if String.eqb which "all" then remove_dir d2 else (Ok tt, Some d2)
      end
    end
  end.

(** * Construction *)

(** The arguments of Gama.__init__ (gama.py:82-105) that decide whether it
    succeeds, and what it depends on: [a_scoring]: the result of
    scoring_to_metric (Misc_Model); [a_space]: the result of pset_from_config
    (Conf_Model), with whether the search space has preprocessing steps
    ("data" in it); [a_cpus]: multiprocessing.cpu_count(); [a_out]: the entries
    of the output directory before, if it exists.  Times are whole seconds. *)
Record args := mkArgs {
  a_preset : string; a_post : bool; a_out : option dir; a_store : string;
  a_jobs : option Z; a_cpus : nat; a_total : option Z; a_eval : option Z;
  a_scoring : res unit; a_space : res bool; a_length : option Z }.
(** round(0.1 * n): to the nearest, ties to even.  The double product differs
    from n/10 by less than half a unit in the last place, and is exact for ties,
    so this is what Python computes for |n| < 2^50. *)
Definition round_tenth (n : Z) : Z :=
  let q := (n / 10)%Z in
  match Z.compare (n mod 10) 5 with Lt => q | Gt => q + 1 | Eq => if Z.even q then q else q + 1 end%Z.
(** n_jobs, gama.py:231-236 *)
Definition jobs (a : args) : Z :=
  match a_jobs a with
  | None => Z.of_nat (a_cpus a / 2)
  | Some j => if (j =? -1)%Z then Z.of_nat (a_cpus a) else j
  end.
(** the checks at gama.py:238-245 *)
Definition invalid (a : args) : bool :=
  (match a_total a with None => true | Some t => (t <=? 0)%Z end) ||
  (match a_eval a with None => false | Some t => (t <=? 0)%Z end) ||
  (jobs a <? -1)%Z || (jobs a =? 0)%Z.
(** max_eval_time, gama.py:260-268 *)
Definition eval_time (a : args) (total : Z) : Z :=
  let e := match a_eval a with None => round_tenth total | Some e => e end in if (e >? total)%Z then total else e.
(** max_pipeline_length, gama.py:306-318 *)
Definition pipeline_length (has_data : bool) (n : option Z) : res (option Z) :=
  if has_data then Ok n
  else match n with None => Ok (Some 1%Z) | Some n => if (n >? 1)%Z then Err ValueError else Ok (Some n) end.
(** The instance, as far as modelled *)
Record gama := mkGama { g_store : string; g_jobs : Z; g_total : Z; g_eval : Z; g_length : option Z }.
Definition file (n : string) : entry := mkEntry n false.
Definition log_file (a : args) : dir := if mem (a_store a) ["logs"; "all"] then [file "gama.log"] else [].
Definition init (a : args) : res gama * option dir :=
  if negb (a_post a) && negb (mem (a_preset a) ["simple"; "performance"]) then (Err ValueError, a_out a)
  else
    match a_out a with
    | Some (e :: d) => (Err ValueError, Some (e :: d))
    | _ =>
      if invalid a then
        match cleanup "all" (Some (log_file a)) with (Ok _, d) => (Err ValueError, d) | (Err e, d) => (Err e, d) end
      else
        match a_total a with
        | None => (Err ValueError, Some (log_file a))
        | Some total =>
          match a_scoring a with
          | Err e => (Err e, Some (log_file a))
          | Ok _ =>
            (* EvaluationLibrary makes the cache (evaluation_library.py:137-138), the
               logger writes its header (gama.py:291-302) *)
            let d := log_file a ++ [mkEntry "cache" true; file "evaluations.log"] in
            match a_space a with
            | Err e => (Err e, Some d)
            | Ok has_data =>
              match pipeline_length has_data (a_length a) with
              | Err e => (Err e, Some d)
              | Ok n => (Ok (mkGama (a_store a) (jobs a) total (eval_time a total) n), Some d)
              end
            end
          end
        end
    end.

(** * After the search *)

(** gama.py:617-619 *)
Definition fit_end (store : string) (d : option dir) : res unit * option dir :=
  if String.eqb store "all" then (Ok tt, d)
  else if String.eqb store "nothing" then cleanup "all" d
  else if String.eqb store "logs" then cleanup "evaluations" d
  else if String.eqb store "models" then cleanup "logs" d
  else (Err KeyError, d).
(** What touches the directory during fit: entering the AsyncEvaluator appends to
    memory.log (async_evaluator.py:137,305-313), which needs the directory; then
    evaluations write log lines and cached models.  [search]: what happens
    between, as a function of the directory. *)
Definition touch (n : string) (d : dir) : dir := if existsb (fun e => String.eqb (en_name e) n) d then d else d ++ [file n].
Definition fit (g : gama) (search : option dir -> res unit * option dir) (d : option dir) : res unit * option dir :=
  match d with
  | None => (Err FileNotFoundError, None)
  | Some d =>
    match search (Some (touch "memory.log" d)) with
    | (Err e, d') => (Err e, d')
    | (Ok _, d') => fit_end (g_store g) d'
    end
  end.

(** save_evaluation (evaluation_library.py:214-237) when the cache directory is
    gone: writing the file raises FileNotFoundError.  Before that the evaluation
    got its file name (line 44), but is in no list; with a full heap the heap has
    already been changed (line 225). *)
Definition save_gone (l0 : lib) (e : ev) (r : rng) : lib * res unit * rng :=
  let '(l1, p, r1) := process l0 e r in
  match p with
  | Err x => (l1, Err x, r1)
  | Ok e1 =>
    let u := length (l_objs l1) in
    let l := add_obj (with_file (Some (ev_ind e1)) e1) l1 in
    match ev_error e1 with
    | Some _ => save l0 e r
    | None =>
      if match l_m l with None => true | Some m => length (l_top l) <? m end then (l, Err FileNotFoundError, r1)
      else
        let (removed, top') := heappushpop item_lt dummy (l_top l) (ev_score e1, u) in
        if tuple_eq (fst removed) (ev_score e1) then save l0 e r
        else (set_top top' l, Err FileNotFoundError, r1)
    end
  end.
(** the library after its directory was removed (gama.py:347-348) *)
Definition wipe (l : lib) : lib :=
  mkLib (l_objs l) (l_top l) (l_other l) (l_lookup l) [] (l_m l) (l_n l) (l_sample l).

(** * Callbacks *)

(** How a callback ends, and whether the current activity has by then exceeded
    its limit by three seconds (Tk_Model). *)
Record call := mkCall { c_end : res unit; c_late : bool }.
(** _safe_outside_call, gama.py:716-739.  KeyboardInterrupt is no Exception. *)
Definition safe_call (c : call) : res unit :=
  match c_end c with
  | Err TimeoutException => Err TimeoutException
  | Err KeyboardInterrupt => Err KeyboardInterrupt
  | _ => if c_late c then Err TimeoutException else Ok tt
  end.
(** _on_evaluation_completed, gama.py:741-743: the callbacks called so far, and
    the outcome.  [behave k e]: what callback [k] does on evaluation [e]. *)
Fixpoint on_completed {C V} (behave : C -> V -> call) (e : V) (callbacks : list C) : list C * res unit :=
  match callbacks with
  | [] => ([], Ok tt)
  | k :: ks =>
    match safe_call (behave k e) with
    | Ok _ => let (called, r) := on_completed behave e ks in (k :: called, r)
    | Err x => ([k], Err x)
    end
  end.
(** evaluation_completed, gama.py:745-753 *)
Definition register_callback {C} (k : C) (callbacks : list C) : list C := callbacks ++ [k].

(** * The search and post-processing phases *)

(** gama.py:576-588: RuntimeError when nothing is left, else the time for the
    search; [int] truncates towards zero *)
Definition py_int (q : Q) : Z := Z.quot (Qnum q) (Zpos (Qden q)).
Definition search_time (fraction remaining : Q) : res Z :=
  if qltb remaining 0 then Err RuntimeError else Ok (py_int ((1 - fraction) * remaining)).
(** the time limit of post-processing, gama.py:599 *)
Definition post_time (remaining : Q) : Z := py_int remaining.

(** _search_phase, gama.py:622-635: the start population.  A member that is no
    Individual is [None]. *)
Definition start_population {I} (warm : option (list (option I))) (final : list I) (fresh : nat -> I) : res (list I) :=
  match warm with
  | Some (x :: l) => rmap (fun o => match o with Some i => Ok i | None => Err TypeError end) (x :: l)
  | None => match final with [] => Ok (map fresh (seq 0 50)) | _ => Ok final end
  | Some [] => Ok (map fresh (seq 0 50))
  end.
(** gama.py:651-659: the final population whatever ended the search: a timeout is
    swallowed by ThreadingTimeout, Ctrl-C is caught, other errors are not *)
Definition search_phase {I} (outcome : res unit) (output final : list I) : res unit * list I :=
  match outcome with
  | Ok _ | Err TimeoutException | Err KeyboardInterrupt => (Ok tt, output)
  | Err e => (Err e, final)
  end.
(** gama.py:602-609: [key i] is the tuple of fitness values *)
Definition tuple_le (a b : list num) : bool := negb (tuple_lt b a).
Definition best_individuals {I} (key : I -> list num) (pop : list I) : list I :=
  rev (py_sorted (fun a b => tuple_le (key a) (key b)) pop).
(** BestFitPostProcessing.post_process, best_fit.py:25-29 *)
Definition best_fit {I} (selection : list I) : res I :=
  match selection with [] => Err IndexError | i :: _ => Ok i end.

(** gama.py:552-574: with stored pipelines, KNN is dropped for more than
    6,000,000 cells and PolynomialFeatures for more than 50 columns.  The search
    space is changed in place. [knn], [poly]: the classes.  Simplification: an
    absent key is not created (it would be empty). *)
Definition restrict (store_pipelines : bool) (rows cols : nat) (knn poly : primitive -> bool) (s : pset) : pset :=
  let drop (b : bool) (t : string) (bad : primitive -> bool) (l : list (string * list primitive)) :=
    if b then map (fun kv => if String.eqb (fst kv) t then (fst kv, filter (fun p => negb (bad p)) (snd kv)) else kv) l else l in
  mkPset (drop (store_pipelines && (50 <? cols)) "data" poly
           (drop (store_pipelines && (6000000 <? Z.of_nat rows * Z.of_nat cols)%Z) "prediction" knn (ps_prims s)))
         (ps_terms s).

(** * Several instances *)

(** The keyword arguments AsyncEvaluator.__init__ is called with.  Each Gama
    wraps the class attribute in a partialmethod (gama.py:249-258), around the
    partialmethod of the instance created before; a call without arguments uses
    the outermost keywords.  Then the class attribute [defaults] is set by each
    fit (gama.py:639-645). *)
Record keywords := mkKw { k_jobs : Z; k_memory : option Z; k_logfile : string }.
Inductive shared := Original | Partial (inner : shared) (k : keywords).
Definition call_init (s : shared) : keywords :=
  match s with Original => mkKw 1 None "" | Partial _ k => k end.
Inductive session_event := New (i : nat) (k : keywords) | Fit (i : nat).
(** what each fit of an instance runs with *)
Fixpoint session (s : shared) (es : list session_event) : list (nat * keywords) :=
  match es with
  | [] => []
  | New _ k :: es' => session (Partial s k) es'
  | Fit i :: es' => (i, call_init s) :: session s es'
  end.

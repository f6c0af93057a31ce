(** gama/utilities/generic/stopwatch.py and timekeeper.py.

    Time is an integer number of clock ticks; every operation that reads the
    clock takes the reading as an argument.  Log messages are not modelled. *)
From Verif Require Import Base.
Open Scope string_scope.
Open Scope list_scope.
Open Scope Z_scope.

(** gama/utilities/generic/stopwatch.py:7-18 *)
Record stopwatch := mkSw { sw_running : bool; sw_start : Z; sw_end : Z }.
Definition sw_new : stopwatch := mkSw false 0 0.
(** stopwatch.py:20-23 __enter__ *)
Definition sw_enter (now : Z) (s : stopwatch) : stopwatch := mkSw true now (sw_end s).
(** stopwatch.py:25-28 __exit__ *)
Definition sw_exit (now : Z) (s : stopwatch) : stopwatch := mkSw false (sw_start s) now.
(** stopwatch.py:30-36 elapsed_time *)
Definition sw_elapsed (now : Z) (s : stopwatch) : Z :=
  if sw_running s then now - sw_start s else sw_end s - sw_start s.

(** timekeeper.py:10-13 Activity *)
Record activity := mkAct { a_name : string; a_sw : stopwatch; a_limit : option Z }.
(** timekeeper.py:15-21 time_left: None - float is a TypeError *)
Definition time_left (now : Z) (a : activity) : res Z :=
  match a_limit a with Some l => Ok (l - sw_elapsed now (a_sw a)) | None => Err TypeError end.
(** timekeeper.py:23-27 exceeded_limit *)
Definition exceeded_limit (now margin : Z) (a : activity) : bool :=
  match a_limit a with Some l => l - sw_elapsed now (a_sw a) <? - margin | None => false end.

(** timekeeper.py:33-45. [tk_current] is the position of the current activity in
    [tk_acts]: the code stores the same object in both places. *)
Record timekeeper := mkTk { tk_total : option Z; tk_current : option nat; tk_acts : list activity }.
Definition tk_new (total : option Z) : timekeeper := mkTk total None [].
Definition tk_current_act (k : timekeeper) : option activity :=
  match tk_current k with Some i => nth_error (tk_acts k) i | None => None end.

(** timekeeper.py:47-56 total_time_remaining *)
Definition total_time_remaining (now : Z) (k : timekeeper) : res Z :=
  match tk_total k with
  | Some total => Ok (total - fold_right Z.add 0 (map (fun a => sw_elapsed now (a_sw a)) (tk_acts k)))
  | None => Err RuntimeError
  end.
(** timekeeper.py:58-67 *)
Definition current_activity_time_elapsed (now : Z) (k : timekeeper) : res Z :=
  match tk_current_act k with Some a => Ok (sw_elapsed now (a_sw a)) | None => Err RuntimeError end.
(** timekeeper.py:69-87 *)
Definition current_activity_time_left (now : Z) (k : timekeeper) : res Z :=
  match tk_current_act k with
  | Some a => match a_limit a with
              | Some l => Ok (l - sw_elapsed now (a_sw a))
              | None => Err RuntimeError
              end
  | None => Err RuntimeError
  end.

(** timekeeper.py:89-122 start_activity, up to the yield *)
Definition act_begin (now : Z) (name : string) (limit : option Z) (k : timekeeper) : timekeeper :=
  mkTk (tk_total k) (Some (length (tk_acts k))) (tk_acts k ++ [mkAct name (sw_enter now sw_new) limit]).
Definition stop_at (now : Z) (i : nat) (l : list activity) : list activity :=
  match nth_error l i with
  | Some a => set_nth i (mkAct (a_name a) (sw_exit now (a_sw a)) (a_limit a)) l
  | None => l
  end.
(** the rest of start_activity, for activity [i]: the stopwatch stops in any
    case; [current_activity] is reset only if the body did not raise, because
    the exception is re-raised at the yield (timekeeper.py:117-121) *)
Definition act_end (now : Z) (raised : bool) (i : nat) (k : timekeeper) : timekeeper :=
  mkTk (tk_total k) (if raised then tk_current k else None) (stop_at now i (tk_acts k)).

(** [with keeper.start_activity(...)] blocks: a history of entering and leaving.
    The stack holds the open activities. *)
Inductive event := Begin (now : Z) (name : string) (limit : option Z) | End (now : Z) (raised : bool).
Definition step (st : timekeeper * list nat) (e : event) : timekeeper * list nat :=
  let (k, stack) := st in
  match e with
  | Begin now name limit => (act_begin now name limit k, length (tk_acts k) :: stack)
  | End now raised => match stack with
                      | i :: stack' => (act_end now raised i k, stack')
                      | [] => (k, [])
                      end
  end.
Definition run (total : option Z) (es : list event) : timekeeper := fst (fold_left step es (tk_new total, [])).

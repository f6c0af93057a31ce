(** Vocabulary of the time properties. *)
From Verif Require Import Base Tk_Model.
Open Scope string_scope.
Open Scope list_scope.
Open Scope Z_scope.

(** A finished activity and one in progress, as the user sees them. *)
Record span := mkSpan { s_name : string; s_limit : option Z; s_from : Z; s_to : Z; s_raised : bool }.
Definition open := (string * option Z * Z)%type.

(** the blocks executed one after the other, and perhaps one more entered *)
Definition consecutive (done : list span) (now_running : option open) : list event :=
  flat_map (fun s => [Begin (s_from s) (s_name s) (s_limit s); End (s_to s) (s_raised s)]) done ++
  match now_running with Some (n, l, t) => [Begin t n l] | None => [] end.

Definition spent_in (done : list span) : Z := fold_right Z.add 0 (map (fun s => s_to s - s_from s) done).
Definition spent_now (r : option open) (now : Z) : Z := match r with Some (_, _, t) => now - t | None => 0 end.

(** times do not go backwards, from [t0] to [now] *)
Fixpoint in_order (t0 : Z) (done : list span) (r : option open) (now : Z) : Prop :=
  match done with
  | [] => match r with Some (_, _, t) => t0 <= t /\ t <= now | None => t0 <= now end
  | s :: done' => t0 <= s_from s /\ s_from s <= s_to s /\ in_order (s_to s) done' r now
  end.

(** the time each activity of any history, nested or not, was running: [open]
    holds the starting times of those in progress *)
Fixpoint running_time (open : list Z) (es : list event) (now : Z) : Z :=
  match es with
  | [] => fold_right Z.add 0 (map (fun t => now - t) open)
  | Begin t _ _ :: es' => running_time (t :: open) es' now
  | End t _ :: es' => match open with
                      | t0 :: open' => (t - t0) + running_time open' es' now
                      | [] => running_time [] es' now
                      end
  end.

(** A stopwatch on its own, used in "with" blocks one after the other (from, to), the last one
    perhaps still running. *)
Definition use_watch (blocks : list (Z * Z)) (running : option Z) : stopwatch :=
  let s := fold_left (fun s b => sw_exit (snd b) (sw_enter (fst b) s)) blocks sw_new in
  match running with Some t => sw_enter t s | None => s end.
(** what it should show: the time in the last block, so far *)
Definition last_block (blocks : list (Z * Z)) (running : option Z) (now : Z) : Z :=
  match running with
  | Some t => now - t
  | None => match rev blocks with (t0, t1) :: _ => t1 - t0 | [] => 0 end
  end.

(** The columns GamaReport derives from the evaluations, on top of Log_Model:
    cumulative maxima, relative times and the successful evaluations. *)
From Verif Require Import Base Num Gp_Model Str_Model Misc_Model Log_Model.
Open Scope list_scope.
Open Scope nat_scope.

Section Report.
Context {ind : Type}.
(** the values of the metric at position [j], [df[metric]] *)
Definition metric_column (j : nat) (r : report num ind) : list num :=
  map (fun e => nth j (snd (snd e)) NaN) (r_evals r).
(** pandas' cummax: NaN stays NaN where it is and does not count elsewhere *)
Fixpoint cummax_from (best : option num) (l : list num) : list num :=
  match l with
  | [] => []
  | NaN :: l' => NaN :: cummax_from best l'
  | x :: l' =>
    let b := match best with None => x | Some y => if nltb y x then x else y end in
    b :: cummax_from (Some b) l'
  end.
(** GamaReport.py:112-113 *)
Definition cummax (j : nat) (r : report num ind) : list num := cummax_from None (metric_column j r).
(** GamaReport.py:92-95, 111, 114-117: the start (time stamp) and duration of each
    row in ticks, as [time_of] and [duration_of] read them; the end of each
    evaluation relative to the first start.  Simplification: an unreadable time is
    reported here, not in [update]. *)
Context (time_of duration_of : string -> res Z).
Definition row_times (names row : list string) : res (Z * Z) :=
  do s <- cell_of names row "t_start"%string; do t <- time_of s;
  do d <- cell_of names row "t_wallclock"%string; do u <- duration_of d; Ok (t, u).
Definition earliest (l : list (Z * Z)) : Z :=
  match l with [] => 0%Z | (t, _) :: l' => fold_left (fun m p => Z.min m (fst p)) l' t end.
Definition relative_end (names : list string) (r : report num ind) : res (list Z) :=
  do l <- rmap (row_times names) (map (fun e => fst (snd e)) (r_evals r));
  Ok (map (fun p => fst p + snd p - earliest l)%Z l).
(** successful_evaluations, GamaReport.py:122-126: no metric is NaN or infinite *)
Definition missing (x : num) : bool := match x with Fin _ => false | _ => true end.
Definition successful_evaluations (r : report num ind) : list (nat * (list string * list num)) :=
  filter (fun e => negb (existsb missing (snd (snd e)))) (r_evals r).
End Report.

(** Several calls of fit on one object with an ensemble as post-processing
    (gama.py:507-620), and what is removed between them (gama.py:338-350, 617-619).

    [Hist_Model.v] has the calls with the cache directory still there, [Fac_Model.v]
    (C101) what saving one evaluation does without it; here whole calls follow each
    other. *)
From Verif Require Import Base Num Lib_Model Hist_Model.
From Verif Require Ens_Model Misc_Model Pred_Model Fac_Model.
Require Qcanon.
Open Scope nat_scope.
Open Scope list_scope.

(** Evaluations completed while the cache directory does not exist; exceptions of
    save_evaluation are logged and ignored (gama.py:716-729). *)
Fixpoint saves_gone (l : lib) (es : list ev) (r : rng) : lib * list (ev * res unit) :=
  match es with
  | [] => (l, [])
  | e :: es' => let '(l1, x, r1) := Fac_Model.save_gone l e r in
                let (l2, xs) := saves_gone l1 es' r1 in (l2, (e, x) :: xs)
  end.
(** gama.py:617-619 and 347-348: whether the cache directory is kept after a fit. *)
Definition keeps (store : string) : bool :=
  if String.eqb store "all" then true
  else negb (existsb (String.eqb (if String.eqb store "nothing" then "all" else if String.eqb store "logs" then "evaluations" else "logs")%string)
    ["evaluations"; "all"]%string).

Section Calls.
Context {B : Type} (split : nat -> list B -> rng -> res (list nat) * rng) (classifier : bool) (store : string).

(** A call of fit up to post-processing, as far as the library sees it: [snd s] tells
    whether the cache directory exists.  Without any output directory ("nothing") the
    evaluator cannot open its log (C101). *)
Definition during (s : lib * bool) (f : fit_run (B := B)) : lib * res (list (ev * res unit)) :=
  if snd s then fit_library split classifier (fst s) f
  else
    let (l1, x) := if classifier
                   then match determine split (fst s) None None (Some (f_targets f)) (f_draws f) with (l1, x, _) => (l1, x) end
                   else (fst s, Ok tt) in
    match x with
    | Err e => (l1, Err e)
    | Ok _ =>
      if String.eqb store "nothing" then (l1, Err FileNotFoundError)
      else let (l2, out) := saves_gone l1 (f_evs f) (f_rng f) in (l2, Ok out)
    end.
(** After the call: the end of fit, gama.py:617-619, which a call that raises does not
    reach. *)
Definition after (s : lib * bool) (f : fit_run) : lib * bool :=
  match during s f with
  | (l, Ok _) => (if keeps store then l else Fac_Model.wipe l, snd s && keeps store)
  | (l, Err _) => (l, snd s)
  end.
Definition afters (s : lib * bool) (fs : list fit_run) : lib * bool := fold_left after fs s.
(** The ensemble a call ends with, gama.py:610-616. *)
Definition ensemble_after {A} (row : nat -> list Qcanon.Qc) (tr : option (Ens_Model.mat -> res Ens_Model.mat))
    (metric : list A -> Ens_Model.mat -> res num) (task : option bool) (options : Misc_Model.hps) (y : list A) (left : num) (r : rng)
    (s : lib * bool) (f : fit_run) : res (Ens_Model.ens * res unit) :=
  match during s f with
  | (l, Ok _) => fst (Pred_Model.post_process row tr metric task options y left l r)
  | (_, Err e) => Err e
  end.
End Calls.

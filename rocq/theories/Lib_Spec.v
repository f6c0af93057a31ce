(** Vocabulary for the library properties. *)
From Verif Require Import Base Num Lib_Model.
Open Scope nat_scope.

(** An evaluation that did not fail. *)
Definition success (e : ev) : Prop := ev_error e = None.
Definition successb (e : ev) : bool := match ev_error e with None => true | Some _ => false end.
(** The evaluations whose call of save_evaluation returned normally, in order;
    an evaluation is referred to by its position in this list. *)
Definition saved (results : list (ev * res unit)) : list ev :=
  map fst (filter (fun x => match snd x with Ok _ => true | Err _ => false end) results).
Definition successes (S : list ev) : nat := length (filter successb S).

(** Comparing tuples of scores: the first position where they differ decides,
    a proper prefix is smaller. *)
Definition num_same (a b : num) : Prop := nle a b /\ nle b a.
Definition lex_lt (a b : list num) : Prop :=
  exists i, (forall j, j < i -> j < length a /\ j < length b /\ num_same (nth j a NaN) (nth j b NaN)) /\
    (i < length a /\ i < length b /\ nlt (nth i a NaN) (nth i b NaN) \/ i = length a /\ i < length b).

(** Histories of new evaluations with ordinary scores. *)
Definition ordinary (e : ev) : Prop := ev_file e = None /\ Forall (fun x => x <> NaN) (ev_score e).
(** The successful evaluations belong to different individuals. *)
Definition distinct (es : list ev) : Prop := NoDup (map ev_ind (filter successb es)).

(** What remains of predictions under a sampling rule. *)
Definition kept (n : option nat) (s : sample) (p : option (list nat)) : option (list nat) :=
  match n, p with
  | Some 0, _ | _, None => None
  | _, Some p => Some (match s with Rows rows => map (fun i => nth i p 0) rows | _ => p end)
  end.

(** The positions held in the top. *)
Definition top (l : lib) : list nat := map snd (l_top l).

(** A library nothing was saved in yet, with any sampling rule. *)
Definition empty_lib (l : lib) : Prop :=
  l_objs l = [] /\ l_top l = [] /\ l_other l = [] /\ l_lookup l = [] /\ l_disk l = [].
(** The sampling rule only names rows below [k]. *)
Definition rows_below (k : nat) (s : sample) : Prop :=
  match s with Rows rows => Forall (fun i => i < k) rows | _ => True end.
(** Predictions, if any, have [k] rows. *)
Definition rows_of (k : nat) (e : ev) : Prop :=
  match ev_pred e with Some p => length p = k | None => True end.
(** The last position in [S] of an evaluation of pipeline [key]. *)
Fixpoint last_with (key : string) (S : list ev) : option nat :=
  match S with
  | [] => None
  | e :: S' => match last_with key S' with
               | Some i => Some (Datatypes.S i)
               | None => if String.eqb (ev_key e) key then Some 0 else None
               end
  end.
(** [o] carries what [e] reported: individual, pipeline, score and error. *)
Definition same_report (o e : ev) : Prop :=
  ev_ind o = ev_ind e /\ ev_key o = ev_key e /\ ev_score o = ev_score e /\ ev_error o = ev_error e.
(** Evaluation number [i] of a history. *)
Definition nth_ev (S : list ev) (i : nat) : ev := nth i S (new_ev 0 "" [] None [] None).

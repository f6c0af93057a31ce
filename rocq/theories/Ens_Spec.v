(** Vocabulary for the ensemble properties. *)
From Verif Require Import Base Num Ens_Model.
Open Scope nat_scope.

(** A table with [r] rows and [c] columns, and its entries. *)
Definition shape (r c : nat) (p : mat) : Prop := length p = r /\ Forall (fun row => length row = c) p.
Definition at_ (p : mat) (i j : nat) : Qc := nth j (nth i p []) 0%Qc.

(** [m] is the mean of the weighted tables in [l]. *)
Definition qsum (l : list Qc) : Qc := fold_right Qcplus 0%Qc l.
Definition wsum (l : list nat) : nat := fold_right Nat.add 0 l.
Definition is_mean (r c : nat) (l : list (mat * nat)) (m : mat) : Prop :=
  shape r c m /\ forall i j, i < r -> j < c ->
    at_ m i j = (qsum (map (fun pw => at_ (fst pw) i j * qn (snd pw)) l) / qn (wsum (map snd l)))%Qc.

(** The members of an ensemble with their weights, the total weight, and the
    members' tables of hillclimb predictions. *)
Definition members (s : ens) : list (mdl * nat) :=
  match e_models s with Some d => map snd d | None => [] end.
Definition total_weight (ms : list (mdl * nat)) : nat := wsum (map snd ms).
Definition tables (ms : list (mdl * nat)) : list (mat * nat) :=
  map (fun mw => (match m_pred (fst mw) with Some p => p | None => [] end, snd mw)) ms.
Definition table (m : mdl) : mat := match m_pred m with Some p => p | None => [] end.

(** A model that has predictions for all [r] hillclimb rows. *)
Definition usable (r c : nat) (m : mdl) : Prop := exists p, m_pred m = Some p /\ shape r c p.
(** The metric gives a number above minus infinity for every table. *)
Definition scores (r c : nat) (score : mat -> res num) : Prop :=
  forall p, shape r c p -> exists x, score p = Ok x /\ nlt NInf x.

(** Predictions of [r] rows (each standing for the numbers [row] gives it) become a table
    with [c] columns, after the transformation [tr] if there is one. *)
Definition readable (row : nat -> list Qc) (tr : option (mat -> res mat)) (r c : nat) : Prop :=
  forall vs, length vs = r ->
  exists q, match tr with None => Ok (map row vs) | Some f => f (map row vs) end = Ok q /\ shape r c q.

(** One greedy addition: the new members are the old ones plus one more unit of
    weight for a library model; [x] is the score of the new ensemble, and no other
    addition would have scored higher. *)
Definition weight_of (k : nat) (ms : list (mdl * nat)) : nat :=
  wsum (map snd (filter (fun mw => m_id (fst mw) =? k) ms)).
Definition greedy_step (r c : nat) (score : mat -> res num) (lib : list mdl)
  (ms ms' : list (mdl * nat)) (x : num) : Prop :=
  exists m, In m lib /\
    (forall k, weight_of k ms' = weight_of k ms + (if k =? m_id m then 1 else 0)) /\
    (forall a, is_mean r c (tables ms') a -> score a = Ok x) /\
    (forall m' a y, In m' lib -> is_mean r c ((table m', 1) :: tables ms) a -> score a = Ok y -> nle y x).
Inductive greedy_run (r c : nat) (score : mat -> res num) (lib : list mdl)
  : nat -> list (mdl * nat) -> num -> list (mdl * nat) -> num -> Prop :=
| greedy_nil ms x : greedy_run r c score lib 0 ms x ms x
| greedy_cons n ms x ms1 x1 ms2 x2 :
    greedy_step r c score lib ms ms1 x1 -> greedy_run r c score lib n ms1 x1 ms2 x2 ->
    greedy_run r c score lib (S n) ms x ms2 x2.

(** The ensemble the additions start from: one unit of weight for each of the [k]
    best models of the library. *)
Definition initial (k : nat) (lib : list mdl) (ms : list (mdl * nat)) : Prop :=
  forall i, weight_of i ms = count_occ Nat.eq_dec (map m_id (firstn k lib)) i.

(** A row of class probabilities. *)
Definition distribution (row : list Qc) : Prop :=
  Forall (fun x => (0 <= x)%Qc) row /\ qsum row = 1%Qc.

(** The row numbers a library sample keeps, out of [n]. *)
Definition stored (s : Lib_Model.sample) (n : nat) : list nat :=
  match s with Lib_Model.Rows rows => rows | _ => seq 0 n end.

(** Vocabulary for the properties of fit as a whole. *)
Require Import QArith Qcanon Permutation Sorted.
From Verif Require Import Base Num Data_Model Data_Spec Tk_Model Gp_Model Lib_Spec Pred_Model Pred_Spec Fit_Model.
From Verif Require Fac_Model.
Open Scope string_scope.
Open Scope list_scope.
Open Scope nat_scope.

(** * Instances *)
(** as made by the constructor *)
Definition new_inst {I} (classifier : bool) (total : Z) (fraction : Q) (stores : bool) (store : string) (d : option Fac_Model.dir) (space : pset) : inst I :=
  mkInst classifier total fraction stores store d (tk_new (Some total)) unfitted None None None [] space [].

Section Spec.
  Context {I : Type}.
  Context (rate : positive) (fit_transform : enc_step -> frame -> res frame)
          (fitted : list enc_step -> frame -> frame -> res frame)
          (knn poly : primitive -> bool) (key : I -> option (list num)) (takes_labels : bool).
  Notation fit := (fit rate fit_transform fitted knn poly key takes_labels).

  (** The instance after any history of calls of fit, failed or not. *)
  Inductive history : inst I -> Prop :=
  | constructed classifier total fraction stores store d space : history (new_inst classifier total fraction stores store d space)
  | refitted g c : history g -> history (snd (fit c g)).

  (** * A successful fit *)
  (** What the search and the model get to see: the rows with a target (C66, C67), the
      targets as numbers if they are text (C69), and the classes of a classifier. *)
  Definition training_data (c : call I) (classifier : bool) (x : frame) (y : yout) (classes : option (list label)) : Prop :=
    if classifier then exists cs, classes = Some cs /\ classifier_format (c_x c) (c_y c) = Ok (cs, (x, y))
    else classes = None /\ format_x_y (c_x c) (c_y c) TSeries true = Ok (x, y).
  (** The search space of a fit with data of this size: without the KNN models and
      polynomial features that are too large to be kept (C104). *)
  Definition space_for (stores : bool) (rows cols : nat) (space space' : pset) : Prop :=
    forall k p, In p (prims_of space' k) <->
      In p (prims_of space k) /\ ~ (stores = true /\ k = "prediction" /\ (6000000 < Z.of_nat rows * Z.of_nat cols)%Z /\ knn p = true)
                             /\ ~ (stores = true /\ k = "data" /\ 50 < cols /\ poly p = true).
  (** What the search starts from: the given individuals (nothing else may be given), those of
      the fit before, or 50 new ones. *)
  Definition started_from (c : call I) (g : inst I) (space : pset) (pop : list I) : Prop :=
    (forall given, c_warm c = Some given -> exists l, given = map Some l) /\
    (forall l, c_warm c = Some (map Some l) -> l <> [] -> pop = l) /\
    (c_warm c = None -> i_final g <> [] -> pop = i_final g) /\
    (c_warm c = Some [] \/ c_warm c = None /\ i_final g = [] -> pop = map (c_fresh c space) (seq 0 50)).
  (** The search of a fit of [g] was started with these data and steps, under the limit in the time
      keeper, ended (by itself, by its time limit or by the user) and left [output]. *)
  Definition searched (c : call I) (g g' : inst I) (xe : frame) (y : yout) (output : list I) : Prop :=
    exists pop limit how, c_search c (i_pset g') (i_extension g') pop xe y (i_labels g') limit (c_clock c 5 + limit * Zpos rate)%Z = (how, output) /\
      started_from c g (i_pset g') pop /\
      (how = Ok tt \/ how = Err TimeoutException \/ how = Err KeyboardInterrupt) /\
      exists a, nth_error (tk_acts (i_keeper g')) 1 = Some a /\ a_name a = "search" /\ a_limit a = Some (limit * Zpos rate)%Z.
  (** the evaluated individuals of [output] in order of fitness, the best first *)
  Definition best_first (output best : list I) : Prop :=
    Permutation best output /\ Forall (fun i => key i <> None) output /\
    ((forall i v, In i output -> key i = Some v -> Forall (fun n => n <> NaN) v) ->
     StronglySorted (fun a b => forall v w, key a = Some v -> key b = Some w -> ~ lex_lt v w) best).
  (** how a fitted object answers for a DataFrame and for an array *)
  Definition answers (g' : gama) (types : list coltype) (encode : frame -> res frame) (classes : option (list label)) (m : model) : Prop :=
    forall parse_float parse_int other,
      (forall q, predict parse_float parse_int other g' (XFrame q) =
         do z <- encode q; do raw <- predict_labels m z; match classes with None => Ok raw | Some cs => classifier_predict cs raw end) /\
      (forall q, predict_proba parse_float parse_int other true g' (XFrame q) = do z <- encode q; predict_probabilities m z) /\
      (forall n cols q, presented parse_float parse_int other types n cols q ->
         predict parse_float parse_int other g' (XArr n cols) = predict parse_float parse_int other g' (XFrame q) /\
         predict_proba parse_float parse_int other true g' (XArr n cols) = predict_proba parse_float parse_int other true g' (XFrame q)).

  (** an object that answers nothing *)
  Definition silent (g' : gama) : Prop :=
    forall parse_float parse_int other x,
      (forall answer, predict parse_float parse_int other g' x <> Ok answer) /\
      (forall classifier answer, predict_proba parse_float parse_int other classifier g' x <> Ok answer).

  (** * Time *)
  Definition monotone (clock : nat -> Z) : Prop := forall i j, i <= j -> (clock i <= clock j)%Z.
  Definition spent (clock : nat -> Z) (b e : nat) : Z := (clock e - clock b)%Z.
  (** the limit of an activity of the last fit, in ticks *)
  Definition limit_of (g : inst I) (name : string) (l : Z) : Prop :=
    exists a, In a (tk_acts (i_keeper g)) /\ a_name a = name /\ a_limit a = Some l.
End Spec.

(** * Examples *)
(** encoders that change nothing; individuals are numbers, their fitness; their models
    answer with that number in every row *)
Definition ex_ft (s : enc_step) (f : frame) : res frame := Ok f.
Definition ex_fitted (steps : list enc_step) (x f : frame) : res frame := Ok f.
Definition ex_key (i : nat) : option (list num) := Some [Fin (inject_Z (Z.of_nat i))].
Definition ex_label (i : nat) : label := LNum (Q2Qc (inject_Z (Z.of_nat i))).
Definition ex_train (i : nat) (x : frame) (y : yout) : res model :=
  Ok (mkModel (fun f => Ok (map (fun _ => ex_label i) (f_index f))) (fun f => Ok (map (fun _ => [1%Qc]) (f_index f)))).
Definition no_prim (p : primitive) : bool := false.
Definition ex_x : frame := mkFrame [0%Z; 1%Z; 2%Z] [mkCol (NStr "a") DFloat [CNum 1%Qc; CNum 0%Qc; CNum 1%Qc]].
(** a call of fit that takes a tick between any two readings of the clock *)
Definition ex_call (x : xdata) (y : ydata) (ending : res unit) (found : list nat) : call nat :=
  mkCall x y [TPlain DFloat] None (fun _ => Ok tt) Z.of_nat (fun _ i => i) (fun _ _ _ _ _ _ _ _ => (ending, found)) (Some []) (best_fit_post ex_train).
Definition ex_inst (classifier : bool) : inst nat := new_inst classifier 100 (1 # 10) false "all" (Some []) (mkPset [] []).
Definition ex_fit := fit (I := nat) 1 ex_ft ex_fitted no_prim no_prim ex_key true.

(** A concrete configuration. *)
From Verif Require Import Base Gp_Model Gp_Spec Conf_Model Conf_Spec Gp_Examples.
Open Scope string_scope.
Open Scope list_scope.
Open Scope nat_scope.

Definition meta_abc := "<class 'abc.ABCMeta'>".
Definition meta_type := "<class 'type'>".
Definition vtrue := vi "True" 1.
Definition vfalse := vi "False" 0.
Definition vl1 := mkValue KStr "l1" 100.
Definition vl2 := mkValue KStr "l2" 101.
Definition vcheck := mkValue KCallable "<lambda>" 102.
Definition cBNB := mkCls 0 "BNB" meta_abc false true false.
Definition cSVC := mkCls 1 "SVC" meta_type false true false.
Definition cPCA := mkCls 2 "PCA" meta_abc true false false.
Definition cfg_alpha := mkEntry (Some [vi "0.1" 10; vi "1.0" 1]) None.
Definition cfg_bnb := mkEntry (Some []) (Some [("fit_prior", mkHval HList [vtrue; vfalse]); ("alpha", mkHval HList [])]).
Definition cfg_svc := mkEntry (Some []) (Some [("penalty", mkHval HList [vl1; vl2]); ("dual", mkHval HList [vfalse; vtrue]);
                                               ("param_check", mkHval HList [vcheck])]).
Definition cfg_pca := mkEntry (Some []) (Some [("power", mkHval HRange [vi "1" 1; vi "2" 2; vi "3" 3])]).
Definition ex_cfg : config := [(KeyStr "alpha", cfg_alpha); (KeyClass cBNB, cfg_bnb); (KeyClass cSVC, cfg_svc); (KeyClass cPCA, cfg_pca)].
(** SVC's check: not dual or penalty == l2 (LinearSVC in classification.py) *)
Definition ex_holds (f : value) (params : list (string * value)) : bool :=
  let get n := match find (fun nv => String.eqb (fst nv) n) params with Some (_, v) => v | None => vfalse end in
  negb (value_eqb (get "dual") vtrue) || value_eqb (get "penalty") vl2.
(** [list(set(l))]: one possible order *)
Fixpoint ex_set (l : list value) : list value :=
  match l with
  | [] => []
  | v :: l' => if existsb (value_eqb v) l' then ex_set l' else v :: ex_set l'
  end.

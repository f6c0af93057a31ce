#!/usr/bin/env python3
"""Generates rocq/theories/Ship_Model.v: the configuration dictionaries in
/repo/gama/configuration as data.  Reads the sources as text (ast), runs nothing."""
import ast, math, sys
REPO = "/repo/gama/configuration/"
TRANS = "Binarizer FastICA FeatureAgglomeration MaxAbsScaler MinMaxScaler Normalizer Nystroem PCA PolynomialFeatures RBFSampler RobustScaler StandardScaler SelectFwe SelectPercentile VarianceThreshold".split()
CLF = "GaussianNB BernoulliNB MultinomialNB DecisionTreeClassifier ExtraTreesClassifier RandomForestClassifier GradientBoostingClassifier KNeighborsClassifier LinearSVC LogisticRegression".split()
REG = "ElasticNetCV ExtraTreesRegressor GradientBoostingRegressor AdaBoostRegressor DecisionTreeRegressor KNeighborsRegressor LassoLarsCV LinearSVR RandomForestRegressor".split()
classes = {n: i for i, n in enumerate(TRANS + CLF + REG)}
codes = {}
def code(v):                 # equal exactly when Python's == holds
    return codes.setdefault(v, len(codes))
lambdas = []
lines = {}
def arange(a, b, s):         # numpy: first two elements, then start + i * delta
    a, b, s = float(a), float(b), float(s)
    n = math.ceil((b - a) / s)
    d = (a + s) - a
    return [a, a + s][:n] + [a + i * d for i in range(2, n)]
def val(v):
    if isinstance(v, str): return f'(vs "{v}" {code(v)})'
    return f'(vo "{v}" {code(v)})'
def hval(e, where):
    if isinstance(e, ast.List):
        out = []
        for x in e.elts:
            if isinstance(x, ast.Lambda):
                lambdas.append(where)
                lines[where] = f"{where.split(':')[0]}:{x.lineno}" + (f"-{x.end_lineno}" if x.end_lineno != x.lineno else "")
                out.append(f'(vc "<lambda>" {code(("lambda", where))})')
            else:
                out.append(val(ast.literal_eval(x)))
        return "HList", out
    if isinstance(e, ast.Dict):
        return "HDict", [f'(vc "{k.id}" {code(("function", k.id))})' for k in e.keys]
    if isinstance(e, ast.Call):
        args = [ast.literal_eval(a) for a in e.args]
        f = ast.unparse(e.func)
        if f == "range": return "HRange", [val(x) for x in range(*args)]
        if f == "np.arange": return "HArray", [val(x) for x in arange(*args)]
    raise SystemExit("unexpected " + ast.unparse(e))
def show(e, where, indent):
    k, items = hval(e, where)
    s = f"mkHval {k} ["
    line = len(indent) + len(s)
    for i, it in enumerate(items):
        t = it + ("; " if i + 1 < len(items) else "")
        if line + len(t) > 118:
            s = s.rstrip() + "\n" + indent + "  "
            line = len(indent) + 2
        s += t; line += len(t)
    return s + "]"
out = ['''(** GENERATED by tools/mkship.py.  The configurations shipped with GAMA
    (gama/configuration/classification.py, regression.py and testconfiguration.py) as
    data, entry by entry; the comment before each entry gives its line.

    - Values: [vs] a str, [vo] a number or bool with its [str()], [vc] a function
      with its [__name__].  The numbers given last are equal exactly when Python's
      [==] holds (so [1], [1.0] and [True] share one).
    - [np.arange] is expanded as numpy does: its first two elements, then
      [start + i * delta] in double precision.
    - Which classes are transformers, classifiers or regressors is a fact about
      scikit-learn, not about this repository; [meta] gives [str(type(cls))] and is
      left open. *)
From Verif Require Import Base Gp_Model Conf_Model.
Open Scope string_scope.
Open Scope list_scope.
Open Scope nat_scope.

Definition vs (t : string) (e : Z) : value := mkValue KStr t e.
Definition vo (t : string) (e : Z) : value := mkValue KOther t e.
Definition vc (t : string) (e : Z) : value := mkValue KCallable t e.

(** A value of the outer dictionary: the values of a shared hyperparameter, or
    the hyperparameters of an algorithm. *)
Inductive centry := Shared (v : hval) | Algorithm (items : hdict).
Definition shipped := list (ckey * centry).
''']
def cls(n):
    t, c, r = n in TRANS, n in CLF, n in REG
    b = lambda x: "true" if x else "false"
    return f'Definition c_{n} (meta : string -> string) : cls := mkCls {classes[n]} "{n}" (meta "{n}") {b(t)} {b(c)} {b(r)}.'
out.append("(** The classes used as keys. *)")
for n in TRANS + CLF + REG: out.append(cls(n))
out.append("")
for fn, var, name in [("classification.py", "clf_config", "clf_config"), ("regression.py", "reg_config", "reg_config"), ("testconfiguration.py", "clf_config", "test_config")]:
    tree = ast.parse(open(REPO + fn).read())
    d = [n.value for n in tree.body if isinstance(n, ast.Assign) and n.targets[0].id == var][0]
    entries = []
    for k, v in zip(d.keys, d.values):
        cite = f"  (* {fn}:{k.lineno}" + (f"-{v.end_lineno}" if v.end_lineno != k.lineno else "") + " *)\n"
        if isinstance(k, ast.Constant):
            entries.append(cite + f'  (KeyStr "{k.value}", Shared ({show(v, fn, "    ")}))')
        else:
            items = [f'("{a.value}", {show(b, fn + ":" + k.id, "    ")})' for a, b in zip(v.keys, v.values)]
            entries.append(cite + f'  (KeyClass (c_{k.id} meta), Algorithm [' + ";\n    ".join([""] + items if items else [])[1:] + "])")
    out.append(f"(** {var}, {fn}:{d.lineno}-{d.end_lineno}. *)\nDefinition {name} (meta : string -> string) : shipped := [\n" + ";\n".join(entries) + "].\n")
at = lambda n: ", ".join(l for w, l in lines.items() if w.endswith(":" + n))
L = {w: codes[("lambda", w)] for w in lambdas}
out.append(f'''(** * The functions given as param_check *)

(** [params[n] == v] and truth of [params[n]]. *)
Definition param (params : list (string * value)) (n : string) : option value :=
  option_map snd (find (fun nv => String.eqb (fst nv) n) params).
Definition param_is (params : list (string * value)) (n : string) (v : value) : bool :=
  match param params n with Some w => value_eqb w v | None => false end.
Definition param_true (params : list (string * value)) (n : string) : bool :=
  match param params n with Some w => value_eqb w {val(True)} | None => false end.

(** LinearSVC, {at("LinearSVC")}. *)
Definition svc_check (params : list (string * value)) : bool :=
  (negb (param_true params "dual") || param_is params "penalty" {val("l2")})
  && negb (param_is params "penalty" {val("l1")} && param_is params "loss" {val("hinge")})
  && negb (param_is params "penalty" {val("l2")} && param_is params "loss" {val("hinge")} && negb (param_true params "dual")).
(** FeatureAgglomeration, {at("FeatureAgglomeration")}. *)
Definition agglomeration_check (params : list (string * value)) : bool :=
  negb (param_is params "linkage" {val("ward")}) || param_is params "affinity" {val("euclidean")}.
(** LogisticRegression, {at("LogisticRegression")}. *)
Definition logistic_check (params : list (string * value)) : bool :=
  negb (param_true params "dual") || param_is params "penalty" {val("l2")}.

(** Calling one of the functions given as param_check.  Simplification: a missing
    key ([KeyError]) reads as a value that is neither true nor equal to anything. *)
Definition shipped_check (f : value) (params : list (string * value)) : bool :=
  match v_eq f with''')
for w, z in L.items():
    fun = "svc_check" if w.endswith("LinearSVC") else "logistic_check" if w.endswith("LogisticRegression") else "agglomeration_check"
    out.append(f"  | {z} (* {w} *) => {fun} params")
out.append('''  | _ => true
  end%Z.

(** * As arguments of pset_from_config and merge_configurations *)
Definition as_config (s : shipped) : config :=
  map (fun ke => (fst ke, match snd ke with
                          | Shared v => mkEntry (match hv_kind v with HScalar => None | _ => Some (hv_items v) end) None
                          | Algorithm items => mkEntry (Some []) (Some items)
                          end)) s.
(** The inner dictionaries are objects: that of the i-th entry is object [base + i]. *)
Fixpoint as_refs (base : nat) (s : shipped) : rconfig :=
  match s with
  | [] => []
  | (k, Shared v) :: s' => (k, RIter v) :: as_refs (S base) s'
  | (k, Algorithm _) :: s' => (k, RDict base) :: as_refs (S base) s'
  end.
Definition object (s : shipped) (l : nat) : hdict :=
  match nth_error s l with Some (_, Algorithm items) => items | _ => [] end.
(** gama/logging/GamaReport.py:6-13 reads both modules: the objects of clf_config
    first, then those of reg_config. *)
Definition loaded (meta : string -> string) : dheap := object (clf_config meta ++ reg_config meta).
Definition clf_refs (meta : string -> string) : rconfig := as_refs 0 (clf_config meta).
Definition reg_refs (meta : string -> string) : rconfig := as_refs (length (clf_config meta)) (reg_config meta).''')
open("/verif/rocq/theories/Ship_Model.v", "w").write("\n".join(out) + "\n")

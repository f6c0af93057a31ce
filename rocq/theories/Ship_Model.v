(** GENERATED by tools/mkship.py.  The configurations shipped with GAMA
    (gama/configuration/classification.py, regression.py and testconfiguration.py) as
    data, entry by entry; the comment before each entry gives its line.

    - Values: [vs] a str, [vo] a number or bool with its [str()], [vc] a function
      with its [__name__].  The numbers given last are equal exactly when Python's
      [==] holds (so [1], [1.0] and [True] share one).
    - [np.arange] is expanded as numpy does: its first two elements, then
      [start + i * delta] in double precision.
    - Which classes are transformers, classifiers or regressors is a fact about
      scikit-learn, not about this repository; [meta] gives [str(type(cls))] and is
      left open. *)
From Verif Require Import Base Gp_Model Conf_Model.
Open Scope string_scope.
Open Scope list_scope.
Open Scope nat_scope.

Definition vs (t : string) (e : Z) : value := mkValue KStr t e.
Definition vo (t : string) (e : Z) : value := mkValue KOther t e.
Definition vc (t : string) (e : Z) : value := mkValue KCallable t e.

(** A value of the outer dictionary: the values of a shared hyperparameter, or
    the hyperparameters of an algorithm. *)
Inductive centry := Shared (v : hval) | Algorithm (items : hdict).
Definition shipped := list (ckey * centry).

(** The classes used as keys. *)
Definition c_Binarizer (meta : string -> string) : cls := mkCls 0 "Binarizer" (meta "Binarizer") true false false.
Definition c_FastICA (meta : string -> string) : cls := mkCls 1 "FastICA" (meta "FastICA") true false false.
Definition c_FeatureAgglomeration (meta : string -> string) : cls := mkCls 2 "FeatureAgglomeration" (meta "FeatureAgglomeration") true false false.
Definition c_MaxAbsScaler (meta : string -> string) : cls := mkCls 3 "MaxAbsScaler" (meta "MaxAbsScaler") true false false.
Definition c_MinMaxScaler (meta : string -> string) : cls := mkCls 4 "MinMaxScaler" (meta "MinMaxScaler") true false false.
Definition c_Normalizer (meta : string -> string) : cls := mkCls 5 "Normalizer" (meta "Normalizer") true false false.
Definition c_Nystroem (meta : string -> string) : cls := mkCls 6 "Nystroem" (meta "Nystroem") true false false.
Definition c_PCA (meta : string -> string) : cls := mkCls 7 "PCA" (meta "PCA") true false false.
Definition c_PolynomialFeatures (meta : string -> string) : cls := mkCls 8 "PolynomialFeatures" (meta "PolynomialFeatures") true false false.
Definition c_RBFSampler (meta : string -> string) : cls := mkCls 9 "RBFSampler" (meta "RBFSampler") true false false.
Definition c_RobustScaler (meta : string -> string) : cls := mkCls 10 "RobustScaler" (meta "RobustScaler") true false false.
Definition c_StandardScaler (meta : string -> string) : cls := mkCls 11 "StandardScaler" (meta "StandardScaler") true false false.
Definition c_SelectFwe (meta : string -> string) : cls := mkCls 12 "SelectFwe" (meta "SelectFwe") true false false.
Definition c_SelectPercentile (meta : string -> string) : cls := mkCls 13 "SelectPercentile" (meta "SelectPercentile") true false false.
Definition c_VarianceThreshold (meta : string -> string) : cls := mkCls 14 "VarianceThreshold" (meta "VarianceThreshold") true false false.
Definition c_GaussianNB (meta : string -> string) : cls := mkCls 15 "GaussianNB" (meta "GaussianNB") false true false.
Definition c_BernoulliNB (meta : string -> string) : cls := mkCls 16 "BernoulliNB" (meta "BernoulliNB") false true false.
Definition c_MultinomialNB (meta : string -> string) : cls := mkCls 17 "MultinomialNB" (meta "MultinomialNB") false true false.
Definition c_DecisionTreeClassifier (meta : string -> string) : cls := mkCls 18 "DecisionTreeClassifier" (meta "DecisionTreeClassifier") false true false.
Definition c_ExtraTreesClassifier (meta : string -> string) : cls := mkCls 19 "ExtraTreesClassifier" (meta "ExtraTreesClassifier") false true false.
Definition c_RandomForestClassifier (meta : string -> string) : cls := mkCls 20 "RandomForestClassifier" (meta "RandomForestClassifier") false true false.
Definition c_GradientBoostingClassifier (meta : string -> string) : cls := mkCls 21 "GradientBoostingClassifier" (meta "GradientBoostingClassifier") false true false.
Definition c_KNeighborsClassifier (meta : string -> string) : cls := mkCls 22 "KNeighborsClassifier" (meta "KNeighborsClassifier") false true false.
Definition c_LinearSVC (meta : string -> string) : cls := mkCls 23 "LinearSVC" (meta "LinearSVC") false true false.
Definition c_LogisticRegression (meta : string -> string) : cls := mkCls 24 "LogisticRegression" (meta "LogisticRegression") false true false.
Definition c_ElasticNetCV (meta : string -> string) : cls := mkCls 25 "ElasticNetCV" (meta "ElasticNetCV") false false true.
Definition c_ExtraTreesRegressor (meta : string -> string) : cls := mkCls 26 "ExtraTreesRegressor" (meta "ExtraTreesRegressor") false false true.
Definition c_GradientBoostingRegressor (meta : string -> string) : cls := mkCls 27 "GradientBoostingRegressor" (meta "GradientBoostingRegressor") false false true.
Definition c_AdaBoostRegressor (meta : string -> string) : cls := mkCls 28 "AdaBoostRegressor" (meta "AdaBoostRegressor") false false true.
Definition c_DecisionTreeRegressor (meta : string -> string) : cls := mkCls 29 "DecisionTreeRegressor" (meta "DecisionTreeRegressor") false false true.
Definition c_KNeighborsRegressor (meta : string -> string) : cls := mkCls 30 "KNeighborsRegressor" (meta "KNeighborsRegressor") false false true.
Definition c_LassoLarsCV (meta : string -> string) : cls := mkCls 31 "LassoLarsCV" (meta "LassoLarsCV") false false true.
Definition c_LinearSVR (meta : string -> string) : cls := mkCls 32 "LinearSVR" (meta "LinearSVR") false false true.
Definition c_RandomForestRegressor (meta : string -> string) : cls := mkCls 33 "RandomForestRegressor" (meta "RandomForestRegressor") false false true.

(** clf_config, classification.py:36-147. *)
Definition clf_config (meta : string -> string) : shipped := [
  (* classification.py:37 *)
  (KeyStr "alpha", Shared (mkHval HList [(vo "0.001" 0); (vo "0.01" 1); (vo "0.1" 2); (vo "1.0" 3); (vo "10.0" 4); (vo "100.0" 5)]));
  (* classification.py:38 *)
  (KeyStr "fit_prior", Shared (mkHval HList [(vo "True" 3); (vo "False" 6)]));
  (* classification.py:39 *)
  (KeyStr "min_samples_split", Shared (mkHval HRange [(vo "2" 7); (vo "3" 8); (vo "4" 9); (vo "5" 10); (vo "6" 11); (vo "7" 12); (vo "8" 13);
      (vo "9" 14); (vo "10" 4); (vo "11" 15); (vo "12" 16); (vo "13" 17); (vo "14" 18); (vo "15" 19); (vo "16" 20);
      (vo "17" 21); (vo "18" 22); (vo "19" 23); (vo "20" 24)]));
  (* classification.py:40 *)
  (KeyStr "min_samples_leaf", Shared (mkHval HRange [(vo "1" 3); (vo "2" 7); (vo "3" 8); (vo "4" 9); (vo "5" 10); (vo "6" 11); (vo "7" 12);
      (vo "8" 13); (vo "9" 14); (vo "10" 4); (vo "11" 15); (vo "12" 16); (vo "13" 17); (vo "14" 18); (vo "15" 19);
      (vo "16" 20); (vo "17" 21); (vo "18" 22); (vo "19" 23); (vo "20" 24)]));
  (* classification.py:42 *)
  (KeyClass (c_GaussianNB meta), Algorithm []);
  (* classification.py:43 *)
  (KeyClass (c_BernoulliNB meta), Algorithm [
    ("alpha", mkHval HList []);
    ("fit_prior", mkHval HList [])]);
  (* classification.py:44 *)
  (KeyClass (c_MultinomialNB meta), Algorithm [
    ("alpha", mkHval HList []);
    ("fit_prior", mkHval HList [])]);
  (* classification.py:45-50 *)
  (KeyClass (c_DecisionTreeClassifier meta), Algorithm [
    ("criterion", mkHval HList [(vs "gini" 25); (vs "entropy" 26)]);
    ("max_depth", mkHval HRange [(vo "1" 3); (vo "2" 7); (vo "3" 8); (vo "4" 9); (vo "5" 10); (vo "6" 11); (vo "7" 12);
      (vo "8" 13); (vo "9" 14); (vo "10" 4)]);
    ("min_samples_split", mkHval HList []);
    ("min_samples_leaf", mkHval HList [])]);
  (* classification.py:51-58 *)
  (KeyClass (c_ExtraTreesClassifier meta), Algorithm [
    ("n_estimators", mkHval HList [(vo "100" 5)]);
    ("criterion", mkHval HList [(vs "gini" 25); (vs "entropy" 26)]);
    ("max_features", mkHval HArray [(vo "0.05" 27); (vo "0.1" 2); (vo "0.15000000000000002" 28); (vo "0.2" 29); (vo "0.25" 30);
      (vo "0.3" 31); (vo "0.35000000000000003" 32); (vo "0.4" 33); (vo "0.45" 34); (vo "0.5" 35); (vo "0.55" 36);
      (vo "0.6000000000000001" 37); (vo "0.6500000000000001" 38); (vo "0.7000000000000001" 39);
      (vo "0.7500000000000001" 40); (vo "0.8" 41); (vo "0.8500000000000001" 42); (vo "0.9000000000000001" 43);
      (vo "0.9500000000000001" 44); (vo "1.0" 3)]);
    ("min_samples_split", mkHval HList []);
    ("min_samples_leaf", mkHval HList []);
    ("bootstrap", mkHval HList [(vo "True" 3); (vo "False" 6)])]);
  (* classification.py:59-66 *)
  (KeyClass (c_RandomForestClassifier meta), Algorithm [
    ("n_estimators", mkHval HList [(vo "100" 5)]);
    ("criterion", mkHval HList [(vs "gini" 25); (vs "entropy" 26)]);
    ("max_features", mkHval HArray [(vo "0.05" 27); (vo "0.1" 2); (vo "0.15000000000000002" 28); (vo "0.2" 29); (vo "0.25" 30);
      (vo "0.3" 31); (vo "0.35000000000000003" 32); (vo "0.4" 33); (vo "0.45" 34); (vo "0.5" 35); (vo "0.55" 36);
      (vo "0.6000000000000001" 37); (vo "0.6500000000000001" 38); (vo "0.7000000000000001" 39);
      (vo "0.7500000000000001" 40); (vo "0.8" 41); (vo "0.8500000000000001" 42); (vo "0.9000000000000001" 43);
      (vo "0.9500000000000001" 44); (vo "1.0" 3)]);
    ("min_samples_split", mkHval HRange [(vo "2" 7); (vo "3" 8); (vo "4" 9); (vo "5" 10); (vo "6" 11); (vo "7" 12); (vo "8" 13);
      (vo "9" 14); (vo "10" 4); (vo "11" 15); (vo "12" 16); (vo "13" 17); (vo "14" 18); (vo "15" 19); (vo "16" 20);
      (vo "17" 21); (vo "18" 22); (vo "19" 23); (vo "20" 24)]);
    ("min_samples_leaf", mkHval HRange [(vo "1" 3); (vo "2" 7); (vo "3" 8); (vo "4" 9); (vo "5" 10); (vo "6" 11); (vo "7" 12);
      (vo "8" 13); (vo "9" 14); (vo "10" 4); (vo "11" 15); (vo "12" 16); (vo "13" 17); (vo "14" 18); (vo "15" 19);
      (vo "16" 20); (vo "17" 21); (vo "18" 22); (vo "19" 23); (vo "20" 24)]);
    ("bootstrap", mkHval HList [(vo "True" 3); (vo "False" 6)])]);
  (* classification.py:67-75 *)
  (KeyClass (c_GradientBoostingClassifier meta), Algorithm [
    ("n_estimators", mkHval HList [(vo "100" 5)]);
    ("learning_rate", mkHval HList [(vo "0.001" 0); (vo "0.01" 1); (vo "0.1" 2); (vo "0.5" 35); (vo "1.0" 3)]);
    ("max_depth", mkHval HRange [(vo "1" 3); (vo "2" 7); (vo "3" 8); (vo "4" 9); (vo "5" 10); (vo "6" 11); (vo "7" 12);
      (vo "8" 13); (vo "9" 14); (vo "10" 4)]);
    ("min_samples_split", mkHval HRange [(vo "2" 7); (vo "3" 8); (vo "4" 9); (vo "5" 10); (vo "6" 11); (vo "7" 12); (vo "8" 13);
      (vo "9" 14); (vo "10" 4); (vo "11" 15); (vo "12" 16); (vo "13" 17); (vo "14" 18); (vo "15" 19); (vo "16" 20);
      (vo "17" 21); (vo "18" 22); (vo "19" 23); (vo "20" 24)]);
    ("min_samples_leaf", mkHval HRange [(vo "1" 3); (vo "2" 7); (vo "3" 8); (vo "4" 9); (vo "5" 10); (vo "6" 11); (vo "7" 12);
      (vo "8" 13); (vo "9" 14); (vo "10" 4); (vo "11" 15); (vo "12" 16); (vo "13" 17); (vo "14" 18); (vo "15" 19);
      (vo "16" 20); (vo "17" 21); (vo "18" 22); (vo "19" 23); (vo "20" 24)]);
    ("subsample", mkHval HArray [(vo "0.05" 27); (vo "0.1" 2); (vo "0.15000000000000002" 28); (vo "0.2" 29); (vo "0.25" 30);
      (vo "0.3" 31); (vo "0.35000000000000003" 32); (vo "0.4" 33); (vo "0.45" 34); (vo "0.5" 35); (vo "0.55" 36);
      (vo "0.6000000000000001" 37); (vo "0.6500000000000001" 38); (vo "0.7000000000000001" 39);
      (vo "0.7500000000000001" 40); (vo "0.8" 41); (vo "0.8500000000000001" 42); (vo "0.9000000000000001" 43);
      (vo "0.9500000000000001" 44); (vo "1.0" 3)]);
    ("max_features", mkHval HArray [(vo "0.05" 27); (vo "0.1" 2); (vo "0.15000000000000002" 28); (vo "0.2" 29); (vo "0.25" 30);
      (vo "0.3" 31); (vo "0.35000000000000003" 32); (vo "0.4" 33); (vo "0.45" 34); (vo "0.5" 35); (vo "0.55" 36);
      (vo "0.6000000000000001" 37); (vo "0.6500000000000001" 38); (vo "0.7000000000000001" 39);
      (vo "0.7500000000000001" 40); (vo "0.8" 41); (vo "0.8500000000000001" 42); (vo "0.9000000000000001" 43);
      (vo "0.9500000000000001" 44); (vo "1.0" 3)])]);
  (* classification.py:76-80 *)
  (KeyClass (c_KNeighborsClassifier meta), Algorithm [
    ("n_neighbors", mkHval HRange [(vo "1" 3); (vo "2" 7); (vo "3" 8); (vo "4" 9); (vo "5" 10); (vo "6" 11); (vo "7" 12);
      (vo "8" 13); (vo "9" 14); (vo "10" 4); (vo "11" 15); (vo "12" 16); (vo "13" 17); (vo "14" 18); (vo "15" 19);
      (vo "16" 20); (vo "17" 21); (vo "18" 22); (vo "19" 23); (vo "20" 24); (vo "21" 45); (vo "22" 46); (vo "23" 47);
      (vo "24" 48); (vo "25" 49); (vo "26" 50); (vo "27" 51); (vo "28" 52); (vo "29" 53); (vo "30" 54); (vo "31" 55);
      (vo "32" 56); (vo "33" 57); (vo "34" 58); (vo "35" 59); (vo "36" 60); (vo "37" 61); (vo "38" 62); (vo "39" 63);
      (vo "40" 64); (vo "41" 65); (vo "42" 66); (vo "43" 67); (vo "44" 68); (vo "45" 69); (vo "46" 70); (vo "47" 71);
      (vo "48" 72); (vo "49" 73); (vo "50" 74)]);
    ("weights", mkHval HList [(vs "uniform" 75); (vs "distance" 76)]);
    ("p", mkHval HList [(vo "1" 3); (vo "2" 7)])]);
  (* classification.py:81-96 *)
  (KeyClass (c_LinearSVC meta), Algorithm [
    ("penalty", mkHval HList [(vs "l1" 77); (vs "l2" 78)]);
    ("loss", mkHval HList [(vs "hinge" 79); (vs "squared_hinge" 80)]);
    ("dual", mkHval HList [(vo "False" 6); (vo "True" 3)]);
    ("tol", mkHval HList [(vo "1e-05" 81); (vo "0.0001" 82); (vo "0.001" 0); (vo "0.01" 1); (vo "0.1" 2)]);
    ("C", mkHval HList [(vo "0.0001" 82); (vo "0.001" 0); (vo "0.01" 1); (vo "0.1" 2); (vo "0.5" 35); (vo "1.0" 3);
      (vo "5.0" 10); (vo "10.0" 4); (vo "15.0" 19); (vo "20.0" 24); (vo "25.0" 49)]);
    ("param_check", mkHval HList [(vc "<lambda>" 83)])]);
  (* classification.py:97-102 *)
  (KeyClass (c_LogisticRegression meta), Algorithm [
    ("penalty", mkHval HList [(vs "l2" 78)]);
    ("C", mkHval HList [(vo "0.0001" 82); (vo "0.001" 0); (vo "0.01" 1); (vo "0.1" 2); (vo "0.5" 35); (vo "1.0" 3);
      (vo "5.0" 10); (vo "10.0" 4); (vo "15.0" 19); (vo "20.0" 24); (vo "25.0" 49)]);
    ("dual", mkHval HList [(vo "False" 6); (vo "True" 3)]);
    ("solver", mkHval HList [(vs "lbfgs" 84)])]);
  (* classification.py:103 *)
  (KeyClass (c_Binarizer meta), Algorithm [
    ("threshold", mkHval HArray [(vo "0.0" 6); (vo "0.05" 27); (vo "0.1" 2); (vo "0.15000000000000002" 28); (vo "0.2" 29);
      (vo "0.25" 30); (vo "0.30000000000000004" 85); (vo "0.35000000000000003" 32); (vo "0.4" 33); (vo "0.45" 34);
      (vo "0.5" 35); (vo "0.55" 36); (vo "0.6000000000000001" 37); (vo "0.65" 86); (vo "0.7000000000000001" 39);
      (vo "0.75" 87); (vo "0.8" 41); (vo "0.8500000000000001" 42); (vo "0.9" 88); (vo "0.9500000000000001" 44);
      (vo "1.0" 3)])]);
  (* classification.py:104-107 *)
  (KeyClass (c_FastICA meta), Algorithm [
    ("tol", mkHval HArray [(vo "0.0" 6); (vo "0.05" 27); (vo "0.1" 2); (vo "0.15000000000000002" 28); (vo "0.2" 29);
      (vo "0.25" 30); (vo "0.30000000000000004" 85); (vo "0.35000000000000003" 32); (vo "0.4" 33); (vo "0.45" 34);
      (vo "0.5" 35); (vo "0.55" 36); (vo "0.6000000000000001" 37); (vo "0.65" 86); (vo "0.7000000000000001" 39);
      (vo "0.75" 87); (vo "0.8" 41); (vo "0.8500000000000001" 42); (vo "0.9" 88); (vo "0.9500000000000001" 44);
      (vo "1.0" 3)]);
    ("whiten", mkHval HList [(vs "unit-variance" 89)])]);
  (* classification.py:108-115 *)
  (KeyClass (c_FeatureAgglomeration meta), Algorithm [
    ("linkage", mkHval HList [(vs "ward" 90); (vs "complete" 91); (vs "average" 92)]);
    ("affinity", mkHval HList [(vs "euclidean" 93); (vs "l1" 77); (vs "l2" 78); (vs "manhattan" 94); (vs "cosine" 95);
      (vs "precomputed" 96)]);
    ("param_check", mkHval HList [(vc "<lambda>" 97)])]);
  (* classification.py:116 *)
  (KeyClass (c_MaxAbsScaler meta), Algorithm []);
  (* classification.py:117 *)
  (KeyClass (c_MinMaxScaler meta), Algorithm []);
  (* classification.py:118 *)
  (KeyClass (c_Normalizer meta), Algorithm [
    ("norm", mkHval HList [(vs "l1" 77); (vs "l2" 78); (vs "max" 98)])]);
  (* classification.py:119-133 *)
  (KeyClass (c_Nystroem meta), Algorithm [
    ("kernel", mkHval HList [(vs "rbf" 99); (vs "cosine" 95); (vs "chi2" 100); (vs "laplacian" 101); (vs "polynomial" 102);
      (vs "poly" 103); (vs "linear" 104); (vs "additive_chi2" 105); (vs "sigmoid" 106)]);
    ("gamma", mkHval HArray [(vo "0.0" 6); (vo "0.05" 27); (vo "0.1" 2); (vo "0.15000000000000002" 28); (vo "0.2" 29);
      (vo "0.25" 30); (vo "0.30000000000000004" 85); (vo "0.35000000000000003" 32); (vo "0.4" 33); (vo "0.45" 34);
      (vo "0.5" 35); (vo "0.55" 36); (vo "0.6000000000000001" 37); (vo "0.65" 86); (vo "0.7000000000000001" 39);
      (vo "0.75" 87); (vo "0.8" 41); (vo "0.8500000000000001" 42); (vo "0.9" 88); (vo "0.9500000000000001" 44);
      (vo "1.0" 3)]);
    ("n_components", mkHval HRange [(vo "1" 3); (vo "2" 7); (vo "3" 8); (vo "4" 9); (vo "5" 10); (vo "6" 11); (vo "7" 12);
      (vo "8" 13); (vo "9" 14); (vo "10" 4)])]);
  (* classification.py:134 *)
  (KeyClass (c_PCA meta), Algorithm [
    ("svd_solver", mkHval HList [(vs "randomized" 107)]);
    ("iterated_power", mkHval HRange [(vo "1" 3); (vo "2" 7); (vo "3" 8); (vo "4" 9); (vo "5" 10); (vo "6" 11); (vo "7" 12);
      (vo "8" 13); (vo "9" 14); (vo "10" 4)])]);
  (* classification.py:135-139 *)
  (KeyClass (c_PolynomialFeatures meta), Algorithm [
    ("degree", mkHval HList [(vo "2" 7)]);
    ("include_bias", mkHval HList [(vo "False" 6)]);
    ("interaction_only", mkHval HList [(vo "False" 6)])]);
  (* classification.py:140 *)
  (KeyClass (c_RBFSampler meta), Algorithm [
    ("gamma", mkHval HArray [(vo "0.0" 6); (vo "0.05" 27); (vo "0.1" 2); (vo "0.15000000000000002" 28); (vo "0.2" 29);
      (vo "0.25" 30); (vo "0.30000000000000004" 85); (vo "0.35000000000000003" 32); (vo "0.4" 33); (vo "0.45" 34);
      (vo "0.5" 35); (vo "0.55" 36); (vo "0.6000000000000001" 37); (vo "0.65" 86); (vo "0.7000000000000001" 39);
      (vo "0.75" 87); (vo "0.8" 41); (vo "0.8500000000000001" 42); (vo "0.9" 88); (vo "0.9500000000000001" 44);
      (vo "1.0" 3)])]);
  (* classification.py:141 *)
  (KeyClass (c_RobustScaler meta), Algorithm []);
  (* classification.py:142 *)
  (KeyClass (c_StandardScaler meta), Algorithm []);
  (* classification.py:144 *)
  (KeyClass (c_SelectFwe meta), Algorithm [
    ("alpha", mkHval HArray [(vo "0.0" 6); (vo "0.001" 0); (vo "0.002" 108); (vo "0.003" 109); (vo "0.004" 110);
      (vo "0.005" 111); (vo "0.006" 112); (vo "0.007" 113); (vo "0.008" 114); (vo "0.009000000000000001" 115);
      (vo "0.01" 1); (vo "0.011" 116); (vo "0.012" 117); (vo "0.013000000000000001" 118); (vo "0.014" 119);
      (vo "0.015" 120); (vo "0.016" 121); (vo "0.017" 122); (vo "0.018000000000000002" 123); (vo "0.019" 124);
      (vo "0.02" 125); (vo "0.021" 126); (vo "0.022" 127); (vo "0.023" 128); (vo "0.024" 129); (vo "0.025" 130);
      (vo "0.026000000000000002" 131); (vo "0.027" 132); (vo "0.028" 133); (vo "0.029" 134); (vo "0.03" 135);
      (vo "0.031" 136); (vo "0.032" 137); (vo "0.033" 138); (vo "0.034" 139); (vo "0.035" 140);
      (vo "0.036000000000000004" 141); (vo "0.037" 142); (vo "0.038" 143); (vo "0.039" 144); (vo "0.04" 145);
      (vo "0.041" 146); (vo "0.042" 147); (vo "0.043000000000000003" 148); (vo "0.044" 149); (vo "0.045" 150);
      (vo "0.046" 151); (vo "0.047" 152); (vo "0.048" 153); (vo "0.049" 154)]);
    ("score_func", mkHval HDict [(vc "f_classif" 155)])]);
  (* classification.py:145 *)
  (KeyClass (c_SelectPercentile meta), Algorithm [
    ("percentile", mkHval HRange [(vo "1" 3); (vo "2" 7); (vo "3" 8); (vo "4" 9); (vo "5" 10); (vo "6" 11); (vo "7" 12);
      (vo "8" 13); (vo "9" 14); (vo "10" 4); (vo "11" 15); (vo "12" 16); (vo "13" 17); (vo "14" 18); (vo "15" 19);
      (vo "16" 20); (vo "17" 21); (vo "18" 22); (vo "19" 23); (vo "20" 24); (vo "21" 45); (vo "22" 46); (vo "23" 47);
      (vo "24" 48); (vo "25" 49); (vo "26" 50); (vo "27" 51); (vo "28" 52); (vo "29" 53); (vo "30" 54); (vo "31" 55);
      (vo "32" 56); (vo "33" 57); (vo "34" 58); (vo "35" 59); (vo "36" 60); (vo "37" 61); (vo "38" 62); (vo "39" 63);
      (vo "40" 64); (vo "41" 65); (vo "42" 66); (vo "43" 67); (vo "44" 68); (vo "45" 69); (vo "46" 70); (vo "47" 71);
      (vo "48" 72); (vo "49" 73); (vo "50" 74); (vo "51" 156); (vo "52" 157); (vo "53" 158); (vo "54" 159);
      (vo "55" 160); (vo "56" 161); (vo "57" 162); (vo "58" 163); (vo "59" 164); (vo "60" 165); (vo "61" 166);
      (vo "62" 167); (vo "63" 168); (vo "64" 169); (vo "65" 170); (vo "66" 171); (vo "67" 172); (vo "68" 173);
      (vo "69" 174); (vo "70" 175); (vo "71" 176); (vo "72" 177); (vo "73" 178); (vo "74" 179); (vo "75" 180);
      (vo "76" 181); (vo "77" 182); (vo "78" 183); (vo "79" 184); (vo "80" 185); (vo "81" 186); (vo "82" 187);
      (vo "83" 188); (vo "84" 189); (vo "85" 190); (vo "86" 191); (vo "87" 192); (vo "88" 193); (vo "89" 194);
      (vo "90" 195); (vo "91" 196); (vo "92" 197); (vo "93" 198); (vo "94" 199); (vo "95" 200); (vo "96" 201);
      (vo "97" 202); (vo "98" 203); (vo "99" 204)]);
    ("score_func", mkHval HDict [(vc "f_classif" 155)])]);
  (* classification.py:146 *)
  (KeyClass (c_VarianceThreshold meta), Algorithm [
    ("threshold", mkHval HArray [(vo "0.05" 27); (vo "0.1" 2); (vo "0.15000000000000002" 28); (vo "0.2" 29); (vo "0.25" 30);
      (vo "0.3" 31); (vo "0.35000000000000003" 32); (vo "0.4" 33); (vo "0.45" 34); (vo "0.5" 35); (vo "0.55" 36);
      (vo "0.6000000000000001" 37); (vo "0.6500000000000001" 38); (vo "0.7000000000000001" 39);
      (vo "0.7500000000000001" 40); (vo "0.8" 41); (vo "0.8500000000000001" 42); (vo "0.9000000000000001" 43);
      (vo "0.9500000000000001" 44); (vo "1.0" 3)])])].

(** reg_config, regression.py:37-136. *)
Definition reg_config (meta : string -> string) : shipped := [
  (* regression.py:38-41 *)
  (KeyClass (c_ElasticNetCV meta), Algorithm [
    ("l1_ratio", mkHval HArray [(vo "0.0" 6); (vo "0.05" 27); (vo "0.1" 2); (vo "0.15000000000000002" 28); (vo "0.2" 29);
      (vo "0.25" 30); (vo "0.30000000000000004" 85); (vo "0.35000000000000003" 32); (vo "0.4" 33); (vo "0.45" 34);
      (vo "0.5" 35); (vo "0.55" 36); (vo "0.6000000000000001" 37); (vo "0.65" 86); (vo "0.7000000000000001" 39);
      (vo "0.75" 87); (vo "0.8" 41); (vo "0.8500000000000001" 42); (vo "0.9" 88); (vo "0.9500000000000001" 44);
      (vo "1.0" 3)]);
    ("tol", mkHval HList [(vo "1e-05" 81); (vo "0.0001" 82); (vo "0.001" 0); (vo "0.01" 1); (vo "0.1" 2)])]);
  (* regression.py:42-48 *)
  (KeyClass (c_ExtraTreesRegressor meta), Algorithm [
    ("n_estimators", mkHval HList [(vo "100" 5)]);
    ("max_features", mkHval HArray [(vo "0.05" 27); (vo "0.1" 2); (vo "0.15000000000000002" 28); (vo "0.2" 29); (vo "0.25" 30);
      (vo "0.3" 31); (vo "0.35000000000000003" 32); (vo "0.4" 33); (vo "0.45" 34); (vo "0.5" 35); (vo "0.55" 36);
      (vo "0.6000000000000001" 37); (vo "0.6500000000000001" 38); (vo "0.7000000000000001" 39);
      (vo "0.7500000000000001" 40); (vo "0.8" 41); (vo "0.8500000000000001" 42); (vo "0.9000000000000001" 43);
      (vo "0.9500000000000001" 44); (vo "1.0" 3)]);
    ("min_samples_split", mkHval HRange [(vo "2" 7); (vo "3" 8); (vo "4" 9); (vo "5" 10); (vo "6" 11); (vo "7" 12); (vo "8" 13);
      (vo "9" 14); (vo "10" 4); (vo "11" 15); (vo "12" 16); (vo "13" 17); (vo "14" 18); (vo "15" 19); (vo "16" 20);
      (vo "17" 21); (vo "18" 22); (vo "19" 23); (vo "20" 24)]);
    ("min_samples_leaf", mkHval HRange [(vo "1" 3); (vo "2" 7); (vo "3" 8); (vo "4" 9); (vo "5" 10); (vo "6" 11); (vo "7" 12);
      (vo "8" 13); (vo "9" 14); (vo "10" 4); (vo "11" 15); (vo "12" 16); (vo "13" 17); (vo "14" 18); (vo "15" 19);
      (vo "16" 20); (vo "17" 21); (vo "18" 22); (vo "19" 23); (vo "20" 24)]);
    ("bootstrap", mkHval HList [(vo "True" 3); (vo "False" 6)])]);
  (* regression.py:49-59 *)
  (KeyClass (c_GradientBoostingRegressor meta), Algorithm [
    ("n_estimators", mkHval HList [(vo "100" 5)]);
    ("loss", mkHval HList [(vs "squared_error" 205); (vs "absolute_error" 206); (vs "huber" 207); (vs "quantile" 208)]);
    ("learning_rate", mkHval HList [(vo "0.001" 0); (vo "0.01" 1); (vo "0.1" 2); (vo "0.5" 35); (vo "1.0" 3)]);
    ("max_depth", mkHval HRange [(vo "1" 3); (vo "2" 7); (vo "3" 8); (vo "4" 9); (vo "5" 10); (vo "6" 11); (vo "7" 12);
      (vo "8" 13); (vo "9" 14); (vo "10" 4)]);
    ("min_samples_split", mkHval HRange [(vo "2" 7); (vo "3" 8); (vo "4" 9); (vo "5" 10); (vo "6" 11); (vo "7" 12); (vo "8" 13);
      (vo "9" 14); (vo "10" 4); (vo "11" 15); (vo "12" 16); (vo "13" 17); (vo "14" 18); (vo "15" 19); (vo "16" 20);
      (vo "17" 21); (vo "18" 22); (vo "19" 23); (vo "20" 24)]);
    ("min_samples_leaf", mkHval HRange [(vo "1" 3); (vo "2" 7); (vo "3" 8); (vo "4" 9); (vo "5" 10); (vo "6" 11); (vo "7" 12);
      (vo "8" 13); (vo "9" 14); (vo "10" 4); (vo "11" 15); (vo "12" 16); (vo "13" 17); (vo "14" 18); (vo "15" 19);
      (vo "16" 20); (vo "17" 21); (vo "18" 22); (vo "19" 23); (vo "20" 24)]);
    ("subsample", mkHval HArray [(vo "0.05" 27); (vo "0.1" 2); (vo "0.15000000000000002" 28); (vo "0.2" 29); (vo "0.25" 30);
      (vo "0.3" 31); (vo "0.35000000000000003" 32); (vo "0.4" 33); (vo "0.45" 34); (vo "0.5" 35); (vo "0.55" 36);
      (vo "0.6000000000000001" 37); (vo "0.6500000000000001" 38); (vo "0.7000000000000001" 39);
      (vo "0.7500000000000001" 40); (vo "0.8" 41); (vo "0.8500000000000001" 42); (vo "0.9000000000000001" 43);
      (vo "0.9500000000000001" 44); (vo "1.0" 3)]);
    ("max_features", mkHval HArray [(vo "0.05" 27); (vo "0.1" 2); (vo "0.15000000000000002" 28); (vo "0.2" 29); (vo "0.25" 30);
      (vo "0.3" 31); (vo "0.35000000000000003" 32); (vo "0.4" 33); (vo "0.45" 34); (vo "0.5" 35); (vo "0.55" 36);
      (vo "0.6000000000000001" 37); (vo "0.6500000000000001" 38); (vo "0.7000000000000001" 39);
      (vo "0.7500000000000001" 40); (vo "0.8" 41); (vo "0.8500000000000001" 42); (vo "0.9000000000000001" 43);
      (vo "0.9500000000000001" 44); (vo "1.0" 3)]);
    ("alpha", mkHval HList [(vo "0.75" 87); (vo "0.8" 41); (vo "0.85" 209); (vo "0.9" 88); (vo "0.95" 210); (vo "0.99" 211)])]);
  (* regression.py:60-65 *)
  (KeyClass (c_AdaBoostRegressor meta), Algorithm [
    ("n_estimators", mkHval HList [(vo "100" 5)]);
    ("learning_rate", mkHval HList [(vo "0.001" 0); (vo "0.01" 1); (vo "0.1" 2); (vo "0.5" 35); (vo "1.0" 3)]);
    ("loss", mkHval HList [(vs "linear" 104); (vs "square" 212); (vs "exponential" 213)])]);
  (* regression.py:66-70 *)
  (KeyClass (c_DecisionTreeRegressor meta), Algorithm [
    ("max_depth", mkHval HRange [(vo "1" 3); (vo "2" 7); (vo "3" 8); (vo "4" 9); (vo "5" 10); (vo "6" 11); (vo "7" 12);
      (vo "8" 13); (vo "9" 14); (vo "10" 4)]);
    ("min_samples_split", mkHval HRange [(vo "2" 7); (vo "3" 8); (vo "4" 9); (vo "5" 10); (vo "6" 11); (vo "7" 12); (vo "8" 13);
      (vo "9" 14); (vo "10" 4); (vo "11" 15); (vo "12" 16); (vo "13" 17); (vo "14" 18); (vo "15" 19); (vo "16" 20);
      (vo "17" 21); (vo "18" 22); (vo "19" 23); (vo "20" 24)]);
    ("min_samples_leaf", mkHval HRange [(vo "1" 3); (vo "2" 7); (vo "3" 8); (vo "4" 9); (vo "5" 10); (vo "6" 11); (vo "7" 12);
      (vo "8" 13); (vo "9" 14); (vo "10" 4); (vo "11" 15); (vo "12" 16); (vo "13" 17); (vo "14" 18); (vo "15" 19);
      (vo "16" 20); (vo "17" 21); (vo "18" 22); (vo "19" 23); (vo "20" 24)])]);
  (* regression.py:71-75 *)
  (KeyClass (c_KNeighborsRegressor meta), Algorithm [
    ("n_neighbors", mkHval HRange [(vo "1" 3); (vo "2" 7); (vo "3" 8); (vo "4" 9); (vo "5" 10); (vo "6" 11); (vo "7" 12);
      (vo "8" 13); (vo "9" 14); (vo "10" 4); (vo "11" 15); (vo "12" 16); (vo "13" 17); (vo "14" 18); (vo "15" 19);
      (vo "16" 20); (vo "17" 21); (vo "18" 22); (vo "19" 23); (vo "20" 24); (vo "21" 45); (vo "22" 46); (vo "23" 47);
      (vo "24" 48); (vo "25" 49); (vo "26" 50); (vo "27" 51); (vo "28" 52); (vo "29" 53); (vo "30" 54); (vo "31" 55);
      (vo "32" 56); (vo "33" 57); (vo "34" 58); (vo "35" 59); (vo "36" 60); (vo "37" 61); (vo "38" 62); (vo "39" 63);
      (vo "40" 64); (vo "41" 65); (vo "42" 66); (vo "43" 67); (vo "44" 68); (vo "45" 69); (vo "46" 70); (vo "47" 71);
      (vo "48" 72); (vo "49" 73); (vo "50" 74); (vo "51" 156); (vo "52" 157); (vo "53" 158); (vo "54" 159);
      (vo "55" 160); (vo "56" 161); (vo "57" 162); (vo "58" 163); (vo "59" 164); (vo "60" 165); (vo "61" 166);
      (vo "62" 167); (vo "63" 168); (vo "64" 169); (vo "65" 170); (vo "66" 171); (vo "67" 172); (vo "68" 173);
      (vo "69" 174); (vo "70" 175); (vo "71" 176); (vo "72" 177); (vo "73" 178); (vo "74" 179); (vo "75" 180);
      (vo "76" 181); (vo "77" 182); (vo "78" 183); (vo "79" 184); (vo "80" 185); (vo "81" 186); (vo "82" 187);
      (vo "83" 188); (vo "84" 189); (vo "85" 190); (vo "86" 191); (vo "87" 192); (vo "88" 193); (vo "89" 194);
      (vo "90" 195); (vo "91" 196); (vo "92" 197); (vo "93" 198); (vo "94" 199); (vo "95" 200); (vo "96" 201);
      (vo "97" 202); (vo "98" 203); (vo "99" 204); (vo "100" 5)]);
    ("weights", mkHval HList [(vs "uniform" 75); (vs "distance" 76)]);
    ("p", mkHval HList [(vo "1" 3); (vo "2" 7)])]);
  (* regression.py:76 *)
  (KeyClass (c_LassoLarsCV meta), Algorithm [
    ("normalize", mkHval HList [(vo "True" 3); (vo "False" 6)])]);
  (* regression.py:77-83 *)
  (KeyClass (c_LinearSVR meta), Algorithm [
    ("loss", mkHval HList [(vs "epsilon_insensitive" 214); (vs "squared_epsilon_insensitive" 215)]);
    ("dual", mkHval HList [(vo "True" 3); (vo "False" 6)]);
    ("tol", mkHval HList [(vo "1e-05" 81); (vo "0.0001" 82); (vo "0.001" 0); (vo "0.01" 1); (vo "0.1" 2)]);
    ("C", mkHval HList [(vo "0.0001" 82); (vo "0.001" 0); (vo "0.01" 1); (vo "0.1" 2); (vo "0.5" 35); (vo "1.0" 3);
      (vo "5.0" 10); (vo "10.0" 4); (vo "15.0" 19); (vo "20.0" 24); (vo "25.0" 49)]);
    ("epsilon", mkHval HList [(vo "0.0001" 82); (vo "0.001" 0); (vo "0.01" 1); (vo "0.1" 2); (vo "1.0" 3)])]);
  (* regression.py:84-90 *)
  (KeyClass (c_RandomForestRegressor meta), Algorithm [
    ("n_estimators", mkHval HList [(vo "100" 5)]);
    ("max_features", mkHval HArray [(vo "0.05" 27); (vo "0.1" 2); (vo "0.15000000000000002" 28); (vo "0.2" 29); (vo "0.25" 30);
      (vo "0.3" 31); (vo "0.35000000000000003" 32); (vo "0.4" 33); (vo "0.45" 34); (vo "0.5" 35); (vo "0.55" 36);
      (vo "0.6000000000000001" 37); (vo "0.6500000000000001" 38); (vo "0.7000000000000001" 39);
      (vo "0.7500000000000001" 40); (vo "0.8" 41); (vo "0.8500000000000001" 42); (vo "0.9000000000000001" 43);
      (vo "0.9500000000000001" 44); (vo "1.0" 3)]);
    ("min_samples_split", mkHval HRange [(vo "2" 7); (vo "3" 8); (vo "4" 9); (vo "5" 10); (vo "6" 11); (vo "7" 12); (vo "8" 13);
      (vo "9" 14); (vo "10" 4); (vo "11" 15); (vo "12" 16); (vo "13" 17); (vo "14" 18); (vo "15" 19); (vo "16" 20);
      (vo "17" 21); (vo "18" 22); (vo "19" 23); (vo "20" 24)]);
    ("min_samples_leaf", mkHval HRange [(vo "1" 3); (vo "2" 7); (vo "3" 8); (vo "4" 9); (vo "5" 10); (vo "6" 11); (vo "7" 12);
      (vo "8" 13); (vo "9" 14); (vo "10" 4); (vo "11" 15); (vo "12" 16); (vo "13" 17); (vo "14" 18); (vo "15" 19);
      (vo "16" 20); (vo "17" 21); (vo "18" 22); (vo "19" 23); (vo "20" 24)]);
    ("bootstrap", mkHval HList [(vo "True" 3); (vo "False" 6)])]);
  (* regression.py:92 *)
  (KeyClass (c_Binarizer meta), Algorithm [
    ("threshold", mkHval HArray [(vo "0.0" 6); (vo "0.05" 27); (vo "0.1" 2); (vo "0.15000000000000002" 28); (vo "0.2" 29);
      (vo "0.25" 30); (vo "0.30000000000000004" 85); (vo "0.35000000000000003" 32); (vo "0.4" 33); (vo "0.45" 34);
      (vo "0.5" 35); (vo "0.55" 36); (vo "0.6000000000000001" 37); (vo "0.65" 86); (vo "0.7000000000000001" 39);
      (vo "0.75" 87); (vo "0.8" 41); (vo "0.8500000000000001" 42); (vo "0.9" 88); (vo "0.9500000000000001" 44);
      (vo "1.0" 3)])]);
  (* regression.py:93-96 *)
  (KeyClass (c_FastICA meta), Algorithm [
    ("tol", mkHval HArray [(vo "0.0" 6); (vo "0.05" 27); (vo "0.1" 2); (vo "0.15000000000000002" 28); (vo "0.2" 29);
      (vo "0.25" 30); (vo "0.30000000000000004" 85); (vo "0.35000000000000003" 32); (vo "0.4" 33); (vo "0.45" 34);
      (vo "0.5" 35); (vo "0.55" 36); (vo "0.6000000000000001" 37); (vo "0.65" 86); (vo "0.7000000000000001" 39);
      (vo "0.75" 87); (vo "0.8" 41); (vo "0.8500000000000001" 42); (vo "0.9" 88); (vo "0.9500000000000001" 44);
      (vo "1.0" 3)]);
    ("whiten", mkHval HList [(vs "unit-variance" 89)])]);
  (* regression.py:97-104 *)
  (KeyClass (c_FeatureAgglomeration meta), Algorithm [
    ("linkage", mkHval HList [(vs "ward" 90); (vs "complete" 91); (vs "average" 92)]);
    ("affinity", mkHval HList [(vs "euclidean" 93); (vs "l1" 77); (vs "l2" 78); (vs "manhattan" 94); (vs "cosine" 95);
      (vs "precomputed" 96)]);
    ("param_check", mkHval HList [(vc "<lambda>" 216)])]);
  (* regression.py:105 *)
  (KeyClass (c_MaxAbsScaler meta), Algorithm []);
  (* regression.py:106 *)
  (KeyClass (c_MinMaxScaler meta), Algorithm []);
  (* regression.py:107 *)
  (KeyClass (c_Normalizer meta), Algorithm [
    ("norm", mkHval HList [(vs "l1" 77); (vs "l2" 78); (vs "max" 98)])]);
  (* regression.py:108-122 *)
  (KeyClass (c_Nystroem meta), Algorithm [
    ("kernel", mkHval HList [(vs "rbf" 99); (vs "cosine" 95); (vs "chi2" 100); (vs "laplacian" 101); (vs "polynomial" 102);
      (vs "poly" 103); (vs "linear" 104); (vs "additive_chi2" 105); (vs "sigmoid" 106)]);
    ("gamma", mkHval HArray [(vo "0.0" 6); (vo "0.05" 27); (vo "0.1" 2); (vo "0.15000000000000002" 28); (vo "0.2" 29);
      (vo "0.25" 30); (vo "0.30000000000000004" 85); (vo "0.35000000000000003" 32); (vo "0.4" 33); (vo "0.45" 34);
      (vo "0.5" 35); (vo "0.55" 36); (vo "0.6000000000000001" 37); (vo "0.65" 86); (vo "0.7000000000000001" 39);
      (vo "0.75" 87); (vo "0.8" 41); (vo "0.8500000000000001" 42); (vo "0.9" 88); (vo "0.9500000000000001" 44);
      (vo "1.0" 3)]);
    ("n_components", mkHval HRange [(vo "1" 3); (vo "2" 7); (vo "3" 8); (vo "4" 9); (vo "5" 10); (vo "6" 11); (vo "7" 12);
      (vo "8" 13); (vo "9" 14); (vo "10" 4)])]);
  (* regression.py:123 *)
  (KeyClass (c_PCA meta), Algorithm [
    ("svd_solver", mkHval HList [(vs "randomized" 107)]);
    ("iterated_power", mkHval HRange [(vo "1" 3); (vo "2" 7); (vo "3" 8); (vo "4" 9); (vo "5" 10); (vo "6" 11); (vo "7" 12);
      (vo "8" 13); (vo "9" 14); (vo "10" 4)])]);
  (* regression.py:124-128 *)
  (KeyClass (c_PolynomialFeatures meta), Algorithm [
    ("degree", mkHval HList [(vo "2" 7)]);
    ("include_bias", mkHval HList [(vo "False" 6)]);
    ("interaction_only", mkHval HList [(vo "False" 6)])]);
  (* regression.py:129 *)
  (KeyClass (c_RBFSampler meta), Algorithm [
    ("gamma", mkHval HArray [(vo "0.0" 6); (vo "0.05" 27); (vo "0.1" 2); (vo "0.15000000000000002" 28); (vo "0.2" 29);
      (vo "0.25" 30); (vo "0.30000000000000004" 85); (vo "0.35000000000000003" 32); (vo "0.4" 33); (vo "0.45" 34);
      (vo "0.5" 35); (vo "0.55" 36); (vo "0.6000000000000001" 37); (vo "0.65" 86); (vo "0.7000000000000001" 39);
      (vo "0.75" 87); (vo "0.8" 41); (vo "0.8500000000000001" 42); (vo "0.9" 88); (vo "0.9500000000000001" 44);
      (vo "1.0" 3)])]);
  (* regression.py:130 *)
  (KeyClass (c_RobustScaler meta), Algorithm []);
  (* regression.py:131 *)
  (KeyClass (c_StandardScaler meta), Algorithm []);
  (* regression.py:133 *)
  (KeyClass (c_SelectFwe meta), Algorithm [
    ("alpha", mkHval HArray [(vo "0.0" 6); (vo "0.001" 0); (vo "0.002" 108); (vo "0.003" 109); (vo "0.004" 110);
      (vo "0.005" 111); (vo "0.006" 112); (vo "0.007" 113); (vo "0.008" 114); (vo "0.009000000000000001" 115);
      (vo "0.01" 1); (vo "0.011" 116); (vo "0.012" 117); (vo "0.013000000000000001" 118); (vo "0.014" 119);
      (vo "0.015" 120); (vo "0.016" 121); (vo "0.017" 122); (vo "0.018000000000000002" 123); (vo "0.019" 124);
      (vo "0.02" 125); (vo "0.021" 126); (vo "0.022" 127); (vo "0.023" 128); (vo "0.024" 129); (vo "0.025" 130);
      (vo "0.026000000000000002" 131); (vo "0.027" 132); (vo "0.028" 133); (vo "0.029" 134); (vo "0.03" 135);
      (vo "0.031" 136); (vo "0.032" 137); (vo "0.033" 138); (vo "0.034" 139); (vo "0.035" 140);
      (vo "0.036000000000000004" 141); (vo "0.037" 142); (vo "0.038" 143); (vo "0.039" 144); (vo "0.04" 145);
      (vo "0.041" 146); (vo "0.042" 147); (vo "0.043000000000000003" 148); (vo "0.044" 149); (vo "0.045" 150);
      (vo "0.046" 151); (vo "0.047" 152); (vo "0.048" 153); (vo "0.049" 154)]);
    ("score_func", mkHval HDict [(vc "f_regression" 217)])]);
  (* regression.py:134 *)
  (KeyClass (c_SelectPercentile meta), Algorithm [
    ("percentile", mkHval HRange [(vo "1" 3); (vo "2" 7); (vo "3" 8); (vo "4" 9); (vo "5" 10); (vo "6" 11); (vo "7" 12);
      (vo "8" 13); (vo "9" 14); (vo "10" 4); (vo "11" 15); (vo "12" 16); (vo "13" 17); (vo "14" 18); (vo "15" 19);
      (vo "16" 20); (vo "17" 21); (vo "18" 22); (vo "19" 23); (vo "20" 24); (vo "21" 45); (vo "22" 46); (vo "23" 47);
      (vo "24" 48); (vo "25" 49); (vo "26" 50); (vo "27" 51); (vo "28" 52); (vo "29" 53); (vo "30" 54); (vo "31" 55);
      (vo "32" 56); (vo "33" 57); (vo "34" 58); (vo "35" 59); (vo "36" 60); (vo "37" 61); (vo "38" 62); (vo "39" 63);
      (vo "40" 64); (vo "41" 65); (vo "42" 66); (vo "43" 67); (vo "44" 68); (vo "45" 69); (vo "46" 70); (vo "47" 71);
      (vo "48" 72); (vo "49" 73); (vo "50" 74); (vo "51" 156); (vo "52" 157); (vo "53" 158); (vo "54" 159);
      (vo "55" 160); (vo "56" 161); (vo "57" 162); (vo "58" 163); (vo "59" 164); (vo "60" 165); (vo "61" 166);
      (vo "62" 167); (vo "63" 168); (vo "64" 169); (vo "65" 170); (vo "66" 171); (vo "67" 172); (vo "68" 173);
      (vo "69" 174); (vo "70" 175); (vo "71" 176); (vo "72" 177); (vo "73" 178); (vo "74" 179); (vo "75" 180);
      (vo "76" 181); (vo "77" 182); (vo "78" 183); (vo "79" 184); (vo "80" 185); (vo "81" 186); (vo "82" 187);
      (vo "83" 188); (vo "84" 189); (vo "85" 190); (vo "86" 191); (vo "87" 192); (vo "88" 193); (vo "89" 194);
      (vo "90" 195); (vo "91" 196); (vo "92" 197); (vo "93" 198); (vo "94" 199); (vo "95" 200); (vo "96" 201);
      (vo "97" 202); (vo "98" 203); (vo "99" 204)]);
    ("score_func", mkHval HDict [(vc "f_regression" 217)])]);
  (* regression.py:135 *)
  (KeyClass (c_VarianceThreshold meta), Algorithm [
    ("threshold", mkHval HArray [(vo "0.05" 27); (vo "0.1" 2); (vo "0.15000000000000002" 28); (vo "0.2" 29); (vo "0.25" 30);
      (vo "0.3" 31); (vo "0.35000000000000003" 32); (vo "0.4" 33); (vo "0.45" 34); (vo "0.5" 35); (vo "0.55" 36);
      (vo "0.6000000000000001" 37); (vo "0.6500000000000001" 38); (vo "0.7000000000000001" 39);
      (vo "0.7500000000000001" 40); (vo "0.8" 41); (vo "0.8500000000000001" 42); (vo "0.9000000000000001" 43);
      (vo "0.9500000000000001" 44); (vo "1.0" 3)])])].

(** clf_config, testconfiguration.py:34-146. *)
Definition test_config (meta : string -> string) : shipped := [
  (* testconfiguration.py:35 *)
  (KeyStr "alpha", Shared (mkHval HList [(vo "0.001" 0); (vo "0.01" 1); (vo "0.1" 2); (vo "1.0" 3); (vo "10.0" 4); (vo "100.0" 5)]));
  (* testconfiguration.py:36 *)
  (KeyStr "fit_prior", Shared (mkHval HList [(vo "True" 3); (vo "False" 6)]));
  (* testconfiguration.py:37 *)
  (KeyStr "min_samples_split", Shared (mkHval HRange [(vo "2" 7); (vo "3" 8); (vo "4" 9); (vo "5" 10); (vo "6" 11); (vo "7" 12); (vo "8" 13);
      (vo "9" 14); (vo "10" 4); (vo "11" 15); (vo "12" 16); (vo "13" 17); (vo "14" 18); (vo "15" 19); (vo "16" 20);
      (vo "17" 21); (vo "18" 22); (vo "19" 23); (vo "20" 24)]));
  (* testconfiguration.py:38 *)
  (KeyStr "min_samples_leaf", Shared (mkHval HRange [(vo "1" 3); (vo "2" 7); (vo "3" 8); (vo "4" 9); (vo "5" 10); (vo "6" 11); (vo "7" 12);
      (vo "8" 13); (vo "9" 14); (vo "10" 4); (vo "11" 15); (vo "12" 16); (vo "13" 17); (vo "14" 18); (vo "15" 19);
      (vo "16" 20); (vo "17" 21); (vo "18" 22); (vo "19" 23); (vo "20" 24)]));
  (* testconfiguration.py:40 *)
  (KeyClass (c_GaussianNB meta), Algorithm []);
  (* testconfiguration.py:41 *)
  (KeyClass (c_BernoulliNB meta), Algorithm [
    ("alpha", mkHval HList []);
    ("fit_prior", mkHval HList [])]);
  (* testconfiguration.py:42 *)
  (KeyClass (c_MultinomialNB meta), Algorithm [
    ("alpha", mkHval HList []);
    ("fit_prior", mkHval HList [])]);
  (* testconfiguration.py:43-48 *)
  (KeyClass (c_DecisionTreeClassifier meta), Algorithm [
    ("criterion", mkHval HList [(vs "gini" 25); (vs "entropy" 26)]);
    ("max_depth", mkHval HRange [(vo "1" 3); (vo "2" 7); (vo "3" 8); (vo "4" 9); (vo "5" 10); (vo "6" 11); (vo "7" 12);
      (vo "8" 13); (vo "9" 14); (vo "10" 4)]);
    ("min_samples_split", mkHval HList []);
    ("min_samples_leaf", mkHval HList [])]);
  (* testconfiguration.py:49-56 *)
  (KeyClass (c_ExtraTreesClassifier meta), Algorithm [
    ("n_estimators", mkHval HList [(vo "100" 5)]);
    ("criterion", mkHval HList [(vs "gini" 25); (vs "entropy" 26)]);
    ("max_features", mkHval HList [(vo "0.05" 27); (vo "0.1" 2); (vo "0.2" 29); (vo "0.3" 31); (vo "0.4" 33); (vo "0.5" 35);
      (vo "0.6" 218); (vo "0.7" 219); (vo "0.8" 41); (vo "0.9" 88); (vo "1.0" 3)]);
    ("min_samples_split", mkHval HList []);
    ("min_samples_leaf", mkHval HList []);
    ("bootstrap", mkHval HList [(vo "True" 3); (vo "False" 6)])]);
  (* testconfiguration.py:57-64 *)
  (KeyClass (c_RandomForestClassifier meta), Algorithm [
    ("n_estimators", mkHval HList [(vo "100" 5)]);
    ("criterion", mkHval HList [(vs "gini" 25); (vs "entropy" 26)]);
    ("max_features", mkHval HList [(vo "0.05" 27); (vo "0.1" 2); (vo "0.2" 29); (vo "0.3" 31); (vo "0.4" 33); (vo "0.5" 35);
      (vo "0.6" 218); (vo "0.7" 219); (vo "0.8" 41); (vo "0.9" 88); (vo "1.0" 3)]);
    ("min_samples_split", mkHval HRange [(vo "2" 7); (vo "3" 8); (vo "4" 9); (vo "5" 10); (vo "6" 11); (vo "7" 12); (vo "8" 13);
      (vo "9" 14); (vo "10" 4); (vo "11" 15); (vo "12" 16); (vo "13" 17); (vo "14" 18); (vo "15" 19); (vo "16" 20);
      (vo "17" 21); (vo "18" 22); (vo "19" 23); (vo "20" 24)]);
    ("min_samples_leaf", mkHval HRange [(vo "1" 3); (vo "2" 7); (vo "3" 8); (vo "4" 9); (vo "5" 10); (vo "6" 11); (vo "7" 12);
      (vo "8" 13); (vo "9" 14); (vo "10" 4); (vo "11" 15); (vo "12" 16); (vo "13" 17); (vo "14" 18); (vo "15" 19);
      (vo "16" 20); (vo "17" 21); (vo "18" 22); (vo "19" 23); (vo "20" 24)]);
    ("bootstrap", mkHval HList [(vo "True" 3); (vo "False" 6)])]);
  (* testconfiguration.py:65-73 *)
  (KeyClass (c_GradientBoostingClassifier meta), Algorithm [
    ("n_estimators", mkHval HList [(vo "100" 5)]);
    ("learning_rate", mkHval HList [(vo "0.001" 0); (vo "0.01" 1); (vo "0.1" 2); (vo "0.5" 35); (vo "1.0" 3)]);
    ("max_depth", mkHval HRange [(vo "1" 3); (vo "2" 7); (vo "3" 8); (vo "4" 9); (vo "5" 10); (vo "6" 11); (vo "7" 12);
      (vo "8" 13); (vo "9" 14); (vo "10" 4)]);
    ("min_samples_split", mkHval HRange [(vo "2" 7); (vo "3" 8); (vo "4" 9); (vo "5" 10); (vo "6" 11); (vo "7" 12); (vo "8" 13);
      (vo "9" 14); (vo "10" 4); (vo "11" 15); (vo "12" 16); (vo "13" 17); (vo "14" 18); (vo "15" 19); (vo "16" 20);
      (vo "17" 21); (vo "18" 22); (vo "19" 23); (vo "20" 24)]);
    ("min_samples_leaf", mkHval HRange [(vo "1" 3); (vo "2" 7); (vo "3" 8); (vo "4" 9); (vo "5" 10); (vo "6" 11); (vo "7" 12);
      (vo "8" 13); (vo "9" 14); (vo "10" 4); (vo "11" 15); (vo "12" 16); (vo "13" 17); (vo "14" 18); (vo "15" 19);
      (vo "16" 20); (vo "17" 21); (vo "18" 22); (vo "19" 23); (vo "20" 24)]);
    ("subsample", mkHval HList [(vo "0.05" 27); (vo "0.1" 2); (vo "0.2" 29); (vo "0.3" 31); (vo "0.4" 33); (vo "0.5" 35);
      (vo "0.6" 218); (vo "0.7" 219); (vo "0.8" 41); (vo "0.9" 88); (vo "1.0" 3)]);
    ("max_features", mkHval HArray [(vo "0.05" 27); (vo "0.1" 2); (vo "0.15000000000000002" 28); (vo "0.2" 29); (vo "0.25" 30);
      (vo "0.3" 31); (vo "0.35000000000000003" 32); (vo "0.4" 33); (vo "0.45" 34); (vo "0.5" 35); (vo "0.55" 36);
      (vo "0.6000000000000001" 37); (vo "0.6500000000000001" 38); (vo "0.7000000000000001" 39);
      (vo "0.7500000000000001" 40); (vo "0.8" 41); (vo "0.8500000000000001" 42); (vo "0.9000000000000001" 43);
      (vo "0.9500000000000001" 44); (vo "1.0" 3)])]);
  (* testconfiguration.py:74-78 *)
  (KeyClass (c_KNeighborsClassifier meta), Algorithm [
    ("n_neighbors", mkHval HRange [(vo "1" 3); (vo "2" 7); (vo "3" 8); (vo "4" 9); (vo "5" 10); (vo "6" 11); (vo "7" 12);
      (vo "8" 13); (vo "9" 14); (vo "10" 4); (vo "11" 15); (vo "12" 16); (vo "13" 17); (vo "14" 18); (vo "15" 19);
      (vo "16" 20); (vo "17" 21); (vo "18" 22); (vo "19" 23); (vo "20" 24); (vo "21" 45); (vo "22" 46); (vo "23" 47);
      (vo "24" 48); (vo "25" 49); (vo "26" 50); (vo "27" 51); (vo "28" 52); (vo "29" 53); (vo "30" 54); (vo "31" 55);
      (vo "32" 56); (vo "33" 57); (vo "34" 58); (vo "35" 59); (vo "36" 60); (vo "37" 61); (vo "38" 62); (vo "39" 63);
      (vo "40" 64); (vo "41" 65); (vo "42" 66); (vo "43" 67); (vo "44" 68); (vo "45" 69); (vo "46" 70); (vo "47" 71);
      (vo "48" 72); (vo "49" 73); (vo "50" 74)]);
    ("weights", mkHval HList [(vs "uniform" 75); (vs "distance" 76)]);
    ("p", mkHval HList [(vo "1" 3); (vo "2" 7)])]);
  (* testconfiguration.py:79-94 *)
  (KeyClass (c_LinearSVC meta), Algorithm [
    ("penalty", mkHval HList [(vs "l1" 77); (vs "l2" 78)]);
    ("loss", mkHval HList [(vs "hinge" 79); (vs "squared_hinge" 80)]);
    ("dual", mkHval HList [(vo "False" 6); (vo "True" 3)]);
    ("tol", mkHval HList [(vo "1e-05" 81); (vo "0.0001" 82); (vo "0.001" 0); (vo "0.01" 1); (vo "0.1" 2)]);
    ("C", mkHval HList [(vo "0.0001" 82); (vo "0.001" 0); (vo "0.01" 1); (vo "0.1" 2); (vo "0.5" 35); (vo "1.0" 3);
      (vo "5.0" 10); (vo "10.0" 4); (vo "15.0" 19); (vo "20.0" 24); (vo "25.0" 49)]);
    ("param_check", mkHval HList [(vc "<lambda>" 220)])]);
  (* testconfiguration.py:95-100 *)
  (KeyClass (c_LogisticRegression meta), Algorithm [
    ("penalty", mkHval HList [(vs "l1" 77); (vs "l2" 78)]);
    ("C", mkHval HList [(vo "0.0001" 82); (vo "0.001" 0); (vo "0.01" 1); (vo "0.1" 2); (vo "0.5" 35); (vo "1.0" 3);
      (vo "5.0" 10); (vo "10.0" 4); (vo "15.0" 19); (vo "20.0" 24); (vo "25.0" 49)]);
    ("dual", mkHval HList [(vo "False" 6); (vo "True" 3)]);
    ("param_check", mkHval HList [(vc "<lambda>" 221)])]);
  (* testconfiguration.py:102 *)
  (KeyClass (c_Binarizer meta), Algorithm [
    ("threshold", mkHval HArray [(vo "0.0" 6); (vo "0.05" 27); (vo "0.1" 2); (vo "0.15000000000000002" 28); (vo "0.2" 29);
      (vo "0.25" 30); (vo "0.30000000000000004" 85); (vo "0.35000000000000003" 32); (vo "0.4" 33); (vo "0.45" 34);
      (vo "0.5" 35); (vo "0.55" 36); (vo "0.6000000000000001" 37); (vo "0.65" 86); (vo "0.7000000000000001" 39);
      (vo "0.75" 87); (vo "0.8" 41); (vo "0.8500000000000001" 42); (vo "0.9" 88); (vo "0.9500000000000001" 44);
      (vo "1.0" 3)])]);
  (* testconfiguration.py:103-106 *)
  (KeyClass (c_FastICA meta), Algorithm [
    ("tol", mkHval HArray [(vo "0.0" 6); (vo "0.05" 27); (vo "0.1" 2); (vo "0.15000000000000002" 28); (vo "0.2" 29);
      (vo "0.25" 30); (vo "0.30000000000000004" 85); (vo "0.35000000000000003" 32); (vo "0.4" 33); (vo "0.45" 34);
      (vo "0.5" 35); (vo "0.55" 36); (vo "0.6000000000000001" 37); (vo "0.65" 86); (vo "0.7000000000000001" 39);
      (vo "0.75" 87); (vo "0.8" 41); (vo "0.8500000000000001" 42); (vo "0.9" 88); (vo "0.9500000000000001" 44);
      (vo "1.0" 3)]);
    ("whiten", mkHval HList [(vs "unit-variance" 89)])]);
  (* testconfiguration.py:107-114 *)
  (KeyClass (c_FeatureAgglomeration meta), Algorithm [
    ("linkage", mkHval HList [(vs "ward" 90); (vs "complete" 91); (vs "average" 92)]);
    ("affinity", mkHval HList [(vs "euclidean" 93); (vs "l1" 77); (vs "l2" 78); (vs "manhattan" 94); (vs "cosine" 95);
      (vs "precomputed" 96)]);
    ("param_check", mkHval HList [(vc "<lambda>" 222)])]);
  (* testconfiguration.py:115 *)
  (KeyClass (c_MaxAbsScaler meta), Algorithm []);
  (* testconfiguration.py:116 *)
  (KeyClass (c_MinMaxScaler meta), Algorithm []);
  (* testconfiguration.py:117 *)
  (KeyClass (c_Normalizer meta), Algorithm [
    ("norm", mkHval HList [(vs "l1" 77); (vs "l2" 78); (vs "max" 98)])]);
  (* testconfiguration.py:118-132 *)
  (KeyClass (c_Nystroem meta), Algorithm [
    ("kernel", mkHval HList [(vs "rbf" 99); (vs "cosine" 95); (vs "chi2" 100); (vs "laplacian" 101); (vs "polynomial" 102);
      (vs "poly" 103); (vs "linear" 104); (vs "additive_chi2" 105); (vs "sigmoid" 106)]);
    ("gamma", mkHval HArray [(vo "0.0" 6); (vo "0.05" 27); (vo "0.1" 2); (vo "0.15000000000000002" 28); (vo "0.2" 29);
      (vo "0.25" 30); (vo "0.30000000000000004" 85); (vo "0.35000000000000003" 32); (vo "0.4" 33); (vo "0.45" 34);
      (vo "0.5" 35); (vo "0.55" 36); (vo "0.6000000000000001" 37); (vo "0.65" 86); (vo "0.7000000000000001" 39);
      (vo "0.75" 87); (vo "0.8" 41); (vo "0.8500000000000001" 42); (vo "0.9" 88); (vo "0.9500000000000001" 44);
      (vo "1.0" 3)]);
    ("n_components", mkHval HRange [(vo "1" 3); (vo "2" 7); (vo "3" 8); (vo "4" 9); (vo "5" 10); (vo "6" 11); (vo "7" 12);
      (vo "8" 13); (vo "9" 14); (vo "10" 4)])]);
  (* testconfiguration.py:133 *)
  (KeyClass (c_PCA meta), Algorithm [
    ("svd_solver", mkHval HList [(vs "randomized" 107)]);
    ("iterated_power", mkHval HRange [(vo "1" 3); (vo "2" 7); (vo "3" 8); (vo "4" 9); (vo "5" 10); (vo "6" 11); (vo "7" 12);
      (vo "8" 13); (vo "9" 14); (vo "10" 4)])]);
  (* testconfiguration.py:134-138 *)
  (KeyClass (c_PolynomialFeatures meta), Algorithm [
    ("degree", mkHval HList [(vo "2" 7)]);
    ("include_bias", mkHval HList [(vo "False" 6)]);
    ("interaction_only", mkHval HList [(vo "False" 6)])]);
  (* testconfiguration.py:139 *)
  (KeyClass (c_RBFSampler meta), Algorithm [
    ("gamma", mkHval HArray [(vo "0.0" 6); (vo "0.05" 27); (vo "0.1" 2); (vo "0.15000000000000002" 28); (vo "0.2" 29);
      (vo "0.25" 30); (vo "0.30000000000000004" 85); (vo "0.35000000000000003" 32); (vo "0.4" 33); (vo "0.45" 34);
      (vo "0.5" 35); (vo "0.55" 36); (vo "0.6000000000000001" 37); (vo "0.65" 86); (vo "0.7000000000000001" 39);
      (vo "0.75" 87); (vo "0.8" 41); (vo "0.8500000000000001" 42); (vo "0.9" 88); (vo "0.9500000000000001" 44);
      (vo "1.0" 3)])]);
  (* testconfiguration.py:140 *)
  (KeyClass (c_RobustScaler meta), Algorithm []);
  (* testconfiguration.py:141 *)
  (KeyClass (c_StandardScaler meta), Algorithm []);
  (* testconfiguration.py:143 *)
  (KeyClass (c_SelectFwe meta), Algorithm [
    ("alpha", mkHval HArray [(vo "0.0" 6); (vo "0.001" 0); (vo "0.002" 108); (vo "0.003" 109); (vo "0.004" 110);
      (vo "0.005" 111); (vo "0.006" 112); (vo "0.007" 113); (vo "0.008" 114); (vo "0.009000000000000001" 115);
      (vo "0.01" 1); (vo "0.011" 116); (vo "0.012" 117); (vo "0.013000000000000001" 118); (vo "0.014" 119);
      (vo "0.015" 120); (vo "0.016" 121); (vo "0.017" 122); (vo "0.018000000000000002" 123); (vo "0.019" 124);
      (vo "0.02" 125); (vo "0.021" 126); (vo "0.022" 127); (vo "0.023" 128); (vo "0.024" 129); (vo "0.025" 130);
      (vo "0.026000000000000002" 131); (vo "0.027" 132); (vo "0.028" 133); (vo "0.029" 134); (vo "0.03" 135);
      (vo "0.031" 136); (vo "0.032" 137); (vo "0.033" 138); (vo "0.034" 139); (vo "0.035" 140);
      (vo "0.036000000000000004" 141); (vo "0.037" 142); (vo "0.038" 143); (vo "0.039" 144); (vo "0.04" 145);
      (vo "0.041" 146); (vo "0.042" 147); (vo "0.043000000000000003" 148); (vo "0.044" 149); (vo "0.045" 150);
      (vo "0.046" 151); (vo "0.047" 152); (vo "0.048" 153); (vo "0.049" 154)]);
    ("score_func", mkHval HDict [(vc "f_classif" 155)])]);
  (* testconfiguration.py:144 *)
  (KeyClass (c_SelectPercentile meta), Algorithm [
    ("percentile", mkHval HRange [(vo "1" 3); (vo "2" 7); (vo "3" 8); (vo "4" 9); (vo "5" 10); (vo "6" 11); (vo "7" 12);
      (vo "8" 13); (vo "9" 14); (vo "10" 4); (vo "11" 15); (vo "12" 16); (vo "13" 17); (vo "14" 18); (vo "15" 19);
      (vo "16" 20); (vo "17" 21); (vo "18" 22); (vo "19" 23); (vo "20" 24); (vo "21" 45); (vo "22" 46); (vo "23" 47);
      (vo "24" 48); (vo "25" 49); (vo "26" 50); (vo "27" 51); (vo "28" 52); (vo "29" 53); (vo "30" 54); (vo "31" 55);
      (vo "32" 56); (vo "33" 57); (vo "34" 58); (vo "35" 59); (vo "36" 60); (vo "37" 61); (vo "38" 62); (vo "39" 63);
      (vo "40" 64); (vo "41" 65); (vo "42" 66); (vo "43" 67); (vo "44" 68); (vo "45" 69); (vo "46" 70); (vo "47" 71);
      (vo "48" 72); (vo "49" 73); (vo "50" 74); (vo "51" 156); (vo "52" 157); (vo "53" 158); (vo "54" 159);
      (vo "55" 160); (vo "56" 161); (vo "57" 162); (vo "58" 163); (vo "59" 164); (vo "60" 165); (vo "61" 166);
      (vo "62" 167); (vo "63" 168); (vo "64" 169); (vo "65" 170); (vo "66" 171); (vo "67" 172); (vo "68" 173);
      (vo "69" 174); (vo "70" 175); (vo "71" 176); (vo "72" 177); (vo "73" 178); (vo "74" 179); (vo "75" 180);
      (vo "76" 181); (vo "77" 182); (vo "78" 183); (vo "79" 184); (vo "80" 185); (vo "81" 186); (vo "82" 187);
      (vo "83" 188); (vo "84" 189); (vo "85" 190); (vo "86" 191); (vo "87" 192); (vo "88" 193); (vo "89" 194);
      (vo "90" 195); (vo "91" 196); (vo "92" 197); (vo "93" 198); (vo "94" 199); (vo "95" 200); (vo "96" 201);
      (vo "97" 202); (vo "98" 203); (vo "99" 204)]);
    ("score_func", mkHval HDict [(vc "f_classif" 155)])]);
  (* testconfiguration.py:145 *)
  (KeyClass (c_VarianceThreshold meta), Algorithm [
    ("threshold", mkHval HArray [(vo "0.05" 27); (vo "0.1" 2); (vo "0.15000000000000002" 28); (vo "0.2" 29); (vo "0.25" 30);
      (vo "0.3" 31); (vo "0.35000000000000003" 32); (vo "0.4" 33); (vo "0.45" 34); (vo "0.5" 35); (vo "0.55" 36);
      (vo "0.6000000000000001" 37); (vo "0.6500000000000001" 38); (vo "0.7000000000000001" 39);
      (vo "0.7500000000000001" 40); (vo "0.8" 41); (vo "0.8500000000000001" 42); (vo "0.9000000000000001" 43);
      (vo "0.9500000000000001" 44); (vo "1.0" 3)])])].

(** * The functions given as param_check *)

(** [params[n] == v] and truth of [params[n]]. *)
Definition param (params : list (string * value)) (n : string) : option value :=
  option_map snd (find (fun nv => String.eqb (fst nv) n) params).
Definition param_is (params : list (string * value)) (n : string) (v : value) : bool :=
  match param params n with Some w => value_eqb w v | None => false end.
Definition param_true (params : list (string * value)) (n : string) : bool :=
  match param params n with Some w => value_eqb w (vo "True" 3) | None => false end.

(** LinearSVC, classification.py:88-94, testconfiguration.py:86-92. *)
Definition svc_check (params : list (string * value)) : bool :=
  (negb (param_true params "dual") || param_is params "penalty" (vs "l2" 78))
  && negb (param_is params "penalty" (vs "l1" 77) && param_is params "loss" (vs "hinge" 79))
  && negb (param_is params "penalty" (vs "l2" 78) && param_is params "loss" (vs "hinge" 79) && negb (param_true params "dual")).
(** FeatureAgglomeration, classification.py:112-113, regression.py:101-102, testconfiguration.py:111-112. *)
Definition agglomeration_check (params : list (string * value)) : bool :=
  negb (param_is params "linkage" (vs "ward" 90)) || param_is params "affinity" (vs "euclidean" 93).
(** LogisticRegression, testconfiguration.py:99. *)
Definition logistic_check (params : list (string * value)) : bool :=
  negb (param_true params "dual") || param_is params "penalty" (vs "l2" 78).

(** Calling one of the functions given as param_check.  Simplification: a missing
    key ([KeyError]) reads as a value that is neither true nor equal to anything. *)
Definition shipped_check (f : value) (params : list (string * value)) : bool :=
  match v_eq f with
  | 83 (* classification.py:LinearSVC *) => svc_check params
  | 97 (* classification.py:FeatureAgglomeration *) => agglomeration_check params
  | 216 (* regression.py:FeatureAgglomeration *) => agglomeration_check params
  | 220 (* testconfiguration.py:LinearSVC *) => svc_check params
  | 221 (* testconfiguration.py:LogisticRegression *) => logistic_check params
  | 222 (* testconfiguration.py:FeatureAgglomeration *) => agglomeration_check params
  | _ => true
  end%Z.

(** * As arguments of pset_from_config and merge_configurations *)
Definition as_config (s : shipped) : config :=
  map (fun ke => (fst ke, match snd ke with
                          | Shared v => mkEntry (match hv_kind v with HScalar => None | _ => Some (hv_items v) end) None
                          | Algorithm items => mkEntry (Some []) (Some items)
                          end)) s.
(** The inner dictionaries are objects: that of the i-th entry is object [base + i]. *)
Fixpoint as_refs (base : nat) (s : shipped) : rconfig :=
  match s with
  | [] => []
  | (k, Shared v) :: s' => (k, RIter v) :: as_refs (S base) s'
  | (k, Algorithm _) :: s' => (k, RDict base) :: as_refs (S base) s'
  end.
Definition object (s : shipped) (l : nat) : hdict :=
  match nth_error s l with Some (_, Algorithm items) => items | _ => [] end.
(** gama/logging/GamaReport.py:6-13 reads both modules: the objects of clf_config
    first, then those of reg_config. *)
Definition loaded (meta : string -> string) : dheap := object (clf_config meta ++ reg_config meta).
Definition clf_refs (meta : string -> string) : rconfig := as_refs 0 (clf_config meta).
Definition reg_refs (meta : string -> string) : rconfig := as_refs (length (clf_config meta)) (reg_config meta).

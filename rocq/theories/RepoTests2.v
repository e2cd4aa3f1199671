(** More tests of the repository run on the model: tests/unit/test_condition.py,
    tests/unit/test_rule.py and tests/unit/test_rfunctions.py, test_add of
    tests/unit/test_ruleset.py and tests/unit/test_rule_utils.py (with the tree that the
    test expects scikit-learn to fit; the values in the nodes are not looked at).
    As in RepoTests.v they are tests and not proofs.

    Left out: test_local_activation (what a file holds is the subject of ActModel.v)
    and the last case of test_evaluate (a list instead of a table). *)
From Coq Require Import List ZArith QArith Bool String Ascii.
From Verif Require Import Base Num Arith CondModel CondWit ThrModel ThrWit MetModel MetWit RuleModel RuleSpec RuleWit
  PredModel PredWit SetModel SetWit FitModel FitWit TreeModel RepoTests.
Import ListNotations.
Open Scope string_scope.
Open Scope list_scope.
Open Scope Z_scope.

Definition plain : setup := setting untouched false.
Definition plain_env : env := g_env plain.

Definition made_cond (idx mins maxs names : option (list item)) : res cond :=
  build "index" idx mins maxs names false true.

Definition error_eqb (a b : exn) : bool :=
  match a, b with
  | EValue, EValue | EType, EType | EIndex, EIndex | EDuplicated, EDuplicated | EAttr, EAttr => true
  | _, _ => false
  end.

Definition fails {A} (e : exn) (m : res A) : bool := match m with Err e' => error_eqb e e' | Ok _ => false end.

Definition holds (m : res cond) (idx : list Z) (names : list string) (mins maxs : list num) (impossible : bool)
    : bool :=
  told m (fun c =>
    match c_idx c, c_names c, c_min c, c_max c with
    | Some i, Some n, Some lo, Some hi =>
        all2 Z.eqb i idx && all2 String.eqb n names && all2 near lo mins && all2 near hi maxs &&
        Bool.eqb (c_imp c) impossible
    | _, _, _, _ => false
    end).

Definition active (v : list Z) (r : rule) : bool :=
  told (activation_vector r) (fun o => match o with Some w => all2 Z.eqb w v | None => false end).

Definition made_with (k : kind) (c : res cond_arg) (a : act_arg) (v : option (list Z)) : bool :=
  told c (fun c =>
  told (new_rule plain_env k c a) (fun r =>
    (match c, r_cond r with
     | CNone, None => true
     | CCond c, Some d => told (ceq binary c d) (fun b => b)
     | _, _ => false
     end) &&
    match v with
    | Some v => active v r
    | None => told (activation_vector r) (fun o => match o with None => true | Some _ => false end)
    end)).

Definition fitted (k : kind) (c : res cond) (y : target label) (xs : option table) : res rule :=
  rbind c (fun c => rbind (new_rule plain_env k (CCond c) VNone) (fun r =>
  let (o, r) := fit plain_env y xs false (mkKw false 1 None) r in rmap (fun _ => r) o)).

Definition evaluated (k : kind) (c : res cond) (y : target label) (xs : option table) (y_test : target label)
    (xs_test : option table) (method : option string) : res rule :=
  rbind (fitted k c y xs) (fun r =>
  let (o, r) := eval plain_env y_test xs_test false false (mkKw false 1 method) r in rmap (fun _ => r) o).

(** The classes and their frequencies, which numpy turned into texts *)
Definition probas (l : list (string * num)) (r : rule) : bool :=
  match slot "_prediction" r with
  | OTable (PTexts rows) =>
      all2 (fun a b => String.eqb (fst a) (fst b) && String.eqb (snd a) (to_text (snd b))) rows l
  | _ => false
  end.

Definition predicting (c : res cond) (v : list Z) (p : num) : res rule :=
  rbind c (fun c => rmap (put "_prediction" (number p)) (new_rule plain_env KRule (CCond c) (VActivation (new_activation v)))).

(** A class that has no frequency has the frequency NaN in the test. *)
Definition frequencies (col l : list (label * num)) : bool :=
  forallb (fun e =>
    match find (fun f => label_eqb (fst e) (fst f)) col with
    | Some f => near (snd f) (snd e)
    | None => near NaN (snd e)
    end) l &&
  forallb (fun f => existsb (fun e => label_eqb (fst e) (fst f)) l) col.

Definition same_series (a b : list (string * num)) : bool :=
  all2 (fun p q => String.eqb (fst p) (fst q) && near (snd p) (snd q)) a b.

Definition same_metric (a b : metric) : bool :=
  match a, b with
  | MNum x, MNum y => near x y
  | MSeries s, MSeries t => same_series s t
  | _, _ => false
  end.

Definition same_rate (a b : rate) : bool :=
  match a, b with
  | RNum x, RNum y => near x y
  | RSeries s, RSeries t => same_series s t
  | _, _ => false
  end.

Definition set_add (r s : rule) : res ruleset :=
  rbind (new_set plain (Some [ERule r]) true true) (fun a =>
  rbind (new_set plain (Some [ERule s]) true true) (fun b =>
  let (o, s) := add_set b a in rmap (fun _ => s) o)).

Example condition_init_0 :
  holds (made_cond (Some [AInt 0; AInt 1]) (Some [AInt 0; AInt 1]) (Some [AInt 2; AInt 3]) None) [0; 1]
  ["X_0"; "X_1"] [Fin 0; Fin 1] [Fin 2; Fin 3] false = true.
Proof. vm_compute. reflexivity. Qed.

Example condition_init_1 :
  holds (made_cond (Some [AInt 0; AInt 1]) (Some [AInt 0; AInt 1]) (Some [AInt 2; AInt 3]) (Some [AStr "A";
  AStr "B"])) [0; 1] ["A"; "B"] [Fin 0; Fin 1] [Fin 2; Fin 3] false = true.
Proof. vm_compute. reflexivity. Qed.

Example condition_init_2 :
  holds (made_cond None (Some [AInt 0; AInt 1]) (Some [AInt 2; AInt 3]) (Some [AStr "A"; AStr "B"])) [0; 1]
  ["A"; "B"] [Fin 0; Fin 1] [Fin 2; Fin 3] false = true.
Proof. vm_compute. reflexivity. Qed.

Example condition_init_3 :
  fails EValue (made_cond None (Some [AInt 0; AInt 1]) (Some [AInt 2; AInt 3]) None) = true.
Proof. vm_compute. reflexivity. Qed.

Example condition_init_4 :
  fails EValue (made_cond (Some [AInt 0; AInt 1]) (Some [AInt 0; AInt 1; AInt 2]) (Some [AInt 2; AInt 3])
  None) = true.
Proof. vm_compute. reflexivity. Qed.

Example condition_init_5 :
  fails EValue (made_cond (Some [AInt 0; AInt 1]) (Some [AInt 0; AInt 1]) (Some [AInt 1; AInt 2; AInt 3])
  None) = true.
Proof. vm_compute. reflexivity. Qed.

Example condition_init_6 :
  fails EValue (made_cond (Some [AInt 0; AInt 1]) (Some [AInt 1; AInt 2]) (Some [AInt 2; AInt 3]) (Some [AStr
  "A"; AStr "B"; AStr "C"])) = true.
Proof. vm_compute. reflexivity. Qed.

Example condition_init_7 :
  fails EType (made_cond (Some [AFloat (Fin (1 # 5)); AInt 1]) (Some [AInt 1; AInt 2]) (Some [AInt 2; AInt 3])
  (Some [AStr "A"; AStr "B"])) = true.
Proof. vm_compute. reflexivity. Qed.

Example condition_init_8 :
  fails EType (made_cond (Some [AInt 0; AInt 1]) (Some [AInt 0; AInt 1]) (Some [AInt 2; AInt 3]) (Some [AInt
  1; AStr "B"])) = true.
Proof. vm_compute. reflexivity. Qed.

Example condition_init_9 :
  fails EType (made_cond (Some [AInt 0; AInt 1]) (Some [AStr "0"; AInt 1]) (Some [AInt 2; AInt 3]) (Some [AStr
  "A"; AStr "B"])) = true.
Proof. vm_compute. reflexivity. Qed.

Example condition_init_10 :
  fails EType (made_cond (Some [AInt 0; AInt 1]) (Some [AInt 0; AInt 1]) (Some [AInt 2; AStr "3"]) (Some [AStr
  "A"; AStr "B"])) = true.
Proof. vm_compute. reflexivity. Qed.

Example condition_init_11 :
  holds (made_cond (Some [AInt 0; AInt 1]) (Some [AInt 2; AInt 1]) (Some [AInt 0; AInt 3]) (Some [AStr "A";
  AStr "B"])) [0; 1] ["A"; "B"] [Fin 2; Fin 1] [Fin 0; Fin 3] true = true.
Proof. vm_compute. reflexivity. Qed.

Example condition_init_12 :
  fails EDuplicated (made_cond (Some [AInt 0; AInt 0]) (Some [AInt 2; AInt 1]) (Some [AInt 0; AInt 3]) (Some
  [AStr "A"; AStr "B"])) = true.
Proof. vm_compute. reflexivity. Qed.

Example condition_init_13 :
  fails EDuplicated (made_cond (Some [AInt 0; AInt 1]) (Some [AInt 2; AInt 1]) (Some [AInt 0; AInt 3]) (Some
  [AStr "A"; AStr "A"])) = true.
Proof. vm_compute. reflexivity. Qed.

Example condition_sort_0 :
  holds (build "index" (Some [AInt 0; AInt 1]) (Some [AInt 0; AInt 1]) (Some [AInt 2; AInt 3]) None false
  true) [0; 1] ["X_0"; "X_1"] [Fin 0; Fin 1] [Fin 2; Fin 3] false = true.
Proof. vm_compute. reflexivity. Qed.

Example condition_sort_1 :
  holds (build "index" (Some [AInt 1; AInt 0]) (Some [AInt 1; AInt 0]) (Some [AInt 3; AInt 2]) None false
  true) [0; 1] ["X_0"; "X_1"] [Fin 0; Fin 1] [Fin 2; Fin 3] false = true.
Proof. vm_compute. reflexivity. Qed.

Example condition_sort_2 :
  holds (build "name" (Some [AInt 0; AInt 1]) (Some [AInt 0; AInt 1]) (Some [AInt 2; AInt 3]) None false true)
  [0; 1] ["X_0"; "X_1"] [Fin 0; Fin 1] [Fin 2; Fin 3] false = true.
Proof. vm_compute. reflexivity. Qed.

Example condition_sort_3 :
  holds (build "name" (Some [AInt 1; AInt 0]) (Some [AInt 1; AInt 0]) (Some [AInt 3; AInt 2]) None false true)
  [0; 1] ["X_0"; "X_1"] [Fin 0; Fin 1] [Fin 2; Fin 3] false = true.
Proof. vm_compute. reflexivity. Qed.

Example condition_sort_4 :
  holds (build "name" (Some [AInt 1; AInt 0]) (Some [AInt 1; AInt 0]) (Some [AInt 3; AInt 2]) (Some [AStr "A";
  AStr "B"]) false true) [1; 0] ["A"; "B"] [Fin 1; Fin 0] [Fin 3; Fin 2] false = true.
Proof. vm_compute. reflexivity. Qed.

Example condition_sort_5 :
  holds (build "index" (Some [AInt 1; AInt 0]) (Some [AInt 1; AInt 0]) (Some [AInt 3; AInt 2]) (Some [AStr
  "A"; AStr "B"]) false true) [0; 1] ["B"; "A"] [Fin 0; Fin 1] [Fin 2; Fin 3] false = true.
Proof. vm_compute. reflexivity. Qed.

Example condition_evaluate_0 :
  told (rbind (made_cond (Some [AInt 0]) (Some [AInt 1]) (Some [AInt 2]) None) (fun c => evaluate c (TArray 2
  [[Fin 1; Fin 3]; [Fin 3; Fin 4]; [Fin 2; NaN]]))) (all2 Z.eqb [1; 0; 1]) = true.
Proof. vm_compute. reflexivity. Qed.

Example condition_evaluate_1 :
  told (rbind (made_cond (Some [AInt 1]) (Some [AInt 3]) (Some [AInt 5]) None) (fun c => evaluate c (TArray 2
  [[Fin 1; Fin 3]; [Fin 3; Fin 4]; [Fin 2; NaN]]))) (all2 Z.eqb [1; 1; 0]) = true.
Proof. vm_compute. reflexivity. Qed.

Example condition_evaluate_2 :
  told (rbind (made_cond (Some [AInt 0; AInt 1]) (Some [AInt 1; AInt 3]) (Some [AInt 2; AInt 5]) None) (fun c
  => evaluate c (TArray 2 [[Fin 1; Fin 3]; [Fin 3; Fin 4]; [Fin 2; NaN]]))) (all2 Z.eqb [1; 0; 0]) = true.
Proof. vm_compute. reflexivity. Qed.

Example condition_evaluate_3 :
  fails EIndex (rbind (made_cond (Some [AInt 0; AInt 3]) (Some [AInt 1; AInt 3]) (Some [AInt 2; AInt 5]) None)
  (fun c => evaluate c (TArray 2 [[Fin 1; Fin 3]; [Fin 3; Fin 4]; [Fin 2; NaN]]))) = true.
Proof. vm_compute. reflexivity. Qed.

Example condition_evaluate_4 :
  told (rbind (made_cond (Some [AInt 0; AInt 3]) (Some [AInt 1; AInt 3]) (Some [AInt 2; AInt 5]) (Some [AStr
  "A"; AStr "B"])) (fun c => evaluate c (TFrame 3 [("A", [Fin 1; Fin 3; Fin 2]); ("B", [Fin 3; Fin 4;
  NaN])]))) (all2 Z.eqb [1; 0; 0]) = true.
Proof. vm_compute. reflexivity. Qed.

Example condition_evaluate_5 :
  fails EIndex (rbind (made_cond (Some [AInt 0; AInt 3]) (Some [AInt 1; AInt 3]) (Some [AInt 2; AInt 5]) (Some
  [AStr "A"; AStr "C"])) (fun c => evaluate c (TFrame 3 [("A", [Fin 1; Fin 3; Fin 2]); ("B", [Fin 3; Fin 4;
  NaN])]))) = true.
Proof. vm_compute. reflexivity. Qed.

Example condition_and_0 :
  told (rbind (rbind (made_cond (Some [AInt 0]) (Some [AInt 1]) (Some [AInt 3]) (Some [AStr "b"])) (fun c =>
  rbind (made_cond (Some [AInt 1]) (Some [AInt 1]) (Some [AInt 2]) (Some [AStr "a"])) (band "index" c))) (fun
  c => rbind (made_cond (Some [AInt 0; AInt 1]) (Some [AInt 1; AInt 1]) (Some [AInt 2; AInt 3]) (Some [AStr
  "a"; AStr "b"])) (ceq binary c))) (fun b => b) = true.
Proof. vm_compute. reflexivity. Qed.

Example condition_and_1 :
  fails EIndex (rbind (made_cond (Some [AInt 0]) (Some [AInt 1]) (Some [AInt 3]) (Some [AStr "b"])) (fun c =>
  rbind (made_cond (Some [AInt 0]) (Some [AInt 1]) (Some [AInt 2]) (Some [AStr "a"])) (band "index" c))) =
  true.
Proof. vm_compute. reflexivity. Qed.

Example condition_and_2 :
  told (rbind (rbind (made_cond (Some [AInt 0; AInt 1]) (Some [AInt 0; AInt 0]) (Some [AInt 10; AInt 2]) (Some
  [AStr "a"; AStr "b"])) (fun c => rbind (made_cond (Some [AInt 0; AInt 2]) (Some [AInt 10; AInt 1]) (Some
  [AInt 20; AInt 1]) (Some [AStr "a"; AStr "c"])) (band "index" c))) (fun c => rbind (made_cond (Some [AInt 0;
  AInt 1; AInt 2]) (Some [AInt 10; AInt 0; AInt 1]) (Some [AInt 10; AInt 2; AInt 1]) (Some [AStr "a"; AStr
  "b"; AStr "c"])) (ceq binary c))) (fun b => b) = true.
Proof. vm_compute. reflexivity. Qed.

Example condition_and_3 :
  fails EIndex (rbind (made_cond (Some [AInt 0; AInt 1]) (Some [AInt 0; AInt 0]) (Some [AInt 10; AInt 2])
  (Some [AStr "a"; AStr "b"])) (fun c => rbind (made_cond (Some [AInt 0; AInt 1]) (Some [AInt 20; AInt 1])
  (Some [AInt 30; AInt 1]) (Some [AStr "a"; AStr "c"])) (band "index" c))) = true.
Proof. vm_compute. reflexivity. Qed.

Example condition_and_4 :
  fails EIndex (rbind (made_cond (Some [AInt 0; AInt 1]) (Some [AInt 0; AInt 0]) (Some [AInt 10; AInt 2])
  (Some [AStr "a"; AStr "b"])) (fun c => rbind (made_cond (Some [AInt 1; AInt 2]) (Some [AInt 20; AInt 1])
  (Some [AInt 30; AInt 1]) (Some [AStr "a"; AStr "c"])) (band "index" c))) = true.
Proof. vm_compute. reflexivity. Qed.

Example condition_and_5 :
  told (rbind (rbind (made_cond (Some [AInt 0; AInt 1]) (Some [AInt 0; AInt 0]) (Some [AInt 10; AInt 2]) (Some
  [AStr "a"; AStr "b"])) (fun c => rbind (made_cond (Some [AInt 0; AInt 2]) (Some [AInt 20; AInt 1]) (Some
  [AInt 30; AInt 1]) (Some [AStr "a"; AStr "c"])) (band "index" c))) (fun c => rbind (made_cond (Some [AInt 0;
  AInt 1; AInt 2]) (Some [AInt 20; AInt 0; AInt 1]) (Some [AInt 10; AInt 2; AInt 1]) (Some [AStr "a"; AStr
  "b"; AStr "c"])) (ceq binary c))) (fun b => b) = true.
Proof. vm_compute. reflexivity. Qed.

Example condition_set_attr_0 :
  holds (rbind (made_cond (Some [AInt 0; AInt 1]) (Some [AInt 0; AInt 1]) (Some [AInt 1; AInt 2]) (Some [AStr
  "A"; AStr "B"])) (fun c => let (o, c) := set_bmins (GList [Fin 0; Fin 1]) c in rmap (fun _ => c) o)) [0; 1]
  ["A"; "B"] [Fin 0; Fin 1] [Fin 1; Fin 2] false = true.
Proof. vm_compute. reflexivity. Qed.

Example condition_set_attr_1 :
  holds (rbind (made_cond (Some [AInt 0; AInt 1]) (Some [AInt 0; AInt 1]) (Some [AInt 1; AInt 2]) (Some [AStr
  "A"; AStr "B"])) (fun c => let (o, c) := set_bmaxs (GList [Fin 0; Fin 1]) c in rmap (fun _ => c) o)) [0; 1]
  ["A"; "B"] [Fin 0; Fin 1] [Fin 0; Fin 1] false = true.
Proof. vm_compute. reflexivity. Qed.

Example condition_set_attr_2 :
  holds (rbind (made_cond (Some [AInt 0; AInt 1]) (Some [AInt 0; AInt 1]) (Some [AInt 1; AInt 2]) (Some [AStr
  "A"; AStr "B"])) (fun c => let (o, c) := set_features_indexes (GList [0; 2]) c in rmap (fun _ => c) o)) [0;
  2] ["A"; "B"] [Fin 0; Fin 1] [Fin 1; Fin 2] false = true.
Proof. vm_compute. reflexivity. Qed.

Example condition_set_attr_3 :
  holds (rbind (made_cond (Some [AInt 0; AInt 1]) (Some [AInt 0; AInt 1]) (Some [AInt 1; AInt 2]) (Some [AStr
  "A"; AStr "B"])) (fun c => let (o, c) := set_features_names (GList ["C"; "D"]) c in rmap (fun _ => c) o))
  [0; 1] ["C"; "D"] [Fin 0; Fin 1] [Fin 1; Fin 2] false = true.
Proof. vm_compute. reflexivity. Qed.

Example condition_set_attr_4 :
  fails EIndex (rbind (made_cond (Some [AInt 0; AInt 1]) (Some [AInt 0; AInt 1]) (Some [AInt 1; AInt 2]) (Some
  [AStr "A"; AStr "B"])) (fun c => let (o, c) := set_bmins (GList [Fin 0; Fin 1; Fin 2]) c in rmap (fun _ =>
  c) o)) = true.
Proof. vm_compute. reflexivity. Qed.

Example condition_set_attr_5 :
  fails EIndex (rbind (made_cond (Some [AInt 0; AInt 1]) (Some [AInt 0; AInt 1]) (Some [AInt 1; AInt 2]) (Some
  [AStr "A"; AStr "B"])) (fun c => let (o, c) := set_bmaxs (GList [Fin 0; Fin 1; Fin 2]) c in rmap (fun _ =>
  c) o)) = true.
Proof. vm_compute. reflexivity. Qed.

Example condition_set_attr_6 :
  fails EIndex (rbind (made_cond (Some [AInt 0; AInt 1]) (Some [AInt 0; AInt 1]) (Some [AInt 1; AInt 2]) (Some
  [AStr "A"; AStr "B"])) (fun c => let (o, c) := set_features_indexes (GList [0; 1; 2]) c in rmap (fun _ => c)
  o)) = true.
Proof. vm_compute. reflexivity. Qed.

Example condition_set_attr_7 :
  fails EIndex (rbind (made_cond (Some [AInt 0; AInt 1]) (Some [AInt 0; AInt 1]) (Some [AInt 1; AInt 2]) (Some
  [AStr "A"; AStr "B"])) (fun c => let (o, c) := set_features_names (GList ["C"; "D"; "E"]) c in rmap (fun _
  => c) o)) = true.
Proof. vm_compute. reflexivity. Qed.

Example condition_set_attr_8 :
  holds (rbind (made_cond (Some [AInt 0; AInt 1]) (Some [AInt 0; AInt 1]) (Some [AInt 1; AInt 2]) (Some [AStr
  "A"; AStr "B"])) (fun c => let (o, c) := set_bmins (GList [Fin 2; Fin 1]) c in rmap (fun _ => c) o)) [0; 1]
  ["A"; "B"] [Fin 2; Fin 1] [Fin 1; Fin 2] true = true.
Proof. vm_compute. reflexivity. Qed.

Example condition_set_attr_9 :
  holds (rbind (made_cond (Some [AInt 0; AInt 1]) (Some [AInt 0; AInt 1]) (Some [AInt 1; AInt 2]) (Some [AStr
  "A"; AStr "B"])) (fun c => let (o, c) := set_bmaxs (GList [Fin 1; Fin 0]) c in rmap (fun _ => c) o)) [0; 1]
  ["A"; "B"] [Fin 0; Fin 1] [Fin 1; Fin 0] true = true.
Proof. vm_compute. reflexivity. Qed.

Example rule_init_0 :
  made_with KRule (rmap CCond (made_cond (Some [AInt 0; AInt 1]) (Some [AInt 0; AInt 1]) (Some [AInt 2; AInt
  3]) (Some [AStr "A"; AStr "B"]))) (VActivation (new_activation [0; 1; 1; 0])) (Some [0; 1; 1; 0]) = true.
Proof. vm_compute. reflexivity. Qed.

Example rule_init_1 :
  made_with KRule (Ok CNone) VNone None = true.
Proof. vm_compute. reflexivity. Qed.

Example rule_init_2 :
  fails EValue (new_rule plain_env KRule CNone (VActivation (new_activation [0; 1; 1; 0]))) = true.
Proof. vm_compute. reflexivity. Qed.

Example rule_init_3 :
  made_with KRule (rmap CCond (made_cond (Some [AInt 0; AInt 1]) (Some [AInt 0; AInt 1]) (Some [AInt 2; AInt
  3]) (Some [AStr "A"; AStr "B"]))) VNone None = true.
Proof. vm_compute. reflexivity. Qed.

Example rule_init_4 :
  made_with KRegression (rmap CCond (made_cond (Some [AInt 0; AInt 1]) (Some [AInt 0; AInt 1]) (Some [AInt 2;
  AInt 3]) (Some [AStr "A"; AStr "B"]))) (VActivation (new_activation [0; 1; 1; 0])) (Some [0; 1; 1; 0]) =
  true.
Proof. vm_compute. reflexivity. Qed.

Example rule_init_5 :
  made_with KRegression (Ok CNone) VNone None = true.
Proof. vm_compute. reflexivity. Qed.

Example rule_init_6 :
  fails EValue (new_rule plain_env KRegression CNone (VActivation (new_activation [0; 1; 1; 0]))) = true.
Proof. vm_compute. reflexivity. Qed.

Example rule_init_7 :
  made_with KRegression (rmap CCond (made_cond (Some [AInt 0; AInt 1]) (Some [AInt 0; AInt 1]) (Some [AInt 2;
  AInt 3]) (Some [AStr "A"; AStr "B"]))) VNone None = true.
Proof. vm_compute. reflexivity. Qed.

Example rule_init_8 :
  made_with KClassification (rmap CCond (made_cond (Some [AInt 0; AInt 1]) (Some [AInt 0; AInt 1]) (Some [AInt
  2; AInt 3]) (Some [AStr "A"; AStr "B"]))) (VActivation (new_activation [0; 1; 1; 0])) (Some [0; 1; 1; 0]) =
  true.
Proof. vm_compute. reflexivity. Qed.

Example rule_init_9 :
  made_with KClassification (Ok CNone) VNone None = true.
Proof. vm_compute. reflexivity. Qed.

Example rule_init_10 :
  fails EValue (new_rule plain_env KClassification CNone (VActivation (new_activation [0; 1; 1; 0]))) = true.
Proof. vm_compute. reflexivity. Qed.

Example rule_init_11 :
  made_with KClassification (rmap CCond (made_cond (Some [AInt 0; AInt 1]) (Some [AInt 0; AInt 1]) (Some [AInt
  2; AInt 3]) (Some [AStr "A"; AStr "B"]))) VNone None = true.
Proof. vm_compute. reflexivity. Qed.

Example rule_fit_0 :
  told (fitted KRule (made_cond (Some [AInt 0]) (Some [AInt 1]) (Some [AInt 2]) None) (YVector [LNum (Fin 1);
  LNum (Fin 3); LNum (Fin 2)]) (Some (TArray 2 [[Fin 1; Fin 3]; [Fin 3; Fin 4]; [Fin 2; NaN]]))) (active [1;
  0; 1]) = true.
Proof. vm_compute. reflexivity. Qed.

Example rule_fit_1 :
  told (fitted KRegression (made_cond (Some [AInt 0]) (Some [AInt 1]) (Some [AInt 2]) None) (YVector [LNum
  (Fin 1); LNum (Fin 3); LNum (Fin 2)]) (Some (TArray 2 [[Fin 1; Fin 3]; [Fin 3; Fin 4]; [Fin 2; NaN]])))
  (active [1; 0; 1]) = true.
Proof. vm_compute. reflexivity. Qed.

Example rule_fit_2 :
  told (fitted KClassification (made_cond (Some [AInt 0]) (Some [AInt 1]) (Some [AInt 2]) None) (YVector [LNum
  (Fin 1); LNum (Fin 3); LNum (Fin 2)]) (Some (TArray 2 [[Fin 1; Fin 3]; [Fin 3; Fin 4]; [Fin 2; NaN]])))
  (active [1; 0; 1]) = true.
Proof. vm_compute. reflexivity. Qed.

Example rule_fit_3 :
  told (fitted KRule (made_cond (Some [AInt 1]) (Some [AInt 3]) (Some [AInt 5]) None) (YVector [LNum (Fin 1);
  LNum (Fin 3); LNum (Fin 2)]) (Some (TArray 2 [[Fin 1; Fin 3]; [Fin 3; Fin 4]; [Fin 2; NaN]]))) (active [1;
  1; 0]) = true.
Proof. vm_compute. reflexivity. Qed.

Example rule_fit_4 :
  told (fitted KRegression (made_cond (Some [AInt 1]) (Some [AInt 3]) (Some [AInt 5]) None) (YVector [LNum
  (Fin 1); LNum (Fin 3); LNum (Fin 2)]) (Some (TArray 2 [[Fin 1; Fin 3]; [Fin 3; Fin 4]; [Fin 2; NaN]])))
  (active [1; 1; 0]) = true.
Proof. vm_compute. reflexivity. Qed.

Example rule_fit_5 :
  told (fitted KClassification (made_cond (Some [AInt 1]) (Some [AInt 3]) (Some [AInt 5]) None) (YVector [LNum
  (Fin 1); LNum (Fin 3); LNum (Fin 2)]) (Some (TArray 2 [[Fin 1; Fin 3]; [Fin 3; Fin 4]; [Fin 2; NaN]])))
  (active [1; 1; 0]) = true.
Proof. vm_compute. reflexivity. Qed.

Example rule_fit_6 :
  told (fitted KRule (made_cond (Some [AInt 0; AInt 1]) (Some [AInt 1; AInt 3]) (Some [AInt 2; AInt 5]) None)
  (YVector [LNum (Fin 1); LNum (Fin 3); LNum (Fin 2)]) (Some (TArray 2 [[Fin 1; Fin 3]; [Fin 3; Fin 4]; [Fin
  2; NaN]]))) (active [1; 0; 0]) = true.
Proof. vm_compute. reflexivity. Qed.

Example rule_fit_7 :
  told (fitted KRegression (made_cond (Some [AInt 0; AInt 1]) (Some [AInt 1; AInt 3]) (Some [AInt 2; AInt 5])
  None) (YVector [LNum (Fin 1); LNum (Fin 3); LNum (Fin 2)]) (Some (TArray 2 [[Fin 1; Fin 3]; [Fin 3; Fin 4];
  [Fin 2; NaN]]))) (active [1; 0; 0]) = true.
Proof. vm_compute. reflexivity. Qed.

Example rule_fit_8 :
  told (fitted KClassification (made_cond (Some [AInt 0; AInt 1]) (Some [AInt 1; AInt 3]) (Some [AInt 2; AInt
  5]) None) (YVector [LNum (Fin 1); LNum (Fin 3); LNum (Fin 2)]) (Some (TArray 2 [[Fin 1; Fin 3]; [Fin 3; Fin
  4]; [Fin 2; NaN]]))) (active [1; 0; 0]) = true.
Proof. vm_compute. reflexivity. Qed.

Example rule_fit_9 :
  told (fitted KRule (made_cond (Some [AInt 0; AInt 1]) (Some [AInt 1; AInt 3]) (Some [AInt 2; AInt 5]) (Some
  [AStr "A"; AStr "B"])) (YVector [LNum (Fin 1); LNum (Fin 3); LNum (Fin 2)]) (Some (TFrame 3 [("A", [Fin 1;
  Fin 3; Fin 2]); ("B", [Fin 3; Fin 4; NaN])]))) (active [1; 0; 0]) = true.
Proof. vm_compute. reflexivity. Qed.

Example rule_fit_10 :
  told (fitted KRegression (made_cond (Some [AInt 0; AInt 1]) (Some [AInt 1; AInt 3]) (Some [AInt 2; AInt 5])
  (Some [AStr "A"; AStr "B"])) (YVector [LNum (Fin 1); LNum (Fin 3); LNum (Fin 2)]) (Some (TFrame 3 [("A",
  [Fin 1; Fin 3; Fin 2]); ("B", [Fin 3; Fin 4; NaN])]))) (active [1; 0; 0]) = true.
Proof. vm_compute. reflexivity. Qed.

Example rule_fit_11 :
  told (fitted KClassification (made_cond (Some [AInt 0; AInt 1]) (Some [AInt 1; AInt 3]) (Some [AInt 2; AInt
  5]) (Some [AStr "A"; AStr "B"])) (YVector [LNum (Fin 1); LNum (Fin 3); LNum (Fin 2)]) (Some (TFrame 3 [("A",
  [Fin 1; Fin 3; Fin 2]); ("B", [Fin 3; Fin 4; NaN])]))) (active [1; 0; 0]) = true.
Proof. vm_compute. reflexivity. Qed.

Example rule_regression_attributes_0 :
  told (fitted KRegression (made_cond (Some [AInt 0]) (Some [AInt 1]) (Some [AInt 2]) None) (YVector [LNum
  (Fin 1); LNum (Fin 3); LNum (Fin 2)]) (Some (TArray 2 [[Fin 1; Fin 3]; [Fin 3; Fin 4]; [Fin 2; NaN]]))) (fun
  r => told (RuleModel.coverage r) (fun o => near_obj o (LNum (Fin (2 # 3)))) && told (RuleModel.prediction r)
  (fun o => near_obj o (LNum (Fin (3 # 2))))) = true.
Proof. vm_compute. reflexivity. Qed.

Example rule_regression_attributes_1 :
  told (fitted KRegression (made_cond (Some [AInt 1]) (Some [AInt 3]) (Some [AInt 5]) None) (YVector [LNum
  (Fin 1); LNum (Fin 3); LNum (Fin 2)]) (Some (TArray 2 [[Fin 1; Fin 3]; [Fin 3; Fin 4]; [Fin 2; NaN]]))) (fun
  r => told (RuleModel.coverage r) (fun o => near_obj o (LNum (Fin (2 # 3)))) && told (RuleModel.prediction r)
  (fun o => near_obj o (LNum (Fin 2)))) = true.
Proof. vm_compute. reflexivity. Qed.

Example rule_regression_attributes_2 :
  told (fitted KRegression (made_cond (Some [AInt 0; AInt 1]) (Some [AInt 1; AInt 3]) (Some [AInt 2; AInt 5])
  None) (YVector [LNum (Fin 1); LNum (Fin 3); LNum (Fin 2)]) (Some (TArray 2 [[Fin 1; Fin 3]; [Fin 3; Fin 4];
  [Fin 2; NaN]]))) (fun r => told (RuleModel.coverage r) (fun o => near_obj o (LNum (Fin (1 # 3)))) && told
  (RuleModel.prediction r) (fun o => near_obj o (LNum (Fin 1)))) = true.
Proof. vm_compute. reflexivity. Qed.

Example rule_classification_attributes_0 :
  told (evaluated KClassification (made_cond (Some [AInt 0]) (Some [AInt 1]) (Some [AInt 2]) None) (YVector
  [LText "a"; LText "b"; LText "a"]) (Some (TArray 2 [[Fin 1; Fin 3]; [Fin 3; Fin 4]; [Fin 2; NaN]])) (YVector
  [LText "a"; LText "b"; LText "a"]) None None) (fun r => probas [("a", Fin 1)] r && told
  (RuleModel.prediction r) (fun o => near_obj o (LText "a")) && near_obj (slot "_criterion" r) (LNum (Fin 1)))
  = true.
Proof. vm_compute. reflexivity. Qed.

Example rule_classification_attributes_1 :
  told (evaluated KClassification (made_cond (Some [AInt 1]) (Some [AInt 4]) (Some [AInt 5]) None) (YVector
  [LText "a"; LText "b"; LText "a"]) (Some (TArray 2 [[Fin 1; Fin 3]; [Fin 3; Fin 4]; [Fin 2; NaN]])) (YVector
  [LText "a"; LText "b"; LText "a"]) None None) (fun r => probas [("b", Fin 1)] r && told
  (RuleModel.prediction r) (fun o => near_obj o (LText "b")) && near_obj (slot "_criterion" r) (LNum (Fin 1)))
  = true.
Proof. vm_compute. reflexivity. Qed.

Example rule_classification_attributes_2 :
  told (evaluated KClassification (made_cond (Some [AInt 0]) (Some [AInt 1]) (Some [AInt 5]) None) (YVector
  [LText "a"; LText "b"; LText "a"]) (Some (TArray 2 [[Fin 1; Fin 3]; [Fin 2; Fin 4]; [Fin 5; NaN]])) (YVector
  [LText "a"; LText "b"; LText "a"]) None None) (fun r => probas [("a", Fin (2 # 3)); ("b", Fin (1 # 3))] r &&
  told (RuleModel.prediction r) (fun o => near_obj o (LText "a")) && near_obj (slot "_criterion" r) (LNum (Fin
  (2 # 3)))) = true.
Proof. vm_compute. reflexivity. Qed.

Example rule_and_0 :
  told (fitted KRegression (made_cond (Some [AInt 0]) (Some [AInt 1]) (Some [AInt 2]) None) (YVector [LNum
  (Fin 1); LNum (Fin 3); LNum (Fin 2)]) (Some (TArray 2 [[Fin 1; Fin 3]; [Fin 3; Fin 4]; [Fin 2; NaN]]))) (fun
  r => told (fitted KRegression (made_cond (Some [AInt 1]) (Some [AInt 3]) (Some [AInt 5]) None) (YVector
  [LNum (Fin 1); LNum (Fin 3); LNum (Fin 2)]) (Some (TArray 2 [[Fin 1; Fin 3]; [Fin 3; Fin 4]; [Fin 2;
  NaN]]))) (fun s => told (rule_and plain_env r s) (fun t => active [1; 0; 0] t && let (o, t) := fit plain_env
  (YVector [LNum (Fin 1); LNum (Fin 3); LNum (Fin 2)]) (Some (TArray 2 [[Fin 1; Fin 3]; [Fin 3; Fin 4]; [Fin
  2; NaN]])) false (mkKw false 1 None) t in told o (fun _ => active [1; 0; 0] t)))) = true.
Proof. vm_compute. reflexivity. Qed.

Example rule_predict_0 :
  told (fitted KRule (made_cond (Some [AInt 0; AInt 1]) (Some [AInt 1; AInt 3]) (Some [AInt 2; AInt 5]) None)
  (YVector [LNum (Fin (3 # 2)); LNum (Fin 3); LNum (Fin 2)]) (Some (TArray 2 [[Fin 1; Fin 3]; [Fin 3; Fin 4];
  [Fin 2; NaN]]))) (fun r => told (RuleModel.prediction r) (fun o => match o with OVal XNone => true | _ =>
  false end)) = true.
Proof. vm_compute. reflexivity. Qed.

Example rule_predict_1 :
  told (fitted KRegression (made_cond (Some [AInt 0; AInt 1]) (Some [AInt 1; AInt 3]) (Some [AInt 2; AInt 5])
  None) (YVector [LNum (Fin (3 # 2)); LNum (Fin 3); LNum (Fin 2)]) (Some (TArray 2 [[Fin 1; Fin 3]; [Fin 3;
  Fin 4]; [Fin 2; NaN]]))) (fun r => told (fst (predict plain_env (Some (TArray 2 [[Fin 1; Fin 3]; [Fin 0; Fin
  4]; [Fin 0; Fin 5]; [NaN; NaN]])) r)) (fun p => match p with PVector l => all2 near_label l [LNum (Fin (3 #
  2)); LNum (NaN); LNum (NaN); LNum (NaN)] | _ => false end)) = true.
Proof. vm_compute. reflexivity. Qed.

Example rule_predict_2 :
  told (fitted KClassification (made_cond (Some [AInt 0; AInt 1]) (Some [AInt 1; AInt 3]) (Some [AInt 2; AInt
  5]) None) (YVector [LNum (Fin (3 # 2)); LNum (Fin 3); LNum (Fin 2)]) (Some (TArray 2 [[Fin 1; Fin 3]; [Fin
  3; Fin 4]; [Fin 2; NaN]]))) (fun r => told (fst (predict plain_env (Some (TArray 2 [[Fin 1; Fin 3]; [Fin 0;
  Fin 4]; [Fin 0; Fin 5]; [NaN; NaN]])) r)) (fun p => match p with PVector l => all2 near_label l [LNum (Fin
  (3 # 2)); LNum (NaN); LNum (NaN); LNum (NaN)] | _ => false end)) = true.
Proof. vm_compute. reflexivity. Qed.

Example rule_predict_3 :
  told (fitted KRule (made_cond (Some [AInt 0; AInt 1]) (Some [AInt 1; AInt 3]) (Some [AInt 2; AInt 5]) None)
  (YVector [LNum (Fin (3 # 2)); LNum (Fin 3); LNum (Fin 2)]) (Some (TArray 2 [[Fin 1; Fin 3]; [Fin 3; Fin 4];
  [Fin 2; NaN]]))) (fun r => told (RuleModel.prediction r) (fun o => match o with OVal XNone => true | _ =>
  false end)) = true.
Proof. vm_compute. reflexivity. Qed.

Example rule_predict_4 :
  told (fitted KRegression (made_cond (Some [AInt 0; AInt 1]) (Some [AInt 1; AInt 3]) (Some [AInt 2; AInt 5])
  None) (YVector [LNum (Fin (3 # 2)); LNum (Fin 3); LNum (Fin 2)]) (Some (TArray 2 [[Fin 1; Fin 3]; [Fin 3;
  Fin 4]; [Fin 2; NaN]]))) (fun r => told (fst (predict plain_env None r)) (fun p => match p with PVector l =>
  all2 near_label l [LNum (Fin (3 # 2)); LNum (NaN); LNum (NaN)] | _ => false end)) = true.
Proof. vm_compute. reflexivity. Qed.

Example rule_predict_5 :
  told (fitted KClassification (made_cond (Some [AInt 0; AInt 1]) (Some [AInt 1; AInt 3]) (Some [AInt 2; AInt
  5]) None) (YVector [LNum (Fin (3 # 2)); LNum (Fin 3); LNum (Fin 2)]) (Some (TArray 2 [[Fin 1; Fin 3]; [Fin
  3; Fin 4]; [Fin 2; NaN]]))) (fun r => told (fst (predict plain_env None r)) (fun p => match p with PVector l
  => all2 near_label l [LNum (Fin (3 # 2)); LNum (NaN); LNum (NaN)] | _ => false end)) = true.
Proof. vm_compute. reflexivity. Qed.

Example rule_predict_6 :
  told (fitted KRule (made_cond (Some [AInt 0; AInt 1]) (Some [AInt 1; AInt 3]) (Some [AInt 2; AInt 5]) (Some
  [AStr "A"; AStr "B"])) (YVector [LNum (Fin (3 # 2)); LNum (Fin 3); LNum (Fin 2)]) (Some (TFrame 3 [("A",
  [Fin 1; Fin 3; Fin 2]); ("B", [Fin 3; Fin 4; NaN])]))) (fun r => told (RuleModel.prediction r) (fun o =>
  match o with OVal XNone => true | _ => false end)) = true.
Proof. vm_compute. reflexivity. Qed.

Example rule_predict_7 :
  told (fitted KRegression (made_cond (Some [AInt 0; AInt 1]) (Some [AInt 1; AInt 3]) (Some [AInt 2; AInt 5])
  (Some [AStr "A"; AStr "B"])) (YVector [LNum (Fin (3 # 2)); LNum (Fin 3); LNum (Fin 2)]) (Some (TFrame 3
  [("A", [Fin 1; Fin 3; Fin 2]); ("B", [Fin 3; Fin 4; NaN])]))) (fun r => told (fst (predict plain_env (Some
  (TArray 2 [[Fin 1; Fin 3]; [Fin 0; Fin 4]; [Fin 0; Fin 5]; [NaN; NaN]])) r)) (fun p => match p with PVector
  l => all2 near_label l [LNum (Fin (3 # 2)); LNum (NaN); LNum (NaN); LNum (NaN)] | _ => false end)) = true.
Proof. vm_compute. reflexivity. Qed.

Example rule_predict_8 :
  told (fitted KClassification (made_cond (Some [AInt 0; AInt 1]) (Some [AInt 1; AInt 3]) (Some [AInt 2; AInt
  5]) (Some [AStr "A"; AStr "B"])) (YVector [LNum (Fin (3 # 2)); LNum (Fin 3); LNum (Fin 2)]) (Some (TFrame 3
  [("A", [Fin 1; Fin 3; Fin 2]); ("B", [Fin 3; Fin 4; NaN])]))) (fun r => told (fst (predict plain_env (Some
  (TArray 2 [[Fin 1; Fin 3]; [Fin 0; Fin 4]; [Fin 0; Fin 5]; [NaN; NaN]])) r)) (fun p => match p with PVector
  l => all2 near_label l [LNum (Fin (3 # 2)); LNum (NaN); LNum (NaN); LNum (NaN)] | _ => false end)) = true.
Proof. vm_compute. reflexivity. Qed.

Example rule_predict_9 :
  told (fitted KRule (made_cond (Some [AInt 0; AInt 1]) (Some [AInt 1; AInt 3]) (Some [AInt 2; AInt 5]) (Some
  [AStr "A"; AStr "B"])) (YVector [LNum (Fin (3 # 2)); LNum (Fin 3); LNum (Fin 2)]) (Some (TFrame 3 [("A",
  [Fin 1; Fin 3; Fin 2]); ("B", [Fin 3; Fin 4; NaN])]))) (fun r => told (RuleModel.prediction r) (fun o =>
  match o with OVal XNone => true | _ => false end)) = true.
Proof. vm_compute. reflexivity. Qed.

Example rule_predict_10 :
  told (fitted KRegression (made_cond (Some [AInt 0; AInt 1]) (Some [AInt 1; AInt 3]) (Some [AInt 2; AInt 5])
  (Some [AStr "A"; AStr "B"])) (YVector [LNum (Fin (3 # 2)); LNum (Fin 3); LNum (Fin 2)]) (Some (TFrame 3
  [("A", [Fin 1; Fin 3; Fin 2]); ("B", [Fin 3; Fin 4; NaN])]))) (fun r => told (fst (predict plain_env None
  r)) (fun p => match p with PVector l => all2 near_label l [LNum (Fin (3 # 2)); LNum (NaN); LNum (NaN)] | _
  => false end)) = true.
Proof. vm_compute. reflexivity. Qed.

Example rule_predict_11 :
  told (fitted KClassification (made_cond (Some [AInt 0; AInt 1]) (Some [AInt 1; AInt 3]) (Some [AInt 2; AInt
  5]) (Some [AStr "A"; AStr "B"])) (YVector [LNum (Fin (3 # 2)); LNum (Fin 3); LNum (Fin 2)]) (Some (TFrame 3
  [("A", [Fin 1; Fin 3; Fin 2]); ("B", [Fin 3; Fin 4; NaN])]))) (fun r => told (fst (predict plain_env None
  r)) (fun p => match p with PVector l => all2 near_label l [LNum (Fin (3 # 2)); LNum (NaN); LNum (NaN)] | _
  => false end)) = true.
Proof. vm_compute. reflexivity. Qed.

Example rule_predict_12 :
  told (fitted KRule (made_cond (Some [AInt 0; AInt 1]) (Some [AInt 1; AInt 3]) (Some [AInt 2; AInt 5]) (Some
  [AStr "A"; AStr "B"])) (YVector [LNum (Fin (3 # 2)); LNum (Fin 3); LNum (Fin 2)]) (Some (TArray 2 [[Fin 1;
  Fin 3]; [Fin 3; Fin 4]; [Fin 2; NaN]]))) (fun r => told (RuleModel.prediction r) (fun o => match o with OVal
  XNone => true | _ => false end)) = true.
Proof. vm_compute. reflexivity. Qed.

Example rule_predict_13 :
  told (fitted KRegression (made_cond (Some [AInt 0; AInt 1]) (Some [AInt 1; AInt 3]) (Some [AInt 2; AInt 5])
  (Some [AStr "A"; AStr "B"])) (YVector [LNum (Fin (3 # 2)); LNum (Fin 3); LNum (Fin 2)]) (Some (TArray 2
  [[Fin 1; Fin 3]; [Fin 3; Fin 4]; [Fin 2; NaN]]))) (fun r => told (fst (predict plain_env (Some (TFrame 4
  [("A", [Fin 1; Fin 0; Fin 0; NaN]); ("B", [Fin 3; Fin 4; Fin 5; NaN])])) r)) (fun p => match p with PVector
  l => all2 near_label l [LNum (Fin (3 # 2)); LNum (NaN); LNum (NaN); LNum (NaN)] | _ => false end)) = true.
Proof. vm_compute. reflexivity. Qed.

Example rule_predict_14 :
  told (fitted KClassification (made_cond (Some [AInt 0; AInt 1]) (Some [AInt 1; AInt 3]) (Some [AInt 2; AInt
  5]) (Some [AStr "A"; AStr "B"])) (YVector [LNum (Fin (3 # 2)); LNum (Fin 3); LNum (Fin 2)]) (Some (TArray 2
  [[Fin 1; Fin 3]; [Fin 3; Fin 4]; [Fin 2; NaN]]))) (fun r => told (fst (predict plain_env (Some (TFrame 4
  [("A", [Fin 1; Fin 0; Fin 0; NaN]); ("B", [Fin 3; Fin 4; Fin 5; NaN])])) r)) (fun p => match p with PVector
  l => all2 near_label l [LNum (Fin (3 # 2)); LNum (NaN); LNum (NaN); LNum (NaN)] | _ => false end)) = true.
Proof. vm_compute. reflexivity. Qed.

Example rule_predict_15 :
  told (fitted KRule (made_cond (Some [AInt 0; AInt 1]) (Some [AInt 1; AInt 3]) (Some [AInt 2; AInt 5]) (Some
  [AStr "A"; AStr "B"])) (YVector [LNum (Fin (3 # 2)); LNum (Fin 3); LNum (Fin 2)]) (Some (TFrame 3 [("A",
  [Fin 1; Fin 3; Fin 2]); ("B", [Fin 3; Fin 4; NaN])]))) (fun r => told (RuleModel.prediction r) (fun o =>
  match o with OVal XNone => true | _ => false end)) = true.
Proof. vm_compute. reflexivity. Qed.

Example rule_predict_16 :
  told (fitted KRegression (made_cond (Some [AInt 0; AInt 1]) (Some [AInt 1; AInt 3]) (Some [AInt 2; AInt 5])
  (Some [AStr "A"; AStr "B"])) (YVector [LNum (Fin (3 # 2)); LNum (Fin 3); LNum (Fin 2)]) (Some (TFrame 3
  [("A", [Fin 1; Fin 3; Fin 2]); ("B", [Fin 3; Fin 4; NaN])]))) (fun r => told (fst (predict plain_env (Some
  (TFrame 4 [("A", [Fin 1; Fin 0; Fin 0; NaN]); ("B", [Fin 3; Fin 4; Fin 5; NaN])])) r)) (fun p => match p
  with PVector l => all2 near_label l [LNum (Fin (3 # 2)); LNum (NaN); LNum (NaN); LNum (NaN)] | _ => false
  end)) = true.
Proof. vm_compute. reflexivity. Qed.

Example rule_predict_17 :
  told (fitted KClassification (made_cond (Some [AInt 0; AInt 1]) (Some [AInt 1; AInt 3]) (Some [AInt 2; AInt
  5]) (Some [AStr "A"; AStr "B"])) (YVector [LNum (Fin (3 # 2)); LNum (Fin 3); LNum (Fin 2)]) (Some (TFrame 3
  [("A", [Fin 1; Fin 3; Fin 2]); ("B", [Fin 3; Fin 4; NaN])]))) (fun r => told (fst (predict plain_env (Some
  (TFrame 4 [("A", [Fin 1; Fin 0; Fin 0; NaN]); ("B", [Fin 3; Fin 4; Fin 5; NaN])])) r)) (fun p => match p
  with PVector l => all2 near_label l [LNum (Fin (3 # 2)); LNum (NaN); LNum (NaN); LNum (NaN)] | _ => false
  end)) = true.
Proof. vm_compute. reflexivity. Qed.

Example rule_predict_18 :
  told (fitted KRule (made_cond (Some [AInt 1; AInt 0]) (Some [AInt 1; AInt 3]) (Some [AInt 2; AInt 5]) None)
  (YVector [LNum (Fin (3 # 2)); LNum (Fin 3); LNum (Fin 2)]) (Some (TArray 2 [[Fin 3; Fin 1]; [Fin 4; Fin 3];
  [NaN; Fin 2]]))) (fun r => told (RuleModel.prediction r) (fun o => match o with OVal XNone => true | _ =>
  false end)) = true.
Proof. vm_compute. reflexivity. Qed.

Example rule_predict_19 :
  told (fitted KRegression (made_cond (Some [AInt 1; AInt 0]) (Some [AInt 1; AInt 3]) (Some [AInt 2; AInt 5])
  None) (YVector [LNum (Fin (3 # 2)); LNum (Fin 3); LNum (Fin 2)]) (Some (TArray 2 [[Fin 3; Fin 1]; [Fin 4;
  Fin 3]; [NaN; Fin 2]]))) (fun r => told (fst (predict plain_env (Some (TArray 2 [[Fin 3; Fin 1]; [Fin 4; Fin
  0]; [Fin 5; Fin 0]; [NaN; NaN]])) r)) (fun p => match p with PVector l => all2 near_label l [LNum (Fin (3 #
  2)); LNum (NaN); LNum (NaN); LNum (NaN)] | _ => false end)) = true.
Proof. vm_compute. reflexivity. Qed.

Example rule_predict_20 :
  told (fitted KClassification (made_cond (Some [AInt 1; AInt 0]) (Some [AInt 1; AInt 3]) (Some [AInt 2; AInt
  5]) None) (YVector [LNum (Fin (3 # 2)); LNum (Fin 3); LNum (Fin 2)]) (Some (TArray 2 [[Fin 3; Fin 1]; [Fin
  4; Fin 3]; [NaN; Fin 2]]))) (fun r => told (fst (predict plain_env (Some (TArray 2 [[Fin 3; Fin 1]; [Fin 4;
  Fin 0]; [Fin 5; Fin 0]; [NaN; NaN]])) r)) (fun p => match p with PVector l => all2 near_label l [LNum (Fin
  (3 # 2)); LNum (NaN); LNum (NaN); LNum (NaN)] | _ => false end)) = true.
Proof. vm_compute. reflexivity. Qed.

Example rule_predict_21 :
  told (fitted KRule (made_cond (Some [AInt 1; AInt 0]) (Some [AInt 1; AInt 3]) (Some [AInt 2; AInt 5]) (Some
  [AStr "A"; AStr "B"])) (YVector [LNum (Fin (3 # 2)); LNum (Fin 3); LNum (Fin 2)]) (Some (TArray 2 [[Fin 3;
  Fin 1]; [Fin 4; Fin 3]; [NaN; Fin 2]]))) (fun r => told (RuleModel.prediction r) (fun o => match o with OVal
  XNone => true | _ => false end)) = true.
Proof. vm_compute. reflexivity. Qed.

Example rule_predict_22 :
  told (fitted KRegression (made_cond (Some [AInt 1; AInt 0]) (Some [AInt 1; AInt 3]) (Some [AInt 2; AInt 5])
  (Some [AStr "A"; AStr "B"])) (YVector [LNum (Fin (3 # 2)); LNum (Fin 3); LNum (Fin 2)]) (Some (TArray 2
  [[Fin 3; Fin 1]; [Fin 4; Fin 3]; [NaN; Fin 2]]))) (fun r => told (fst (predict plain_env (Some (TArray 2
  [[Fin 3; Fin 1]; [Fin 4; Fin 0]; [Fin 5; Fin 0]; [NaN; NaN]])) r)) (fun p => match p with PVector l => all2
  near_label l [LNum (Fin (3 # 2)); LNum (NaN); LNum (NaN); LNum (NaN)] | _ => false end)) = true.
Proof. vm_compute. reflexivity. Qed.

Example rule_predict_23 :
  told (fitted KClassification (made_cond (Some [AInt 1; AInt 0]) (Some [AInt 1; AInt 3]) (Some [AInt 2; AInt
  5]) (Some [AStr "A"; AStr "B"])) (YVector [LNum (Fin (3 # 2)); LNum (Fin 3); LNum (Fin 2)]) (Some (TArray 2
  [[Fin 3; Fin 1]; [Fin 4; Fin 3]; [NaN; Fin 2]]))) (fun r => told (fst (predict plain_env (Some (TArray 2
  [[Fin 3; Fin 1]; [Fin 4; Fin 0]; [Fin 5; Fin 0]; [NaN; NaN]])) r)) (fun p => match p with PVector l => all2
  near_label l [LNum (Fin (3 # 2)); LNum (NaN); LNum (NaN); LNum (NaN)] | _ => false end)) = true.
Proof. vm_compute. reflexivity. Qed.

Example rule_predict_24 :
  told (fitted KRule (made_cond (Some [AInt 0; AInt 1]) (Some [AInt 1; AInt 3]) (Some [AInt 2; AInt 5]) (Some
  [AStr "B"; AStr "A"])) (YVector [LNum (Fin (3 # 2)); LNum (Fin 3); LNum (Fin 2)]) (Some (TFrame 3 [("A",
  [Fin 3; Fin 4; NaN]); ("B", [Fin 1; Fin 3; Fin 2])]))) (fun r => told (RuleModel.prediction r) (fun o =>
  match o with OVal XNone => true | _ => false end)) = true.
Proof. vm_compute. reflexivity. Qed.

Example rule_predict_25 :
  told (fitted KRegression (made_cond (Some [AInt 0; AInt 1]) (Some [AInt 1; AInt 3]) (Some [AInt 2; AInt 5])
  (Some [AStr "B"; AStr "A"])) (YVector [LNum (Fin (3 # 2)); LNum (Fin 3); LNum (Fin 2)]) (Some (TFrame 3
  [("A", [Fin 3; Fin 4; NaN]); ("B", [Fin 1; Fin 3; Fin 2])]))) (fun r => told (fst (predict plain_env (Some
  (TFrame 4 [("A", [Fin 3; Fin 4; Fin 5; NaN]); ("B", [Fin 1; Fin 0; Fin 0; NaN])])) r)) (fun p => match p
  with PVector l => all2 near_label l [LNum (Fin (3 # 2)); LNum (NaN); LNum (NaN); LNum (NaN)] | _ => false
  end)) = true.
Proof. vm_compute. reflexivity. Qed.

Example rule_predict_26 :
  told (fitted KClassification (made_cond (Some [AInt 0; AInt 1]) (Some [AInt 1; AInt 3]) (Some [AInt 2; AInt
  5]) (Some [AStr "B"; AStr "A"])) (YVector [LNum (Fin (3 # 2)); LNum (Fin 3); LNum (Fin 2)]) (Some (TFrame 3
  [("A", [Fin 3; Fin 4; NaN]); ("B", [Fin 1; Fin 3; Fin 2])]))) (fun r => told (fst (predict plain_env (Some
  (TFrame 4 [("A", [Fin 3; Fin 4; Fin 5; NaN]); ("B", [Fin 1; Fin 0; Fin 0; NaN])])) r)) (fun p => match p
  with PVector l => all2 near_label l [LNum (Fin (3 # 2)); LNum (NaN); LNum (NaN); LNum (NaN)] | _ => false
  end)) = true.
Proof. vm_compute. reflexivity. Qed.

Example rule_predict_27 :
  told (fitted KRule (made_cond (Some [AInt 0; AInt 1]) (Some [AInt 1; AInt 3]) (Some [AInt 2; AInt 5]) (Some
  [AStr "B"; AStr "A"])) (YVector [LText "a"; LText "b"; LText "c"]) (Some (TFrame 3 [("A", [Fin 3; Fin 4;
  NaN]); ("B", [Fin 1; Fin 3; Fin 2])]))) (fun r => told (RuleModel.prediction r) (fun o => match o with OVal
  XNone => true | _ => false end)) = true.
Proof. vm_compute. reflexivity. Qed.

Example rule_predict_28 :
  told (fitted KClassification (made_cond (Some [AInt 0; AInt 1]) (Some [AInt 1; AInt 3]) (Some [AInt 2; AInt
  5]) (Some [AStr "B"; AStr "A"])) (YVector [LText "a"; LText "b"; LText "c"]) (Some (TFrame 3 [("A", [Fin 3;
  Fin 4; NaN]); ("B", [Fin 1; Fin 3; Fin 2])]))) (fun r => told (fst (predict plain_env (Some (TFrame 4 [("A",
  [Fin 3; Fin 4; Fin 5; NaN]); ("B", [Fin 1; Fin 0; Fin 0; NaN])])) r)) (fun p => match p with PVector l =>
  all2 near_label l [LText "a"; LText "nan"; LText "nan"; LText "nan"] | _ => false end)) = true.
Proof. vm_compute. reflexivity. Qed.

Example rule_correlation_0 :
  told (predicting (made_cond (Some [AInt 1; AInt 0]) (Some [AInt 1; AInt 3]) (Some [AInt 2; AInt 5]) None)
  [1; 0; 1] (Fin (1 # 5))) (fun r => told (predicting (made_cond (Some [AInt 1; AInt 0]) (Some [AInt 1; AInt
  3]) (Some [AInt 2; AInt 5]) None) [1; 1; 0] (Fin (3 # 10))) (fun s => told (get_correlation r s) (near (Fin
  (1 # 3))))) = true.
Proof. vm_compute. reflexivity. Qed.

Example rule_correlation_1 :
  told (predicting (made_cond (Some [AInt 1; AInt 0]) (Some [AInt 1; AInt 3]) (Some [AInt 2; AInt 5]) None)
  [1; 0; 1] (Fin (1 # 5))) (fun r => told (predicting (made_cond (Some [AInt 1; AInt 0]) (Some [AInt 1; AInt
  3]) (Some [AInt 2; AInt 5]) None) [1; 1; 0] (Fin (-3 # 10))) (fun s => told (get_correlation r s) (near (Fin
  (-1 # 3))))) = true.
Proof. vm_compute. reflexivity. Qed.

Example rule_correlation_2 :
  told (predicting (made_cond (Some [AInt 1; AInt 0]) (Some [AInt 1; AInt 3]) (Some [AInt 2; AInt 5]) None)
  [1; 0; 1] (Fin (-1 # 5))) (fun r => told (predicting (made_cond (Some [AInt 1; AInt 0]) (Some [AInt 1; AInt
  3]) (Some [AInt 2; AInt 5]) None) [1; 1; 0] (Fin (-3 # 10))) (fun s => told (get_correlation r s) (near (Fin
  (1 # 3))))) = true.
Proof. vm_compute. reflexivity. Qed.

Example rule_correlation_3 :
  told (predicting (made_cond (Some [AInt 1; AInt 0]) (Some [AInt 1; AInt 3]) (Some [AInt 2; AInt 5]) None)
  [1; 0; 1] (Fin (1 # 5))) (fun r => told (predicting (made_cond (Some [AInt 1; AInt 0]) (Some [AInt 1; AInt
  3]) (Some [AInt 2; AInt 5]) None) [1; 0; 0] (Fin (3 # 10))) (fun s => told (get_correlation r s) (near (Fin
  (2 # 3))))) = true.
Proof. vm_compute. reflexivity. Qed.

Example rule_correlation_4 :
  told (predicting (made_cond (Some [AInt 1; AInt 0]) (Some [AInt 1; AInt 3]) (Some [AInt 2; AInt 5]) None)
  [1; 0; 1] (Fin (-1 # 5))) (fun r => told (predicting (made_cond (Some [AInt 1; AInt 0]) (Some [AInt 1; AInt
  3]) (Some [AInt 2; AInt 5]) None) [1; 0; 0] (Fin (3 # 10))) (fun s => told (get_correlation r s) (near (Fin
  (-2 # 3))))) = true.
Proof. vm_compute. reflexivity. Qed.

Example rule_correlation_5 :
  told (predicting (made_cond (Some [AInt 1; AInt 0]) (Some [AInt 1; AInt 3]) (Some [AInt 2; AInt 5]) None)
  [1; 0; 1] (Fin (-1 # 5))) (fun r => told (predicting (made_cond (Some [AInt 1; AInt 0]) (Some [AInt 1; AInt
  3]) (Some [AInt 2; AInt 5]) None) [1; 0; 0] (Fin (-3 # 10))) (fun s => told (get_correlation r s) (near (Fin
  (2 # 3))))) = true.
Proof. vm_compute. reflexivity. Qed.

Example rule_correlation_6 :
  told (predicting (made_cond (Some [AInt 1; AInt 0]) (Some [AInt 1; AInt 3]) (Some [AInt 2; AInt 5]) None)
  [1; 0; 1] (Fin (1 # 5))) (fun r => told (predicting (made_cond (Some [AInt 1; AInt 0]) (Some [AInt 1; AInt
  3]) (Some [AInt 2; AInt 5]) None) [1; 0; 1] (Fin (3 # 10))) (fun s => told (get_correlation r s) (near (Fin
  1)))) = true.
Proof. vm_compute. reflexivity. Qed.

Example rule_correlation_7 :
  told (predicting (made_cond (Some [AInt 1; AInt 0]) (Some [AInt 1; AInt 3]) (Some [AInt 2; AInt 5]) None)
  [1; 0; 1] (Fin (1 # 5))) (fun r => told (predicting (made_cond (Some [AInt 1; AInt 0]) (Some [AInt 1; AInt
  3]) (Some [AInt 2; AInt 5]) None) [0; 1; 0] (Fin (3 # 10))) (fun s => told (get_correlation r s) (near (Fin
  0)))) = true.
Proof. vm_compute. reflexivity. Qed.

Example rule_test_0 :
  told (evaluated KRegression (made_cond (Some [AInt 0]) (Some [AInt 0]) (Some [AInt 1]) None) (YVector [LNum
  (Fin 1); LNum (Fin 0); LNum (Fin 2)]) (Some (TArray 2 [[Fin 0; Fin 1]; [Fin 2; Fin 3]; [Fin 4; Fin 5]]))
  (YVector [LNum (Fin 1); LNum (Fin 4); LNum (Fin 5)]) (Some (TArray 2 [[Fin 0; Fin 1]; [Fin 0; Fin 1]; [Fin
  0; Fin 1]])) (Some "mse")) (fun r => active [1; 0; 0] r && told (RuleModel.prediction r) (fun o => near_obj
  o (LNum (Fin 1))) && near_obj (slot "_criterion" r) (LNum (Fin (25 # 3)))) = true.
Proof. vm_compute. reflexivity. Qed.

Example rule_test_1 :
  told (evaluated KClassification (made_cond (Some [AInt 0]) (Some [AInt 0]) (Some [AInt 1]) None) (YVector
  [LNum (Fin 1); LNum (Fin 0); LNum (Fin 2)]) (Some (TArray 2 [[Fin 0; Fin 1]; [Fin 2; Fin 3]; [Fin 4; Fin
  5]])) (YVector [LNum (Fin 1); LNum (Fin 4); LNum (Fin 5)]) (Some (TArray 2 [[Fin 0; Fin 1]; [Fin 0; Fin 1];
  [Fin 0; Fin 1]])) (Some "success_rate")) (fun r => active [1; 0; 0] r && told (RuleModel.prediction r) (fun
  o => near_obj o (LNum (Fin 1))) && near_obj (slot "_criterion" r) (LNum (Fin (1 # 3)))) = true.
Proof. vm_compute. reflexivity. Qed.

Example rule_not_fitted_0 :
  fails EValue (rbind (made_cond (Some [AInt 0; AInt 1]) (Some [AInt 1; AInt 1]) (Some [AInt 2; AInt 3]) None)
  (fun c => rbind (new_rule plain_env KRule (CCond c) VNone) (fun r => fst (eval plain_env (YVector [LNum (Fin
  0); LNum (Fin 1); LNum (Fin 2)]) None false false (mkKw false 1 (Some "mse")) r)))) = true.
Proof. vm_compute. reflexivity. Qed.

Example class_probabilities_0 :
  told (class_probabilities to_text [1; 0; 1; 1; 1] [LNum (Fin 0); LNum (Fin 3); LNum (Fin 2); LNum (Fin 100);
  LNum (Fin 2)]) (fun p => match p with PNumbers l => all2 (fun a b => near (fst a) (fst b) && near (snd a)
  (snd b)) l [(Fin 0, Fin (1 # 4)); (Fin 2, Fin (1 # 2)); (Fin 100, Fin (1 # 4))] | _ => false end) = true.
Proof. vm_compute. reflexivity. Qed.

Example class_probabilities_1 :
  frequencies (class_column [1; 0; 1; 1; 1] [LNum (Fin 0); LNum (Fin 3); LNum (Fin 2); LNum (Fin 100); LNum
  (Fin 2)]) [(LNum (Fin 0), Fin (1 # 4)); (LNum (Fin 2), Fin (1 # 2)); (LNum (Fin 3), NaN); (LNum (Fin 100),
  Fin (1 # 4))] = true.
Proof. vm_compute. reflexivity. Qed.

Example class_probabilities_2 :
  frequencies (class_column [1; 1; 0; 1; 1] [LNum (Fin 0); LNum (Fin 3); LNum (Fin 2); LNum (Fin 100); LNum
  (Fin 2)]) [(LNum (Fin 0), Fin (1 # 4)); (LNum (Fin 2), Fin (1 # 4)); (LNum (Fin 3), Fin (1 # 4)); (LNum (Fin
  100), Fin (1 # 4))] = true.
Proof. vm_compute. reflexivity. Qed.

Example class_probabilities_3 :
  frequencies (class_column [1; 0; 1; 1; 1] [LText "a"; LText "c"; LText "b"; LText "d"; LText "b"]) [(LText
  "a", Fin (1 # 4)); (LText "b", Fin (1 # 2)); (LText "c", NaN); (LText "d", Fin (1 # 4))] = true.
Proof. vm_compute. reflexivity. Qed.

Example class_probabilities_4 :
  frequencies (class_column [1; 1; 0; 1; 1] [LText "a"; LText "c"; LText "b"; LText "d"; LText "b"]) [(LText
  "a", Fin (1 # 4)); (LText "b", Fin (1 # 4)); (LText "c", Fin (1 # 4)); (LText "d", Fin (1 # 4))] = true.
Proof. vm_compute. reflexivity. Qed.

Example conditional_mean_0 :
  told (conditional_mean (ActArray [1; 0; 1]) (YVector [Fin (-1); Fin 0; Fin 2])) (same_metric (MNum (Fin (1 #
  2)))) = true.
Proof. vm_compute. reflexivity. Qed.

Example conditional_mean_1 :
  told (conditional_mean (ActArray [0; 0; 0]) (YVector [Fin (-1); Fin 0; Fin 2])) (same_metric (MNum NaN)) =
  true.
Proof. vm_compute. reflexivity. Qed.

Example conditional_mean_2 :
  told (conditional_mean (ActFrame [("0", [1; 0; 1]); ("1", [1; 1; 0]); ("2", [0; 0; 0])]) (YVector [Fin (-1);
  Fin 0; Fin 2])) (same_metric (MSeries [("0", Fin (1 # 2)); ("1", Fin (-1 # 2)); ("2", NaN)])) = true.
Proof. vm_compute. reflexivity. Qed.

Example conditional_mean_3 :
  told (conditional_mean (ActFrame [("chien", [1; 0; 1]); ("chat", [1; 1; 0]); ("cheval", [0; 0; 0])])
  (YVector [Fin (-1); Fin 0; Fin 2])) (same_metric (MSeries [("chien", Fin (1 # 2)); ("chat", Fin (-1 # 2));
  ("cheval", NaN)])) = true.
Proof. vm_compute. reflexivity. Qed.

Example conditional_std_0 :
  told (conditional_std to_root (ActArray [1; 0; 1]) (YVector [Fin (-1); Fin 0; Fin 2])) (same_metric (MNum
  (Fin (200555792 # 94542907)))) = true.
Proof. vm_compute. reflexivity. Qed.

Example conditional_std_1 :
  told (conditional_std to_root (ActArray [0; 0; 0]) (YVector [Fin (-1); Fin 0; Fin 2])) (same_metric (MNum
  NaN)) = true.
Proof. vm_compute. reflexivity. Qed.

Example conditional_std_2 :
  told (conditional_std to_root (ActFrame [("0", [1; 0; 1]); ("1", [1; 1; 0]); ("2", [0; 0; 0])]) (YVector
  [Fin (-1); Fin 0; Fin 2])) (same_metric (MSeries [("0", Fin (200555792 # 94542907)); ("1", Fin (72212889 #
  102124447)); ("2", NaN)])) = true.
Proof. vm_compute. reflexivity. Qed.

Example conditional_std_3 :
  told (conditional_std to_root (ActFrame [("chien", [1; 0; 1]); ("chat", [1; 1; 0]); ("cheval", [0; 0; 0])])
  (YVector [Fin (-1); Fin 0; Fin 2])) (same_metric (MSeries [("chien", Fin (200555792 # 94542907)); ("chat",
  Fin (72212889 # 102124447)); ("cheval", NaN)])) = true.
Proof. vm_compute. reflexivity. Qed.

Example mse_function_0 :
  told (mse_function (VSeries [Fin 2; NaN; Fin 2]) [Fin (-1); Fin 0; Fin 2]) (same_metric (MNum (Fin (9 #
  2)))) = true.
Proof. vm_compute. reflexivity. Qed.

Example mse_function_1 :
  told (mse_function (VSeries [NaN; NaN; NaN]) [Fin (-1); Fin 0; Fin 2]) (same_metric (MNum NaN)) = true.
Proof. vm_compute. reflexivity. Qed.

Example mse_function_2 :
  told (mse_function (VFrame 3 [("0", [Fin 2; NaN; Fin 2]); ("1", [Fin (-1); Fin (-1); NaN]); ("2", [NaN; NaN;
  NaN])]) [Fin (-1); Fin 0; Fin 2]) (same_metric (MSeries [("0", Fin (9 # 2)); ("1", Fin (1 # 2)); ("2",
  NaN)])) = true.
Proof. vm_compute. reflexivity. Qed.

Example mse_function_3 :
  told (mse_function (VFrame 3 [("chien", [Fin 2; NaN; Fin 2]); ("chat", [Fin (-1); Fin (-1); NaN]);
  ("cheval", [NaN; NaN; NaN])]) [Fin (-1); Fin 0; Fin 2]) (same_metric (MSeries [("chien", Fin (9 # 2));
  ("chat", Fin (1 # 2)); ("cheval", NaN)])) = true.
Proof. vm_compute. reflexivity. Qed.

Example calc_regression_criterion_mse_0 :
  told (calc_regression_criterion (VSeries [Fin 2; NaN; Fin 2]) [Fin (-1); Fin 0; Fin 2] (Some "mse"))
  (same_metric (MNum (Fin (9 # 2)))) = true.
Proof. vm_compute. reflexivity. Qed.

Example calc_regression_criterion_mse_1 :
  told (calc_regression_criterion (VSeries [NaN; NaN; NaN]) [Fin (-1); Fin 0; Fin 2] (Some "mse"))
  (same_metric (MNum NaN)) = true.
Proof. vm_compute. reflexivity. Qed.

Example calc_regression_criterion_mse_2 :
  told (calc_regression_criterion (VFrame 3 [("0", [Fin 2; NaN; Fin 2]); ("1", [Fin (-1); Fin (-1); NaN]);
  ("2", [NaN; NaN; NaN])]) [Fin (-1); Fin 0; Fin 2] (Some "mse")) (same_metric (MSeries [("0", Fin (9 # 2));
  ("1", Fin (1 # 2)); ("2", NaN)])) = true.
Proof. vm_compute. reflexivity. Qed.

Example calc_regression_criterion_mse_3 :
  told (calc_regression_criterion (VFrame 3 [("chien", [Fin 2; NaN; Fin 2]); ("chat", [Fin (-1); Fin (-1);
  NaN]); ("cheval", [NaN; NaN; NaN])]) [Fin (-1); Fin 0; Fin 2] (Some "mse")) (same_metric (MSeries [("chien",
  Fin (9 # 2)); ("chat", Fin (1 # 2)); ("cheval", NaN)])) = true.
Proof. vm_compute. reflexivity. Qed.

Example mae_function_0 :
  told (mae_function (VSeries [Fin 2; NaN; Fin 2]) [Fin (-1); Fin 0; Fin 2]) (same_metric (MNum (Fin (3 #
  2)))) = true.
Proof. vm_compute. reflexivity. Qed.

Example mae_function_1 :
  told (mae_function (VSeries [NaN; NaN; NaN]) [Fin (-1); Fin 0; Fin 2]) (same_metric (MNum NaN)) = true.
Proof. vm_compute. reflexivity. Qed.

Example mae_function_2 :
  told (mae_function (VFrame 3 [("0", [Fin 2; NaN; Fin 2]); ("1", [Fin (-1); Fin (-1); NaN]); ("2", [NaN; NaN;
  NaN])]) [Fin (-1); Fin 0; Fin 2]) (same_metric (MSeries [("0", Fin (3 # 2)); ("1", Fin (1 # 2)); ("2",
  NaN)])) = true.
Proof. vm_compute. reflexivity. Qed.

Example mae_function_3 :
  told (mae_function (VFrame 3 [("chien", [Fin 2; NaN; Fin 2]); ("chat", [Fin (-1); Fin (-1); NaN]);
  ("cheval", [NaN; NaN; NaN])]) [Fin (-1); Fin 0; Fin 2]) (same_metric (MSeries [("chien", Fin (3 # 2));
  ("chat", Fin (1 # 2)); ("cheval", NaN)])) = true.
Proof. vm_compute. reflexivity. Qed.

Example calc_regression_criterion_mae_0 :
  told (calc_regression_criterion (VSeries [Fin 2; NaN; Fin 2]) [Fin (-1); Fin 0; Fin 2] (Some "mae"))
  (same_metric (MNum (Fin (3 # 2)))) = true.
Proof. vm_compute. reflexivity. Qed.

Example calc_regression_criterion_mae_1 :
  told (calc_regression_criterion (VSeries [NaN; NaN; NaN]) [Fin (-1); Fin 0; Fin 2] (Some "mae"))
  (same_metric (MNum NaN)) = true.
Proof. vm_compute. reflexivity. Qed.

Example calc_regression_criterion_mae_2 :
  told (calc_regression_criterion (VFrame 3 [("0", [Fin 2; NaN; Fin 2]); ("1", [Fin (-1); Fin (-1); NaN]);
  ("2", [NaN; NaN; NaN])]) [Fin (-1); Fin 0; Fin 2] (Some "mae")) (same_metric (MSeries [("0", Fin (3 # 2));
  ("1", Fin (1 # 2)); ("2", NaN)])) = true.
Proof. vm_compute. reflexivity. Qed.

Example calc_regression_criterion_mae_3 :
  told (calc_regression_criterion (VFrame 3 [("chien", [Fin 2; NaN; Fin 2]); ("chat", [Fin (-1); Fin (-1);
  NaN]); ("cheval", [NaN; NaN; NaN])]) [Fin (-1); Fin 0; Fin 2] (Some "mae")) (same_metric (MSeries [("chien",
  Fin (3 # 2)); ("chat", Fin (1 # 2)); ("cheval", NaN)])) = true.
Proof. vm_compute. reflexivity. Qed.

Example aae_function_0 :
  told (aae_function (VSeries [Fin 2; NaN; Fin 2]) [Fin (-1); Fin 0; Fin 2]) (same_metric (MNum (Fin (3 #
  2)))) = true.
Proof. vm_compute. reflexivity. Qed.

Example aae_function_1 :
  told (aae_function (VSeries [NaN; NaN; NaN]) [Fin (-1); Fin 0; Fin 2]) (same_metric (MNum NaN)) = true.
Proof. vm_compute. reflexivity. Qed.

Example aae_function_2 :
  told (aae_function (VFrame 3 [("0", [Fin 2; NaN; Fin 2]); ("1", [Fin (-1); Fin (-1); NaN]); ("2", [NaN; NaN;
  NaN])]) [Fin (-1); Fin 0; Fin 2]) (same_metric (MSeries [("0", Fin (3 # 2)); ("1", Fin (1 # 2)); ("2",
  NaN)])) = true.
Proof. vm_compute. reflexivity. Qed.

Example aae_function_3 :
  told (aae_function (VFrame 3 [("chien", [Fin 2; NaN; Fin 2]); ("chat", [Fin (-1); Fin (-1); NaN]);
  ("cheval", [NaN; NaN; NaN])]) [Fin (-1); Fin 0; Fin 2]) (same_metric (MSeries [("chien", Fin (3 # 2));
  ("chat", Fin (1 # 2)); ("cheval", NaN)])) = true.
Proof. vm_compute. reflexivity. Qed.

Example calc_regression_criterion_aae_0 :
  told (calc_regression_criterion (VSeries [Fin 2; NaN; Fin 2]) [Fin (-1); Fin 0; Fin 2] (Some "aae"))
  (same_metric (MNum (Fin (3 # 2)))) = true.
Proof. vm_compute. reflexivity. Qed.

Example calc_regression_criterion_aae_1 :
  told (calc_regression_criterion (VSeries [NaN; NaN; NaN]) [Fin (-1); Fin 0; Fin 2] (Some "aae"))
  (same_metric (MNum NaN)) = true.
Proof. vm_compute. reflexivity. Qed.

Example calc_regression_criterion_aae_2 :
  told (calc_regression_criterion (VFrame 3 [("0", [Fin 2; NaN; Fin 2]); ("1", [Fin (-1); Fin (-1); NaN]);
  ("2", [NaN; NaN; NaN])]) [Fin (-1); Fin 0; Fin 2] (Some "aae")) (same_metric (MSeries [("0", Fin (3 # 2));
  ("1", Fin (1 # 2)); ("2", NaN)])) = true.
Proof. vm_compute. reflexivity. Qed.

Example calc_regression_criterion_aae_3 :
  told (calc_regression_criterion (VFrame 3 [("chien", [Fin 2; NaN; Fin 2]); ("chat", [Fin (-1); Fin (-1);
  NaN]); ("cheval", [NaN; NaN; NaN])]) [Fin (-1); Fin 0; Fin 2] (Some "aae")) (same_metric (MSeries [("chien",
  Fin (3 # 2)); ("chat", Fin (1 # 2)); ("cheval", NaN)])) = true.
Proof. vm_compute. reflexivity. Qed.

Example success_rate_0 :
  same_rate (RNum (Fin (1 # 4))) (success_rate_label (LNum (Fin 2)) [LNum (Fin 0); LNum (Fin 1); LNum (Fin 2);
  LNum (Fin 0)]) = true.
Proof. vm_compute. reflexivity. Qed.

Example success_rate_1 :
  same_rate (RNum (Fin (1 # 2))) (success_rate_label (LText "chien") [LText "chien"; LText "chien"; LText
  "cheval"; LText "chouette"]) = true.
Proof. vm_compute. reflexivity. Qed.

Example success_rate_2 :
  told (success_rate_columns [("0", LNum (Fin 2)); ("1", LNum (Fin 0))] [("0", [LNum (Fin 0); LNum (NaN); LNum
  (Fin 2); LNum (NaN)]); ("1", [LNum (Fin 0); LNum (NaN); LNum (Fin 2); LNum (Fin 0)])]) (same_rate (RSeries
  [("0", Fin (1 # 2)); ("1", Fin (2 # 3))])) = true.
Proof. vm_compute. reflexivity. Qed.

Example success_rate_3 :
  told (success_rate_columns [("0", LText "chien"); ("1", LText "chat")] [("0", [LText "chat"; LNum (NaN);
  LText "chien"; LNum (NaN)]); ("1", [LText "chat"; LNum (NaN); LText "chien"; LText "chat"])]) (same_rate
  (RSeries [("0", Fin (1 # 2)); ("1", Fin (2 # 3))])) = true.
Proof. vm_compute. reflexivity. Qed.

Example success_rate_4 :
  told (success_rate_columns [("a", LText "chien"); ("b", LText "chat")] [("a", [LText "chat"; LNum (NaN);
  LText "chien"; LNum (NaN)]); ("b", [LText "chat"; LNum (NaN); LText "chien"; LText "chat"])]) (same_rate
  (RSeries [("a", Fin (1 # 2)); ("b", Fin (2 # 3))])) = true.
Proof. vm_compute. reflexivity. Qed.

Example calc_classification_criterion_0 :
  told (calc_classification_criterion (ActArray [1; 0; 1; 0]) 4 (QLabel (LNum (Fin 2))) (YVector [LNum (Fin
  0); LNum (Fin 1); LNum (Fin 2); LNum (Fin 0)]) None) (same_rate (RNum (Fin (1 # 2)))) = true.
Proof. vm_compute. reflexivity. Qed.

Example calc_classification_criterion_1 :
  told (calc_classification_criterion (ActArray [1; 1; 0; 0]) 4 (QLabel (LText "chien")) (YVector [LText
  "chien"; LText "chien"; LText "cheval"; LText "chouette"]) None) (same_rate (RNum (Fin 1))) = true.
Proof. vm_compute. reflexivity. Qed.

Example calc_classification_criterion_2 :
  told (calc_classification_criterion (ActFrame [("0", [1; 0; 1; 0]); ("1", [1; 0; 1; 1])]) 4 (QByRule [("0",
  LNum (Fin 2)); ("1", LNum (Fin 0))]) (YVector [LNum (Fin 0); LNum (Fin 1); LNum (Fin 2); LNum (Fin 0)])
  None) (same_rate (RSeries [("0", Fin (1 # 2)); ("1", Fin (2 # 3))])) = true.
Proof. vm_compute. reflexivity. Qed.

Example calc_classification_criterion_3 :
  told (calc_classification_criterion (ActFrame [("0", [1; 0; 1; 0]); ("1", [0; 1; 1; 1])]) 4 (QByRule [("0",
  LText "chien"); ("1", LText "cheval")]) (YVector [LText "chien"; LText "chien"; LText "cheval"; LText
  "chouette"]) None) (same_rate (RSeries [("0", Fin (1 # 2)); ("1", Fin (1 # 3))])) = true.
Proof. vm_compute. reflexivity. Qed.

Example calc_classification_criterion_4 :
  told (calc_classification_criterion (ActFrame [("a", [1; 0; 1; 0]); ("b", [0; 1; 1; 1])]) 4 (QByRule [("a",
  LText "chien"); ("b", LText "cheval")]) (YVector [LText "chien"; LText "chien"; LText "cheval"; LText
  "chouette"]) None) (same_rate (RSeries [("a", Fin (1 # 2)); ("b", Fin (1 # 3))])) = true.
Proof. vm_compute. reflexivity. Qed.

Example ruleset_add_0 :
  told (rbind (made_cond (Some [AInt 0]) (Some [AInt 1]) (Some [AInt 2]) None) (fun c => new_rule plain_env
  KRule (CCond c) VNone)) (fun r => told (rbind (made_cond (Some [AInt 1]) (Some [AInt 4]) (Some [AInt 5])
  None) (fun c => new_rule plain_env KRule (CCond c) VNone)) (fun s => told (set_add r s) (fun both => told
  (new_set plain (Some [ERule r; ERule s]) true true) (fun t => told (set_eq binary both t) (fun b => b))))) =
  true.
Proof. vm_compute. reflexivity. Qed.

Example extract_rules_from_tree_0 :
  told (TreeModel.extract_rules_from_tree 1000 plain (TreeModel.mkArrays [1; 0; -2; -2; 0; -2; -2] [Fin
  (-1603512 # 426263465); Fin (3630770 # 586659809); Fin (-2); Fin (-2); Fin (993975 # 67108864); Fin (-2);
  Fin (-2)] [1; 2; -1; -1; 5; -1; -1] [4; 3; -1; -1; 6; -1; -1] [[Fin 1]; [Fin 2]; [Fin 3]; [Fin 4]; [Fin 5];
  [Fin 6]; [Fin 7]]) (TreeModel.mkRequest false 2 [Fin (-49067958 # 543536939); Fin (-114269776 # 906202579)]
  [Fin (118783364 # 696451037); Fin (80966101 # 606038317)] None None false true false)) (fun s => told (rbind
  (rseq (map (fun c => rbind c (fun c => new_rule plain_env KRule (CCond c) VNone)) [(made_cond (Some [AInt
  1]) (Some [AFloat (Fin (-114269776 # 906202579))]) (Some [AFloat (Fin (-1603512 # 426263465))]) None);
  (made_cond (Some [AInt 1; AInt 0]) (Some [AFloat (Fin (-114269776 # 906202579)); AFloat (Fin (-49067958 #
  543536939))]) (Some [AFloat (Fin (-1603512 # 426263465)); AFloat (Fin (3630770 # 586659809))]) None);
  (made_cond (Some [AInt 1; AInt 0]) (Some [AFloat (Fin (-114269776 # 906202579)); AFloat (Fin (3630770 #
  586659809))]) (Some [AFloat (Fin (-1603512 # 426263465)); AFloat (Fin (118783364 # 696451037))]) None);
  (made_cond (Some [AInt 1]) (Some [AFloat (Fin (-1603512 # 426263465))]) (Some [AFloat (Fin (80966101 #
  606038317))]) None); (made_cond (Some [AInt 1; AInt 0]) (Some [AFloat (Fin (-1603512 # 426263465)); AFloat
  (Fin (-49067958 # 543536939))]) (Some [AFloat (Fin (80966101 # 606038317)); AFloat (Fin (993975 #
  67108864))]) None); (made_cond (Some [AInt 1; AInt 0]) (Some [AFloat (Fin (-1603512 # 426263465)); AFloat
  (Fin (993975 # 67108864))]) (Some [AFloat (Fin (80966101 # 606038317)); AFloat (Fin (118783364 #
  696451037))]) None)])) (fun l => new_set plain (Some (map ERule l)) true true)) (fun t => told (set_eq
  binary s t) (fun b => b))) = true.
Proof. vm_compute. reflexivity. Qed.

Example extract_rules_from_tree_1 :
  told (TreeModel.extract_rules_from_tree 1000 plain (TreeModel.mkArrays [1; 0; -2; -2; 0; -2; -2] [Fin
  (-1603512 # 426263465); Fin (3630770 # 586659809); Fin (-2); Fin (-2); Fin (993975 # 67108864); Fin (-2);
  Fin (-2)] [1; 2; -1; -1; 5; -1; -1] [4; 3; -1; -1; 6; -1; -1] [[Fin 1]; [Fin 2]; [Fin 3]; [Fin 4]; [Fin 5];
  [Fin 6]; [Fin 7]]) (TreeModel.mkRequest false 2 [Fin (-49067958 # 543536939); Fin (-114269776 # 906202579)]
  [Fin (118783364 # 696451037); Fin (80966101 # 606038317)] None None true true false)) (fun s => told (rbind
  (rseq (map (fun c => rbind c (fun c => new_rule plain_env KRule (CCond c) VNone)) [(made_cond (Some [AInt 1;
  AInt 0]) (Some [AFloat (Fin (-114269776 # 906202579)); AFloat (Fin (-49067958 # 543536939))]) (Some [AFloat
  (Fin (-1603512 # 426263465)); AFloat (Fin (3630770 # 586659809))]) None); (made_cond (Some [AInt 1; AInt 0])
  (Some [AFloat (Fin (-114269776 # 906202579)); AFloat (Fin (3630770 # 586659809))]) (Some [AFloat (Fin
  (-1603512 # 426263465)); AFloat (Fin (118783364 # 696451037))]) None); (made_cond (Some [AInt 1; AInt 0])
  (Some [AFloat (Fin (-1603512 # 426263465)); AFloat (Fin (-49067958 # 543536939))]) (Some [AFloat (Fin
  (80966101 # 606038317)); AFloat (Fin (993975 # 67108864))]) None); (made_cond (Some [AInt 1; AInt 0]) (Some
  [AFloat (Fin (-1603512 # 426263465)); AFloat (Fin (993975 # 67108864))]) (Some [AFloat (Fin (80966101 #
  606038317)); AFloat (Fin (118783364 # 696451037))]) None)])) (fun l => new_set plain (Some (map ERule l))
  true true)) (fun t => told (set_eq binary s t) (fun b => b))) = true.
Proof. vm_compute. reflexivity. Qed.

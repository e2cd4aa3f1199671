(** The parametrised tests of the repository itself, tests/unit/test_ruleset.py and
    tests/unit/test_thresholds.py, run on the model: 44 cases.  They are tests and not
    proofs, and guard against a misreading of the code.  The expected values are those
    of the tests; numbers are compared up to 10^-6. *)
From Coq Require Import List ZArith QArith Bool String Ascii.
From Verif Require Import Base Num Arith CondModel CondWit ThrModel ThrWit MetModel MetWit RuleModel RuleSpec RuleWit
  PredModel PredWit SetModel SetWit FitModel FitWit.
Import ListNotations.
Open Scope string_scope.
Open Scope list_scope.
Open Scope Z_scope.

(** ** A square root and a printer of numbers, good enough for the data *)

Definition to_root (x : num) : num :=
  match x with
  | Fin q => if Qle_bool 0 q then Fin (Z.sqrt ((Qnum q * 1000000000000000000) / Zpos (Qden q)) # 1000000000) else NaN
  | PInf => PInf
  | _ => NaN
  end.

Definition decimal (z : Z) : string := DecimalString.NilZero.string_of_int (Z.to_int z).

Definition to_text (x : num) : string :=
  match x with
  | NaN => "nan" | MInf => "-inf" | PInf => "inf"
  | Fin q =>
      let r := Qred q in
      if (Qden r =? 1)%positive then decimal (Qnum r)
      else ("0." ++ decimal (Qnum r * 10000000000 / Zpos (Qden r)))%string
  end.

Definition setting (cs : classes) (stacked : bool) : setup :=
  mkSetup (mkEnv cs ex_lib to_root to_text (fun _ => Fin 1) false "index") binary quoted false stacked [] false.

(** tests/unit/data/thresholds.json *)
Definition limits : thresholds :=
  load (Some [("coverage", [("min", XNum (Fin (1 # 20)))]);
              ("prediction", [("max", XNum (Fin 3)); ("arg", XText "abs")]);
              ("criterion", [("min", XNum (Fin (3 # 10)))])]).

Definition limited : classes := mkClasses None (Some (Some limits)) (Some (Some limits)).

Definition made (k : kind) (idx : list Z) (mins maxs : list num) : res rule :=
  rbind (build "index" (Some (map AInt idx)) (Some (map AFloat mins)) (Some (map AFloat maxs)) None false true) (fun c =>
  new_rule (g_env (setting untouched false)) k (CCond c) VNone).

(** ** Comparisons *)

Definition near (x y : num) : bool :=
  match x, y with
  | NaN, NaN => true
  | Fin a, Fin b => Qle_bool (a - b) (1 # 1000000) && Qle_bool (b - a) (1 # 1000000)
  | _, _ => false
  end.

Definition near_label (x y : label) : bool :=
  match x, y with
  | LNum a, LNum b => near a b
  | LText a, LText b => String.eqb a b
  | LText a, LNum NaN => String.eqb a "nan"
  | _, _ => false
  end.

Fixpoint all2 {A B} (f : A -> B -> bool) (l : list A) (m : list B) : bool :=
  match l, m with
  | [], [] => true
  | a :: l, b :: m => f a b && all2 f l m
  | _, _ => false
  end.

Definition near_obj (o : obj) (x : label) : bool :=
  match o with
  | OVal (XNum a) => near_label (LNum a) x
  | OVal (XText a) => near_label (LText a) x
  | OVal XNone => near_label nan_label x
  | _ => false
  end.

Definition near_answer (a b : answer) : bool :=
  match a, b with
  | Numbers l, Numbers m => all2 near l m
  | Outcomes l, Outcomes m =>
      all2 (fun x y => match x, y with Class a, Class b => near_label a b | _, _ => false end) l m
  | _, _ => false
  end.

Definition told {A} (m : res A) (f : A -> bool) : bool := match m with Ok a => f a | Err _ => false end.

(** An expected Series; [None]: the test does not look. *)
Definition expected (name : string) (s : option (list (string * label))) (o : obj) : bool :=
  match s with
  | None => true
  | Some s => match find (fun e => String.eqb (fst e) name) s with Some e => near_obj o (snd e) | None => false end
  end.

Definition rule_agrees (covs preds crits zscores : option (list (string * label))) (r : rule) : bool :=
  match r_cond r with
  | None => false
  | Some c =>
      told (cond_str to_text c) (fun name =>
        told (RuleModel.coverage r) (expected name covs) && told (RuleModel.prediction r) (expected name preds) &&
        expected name crits (slot "_criterion" r) && expected name zscores (slot "_zscore" r))
  end.

Definition frame_agrees (columns : list (string * list Z)) (s : ruleset) : bool :=
  match s_stacked s with
  | Some f => all2 (fun x y => String.eqb (fst x) (fst y) && all2 Z.eqb (snd x) (snd y)) (f_columns f) columns
  | None => false
  end.

Definition vector_agrees (v : list Z) (s : ruleset) : bool :=
  told (set_vector s) (fun o => match o with Some w => all2 Z.eqb w v | None => false end).

(** ** The tests *)

(** test_unstacked_fit_regression and the three tests like it.  [expect]: None when
    eval must raise a ValueError. *)
Record expectation := expecting {
  x_coverage : num; x_act : list Z; x_stacked : list (string * list Z);
  x_covs : option (list (string * label)); x_preds : option (list (string * label));
  x_crits : option (list (string * label)); x_zscores : option (list (string * label));
  x_pred : answer; x_crit : num }.

Definition sized (o : obj) {A} (y : list A) : bool := near_obj o (LNum (numz (Z.of_nat (List.length y)))).

Definition fits_well (stacked : bool) (rules : list (res rule)) (y : list label) (xs : option table)
    (y_test : list label) (xs_test : option table) (weights : option weighting) (method : string)
    (expect : option expectation) : bool :=
  let G := setting untouched stacked in
  told (rseq rules) (fun rules =>
  told (new_set G (Some (map ERule rules)) true true) (fun s =>
  let (o, s) := set_fit G (YVector y) false xs false (mkKw false 1 None) s in
  told o (fun _ =>
  sized (s_train s) y &&
  let (o, s) := set_eval G (YVector y_test) xs_test false weights false (mkKw false 1 (Some method)) s in
  match expect with
  | None => match o with Err EValue => true | _ => false end
  | Some x =>
      told o (fun _ =>
      sized (s_test s) y_test &&
      told (ruleset_coverage s) (fun o => near_obj o (LNum (x_coverage x))) &&
      vector_agrees (x_act x) s && frame_agrees (x_stacked x) s &&
      forallb (rule_agrees (x_covs x) (x_preds x) (x_crits x) (x_zscores x)) (s_rules s) &&
      told (fst (set_predict G xs weights s)) (fun a => near_answer a (x_pred x)) &&
      near_obj (s_criterion s) (LNum (x_crit x)))
  end))).

(** test_thresholds_fit: fit and eval, then again with thresholds. *)
Definition limits_well (stacked : bool) (rules : list (res rule)) (y : list label) (xs : option table) (method : string)
    (cov : num) (act : list Z) (stack1 : list (string * list Z)) (covs1 preds1 crits1 : option (list (string * label)))
    (stack2 : list (string * list Z)) (covs2 preds2 crits2 : option (list (string * label))) : bool :=
  let G := setting untouched stacked in
  let L := setting limited stacked in
  told (rseq rules) (fun rules =>
  told (new_set G (Some (map ERule rules)) true true) (fun s =>
  let (o, s) := set_fit G (YVector y) false xs false (mkKw false 1 None) s in
  told o (fun _ =>
  let (o, s) := set_eval G (YVector y) xs false None false (mkKw false 1 (Some method)) s in
  told o (fun _ =>
  told (ruleset_coverage s) (fun o => near_obj o (LNum cov)) && vector_agrees act s && frame_agrees stack1 s &&
  forallb (rule_agrees covs1 preds1 crits1 None) (s_rules s) &&
  let (o, s) := set_fit L (YVector y) false xs false (mkKw false 1 None) s in
  told o (fun _ =>
  let (o, s) := set_eval L (YVector y) xs false None false (mkKw false 1 (Some method)) s in
  told o (fun _ => frame_agrees stack2 s && forallb (rule_agrees covs2 preds2 crits2 None) (s_rules s))))))).

Example unstacked_fit_regression_0 :
  fits_well false [made KRegression [0] [Fin 1] [Fin 2]; made KRegression [1] [Fin 4] [Fin 5]] [LNum (Fin 1); LNum
  (Fin 3); LNum (Fin 2); LNum (Fin 1)] (Some (TArray 2 [[Fin 5; Fin 3]; [Fin 3; Fin 4]; [Fin 2; NaN]; [Fin 2; Fin
  4]])) [LNum (Fin 1); LNum (Fin 3); LNum (Fin 2); LNum (Fin 1)] None None "mse" (Some (expecting (Fin (3 # 4)) [0;
  1; 1; 1] [("X_0 in [1, 2]", [0; 0; 1; 1]); ("X_1 in [4, 5]", [0; 1; 0; 1])] (Some [("X_0 in [1, 2]", LNum (Fin (1
  # 2))); ("X_1 in [4, 5]", LNum (Fin (1 # 2)))]) (Some [("X_0 in [1, 2]", LNum (Fin (3 # 2))); ("X_1 in [4, 5]",
  LNum (Fin 2))]) (Some [("X_0 in [1, 2]", LNum (Fin (1 # 4))); ("X_1 in [4, 5]", LNum (Fin 1))]) (Some
  [("X_0 in [1, 2]", LNum (Fin (6369051672525773 # 14936750169972328))); ("X_1 in [4, 5]", LNum (Fin
  (6369051672525773 # 14936750169972328)))]) (Numbers [NaN; Fin 2; Fin (3 # 2); Fin (7 # 4)]) (Fin (29 # 48)))) =
  true.
Proof. vm_compute. reflexivity. Qed.

Example unstacked_fit_regression_1 :
  fits_well false [made KRegression [0] [Fin 1] [Fin 2]; made KRegression [1] [Fin 4] [Fin 5]] [LNum (Fin 1); LNum
  (Fin 3); LNum (Fin 2); LNum (Fin 1)] (Some (TArray 2 [[Fin 5; Fin 3]; [Fin 3; Fin 4]; [Fin 2; NaN]; [Fin 2; Fin
  4]])) [LNum (Fin 1); LNum (Fin 3); LNum (Fin 2); LNum (Fin 1)] None (Some (WSeries [("X_0 in [1, 2]", Fin 1);
  ("X_1 in [4, 5]", Fin 0)])) "mse" (Some (expecting (Fin (3 # 4)) [0; 1; 1; 1] [("X_0 in [1, 2]", [0; 0; 1; 1]);
  ("X_1 in [4, 5]", [0; 1; 0; 1])] (Some [("X_0 in [1, 2]", LNum (Fin (1 # 2))); ("X_1 in [4, 5]", LNum (Fin (1 #
  2)))]) (Some [("X_0 in [1, 2]", LNum (Fin (3 # 2))); ("X_1 in [4, 5]", LNum (Fin 2))]) (Some [("X_0 in [1, 2]",
  LNum (Fin (1 # 4))); ("X_1 in [4, 5]", LNum (Fin 1))]) (Some [("X_0 in [1, 2]", LNum (Fin (6369051672525773 #
  14936750169972328))); ("X_1 in [4, 5]", LNum (Fin (6369051672525773 # 14936750169972328)))]) (Numbers [NaN; NaN;
  Fin (3 # 2); Fin (3 # 2)]) (Fin (1 # 4)))) = true.
Proof. vm_compute. reflexivity. Qed.

Example unstacked_fit_regression_2 :
  fits_well false [made KRegression [0] [Fin 1] [Fin 2]; made KRegression [1] [Fin 4] [Fin 5]] [LNum (Fin 1); LNum
  (Fin 3); LNum (Fin 2); LNum (Fin 1)] (Some (TArray 2 [[Fin 5; Fin 3]; [Fin 3; Fin 4]; [Fin 2; NaN]; [Fin 2; Fin
  4]])) [LNum (Fin 1); LNum (Fin 3); LNum (Fin 2); LNum (Fin 1)] None (Some (WSeries [("X_0 in [1, 2]", Fin 1)]))
  "mse" (Some (expecting (Fin (3 # 4)) [0; 1; 1; 1] [("X_0 in [1, 2]", [0; 0; 1; 1]); ("X_1 in [4, 5]", [0; 1; 0;
  1])] (Some [("X_0 in [1, 2]", LNum (Fin (1 # 2))); ("X_1 in [4, 5]", LNum (Fin (1 # 2)))]) (Some
  [("X_0 in [1, 2]", LNum (Fin (3 # 2))); ("X_1 in [4, 5]", LNum (Fin 2))]) (Some [("X_0 in [1, 2]", LNum (Fin (1 #
  4))); ("X_1 in [4, 5]", LNum (Fin 1))]) (Some [("X_0 in [1, 2]", LNum (Fin (6369051672525773 #
  14936750169972328))); ("X_1 in [4, 5]", LNum (Fin (6369051672525773 # 14936750169972328)))]) (Numbers [NaN; NaN;
  Fin (3 # 2); Fin (3 # 2)]) (Fin (1 # 4)))) = true.
Proof. vm_compute. reflexivity. Qed.

Example unstacked_fit_regression_3 :
  fits_well false [made KRegression [0] [Fin 1] [Fin 2]; made KRegression [1] [Fin 4] [Fin 5]] [LNum (Fin 1); LNum
  (Fin 3); LNum (Fin 2); LNum (Fin 1)] (Some (TArray 2 [[Fin 5; Fin 3]; [Fin 3; Fin 4]; [Fin 2; NaN]; [Fin 2; Fin
  4]])) [LNum (Fin 1); LNum (Fin 3); LNum (Fin 2); LNum (Fin 1)] None (Some (WSeries [("X_0 in [1, 2]", Fin (3 #
  4)); ("X_1 in [4, 5]", Fin 1)])) "mse" (Some (expecting (Fin (3 # 4)) [0; 1; 1; 1] [("X_0 in [1, 2]", [0; 0; 1;
  1]); ("X_1 in [4, 5]", [0; 1; 0; 1])] (Some [("X_0 in [1, 2]", LNum (Fin (1 # 2))); ("X_1 in [4, 5]", LNum (Fin (1
  # 2)))]) (Some [("X_0 in [1, 2]", LNum (Fin (3 # 2))); ("X_1 in [4, 5]", LNum (Fin 2))]) (Some [("X_0 in [1, 2]",
  LNum (Fin (1 # 4))); ("X_1 in [4, 5]", LNum (Fin 1))]) (Some [("X_0 in [1, 2]", LNum (Fin (6369051672525773 #
  14936750169972328))); ("X_1 in [4, 5]", LNum (Fin (6369051672525773 # 14936750169972328)))]) (Numbers [NaN; Fin 2;
  Fin (3 # 2); Fin (892857143 # 500000000)]) (Fin (194515306122449 # 312500000000000)))) = true.
Proof. vm_compute. reflexivity. Qed.

Example unstacked_fit_regression_4 :
  fits_well false [made KRegression [0] [Fin 1] [Fin 2]; made KRegression [1] [Fin 4] [Fin 5]] [LNum (Fin 1); LNum
  (Fin 3); LNum (Fin 2); LNum (Fin 1)] (Some (TArray 2 [[Fin 5; Fin 3]; [Fin 3; Fin 4]; [Fin 2; NaN]; [Fin 2; Fin
  4]])) [LNum (Fin 1); LNum (Fin 3); LNum (Fin 2); LNum (Fin 1)] None (Some (WName "criterion")) "mse" (Some
  (expecting (Fin (3 # 4)) [0; 1; 1; 1] [("X_0 in [1, 2]", [0; 0; 1; 1]); ("X_1 in [4, 5]", [0; 1; 0; 1])] (Some
  [("X_0 in [1, 2]", LNum (Fin (1 # 2))); ("X_1 in [4, 5]", LNum (Fin (1 # 2)))]) (Some [("X_0 in [1, 2]", LNum (Fin
  (3 # 2))); ("X_1 in [4, 5]", LNum (Fin 2))]) (Some [("X_0 in [1, 2]", LNum (Fin (1 # 4))); ("X_1 in [4, 5]", LNum
  (Fin 1))]) (Some [("X_0 in [1, 2]", LNum (Fin (6369051672525773 # 14936750169972328))); ("X_1 in [4, 5]", LNum
  (Fin (6369051672525773 # 14936750169972328)))]) (Numbers [NaN; Fin 2; Fin (3 # 2); Fin (19 # 10)]) (Fin (103 #
  150)))) = true.
Proof. vm_compute. reflexivity. Qed.

Example unstacked_fit_regression_5 :
  fits_well false [made KRegression [0] [Fin 1] [Fin 2]; made KRegression [1] [Fin 4] [Fin 5]] [LNum (Fin 1); LNum
  (Fin 3); LNum (Fin 2); LNum (Fin 1)] (Some (TArray 2 [[Fin 5; Fin 3]; [Fin 3; Fin 4]; [Fin 2; NaN]; [Fin 2; Fin
  4]])) [LNum (Fin 1); LNum (Fin 2)] (Some (TArray 2 [[Fin 1; Fin 2]; [NaN; Fin 3]])) None "mse" (Some (expecting
  (Fin (3 # 4)) [0; 1; 1; 1] [("X_0 in [1, 2]", [0; 0; 1; 1]); ("X_1 in [4, 5]", [0; 1; 0; 1])] (Some
  [("X_0 in [1, 2]", LNum (Fin (1 # 2))); ("X_1 in [4, 5]", LNum (Fin (1 # 2)))]) (Some [("X_0 in [1, 2]", LNum (Fin
  (3 # 2))); ("X_1 in [4, 5]", LNum (Fin 2))]) (Some [("X_0 in [1, 2]", LNum (Fin (1 # 4))); ("X_1 in [4, 5]", LNum
  NaN)]) (Some [("X_0 in [1, 2]", LNum (Fin (6369051672525773 # 14936750169972328))); ("X_1 in [4, 5]", LNum (Fin
  (6369051672525773 # 14936750169972328)))]) (Numbers [NaN; Fin 2; Fin (3 # 2); Fin (7 # 4)]) (Fin (1 # 4)))) =
  true.
Proof. vm_compute. reflexivity. Qed.

Example unstacked_fit_regression_6 :
  fits_well false [made KRegression [0] [Fin 1] [Fin 2]; made KRegression [1] [Fin 4] [Fin 5]] [LNum (Fin 1); LNum
  (Fin 3); LNum (Fin 2); LNum (Fin 1)] (Some (TArray 2 [[Fin 5; Fin 3]; [Fin 3; Fin 4]; [Fin 2; NaN]; [Fin 2; Fin
  4]])) [LNum (Fin 1); LNum (Fin 2)] (Some (TArray 2 [[Fin 1; Fin 2]; [NaN; Fin 3]])) (Some (WSeries
  [("X_0 in [1, 2]", Fin 1); ("X_1 in [4, 5]", Fin 0)])) "mse" (Some (expecting (Fin (3 # 4)) [0; 1; 1; 1]
  [("X_0 in [1, 2]", [0; 0; 1; 1]); ("X_1 in [4, 5]", [0; 1; 0; 1])] (Some [("X_0 in [1, 2]", LNum (Fin (1 # 2)));
  ("X_1 in [4, 5]", LNum (Fin (1 # 2)))]) (Some [("X_0 in [1, 2]", LNum (Fin (3 # 2))); ("X_1 in [4, 5]", LNum (Fin
  2))]) (Some [("X_0 in [1, 2]", LNum (Fin (1 # 4))); ("X_1 in [4, 5]", LNum NaN)]) (Some [("X_0 in [1, 2]", LNum
  (Fin (6369051672525773 # 14936750169972328))); ("X_1 in [4, 5]", LNum (Fin (6369051672525773 #
  14936750169972328)))]) (Numbers [NaN; NaN; Fin (3 # 2); Fin (3 # 2)]) (Fin (1 # 4)))) = true.
Proof. vm_compute. reflexivity. Qed.

Example unstacked_fit_regression_7 :
  fits_well false [made KRegression [0] [Fin 1] [Fin 2]; made KRegression [1] [Fin 4] [Fin 5]] [LNum (Fin 1); LNum
  (Fin 3); LNum (Fin 2); LNum (Fin 1)] (Some (TArray 2 [[Fin 5; Fin 3]; [Fin 3; Fin 4]; [Fin 2; NaN]; [Fin 2; Fin
  4]])) [LNum (Fin 1); LNum (Fin 2)] (Some (TArray 2 [[Fin 1; Fin 2]; [NaN; Fin 3]])) (Some (WSeries
  [("X_0 in [1, 2]", Fin 1)])) "mse" (Some (expecting (Fin (3 # 4)) [0; 1; 1; 1] [("X_0 in [1, 2]", [0; 0; 1; 1]);
  ("X_1 in [4, 5]", [0; 1; 0; 1])] (Some [("X_0 in [1, 2]", LNum (Fin (1 # 2))); ("X_1 in [4, 5]", LNum (Fin (1 #
  2)))]) (Some [("X_0 in [1, 2]", LNum (Fin (3 # 2))); ("X_1 in [4, 5]", LNum (Fin 2))]) (Some [("X_0 in [1, 2]",
  LNum (Fin (1 # 4))); ("X_1 in [4, 5]", LNum NaN)]) (Some [("X_0 in [1, 2]", LNum (Fin (6369051672525773 #
  14936750169972328))); ("X_1 in [4, 5]", LNum (Fin (6369051672525773 # 14936750169972328)))]) (Numbers [NaN; NaN;
  Fin (3 # 2); Fin (3 # 2)]) (Fin (1 # 4)))) = true.
Proof. vm_compute. reflexivity. Qed.

Example unstacked_fit_regression_8 :
  fits_well false [made KRegression [0] [Fin 1] [Fin 2]; made KRegression [1] [Fin 4] [Fin 5]] [LNum (Fin 1); LNum
  (Fin 3); LNum (Fin 2); LNum (Fin 1)] (Some (TArray 2 [[Fin 5; Fin 3]; [Fin 3; Fin 4]; [Fin 2; NaN]; [Fin 2; Fin
  4]])) [LNum (Fin 1); LNum (Fin 2)] (Some (TArray 2 [[Fin 1; Fin 2]; [NaN; Fin 3]])) (Some (WSeries
  [("X_0 in [1, 2]", Fin (3 # 4)); ("X_1 in [4, 5]", Fin 1)])) "mse" (Some (expecting (Fin (3 # 4)) [0; 1; 1; 1]
  [("X_0 in [1, 2]", [0; 0; 1; 1]); ("X_1 in [4, 5]", [0; 1; 0; 1])] (Some [("X_0 in [1, 2]", LNum (Fin (1 # 2)));
  ("X_1 in [4, 5]", LNum (Fin (1 # 2)))]) (Some [("X_0 in [1, 2]", LNum (Fin (3 # 2))); ("X_1 in [4, 5]", LNum (Fin
  2))]) (Some [("X_0 in [1, 2]", LNum (Fin (1 # 4))); ("X_1 in [4, 5]", LNum NaN)]) (Some [("X_0 in [1, 2]", LNum
  (Fin (6369051672525773 # 14936750169972328))); ("X_1 in [4, 5]", LNum (Fin (6369051672525773 #
  14936750169972328)))]) (Numbers [NaN; Fin 2; Fin (3 # 2); Fin (892857143 # 500000000)]) (Fin (1 # 4)))) = true.
Proof. vm_compute. reflexivity. Qed.

Example unstacked_fit_regression_9 :
  fits_well false [made KRegression [0] [Fin 1] [Fin 2]; made KRegression [1] [Fin 4] [Fin 5]] [LNum (Fin 1); LNum
  (Fin 3); LNum (Fin 2); LNum (Fin 1)] (Some (TArray 2 [[Fin 5; Fin 3]; [Fin 3; Fin 4]; [Fin 2; NaN]; [Fin 2; Fin
  4]])) [LNum (Fin 1); LNum (Fin 2)] (Some (TArray 2 [[Fin 1; Fin 2]; [NaN; Fin 3]])) (Some (WName "criterion"))
  "mse" (Some (expecting (Fin (3 # 4)) [0; 1; 1; 1] [("X_0 in [1, 2]", [0; 0; 1; 1]); ("X_1 in [4, 5]", [0; 1; 0;
  1])] (Some [("X_0 in [1, 2]", LNum (Fin (1 # 2))); ("X_1 in [4, 5]", LNum (Fin (1 # 2)))]) (Some
  [("X_0 in [1, 2]", LNum (Fin (3 # 2))); ("X_1 in [4, 5]", LNum (Fin 2))]) (Some [("X_0 in [1, 2]", LNum (Fin (1 #
  4))); ("X_1 in [4, 5]", LNum NaN)]) (Some [("X_0 in [1, 2]", LNum (Fin (6369051672525773 # 14936750169972328)));
  ("X_1 in [4, 5]", LNum (Fin (6369051672525773 # 14936750169972328)))]) (Numbers [NaN; NaN; Fin (3 # 2); Fin (3 #
  2)]) (Fin (1 # 4)))) = true.
Proof. vm_compute. reflexivity. Qed.

Example unstacked_fit_classification_0 :
  fits_well false [made KClassification [0] [Fin 1] [Fin 2]; made KClassification [1] [Fin 4] [Fin 6]; made
  KClassification [0; 1] [Fin 2; Fin 4] [Fin 3; Fin 5]] [LNum (Fin 1); LNum (Fin 3); LNum (Fin 2); LNum (Fin 2);
  LNum (Fin 3)] (Some (TArray 2 [[Fin 5; Fin 3]; [Fin 5; Fin 4]; [Fin 2; NaN]; [Fin 2; Fin 4]; [Fin 2; Fin 6]]))
  [LNum (Fin 1); LNum (Fin 3); LNum (Fin 2); LNum (Fin 2); LNum (Fin 3)] None None "success_rate" (Some (expecting
  (Fin (4 # 5)) [0; 1; 1; 1; 1] [("X_0 in [1, 2]", [0; 0; 1; 1; 1]); ("X_1 in [4, 6]", [0; 1; 0; 1; 1]);
  ("X_0 in [2, 3] AND X_1 in [4, 5]", [0; 0; 0; 1; 0])] (Some [("X_0 in [1, 2]", LNum (Fin (3 # 5)));
  ("X_1 in [4, 6]", LNum (Fin (3 # 5))); ("X_0 in [2, 3] AND X_1 in [4, 5]", LNum (Fin (1 # 5)))]) (Some
  [("X_0 in [1, 2]", LNum (Fin 2)); ("X_1 in [4, 6]", LNum (Fin 3)); ("X_0 in [2, 3] AND X_1 in [4, 5]", LNum (Fin
  2))]) (Some [("X_0 in [1, 2]", LNum (Fin (2 # 3))); ("X_1 in [4, 6]", LNum (Fin (2 # 3)));
  ("X_0 in [2, 3] AND X_1 in [4, 5]", LNum (Fin 1))]) None (Outcomes [Class (LNum NaN); Class (LNum (Fin 3)); Class
  (LNum (Fin 2)); Class (LNum (Fin 2)); Class (LNum NaN)]) (Fin 1))) = true.
Proof. vm_compute. reflexivity. Qed.

Example unstacked_fit_classification_1 :
  fits_well false [made KClassification [0] [Fin 1] [Fin 2]; made KClassification [1] [Fin 4] [Fin 6]; made
  KClassification [0; 1] [Fin 2; Fin 4] [Fin 3; Fin 5]] [LNum (Fin 1); LNum (Fin 3); LNum (Fin 2); LNum (Fin 2);
  LNum (Fin 3)] (Some (TArray 2 [[Fin 5; Fin 3]; [Fin 5; Fin 4]; [Fin 2; NaN]; [Fin 2; Fin 4]; [Fin 2; Fin 6]]))
  [LNum (Fin 1); LNum (Fin 3); LNum (Fin 2); LNum (Fin 2); LNum (Fin 3)] None (Some (WSeries [("X_0 in [1, 2]", Fin
  1); ("X_1 in [4, 6]", Fin 0); ("X_0 in [2, 3] AND X_1 in [4, 5]", Fin 1)])) "success_rate" (Some (expecting (Fin
  (4 # 5)) [0; 1; 1; 1; 1] [("X_0 in [1, 2]", [0; 0; 1; 1; 1]); ("X_1 in [4, 6]", [0; 1; 0; 1; 1]);
  ("X_0 in [2, 3] AND X_1 in [4, 5]", [0; 0; 0; 1; 0])] (Some [("X_0 in [1, 2]", LNum (Fin (3 # 5)));
  ("X_1 in [4, 6]", LNum (Fin (3 # 5))); ("X_0 in [2, 3] AND X_1 in [4, 5]", LNum (Fin (1 # 5)))]) (Some
  [("X_0 in [1, 2]", LNum (Fin 2)); ("X_1 in [4, 6]", LNum (Fin 3)); ("X_0 in [2, 3] AND X_1 in [4, 5]", LNum (Fin
  2))]) (Some [("X_0 in [1, 2]", LNum (Fin (2 # 3))); ("X_1 in [4, 6]", LNum (Fin (2 # 3)));
  ("X_0 in [2, 3] AND X_1 in [4, 5]", LNum (Fin 1))]) None (Outcomes [Class (LNum NaN); Class (LNum NaN); Class
  (LNum (Fin 2)); Class (LNum (Fin 2)); Class (LNum (Fin 2))]) (Fin (2 # 3)))) = true.
Proof. vm_compute. reflexivity. Qed.

Example unstacked_fit_classification_2 :
  fits_well false [made KClassification [0] [Fin 1] [Fin 2]; made KClassification [1] [Fin 4] [Fin 6]; made
  KClassification [0; 1] [Fin 2; Fin 4] [Fin 3; Fin 5]] [LNum (Fin 1); LNum (Fin 3); LNum (Fin 2); LNum (Fin 2);
  LNum (Fin 3)] (Some (TArray 2 [[Fin 5; Fin 3]; [Fin 5; Fin 4]; [Fin 2; NaN]; [Fin 2; Fin 4]; [Fin 2; Fin 6]]))
  [LNum (Fin 1); LNum (Fin 3); LNum (Fin 2); LNum (Fin 2); LNum (Fin 3)] None (Some (WSeries [("X_1 in [4, 6]", Fin
  (1 # 2)); ("X_0 in [2, 3] AND X_1 in [4, 5]", Fin 1)])) "success_rate" (Some (expecting (Fin (4 # 5)) [0; 1; 1; 1;
  1] [("X_0 in [1, 2]", [0; 0; 1; 1; 1]); ("X_1 in [4, 6]", [0; 1; 0; 1; 1]); ("X_0 in [2, 3] AND X_1 in [4, 5]",
  [0; 0; 0; 1; 0])] (Some [("X_0 in [1, 2]", LNum (Fin (3 # 5))); ("X_1 in [4, 6]", LNum (Fin (3 # 5)));
  ("X_0 in [2, 3] AND X_1 in [4, 5]", LNum (Fin (1 # 5)))]) (Some [("X_0 in [1, 2]", LNum (Fin 2));
  ("X_1 in [4, 6]", LNum (Fin 3)); ("X_0 in [2, 3] AND X_1 in [4, 5]", LNum (Fin 2))]) (Some [("X_0 in [1, 2]", LNum
  (Fin (2 # 3))); ("X_1 in [4, 6]", LNum (Fin (2 # 3))); ("X_0 in [2, 3] AND X_1 in [4, 5]", LNum (Fin 1))]) None
  (Outcomes [Class (LNum NaN); Class (LNum (Fin 3)); Class (LNum NaN); Class (LNum (Fin 2)); Class (LNum (Fin 3))])
  (Fin 1))) = true.
Proof. vm_compute. reflexivity. Qed.

Example unstacked_fit_classification_3 :
  fits_well false [made KClassification [0] [Fin 1] [Fin 2]; made KClassification [1] [Fin 4] [Fin 6]; made
  KClassification [0; 1] [Fin 2; Fin 4] [Fin 3; Fin 5]] [LNum (Fin 1); LNum (Fin 3); LNum (Fin 2); LNum (Fin 2);
  LNum (Fin 3)] (Some (TArray 2 [[Fin 5; Fin 3]; [Fin 5; Fin 4]; [Fin 2; NaN]; [Fin 2; Fin 4]; [Fin 2; Fin 6]]))
  [LNum (Fin 1); LNum (Fin 3); LNum (Fin 2); LNum (Fin 2); LNum (Fin 3)] None (Some (WName "criterion"))
  "success_rate" (Some (expecting (Fin (4 # 5)) [0; 1; 1; 1; 1] [("X_0 in [1, 2]", [0; 0; 1; 1; 1]);
  ("X_1 in [4, 6]", [0; 1; 0; 1; 1]); ("X_0 in [2, 3] AND X_1 in [4, 5]", [0; 0; 0; 1; 0])] (Some [("X_0 in [1, 2]",
  LNum (Fin (3 # 5))); ("X_1 in [4, 6]", LNum (Fin (3 # 5))); ("X_0 in [2, 3] AND X_1 in [4, 5]", LNum (Fin (1 #
  5)))]) (Some [("X_0 in [1, 2]", LNum (Fin 2)); ("X_1 in [4, 6]", LNum (Fin 3));
  ("X_0 in [2, 3] AND X_1 in [4, 5]", LNum (Fin 2))]) (Some [("X_0 in [1, 2]", LNum (Fin (2 # 3)));
  ("X_1 in [4, 6]", LNum (Fin (2 # 3))); ("X_0 in [2, 3] AND X_1 in [4, 5]", LNum (Fin 1))]) None (Outcomes [Class
  (LNum NaN); Class (LNum (Fin 3)); Class (LNum (Fin 2)); Class (LNum (Fin 2)); Class (LNum NaN)]) (Fin 1))) = true.
Proof. vm_compute. reflexivity. Qed.

Example unstacked_fit_classification_4 :
  fits_well false [made KClassification [0] [Fin 1] [Fin 2]; made KClassification [1] [Fin 4] [Fin 6]; made
  KClassification [0; 1] [Fin 2; Fin 4] [Fin 3; Fin 5]] [LText "a"; LText "c"; LText "b"; LText "b"; LText "c"]
  (Some (TArray 2 [[Fin 5; Fin 3]; [Fin 5; Fin 4]; [Fin 2; NaN]; [Fin 2; Fin 4]; [Fin 2; Fin 6]])) [LText "a"; LText
  "c"; LText "b"; LText "b"; LText "c"] None (Some (WName "criterion")) "success_rate" (Some (expecting (Fin (4 #
  5)) [0; 1; 1; 1; 1] [("X_0 in [1, 2]", [0; 0; 1; 1; 1]); ("X_1 in [4, 6]", [0; 1; 0; 1; 1]);
  ("X_0 in [2, 3] AND X_1 in [4, 5]", [0; 0; 0; 1; 0])] (Some [("X_0 in [1, 2]", LNum (Fin (3 # 5)));
  ("X_1 in [4, 6]", LNum (Fin (3 # 5))); ("X_0 in [2, 3] AND X_1 in [4, 5]", LNum (Fin (1 # 5)))]) (Some
  [("X_0 in [1, 2]", LText "b"); ("X_1 in [4, 6]", LText "c"); ("X_0 in [2, 3] AND X_1 in [4, 5]", LText "b")])
  (Some [("X_0 in [1, 2]", LNum (Fin (2 # 3))); ("X_1 in [4, 6]", LNum (Fin (2 # 3)));
  ("X_0 in [2, 3] AND X_1 in [4, 5]", LNum (Fin 1))]) None (Outcomes [Class (LNum NaN); Class (LText "c"); Class
  (LText "b"); Class (LText "b"); Class (LNum NaN)]) (Fin 1))) = true.
Proof. vm_compute. reflexivity. Qed.

Example unstacked_fit_classification_5 :
  fits_well false [made KClassification [0] [Fin 1] [Fin 2]; made KClassification [1] [Fin 4] [Fin 6]; made
  KClassification [0; 1] [Fin 2; Fin 4] [Fin 3; Fin 5]] [LNum (Fin 1); LNum (Fin 3); LNum (Fin 2); LNum (Fin 2);
  LNum (Fin 3)] (Some (TArray 2 [[Fin 5; Fin 3]; [Fin 5; Fin 4]; [Fin 2; NaN]; [Fin 2; Fin 4]; [Fin 2; Fin 6]]))
  [LNum (Fin 1); LNum (Fin 2)] (Some (TArray 2 [[Fin 1; Fin 2]; [NaN; Fin 3]])) None "success_rate" (Some (expecting
  (Fin (4 # 5)) [0; 1; 1; 1; 1] [("X_0 in [1, 2]", [0; 0; 1; 1; 1]); ("X_1 in [4, 6]", [0; 1; 0; 1; 1]);
  ("X_0 in [2, 3] AND X_1 in [4, 5]", [0; 0; 0; 1; 0])] (Some [("X_0 in [1, 2]", LNum (Fin (3 # 5)));
  ("X_1 in [4, 6]", LNum (Fin (3 # 5))); ("X_0 in [2, 3] AND X_1 in [4, 5]", LNum (Fin (1 # 5)))]) (Some
  [("X_0 in [1, 2]", LNum (Fin 2)); ("X_1 in [4, 6]", LNum (Fin 3)); ("X_0 in [2, 3] AND X_1 in [4, 5]", LNum (Fin
  2))]) (Some [("X_0 in [1, 2]", LNum (Fin 0)); ("X_1 in [4, 6]", LNum NaN); ("X_0 in [2, 3] AND X_1 in [4, 5]",
  LNum NaN)]) None (Outcomes [Class (LNum NaN); Class (LNum (Fin 3)); Class (LNum (Fin 2)); Class (LNum (Fin 2));
  Class (LNum NaN)]) (Fin 0))) = true.
Proof. vm_compute. reflexivity. Qed.

Example unstacked_fit_classification_6 :
  fits_well false [made KClassification [0] [Fin 1] [Fin 2]; made KClassification [1] [Fin 4] [Fin 6]; made
  KClassification [0; 1] [Fin 2; Fin 4] [Fin 3; Fin 5]] [LNum (Fin 1); LNum (Fin 3); LNum (Fin 2); LNum (Fin 2);
  LNum (Fin 3)] (Some (TArray 2 [[Fin 5; Fin 3]; [Fin 5; Fin 4]; [Fin 2; NaN]; [Fin 2; Fin 4]; [Fin 2; Fin 6]]))
  [LNum (Fin 1); LNum (Fin 2)] (Some (TArray 2 [[Fin 1; Fin 2]; [NaN; Fin 3]])) (Some (WSeries [("X_0 in [1, 2]",
  Fin 1); ("X_1 in [4, 6]", Fin 0); ("X_0 in [2, 3] AND X_1 in [4, 5]", Fin 1)])) "success_rate" (Some (expecting
  (Fin (4 # 5)) [0; 1; 1; 1; 1] [("X_0 in [1, 2]", [0; 0; 1; 1; 1]); ("X_1 in [4, 6]", [0; 1; 0; 1; 1]);
  ("X_0 in [2, 3] AND X_1 in [4, 5]", [0; 0; 0; 1; 0])] (Some [("X_0 in [1, 2]", LNum (Fin (3 # 5)));
  ("X_1 in [4, 6]", LNum (Fin (3 # 5))); ("X_0 in [2, 3] AND X_1 in [4, 5]", LNum (Fin (1 # 5)))]) (Some
  [("X_0 in [1, 2]", LNum (Fin 2)); ("X_1 in [4, 6]", LNum (Fin 3)); ("X_0 in [2, 3] AND X_1 in [4, 5]", LNum (Fin
  2))]) (Some [("X_0 in [1, 2]", LNum (Fin 0)); ("X_1 in [4, 6]", LNum NaN); ("X_0 in [2, 3] AND X_1 in [4, 5]",
  LNum NaN)]) None (Outcomes [Class (LNum NaN); Class (LNum NaN); Class (LNum (Fin 2)); Class (LNum (Fin 2)); Class
  (LNum (Fin 2))]) (Fin 0))) = true.
Proof. vm_compute. reflexivity. Qed.

Example unstacked_fit_classification_7 :
  fits_well false [made KClassification [0] [Fin 1] [Fin 2]; made KClassification [1] [Fin 4] [Fin 6]; made
  KClassification [0; 1] [Fin 2; Fin 4] [Fin 3; Fin 5]] [LNum (Fin 1); LNum (Fin 3); LNum (Fin 2); LNum (Fin 2);
  LNum (Fin 3)] (Some (TArray 2 [[Fin 5; Fin 3]; [Fin 5; Fin 4]; [Fin 2; NaN]; [Fin 2; Fin 4]; [Fin 2; Fin 6]]))
  [LNum (Fin 1); LNum (Fin 2)] (Some (TArray 2 [[Fin 1; Fin 2]; [NaN; Fin 3]])) (Some (WSeries [("X_1 in [4, 6]",
  Fin (1 # 2)); ("X_0 in [2, 3] AND X_1 in [4, 5]", Fin 1)])) "success_rate" None = true.
Proof. vm_compute. reflexivity. Qed.

Example unstacked_fit_classification_8 :
  fits_well false [made KClassification [0] [Fin 1] [Fin 2]; made KClassification [1] [Fin 4] [Fin 6]; made
  KClassification [0; 1] [Fin 2; Fin 4] [Fin 3; Fin 5]] [LNum (Fin 1); LNum (Fin 3); LNum (Fin 2); LNum (Fin 2);
  LNum (Fin 3)] (Some (TArray 2 [[Fin 5; Fin 3]; [Fin 5; Fin 4]; [Fin 2; NaN]; [Fin 2; Fin 4]; [Fin 2; Fin 6]]))
  [LNum (Fin 1); LNum (Fin 2)] (Some (TArray 2 [[Fin 1; Fin 2]; [NaN; Fin 3]])) (Some (WName "criterion"))
  "success_rate" None = true.
Proof. vm_compute. reflexivity. Qed.

Example unstacked_fit_classification_9 :
  fits_well false [made KClassification [0] [Fin 1] [Fin 2]; made KClassification [1] [Fin 4] [Fin 6]; made
  KClassification [0; 1] [Fin 2; Fin 4] [Fin 3; Fin 5]] [LText "a"; LText "c"; LText "b"; LText "b"; LText "c"]
  (Some (TArray 2 [[Fin 5; Fin 3]; [Fin 5; Fin 4]; [Fin 2; NaN]; [Fin 2; Fin 4]; [Fin 2; Fin 6]])) [LText "a"; LText
  "b"] (Some (TArray 2 [[Fin 1; Fin 2]; [NaN; Fin 3]])) (Some (WName "criterion")) "success_rate" None = true.
Proof. vm_compute. reflexivity. Qed.

Example stacked_fit_regression_0 :
  fits_well true [made KRegression [0] [Fin 1] [Fin 2]; made KRegression [1] [Fin 4] [Fin 5]] [LNum (Fin 1); LNum
  (Fin 3); LNum (Fin 2); LNum (Fin 1)] (Some (TArray 2 [[Fin 5; Fin 3]; [Fin 3; Fin 4]; [Fin 2; NaN]; [Fin 2; Fin
  4]])) [LNum (Fin 1); LNum (Fin 3); LNum (Fin 2); LNum (Fin 1)] None None "mse" (Some (expecting (Fin (3 # 4)) [0;
  1; 1; 1] [("X_0 in [1, 2]", [0; 0; 1; 1]); ("X_1 in [4, 5]", [0; 1; 0; 1])] (Some [("X_0 in [1, 2]", LNum (Fin (1
  # 2))); ("X_1 in [4, 5]", LNum (Fin (1 # 2)))]) (Some [("X_0 in [1, 2]", LNum (Fin (3 # 2))); ("X_1 in [4, 5]",
  LNum (Fin 2))]) (Some [("X_0 in [1, 2]", LNum (Fin (1 # 4))); ("X_1 in [4, 5]", LNum (Fin 1))]) (Some
  [("X_0 in [1, 2]", LNum (Fin (6369051672525773 # 14936750169972328))); ("X_1 in [4, 5]", LNum (Fin
  (6369051672525773 # 14936750169972328)))]) (Numbers [NaN; Fin 2; Fin (3 # 2); Fin (7 # 4)]) (Fin (29 # 48)))) =
  true.
Proof. vm_compute. reflexivity. Qed.

Example stacked_fit_regression_1 :
  fits_well true [made KRegression [0] [Fin 1] [Fin 2]; made KRegression [1] [Fin 4] [Fin 5]] [LNum (Fin 1); LNum
  (Fin 3); LNum (Fin 2); LNum (Fin 1)] (Some (TArray 2 [[Fin 5; Fin 3]; [Fin 3; Fin 4]; [Fin 2; NaN]; [Fin 2; Fin
  4]])) [LNum (Fin 1); LNum (Fin 3); LNum (Fin 2); LNum (Fin 1)] None (Some (WSeries [("X_0 in [1, 2]", Fin 1);
  ("X_1 in [4, 5]", Fin 0)])) "mse" (Some (expecting (Fin (3 # 4)) [0; 1; 1; 1] [("X_0 in [1, 2]", [0; 0; 1; 1]);
  ("X_1 in [4, 5]", [0; 1; 0; 1])] (Some [("X_0 in [1, 2]", LNum (Fin (1 # 2))); ("X_1 in [4, 5]", LNum (Fin (1 #
  2)))]) (Some [("X_0 in [1, 2]", LNum (Fin (3 # 2))); ("X_1 in [4, 5]", LNum (Fin 2))]) (Some [("X_0 in [1, 2]",
  LNum (Fin (1 # 4))); ("X_1 in [4, 5]", LNum (Fin 1))]) (Some [("X_0 in [1, 2]", LNum (Fin (6369051672525773 #
  14936750169972328))); ("X_1 in [4, 5]", LNum (Fin (6369051672525773 # 14936750169972328)))]) (Numbers [NaN; NaN;
  Fin (3 # 2); Fin (3 # 2)]) (Fin (1 # 4)))) = true.
Proof. vm_compute. reflexivity. Qed.

Example stacked_fit_regression_2 :
  fits_well true [made KRegression [0] [Fin 1] [Fin 2]; made KRegression [1] [Fin 4] [Fin 5]] [LNum (Fin 1); LNum
  (Fin 3); LNum (Fin 2); LNum (Fin 1)] (Some (TArray 2 [[Fin 5; Fin 3]; [Fin 3; Fin 4]; [Fin 2; NaN]; [Fin 2; Fin
  4]])) [LNum (Fin 1); LNum (Fin 3); LNum (Fin 2); LNum (Fin 1)] None (Some (WSeries [("X_0 in [1, 2]", Fin 1)]))
  "mse" (Some (expecting (Fin (3 # 4)) [0; 1; 1; 1] [("X_0 in [1, 2]", [0; 0; 1; 1]); ("X_1 in [4, 5]", [0; 1; 0;
  1])] (Some [("X_0 in [1, 2]", LNum (Fin (1 # 2))); ("X_1 in [4, 5]", LNum (Fin (1 # 2)))]) (Some
  [("X_0 in [1, 2]", LNum (Fin (3 # 2))); ("X_1 in [4, 5]", LNum (Fin 2))]) (Some [("X_0 in [1, 2]", LNum (Fin (1 #
  4))); ("X_1 in [4, 5]", LNum (Fin 1))]) (Some [("X_0 in [1, 2]", LNum (Fin (6369051672525773 #
  14936750169972328))); ("X_1 in [4, 5]", LNum (Fin (6369051672525773 # 14936750169972328)))]) (Numbers [NaN; NaN;
  Fin (3 # 2); Fin (3 # 2)]) (Fin (1 # 4)))) = true.
Proof. vm_compute. reflexivity. Qed.

Example stacked_fit_regression_3 :
  fits_well true [made KRegression [0] [Fin 1] [Fin 2]; made KRegression [1] [Fin 4] [Fin 5]] [LNum (Fin 1); LNum
  (Fin 3); LNum (Fin 2); LNum (Fin 1)] (Some (TArray 2 [[Fin 5; Fin 3]; [Fin 3; Fin 4]; [Fin 2; NaN]; [Fin 2; Fin
  4]])) [LNum (Fin 1); LNum (Fin 3); LNum (Fin 2); LNum (Fin 1)] None (Some (WSeries [("X_0 in [1, 2]", Fin (3 #
  4)); ("X_1 in [4, 5]", Fin 1)])) "mse" (Some (expecting (Fin (3 # 4)) [0; 1; 1; 1] [("X_0 in [1, 2]", [0; 0; 1;
  1]); ("X_1 in [4, 5]", [0; 1; 0; 1])] (Some [("X_0 in [1, 2]", LNum (Fin (1 # 2))); ("X_1 in [4, 5]", LNum (Fin (1
  # 2)))]) (Some [("X_0 in [1, 2]", LNum (Fin (3 # 2))); ("X_1 in [4, 5]", LNum (Fin 2))]) (Some [("X_0 in [1, 2]",
  LNum (Fin (1 # 4))); ("X_1 in [4, 5]", LNum (Fin 1))]) (Some [("X_0 in [1, 2]", LNum (Fin (6369051672525773 #
  14936750169972328))); ("X_1 in [4, 5]", LNum (Fin (6369051672525773 # 14936750169972328)))]) (Numbers [NaN; Fin 2;
  Fin (3 # 2); Fin (892857143 # 500000000)]) (Fin (194515306122449 # 312500000000000)))) = true.
Proof. vm_compute. reflexivity. Qed.

Example stacked_fit_regression_4 :
  fits_well true [made KRegression [0] [Fin 1] [Fin 2]; made KRegression [1] [Fin 4] [Fin 5]] [LNum (Fin 1); LNum
  (Fin 3); LNum (Fin 2); LNum (Fin 1)] (Some (TArray 2 [[Fin 5; Fin 3]; [Fin 3; Fin 4]; [Fin 2; NaN]; [Fin 2; Fin
  4]])) [LNum (Fin 1); LNum (Fin 3); LNum (Fin 2); LNum (Fin 1)] None (Some (WName "criterion")) "mse" (Some
  (expecting (Fin (3 # 4)) [0; 1; 1; 1] [("X_0 in [1, 2]", [0; 0; 1; 1]); ("X_1 in [4, 5]", [0; 1; 0; 1])] (Some
  [("X_0 in [1, 2]", LNum (Fin (1 # 2))); ("X_1 in [4, 5]", LNum (Fin (1 # 2)))]) (Some [("X_0 in [1, 2]", LNum (Fin
  (3 # 2))); ("X_1 in [4, 5]", LNum (Fin 2))]) (Some [("X_0 in [1, 2]", LNum (Fin (1 # 4))); ("X_1 in [4, 5]", LNum
  (Fin 1))]) (Some [("X_0 in [1, 2]", LNum (Fin (6369051672525773 # 14936750169972328))); ("X_1 in [4, 5]", LNum
  (Fin (6369051672525773 # 14936750169972328)))]) (Numbers [NaN; Fin 2; Fin (3 # 2); Fin (19 # 10)]) (Fin (103 #
  150)))) = true.
Proof. vm_compute. reflexivity. Qed.

Example stacked_fit_regression_5 :
  fits_well true [made KRegression [0] [Fin 1] [Fin 2]; made KRegression [1] [Fin 4] [Fin 5]] [LNum (Fin 1); LNum
  (Fin 3); LNum (Fin 2); LNum (Fin 1)] (Some (TArray 2 [[Fin 5; Fin 3]; [Fin 3; Fin 4]; [Fin 2; NaN]; [Fin 2; Fin
  4]])) [LNum (Fin 1); LNum (Fin 2)] (Some (TArray 2 [[Fin 1; Fin 2]; [NaN; Fin 3]])) None "mse" (Some (expecting
  (Fin (3 # 4)) [0; 1; 1; 1] [("X_0 in [1, 2]", [0; 0; 1; 1]); ("X_1 in [4, 5]", [0; 1; 0; 1])] (Some
  [("X_0 in [1, 2]", LNum (Fin (1 # 2))); ("X_1 in [4, 5]", LNum (Fin (1 # 2)))]) (Some [("X_0 in [1, 2]", LNum (Fin
  (3 # 2))); ("X_1 in [4, 5]", LNum (Fin 2))]) (Some [("X_0 in [1, 2]", LNum (Fin (1 # 4))); ("X_1 in [4, 5]", LNum
  NaN)]) (Some [("X_0 in [1, 2]", LNum (Fin (6369051672525773 # 14936750169972328))); ("X_1 in [4, 5]", LNum (Fin
  (6369051672525773 # 14936750169972328)))]) (Numbers [NaN; Fin 2; Fin (3 # 2); Fin (7 # 4)]) (Fin (1 # 4)))) =
  true.
Proof. vm_compute. reflexivity. Qed.

Example stacked_fit_regression_6 :
  fits_well true [made KRegression [0] [Fin 1] [Fin 2]; made KRegression [1] [Fin 4] [Fin 5]] [LNum (Fin 1); LNum
  (Fin 3); LNum (Fin 2); LNum (Fin 1)] (Some (TArray 2 [[Fin 5; Fin 3]; [Fin 3; Fin 4]; [Fin 2; NaN]; [Fin 2; Fin
  4]])) [LNum (Fin 1); LNum (Fin 2)] (Some (TArray 2 [[Fin 1; Fin 2]; [NaN; Fin 3]])) (Some (WSeries
  [("X_0 in [1, 2]", Fin 1); ("X_1 in [4, 5]", Fin 0)])) "mse" (Some (expecting (Fin (3 # 4)) [0; 1; 1; 1]
  [("X_0 in [1, 2]", [0; 0; 1; 1]); ("X_1 in [4, 5]", [0; 1; 0; 1])] (Some [("X_0 in [1, 2]", LNum (Fin (1 # 2)));
  ("X_1 in [4, 5]", LNum (Fin (1 # 2)))]) (Some [("X_0 in [1, 2]", LNum (Fin (3 # 2))); ("X_1 in [4, 5]", LNum (Fin
  2))]) (Some [("X_0 in [1, 2]", LNum (Fin (1 # 4))); ("X_1 in [4, 5]", LNum NaN)]) (Some [("X_0 in [1, 2]", LNum
  (Fin (6369051672525773 # 14936750169972328))); ("X_1 in [4, 5]", LNum (Fin (6369051672525773 #
  14936750169972328)))]) (Numbers [NaN; NaN; Fin (3 # 2); Fin (3 # 2)]) (Fin (1 # 4)))) = true.
Proof. vm_compute. reflexivity. Qed.

Example stacked_fit_regression_7 :
  fits_well true [made KRegression [0] [Fin 1] [Fin 2]; made KRegression [1] [Fin 4] [Fin 5]] [LNum (Fin 1); LNum
  (Fin 3); LNum (Fin 2); LNum (Fin 1)] (Some (TArray 2 [[Fin 5; Fin 3]; [Fin 3; Fin 4]; [Fin 2; NaN]; [Fin 2; Fin
  4]])) [LNum (Fin 1); LNum (Fin 2)] (Some (TArray 2 [[Fin 1; Fin 2]; [NaN; Fin 3]])) (Some (WSeries
  [("X_0 in [1, 2]", Fin 1)])) "mse" (Some (expecting (Fin (3 # 4)) [0; 1; 1; 1] [("X_0 in [1, 2]", [0; 0; 1; 1]);
  ("X_1 in [4, 5]", [0; 1; 0; 1])] (Some [("X_0 in [1, 2]", LNum (Fin (1 # 2))); ("X_1 in [4, 5]", LNum (Fin (1 #
  2)))]) (Some [("X_0 in [1, 2]", LNum (Fin (3 # 2))); ("X_1 in [4, 5]", LNum (Fin 2))]) (Some [("X_0 in [1, 2]",
  LNum (Fin (1 # 4))); ("X_1 in [4, 5]", LNum NaN)]) (Some [("X_0 in [1, 2]", LNum (Fin (6369051672525773 #
  14936750169972328))); ("X_1 in [4, 5]", LNum (Fin (6369051672525773 # 14936750169972328)))]) (Numbers [NaN; NaN;
  Fin (3 # 2); Fin (3 # 2)]) (Fin (1 # 4)))) = true.
Proof. vm_compute. reflexivity. Qed.

Example stacked_fit_regression_8 :
  fits_well true [made KRegression [0] [Fin 1] [Fin 2]; made KRegression [1] [Fin 4] [Fin 5]] [LNum (Fin 1); LNum
  (Fin 3); LNum (Fin 2); LNum (Fin 1)] (Some (TArray 2 [[Fin 5; Fin 3]; [Fin 3; Fin 4]; [Fin 2; NaN]; [Fin 2; Fin
  4]])) [LNum (Fin 1); LNum (Fin 2)] (Some (TArray 2 [[Fin 1; Fin 2]; [NaN; Fin 3]])) (Some (WSeries
  [("X_0 in [1, 2]", Fin (3 # 4)); ("X_1 in [4, 5]", Fin 1)])) "mse" (Some (expecting (Fin (3 # 4)) [0; 1; 1; 1]
  [("X_0 in [1, 2]", [0; 0; 1; 1]); ("X_1 in [4, 5]", [0; 1; 0; 1])] (Some [("X_0 in [1, 2]", LNum (Fin (1 # 2)));
  ("X_1 in [4, 5]", LNum (Fin (1 # 2)))]) (Some [("X_0 in [1, 2]", LNum (Fin (3 # 2))); ("X_1 in [4, 5]", LNum (Fin
  2))]) (Some [("X_0 in [1, 2]", LNum (Fin (1 # 4))); ("X_1 in [4, 5]", LNum NaN)]) (Some [("X_0 in [1, 2]", LNum
  (Fin (6369051672525773 # 14936750169972328))); ("X_1 in [4, 5]", LNum (Fin (6369051672525773 #
  14936750169972328)))]) (Numbers [NaN; Fin 2; Fin (3 # 2); Fin (892857143 # 500000000)]) (Fin (1 # 4)))) = true.
Proof. vm_compute. reflexivity. Qed.

Example stacked_fit_regression_9 :
  fits_well true [made KRegression [0] [Fin 1] [Fin 2]; made KRegression [1] [Fin 4] [Fin 5]] [LNum (Fin 1); LNum
  (Fin 3); LNum (Fin 2); LNum (Fin 1)] (Some (TArray 2 [[Fin 5; Fin 3]; [Fin 3; Fin 4]; [Fin 2; NaN]; [Fin 2; Fin
  4]])) [LNum (Fin 1); LNum (Fin 2)] (Some (TArray 2 [[Fin 1; Fin 2]; [NaN; Fin 3]])) (Some (WName "criterion"))
  "mse" (Some (expecting (Fin (3 # 4)) [0; 1; 1; 1] [("X_0 in [1, 2]", [0; 0; 1; 1]); ("X_1 in [4, 5]", [0; 1; 0;
  1])] (Some [("X_0 in [1, 2]", LNum (Fin (1 # 2))); ("X_1 in [4, 5]", LNum (Fin (1 # 2)))]) (Some
  [("X_0 in [1, 2]", LNum (Fin (3 # 2))); ("X_1 in [4, 5]", LNum (Fin 2))]) (Some [("X_0 in [1, 2]", LNum (Fin (1 #
  4))); ("X_1 in [4, 5]", LNum NaN)]) (Some [("X_0 in [1, 2]", LNum (Fin (6369051672525773 # 14936750169972328)));
  ("X_1 in [4, 5]", LNum (Fin (6369051672525773 # 14936750169972328)))]) (Numbers [NaN; NaN; Fin (3 # 2); Fin (3 #
  2)]) (Fin (1 # 4)))) = true.
Proof. vm_compute. reflexivity. Qed.

Example stacked_fit_classification_0 :
  fits_well true [made KClassification [0] [Fin 1] [Fin 2]; made KClassification [1] [Fin 4] [Fin 6]; made
  KClassification [0; 1] [Fin 2; Fin 4] [Fin 3; Fin 5]] [LNum (Fin 1); LNum (Fin 3); LNum (Fin 2); LNum (Fin 2);
  LNum (Fin 3)] (Some (TArray 2 [[Fin 5; Fin 3]; [Fin 5; Fin 4]; [Fin 2; NaN]; [Fin 2; Fin 4]; [Fin 2; Fin 6]]))
  [LNum (Fin 1); LNum (Fin 3); LNum (Fin 2); LNum (Fin 2); LNum (Fin 3)] None None "success_rate" (Some (expecting
  (Fin (4 # 5)) [0; 1; 1; 1; 1] [("X_0 in [1, 2]", [0; 0; 1; 1; 1]); ("X_1 in [4, 6]", [0; 1; 0; 1; 1]);
  ("X_0 in [2, 3] AND X_1 in [4, 5]", [0; 0; 0; 1; 0])] (Some [("X_0 in [1, 2]", LNum (Fin (3 # 5)));
  ("X_1 in [4, 6]", LNum (Fin (3 # 5))); ("X_0 in [2, 3] AND X_1 in [4, 5]", LNum (Fin (1 # 5)))]) (Some
  [("X_0 in [1, 2]", LNum (Fin 2)); ("X_1 in [4, 6]", LNum (Fin 3)); ("X_0 in [2, 3] AND X_1 in [4, 5]", LNum (Fin
  2))]) (Some [("X_0 in [1, 2]", LNum (Fin (2 # 3))); ("X_1 in [4, 6]", LNum (Fin (2 # 3)));
  ("X_0 in [2, 3] AND X_1 in [4, 5]", LNum (Fin 1))]) None (Outcomes [Class (LNum NaN); Class (LNum (Fin 3)); Class
  (LNum (Fin 2)); Class (LNum (Fin 2)); Class (LNum NaN)]) (Fin 1))) = true.
Proof. vm_compute. reflexivity. Qed.

Example stacked_fit_classification_1 :
  fits_well true [made KClassification [0] [Fin 1] [Fin 2]; made KClassification [1] [Fin 4] [Fin 6]; made
  KClassification [0; 1] [Fin 2; Fin 4] [Fin 3; Fin 5]] [LNum (Fin 1); LNum (Fin 3); LNum (Fin 2); LNum (Fin 2);
  LNum (Fin 3)] (Some (TArray 2 [[Fin 5; Fin 3]; [Fin 5; Fin 4]; [Fin 2; NaN]; [Fin 2; Fin 4]; [Fin 2; Fin 6]]))
  [LNum (Fin 1); LNum (Fin 3); LNum (Fin 2); LNum (Fin 2); LNum (Fin 3)] None (Some (WSeries [("X_0 in [1, 2]", Fin
  1); ("X_1 in [4, 6]", Fin 0); ("X_0 in [2, 3] AND X_1 in [4, 5]", Fin 1)])) "success_rate" (Some (expecting (Fin
  (4 # 5)) [0; 1; 1; 1; 1] [("X_0 in [1, 2]", [0; 0; 1; 1; 1]); ("X_1 in [4, 6]", [0; 1; 0; 1; 1]);
  ("X_0 in [2, 3] AND X_1 in [4, 5]", [0; 0; 0; 1; 0])] (Some [("X_0 in [1, 2]", LNum (Fin (3 # 5)));
  ("X_1 in [4, 6]", LNum (Fin (3 # 5))); ("X_0 in [2, 3] AND X_1 in [4, 5]", LNum (Fin (1 # 5)))]) (Some
  [("X_0 in [1, 2]", LNum (Fin 2)); ("X_1 in [4, 6]", LNum (Fin 3)); ("X_0 in [2, 3] AND X_1 in [4, 5]", LNum (Fin
  2))]) (Some [("X_0 in [1, 2]", LNum (Fin (2 # 3))); ("X_1 in [4, 6]", LNum (Fin (2 # 3)));
  ("X_0 in [2, 3] AND X_1 in [4, 5]", LNum (Fin 1))]) None (Outcomes [Class (LNum NaN); Class (LNum NaN); Class
  (LNum (Fin 2)); Class (LNum (Fin 2)); Class (LNum (Fin 2))]) (Fin (2 # 3)))) = true.
Proof. vm_compute. reflexivity. Qed.

Example stacked_fit_classification_2 :
  fits_well true [made KClassification [0] [Fin 1] [Fin 2]; made KClassification [1] [Fin 4] [Fin 6]; made
  KClassification [0; 1] [Fin 2; Fin 4] [Fin 3; Fin 5]] [LNum (Fin 1); LNum (Fin 3); LNum (Fin 2); LNum (Fin 2);
  LNum (Fin 3)] (Some (TArray 2 [[Fin 5; Fin 3]; [Fin 5; Fin 4]; [Fin 2; NaN]; [Fin 2; Fin 4]; [Fin 2; Fin 6]]))
  [LNum (Fin 1); LNum (Fin 3); LNum (Fin 2); LNum (Fin 2); LNum (Fin 3)] None (Some (WSeries [("X_1 in [4, 6]", Fin
  (1 # 2)); ("X_0 in [2, 3] AND X_1 in [4, 5]", Fin 1)])) "success_rate" (Some (expecting (Fin (4 # 5)) [0; 1; 1; 1;
  1] [("X_0 in [1, 2]", [0; 0; 1; 1; 1]); ("X_1 in [4, 6]", [0; 1; 0; 1; 1]); ("X_0 in [2, 3] AND X_1 in [4, 5]",
  [0; 0; 0; 1; 0])] (Some [("X_0 in [1, 2]", LNum (Fin (3 # 5))); ("X_1 in [4, 6]", LNum (Fin (3 # 5)));
  ("X_0 in [2, 3] AND X_1 in [4, 5]", LNum (Fin (1 # 5)))]) (Some [("X_0 in [1, 2]", LNum (Fin 2));
  ("X_1 in [4, 6]", LNum (Fin 3)); ("X_0 in [2, 3] AND X_1 in [4, 5]", LNum (Fin 2))]) (Some [("X_0 in [1, 2]", LNum
  (Fin (2 # 3))); ("X_1 in [4, 6]", LNum (Fin (2 # 3))); ("X_0 in [2, 3] AND X_1 in [4, 5]", LNum (Fin 1))]) None
  (Outcomes [Class (LNum NaN); Class (LNum (Fin 3)); Class (LNum NaN); Class (LNum (Fin 2)); Class (LNum (Fin 3))])
  (Fin 1))) = true.
Proof. vm_compute. reflexivity. Qed.

Example stacked_fit_classification_3 :
  fits_well true [made KClassification [0] [Fin 1] [Fin 2]; made KClassification [1] [Fin 4] [Fin 6]; made
  KClassification [0; 1] [Fin 2; Fin 4] [Fin 3; Fin 5]] [LNum (Fin 1); LNum (Fin 3); LNum (Fin 2); LNum (Fin 2);
  LNum (Fin 3)] (Some (TArray 2 [[Fin 5; Fin 3]; [Fin 5; Fin 4]; [Fin 2; NaN]; [Fin 2; Fin 4]; [Fin 2; Fin 6]]))
  [LNum (Fin 1); LNum (Fin 3); LNum (Fin 2); LNum (Fin 2); LNum (Fin 3)] None (Some (WName "criterion"))
  "success_rate" (Some (expecting (Fin (4 # 5)) [0; 1; 1; 1; 1] [("X_0 in [1, 2]", [0; 0; 1; 1; 1]);
  ("X_1 in [4, 6]", [0; 1; 0; 1; 1]); ("X_0 in [2, 3] AND X_1 in [4, 5]", [0; 0; 0; 1; 0])] (Some [("X_0 in [1, 2]",
  LNum (Fin (3 # 5))); ("X_1 in [4, 6]", LNum (Fin (3 # 5))); ("X_0 in [2, 3] AND X_1 in [4, 5]", LNum (Fin (1 #
  5)))]) (Some [("X_0 in [1, 2]", LNum (Fin 2)); ("X_1 in [4, 6]", LNum (Fin 3));
  ("X_0 in [2, 3] AND X_1 in [4, 5]", LNum (Fin 2))]) (Some [("X_0 in [1, 2]", LNum (Fin (2 # 3)));
  ("X_1 in [4, 6]", LNum (Fin (2 # 3))); ("X_0 in [2, 3] AND X_1 in [4, 5]", LNum (Fin 1))]) None (Outcomes [Class
  (LNum NaN); Class (LNum (Fin 3)); Class (LNum (Fin 2)); Class (LNum (Fin 2)); Class (LNum NaN)]) (Fin 1))) = true.
Proof. vm_compute. reflexivity. Qed.

Example stacked_fit_classification_4 :
  fits_well true [made KClassification [0] [Fin 1] [Fin 2]; made KClassification [1] [Fin 4] [Fin 6]; made
  KClassification [0; 1] [Fin 2; Fin 4] [Fin 3; Fin 5]] [LText "a"; LText "c"; LText "b"; LText "b"; LText "c"]
  (Some (TArray 2 [[Fin 5; Fin 3]; [Fin 5; Fin 4]; [Fin 2; NaN]; [Fin 2; Fin 4]; [Fin 2; Fin 6]])) [LText "a"; LText
  "c"; LText "b"; LText "b"; LText "c"] None (Some (WName "criterion")) "success_rate" (Some (expecting (Fin (4 #
  5)) [0; 1; 1; 1; 1] [("X_0 in [1, 2]", [0; 0; 1; 1; 1]); ("X_1 in [4, 6]", [0; 1; 0; 1; 1]);
  ("X_0 in [2, 3] AND X_1 in [4, 5]", [0; 0; 0; 1; 0])] (Some [("X_0 in [1, 2]", LNum (Fin (3 # 5)));
  ("X_1 in [4, 6]", LNum (Fin (3 # 5))); ("X_0 in [2, 3] AND X_1 in [4, 5]", LNum (Fin (1 # 5)))]) (Some
  [("X_0 in [1, 2]", LText "b"); ("X_1 in [4, 6]", LText "c"); ("X_0 in [2, 3] AND X_1 in [4, 5]", LText "b")])
  (Some [("X_0 in [1, 2]", LNum (Fin (2 # 3))); ("X_1 in [4, 6]", LNum (Fin (2 # 3)));
  ("X_0 in [2, 3] AND X_1 in [4, 5]", LNum (Fin 1))]) None (Outcomes [Class (LNum NaN); Class (LText "c"); Class
  (LText "b"); Class (LText "b"); Class (LNum NaN)]) (Fin 1))) = true.
Proof. vm_compute. reflexivity. Qed.

Example stacked_fit_classification_5 :
  fits_well true [made KClassification [0] [Fin 1] [Fin 2]; made KClassification [1] [Fin 4] [Fin 6]; made
  KClassification [0; 1] [Fin 2; Fin 4] [Fin 3; Fin 5]] [LNum (Fin 1); LNum (Fin 3); LNum (Fin 2); LNum (Fin 2);
  LNum (Fin 3)] (Some (TArray 2 [[Fin 5; Fin 3]; [Fin 5; Fin 4]; [Fin 2; NaN]; [Fin 2; Fin 4]; [Fin 2; Fin 6]]))
  [LNum (Fin 1); LNum (Fin 2)] (Some (TArray 2 [[Fin 1; Fin 2]; [NaN; Fin 3]])) None "success_rate" (Some (expecting
  (Fin (4 # 5)) [0; 1; 1; 1; 1] [("X_0 in [1, 2]", [0; 0; 1; 1; 1]); ("X_1 in [4, 6]", [0; 1; 0; 1; 1]);
  ("X_0 in [2, 3] AND X_1 in [4, 5]", [0; 0; 0; 1; 0])] (Some [("X_0 in [1, 2]", LNum (Fin (3 # 5)));
  ("X_1 in [4, 6]", LNum (Fin (3 # 5))); ("X_0 in [2, 3] AND X_1 in [4, 5]", LNum (Fin (1 # 5)))]) (Some
  [("X_0 in [1, 2]", LNum (Fin 2)); ("X_1 in [4, 6]", LNum (Fin 3)); ("X_0 in [2, 3] AND X_1 in [4, 5]", LNum (Fin
  2))]) (Some [("X_0 in [1, 2]", LNum (Fin 0)); ("X_1 in [4, 6]", LNum NaN); ("X_0 in [2, 3] AND X_1 in [4, 5]",
  LNum NaN)]) None (Outcomes [Class (LNum NaN); Class (LNum (Fin 3)); Class (LNum (Fin 2)); Class (LNum (Fin 2));
  Class (LNum NaN)]) (Fin 0))) = true.
Proof. vm_compute. reflexivity. Qed.

Example stacked_fit_classification_6 :
  fits_well true [made KClassification [0] [Fin 1] [Fin 2]; made KClassification [1] [Fin 4] [Fin 6]; made
  KClassification [0; 1] [Fin 2; Fin 4] [Fin 3; Fin 5]] [LNum (Fin 1); LNum (Fin 3); LNum (Fin 2); LNum (Fin 2);
  LNum (Fin 3)] (Some (TArray 2 [[Fin 5; Fin 3]; [Fin 5; Fin 4]; [Fin 2; NaN]; [Fin 2; Fin 4]; [Fin 2; Fin 6]]))
  [LNum (Fin 1); LNum (Fin 2)] (Some (TArray 2 [[Fin 1; Fin 2]; [NaN; Fin 3]])) (Some (WSeries [("X_0 in [1, 2]",
  Fin 1); ("X_1 in [4, 6]", Fin 0); ("X_0 in [2, 3] AND X_1 in [4, 5]", Fin 1)])) "success_rate" (Some (expecting
  (Fin (4 # 5)) [0; 1; 1; 1; 1] [("X_0 in [1, 2]", [0; 0; 1; 1; 1]); ("X_1 in [4, 6]", [0; 1; 0; 1; 1]);
  ("X_0 in [2, 3] AND X_1 in [4, 5]", [0; 0; 0; 1; 0])] (Some [("X_0 in [1, 2]", LNum (Fin (3 # 5)));
  ("X_1 in [4, 6]", LNum (Fin (3 # 5))); ("X_0 in [2, 3] AND X_1 in [4, 5]", LNum (Fin (1 # 5)))]) (Some
  [("X_0 in [1, 2]", LNum (Fin 2)); ("X_1 in [4, 6]", LNum (Fin 3)); ("X_0 in [2, 3] AND X_1 in [4, 5]", LNum (Fin
  2))]) (Some [("X_0 in [1, 2]", LNum (Fin 0)); ("X_1 in [4, 6]", LNum NaN); ("X_0 in [2, 3] AND X_1 in [4, 5]",
  LNum NaN)]) None (Outcomes [Class (LNum NaN); Class (LNum NaN); Class (LNum (Fin 2)); Class (LNum (Fin 2)); Class
  (LNum (Fin 2))]) (Fin 0))) = true.
Proof. vm_compute. reflexivity. Qed.

Example stacked_fit_classification_7 :
  fits_well true [made KClassification [0] [Fin 1] [Fin 2]; made KClassification [1] [Fin 4] [Fin 6]; made
  KClassification [0; 1] [Fin 2; Fin 4] [Fin 3; Fin 5]] [LNum (Fin 1); LNum (Fin 3); LNum (Fin 2); LNum (Fin 2);
  LNum (Fin 3)] (Some (TArray 2 [[Fin 5; Fin 3]; [Fin 5; Fin 4]; [Fin 2; NaN]; [Fin 2; Fin 4]; [Fin 2; Fin 6]]))
  [LNum (Fin 1); LNum (Fin 2)] (Some (TArray 2 [[Fin 1; Fin 2]; [NaN; Fin 3]])) (Some (WSeries [("X_1 in [4, 6]",
  Fin (1 # 2)); ("X_0 in [2, 3] AND X_1 in [4, 5]", Fin 1)])) "success_rate" None = true.
Proof. vm_compute. reflexivity. Qed.

Example stacked_fit_classification_8 :
  fits_well true [made KClassification [0] [Fin 1] [Fin 2]; made KClassification [1] [Fin 4] [Fin 6]; made
  KClassification [0; 1] [Fin 2; Fin 4] [Fin 3; Fin 5]] [LNum (Fin 1); LNum (Fin 3); LNum (Fin 2); LNum (Fin 2);
  LNum (Fin 3)] (Some (TArray 2 [[Fin 5; Fin 3]; [Fin 5; Fin 4]; [Fin 2; NaN]; [Fin 2; Fin 4]; [Fin 2; Fin 6]]))
  [LNum (Fin 1); LNum (Fin 2)] (Some (TArray 2 [[Fin 1; Fin 2]; [NaN; Fin 3]])) (Some (WName "criterion"))
  "success_rate" None = true.
Proof. vm_compute. reflexivity. Qed.

Example stacked_fit_classification_9 :
  fits_well true [made KClassification [0] [Fin 1] [Fin 2]; made KClassification [1] [Fin 4] [Fin 6]; made
  KClassification [0; 1] [Fin 2; Fin 4] [Fin 3; Fin 5]] [LText "a"; LText "c"; LText "b"; LText "b"; LText "c"]
  (Some (TArray 2 [[Fin 5; Fin 3]; [Fin 5; Fin 4]; [Fin 2; NaN]; [Fin 2; Fin 4]; [Fin 2; Fin 6]])) [LText "a"; LText
  "b"] (Some (TArray 2 [[Fin 1; Fin 2]; [NaN; Fin 3]])) (Some (WName "criterion")) "success_rate" None = true.
Proof. vm_compute. reflexivity. Qed.

Example thresholds_fit_0 :
  limits_well true [made KRegression [0] [Fin 1] [Fin 2]; made KRegression [1] [Fin 4] [Fin 5]; made KRegression [1]
  [Fin 0] [Fin 3]; made KRegression [0] [Fin 2] [Fin 5]; made KRegression [0; 1] [Fin 2; Fin 0] [Fin 5; Fin 3]]
  [LNum (Fin (-4 # 1)); LNum (Fin 3); LNum (Fin 2); LNum (Fin 1)] (Some (TArray 2 [[Fin 5; Fin 3]; [Fin 3; Fin 4];
  [Fin 2; NaN]; [Fin 2; Fin 4]])) "mse" (Fin 1) [1; 1; 1; 1] [("X_0 in [1, 2]", [0; 0; 1; 1]); ("X_1 in [4, 5]", [0;
  1; 0; 1]); ("X_1 in [0, 3]", [1; 0; 0; 0]); ("X_0 in [2, 5]", [1; 1; 1; 1]); ("X_0 in [2, 5] AND X_1 in [0, 3]",
  [1; 0; 0; 0])] (Some [("X_0 in [1, 2]", LNum (Fin (1 # 2))); ("X_1 in [4, 5]", LNum (Fin (1 # 2)));
  ("X_1 in [0, 3]", LNum (Fin (1 # 4))); ("X_0 in [2, 5]", LNum (Fin 1)); ("X_0 in [2, 5] AND X_1 in [0, 3]", LNum
  (Fin (1 # 4)))]) (Some [("X_0 in [1, 2]", LNum (Fin (3 # 2))); ("X_1 in [4, 5]", LNum (Fin 2)); ("X_1 in [0, 3]",
  LNum (Fin (-4 # 1))); ("X_0 in [2, 5]", LNum (Fin (1 # 2))); ("X_0 in [2, 5] AND X_1 in [0, 3]", LNum (Fin (-4 #
  1)))]) (Some [("X_0 in [1, 2]", LNum (Fin (1 # 4))); ("X_1 in [4, 5]", LNum (Fin 1)); ("X_1 in [0, 3]", LNum (Fin
  0)); ("X_0 in [2, 5]", LNum (Fin (29 # 4))); ("X_0 in [2, 5] AND X_1 in [0, 3]", LNum (Fin 0))])
  [("X_1 in [4, 5]", [0; 1; 0; 1]); ("X_0 in [2, 5]", [1; 1; 1; 1])] (Some [("X_1 in [4, 5]", LNum (Fin (1 # 2)));
  ("X_0 in [2, 5]", LNum (Fin 1))]) (Some [("X_1 in [4, 5]", LNum (Fin 2)); ("X_0 in [2, 5]", LNum (Fin (1 # 2)))])
  (Some [("X_1 in [4, 5]", LNum (Fin 1)); ("X_0 in [2, 5]", LNum (Fin (29 # 4)))]) = true.
Proof. vm_compute. reflexivity. Qed.

Example thresholds_fit_1 :
  limits_well true [made KClassification [0] [Fin 1] [Fin 2]; made KClassification [1] [Fin 4] [Fin 5]; made
  KClassification [1] [Fin 0] [Fin 3]; made KClassification [0] [Fin 2] [Fin 5]; made KClassification [0; 1] [Fin 2;
  Fin 0] [Fin 5; Fin 3]] [LNum (Fin (-4 # 1)); LNum (Fin 3); LNum (Fin 2); LNum (Fin 1)] (Some (TArray 2 [[Fin 5;
  Fin 3]; [Fin 3; Fin 4]; [Fin 2; NaN]; [Fin 2; Fin 4]])) "success_rate" (Fin 1) [1; 1; 1; 1] [("X_0 in [1, 2]", [0;
  0; 1; 1]); ("X_1 in [4, 5]", [0; 1; 0; 1]); ("X_1 in [0, 3]", [1; 0; 0; 0]); ("X_0 in [2, 5]", [1; 1; 1; 1]);
  ("X_0 in [2, 5] AND X_1 in [0, 3]", [1; 0; 0; 0])] (Some [("X_0 in [1, 2]", LNum (Fin (1 # 2))); ("X_1 in [4, 5]",
  LNum (Fin (1 # 2))); ("X_1 in [0, 3]", LNum (Fin (1 # 4))); ("X_0 in [2, 5]", LNum (Fin 1));
  ("X_0 in [2, 5] AND X_1 in [0, 3]", LNum (Fin (1 # 4)))]) (Some [("X_0 in [1, 2]", LNum (Fin 1));
  ("X_1 in [4, 5]", LNum (Fin 1)); ("X_1 in [0, 3]", LNum (Fin (-4 # 1))); ("X_0 in [2, 5]", LNum (Fin (-4 # 1)));
  ("X_0 in [2, 5] AND X_1 in [0, 3]", LNum (Fin (-4 # 1)))]) (Some [("X_0 in [1, 2]", LNum (Fin (1 # 2)));
  ("X_1 in [4, 5]", LNum (Fin (1 # 2))); ("X_1 in [0, 3]", LNum (Fin 1)); ("X_0 in [2, 5]", LNum (Fin (1 # 4)));
  ("X_0 in [2, 5] AND X_1 in [0, 3]", LNum (Fin 1))]) [("X_0 in [1, 2]", [0; 0; 1; 1]); ("X_1 in [4, 5]", [0; 1; 0;
  1])] (Some [("X_0 in [1, 2]", LNum (Fin (1 # 2))); ("X_1 in [4, 5]", LNum (Fin (1 # 2)))]) (Some
  [("X_0 in [1, 2]", LNum (Fin 1)); ("X_1 in [4, 5]", LNum (Fin 1))]) (Some [("X_0 in [1, 2]", LNum (Fin (1 # 2)));
  ("X_1 in [4, 5]", LNum (Fin (1 # 2)))]) = true.
Proof. vm_compute. reflexivity. Qed.

Example thresholds_fit_2 :
  limits_well false [made KRegression [0] [Fin 1] [Fin 2]; made KRegression [1] [Fin 4] [Fin 5]; made KRegression
  [1] [Fin 0] [Fin 3]; made KRegression [0] [Fin 2] [Fin 5]; made KRegression [0; 1] [Fin 2; Fin 0] [Fin 5; Fin 3]]
  [LNum (Fin (-4 # 1)); LNum (Fin 3); LNum (Fin 2); LNum (Fin 1)] (Some (TArray 2 [[Fin 5; Fin 3]; [Fin 3; Fin 4];
  [Fin 2; NaN]; [Fin 2; Fin 4]])) "mse" (Fin 1) [1; 1; 1; 1] [("X_0 in [1, 2]", [0; 0; 1; 1]); ("X_1 in [4, 5]", [0;
  1; 0; 1]); ("X_1 in [0, 3]", [1; 0; 0; 0]); ("X_0 in [2, 5]", [1; 1; 1; 1]); ("X_0 in [2, 5] AND X_1 in [0, 3]",
  [1; 0; 0; 0])] (Some [("X_0 in [1, 2]", LNum (Fin (1 # 2))); ("X_1 in [4, 5]", LNum (Fin (1 # 2)));
  ("X_1 in [0, 3]", LNum (Fin (1 # 4))); ("X_0 in [2, 5]", LNum (Fin 1)); ("X_0 in [2, 5] AND X_1 in [0, 3]", LNum
  (Fin (1 # 4)))]) (Some [("X_0 in [1, 2]", LNum (Fin (3 # 2))); ("X_1 in [4, 5]", LNum (Fin 2)); ("X_1 in [0, 3]",
  LNum (Fin (-4 # 1))); ("X_0 in [2, 5]", LNum (Fin (1 # 2))); ("X_0 in [2, 5] AND X_1 in [0, 3]", LNum (Fin (-4 #
  1)))]) (Some [("X_0 in [1, 2]", LNum (Fin (1 # 4))); ("X_1 in [4, 5]", LNum (Fin 1)); ("X_1 in [0, 3]", LNum (Fin
  0)); ("X_0 in [2, 5]", LNum (Fin (29 # 4))); ("X_0 in [2, 5] AND X_1 in [0, 3]", LNum (Fin 0))])
  [("X_1 in [4, 5]", [0; 1; 0; 1]); ("X_0 in [2, 5]", [1; 1; 1; 1])] (Some [("X_1 in [4, 5]", LNum (Fin (1 # 2)));
  ("X_0 in [2, 5]", LNum (Fin 1))]) (Some [("X_1 in [4, 5]", LNum (Fin 2)); ("X_0 in [2, 5]", LNum (Fin (1 # 2)))])
  (Some [("X_1 in [4, 5]", LNum (Fin 1)); ("X_0 in [2, 5]", LNum (Fin (29 # 4)))]) = true.
Proof. vm_compute. reflexivity. Qed.

Example thresholds_fit_3 :
  limits_well false [made KClassification [0] [Fin 1] [Fin 2]; made KClassification [1] [Fin 4] [Fin 5]; made
  KClassification [1] [Fin 0] [Fin 3]; made KClassification [0] [Fin 2] [Fin 5]; made KClassification [0; 1] [Fin 2;
  Fin 0] [Fin 5; Fin 3]] [LNum (Fin (-4 # 1)); LNum (Fin 3); LNum (Fin 2); LNum (Fin 1)] (Some (TArray 2 [[Fin 5;
  Fin 3]; [Fin 3; Fin 4]; [Fin 2; NaN]; [Fin 2; Fin 4]])) "success_rate" (Fin 1) [1; 1; 1; 1] [("X_0 in [1, 2]", [0;
  0; 1; 1]); ("X_1 in [4, 5]", [0; 1; 0; 1]); ("X_1 in [0, 3]", [1; 0; 0; 0]); ("X_0 in [2, 5]", [1; 1; 1; 1]);
  ("X_0 in [2, 5] AND X_1 in [0, 3]", [1; 0; 0; 0])] (Some [("X_0 in [1, 2]", LNum (Fin (1 # 2))); ("X_1 in [4, 5]",
  LNum (Fin (1 # 2))); ("X_1 in [0, 3]", LNum (Fin (1 # 4))); ("X_0 in [2, 5]", LNum (Fin 1));
  ("X_0 in [2, 5] AND X_1 in [0, 3]", LNum (Fin (1 # 4)))]) (Some [("X_0 in [1, 2]", LNum (Fin 1));
  ("X_1 in [4, 5]", LNum (Fin 1)); ("X_1 in [0, 3]", LNum (Fin (-4 # 1))); ("X_0 in [2, 5]", LNum (Fin (-4 # 1)));
  ("X_0 in [2, 5] AND X_1 in [0, 3]", LNum (Fin (-4 # 1)))]) (Some [("X_0 in [1, 2]", LNum (Fin (1 # 2)));
  ("X_1 in [4, 5]", LNum (Fin (1 # 2))); ("X_1 in [0, 3]", LNum (Fin 1)); ("X_0 in [2, 5]", LNum (Fin (1 # 4)));
  ("X_0 in [2, 5] AND X_1 in [0, 3]", LNum (Fin 1))]) [("X_0 in [1, 2]", [0; 0; 1; 1]); ("X_1 in [4, 5]", [0; 1; 0;
  1])] (Some [("X_0 in [1, 2]", LNum (Fin (1 # 2))); ("X_1 in [4, 5]", LNum (Fin (1 # 2)))]) (Some
  [("X_0 in [1, 2]", LNum (Fin 1)); ("X_1 in [4, 5]", LNum (Fin 1))]) (Some [("X_0 in [1, 2]", LNum (Fin (1 # 2)));
  ("X_1 in [4, 5]", LNum (Fin (1 # 2)))]) = true.
Proof. vm_compute. reflexivity. Qed.

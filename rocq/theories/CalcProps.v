(** Properties of the calc_ methods, fit and predict when something is missing or of a wrong kind. *)
From Coq Require Import List ZArith QArith Bool String Lia.
From Coq Require Import List.
From Verif Require Import Base Num CondModel ThrModel MetModel RuleModel RuleWit RuleCalc PredModel PredSpec PredWit SetModel FitModel FitSpec FitWit FitLength.
Import ListNotations.
Open Scope string_scope.
Open Scope list_scope.
Open Scope Z_scope.

(** ** C204 *)

Theorem C204_no_activation : forall (E : env) (attr : string) (y : target label) (kw : keywords) (r : rule), r_act r = None ->
  (r_kind r = KRegression -> In attr ["prediction"; "std"; "zscore"; "criterion"] -> launch E attr y None kw r = (Ok tt, r)) /\
  (r_kind r = KClassification -> launch E "criterion" y None kw r = (Ok tt, r)) /\
  (r_kind r = KClassification -> launch E "prediction" y None kw r = (Err EValue, r)).
Proof. exact calc_nothing. Qed.
Print Assumptions C204_no_activation.

Example C204_no_activation_ex : launch free "std" target_prices None options (fresh KRegression) = (Ok tt, fresh KRegression) /\
  launch free "prediction" target_prices None options (fresh KClassification) = (Err EValue, fresh KClassification).
Proof.
  split.
  - apply (proj1 (C204_no_activation free "std" target_prices options (fresh KRegression) eq_refl) eq_refl). right. left. reflexivity.
  - exact (proj2 (proj2 (C204_no_activation free "std" target_prices options (fresh KClassification) eq_refl)) eq_refl).
Qed.

Theorem C204_no_prediction : forall (E : env) (y : list label) (kw : keywords) (r : rule) (a : activation) (v : list Z),
  r_kind r = KClassification -> slot "_prediction" r = none -> r_act r = Some a -> raw a = Ok v ->
  (List.length v <= List.length y)%nat -> k_criterion kw = None -> launch E "criterion" (YVector y) None kw r = (Err EType, r).
Proof. exact rate_nothing. Qed.
Print Assumptions C204_no_prediction.

Example C204_no_prediction_ex : launch free "criterion" (YVector [LText "a"; LText "b"; LText "a"]) None (mkKw false 3 None) (RuleWit.active KClassification [1; 0; 1]) =
  (Err EType, RuleWit.active KClassification [1; 0; 1]).
Proof.
  apply C204_no_prediction with (a := new_activation [1; 0; 1]) (v := [1; 0; 1]); reflexivity || (cbn; lia).
Qed.

(** ** C205 *)

Theorem C205_fit_length : forall (G : setup) (y : target label) (series force : bool) (kw : keywords) (s : ruleset) (r : rule) (st : frame Z) (l : list label),
  g_stacked G = true -> learner s kw -> In r (s_rules s) -> r_fitted r = false ->
  s_stacked s = Some st -> flat y = Ok l -> List.length l <> f_rows st ->
  set_fit G y series None force kw s = (Err (if series then EValue else EIndex), s).
Proof. exact fit_wrong_length. Qed.
Print Assumptions C205_fit_length.

Example C205_fit_length_ex : set_fit joint (YVector [LNum (numz 1)]) true None false options (with_stacked (Some (mkFrame 4 [])) (stock KRegression)) =
  (Err EValue, with_stacked (Some (mkFrame 4 [])) (stock KRegression)).
Proof.
  apply C205_fit_length with (r := on KRegression "x" 0) (st := mkFrame 4 []) (l := [LNum (numz 1)]) (series := true).
  - reflexivity.
  - split; [left|]; reflexivity.
  - left. reflexivity.
  - reflexivity.
  - reflexivity.
  - reflexivity.
  - discriminate.
Qed.

(** ** C206 *)

Theorem C206_text : forall (E : env) (sf shared : bool) (r : rule) (t : list rule) (st : option (frame Z)) (a : activation) (v : list Z) (s : string) (n : nat),
  unstacked sf st -> r_act r = Some a -> raw a = Ok v -> In 1 v ->
  prediction r = Ok (text s) -> rule_len r = Ok n -> n <> 0%nat ->
  fst (predict_rules E sf shared (Some KRegression) (r :: t) st None None) = Err EType.
Proof. exact text_first. Qed.
Print Assumptions C206_text.

Example C206_text_ex : fst (predict_rules free false false (Some KRegression) [voter KRegression "x" (text "high") [0; 1; 1]] None None None) = Err EType.
Proof.
  apply C206_text with (a := new_activation [0; 1; 1]) (v := [0; 1; 1]) (s := "high") (n := 1%nat); try reflexivity.
  - left. reflexivity.
  - right. left. reflexivity.
  - discriminate.
Qed.

(** ** C207 *)

Theorem C207_no_condition : forall (r : rule), r_cond r = None ->
  rule_len r = Err EType /\ (forall q, get_correlation r q = Err EType) /\
  (forall a v p, r_act r = Some a -> v <> [] -> raw a = Ok v -> prediction r = Ok p ->
     calc_prediction_vector r = if match p with OVal XNone => true | _ => false end then Ok (Some (map (fun _ => LNum NaN) v)) else Err EType).
Proof. exact no_condition. Qed.
Print Assumptions C207_no_condition.

Example C207_no_condition_ex :
  let r := mkRule KRegression None (Some (new_activation [1; 0])) None true None false false [("_prediction", number (Fin 2))] in
  calc_prediction_vector r = Err EType /\ rule_len r = Err EType.
Proof.
  intros r. destruct (C207_no_condition r eq_refl) as (L & _ & A). split; [|exact L].
  rewrite (A (new_activation [1; 0]) [1; 0] (number (Fin 2))); [reflexivity|reflexivity|discriminate|reflexivity|reflexivity].
Qed.

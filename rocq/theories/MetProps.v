(** Properties of the metrics (C35-C40, C79-C86). *)
From Coq Require Import List ZArith QArith Qabs Bool String Ascii Lia Lqa.
From Coq Require Import List.
From Verif Require Import Base Num Arith CondModel CondSpec MetModel MetSpec MetReg MetErr MetClass MetRate MetWit.
Import ListNotations.
Open Scope Z_scope.
Open Scope string_scope.

(** ** C35 *)

Theorem C35_one_rule : forall t y act l qs,
  is_target t y -> picks act y l -> values l qs ->
  exists m, conditional_mean (ActArray act) t = Ok (MNum m) /\ mean_or_nan qs m.
Proof. exact mean_one. Qed.
Print Assumptions C35_one_rule.

Example C35_one_rule_ex :
  picks ex_act ex_y [Fin 2; NaN; Fin 3; Fin 7] /\ values [Fin 2; NaN; Fin 3; Fin 7] [2%Q; 3%Q; 7%Q] /\
  average [2%Q; 3%Q; 7%Q] 4%Q /\ conditional_mean (ActArray ex_act) (YColumn ex_y) = Ok (MNum (Fin (12 # 3))).
Proof. split; [apply ex_picks|]. split; [apply ex_values|]. split; [apply ex_average|reflexivity]. Qed.

Theorem C35_between : forall t y act l qs m lo hi,
  is_target t y -> picks act y l -> values l qs -> conditional_mean (ActArray act) t = Ok (MNum (Fin m)) ->
  (forall q, In q qs -> (lo <= q)%Q /\ (q <= hi)%Q) -> (lo <= m)%Q /\ (m <= hi)%Q.
Proof. exact mean_between. Qed.
Print Assumptions C35_between.

Example C35_between_ex :
  (forall q, In q [2%Q; 3%Q; 7%Q] -> (2 <= q)%Q /\ (q <= 7)%Q) /\ (2 <= 12 # 3)%Q /\ (12 # 3 <= 7)%Q.
Proof. split; [|lra]. intros q H. cbn in H. repeat destruct H as [<-|H]; try contradiction; lra. Qed.

Theorem C35_stacked : forall t y cols,
  is_target t y -> (forall k act, In (k, act) cols -> List.length act = List.length y) ->
  exists s, conditional_mean (ActFrame cols) t = Ok (MSeries s) /\
    Forall2 (fun c e => fst c = fst e /\ conditional_mean (ActArray (snd c)) t = Ok (MNum (snd e))) cols s.
Proof. exact mean_stacked. Qed.
Print Assumptions C35_stacked.

Example C35_stacked_ex :
  conditional_mean (ActFrame [("r1", ex_act); ("r2", [0; 0; 1; 0; 0])]) (YVector ex_y) =
  Ok (MSeries [("r1", Fin (12 # 3)); ("r2", NaN)]).
Proof. reflexivity. Qed.

Theorem C35_already_extracted : forall t y qs,
  is_target t y -> values y qs ->
  exists m, conditional_mean ActNone t = Ok (MNum m) /\ mean_or_nan qs m.
Proof. exact mean_all. Qed.
Print Assumptions C35_already_extracted.

Example C35_already_extracted_ex :
  conditional_mean ActNone (YVector [Fin 1; NaN; Fin 4]) = Ok (MNum (Fin (5 # 2))).
Proof. reflexivity. Qed.

Theorem C35_errors : forall t y act i a,
  conditional_mean ActOther t = Err EType /\
  (is_target t y -> nth_error act i = Some a -> a <> 0 -> (List.length y <= i)%nat ->
   conditional_mean (ActArray act) t = Err EIndex).
Proof. exact mean_errors. Qed.
Print Assumptions C35_errors.

Example C35_errors_ex : conditional_mean (ActArray [1; 0; 1]) (YVector [Fin 1]) = Err EIndex.
Proof. reflexivity. Qed.

(** ** C36 *)

Theorem C36_one_rule : forall sqrt t y act l qs,
  is_target t y -> picks act y l -> values l qs ->
  (l = [] -> conditional_std sqrt (ActArray act) t = Ok (MNum NaN)) /\
  (List.length l = 1%nat -> conditional_std sqrt (ActArray act) t = Ok (MNum (Fin 0))) /\
  ((2 <= List.length l)%nat -> (List.length qs <= 1)%nat ->
     conditional_std sqrt (ActArray act) t = Ok (MNum (sqrt NaN))) /\
  ((2 <= List.length qs)%nat ->
     exists v, conditional_std sqrt (ActArray act) t = Ok (MNum (sqrt (Fin v))) /\ variance 1 qs v).
Proof. exact std_one. Qed.
Print Assumptions C36_one_rule.

Example C36_one_rule_ex :
  variance 1 [2%Q; 3%Q; 7%Q] 7 /\
  conditional_std ex_sqrt (ActArray ex_act) (YVector ex_y) = Ok (MNum (Fin (2645 # 1000))).
Proof. split; [exists 4%Q; split; [apply ex_average|reflexivity]|reflexivity]. Qed.

Theorem C36_stacked : forall sqrt t y cols,
  is_target t y ->
  exists s, conditional_std sqrt (ActFrame cols) t = Ok (MSeries s) /\
    Forall2 (fun c e => fst c = fst e /\
      forall l qs, bits (snd c) -> picks (snd c) y l -> values l qs ->
        ((List.length qs <= 1)%nat -> snd e = sqrt NaN) /\
        ((2 <= List.length qs)%nat -> exists v, snd e = sqrt (Fin v) /\ variance 1 qs v)) cols s.
Proof. exact std_stacked. Qed.
Print Assumptions C36_stacked.

Example C36_stacked_ex :
  bits ex_act /\
  conditional_std ex_sqrt (ActFrame [("r1", ex_act); ("r2", [0; 0; 1; 1; 0])]) (YVector ex_y) =
  Ok (MSeries [("r1", Fin (2645 # 1000)); ("r2", NaN)]).
Proof. split; [apply ex_bits|reflexivity]. Qed.

Theorem C36_agree : forall sqrt t y act l qs k x,
  (forall a b, (a == b)%Q -> sqrt (Fin a) = sqrt (Fin b)) ->
  is_target t y -> bits act -> picks act y l -> values l qs -> (2 <= List.length l)%nat ->
  conditional_std sqrt (ActArray act) t = Ok (MNum x) ->
  conditional_std sqrt (ActFrame [(k, act)]) t = Ok (MSeries [(k, x)]).
Proof. exact std_agree. Qed.
Print Assumptions C36_agree.

Example C36_agree_ex :
  (forall a b, (a == b)%Q -> ex_sqrt (Fin a) = ex_sqrt (Fin b)) /\
  conditional_std ex_sqrt (ActArray [1; 1; 0; 1]) (YVector [Fin 0; Fin 2; Fin 9; Fin (-2 # 1)]) = Ok (MNum (Fin 2)) /\
  conditional_std ex_sqrt (ActFrame [("r", [1; 1; 0; 1])]) (YVector [Fin 0; Fin 2; Fin 9; Fin (-2 # 1)]) =
  Ok (MSeries [("r", Fin 2)]).
Proof. split; [apply ex_sqrt_ok|]. split; reflexivity. Qed.

Theorem C36_already_extracted : forall sqrt t y qs,
  is_target t y -> values y qs ->
  (qs = [] -> conditional_std sqrt ActNone t = Ok (MNum (sqrt NaN))) /\
  (qs <> [] -> exists v, conditional_std sqrt ActNone t = Ok (MNum (sqrt (Fin v))) /\ variance 0 qs v).
Proof. exact std_all. Qed.
Print Assumptions C36_already_extracted.

Example C36_already_extracted_ex :
  conditional_std ex_sqrt ActNone (YVector [Fin 1; NaN; Fin 5]) = Ok (MNum (Fin 2)).
Proof. reflexivity. Qed.

Theorem C36_errors : forall sqrt t y act i a,
  conditional_std sqrt ActOther t = Err EType /\
  (forall cols, conditional_std sqrt (ActFrame cols) YTable = Err EValue) /\
  (is_target t y -> nth_error act i = Some a -> a <> 0 -> (List.length y <= i)%nat ->
   conditional_std sqrt (ActArray act) t = Err EIndex).
Proof. exact std_errors. Qed.
Print Assumptions C36_errors.

Example C36_errors_ex : conditional_std ex_sqrt (ActArray [1; 0; 1]) (YVector [Fin 1]) = Err EIndex.
Proof. reflexivity. Qed.

(** ** C85 *)

Theorem C85_one_point_refuted :
  exists act y k sqrt l, is_target (YVector y) y /\ bits act /\ picks act y l /\ l = [Fin 5] /\
    sqrt NaN = NaN /\
    conditional_std sqrt (ActArray act) (YVector y) = Ok (MNum (Fin 0)) /\
    conditional_std sqrt (ActFrame [(k, act)]) (YVector y) = Ok (MSeries [(k, NaN)]).
Proof. exact std_one_point_refuted. Qed.
Print Assumptions C85_one_point_refuted.

(** ** C37 *)

Theorem C37_numbers : forall repr act y l,
  picks act y l -> l <> [] -> (forall c, In c l -> exists x, c = LNum x /\ x <> NaN) ->
  exists out rows, class_probabilities repr act y = Ok (PNumbers out) /\
    Forall2 (fun o r => fst r = LNum (fst o) /\ snd o = Fin (snd r)) out rows /\
    frequencies l rows /\ (total (map snd rows) == 1)%Q.
Proof. exact frequencies_numbers. Qed.
Print Assumptions C37_numbers.

Example C37_numbers_ex :
  class_probabilities ex_repr [1; 1; 0; 1; 1] (map (fun q => LNum (Fin q)) [3%Q; 1%Q; 2%Q; 3%Q; 0%Q]) =
  Ok (PNumbers [(Fin 0, Fin (1 # 4)); (Fin 1, Fin (1 # 4)); (Fin 3, Fin (2 # 4))]).
Proof. vm_compute; reflexivity. Qed.

Theorem C37_texts : forall repr act y l,
  picks act y l -> l <> [] -> (forall c, In c l -> exists s, c = LText s) ->
  exists out rows, class_probabilities repr act y = Ok (PTexts out) /\
    Forall2 (fun o r => fst r = LText (fst o) /\ snd o = repr (Fin (snd r))) out rows /\
    frequencies l rows /\ (total (map snd rows) == 1)%Q.
Proof. exact frequencies_texts. Qed.
Print Assumptions C37_texts.

Example C37_texts_ex :
  picks ex_act text_rows [LText "b"; LText "c"; LText "b"; LText "a"] /\
  class_probabilities ex_repr ex_act text_rows = Ok (PTexts [("a", "0.25"); ("b", "0.5"); ("c", "0.25")]).
Proof. split; [pick|vm_compute; reflexivity]. Qed.

Theorem C37_prediction_numbers : forall repr act y l,
  picks act y l -> l <> [] -> (forall c, In c l -> exists x, c = LNum x /\ x <> NaN) ->
  exists c, rbind (class_probabilities repr act y) most_probable = Ok c /\ majority l c.
Proof. exact prediction_numbers. Qed.
Print Assumptions C37_prediction_numbers.

(** A tie between 1 and 3. *)
Example C37_prediction_numbers_ex :
  rbind (class_probabilities ex_repr [1; 1; 0; 1; 1] (map (fun q => LNum (Fin q)) [3%Q; 1%Q; 2%Q; 3%Q; 1%Q]))
    most_probable = Ok (LNum (Fin 1)).
Proof. vm_compute; reflexivity. Qed.

Theorem C37_prediction_texts : forall repr act y l,
  picks act y l -> l <> [] -> (forall c, In c l -> exists s, c = LText s) -> repr_monotone repr (List.length l) ->
  exists c, rbind (class_probabilities repr act y) most_probable = Ok c /\ majority l c.
Proof. exact prediction_texts. Qed.
Print Assumptions C37_prediction_texts.

Example C37_prediction_texts_ex :
  repr_monotone ex_repr 4 /\
  rbind (class_probabilities ex_repr ex_act text_rows) most_probable = Ok (LText "b").
Proof. split; [apply ex_repr_monotone|vm_compute; reflexivity]. Qed.

Theorem C37_stacked : forall t y cols,
  is_target t y ->
  (forall k act, In (k, act) cols -> bits act /\ exists l, picks act y l /\ l <> [] /\ classes l /\
     (forall c, In c l -> c <> LText "" /\ c <> LText "zero")) ->
  exists s, stacked_class_predictions cols t = Ok s /\
    Forall2 (fun c e => fst c = fst e /\ forall l, picks (snd c) y l -> majority l (snd e)) cols s.
Proof. exact stacked_predictions. Qed.
Print Assumptions C37_stacked.

Example C37_stacked_ex :
  stacked_class_predictions [("r1", ex_act); ("r2", [0; 1; 1; 0; 0])] (YVector text_rows) =
    Ok [("r1", LText "b"); ("r2", LText "a")] /\
  stacked_class_predictions [("r1", ex_act)] (YColumn (map (fun q => LNum (Fin q)) [0%Q; 1%Q; 2%Q; 0%Q; 2%Q])) =
    Ok [("r1", LNum (Fin 0))].
Proof. split; vm_compute; reflexivity. Qed.

Theorem C37_most_common : forall y, y <> [] ->
  exists v, most_common y = Ok v /\ In v y /\ exists k, tally (eq v) y k /\
    forall w j, tally (eq w) y j -> (j < k)%nat \/ (j = k /\ (v <= w)%nat).
Proof. exact most_common_spec. Qed.
Print Assumptions C37_most_common.

Example C37_most_common_ex : most_common [5; 2; 5; 2; 7]%nat = Ok 2%nat.
Proof. reflexivity. Qed.

(** ** C79 *)

Theorem C79_rare_class_refuted :
  exists repr act y l, picks act y l /\ (forall c, In c l -> exists s, c = LText s) /\
    repr (Fin (1 # 20000)) = "5e-05" /\ repr (Fin (19999 # 20000)) = "0.99995" /\
    rbind (class_probabilities repr act y) most_probable = Ok (LText "rare") /\
    majority l (LText "common").
Proof. exact rare_class_refuted. Qed.
Print Assumptions C79_rare_class_refuted.

(** ** C80 *)

Theorem C80_no_point_refuted :
  exists repr act y, picks act y (@nil label) /\
    rbind (class_probabilities repr act y) most_probable = Err EIndex.
Proof. exact no_point_refuted. Qed.
Print Assumptions C80_no_point_refuted.

Theorem C80_no_point_stacked_refuted :
  exists cols y, In ("bad", [0; 0]%Z) cols /\ In ("good", [1; 1]%Z) cols /\
    stacked_class_predictions cols (YVector y) = Err EIndex /\
    stacked_class_predictions [("good", [1; 1]%Z)] (YVector y) = Ok [("good", LNum (Fin 1))].
Proof. exact no_point_stacked_refuted. Qed.
Print Assumptions C80_no_point_stacked_refuted.

Theorem C80_always : forall repr act (y : list label),
  picks act y [] -> class_probabilities repr act y = Err EIndex.
Proof. exact no_point. Qed.
Print Assumptions C80_always.

Example C80_always_ex : class_probabilities ex_repr [0; 0; 0] [LText "a"; LText "b"; LText "a"] = Err EIndex.
Proof. reflexivity. Qed.

Theorem C80_always_stacked : forall t y cols k act,
  is_target t y -> In (k, act) cols -> picks act y [] ->
  (forall k' act', In (k', act') cols -> bits act' /\ exists l, picks act' y l /\ classes l /\
     (forall c, In c l -> c <> LText "" /\ c <> LText "zero")) ->
  stacked_class_predictions cols t = Err EIndex.
Proof. exact stacked_no_point. Qed.
Print Assumptions C80_always_stacked.

Example C80_always_stacked_ex :
  stacked_class_predictions [("r1", [1; 0]); ("r2", [0; 0])] (YVector [LText "a"; LText "b"]) = Err EIndex.
Proof. reflexivity. Qed.

(** ** C81 *)

Theorem C81_empty_text_refuted :
  exists y k act, let l := y in picks act y l /\ classes l /\
    rbind (class_probabilities ex_repr act y) most_probable = Ok (LText "") /\
    majority l (LText "") /\
    stacked_class_predictions [(k, act)] (YVector y) = Ok [(k, LText "a")].
Proof. exact special_texts_refuted. Qed.
Print Assumptions C81_empty_text_refuted.

Theorem C81_zero_text_refuted :
  exists y k act, let l := y in picks act y l /\ classes l /\
    rbind (class_probabilities ex_repr act y) most_probable = Ok (LText "zero") /\
    stacked_class_predictions [(k, act)] (YVector y) = Ok [(k, LNum (Fin 0))].
Proof. exact zero_text_refuted. Qed.
Print Assumptions C81_zero_text_refuted.

(** ** C38 *)

Theorem C38_mse : forall p y rs, residuals p y rs ->
  exists m, mse_function (VSeries p) y = Ok (MNum m) /\ mean_or_nan (map (fun r => r * r)%Q rs) m.
Proof. exact mse_one. Qed.
Print Assumptions C38_mse.

Example C38_mse_ex :
  residuals [NaN; Fin 2; Fin 2; Fin 3] [Fin 7; Fin 4; NaN; Fin 2] [(2 - 4)%Q; (3 - 2)%Q] /\
  mse_function (VSeries [NaN; Fin 2; Fin 2; Fin 3]) [Fin 7; Fin 4; NaN; Fin 2] = Ok (MNum (Fin (5 # 2))).
Proof.
  split; [|reflexivity]. apply res_skip; [auto|]. apply res_both. apply res_skip; [auto|]. apply res_both. apply res_nil.
Qed.

Theorem C38_mae : forall p y rs, residuals p y rs ->
  exists m, mae_function (VSeries p) y = Ok (MNum m) /\ mean_or_nan (map Qabs rs) m.
Proof. exact mae_one. Qed.
Print Assumptions C38_mae.

Example C38_mae_ex :
  mae_function (VSeries [NaN; Fin 2; Fin 2; Fin 3]) [Fin 7; Fin 4; NaN; Fin 2] = Ok (MNum (Fin (3 # 2))).
Proof. reflexivity. Qed.

Theorem C38_mse_sign : forall p y rs m, residuals p y rs -> mse_function (VSeries p) y = Ok (MNum (Fin m)) ->
  (0 <= m)%Q /\ ((m == 0)%Q <-> forall r, In r rs -> (r == 0)%Q).
Proof. exact mse_sign. Qed.
Print Assumptions C38_mse_sign.

Example C38_mse_sign_ex : mse_function (VSeries [Fin 2; NaN]) [Fin 2; Fin 3] = Ok (MNum (Fin 0)).
Proof. reflexivity. Qed.

Theorem C38_mae_sign : forall p y rs m, residuals p y rs -> mae_function (VSeries p) y = Ok (MNum (Fin m)) ->
  (0 <= m)%Q /\ ((m == 0)%Q <-> forall r, In r rs -> (r == 0)%Q).
Proof. exact mae_sign. Qed.
Print Assumptions C38_mae_sign.

Example C38_mae_sign_ex : mae_function (VSeries [Fin 2; NaN]) [Fin 2; Fin 3] = Ok (MNum (Fin 0)).
Proof. reflexivity. Qed.

Theorem C38_best_constant : forall act y l qs m c pm pc em ec,
  picks act y l -> values l qs -> average qs m -> predicts m act pm -> predicts c act pc ->
  mse_function (VSeries pm) y = Ok (MNum (Fin em)) -> mse_function (VSeries pc) y = Ok (MNum (Fin ec)) ->
  (em <= ec)%Q /\ ((em == ec)%Q -> (c == m)%Q).
Proof. exact best_constant. Qed.
Print Assumptions C38_best_constant.

Example C38_best_constant_ex :
  predicts 4 ex_act [Fin 4; NaN; Fin 4; Fin 4; Fin 4] /\ predicts 3 ex_act [Fin 3; NaN; Fin 3; Fin 3; Fin 3] /\
  mse_function (VSeries [Fin 4; NaN; Fin 4; Fin 4; Fin 4]) ex_y = Ok (MNum (Fin (14 # 3))) /\
  mse_function (VSeries [Fin 3; NaN; Fin 3; Fin 3; Fin 3]) ex_y = Ok (MNum (Fin (17 # 3))).
Proof.
  split; [|split; [|split; reflexivity]]; unfold ex_act;
    repeat (first [apply predicts_nil|apply predicts_on; [discriminate|]|apply predicts_off]).
Qed.

Theorem C38_normalised : forall p ys rs v, residuals p (map Fin ys) rs -> rs <> [] -> variance 0 ys v -> ~ (v == 0)%Q ->
  exists e r, mse_function (VSeries p) (map Fin ys) = Ok (MNum (Fin e)) /\
    mse_norm (VSeries p) (map Fin ys) = Ok (MNum (Fin r)) /\ (r * v == e)%Q.
Proof. exact mse_norm_one. Qed.
Print Assumptions C38_normalised.

Example C38_normalised_ex :
  variance 0 [1%Q; 5%Q] 4 /\ mse_norm (VSeries [Fin 1; Fin 3]) [Fin 1; Fin 5] = Ok (MNum (Fin (128 # 256))).
Proof. split; [exists 3%Q; split; [split; [discriminate|]|]|]; reflexivity. Qed.

Theorem C38_mean_predictor : forall ys m v, average ys m -> variance 0 ys v -> ~ (v == 0)%Q ->
  exists r, mse_norm (VSeries (map (fun _ => Fin m) ys)) (map Fin ys) = Ok (MNum (Fin r)) /\ (r == 1)%Q.
Proof. exact mse_norm_mean. Qed.
Print Assumptions C38_mean_predictor.

Example C38_mean_predictor_ex : average [1%Q; 5%Q] 3 /\ variance 0 [1%Q; 5%Q] 4.
Proof. split; [|exists 3%Q; split]; [split; [discriminate|]|split; [discriminate|]|]; reflexivity. Qed.

Theorem C38_unknown_target : forall p y, List.length p = List.length y -> In NaN y ->
  mse_norm (VSeries p) y = Ok (MNum NaN).
Proof. exact mse_norm_nan. Qed.
Print Assumptions C38_unknown_target.

Example C38_unknown_target_ex : mse_norm (VSeries [Fin 1; Fin 2]) [Fin 3; NaN] = Ok (MNum NaN).
Proof. reflexivity. Qed.

Theorem C38_aae : forall p ys rs, residuals p (map Fin ys) rs -> rs <> [] ->
  exists md, median ys md /\ forall d, average (map (fun q => Qabs (q - md)) ys) d -> ~ (d == 0)%Q ->
  exists e r, mae_function (VSeries p) (map Fin ys) = Ok (MNum (Fin e)) /\
    aae_function (VSeries p) (map Fin ys) = Ok (MNum (Fin r)) /\ (r * d == e)%Q.
Proof. exact aae_one. Qed.
Print Assumptions C38_aae.

(** Medians 3 (of 9, 1, 3) and 2 (of 3, 1). *)
Example C38_aae_ex :
  aae_function (VSeries [Fin 9; Fin 2; Fin 4]) [Fin 9; Fin 1; Fin 3] = Ok (MNum (Fin (6 # 24))) /\
  aae_function (VSeries [Fin 3; Fin 2]) [Fin 3; Fin 1] = Ok (MNum (Fin (8 # 16))).
Proof. split; vm_compute; reflexivity. Qed.

Theorem C38_table : forall m n cols y, n = List.length y ->
  (forall k v, In (k, v) cols -> List.length v = n) ->
  (exists e, calc_regression_criterion (VFrame n cols) y m = Err e /\
     forall v, calc_regression_criterion (VSeries v) y m = Err e) \/
  exists s, calc_regression_criterion (VFrame n cols) y m = Ok (MSeries s) /\
    Forall2 (fun c e => fst c = fst e /\
      calc_regression_criterion (VSeries (snd c)) y m = Ok (MNum (snd e))) cols s.
Proof. exact criterion_frame. Qed.
Print Assumptions C38_table.

Example C38_table_ex :
  calc_regression_criterion (VFrame 2 [("r1", [Fin 1; NaN]); ("r2", [Fin 1; Fin 3])]) [Fin 1; Fin 5] (Some "MSE") =
  Ok (MSeries [("r1", Fin 0); ("r2", Fin (4 # 2))]).
Proof. reflexivity. Qed.

Theorem C38_choice : forall p y,
  (forall s, ignoring_case s "mse" -> calc_regression_criterion p y (Some s) = mse_function p y) /\
  (forall s, ignoring_case s "mse_norm" -> calc_regression_criterion p y (Some s) = mse_norm p y) /\
  (forall s, ignoring_case s "mae" -> calc_regression_criterion p y (Some s) = mae_function p y) /\
  (forall s, ignoring_case s "mae_norm" -> calc_regression_criterion p y (Some s) = mae_norm p y) /\
  (forall s, ignoring_case s "aae" -> calc_regression_criterion p y (Some s) = aae_function p y) /\
  calc_regression_criterion p y None = mse_norm p y /\
  (forall s, ~ ignoring_case s "mse" -> ~ ignoring_case s "mse_norm" -> ~ ignoring_case s "mae" ->
     ~ ignoring_case s "mae_norm" -> ~ ignoring_case s "aae" ->
     calc_regression_criterion p y (Some s) = Err EValue).
Proof. exact criterion_choice. Qed.
Print Assumptions C38_choice.

Example C38_choice_ex :
  ignoring_case "MaE" "mae" /\
  calc_regression_criterion (VSeries [Fin 1; Fin 3]) [Fin 1; Fin 5] (Some "MaE") = Ok (MNum (Fin (2 # 2))) /\
  calc_regression_criterion (VSeries [Fin 1; Fin 3]) [Fin 1; Fin 5] (Some "rmse") = Err EValue.
Proof. split; [apply ignoring_case_lower; reflexivity|]. split; reflexivity. Qed.

Theorem C38_errors : forall s y,
  (forall p, List.length p <> List.length y ->
     mse_function (VSeries p) y = Err EValue /\ mse_norm (VSeries p) y = Err EValue /\
     mae_function (VSeries p) y = Err EValue /\ mae_norm (VSeries p) y = Err EValue /\
     aae_function (VSeries p) y = Err EValue) /\
  (forall n cols, n <> List.length y ->
     mse_function (VFrame n cols) y = Err EValue /\ mse_norm (VFrame n cols) y = Err EValue /\
     mae_function (VFrame n cols) y = Err EValue /\ mae_norm (VFrame n cols) y = Err EValue /\
     aae_function (VFrame n cols) y = Err EValue) /\
  (forall m, In m ["mse"; "mse_norm"; "mae"; "mae_norm"; "aae"]%string -> ignoring_case s m ->
   calc_regression_criterion VOther y (Some s) = Err EType).
Proof. exact criterion_errors. Qed.
Print Assumptions C38_errors.

Example C38_errors_ex : mse_function (VSeries [Fin 1]) [Fin 1; Fin 2] = Err EValue.
Proof. reflexivity. Qed.

(** ** C82 *)

Theorem C82_mae_norm_refuted :
  exists p ys rs m d, residuals p (map Fin ys) rs /\ average ys m /\
    average (map (fun q => Qabs (q - m)) ys) d /\ ~ (d == 0)%Q /\
    mae_function (VSeries p) (map Fin ys) = Ok (MNum (Fin (1 # 2))) /\
    calc_regression_criterion (VSeries p) (map Fin ys) (Some "mae_norm") = Ok (MNum PInf).
Proof. exact mae_norm_refuted. Qed.
Print Assumptions C82_mae_norm_refuted.

Theorem C82_never_finite : forall p ys rs, residuals p (map Fin ys) rs -> ys <> [] ->
  exists x, mae_norm (VSeries p) (map Fin ys) = Ok (MNum x) /\
    ((exists r, In r rs /\ ~ (r == 0)%Q) -> x = PInf) /\ (~ (exists r, In r rs /\ ~ (r == 0)%Q) -> x = NaN).
Proof. exact mae_norm_useless. Qed.
Print Assumptions C82_never_finite.

Example C82_never_finite_ex : mae_norm (VSeries [Fin 1; Fin 5]) [Fin 1; Fin 5] = Ok (MNum NaN).
Proof. reflexivity. Qed.

(** ** C39 *)

Theorem C39_label : forall t y act l c m rows, is_target t y -> picks act y l ->
  rate_method m ->
  (l = [] -> calc_classification_criterion (ActArray act) rows (QLabel c) t m = Ok (RNum NaN)) /\
  (l <> [] -> exists r k, calc_classification_criterion (ActArray act) rows (QLabel c) t m = Ok (RNum (Fin r)) /\
     tally (same_class c) l k /\ (r * size l == inject_Z (Z.of_nat k))%Q /\ (0 <= r)%Q /\ (r <= 1)%Q).
Proof. exact rate_label. Qed.
Print Assumptions C39_label.

Example C39_label_ex :
  calc_classification_criterion (ActArray ex_act) 5 (QLabel (LText "b")) (YVector text_rows) (Some "Success_Rate") =
  Ok (RNum (Fin (2 # 4))).
Proof. reflexivity. Qed.

Theorem C39_label_extremes : forall t y act l c m rows r, is_target t y -> picks act y l -> rate_method m ->
  calc_classification_criterion (ActArray act) rows (QLabel c) t m = Ok (RNum (Fin r)) ->
  ((r == 1)%Q <-> forall d, In d l -> same_class c d) /\ ((r == 0)%Q <-> forall d, In d l -> ~ same_class c d).
Proof. exact rate_label_one. Qed.
Print Assumptions C39_label_extremes.

Example C39_label_extremes_ex :
  calc_classification_criterion (ActArray [1; 0; 0; 1; 0]) 5 (QLabel (LText "b")) (YVector text_rows) None =
  Ok (RNum (Fin (2 # 2))).
Proof. reflexivity. Qed.

Theorem C39_majority_is_best : forall t y act l c d m rows rc rd,
  is_target t y -> picks act y l -> rate_method m -> majority l c ->
  calc_classification_criterion (ActArray act) rows (QLabel c) t m = Ok (RNum (Fin rc)) ->
  calc_classification_criterion (ActArray act) rows (QLabel d) t m = Ok (RNum (Fin rd)) -> (rd <= rc)%Q.
Proof. exact rate_best. Qed.
Print Assumptions C39_majority_is_best.

Example C39_majority_is_best_ex :
  calc_classification_criterion (ActArray ex_act) 5 (QLabel (LText "a")) (YVector text_rows) None =
  Ok (RNum (Fin (1 # 4))).
Proof. reflexivity. Qed.

Theorem C39_rows : forall t y act l p pl m rows n,
  is_target t y -> picks act y l -> picks act p pl -> rate_method m ->
  tally (fun c => c <> LNum NaN) pl n ->
  (l = [] -> calc_classification_criterion (ActArray act) rows (QSeries p) t m = Ok REmpty) /\
  (l <> [] -> n <> O -> exists r k, calc_classification_criterion (ActArray act) rows (QSeries p) t m = Ok (RNum (Fin r)) /\
     tally (fun c => same_class (fst c) (snd c)) (combine pl l) k /\ (r * inject_Z (Z.of_nat n) == inject_Z (Z.of_nat k))%Q /\
     (0 <= r)%Q /\ (r <= 1)%Q) /\
  (l <> [] -> n = O -> calc_classification_criterion (ActArray act) rows (QSeries p) t m = Err EZeroDiv).
Proof. exact rate_rows. Qed.
Print Assumptions C39_rows.

Example C39_rows_ex :
  calc_classification_criterion (ActArray [1; 1; 0; 1]) 4
    (QSeries [LNum (Fin 1); LNum NaN; LNum (Fin 2); LNum (Fin 1)])
    (YVector [LNum (Fin 1); LNum (Fin 1); LNum (Fin 1); LNum (Fin 2)]) None = Ok (RNum (Fin (1 # 2))).
Proof. reflexivity. Qed.

Theorem C39_columns : forall t y cols p n m, is_target t y -> map fst p = map fst cols -> n <> O ->
  exists s, calc_classification_criterion (ActFrame cols) n (QByRule p) t m = Ok (RSeries s) /\
    map fst s = map fst cols /\
    forall i k act c e, nth_error cols i = Some (k, act) -> nth_error p i = Some (k, c) -> nth_error s i = Some (k, e) ->
      forall l j a, bits act -> picks act y l -> (forall d, In d l -> d <> LText "" /\ d <> LText "zero") ->
        tally (same_class c) l j -> tally (fun d => d <> LNum NaN) l a ->
        (a = O -> e = NaN) /\
        (a <> O -> exists r, e = Fin r /\ (r * inject_Z (Z.of_nat a) == inject_Z (Z.of_nat j))%Q /\ (0 <= r)%Q /\ (r <= 1)%Q).
Proof. exact rate_columns. Qed.
Print Assumptions C39_columns.

Example C39_columns_ex :
  calc_classification_criterion (ActFrame [("r1", [1; 1; 0]); ("r2", [0; 0; 0])]) 3
    (QByRule [("r1", LNum (Fin 0)); ("r2", LNum (Fin 1))]) (YVector [LNum (Fin 0); LNum (Fin 1); LNum (Fin 0)]) None =
  Ok (RSeries [("r1", Fin (1 # 2)); ("r2", NaN)]).
Proof. reflexivity. Qed.

Theorem C39_errors : forall a n p t m s,
  calc_classification_criterion ActNone n p t m = Err EType /\
  calc_classification_criterion ActOther n p t m = Err EType /\
  calc_classification_criterion (ActArray a) n QArray t m = Err EType /\
  (forall cols, calc_classification_criterion (ActFrame cols) n QArray t m = Err EType) /\
  (forall cols c, calc_classification_criterion (ActFrame cols) n (QLabel c) t m = Err EType) /\
  (forall cols q, calc_classification_criterion (ActFrame cols) n (QByRule q) YTable m = Err EValue) /\
  (forall cols q y, is_target t y -> n <> O -> map fst q <> map fst cols ->
     calc_classification_criterion (ActFrame cols) n (QByRule q) t m = Err EValue) /\
  (forall y l c, is_target t y -> picks a y l -> ~ ignoring_case s "success_rate" ->
     calc_classification_criterion (ActArray a) n (QLabel c) t (Some s) = Err EValue) /\
  (forall y l c, is_target t y -> picks a y l -> ~ ignoring_case s "success_rate" -> List.length c = List.length a ->
     calc_classification_criterion (ActArray a) n (QSeries c) t (Some s) = Err EValue) /\
  (forall y l c, is_target t y -> picks a y l -> List.length c <> List.length a ->
     calc_classification_criterion (ActArray a) n (QSeries c) t m = Err EIndex).
Proof. exact rate_errors. Qed.
Print Assumptions C39_errors.

Example C39_errors_ex :
  calc_classification_criterion (ActArray ex_act) 5 (QLabel (LText "b")) (YVector text_rows) (Some "recall") = Err EValue.
Proof. reflexivity. Qed.

(** ** C83, C84, C86 *)

Theorem C83_no_prediction_refuted :
  exists act p y, List.length p = List.length act /\ List.length y = List.length act /\
    (exists i, nth_error act i = Some 1%Z) /\
    calc_classification_criterion (ActArray act) (List.length act) (QSeries p) (YVector y) None = Err EZeroDiv.
Proof. exact rate_no_prediction_refuted. Qed.
Print Assumptions C83_no_prediction_refuted.

Theorem C84_unknown_method_refuted :
  exists cols p y s, ~ ignoring_case s "success_rate" /\
    calc_classification_criterion (ActFrame cols) 2 (QByRule p) (YVector y) (Some s) = Ok (RSeries [("r", Fin (1 # 2))]) /\
    calc_classification_criterion (ActArray [1; 1]%Z) 2 (QLabel (LNum (Fin 1))) (YVector y) (Some s) = Err EValue.
Proof. exact unknown_method_refuted. Qed.
Print Assumptions C84_unknown_method_refuted.

Theorem C86_unknown_targets_refuted :
  exists act y k c, bits act /\
    calc_classification_criterion (ActArray act) 2 (QLabel c) (YVector y) None = Ok (RNum (Fin (1 # 2))) /\
    calc_classification_criterion (ActFrame [(k, act)]) 2 (QByRule [(k, c)]) (YVector y) None = Ok (RSeries [(k, Fin 1)]).
Proof. exact rate_nan_targets_refuted. Qed.
Print Assumptions C86_unknown_targets_refuted.

(** ** C40 *)

Theorem C40_value : forall sqrt p exact n y h qs m v s1 s2,
  values y qs -> average qs m -> variance 0 qs v -> n <> 0 ->
  (forall x, (x * inject_Z n == inject_Z h)%Q -> sqrt (Fin x) = Fin s1) ->
  (forall x, (x == v)%Q -> sqrt (Fin x) = Fin s2) -> ~ (s1 * s2 == 0)%Q ->
  exists z, calc_zscore sqrt (Fin p) exact n y h = Fin z /\ (z * (s1 * s2) == Qabs (p - m))%Q.
Proof. exact zscore_value. Qed.
Print Assumptions C40_value.

Example C40_value_ex :
  variance 0 [1%Q; 5%Q] 4 /\
  calc_zscore ex_sqrt (Fin 6) true 4 [Fin 1; NaN; Fin 5] 1 = Fin (12 # 4).
Proof. split; [exists 3%Q; split; [split; [discriminate|]|]; reflexivity|vm_compute; reflexivity]. Qed.

Theorem C40_square : forall sqrt p exact n y h qs m v s1 s2 z,
  values y qs -> average qs m -> variance 0 qs v -> n <> 0 ->
  (forall x, (x * inject_Z n == inject_Z h)%Q -> sqrt (Fin x) = Fin s1) -> (s1 * s1 * inject_Z n == inject_Z h)%Q ->
  (forall x, (x == v)%Q -> sqrt (Fin x) = Fin s2) -> (s2 * s2 == v)%Q -> ~ (s1 * s2 == 0)%Q ->
  calc_zscore sqrt (Fin p) exact n y h = Fin z ->
  (z * z * (inject_Z h * v) == (p - m) * (p - m) * inject_Z n)%Q.
Proof. exact zscore_square. Qed.
Print Assumptions C40_square.

Example C40_square_ex : ((12 # 4) * (12 # 4) * (1 * 4) == (6 - 3) * (6 - 3) * 4)%Q.
Proof. reflexivity. Qed.

Theorem C40_no_point : forall sqrt p n y h,
  calc_zscore sqrt p true 0 y h = NaN /\ calc_zscore sqrt NaN true n y h = NaN /\
  calc_zscore sqrt NaN false n y h = NaN.
Proof. exact zscore_special. Qed.
Print Assumptions C40_no_point.

Example C40_no_point_ex : calc_zscore ex_sqrt (Fin 6) true 0 [Fin 1; Fin 5] 1 = NaN.
Proof. reflexivity. Qed.

Theorem C40_constant_target : forall sqrt p exact n y h qs m s1,
  values y qs -> average qs m -> n <> 0 -> (forall q, In q qs -> (q == m)%Q) ->
  (forall x, (x * inject_Z n == inject_Z h)%Q -> sqrt (Fin x) = Fin s1) ->
  (forall x, (x == 0)%Q -> sqrt (Fin x) = Fin 0) ->
  (~ (p == m)%Q -> calc_zscore sqrt (Fin p) exact n y h = PInf) /\
  ((p == m)%Q -> calc_zscore sqrt (Fin p) exact n y h = NaN).
Proof. exact zscore_constant. Qed.
Print Assumptions C40_constant_target.

Example C40_constant_target_ex : calc_zscore ex_sqrt (Fin 6) true 4 [Fin 5; Fin 5] 1 = PInf.
Proof. vm_compute; reflexivity. Qed.

Theorem C40_stacked : forall sqrt rules y h,
  Forall2 (fun r e => fst r = fst e /\
    (snd (snd r) <> 0 \/ fst (snd r) = NaN ->
     snd e = calc_zscore sqrt (fst (snd r)) true (snd (snd r)) y h)) rules (calc_zscores sqrt rules y h).
Proof. exact zscore_stacked. Qed.
Print Assumptions C40_stacked.

Example C40_stacked_ex :
  calc_zscores ex_sqrt [("r1", (Fin 6, 4)); ("r2", (NaN, 0))] [Fin 1; Fin 5] 1 = [("r1", Fin (12 # 4)); ("r2", NaN)].
Proof. vm_compute; reflexivity. Qed.

(** Properties C194 to C198: the lists of attributes that fit and eval compute. *)
From Coq Require Import List ZArith QArith Bool String Ascii Lia.
From Coq Require Import List.
From Verif Require Import Base Num Arith CondModel CondSpec CondWit ThrModel ThrSpec MetModel MetSpec
  RuleModel RuleSpec RuleWit AttrModel AttrSpec AttrProofs AttrValues AttrWit.
Import ListNotations.
Open Scope string_scope.
Open Scope list_scope.
Open Scope Z_scope.

(** ** C194 *)

Theorem C194_fit_default : forall E y xs force kw r,
  fit_with E (train_attributes (r_kind r)) y xs force kw r = fit E y xs force kw r.
Proof. exact fit_default. Qed.
Print Assumptions C194_fit_default.

Theorem C194_eval_default : forall E y xs recompute force kw r,
  eval_with E (test_attributes (r_kind r)) y xs recompute force kw r = eval E y xs recompute force kw r.
Proof. exact eval_default. Qed.
Print Assumptions C194_eval_default.

Example C194_default_ex :
  run_fit ["train_set_size"; "prediction"; "std"; "sign"; "zscore"] KRegression = (Ok tt, fitted_free) /\
  train_attributes (r_kind (fresh KRegression)) = ["train_set_size"; "prediction"; "std"; "sign"; "zscore"].
Proof. split; vm_compute; reflexivity. Qed.

Theorem C194_fit_keeps : forall E names y xs force kw r n,
  In n (measures (r_kind r)) -> n <> "coverage" -> ~ In n names ->
  getattr (snd (fit_with E names y xs force kw r)) n = getattr r n.
Proof. exact fit_unlisted. Qed.
Print Assumptions C194_fit_keeps.

Example C194_fit_keeps_ex :
  fst (run_fit ["std"] KRegression) = Ok tt /\ getattr (snd (run_fit ["std"] KRegression)) "std" = Ok (number (Fin 2)) /\
  In "prediction" (measures (r_kind (fresh KRegression))) /\ ~ In "prediction" ["std"] /\
  getattr (snd (run_fit ["std"] KRegression)) "prediction" = Ok none.
Proof.
  split; [vm_compute; reflexivity|]. split; [vm_compute; reflexivity|]. split; [cbn; tauto|].
  split; [intros [K|[]]; discriminate K|vm_compute; reflexivity].
Qed.

Theorem C194_eval_keeps : forall E names y xs recompute force kw r n,
  In n (measures (r_kind r)) -> n <> "coverage" \/ recompute = false -> ~ In n names ->
  getattr (snd (eval_with E names y xs recompute force kw r)) n = getattr r n.
Proof. exact eval_unlisted. Qed.
Print Assumptions C194_eval_keeps.

Example C194_eval_keeps_ex :
  let m := eval_with free ["test_set_size"] target_prices (Some points) true false options fitted_free in
  fst m = Ok tt /\ getattr (snd m) "test_set_size" = Ok (integer 4) /\
  getattr (snd m) "criterion" = Ok none /\ getattr (snd m) "prediction" = getattr fitted_free "prediction".
Proof.
  cbv zeta. split; [vm_compute; reflexivity|]. split; [vm_compute; reflexivity|]. split; vm_compute; reflexivity.
Qed.

(** ** C195 *)

Theorem C195_fit : forall E names y xs force kw r, accepted names -> starts r xs kw -> In "activation" names ->
  exists e, fst (fit_with E names y xs force kw r) = Err e.
Proof. exact fit_never. Qed.
Print Assumptions C195_fit.

Theorem C195_eval : forall E names y xs recompute force kw r,
  accepted names -> evaluates r xs force kw -> In "activation" names ->
  exists e, fst (eval_with E names y xs recompute force kw r) = Err e.
Proof. exact eval_never. Qed.
Print Assumptions C195_eval.

Theorem C195_fit_error : forall E u v y xs force kw r, accepted (u ++ "activation" :: v) -> starts r xs kw ->
  fst (fit_with E u y xs force kw r) = Ok tt -> fst (fit_with E (u ++ "activation" :: v) y xs force kw r) = Err EValue.
Proof. exact fit_refuses. Qed.
Print Assumptions C195_fit_error.

Theorem C195_eval_error : forall E u v y xs recompute force kw r,
  accepted (u ++ "activation" :: v) -> evaluates r xs force kw ->
  fst (eval_with E u y xs recompute force kw r) = Ok tt ->
  fst (eval_with E (u ++ "activation" :: v) y xs recompute force kw r) = Err EValue.
Proof. exact eval_refuses. Qed.
Print Assumptions C195_eval_error.

Example C195_ex :
  accepted ["prediction"; "activation"] /\ starts (fresh KRegression) (Some points) options /\
  fst (run_fit ["prediction"] KRegression) = Ok tt /\ fst (run_fit ["prediction"; "activation"] KRegression) = Err EValue /\
  evaluates fitted_free (Some points) false options /\
  fst (eval_with free ["criterion"] target_prices (Some points) false false options fitted_free) = Ok tt /\
  fst (eval_with free ["criterion"; "activation"] target_prices (Some points) false false options fitted_free) = Err EValue.
Proof.
  split; [apply accepted_aside; reflexivity|]. split; [split; [reflexivity|discriminate]|].
  split; [vm_compute; reflexivity|]. split; [vm_compute; reflexivity|].
  split; [split; [reflexivity|split; [left; vm_compute; reflexivity|discriminate]]|]. split; vm_compute; reflexivity.
Qed.

(** ** C196 *)

Theorem C196_unknown_refuted : exists E r r' y xs kw,
  is_bad r /\ starts r xs kw /\ ~ In "colour" ("activation" :: computable (r_kind r)) /\
  fit_with E ["colour"] y xs false kw r = (Ok tt, r') /\ getattr r "_colour" = Err EAttr /\
  getattr r' "_colour" = Ok nan /\ fst (fit_with E ["colour"] y xs true kw r) = Err EAttr.
Proof. exact unknown_refuted. Qed.
Print Assumptions C196_unknown_refuted.

Theorem C196_fit_good : forall E u a v y xs force kw r r', accepted (u ++ a :: v) -> starts r xs kw ->
  ~ In a ("activation" :: computable (r_kind r)) ->
  fit_with E u y xs force kw r = (Ok tt, r') -> is_good r' \/ force = true ->
  fst (fit_with E (u ++ a :: v) y xs force kw r) = Err EAttr.
Proof. exact fit_unknown. Qed.
Print Assumptions C196_fit_good.

Theorem C196_eval_good : forall E u a v y xs recompute force kw r r', accepted (u ++ a :: v) -> evaluates r xs force kw ->
  ~ In a ("activation" :: computable (r_kind r)) ->
  eval_with E u y xs recompute force kw r = (Ok tt, r') -> is_good r' \/ force = true ->
  fst (eval_with E (u ++ a :: v) y xs recompute force kw r) = Err EAttr.
Proof. exact eval_unknown. Qed.
Print Assumptions C196_eval_good.

Example C196_good_ex :
  accepted ["prediction"; "colour"] /\ ~ In "colour" ("activation" :: computable KRegression) /\
  fst (run_fit ["prediction"] KRegression) = Ok tt /\ is_good (snd (run_fit ["prediction"] KRegression)) /\
  fst (run_fit ["prediction"; "colour"] KRegression) = Err EAttr /\
  fst (eval_with free ["criterion"; "colour"] target_prices (Some points) false false options fitted_free) = Err EAttr.
Proof.
  split; [apply accepted_aside; reflexivity|]. split; [cbn; intuition discriminate|].
  split; [vm_compute; reflexivity|]. split; [vm_compute; reflexivity|]. split; vm_compute; reflexivity.
Qed.

Theorem C196_fit_bad : forall E names y xs kw r,
  accepted names -> ~ In "activation" names -> starts r xs kw -> is_bad r -> e_subattributes E = false ->
  fst (fit_with E names y xs false kw r) = fst (fit_with E [] y xs false kw r) /\
  (fst (fit_with E names y xs false kw r) = Ok tt -> ~ In "time_fit" names ->
   forall n, In n names -> getattr (snd (fit_with E names y xs false kw r)) ("_" ++ n)%string = Ok nan).
Proof. exact fit_bad_names. Qed.
Print Assumptions C196_fit_bad.

Example C196_fit_bad_ex :
  let r := with_bad "std" (fresh KRegression) in
  accepted ["prediction"; "colour"] /\ is_bad r /\ e_subattributes free = false /\
  fst (fit_with free ["prediction"; "colour"] target_prices (Some points) false options r) = Ok tt.
Proof.
  cbv zeta. split; [apply accepted_aside; reflexivity|]. split; [reflexivity|]. split; [reflexivity|vm_compute; reflexivity].
Qed.

Theorem C196_eval_bad : forall E names y xs recompute kw r,
  accepted names -> ~ In "activation" names -> is_bad r -> k_method kw = false ->
  exists r', eval_with E names y xs recompute false kw r = (Ok tt, r') /\ is_bad r' /\
    getattr r' "bad_because" = getattr r "bad_because" /\ getattr r' "activation" = getattr r "activation" /\
    forall n, In n names -> getattr r' ("_" ++ n)%string = Ok nan.
Proof. exact eval_bad_names. Qed.
Print Assumptions C196_eval_bad.

Example C196_eval_bad_ex :
  let m := eval_with free ["prediction"; "colour"] target_prices None false false options (with_bad "std" fitted_free) in
  fst m = Ok tt /\ getattr (snd m) "_colour" = Ok nan /\ getattr (snd m) "prediction" = Ok nan /\
  getattr (snd m) "std" = Ok (number (Fin 2)).
Proof. cbv zeta. each_case. Qed.

(** ** C197 *)

Theorem C197_order_refuted : exists E r r1 r2 y xs kw,
  new_rule E KRegression (CCond segment) VNone = Ok r /\
  fit_with E ["prediction"; "sign"] y xs false kw r = (Ok tt, r1) /\ is_good r1 /\
  fit_with E ["sign"; "prediction"] y xs false kw r = (Ok tt, r2) /\ is_good r2 /\
  getattr r1 "prediction" = getattr r2 "prediction" /\
  getattr r1 "sign" = Ok (text "+") /\ getattr r2 "sign" = Ok none.
Proof. exact order_refuted. Qed.
Print Assumptions C197_order_refuted.

Theorem C197_error_refuted : exists E r r1 y xs kw,
  new_rule E KRegression (CCond segment) VNone = Ok r /\
  fit_with E ["prediction"; "zscore"] y xs false kw r = (Ok tt, r1) /\ is_good r1 /\
  fst (fit_with E ["zscore"; "prediction"] y xs false kw r) = Err EType.
Proof. exact order_raises. Qed.
Print Assumptions C197_error_refuted.

Theorem C197_old_sign_refuted : exists E r r' y xs kw,
  is_good r /\ starts r xs kw /\ fit_with E ["sign"; "prediction"] y xs false kw r = (Ok tt, r') /\ is_good r' /\
  (exists q, getattr r' "prediction" = Ok (number q) /\ nlt q (Fin 0)) /\ getattr r' "sign" = Ok (text "+").
Proof. exact order_stale. Qed.
Print Assumptions C197_old_sign_refuted.

Theorem C197_values : forall E names y ys xs force kw r r',
  r_kind r = KRegression -> is_target y (map LNum ys) -> starts r xs kw -> at_hand r xs ->
  NoDup names ->
  (forall n, In n names -> In n ["train_set_size"; "test_set_size"; "prediction"; "std"; "sign"; "zscore"]) ->
  in_order names -> fit_with E names y xs force kw r = (Ok tt, r') ->
  exists act l1 l2, working r xs act /\ names = l1 ++ l2 /\
    (forall n, In n l1 -> exists o, getattr r' n = Ok o /\ value_on E act ys (k_horizon kw) n o) /\
    (forall n, In n l2 -> getattr r' n = Ok nan) /\
    (force = true -> l2 = []) /\ (is_good r' -> l2 = []) /\ (is_bad r -> force = false -> l1 = []).
Proof. exact fit_list. Qed.
Print Assumptions C197_values.

Theorem C197_orders : forall E names names' y ys xs force kw r r1 r2,
  r_kind r = KRegression -> is_target y (map LNum ys) -> starts r xs kw -> at_hand r xs ->
  NoDup names ->
  (forall n, In n names -> In n ["train_set_size"; "test_set_size"; "prediction"; "std"; "sign"; "zscore"]) ->
  in_order names -> NoDup names' -> (forall n, In n names' <-> In n names) -> in_order names' ->
  fit_with E names y xs force kw r = (Ok tt, r1) -> fit_with E names' y xs force kw r = (Ok tt, r2) ->
  force = true \/ is_good r1 /\ is_good r2 ->
  forall n, In n (measures KRegression) -> n <> "coverage" -> getattr r1 n = getattr r2 n.
Proof. exact fit_orders. Qed.
Print Assumptions C197_orders.

Theorem C197_classes : forall E names y ys xs force kw r r',
  r_kind r = KClassification -> is_target y ys -> starts r xs kw -> at_hand r xs ->
  NoDup names -> (forall n, In n names -> In n ["train_set_size"; "test_set_size"; "prediction"]) ->
  fit_with E names y xs force kw r = (Ok tt, r') ->
  exists act l1 l2, working r xs act /\ names = l1 ++ l2 /\
    (forall n, In n l1 -> exists o, getattr r' n = Ok o /\ class_value_on E act ys n o) /\
    (forall n, In n l2 -> getattr r' n = Ok nan) /\
    (force = true -> l2 = []) /\ (is_good r' -> l2 = []) /\ (is_bad r -> force = false -> l1 = []).
Proof. exact fit_list_classes. Qed.
Print Assumptions C197_classes.

Example C197_classes_ex :
  let m := fit_with free ["prediction"; "test_set_size"] (YVector colours) (Some points) false options (fresh KClassification) in
  fst m = Ok tt /\ is_good (snd m) /\ getattr (snd m) "prediction" = Ok (text "red") /\
  getattr (snd m) "test_set_size" = Ok (integer 4).
Proof. cbv zeta. each_case. Qed.

Example C197_orders_ex :
  in_order ["prediction"; "std"; "sign"] /\ in_order ["std"; "prediction"; "sign"] /\
  is_target target_prices (map LNum prices) /\ at_hand (fresh KRegression) (Some points) /\
  fst (run_fit ["prediction"; "std"; "sign"] KRegression) = Ok tt /\
  fst (run_fit ["std"; "prediction"; "sign"] KRegression) = Ok tt /\
  is_good (snd (run_fit ["prediction"; "std"; "sign"] KRegression)) /\
  is_good (snd (run_fit ["std"; "prediction"; "sign"] KRegression)) /\
  getattr (snd (run_fit ["std"; "prediction"; "sign"] KRegression)) "sign" = Ok (text "+") /\
  getattr (snd (run_fit ["std"; "prediction"; "sign"] KRegression)) "std" = Ok (number (Fin 2)).
Proof.
  split; [apply ordered_pair; auto|]. split; [apply ordered_pair; auto|]. split; [left; reflexivity|].
  split; [exact I|]. each_case.
Qed.

(** ** C198 *)

Theorem C198_prediction_refuted : exists E r r' y ys xs kw act c,
  r_kind r = KClassification /\ is_target y ys /\ evaluates r xs false kw /\
  eval_with E ["prediction"] y xs false false kw r = (Ok tt, r') /\ is_good r' /\ working r xs act /\
  rbind (class_probabilities (e_repr E) act ys) most_probable = Ok c /\
  getattr r' "prediction" <> Ok (class_obj c) /\ getattr r' "prediction" = getattr r "prediction".
Proof. exact test_prediction_refuted. Qed.
Print Assumptions C198_prediction_refuted.

Theorem C198_regression : forall E names y ys xs recompute force kw r r',
  r_kind r = KRegression -> is_target y (map LNum ys) -> evaluates r xs force kw ->
  NoDup names ->
  (forall n, In n names -> In n ["train_set_size"; "test_set_size"; "prediction"; "std"; "sign"; "zscore"]) ->
  in_order names -> eval_with E names y xs recompute force kw r = (Ok tt, r') ->
  exists act l1 l2, working r xs act /\ names = l1 ++ l2 /\
    (forall n, In n l1 -> exists o, getattr r' n = Ok o /\ value_on E act ys (k_horizon kw) n o) /\
    (forall n, In n l2 -> getattr r' n = Ok nan) /\
    (force = true -> l2 = []) /\ (is_good r' -> l2 = []).
Proof. exact eval_list. Qed.
Print Assumptions C198_regression.

Example C198_regression_ex :
  let m := eval_with free ["prediction"; "std"; "sign"] target_prices (Some other_points) false false options fitted_free in
  fst m = Ok tt /\ is_good (snd m) /\ evaluates fitted_free (Some other_points) false options /\
  getattr (snd m) "prediction" = Ok (number (Fin 7)) /\ getattr fitted_free "prediction" = Ok (number (Fin (9 # 3))).
Proof.
  cbv zeta. split; [vm_compute; reflexivity|]. split; [vm_compute; reflexivity|].
  split; [split; [reflexivity|split; [left; vm_compute; reflexivity|discriminate]]|]. split; vm_compute; reflexivity.
Qed.

Theorem C198_classification : forall E names y ys xs recompute force kw r r',
  r_kind r = KClassification -> is_target y ys -> evaluates r xs force kw ->
  NoDup names -> (forall n, In n names -> In n ["train_set_size"; "test_set_size"; "prediction"]) ->
  eval_with E names y xs recompute force kw r = (Ok tt, r') ->
  exists own l1 l2, working r (if recompute then xs else None) own /\ names = l1 ++ l2 /\
    (forall n, In n l1 -> exists o, getattr r' n = Ok o /\ class_value_on E own ys n o) /\
    (forall n, In n l2 -> getattr r' n = Ok nan) /\
    (force = true -> l2 = []) /\ (is_good r' -> l2 = []).
Proof. exact eval_classes. Qed.
Print Assumptions C198_classification.

Example C198_classification_ex :
  let m := eval_with free ["prediction"; "test_set_size"] (YVector colours) (Some other_points) true false options fitted_colours in
  fst m = Ok tt /\ is_good (snd m) /\ getattr (snd m) "prediction" = Ok (text "blue") /\
  getattr fitted_colours "prediction" = Ok (text "red").
Proof. cbv zeta. each_case. Qed.

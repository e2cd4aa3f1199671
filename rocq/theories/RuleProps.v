(** The properties of rules. *)
From Coq Require Import List ZArith QArith Bool String Ascii Lia Lqa.
From Coq Require Import List.
From Verif Require ActSpec.
From Verif Require Import Base Num Arith CondModel CondSpec CondBase CondProofs CondMore CondWit ThrModel ThrSpec ThrWit
  MetModel MetSpec MetWit RuleModel RuleSpec RuleProofs RuleFit RuleValues RuleEval RuleMisc RuleRoute RuleMore RuleWit.
Import ListNotations.
Open Scope string_scope.
Open Scope list_scope.
Open Scope Z_scope.

Ltac runs := cbv zeta; repeat match goal with |- _ /\ _ => split | |- exists _, _ => eexists end; vm_compute; reflexivity.

(** ** C28 *)

Theorem C28_stays_bad : forall E ops r, is_bad r -> is_bad (history E ops r).
Proof. exact bad_forever. Qed.
Print Assumptions C28_stays_bad.

Example C28_stays_bad_ex :
  is_bad fitted_strict /\
  is_bad (history lenient [Fit target_prices (Some points) true options; CheckAll; CheckOne "std";
                           SetThresholds (Some (Some (std_rows 3))); Eval target_prices None false true options]
                  fitted_strict).
Proof. split; vm_compute; reflexivity. Qed.

Theorem C28_reason : forall E ops k condition act r,
  new_rule E k condition act = Ok r ->
  (is_good (history E ops r) /\ blames_nothing (history E ops r)) \/
  (is_bad (history E ops r) /\ exists n, blames (history E ops r) n).
Proof. exact good_blames_nothing. Qed.
Print Assumptions C28_reason.

Example C28_reason_ex :
  new_rule strict KRegression (CCond segment) VNone =
    Ok (with_thr (Some (std_limits 1)) (fresh KRegression)) /\
  (let r := history strict [Fit target_prices (Some points) false options]
              (with_thr (Some (std_limits 1)) (fresh KRegression)) in is_bad r /\ blames r "std").
Proof. split; [|split]; vm_compute; reflexivity. Qed.

Theorem C28_fit_reason : forall E y xs force kw r r',
  starts r xs kw -> fit E y xs force kw r = (Ok tt, r') -> is_good r -> is_bad r' ->
  exists n th row, blames r' n /\ class_thresholds (e_classes E) (r_kind r) = Some th /\
    (well_formed th -> limits_of th n row /\
     (In n (measures (r_kind r)) -> numeric th n -> forall v x, attributes_of r' n = Ok v -> present v ->
        measured (e_lib E) row v x -> ~ meets (attributes_of r') row x)).
Proof. exact fit_blames. Qed.
Print Assumptions C28_fit_reason.

Example C28_fit_reason_ex :
  fit strict target_prices (Some points) false options (fresh KRegression) = (Ok tt, fitted_strict) /\
  is_good (fresh KRegression) /\ is_bad fitted_strict /\ blames fitted_strict "std" /\
  attributes_of fitted_strict "std" = Ok (XNum (Fin 2)) /\ limits_of (std_limits 1) "std" [("max", XNum (numz 1))].
Proof. repeat (match goal with |- _ /\ _ => split end; [vm_compute; reflexivity|]). apply std_row. Qed.

Theorem C28_eval_reason : forall E y xs recompute force kw r r',
  evaluates r xs force kw -> eval E y xs recompute force kw r = (Ok tt, r') -> is_good r -> is_bad r' ->
  exists n th row, blames r' n /\ class_thresholds (e_classes E) (r_kind r) = Some th /\
    (well_formed th -> limits_of th n row /\
     (In n (measures (r_kind r)) -> numeric th n -> forall v x, attributes_of r' n = Ok v -> present v ->
        measured (e_lib E) row v x -> ~ meets (attributes_of r') row x)).
Proof. exact eval_blames. Qed.
Print Assumptions C28_eval_reason.

Example C28_eval_reason_ex :
  is_good fitted_free /\
  (let r := snd (eval strict target_prices (Some points) true false options fitted_free) in
   is_bad r /\ blames r "std").
Proof. runs. Qed.

(** A rule that fit leaves good respects the limits of its class. *)
Theorem C28_fit_limits : forall E y xs force kw r r' th n row v x,
  starts r xs kw -> fit E y xs force kw r = (Ok tt, r') -> is_good r' ->
  class_thresholds (e_classes E) (r_kind r) = Some th -> well_formed th ->
  In n (measures (r_kind r)) -> limits_of th n row ->
  (forall s, refers_to row s -> In s (measures (r_kind r))) ->
  attributes_of r' n = Ok v -> present v -> measured (e_lib E) row v x ->
  all_numbers (attributes_of r') row -> meets (attributes_of r') row x.
Proof. exact fit_limits. Qed.
Print Assumptions C28_fit_limits.

Example C28_fit_limits_ex :
  is_good fitted_lenient /\ class_thresholds (e_classes lenient) KRegression = Some (std_limits 3) /\
  well_formed (std_limits 3) /\ attributes_of fitted_lenient "std" = Ok (XNum (Fin 2)) /\
  meets (attributes_of fitted_lenient) [("max", XNum (numz 3))] (Fin 2).
Proof.
  split; [vm_compute; reflexivity|]. split; [reflexivity|]. split; [apply limits_wf|].
  split; [vm_compute; reflexivity|]. apply under_limit. discriminate.
Qed.

Theorem C28_eval_limits : forall E y xs recompute force kw r r' th n row v x,
  evaluates r xs force kw -> eval E y xs recompute force kw r = (Ok tt, r') -> is_good r' ->
  class_thresholds (e_classes E) (r_kind r) = Some th -> well_formed th ->
  In n (measures (r_kind r)) -> limits_of th n row ->
  (forall s, refers_to row s -> In s (measures (r_kind r))) ->
  attributes_of r' n = Ok v -> present v -> measured (e_lib E) row v x ->
  all_numbers (attributes_of r') row -> meets (attributes_of r') row x.
Proof. exact eval_limits. Qed.
Print Assumptions C28_eval_limits.

Example C28_eval_limits_ex :
  exists r', eval lenient target_prices (Some points) true false options fitted_lenient = (Ok tt, r') /\ is_good r' /\
    attributes_of r' "std" = Ok (XNum (Fin 2)).
Proof. eexists. split; [vm_compute; reflexivity|]. split; vm_compute; reflexivity. Qed.

Theorem C28_check : forall E th n row v x r,
  class_thresholds (e_classes E) (r_kind r) = Some th -> well_formed th -> limits_of th n row ->
  attributes_of r n = Ok v -> present v -> measured (e_lib E) row v x -> all_numbers (attributes_of r) row ->
  exists r', check_attribute E n r = (Ok tt, r') /\
    (meets (attributes_of r) row x -> r' = r) /\
    (~ meets (attributes_of r) row x -> is_bad r' /\ blames r' n).
Proof. exact check_decides. Qed.
Print Assumptions C28_check.

Example C28_check_ex :
  check_attribute strict "std" fitted_free = (Ok tt, with_bad "std" fitted_free) /\
  check_attribute lenient "std" fitted_free = (Ok tt, fitted_free) /\
  attributes_of fitted_free "std" = Ok (XNum (Fin 2)).
Proof. runs. Qed.

Theorem C28_check_all : forall E th n row v x r r',
  check_all E r = (Ok tt, r') -> is_good r' ->
  class_thresholds (e_classes E) (r_kind r) = Some th -> well_formed th ->
  In n (measures (r_kind r)) -> limits_of th n row ->
  attributes_of r n = Ok v -> present v -> measured (e_lib E) row v x -> all_numbers (attributes_of r) row ->
  meets (attributes_of r) row x.
Proof. exact check_all_limits. Qed.
Print Assumptions C28_check_all.

Example C28_check_all_ex :
  check_all lenient fitted_free = (Ok tt, fitted_free) /\ is_good fitted_free /\
  check_all strict fitted_free = (Ok tt, with_bad "std" fitted_free).
Proof. runs. Qed.

Theorem C28_no_limits : forall E r,
  (class_thresholds (e_classes E) (r_kind r) = None ->
     (forall n, check_attribute E n r = (Ok tt, r)) /\ check_all E r = (Ok tt, r)) /\
  (forall th n, class_thresholds (e_classes E) (r_kind r) = Some th -> well_formed th ->
     (forall row, ~ limits_of th n row) -> check_attribute E n r = (Ok tt, r)).
Proof. exact check_free. Qed.
Print Assumptions C28_no_limits.

Example C28_no_limits_ex : class_thresholds (e_classes strict) (r_kind (fresh KRule)) = None.
Proof. reflexivity. Qed.

(** The limits on the coverage decide when the rule is built. *)
Theorem C28_constructor : forall E k c a w th row x,
  class_thresholds (e_classes E) k = Some th -> well_formed th -> limits_of th "coverage" row -> numeric th "coverage" ->
  v_bits a = ActSpec.as_01 w -> w <> [] -> v_coverage a = XNone ->
  measured (e_lib E) row (XNum (Fin (ActSpec.fraction (ActSpec.n_ones w) (ActSpec.size w)))) x ->
  exists r, new_rule E k (CCond c) (VActivation a) = Ok r /\
    (meets (attributes_of r) row x -> is_good r /\ blames_nothing r) /\
    (~ meets (attributes_of r) row x -> is_bad r /\ blames r "coverage").
Proof. exact new_rule_decided. Qed.
Print Assumptions C28_constructor.

Example C28_constructor_ex :
  (exists r, new_rule strict KRegression (CCond segment) (VActivation (new_activation hits)) = Ok r /\ is_good r) /\
  (exists r, new_rule strict KRegression (CCond segment) (VActivation (new_activation [0; 0])) = Ok r /\
     is_bad r /\ blames r "coverage").
Proof.
  split; eexists; (split; [vm_compute; reflexivity|]); runs.
Qed.

(** ** C29 *)

Theorem C29_own_limits_refuted : exists E f th row r r1 r2 y xs kw,
  well_formed th /\ limits_of th "std" row /\
  set_thresholds (Some f) r = (Ok tt, r1) /\ r_thr r1 = Some th /\
  fit E y xs false kw r1 = (Ok tt, r2) /\ r_thr r2 = Some th /\ is_good r2 /\
  attributes_of r2 "std" = Ok (XNum (Fin 2)) /\ measured (e_lib E) row (XNum (Fin 2)) (Fin 2) /\
  ~ meets (attributes_of r2) row (Fin 2).
Proof. exact own_limits_refuted. Qed.
Print Assumptions C29_own_limits_refuted.

Theorem C29_own_limits_rejected_refuted : exists E f th row r r1 r2 y xs kw,
  well_formed th /\ limits_of th "std" row /\
  set_thresholds (Some f) r = (Ok tt, r1) /\ r_thr r1 = Some th /\
  fit E y xs false kw r1 = (Ok tt, r2) /\ r_thr r2 = Some th /\ is_bad r2 /\ blames r2 "std" /\
  attributes_of r2 "std" = Ok (XNum (Fin 2)) /\ measured (e_lib E) row (XNum (Fin 2)) (Fin 2) /\
  meets (attributes_of r2) row (Fin 2).
Proof. exact own_limits_rejected. Qed.
Print Assumptions C29_own_limits_rejected_refuted.

Theorem C29_only_stored_partial : forall path r,
  (path = None -> r_thr r = None -> set_thresholds path r = (Err EAttr, r)) /\
  (path = None -> r_thr r <> None -> set_thresholds path r = (Ok tt, r)) /\
  (forall f, path = Some f -> exists r', set_thresholds path r = (Ok tt, r') /\
     r_thr r' = Some (load f) /\ r_good r' = r_good r /\ r_bad r' = r_bad r /\ r_act r' = r_act r /\
     r_cond r' = r_cond r /\ r_dict r' = r_dict r /\ r_kind r' = r_kind r).
Proof. exact set_thresholds_cases. Qed.
Print Assumptions C29_only_stored_partial.

Example C29_only_stored_partial_ex :
  set_thresholds None (fresh KRule) = (Err EAttr, fresh KRule) /\
  set_thresholds (Some (Some (std_rows 1))) (fresh KRule) = (Ok tt, with_thr (Some (std_limits 1)) (fresh KRule)).
Proof. split; reflexivity. Qed.

(** ** C87 *)

Theorem C87_own_class : forall k k' path cs,
  class_thresholds (SET_THRESHOLDS k path cs) k = match path with None => None | Some f => Some (load f) end /\
  (k' <> k -> k <> KRule -> class_thresholds (SET_THRESHOLDS k path cs) k' = class_thresholds cs k').
Proof. exact class_limits. Qed.
Print Assumptions C87_own_class.

Example C87_own_class_ex :
  class_thresholds (SET_THRESHOLDS KRegression (Some (Some (std_rows 1))) untouched) KRegression = Some (std_limits 1) /\
  class_thresholds (SET_THRESHOLDS KRegression (Some (Some (std_rows 1))) untouched) KClassification = None.
Proof. split; reflexivity. Qed.

Theorem C87_kept : forall calls cs k path,
  (forall c, In c calls -> fst c <> k) ->
  class_thresholds (limits_after calls (SET_THRESHOLDS k path cs)) k = match path with None => None | Some f => Some (load f) end.
Proof. exact own_kept. Qed.
Print Assumptions C87_kept.

Example C87_kept_ex :
  class_thresholds (limits_after [(KRule, None)] (SET_THRESHOLDS KRegression (Some (Some (std_rows 1))) untouched)) KRegression =
  Some (std_limits 1).
Proof. reflexivity. Qed.

Theorem C87_inherited : forall calls k,
  (forall c, In c calls -> fst c <> k) -> k <> KRule ->
  class_thresholds (limits_after calls untouched) k = class_thresholds (limits_after calls untouched) KRule.
Proof. intros calls k H N. apply inherited; auto. destruct k; reflexivity. Qed.
Print Assumptions C87_inherited.

Example C87_inherited_ex :
  class_thresholds (limits_after [(KClassification, None); (KRule, Some (Some (std_rows 1)))] untouched) KRegression =
  Some (std_limits 1).
Proof. reflexivity. Qed.

(** ** C30 *)

Theorem C30_consistent : forall E r1 r2 c1 c2 fs1 fs2 xs v1 v2 r,
  CondSpec.known (e_sort E) -> r_cond r1 = Some c1 -> r_cond r2 = Some c2 -> condition c1 fs1 -> condition c2 fs2 ->
  no_nan fs1 -> no_nan fs2 -> well_shaped xs ->
  working r1 (Some xs) v1 -> working r2 (Some xs) v2 -> working r1 None v1 -> working r2 None v2 ->
  rule_and E r1 r2 = Ok r ->
  working r None (product v1 v2) /\ working r (Some xs) (product v1 v2) /\
  r_kind r = r_kind r1 /\ r_fitted r = false /\
  (exists c, band (e_sort E) c1 c2 = Ok c /\ r_cond r = Some c) /\
  (forall n, In n (measures (r_kind r1)) -> n <> "coverage" -> getattr r n = Ok none).
Proof. exact rule_and_consistent. Qed.
Print Assumptions C30_consistent.

Example C30_consistent_ex :
  let r1 := plan_rule floor_plan [1; 0] 3 in let r2 := plan_rule profile [1; 0] 2 in
  CondSpec.known (e_sort free) /\ condition floor_plan [width; depth] /\ condition profile [depth; height] /\
  well_shaped rooms /\ working r1 (Some rooms) [1; 0] /\ working r2 (Some rooms) [1; 0] /\ working r1 None [1; 0] /\
  working r2 None [1; 0] /\
  exists r, rule_and free r1 r2 = Ok r /\ working r (Some rooms) [1; 0] /\ working r None [1; 0].
Proof.
  cbv zeta. split; [left; reflexivity|]. split; [apply floor_plan_ok|]. split; [apply profile_ok|].
  split; [apply rooms_shaped|]. split; [eexists; split; [reflexivity|apply rooms_values]|].
  split; [eexists; split; [reflexivity|apply rooms_values]|].
  split; [eexists; split; reflexivity|]. split; [eexists; split; reflexivity|].
  eexists. split; [vm_compute; reflexivity|]. split; (eexists; split; [reflexivity|vm_compute; reflexivity]).
Qed.

Theorem C30_value : forall E r1 r2 c1 c2 c v1 v2,
  r_cond r1 = Some c1 -> r_cond r2 = Some c2 -> band (e_sort E) c1 c2 = Ok c ->
  working r1 None v1 -> working r2 None v2 -> List.length v1 = List.length v2 ->
  rule_and E r1 r2 = new_rule E (r_kind r1) (CCond c) (VActivation (new_activation (product v1 v2))).
Proof. exact rule_and_ok. Qed.
Print Assumptions C30_value.

Example C30_value_ex :
  exists c, band "index" floor_plan profile = Ok c /\
  rule_and free (plan_rule floor_plan [1; 0; 1] 3) (plan_rule profile [1; 1; 0] 2) =
  new_rule free KRegression (CCond c) (VActivation (new_activation [1; 0; 0])).
Proof. eexists. split; vm_compute; reflexivity. Qed.

Theorem C30_refused : forall E r1 r2,
  (r_cond r1 = None -> rule_and E r1 r2 = Err EType) /\
  (forall c1 fs, r_cond r1 = Some c1 -> condition c1 fs -> CondSpec.known (e_sort E) -> r_cond r2 = None ->
    rule_and E r1 r2 = Err EAttr) /\
  (forall c1, r_cond r1 = Some c1 -> c_min c1 = None -> r_cond r2 = None -> rule_and E r1 r2 = Err EValue) /\
  (forall c1 c2 e, r_cond r1 = Some c1 -> r_cond r2 = Some c2 -> band (e_sort E) c1 c2 = Err e -> rule_and E r1 r2 = Err e) /\
  (forall c1 c2 c, r_cond r1 = Some c1 -> r_cond r2 = Some c2 -> band (e_sort E) c1 c2 = Ok c ->
    (r_act r1 = None -> rule_and E r1 r2 = Err EType) /\
    (r_act r1 <> None -> r_act r2 = None -> rule_and E r1 r2 = Err EAttr) /\
    (forall v1 v2, working r1 None v1 -> working r2 None v2 -> List.length v1 <> List.length v2 ->
       rule_and E r1 r2 = Err EValue)).
Proof. exact rule_and_refused. Qed.
Print Assumptions C30_refused.

Example C30_refused_ex :
  rule_and free (plan_rule floor_plan [1; 0] 3) (plan_rule profile [1] 2) = Err EValue /\
  rule_and free (fresh KRule) (fresh KRule) = Err EType /\
  (forall r, new_rule free KRule CNone VNone = Ok r -> rule_and free (plan_rule floor_plan [1; 0] 3) r = Err EAttr).
Proof.
  split; [vm_compute; reflexivity|]. split; [vm_compute; reflexivity|].
  intros r E. vm_compute in E. injection E as <-. vm_compute. reflexivity.
Qed.

(** ** C31 *)

Theorem C31_number : forall E xs r act x,
  getattr r "prediction" = Ok (number x) -> working r xs act -> bits act -> xs <> None \/ act <> [] ->
  exists l p r', predict E xs r = (Ok p, r') /\ returns xs l p /\
    where_active (eq (LNum x)) (LNum NaN) act l /\ same_attributes ["time_predict"; "_time_predict"] r r'.
Proof. exact predict_number. Qed.
Print Assumptions C31_number.

Example C31_number_ex :
  getattr fitted_free "prediction" = Ok (number (Fin (9 # 3))) /\ working fitted_free (Some points) hits /\
  fst (predict free (Some points) fitted_free) =
    Ok (PVector [LNum (Fin (9 # 3)); LNum NaN; LNum (Fin (9 # 3)); LNum (Fin (9 # 3))]).
Proof.
  split; [vm_compute; reflexivity|]. split; [|vm_compute; reflexivity].
  exists segment. split; vm_compute; reflexivity.
Qed.

Theorem C31_text : forall E xs r act s,
  getattr r "prediction" = Ok (text s) -> s <> "nan" -> (String.length s <= 32)%nat ->
  working r xs act -> bits act -> xs <> None \/ act <> [] ->
  exists l p r', predict E xs r = (Ok p, r') /\ returns xs l p /\
    where_active (eq (LText s)) (LText "nan") act l /\ same_attributes ["time_predict"; "_time_predict"] r r'.
Proof. exact predict_text. Qed.
Print Assumptions C31_text.

Example C31_text_ex :
  getattr fitted_colours "prediction" = Ok (text "red") /\
  fst (predict free None fitted_colours) = Ok (PVector [LText "red"; LText "nan"; LText "red"; LText "red"]).
Proof. split; vm_compute; reflexivity. Qed.

Theorem C31_unset : forall E xs r act,
  getattr r "prediction" = Ok none -> working r xs act -> bits act -> xs <> None \/ act <> [] ->
  exists l p r', predict E xs r = (Ok p, r') /\ returns xs l p /\
    where_active (eq (LNum NaN)) (LNum NaN) act l /\ same_attributes ["time_predict"; "_time_predict"] r r'.
Proof. exact predict_unset. Qed.
Print Assumptions C31_unset.

Example C31_unset_ex :
  fst (predict free None (active KRule [1; 0])) = Ok (PVector [LNum NaN; LNum NaN]).
Proof. vm_compute. reflexivity. Qed.

Theorem C31_refused : forall E r,
  (getattr r "activation" = Ok none -> predict E None r = (Err EValue, r)) /\
  (getattr r "activation" = Err EFileNotFound -> predict E None r = (Err EFileNotFound, r)) /\
  (forall xs act, getattr r "prediction" = Ok (text "nan") -> working r xs act -> xs <> None \/ act <> [] ->
     predict E xs r = (Err EValue, r)) /\
  (forall t, r_cond r = None -> predict E (Some t) r = (Err EAttr, r)) /\
  (forall t c e, r_cond r = Some c -> evaluate c t = Err e -> predict E (Some t) r = (Err e, r)).
Proof. exact predict_refused. Qed.
Print Assumptions C31_refused.

Example C31_refused_ex :
  fst (predict free None (fresh KRule)) = Err EValue /\ fst (predict free None (named "nan")) = Err EValue /\
  fst (predict free None (del_activation (active KRule [1; 0]))) = Err EFileNotFound.
Proof. runs. Qed.

Theorem C31_after_fit : forall E y d rows force kw r r',
  k_method kw = false -> rows <> [] ->
  (forall act, working r (Some (TArray d rows)) act -> act <> []) ->
  fit E y (Some (TArray d rows)) force kw r = (Ok tt, r') ->
  predict E None r' = predict E (Some (TArray d rows)) r'.
Proof. exact predict_after_fit. Qed.
Print Assumptions C31_after_fit.

Example C31_after_fit_ex :
  fst (predict free None fitted_free) =
  Ok (PVector [LNum (Fin (9 # 3)); LNum NaN; LNum (Fin (9 # 3)); LNum (Fin (9 # 3))]).
Proof. vm_compute. reflexivity. Qed.

Theorem C31_vector_number : forall r act x c,
  getattr r "prediction" = Ok (number x) ->
  getattr r "activation" = Ok (OInts act) -> bits act -> r_cond r = Some c -> clen c <> 0%nat ->
  exists l, calc_prediction_vector r = Ok (Some (map LNum l)) /\ where_active (fun z => same_num z x) NaN act l.
Proof. exact prediction_vector_number. Qed.
Print Assumptions C31_vector_number.

Example C31_vector_number_ex :
  getattr fitted_free "activation" = Ok (OInts hits) /\ bits hits /\
  calc_prediction_vector fitted_free = Ok (Some (map LNum [Fin (9 # 3); NaN; Fin (9 # 3); Fin (9 # 3)])).
Proof. split; [vm_compute; reflexivity|]. split; [unfold hits; bit_by_bit|vm_compute; reflexivity]. Qed.

Theorem C31_vector_text : forall r act s c,
  getattr r "prediction" = Ok (text s) ->
  getattr r "activation" = Ok (OInts act) -> bits act -> r_cond r = Some c -> clen c <> 0%nat ->
  exists l, calc_prediction_vector r = Ok (Some l) /\ where_active (eq (LText s)) (LNum NaN) act l.
Proof. exact prediction_vector_text. Qed.
Print Assumptions C31_vector_text.

Example C31_vector_text_ex :
  calc_prediction_vector (named long_name) = Ok (Some [LText long_name; LNum NaN; LText long_name]).
Proof. vm_compute. reflexivity. Qed.

Theorem C31_vector_unset : forall r act,
  getattr r "prediction" = Ok none ->
  getattr r "activation" = Ok (OInts act) -> calc_prediction_vector r = Ok (Some (repeat (LNum NaN) (List.length act))).
Proof. exact prediction_vector_unset. Qed.
Print Assumptions C31_vector_unset.

Example C31_vector_unset_ex : calc_prediction_vector (active KRule [1; 0]) = Ok (Some [LNum NaN; LNum NaN]).
Proof. vm_compute. reflexivity. Qed.

Theorem C31_vector_missing : forall r,
  (getattr r "activation" = Ok none -> calc_prediction_vector r = Ok None) /\
  (getattr r "activation" = Err EFileNotFound -> calc_prediction_vector r = Err EFileNotFound) /\
  (forall act c p, getattr r "activation" = Ok (OInts act) -> getattr r "prediction" = Ok p -> p <> none ->
     r_cond r = Some c -> clen c = 0%nat -> calc_prediction_vector r = Ok (Some [])).
Proof. exact prediction_vector_missing. Qed.
Print Assumptions C31_vector_missing.

Example C31_vector_missing_ex : calc_prediction_vector (fresh KRule) = Ok None.
Proof. reflexivity. Qed.

(** ** C88 and C89 *)

Theorem C88_long_text_refuted : exists E r act s r',
  getattr r "prediction" = Ok (text s) /\ s <> "nan" /\ working r None act /\ act = [1; 0; 1] /\
  predict E None r = (Ok (PVector [LText "the-long-name-of-a-class-of-more"; LText "nan"; LText "the-long-name-of-a-class-of-more"]), r') /\
  s = "the-long-name-of-a-class-of-more-than-32-characters".
Proof. exact long_text_refuted. Qed.
Print Assumptions C88_long_text_refuted.

Theorem C89_one_row_refuted : exists E r t1 t2 x r',
  t1 = TArray 1 [[numz 3]] /\ t2 = TFrame 1 [("x", [numz 3])] /\
  getattr r "prediction" = Ok (number x) /\
  predict E (Some t1) r = (Ok (PVector [LNum x]), r') /\ predict E (Some t2) r = (Ok (PScalar (LNum x)), r').
Proof. exact one_row_refuted. Qed.
Print Assumptions C89_one_row_refuted.

(** ** C32 *)

Theorem C32_activation : forall r a w,
  r_act r = Some a -> v_bits a = ActSpec.as_01 w ->
  (forall n, In n ["nones"; "length"; "entropy"; "rel_entropy"; "raw"; "ones"] -> ~ In n (map fst (r_dict r))) ->
  getattr r "nones" = Ok (integer (ActSpec.n_ones w)) /\
  getattr r "length" = Ok (integer (ActSpec.size w)) /\
  (w <> [] -> getattr r "entropy" = Ok (integer (Z.of_nat (List.length (ActSpec.switches w)) + 2))) /\
  (w <> [] -> getattr r "rel_entropy" =
     Ok (number (Fin (ActSpec.fraction (Z.of_nat (List.length (ActSpec.switches w)) + 2) (ActSpec.size w))))) /\
  (v_here a = true -> getattr r "raw" = Ok (OInts (ActSpec.as_01 w)) /\
     getattr r "ones" = Ok (OInts (ActSpec.positions w))) /\
  (v_here a = false -> getattr r "raw" = Err EFileNotFound /\ getattr r "ones" = Err EFileNotFound).
Proof. exact read_activation. Qed.
Print Assumptions C32_activation.

Example C32_activation_ex :
  getattr fitted_free "nones" = Ok (integer 3) /\ getattr fitted_free "ones" = Ok (OInts [0; 2; 3]) /\
  getattr fitted_free "length" = Ok (integer 4) /\ getattr fitted_free "raw" = Ok (OInts hits).
Proof. runs. Qed.

Theorem C32_coverage : forall r a w,
  r_act r = Some a -> v_bits a = ActSpec.as_01 w -> w <> [] -> v_coverage a = XNone ->
  getattr r "coverage" = Ok (number (Fin (ActSpec.fraction (ActSpec.n_ones w) (ActSpec.size w)))).
Proof. exact read_coverage. Qed.
Print Assumptions C32_coverage.

Example C32_coverage_ex : getattr fitted_free "coverage" = Ok (number (Fin (3 # 4))).
Proof. vm_compute. reflexivity. Qed.

Theorem C32_condition : forall r c fs,
  r_cond r = Some c -> lists c fs ->
  (forall n, In n ["features_names"; "features_indexes"; "bmins"; "bmaxs"; "impossible"] -> ~ In n (map fst (r_dict r))) ->
  getattr r "features_names" = Ok (OTexts (map f_name fs)) /\
  getattr r "features_indexes" = Ok (OInts (map f_index fs)) /\
  getattr r "bmins" = Ok (ONums (map f_low fs)) /\
  getattr r "bmaxs" = Ok (ONums (map f_high fs)) /\
  getattr r "impossible" = Ok (boolean (c_imp c)).
Proof. exact read_condition. Qed.
Print Assumptions C32_condition.

Example C32_condition_ex :
  getattr fitted_free "features_names" = Ok (OTexts ["x"]) /\ getattr fitted_free "bmins" = Ok (ONums [Fin 2]).
Proof. split; vm_compute; reflexivity. Qed.

Theorem C32_missing : forall r n, ~ In n (map fst (r_dict r)) ->
  (In n ["nones"; "length"; "entropy"; "rel_entropy"; "raw"; "ones"] -> r_act r = None -> getattr r n = Err EAttr) /\
  (In n ["features_names"; "features_indexes"; "bmins"; "bmaxs"; "impossible"] -> r_cond r = None ->
     getattr r n = Err EAttr).
Proof. exact read_missing. Qed.
Print Assumptions C32_missing.

Example C32_missing_ex : getattr (fresh KRule) "nones" = Err EAttr.
Proof. vm_compute. reflexivity. Qed.

Theorem C32_unknown : forall r n, ~ In n (dir r) -> r_act r = None -> r_cond r = None -> getattr r n = Err EAttr.
Proof. exact read_unknown. Qed.
Print Assumptions C32_unknown.

Example C32_unknown_ex :
  getattr (mkRule KRule None None None true None false false (initial_dict KRule)) "colour" = Err EAttr.
Proof. vm_compute. reflexivity. Qed.

(** Assignments *)

Theorem C32_assign : forall r n v o,
  public n -> dget n (properties (r_kind r)) = None -> getattr r n = Ok o ->
  exists r', setattr r n v = (Ok tt, r') /\ getattr r' n = Ok v /\ same_attributes [n] r r' /\
    r_cond r' = r_cond r /\ r_act r' = r_act r.
Proof. exact assign_known. Qed.
Print Assumptions C32_assign.

Example C32_assign_ex :
  public "nones" /\ dget "nones" (properties KRegression) = None /\
  getattr fitted_free "nones" = Ok (integer 3) /\
  getattr (snd (setattr fitted_free "nones" (integer 8))) "nones" = Ok (integer 8).
Proof. split; [intros s; discriminate|]. runs. Qed.

Theorem C32_assign_unknown : forall r n v, getattr r n = Err EAttr -> setattr r n v = (Err EAttr, r).
Proof. exact assign_unknown. Qed.
Print Assumptions C32_assign_unknown.

Example C32_assign_unknown_ex : setattr fitted_free "colour" none = (Err EAttr, fitted_free).
Proof. vm_compute. reflexivity. Qed.

Theorem C32_assign_refused : forall r n v,
  In n (["activation"; "activation_available"; "condition"; "prediction"; "thresholds"; "good"; "bad_because"; "time_fit";
         "time_predict"; "time_calc_activation"; "to_hash"] ++
        match r_kind r with
        | KRule => []
        | KRegression => ["std"; "sign"; "criterion"; "zscore"; "time_calc_prediction"; "time_calc_criterion"; "time_calc_std"]
        | KClassification => ["criterion"]
        end) ->
  (exists e, setattr r n v = (Err e, r)) /\ (forall o, getattr r n = Ok o -> setattr r n v = (Err EAttr, r)).
Proof. exact assign_refused. Qed.
Print Assumptions C32_assign_refused.

Example C32_assign_refused_ex : setattr fitted_free "std" (integer 0) = (Err EAttr, fitted_free).
Proof. vm_compute. reflexivity. Qed.

Theorem C32_assign_sizes : forall r n v, n = "train_set_size" \/ n = "test_set_size" ->
  exists r', setattr r n v = (Ok tt, r') /\ getattr r' n = Ok v /\
    r_cond r' = r_cond r /\ r_act r' = r_act r /\
    (forall m, In m (measures (r_kind r)) -> m <> n -> getattr r' m = getattr r m).
Proof. exact assign_sizes. Qed.
Print Assumptions C32_assign_sizes.

Example C32_assign_sizes_ex :
  getattr (snd (setattr fitted_free "test_set_size" (integer 9))) "test_set_size" = Ok (integer 9).
Proof. vm_compute. reflexivity. Qed.

Theorem C32_assign_coverage : forall r v o, getattr r "coverage" = Ok o -> v <> none -> (exists w, v = OVal w) ->
  exists r', setattr r "coverage" v = (Ok tt, r') /\ getattr r' "coverage" = Ok v /\
    r_cond r' = r_cond r /\ (forall u, working r None u <-> working r' None u) /\
    (forall m, In m (measures (r_kind r)) -> m <> "coverage" -> getattr r' m = getattr r m).
Proof. exact assign_coverage. Qed.
Print Assumptions C32_assign_coverage.

Example C32_assign_coverage_ex :
  getattr (snd (setattr fitted_free "coverage" (integer 1))) "coverage" = Ok (integer 1) /\
  getattr (snd (setattr (fresh KRule) "coverage" (integer 1))) "coverage" = Ok (integer 1).
Proof. split; vm_compute; reflexivity. Qed.

Theorem C32_assign_keeps : forall r n v, r_cond (snd (setattr r n v)) = r_cond r /\
  forall u, working (snd (setattr r n v)) None u <-> working r None u.
Proof. exact assign_keeps. Qed.
Print Assumptions C32_assign_keeps.

Example C32_assign_keeps_ex : working (snd (setattr fitted_free "coverage" (integer 1))) None hits.
Proof. eexists. split; vm_compute; reflexivity. Qed.

(** ** C90 *)

Theorem C90_assign_condition_refuted : exists r r' c v,
  r_cond r = Some c /\ getattr r "bmins" = Ok (ONums [numz 2]) /\ v = ONums [numz 0] /\
  setattr r "bmins" v = (Ok tt, r') /\ getattr r' "bmins" = Ok v /\
  r_cond r' = Some c /\ c_min c = Some [numz 2] /\
  evaluate c (TArray 1 [[numz 1]]) = Ok [0].
Proof. exact assign_condition_refuted. Qed.
Print Assumptions C90_assign_condition_refuted.

Theorem C90_assign_activation_refuted : exists r r' v,
  working r None v /\ getattr r "length" = Ok (integer (Z.of_nat (List.length v))) /\
  setattr r "length" (integer 7) = (Ok tt, r') /\ getattr r' "length" = Ok (integer 7) /\
  working r' None v /\ List.length v = 4%nat.
Proof. exact assign_activation_refuted. Qed.
Print Assumptions C90_assign_activation_refuted.

(** ** C33 and C91 *)

Theorem C33_value : forall r1 r2 c1 c2 v1 v2 q1 q2 s1 s2,
  r_cond r1 = Some c1 -> r_cond r2 = Some c2 -> clen c1 = clen c2 ->
  working r1 None v1 -> working r2 None v2 -> List.length v1 = List.length v2 -> v1 <> [] ->
  getattr r1 "prediction" = Ok (number (Fin q1)) -> getattr r2 "prediction" = Ok (number (Fin q2)) ->
  unit_sign q1 s1 -> unit_sign q2 s2 ->
  exists k x, agreements v1 v2 k /\ get_correlation r1 r2 = Ok x /\
    same_num x (Fin (s1 * s2 * (inject_Z (Z.of_nat k) / inject_Z (Z.of_nat (List.length v1))))).
Proof. exact correlation_ok. Qed.
Print Assumptions C33_value.

Example C33_value_ex :
  agreements hits [1; 1; 1; 0] 2 /\ unit_sign 3 1 /\ unit_sign (-2) (-1) /\
  exists x, get_correlation (plan_rule segment hits 3) (plan_rule segment [1; 1; 1; 0] (-2)) = Ok x /\
    same_num x (Fin (-1 # 2)).
Proof.
  split. { unfold hits. apply agree_same. apply agree_other; [discriminate|]. apply agree_same.
    apply agree_other; [discriminate|]. apply agree_nil. }
  split; [left; split; auto; lra|]. split; [right; split; auto; lra|].
  eexists. split; vm_compute; reflexivity.
Qed.

Theorem C33_refused : forall r1 r2 c1 c2, r_cond r1 = Some c1 -> r_cond r2 = Some c2 ->
  (clen c1 <> clen c2 -> get_correlation r1 r2 = Err EValue) /\
  (forall v1 v2 q1 q2, clen c1 = clen c2 -> working r1 None v1 -> working r2 None v2 ->
     List.length v1 <> List.length v2 ->
     getattr r1 "prediction" = Ok (number q1) -> getattr r2 "prediction" = Ok (number q2) ->
     get_correlation r1 r2 = Err EValue).
Proof. exact correlation_refused. Qed.
Print Assumptions C33_refused.

Example C33_refused_ex : get_correlation (plan_rule segment hits 3) (plan_rule segment [1; 1] 1) = Err EValue.
Proof. vm_compute. reflexivity. Qed.

Theorem C91_features_refuted : exists r1 r2 v1 v2,
  working r1 None v1 /\ working r2 None v2 /\ List.length v1 = List.length v2 /\ v1 <> [] /\
  getattr r1 "prediction" = Ok (number (Fin 1)) /\ getattr r2 "prediction" = Ok (number (Fin 2)) /\
  get_correlation r1 r2 = Err EValue.
Proof. exact correlation_features_refuted. Qed.
Print Assumptions C91_features_refuted.

(** ** C34 *)

Theorem C34_constructor : forall E k condition act r, new_rule E k condition act = Ok r ->
  r_kind r = k /\ r_cond r = condition_of condition /\ r_act r = activation_of act /\
  r_fitted r = false /\ r_evaluated r = false /\
  (forall n, In n (measures k) -> n <> "coverage" -> getattr r n = Ok none) /\
  (act = VNone -> getattr r "coverage" = Ok none).
Proof.
  intros E k condition act r N. destruct (new_rule_built _ _ _ _ _ N) as (A & B & C & D & F & G & H & _). auto 8.
Qed.
Print Assumptions C34_constructor.

Example C34_constructor_ex : new_rule free KRegression (CCond segment) VNone = Ok (fresh KRegression).
Proof. exact fresh_built. Qed.

Theorem C34_constructor_errors : forall E k,
  (forall act, new_rule E k COther act = Err EType) /\
  (forall condition, new_rule E k condition VOther = Err EType) /\
  (forall a, new_rule E k CNone (VActivation a) = Err EValue) /\
  (forall c, c <> COther -> exists r, new_rule E k c VNone = Ok r) /\
  (forall c a, class_thresholds (e_classes E) k = None -> exists r, new_rule E k (CCond c) (VActivation a) = Ok r).
Proof. exact new_rule_errors. Qed.
Print Assumptions C34_constructor_errors.

Example C34_constructor_errors_ex : new_rule free KRule CNone (VActivation (new_activation [1])) = Err EValue.
Proof. reflexivity. Qed.

Theorem C34_regression : forall E y ys xs force kw r r',
  r_kind r = KRegression -> is_target y (map LNum ys) -> starts r xs kw -> at_hand r xs ->
  fit E y xs force kw r = (Ok tt, r') ->
  exists act l1 l2, working r xs act /\ (act <> [] -> getattr r' "activation" = Ok (OInts act)) /\
    ["train_set_size"; "prediction"; "std"; "sign"; "zscore"] = l1 ++ l2 /\
    (forall n, In n l1 -> exists o, getattr r' n = Ok o /\ regression_value E act ys (k_horizon kw) n o) /\
    (forall n, In n l2 -> getattr r' n = Ok nan) /\
    (force = true -> l2 = []) /\ (is_good r' -> l2 = []) /\
    (is_good r -> l2 <> [] -> exists l0 n, "coverage" :: l1 = l0 ++ [n] /\ blames r' n) /\
    (is_bad r -> force = false -> l1 = []).
Proof. exact fit_regression. Qed.
Print Assumptions C34_regression.

Example C34_regression_ex :
  is_target target_prices (map LNum prices) /\ starts (fresh KRegression) (Some points) options /\
  getattr fitted_free "zscore" = Ok (number (ndiv (nabs (nsub (Fin (9 # 3)) (nanmean prices))) (nmul (Fin 1) (Fin (2236 # 1000))))) /\
  getattr fitted_strict "std" = Ok (number (Fin 2)) /\ blames fitted_strict "std" /\
  getattr fitted_strict "sign" = Ok nan /\ getattr fitted_strict "zscore" = Ok nan.
Proof.
  split; [left; reflexivity|]. split; [split; [reflexivity|discriminate]|]. runs.
Qed.

Theorem C34_classification : forall E y ys xs force kw r r',
  r_kind r = KClassification -> is_target y ys -> starts r xs kw -> at_hand r xs ->
  fit E y xs force kw r = (Ok tt, r') ->
  exists act l1 l2, working r xs act /\ (act <> [] -> getattr r' "activation" = Ok (OInts act)) /\
    ["train_set_size"; "prediction"] = l1 ++ l2 /\
    (forall n, In n l1 -> exists o, getattr r' n = Ok o /\ classification_value E act ys n o) /\
    (forall n, In n l2 -> getattr r' n = Ok nan) /\
    (force = true -> l2 = []) /\ (is_good r' -> l2 = []) /\
    (is_good r -> l2 <> [] -> exists l0 n, "coverage" :: l1 = l0 ++ [n] /\ blames r' n) /\
    (is_bad r -> force = false -> l1 = []).
Proof. exact fit_classification. Qed.
Print Assumptions C34_classification.

Example C34_classification_ex :
  fit free (YVector colours) (Some points) false options (fresh KClassification) = (Ok tt, fitted_colours) /\
  getattr fitted_colours "prediction" = Ok (text "red") /\ getattr fitted_colours "train_set_size" = Ok (integer 4).
Proof. runs. Qed.

Theorem C34_plain : forall E y ys xs force kw r r',
  r_kind r = KRule -> is_target y ys -> starts r xs kw -> at_hand r xs ->
  fit E y xs force kw r = (Ok tt, r') ->
  exists act, working r xs act /\ (act <> [] -> getattr r' "activation" = Ok (OInts act)) /\
    (is_good r' \/ force = true -> getattr r' "train_set_size" = Ok (integer (Z.of_nat (List.length ys)))) /\
    (is_bad r -> force = false -> getattr r' "train_set_size" = Ok nan).
Proof. exact fit_plain. Qed.
Print Assumptions C34_plain.

Example C34_plain_ex :
  exists r, fit free target_prices (Some points) false options (fresh KRule) = (Ok tt, r) /\
    getattr r "train_set_size" = Ok (integer 4).
Proof. eexists. split; vm_compute; reflexivity. Qed.

Theorem C34_nothing : forall E y xs force kw r,
  (k_method kw = true -> fit E y xs force kw r = (Err EIndex, r)) /\
  (k_method kw = false -> r_fitted r = true -> xs = None -> fit E y xs force kw r = (Ok tt, r)) /\
  (k_method kw = false -> (exists t, xs = Some t /\ nrows t = 0%nat) -> fit E y xs force kw r = (Ok tt, r)) /\
  (k_method kw = false -> r_fitted r = false -> xs = None -> r_act r = None -> fit E y xs force kw r = (Err EValue, r)) /\
  (forall t c e, k_method kw = false -> xs = Some t -> nrows t <> 0%nat -> r_cond r = Some c -> evaluate c t = Err e ->
     fit E y xs force kw r = (Err e, r)).
Proof. exact fit_nothing. Qed.
Print Assumptions C34_nothing.

Example C34_nothing_ex :
  r_fitted fitted_free = true /\ fit free target_prices None true options (fresh KRule) = (Err EValue, fresh KRule).
Proof. split; vm_compute; reflexivity. Qed.

(** Without limits fit succeeds. *)
Theorem C34_regression_succeeds : forall E y ys xs force kw r act l,
  r_kind r = KRegression -> class_thresholds (e_classes E) KRegression = None -> e_subattributes E = false ->
  is_target y (map LNum ys) -> starts r xs kw -> working r xs act -> picks act ys l -> is_good r \/ force = true ->
  exists r', fit E y xs force kw r = (Ok tt, r') /\ getattr r' "good" = getattr r "good" /\ r_fitted r' = true.
Proof. exact fit_regression_total. Qed.
Print Assumptions C34_regression_succeeds.

Example C34_regression_succeeds_ex :
  picks hits prices [numz 1; numz 3; numz 5] /\ working (active KRegression hits) None hits /\
  starts (active KRegression hits) None options.
Proof.
  split. { unfold hits, prices. repeat (apply picks_on; [discriminate|] || apply picks_off). apply picks_nil. }
  split; [eexists; split; reflexivity|]. split; reflexivity.
Qed.

Theorem C34_classification_succeeds : forall E y ys xs force kw r act p,
  r_kind r = KClassification -> class_thresholds (e_classes E) KClassification = None -> e_subattributes E = false ->
  is_target y ys -> starts r xs kw -> working r xs act -> act <> [] ->
  class_probabilities (e_repr E) act ys = Ok p -> is_good r \/ force = true ->
  exists r', fit E y xs force kw r = (Ok tt, r') /\ getattr r' "good" = getattr r "good" /\ r_fitted r' = true.
Proof. exact fit_classification_total. Qed.
Print Assumptions C34_classification_succeeds.

Example C34_classification_succeeds_ex :
  exists p, class_probabilities digits hits colours = Ok p.
Proof. eexists. vm_compute. reflexivity. Qed.

(** Fitting again on the same data changes nothing. *)
Theorem C34_again : forall E y ys xs kw r r1 r2 force force',
  r_kind r = KRegression -> is_target y (map LNum ys) -> nrows xs <> 0%nat -> k_method kw = false ->
  fit E y (Some xs) force kw r = (Ok tt, r1) -> is_good r1 ->
  fit E y (Some xs) force' kw r1 = (Ok tt, r2) -> is_good r2 ->
  forall n, In n ["activation"; "train_set_size"; "prediction"; "std"; "sign"; "zscore"] ->
    getattr r2 n = getattr r1 n.
Proof. exact fit_again. Qed.
Print Assumptions C34_again.

Example C34_again_ex :
  exists r, fit free target_prices (Some points) false options fitted_free = (Ok tt, r) /\ is_good r /\
    getattr r "prediction" = Ok (number (Fin (9 # 3))).
Proof. eexists. runs. Qed.

(** ** C92 *)

Theorem C92_keeps : forall E y xs recompute force kw r r',
  evaluates r xs force kw -> eval E y xs recompute force kw r = (Ok tt, r') ->
  exists act, working r xs act /\
    (forall n, In n (measures (r_kind r)) -> ~ In n (test_attributes (r_kind r)) ->
       n <> "coverage" \/ recompute = false -> getattr r' n = getattr r n) /\
    (recompute = false -> getattr r' "activation" = getattr r "activation") /\
    (recompute = true -> act <> [] -> getattr r' "activation" = Ok (OInts act)).
Proof. exact eval_keeps. Qed.
Print Assumptions C92_keeps.

Example C92_keeps_ex :
  evaluates fitted_free (Some (TArray 1 [[numz 8]; [numz 2]])) false options /\
  let e b := snd (eval free (YVector [LNum (Fin 0); LNum (Fin 1)]) (Some (TArray 1 [[numz 8]; [numz 2]])) b false options fitted_free) in
  getattr (e true) "activation" = Ok (OInts [0; 1]) /\ getattr (e false) "activation" = Ok (OInts hits) /\
  getattr (e true) "prediction" = Ok (number (Fin (9 # 3))).
Proof.
  split; [split; [reflexivity|split; [left; vm_compute; reflexivity|discriminate]]|].
  cbv zeta. runs.
Qed.

Theorem C92_regression : forall E y ys xs recompute force kw r r' q c,
  r_kind r = KRegression -> is_target y (map LNum ys) -> evaluates r xs force kw ->
  getattr r "prediction" = Ok (number q) -> r_cond r = Some c -> clen c <> 0%nat ->
  (forall act, working r xs act -> bits act) ->
  eval E y xs recompute force kw r = (Ok tt, r') ->
  exists act, working r xs act /\
   ((exists v m, where_active (fun x => same_num x q) NaN act v /\
       calc_regression_criterion (VSeries v) ys (k_criterion kw) = Ok (MNum m) /\
       getattr r' "criterion" = Ok (number m)) \/
    (getattr r' "criterion" = Ok nan /\ is_bad r' /\ blames r' "coverage" /\ recompute = true /\ force = false)).
Proof. exact eval_regression. Qed.
Print Assumptions C92_regression.

Example C92_regression_ex :
  exists r, eval free target_prices None false false options fitted_free = (Ok tt, r) /\
    exists x, getattr r "criterion" = Ok (number x) /\ same_num x (Fin (8 # 3)).
Proof. eexists. split; [vm_compute; reflexivity|]. eexists. split; vm_compute; reflexivity. Qed.

Theorem C92_classification : forall E y xs recompute force kw r r' c,
  r_kind r = KClassification -> evaluates r xs force kw ->
  getattr r "prediction" = Ok (class_obj c) ->
  eval E y xs recompute force kw r = (Ok tt, r') ->
  exists act, working r xs act /\
   ((exists m, calc_classification_criterion (ActArray act) (List.length act) (QLabel c) y (k_criterion kw) = Ok (RNum m) /\
       getattr r' "criterion" = Ok (number m)) \/
    (getattr r' "criterion" = Ok nan /\ is_bad r' /\ blames r' "coverage" /\ recompute = true /\ force = false)).
Proof. exact eval_classification. Qed.
Print Assumptions C92_classification.

Example C92_classification_ex :
  exists r, eval free (YVector colours) None false false (mkKw false 1 None) fitted_colours = (Ok tt, r) /\
    exists x, getattr r "criterion" = Ok (number x) /\ same_num x (Fin (2 # 3)).
Proof. eexists. split; [vm_compute; reflexivity|]. eexists. split; vm_compute; reflexivity. Qed.

Theorem C92_plain : forall E y ys xs recompute force kw r r',
  r_kind r = KRule -> is_target y ys -> evaluates r xs force kw ->
  eval E y xs recompute force kw r = (Ok tt, r') ->
  getattr r' "test_set_size" = Ok (integer (Z.of_nat (List.length ys))) \/
  (getattr r' "test_set_size" = Ok nan /\ is_bad r' /\ blames r' "coverage" /\ recompute = true /\ force = false).
Proof. exact eval_plain. Qed.
Print Assumptions C92_plain.

Example C92_plain_ex :
  exists r, eval free target_prices None false false options (active KRule hits) = (Ok tt, r) /\
    getattr r "test_set_size" = Ok (integer 4).
Proof. eexists. split; vm_compute; reflexivity. Qed.

Theorem C92_bad : forall E y xs recompute kw r, k_method kw = false -> is_bad r ->
  exists r', eval E y xs recompute false kw r = (Ok tt, r') /\ is_bad r' /\
    getattr r' "bad_because" = getattr r "bad_because" /\ getattr r' "activation" = getattr r "activation" /\
    (forall n, In n (measures (r_kind r)) -> ~ In n (test_attributes (r_kind r)) -> getattr r' n = getattr r n) /\
    (forall n, In n (test_attributes (r_kind r)) -> getattr r' n = Ok nan).
Proof. exact eval_bad. Qed.
Print Assumptions C92_bad.

Example C92_bad_ex : is_bad fitted_strict.
Proof. vm_compute. reflexivity. Qed.

Theorem C92_nothing : forall E y xs recompute force kw r,
  (k_method kw = true -> eval E y xs recompute force kw r = (Err EIndex, r)) /\
  (k_method kw = false -> is_good r \/ force = true -> (exists t, xs = Some t /\ nrows t = 0%nat) ->
     eval E y xs recompute force kw r = (Ok tt, r)) /\
  (evaluates r xs force kw -> recompute = false -> getattr r "activation_available" = Ok (boolean false) ->
     eval E y xs recompute force kw r = (Err EValue, r)) /\
  (evaluates r xs force kw -> xs = None -> r_act r = None -> eval E y xs recompute force kw r = (Err EValue, r)).
Proof. exact eval_nothing. Qed.
Print Assumptions C92_nothing.

Example C92_nothing_ex :
  eval free target_prices None true false options (fresh KRegression) = (Err EValue, fresh KRegression).
Proof. vm_compute. reflexivity. Qed.

(** ** C93 *)

Theorem C93_equal : forall H r1 r2 c d fs gs,
  unordered H -> r_cond r1 = Some c -> r_cond r2 = Some d -> condition c fs -> condition d gs -> same_content fs gs ->
  rule_eq H r1 r2 = Ok true /\ exists h, rule_hash H r1 = Ok h /\ rule_hash H r2 = Ok h.
Proof. exact equal_rules. Qed.
Print Assumptions C93_equal.

Example C93_equal_ex :
  unordered ideal /\ condition floor_plan [width; depth] /\
  condition (raw_cond [side "depth" 7 (-3) 4; width]) [side "depth" 7 (-3) 4; width] /\
  same_content [width; depth] [side "depth" 7 (-3) 4; width].
Proof.
  split; [apply ideal_unordered|]. split; [apply floor_plan_ok|]. split.
  - apply raw_cond_ok. split; repeat constructor; cbn; intuition discriminate.
  - split; intros f [<-|[<-|[]]];
      [exists width|exists (side "depth" 7 (-3) 4)|exists depth|exists width];
      cbn; intuition reflexivity.
Qed.

Theorem C93_different : forall H r1 r2 c d fs gs,
  collision_free H -> r_cond r1 = Some c -> r_cond r2 = Some d -> condition c fs -> condition d gs ->
  plain_bounds fs -> plain_bounds gs -> ~ same_content fs gs ->
  rule_eq H r1 r2 = Ok false.
Proof. exact different_rules. Qed.
Print Assumptions C93_different.

Example C93_different_ex : collision_free ideal /\ condition floor_plan [width; depth] /\ condition profile [depth; height].
Proof. split; [apply ideal_collision_free|]. split; [apply floor_plan_ok|apply profile_ok]. Qed.

Theorem C93_only_the_condition : forall H r1 r2 r1' r2', r_cond r1' = r_cond r1 -> r_cond r2' = r_cond r2 ->
  rule_eq H r1' r2' = rule_eq H r1 r2 /\ rule_hash H r1' = rule_hash H r1.
Proof. exact rule_eq_only_condition. Qed.
Print Assumptions C93_only_the_condition.

Example C93_only_the_condition_ex : r_cond fitted_free = r_cond (fresh KRegression) /\ r_act fitted_free <> r_act (fresh KRegression).
Proof. split; [vm_compute; reflexivity|]. vm_compute. discriminate. Qed.

(** ** C94 *)

Theorem C94_contains_refuted : exists r1 r2 v1 v2,
  working r1 None v1 /\ working r2 None v2 /\ bits v1 /\ bits v2 /\ List.length v1 = List.length v2 /\
  rule_contains r1 r2 = Ok true /\ ~ included v2 v1 /\ included v1 v2.
Proof. exact contains_refuted. Qed.
Print Assumptions C94_contains_refuted.

Theorem C94_either_way : forall r1 r2 v1 v2,
  working r1 None v1 -> working r2 None v2 -> bits v1 -> bits v2 -> v1 <> [] ->
  List.length v1 = List.length v2 ->
  exists b, rule_contains r1 r2 = Ok b /\ (b = true <-> included v1 v2 \/ included v2 v1).
Proof. exact rule_contains_ok. Qed.
Print Assumptions C94_either_way.

Example C94_either_way_ex :
  rule_contains (active KRule [1; 0; 1]) (active KRule [0; 0; 1]) = Ok true /\
  rule_contains (active KRule [1; 0; 1]) (active KRule [0; 1; 1]) = Ok false.
Proof. split; vm_compute; reflexivity. Qed.

Theorem C94_missing : forall r1 r2, r_act r1 = None \/ r_act r2 = None -> rule_contains r1 r2 = Ok false.
Proof. exact rule_contains_missing. Qed.
Print Assumptions C94_missing.

Example C94_missing_ex : rule_contains (fresh KRule) (active KRule [1]) = Ok false.
Proof. reflexivity. Qed.

Theorem C94_lengths : forall r1 r2 v1 v2, working r1 None v1 -> working r2 None v2 -> v1 <> [] -> v2 <> [] ->
  List.length v1 <> List.length v2 -> rule_contains r1 r2 = Err EValue.
Proof. exact rule_contains_lengths. Qed.
Print Assumptions C94_lengths.

Example C94_lengths_ex : rule_contains (active KRule [1; 0]) (active KRule [1]) = Err EValue.
Proof. reflexivity. Qed.

(** ** C95 *)

Theorem C95_deleted : forall r v, working r None v -> v <> [] ->
  getattr (del_activation r) "activation" = Err EFileNotFound /\
  getattr (del_activation r) "activation_available" = Ok (boolean false) /\
  r_cond (del_activation r) = r_cond r /\
  (forall n, In n (measures (r_kind r)) -> getattr (del_activation r) n = getattr r n).
Proof. exact deleted. Qed.
Print Assumptions C95_deleted.

Example C95_deleted_ex :
  working fitted_free None hits /\ getattr (del_activation fitted_free) "coverage" = Ok (number (Fin (3 # 4))).
Proof. split; [eexists; split; vm_compute; reflexivity|vm_compute; reflexivity]. Qed.

(** ** C96 to C98 *)

Theorem C96_eval_then_fit_refuted : exists E r r1 y kw,
  is_bad r /\ getattr r "prediction" = Ok none /\ r_act r <> None /\
  eval E y None false false kw r = (Ok tt, r1) /\
  fit E y None true kw r1 = (Ok tt, r1) /\ getattr r1 "prediction" = Ok none /\
  exists r2, fit E y None true kw r = (Ok tt, r2) /\ getattr r2 "prediction" = Ok (number (Fin (9 # 3))).
Proof. exact eval_then_fit_refuted. Qed.
Print Assumptions C96_eval_then_fit_refuted.

Theorem C97_test_set_size_refuted : exists E r r1 y xs kw,
  is_good r /\ eval E y xs true false kw r = (Ok tt, r1) /\ is_good r1 /\
  is_target y (map LNum prices) /\ List.length prices = 4%nat /\
  getattr r1 "criterion" = Ok (number (Fin (5832 # 2187))) /\ getattr r1 "test_set_size" = Ok none.
Proof. exact test_size_refuted. Qed.
Print Assumptions C97_test_set_size_refuted.

Theorem C98_activation_limits_refuted : exists E th row r r1 y xs kw,
  class_thresholds (e_classes E) (r_kind r) = Some th /\ well_formed th /\ limits_of th "nones" row /\
  fit E y xs false kw r = (Ok tt, r1) /\ is_good r1 /\
  attributes_of r1 "nones" = Ok (XNum (Fin 3)) /\ measured (e_lib E) row (XNum (Fin 3)) (Fin 3) /\
  ~ meets (attributes_of r1) row (Fin 3) /\
  (exists r2, check_attribute E "nones" r1 = (Ok tt, r2) /\ is_bad r2 /\ blames r2 "nones").
Proof. exact activation_limits_refuted. Qed.
Print Assumptions C98_activation_limits_refuted.

(** Concrete rules: witnesses against the properties that the code does not
    have, and instances for the examples of RuleProps.v. *)
From Coq Require Import List ZArith QArith Bool String Ascii Lia Lqa.
From Coq Require Import List.
From Verif Require ActSpec.
From Verif Require Import Base Num Arith CondModel CondSpec CondBase CondProofs CondWit ThrModel ThrSpec ThrProofs ThrWit
  MetModel MetSpec MetWit RuleModel RuleSpec RuleProofs RuleRoute RuleMore.
Import ListNotations.
Open Scope string_scope.
Open Scope list_scope.
Open Scope Z_scope.

Ltac bit_by_bit := unfold bits; repeat (apply Forall_cons; [lia|]); apply Forall_nil.

Definition root (x : num) : num :=
  match x with
  | Fin q => if Qeq_bool q 1 then Fin 1 else if Qeq_bool q 4 then Fin 2
             else if Qeq_bool q 5 then Fin (2236 # 1000) else if Qeq_bool q 0 then Fin 0 else NaN
  | _ => NaN
  end.

Definition digits (x : num) : string :=
  match x with
  | Fin q => if Qeq_bool q (1 # 3) then "0.3333333333333333"
             else if Qeq_bool q (2 # 3) then "0.6666666666666666" else "1.0"
  | _ => "nan"
  end.

Definition world (cs : classes) : env := mkEnv cs ex_lib root digits (fun _ => Fin 1) false "index".
Definition free : env := world untouched.

(** Limits of the regression rules: the standard deviation is at most [s]. *)
Definition std_rows (s : Z) : list (string * row) :=
  [("std", [("max", XNum (numz s))]); ("prediction", [("min", XNum (numz 0)); ("max", XText "train_set_size")])].
Definition std_limits (s : Z) : thresholds := load (Some (std_rows s)).
Definition strict : env := world (SET_THRESHOLDS KRegression (Some (Some (std_rows 1))) untouched).
Definition lenient : env := world (SET_THRESHOLDS KRegression (Some (Some (std_rows 3))) untouched).

Definition segment : cond := raw_cond [side "x" 0 2 5].
Definition points : table := TArray 1 [[numz 3]; [numz 9]; [numz 4]; [numz 5]].
Definition hits : list Z := [1; 0; 1; 1].
Definition prices : list num := [numz 1; numz 7; numz 3; numz 5].
Definition target_prices : target label := YVector (map LNum prices).
Definition options : keywords := mkKw false 3 (Some "mse").

Definition fresh (k : kind) : rule :=
  regression_dict (mkRule k (Some segment) None None true None false false (initial_dict k)).
Definition active (k : kind) (v : list Z) : rule := with_act (Some (new_activation v)) (fresh k).
Definition fitted_free : rule := snd (fit free target_prices (Some points) false options (fresh KRegression)).
Definition fitted_strict : rule := snd (fit strict target_prices (Some points) false options (fresh KRegression)).
Definition fitted_lenient : rule := snd (fit lenient target_prices (Some points) false options (fresh KRegression)).

Definition colours : list label := [LText "red"; LText "blue"; LText "red"; LText "blue"].
Definition fitted_colours : rule :=
  snd (fit free (YVector colours) (Some points) false options (fresh KClassification)).

Lemma rows_nodup s : NoDup (map fst (std_rows s)) /\ forall k r, In (k, r) (std_rows s) -> NoDup (map fst r).
Proof.
  split.
  - distinct.
  - intros k r H. cbn in H. repeat destruct H as [H|H]; try contradiction; injection H as <- <-; distinct.
Qed.

Lemma limits_wf s : well_formed (std_limits s).
Proof. apply load_file; apply rows_nodup. Qed.

Lemma std_row s : limits_of (std_limits s) "std" [("max", XNum (numz s))].
Proof.
  apply (proj2 (load_file (std_rows s) (proj1 (rows_nodup s)) (proj2 (rows_nodup s)))); [discriminate|]. left. auto.
Qed.

Lemma over_limit f q s : (inject_Z s < q)%Q -> ~ meets f [("max", XNum (numz s))] (Fin q).
Proof. intros L (_ & M & _). apply (M (numz s)); [left; left; auto|]. cbn. auto. Qed.

Lemma under_limit f q s : (q <= inject_Z s)%Q -> meets f [("max", XNum (numz s))] (Fin q).
Proof.
  intros L. split; [|split; [|split]]; intros l [[H|[]]|(x & [H|[]] & _)]; try discriminate H.
  injection H as <-. cbn. lra.
Qed.

Lemma only_max f q s : measured f [("max", XNum (numz s))] (XNum (Fin q)) (Fin q).
Proof. apply m_plain; [intros a [H|[]]; discriminate|left; auto]. Qed.

Lemma fresh_built : new_rule free KRegression (CCond segment) VNone = Ok (fresh KRegression).
Proof. reflexivity. Qed.

Lemma fits : fit free target_prices (Some points) false options (fresh KRegression) = (Ok tt, fitted_free) /\
  fit strict target_prices (Some points) false options (fresh KRegression) = (Ok tt, fitted_strict) /\
  fit lenient target_prices (Some points) false options (fresh KRegression) = (Ok tt, fitted_lenient).
Proof. split; [|split]; vm_compute; reflexivity. Qed.

(** ** The limits of one rule *)

Lemma own_limits_refuted : exists E f th row r r1 r2 y xs kw,
  well_formed th /\ limits_of th "std" row /\
  set_thresholds (Some f) r = (Ok tt, r1) /\ r_thr r1 = Some th /\
  fit E y xs false kw r1 = (Ok tt, r2) /\ r_thr r2 = Some th /\ is_good r2 /\
  attributes_of r2 "std" = Ok (XNum (Fin 2)) /\ measured (e_lib E) row (XNum (Fin 2)) (Fin 2) /\
  ~ meets (attributes_of r2) row (Fin 2).
Proof.
  exists free, (Some (std_rows 1)), (std_limits 1), [("max", XNum (numz 1))], (fresh KRegression),
    (with_thr (Some (std_limits 1)) (fresh KRegression)),
    (snd (fit free target_prices (Some points) false options (with_thr (Some (std_limits 1)) (fresh KRegression)))),
    target_prices, (Some points), options.
  split; [apply limits_wf|]. split; [apply std_row|]. split; [reflexivity|]. split; [reflexivity|].
  split; [vm_compute; reflexivity|]. split; [vm_compute; reflexivity|]. split; [vm_compute; reflexivity|].
  split; [vm_compute; reflexivity|]. split; [apply only_max|]. apply over_limit. reflexivity.
Qed.

(** A rule that respects its own limits is rejected by those of its class. *)
Lemma own_limits_rejected : exists E f th row r r1 r2 y xs kw,
  well_formed th /\ limits_of th "std" row /\
  set_thresholds (Some f) r = (Ok tt, r1) /\ r_thr r1 = Some th /\
  fit E y xs false kw r1 = (Ok tt, r2) /\ r_thr r2 = Some th /\ is_bad r2 /\ blames r2 "std" /\
  attributes_of r2 "std" = Ok (XNum (Fin 2)) /\ measured (e_lib E) row (XNum (Fin 2)) (Fin 2) /\
  meets (attributes_of r2) row (Fin 2).
Proof.
  exists strict, (Some (std_rows 3)), (std_limits 3), [("max", XNum (numz 3))], (fresh KRegression),
    (with_thr (Some (std_limits 3)) (fresh KRegression)),
    (snd (fit strict target_prices (Some points) false options (with_thr (Some (std_limits 3)) (fresh KRegression)))),
    target_prices, (Some points), options.
  split; [apply limits_wf|]. split; [apply std_row|]. split; [reflexivity|]. split; [reflexivity|].
  split; [vm_compute; reflexivity|]. split; [vm_compute; reflexivity|]. split; [vm_compute; reflexivity|].
  split; [vm_compute; reflexivity|]. split; [vm_compute; reflexivity|]. split; [apply only_max|]. apply under_limit.
  discriminate.
Qed.

(** ** Predictions *)

Definition long_name : string := "the-long-name-of-a-class-of-more-than-32-characters".

Definition named (s : string) : rule := put "_prediction" (text s) (active KClassification [1; 0; 1]).

Lemma long_text_refuted : exists E r act s r',
  getattr r "prediction" = Ok (text s) /\ s <> "nan" /\ working r None act /\ act = [1; 0; 1] /\
  predict E None r = (Ok (PVector [LText "the-long-name-of-a-class-of-more"; LText "nan"; LText "the-long-name-of-a-class-of-more"]), r') /\
  s = long_name.
Proof.
  exists free, (named long_name), [1; 0; 1], long_name,
    (put "_time_predict" (number (Fin 1)) (named long_name)).
  split; [reflexivity|]. split; [discriminate|]. split; [eexists; split; reflexivity|]. split; auto.
Qed.

(** One row: an array of one element, but a scalar from a DataFrame. *)
Lemma one_row_refuted : exists E r t1 t2 x r' ,
  t1 = TArray 1 [[numz 3]] /\ t2 = TFrame 1 [("x", [numz 3])] /\
  getattr r "prediction" = Ok (number x) /\
  predict E (Some t1) r = (Ok (PVector [LNum x]), r') /\ predict E (Some t2) r = (Ok (PScalar (LNum x)), r').
Proof.
  exists free, (put "_prediction" (number (Fin 7)) (fresh KRegression)), (TArray 1 [[numz 3]]), (TFrame 1 [("x", [numz 3])]), (Fin 7),
    (put "_time_predict" (number (Fin 1)) (put "_prediction" (number (Fin 7)) (fresh KRegression))).
  repeat split; vm_compute; reflexivity.
Qed.

(** ** Attributes *)

(** Writing the bounds of the condition through the rule has no effect on it. *)
Lemma assign_condition_refuted : exists r r' c v,
  r_cond r = Some c /\ getattr r "bmins" = Ok (ONums [numz 2]) /\ v = ONums [numz 0] /\
  setattr r "bmins" v = (Ok tt, r') /\ getattr r' "bmins" = Ok v /\
  r_cond r' = Some c /\ c_min c = Some [numz 2] /\
  evaluate c (TArray 1 [[numz 1]]) = Ok [0].
Proof.
  exists (fresh KRule), (put "bmins" (ONums [numz 0]) (fresh KRule)), segment, (ONums [numz 0]).
  repeat split; vm_compute; reflexivity.
Qed.

Lemma assign_activation_refuted : exists r r' v,
  working r None v /\ getattr r "length" = Ok (integer (Z.of_nat (List.length v))) /\
  setattr r "length" (integer 7) = (Ok tt, r') /\ getattr r' "length" = Ok (integer 7) /\
  working r' None v /\ List.length v = 4%nat.
Proof.
  exists (active KRule hits), (put "length" (integer 7) (active KRule hits)), hits.
  split; [eexists; split; reflexivity|]. split; [reflexivity|]. split; [reflexivity|]. split; [reflexivity|].
  split; [eexists; split; reflexivity|reflexivity].
Qed.

(** ** Correlation *)

Definition plan_rule (c : cond) (v : list Z) (q : Q) : rule :=
  put "_prediction" (number (Fin q))
    (regression_dict (mkRule KRegression (Some c) (Some (new_activation v)) None true None false false (initial_dict KRegression))).

Lemma correlation_features_refuted : exists r1 r2 v1 v2,
  working r1 None v1 /\ working r2 None v2 /\ List.length v1 = List.length v2 /\ v1 <> [] /\
  getattr r1 "prediction" = Ok (number (Fin 1)) /\ getattr r2 "prediction" = Ok (number (Fin 2)) /\
  get_correlation r1 r2 = Err EValue.
Proof.
  exists (plan_rule segment hits 1), (plan_rule floor_plan hits 2), hits, hits.
  split; [eexists; split; reflexivity|]. split; [eexists; split; reflexivity|]. repeat split; auto. discriminate.
Qed.

(** ** eval and fit *)

(** Evaluating a bad rule that has not been fitted prevents its fit. *)
Lemma eval_then_fit_refuted : exists E r r1 y kw,
  is_bad r /\ getattr r "prediction" = Ok none /\ r_act r <> None /\
  eval E y None false false kw r = (Ok tt, r1) /\
  fit E y None true kw r1 = (Ok tt, r1) /\ getattr r1 "prediction" = Ok none /\
  exists r2, fit E y None true kw r = (Ok tt, r2) /\ getattr r2 "prediction" = Ok (number (Fin (9 # 3))).
Proof.
  exists free, (with_bad "coverage" (active KRegression hits)),
    (snd (eval free target_prices None false false options (with_bad "coverage" (active KRegression hits)))),
    target_prices, options.
  split; [reflexivity|]. split; [reflexivity|]. split; [discriminate|]. split; [vm_compute; reflexivity|].
  split; [vm_compute; reflexivity|]. split; [vm_compute; reflexivity|].
  exists (snd (fit free target_prices None true options (with_bad "coverage" (active KRegression hits)))).
  split; vm_compute; reflexivity.
Qed.

Lemma test_size_refuted : exists E r r1 y xs kw,
  is_good r /\ eval E y xs true false kw r = (Ok tt, r1) /\ is_good r1 /\
  is_target y (map LNum prices) /\ List.length prices = 4%nat /\
  getattr r1 "criterion" = Ok (number (Fin (5832 # 2187))) /\ getattr r1 "test_set_size" = Ok none.
Proof.
  exists free, fitted_free, (snd (eval free target_prices (Some points) true false options fitted_free)),
    target_prices, (Some points), options.
  split; [vm_compute; reflexivity|]. split; [vm_compute; reflexivity|]. split; [vm_compute; reflexivity|].
  split; [left; reflexivity|]. split; [reflexivity|]. split; vm_compute; reflexivity.
Qed.

(** ** Limits on what belongs to the activation *)

Definition few_ones : list (string * row) := [("nones", [("max", XNum (numz 1))])].
Definition few_env : env := world (SET_THRESHOLDS KRegression (Some (Some few_ones)) untouched).

Lemma activation_limits_refuted : exists E th row r r1 y xs kw,
  class_thresholds (e_classes E) (r_kind r) = Some th /\ well_formed th /\ limits_of th "nones" row /\
  fit E y xs false kw r = (Ok tt, r1) /\ is_good r1 /\
  attributes_of r1 "nones" = Ok (XNum (Fin 3)) /\ measured (e_lib E) row (XNum (Fin 3)) (Fin 3) /\
  ~ meets (attributes_of r1) row (Fin 3) /\
  (exists r2, check_attribute E "nones" r1 = (Ok tt, r2) /\ is_bad r2 /\ blames r2 "nones").
Proof.
  assert (Nd : NoDup (map fst few_ones) /\ forall k r, In (k, r) few_ones -> NoDup (map fst r)).
  { split; [distinct|]. intros k r H. cbn in H. destruct H as [H|[]]. injection H as <- <-. distinct. }
  exists few_env, (load (Some few_ones)), [("max", XNum (numz 1))], (fresh KRegression),
    (snd (fit few_env target_prices (Some points) false options (fresh KRegression))),
    target_prices, (Some points), options.
  split; [reflexivity|]. split; [apply load_file; apply Nd|].
  split. { apply (proj2 (load_file few_ones (proj1 Nd) (proj2 Nd))); [discriminate|left; auto]. }
  split; [vm_compute; reflexivity|]. split; [vm_compute; reflexivity|]. split; [vm_compute; reflexivity|].
  split; [apply only_max|]. split; [apply over_limit; reflexivity|].
  eexists. split; [vm_compute; reflexivity|]. split; vm_compute; reflexivity.
Qed.

(** ** Containment *)

Lemma contains_refuted : exists r1 r2 v1 v2,
  working r1 None v1 /\ working r2 None v2 /\ bits v1 /\ bits v2 /\ List.length v1 = List.length v2 /\
  rule_contains r1 r2 = Ok true /\ ~ included v2 v1 /\ included v1 v2.
Proof.
  exists (active KRule [1; 0]), (active KRule [1; 1]), [1; 0], [1; 1].
  split; [eexists; split; reflexivity|]. split; [eexists; split; reflexivity|].
  split; [bit_by_bit|]. split; [bit_by_bit|]. split; auto. split; [reflexivity|].
  split.
  - intros H. inversion H as [|? ? ? ? _ H2]; subst. inversion H2 as [|? ? ? ? H3 _]; subst. specialize (H3 eq_refl). discriminate.
  - unfold included. repeat constructor; auto.
Qed.

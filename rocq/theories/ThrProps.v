(** Properties of Thresholds. *)
From Coq Require Import List ZArith QArith Qabs Bool String.
From Coq Require Import List.
From Verif Require Import Base Num Arith CondModel CondSpec ThrModel ThrSpec ThrProofs ThrWit.
Import ListNotations.
Open Scope Z_scope.
Open Scope string_scope.

(** C26 *)

Theorem C26_number : forall lib th k rule r v x,
  well_formed th -> limits_of th k r -> rule k = Ok v -> present v ->
  measured lib r v x -> all_numbers rule r ->
  exists b, fst (call lib th k rule) = Ok b /\ (b = true <-> meets rule r x).
Proof. exact check_number. Qed.
Print Assumptions C26_number.

Example C26_number_ex :
  well_formed ex_thr /\ limits_of ex_thr "std" ex_std_row /\
  ex_rule "std" = Ok (XNum (Fin (-1 # 1))) /\ measured ex_lib ex_std_row (XNum (Fin (-1 # 1))) (Fin 1) /\
  all_numbers ex_rule ex_std_row /\ meets ex_rule ex_std_row (Fin 1) /\
  fst (call ex_lib ex_thr "std" ex_rule) = Ok true.
Proof.
  split; [exact ex_thr_wf|]. split; [apply ex_limits; [discriminate|cbn; auto]|].
  split; [reflexivity|]. split; [exact ex_std_measured|]. split; [exact ex_std_numbers|].
  split; [exact ex_std_meets|]. vm_compute; reflexivity.
Qed.

Theorem C26_text : forall lib th k rule r v,
  well_formed th -> limits_of th k r -> rule k = Ok v -> present v -> worded lib r v -> all_numbers rule r ->
  ((exists l, In ("min", l) r \/ In ("max", l) r) -> fst (call lib th k rule) = Err EType) /\
  ((forall l, ~ In ("min", l) r /\ ~ In ("max", l) r) ->
   exists b, fst (call lib th k rule) = Ok b /\ (b = true <-> forall l, ~ In ("equal", l) r)).
Proof. exact check_text. Qed.
Print Assumptions C26_text.

Example C26_text_ex :
  worded ex_lib [("equal", XNum (Fin 1)); ("different", XNum (Fin 2))] (XText "+") /\
  fst (call ex_lib ex_thr "sign" ex_rule) = Ok false /\
  fst (call ex_lib ex_thr "name" ex_rule) = Err EType.
Proof.
  split; [apply w_plain; [intros a [H|[H|[]]]; discriminate|left; eauto]|].
  split; vm_compute; reflexivity.
Qed.

Theorem C26_unlimited : forall lib th k rule,
  well_formed th ->
  ((forall r, ~ limits_of th k r) -> fst (call lib th k rule) = Ok true) /\
  (rule k = Ok XNone \/ rule k = Ok XCall -> fst (call lib th k rule) = Ok true) /\
  (forall r e, limits_of th k r -> rule k = Err e -> fst (call lib th k rule) = Err e).
Proof. exact check_unlimited. Qed.
Print Assumptions C26_unlimited.

Example C26_unlimited_ex :
  fst (call ex_lib ex_thr "prediction" ex_rule) = Ok true /\
  fst (call ex_lib ex_thr "coverage" (fun _ => Ok XNone)) = Ok true /\
  fst (call ex_lib ex_thr "coverage" (fun _ => Err EAttr)) = Err EAttr.
Proof. repeat split; vm_compute; reflexivity. Qed.

Theorem C26_unknown_function : forall lib th k rule r v a,
  well_formed th -> limits_of th k r -> rule k = Ok v -> present v ->
  In ("arg", XText a) r -> ~ In a ["abs"; "sqrt"; "exp"; "log"; "str"; "int"] ->
  fst (call lib th k rule) = Err EValue.
Proof. exact check_unknown_arg. Qed.
Print Assumptions C26_unknown_function.

Example C26_unknown_function_ex :
  limits_of ex_thr "zscore" [("min", XNum (Fin 0)); ("arg", XText "cosine")] /\
  fst (call ex_lib ex_thr "zscore" ex_rule) = Err EValue.
Proof.
  split; [apply ex_limits; [discriminate|cbn; auto 8]|]. vm_compute; reflexivity.
Qed.

Theorem C26_not_a_number : forall lib th k rule r v,
  well_formed th -> limits_of th k r -> rule k = Ok v -> present v ->
  (exists x, measured lib r v x) \/ worded lib r v ->
  (forall j s, In (j, XText s) r -> j <> "arg" -> exists u, rule s = Ok u) ->
  (exists j l, In (j, l) r /\ j <> "arg" /\ forall x, ~ limit rule r j x) ->
  fst (call lib th k rule) = Err EType.
Proof. exact check_bad_limit. Qed.
Print Assumptions C26_not_a_number.

Example C26_not_a_number_ex :
  measured ex_lib [("min", XText "bad_because")] (XInt 7) (Fin 7) /\
  ex_rule "bad_because" = Ok XNone /\
  fst (call ex_lib ex_thr "criterion" ex_rule) = Err EType.
Proof.
  split; [apply m_plain; [intros a [H|[]]; discriminate|right; exists 7; auto]|].
  split; vm_compute; reflexivity.
Qed.

(** C27 *)

Theorem C27_no_file : forall k r, ~ limits_of (load None) k r.
Proof. exact load_missing. Qed.
Print Assumptions C27_no_file.

Theorem C27_file : forall rows,
  NoDup (map fst rows) -> (forall k r, In (k, r) rows -> NoDup (map fst r)) ->
  well_formed (load (Some rows)) /\
  (forall k r, k <> "coverage" -> limits_of (load (Some rows)) k r <-> In (k, r) rows) /\
  (forall r, limits_of (load (Some rows)) "coverage" r <-> coverage_row rows r).
Proof. exact load_file. Qed.
Print Assumptions C27_file.

Example C27_file_ex :
  NoDup (map fst ex_rows) /\ (forall k r, In (k, r) ex_rows -> NoDup (map fst r)) /\
  limits_of ex_thr "coverage" [("max", XNum (Fin (9 # 10))); ("min", XNum (Fin (1 # 20)))] /\
  fst (call ex_lib ex_thr "coverage" ex_rule) = Ok false.
Proof.
  split; [apply ex_rows_nodup|]. split; [apply ex_rows_nodup|]. split; [exact ex_coverage|].
  vm_compute; reflexivity.
Qed.

Theorem C27_checks_keep_limits : forall lib l th, well_formed th ->
  well_formed (checks lib th l) /\
  (forall k r, limits_of (checks lib th l) k r <-> limits_of th k r) /\
  forall k rule, fst (call lib (checks lib th l) k rule) = fst (call lib th k rule).
Proof. exact checks_keep. Qed.
Print Assumptions C27_checks_keep_limits.

(** The limit named "prediction" is 3 for the first rule and 0 for the second. *)
Example C27_checks_keep_limits_ex :
  let other k := if str_eqb k "prediction" then Ok (XNum (Fin 0)) else ex_rule k in
  fst (call ex_lib ex_thr "std" ex_rule) = Ok true /\
  fst (call ex_lib (checks ex_lib ex_thr [("std", ex_rule); ("criterion", ex_rule)]) "std" other) = Ok false /\
  fst (call ex_lib (checks ex_lib ex_thr [("std", other)]) "std" ex_rule) = Ok true.
Proof. repeat split; vm_compute; reflexivity. Qed.

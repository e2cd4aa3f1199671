(** Properties of what the names of a rule read. *)
From Coq Require Import List ZArith QArith Bool String Ascii Lia.
From Coq Require Import List.
From Verif Require Import Base Num CondModel ThrModel MetModel MetWit RuleModel ThrWit RuleSpec RuleWit RuleReads.
Import ListNotations.
Open Scope string_scope.
Open Scope list_scope.
Open Scope Z_scope.

(** ** C209 *)

Theorem C209_own : forall (r : rule),
  unset ["_condition"; "_activation"; "_thresholds"; "_good"; "_bad_because"; "_fitted"; "_evaluated"] r ->
  getattr r "_good" = Ok (OVal (XNum (numz (if r_good r then 1 else 0)))) /\
  getattr r "_fitted" = Ok (OVal (XNum (numz (if r_fitted r then 1 else 0)))) /\
  getattr r "_evaluated" = Ok (OVal (XNum (numz (if r_evaluated r then 1 else 0)))) /\
  getattr r "_bad_because" = Ok (OVal (match r_bad r with Some a => XText a | None => XNone end)) /\
  (getattr r "_condition" = Ok (OVal XNone) <-> r_cond r = None) /\
  (getattr r "_activation" = Ok (OVal XNone) <-> r_act r = None) /\
  (getattr r "_thresholds" = Ok (OVal XNone) <-> r_thr r = None).
Proof. exact own_attributes. Qed.
Print Assumptions C209_own.

Example C209_own_ex : getattr fitted_strict "_good" = Ok (OVal (XNum (numz 0))) /\ getattr fitted_strict "_bad_because" = Ok (OVal (XText "std")) /\
  getattr fitted_strict "_evaluated" = Ok (OVal (XNum (numz 0))) /\ getattr fitted_strict "_fitted" = Ok (OVal (XNum (numz 1))).
Proof.
  destruct (C209_own fitted_strict) as (G & F & V & B & _).
  - intros n I. repeat (destruct I as [<-|I]; [vm_compute; reflexivity|]). destruct I.
  - rewrite G, F, V, B. vm_compute. auto.
Qed.

Theorem C209_condition : forall (r : rule) (c : cond),
  unset ["features_names"; "features_indexes"; "bmins"; "bmaxs"; "impossible"] r -> r_cond r = Some c ->
  getattr r "features_names" = Ok (match c_names c with Some l => OTexts l | None => OVal XNone end) /\
  getattr r "features_indexes" = Ok (match c_idx c with Some l => OInts l | None => OVal XNone end) /\
  getattr r "bmins" = Ok (match c_min c with Some l => ONums l | None => OVal XNone end) /\
  getattr r "bmaxs" = Ok (match c_max c with Some l => ONums l | None => OVal XNone end) /\
  getattr r "impossible" = Ok (OVal (XNum (numz (if c_imp c then 1 else 0)))).
Proof. exact condition_attributes_read. Qed.
Print Assumptions C209_condition.

Example C209_condition_ex :
  let r := mkRule KRegression (Some (mkCond (Some [0; 3]) None (Some [Fin 1; PInf]) None true)) (Some (new_activation [1; 0])) None true None false false [] in
  getattr r "features_indexes" = Ok (OInts [0; 3]) /\ getattr r "features_names" = Ok (OVal XNone) /\ getattr r "bmins" = Ok (OVal XNone).
Proof.
  intros r. destruct (C209_condition r (mkCond (Some [0; 3]) None (Some [Fin 1; PInf]) None true)) as (A & B & C & _).
  - intros n _. reflexivity.
  - reflexivity.
  - rewrite A, B, C. auto.
Qed.

Theorem C209_no_classes : forall (r : rule) (p : proba), r_kind r = KClassification -> slot "_prediction" r = OTable p ->
  p = PNumbers [] \/ p = PTexts [] \/ p = PPairs [] -> getattr r "prediction" = Err EValue.
Proof. exact no_classes. Qed.
Print Assumptions C209_no_classes.

Example C209_no_classes_ex : getattr (put "_prediction" (OTable (PPairs [])) (fresh KClassification)) "prediction" = Err EValue.
Proof. apply C209_no_classes with (p := PPairs []); [reflexivity|reflexivity|auto]. Qed.

(** ** C210 *)

Theorem C210_subattributes : forall (E : env) (y : target label) (xs : option table) (force : bool) (kw : keywords) (r r' : rule) (n : string),
  e_subattributes E = true -> r_fitted r = false -> (forall t, xs = Some t -> nrows t <> O) ->
  fit E y xs force kw r = (Ok tt, r') -> In n (index (r_kind r')) -> exists v, getattr r' n = Ok v.
Proof. exact triggered. Qed.
Print Assumptions C210_subattributes.

(** With the attributes read at the end of fit *)
Definition eager : env := mkEnv untouched ex_lib root digits (fun _ => Fin 1) true "index".

Example C210_subattributes_ex : let r' := snd (fit eager target_prices (Some points) false options (fresh KRegression)) in
  (exists v, getattr r' "zscore" = Ok v) /\
  fst (fit eager target_prices None false options (mkRule KRegression None (Some (new_activation [1; 0; 1])) None true None false false [])) <> Ok tt.
Proof.
  intros r'. split; [|vm_compute; discriminate].
  apply (C210_subattributes eager target_prices (Some points) false options (fresh KRegression) r').
  - reflexivity.
  - reflexivity.
  - intros t H. injection H as <-. vm_compute. discriminate.
  - rewrite (surjective_pairing (fit _ _ _ _ _ _)). fold r'. assert (Q : fst (fit eager target_prices (Some points) false options (fresh KRegression)) = Ok tt) by (vm_compute; reflexivity).
    rewrite Q. reflexivity.
  - vm_compute. tauto.
Qed.

(** ** C211 *)

Theorem C211_nan_last : forall (repr : num -> string) (act : list Z) (y : list label) (rows : list (num * num)),
  class_probabilities repr act y = Ok (PNumbers rows) ->
  exists a b, rows = a ++ b /\ (forall p, In p a -> fst p <> NaN) /\ (forall p, In p b -> fst p = NaN).
Proof. exact nan_last. Qed.
Print Assumptions C211_nan_last.

Example C211_nan_last_ex : exists rows, class_probabilities digits [1; 1; 1; 1] [LNum NaN; LNum (Fin 2); LNum NaN; LNum MInf] = Ok (PNumbers rows) /\
  map fst rows = [MInf; Fin 2; NaN; NaN] /\ exists a b, rows = a ++ b /\ (forall p, In p a -> fst p <> NaN) /\ (forall p, In p b -> fst p = NaN).
Proof.
  eexists. split; [vm_compute; reflexivity|]. split; [reflexivity|].
  apply (C211_nan_last digits [1; 1; 1; 1] [LNum NaN; LNum (Fin 2); LNum NaN; LNum MInf]). vm_compute. reflexivity.
Qed.

(** Vocabulary of the statements about fit and eval of rulesets. *)
From Coq Require Import List ZArith QArith Bool String Ascii.
From Coq Require Import List.
From Verif Require Import Base Num Arith CondModel CondSpec CondMore ThrModel ThrSpec MetModel MetSpec RuleModel RuleSpec.
From Verif Require Import PredModel PredSpec SetModel SetSpec FitModel.
Import ListNotations.
Open Scope string_scope.
Open Scope list_scope.
Open Scope Z_scope.

(** The ruleset can learn: its rules are of one of the two types that have predictions. *)
Definition learner (s : ruleset) (kw : keywords) : Prop :=
  (s_type s = Some KRegression \/ s_type s = Some KClassification) /\ k_method kw = false.

Definition has_rows (xs : option table) : Prop :=
  match xs with Some t => nrows t <> 0%nat | None => True end.

(** fit does something. *)
Definition fits_something (s : ruleset) (xs : option table) (kw : keywords) : Prop :=
  learner s kw /\ s_rules s <> [] /\ has_rows xs /\
  (xs = None -> exists r, In r (s_rules s) /\ r_fitted r = false).

(** eval does something. *)
Definition evaluates_something (s : ruleset) (xs : option table) (kw : keywords) : Prop :=
  learner s kw /\ s_rules s <> [] /\ has_rows xs /\
  (xs = None -> forall r, In r (s_rules s) -> r_fitted r = true).

(** The new activations replace the old ones: on demand, or when some rule is not fitted. *)
Definition replaces (keep_new : bool) (s : ruleset) : Prop :=
  keep_new = true \/ exists r, In r (s_rules s) /\ r_fitted r = false.

(** No two rules have the same features and bounds. *)
Definition all_different (rules : list rule) : Prop := ForallOrdPairs (fun r r' => ~ same_rule r r') rules.

(** What fit and eval leave alone *)
Definition same_settings (s s' : ruleset) : Prop :=
  s_type s' = s_type s /\ s_stack s' = s_stack s /\ s_compute s' = s_compute s /\ s_coverage s' = s_coverage s.

(** The activation of the ruleset is the union of those of its rules. *)
Definition in_step (s : ruleset) : Prop :=
  (forall r, In r (s_rules s) -> present r) ->
  match s_rules s with
  | [] => set_vector s = Ok None
  | rules => exists w, set_vector s = Ok (Some w) /\ covers rules w /\ bits w
  end.

(** ** STACKED_FIT *)

(** The value of the train attribute [n] of a regression rule activated at the
    points [act], computed for all the rules together: the standard deviation is
    that of pandas, NaN for one point. *)
Definition stacked_value (E : env) (act : list Z) (ys : list num) (horizon : Z) (n : string) (o : obj) : Prop :=
  (n <> "std" /\ regression_value E act ys horizon n o) \/
  (n = "std" /\ exists x, o = number x /\ forall l qs, picks act ys l -> values l qs ->
     ((List.length qs <= 1)%nat -> x = e_sqrt E NaN) /\
     ((2 <= List.length qs)%nat -> exists w, x = e_sqrt E (Fin w) /\ variance 1 qs w)).

Definition stacked_class (act : list Z) (ys : list label) (n : string) (o : obj) : Prop :=
  (n = "train_set_size" /\ o = integer (Z.of_nat (List.length ys))) \/
  (n = "prediction" /\ exists c, o = class_obj c /\ forall l, picks act ys l -> majority l c).

(** Every rule is activated somewhere, where the classes are of one kind. *)
Definition clear_classes (ys : list label) (columns : list (string * list Z)) : Prop :=
  forall n act, In (n, act) columns -> exists l, picks act ys l /\ l <> [] /\ MetSpec.classes l /\
    forall c, In c l -> c <> LText "" /\ c <> LText "zero".

(** The vectors of the rules are [columns], and the ruleset does not have others. *)
Definition ready (E : env) (xs : option table) (s : ruleset) (n : nat) (columns : list (string * list Z)) : Prop :=
  vectors E xs (s_rules s) n columns /\
  (xs = None -> s_stacked s = None \/ s_stacked s = Some (mkFrame n columns)).

(** [r'] is the rule [r] after a fit of all the rules together, which gives the
    attributes [names] values that satisfy [Val]. *)
Definition fitted_together (E : env) (xs : option table) (names : list string) (Val : list Z -> string -> obj -> Prop)
    (dropped : list rule) (r r' : rule) : Prop :=
  r_kind r' = r_kind r /\ r_cond r' = r_cond r /\ r_fitted r' = true /\ r_evaluated r' = r_evaluated r /\
  exists act, working r xs act /\ getattr r' "activation" = Ok (OInts act) /\
    (forall n, In n names -> exists o, getattr r' n = Ok o /\ Val act n o) /\
    (forall n, In n (measures (r_kind r)) -> ~ In n names -> n <> "coverage" -> getattr r' n = getattr r n) /\
    (is_bad r -> is_bad r' /\ In r' dropped) /\
    (is_good r' -> check_all E r' = (Ok tt, r')) /\
    (is_good r -> is_bad r' -> exists n th row, blames r' n /\ class_thresholds (e_classes E) (r_kind r) = Some th /\
       (well_formed th -> limits_of th n row /\
        (In n (measures (r_kind r)) -> numeric th n -> forall v x, attributes_of r' n = Ok v -> ThrSpec.present v ->
           measured (e_lib E) row v x -> ~ meets (attributes_of r') row x))).

(** The criterion of the rule [r], activated at the points [act]. *)
Definition regression_error (ys : list num) (method : option string) (r : rule) (act : list Z) (o : obj) : Prop :=
  forall q, getattr r "prediction" = Ok (number q) ->
    exists v m, where_active (fun x => same_num x q) NaN act v /\
      calc_regression_criterion (VSeries v) ys method = Ok (MNum m) /\ o = number m.

Definition success (ys : list label) (r : rule) (act : list Z) (o : obj) : Prop :=
  exists e, o = number e /\
    forall c l j a, getattr r "prediction" = Ok (class_obj c) -> picks act ys l ->
      (forall d, In d l -> d <> LText "" /\ d <> LText "zero") ->
      tally (same_class c) l j -> tally (fun d => d <> LNum NaN) l a ->
      (a = O -> e = NaN) /\
      (a <> O -> exists x, e = Fin x /\ (x * inject_Z (Z.of_nat a) == inject_Z (Z.of_nat j))%Q).

(** [r'] is the rule [r] after an eval of all the rules together. *)
Definition evaluated_together (E : env) (xs : option table) (new : Prop) (Val : rule -> list Z -> obj -> Prop)
    (dropped : list rule) (r r' : rule) : Prop :=
  r_kind r' = r_kind r /\ r_cond r' = r_cond r /\ r_evaluated r' = true /\ r_fitted r' = r_fitted r /\
  exists act o, working r xs act /\
    (xs <> None -> new -> getattr r' "activation" = Ok (OInts act)) /\
    (~ new -> getattr r' "activation" = getattr r "activation" /\ getattr r' "coverage" = getattr r "coverage") /\
    getattr r' "criterion" = Ok o /\ Val r act o /\
    (forall n, In n (measures (r_kind r)) -> n <> "criterion" -> n <> "coverage" -> getattr r' n = getattr r n) /\
    (is_bad r -> is_bad r' /\ In r' dropped) /\
    (is_good r' -> check_all E r' = (Ok tt, r')) /\
    (is_good r -> is_bad r' -> exists n th row, blames r' n /\ class_thresholds (e_classes E) (r_kind r) = Some th /\
       (well_formed th -> limits_of th n row /\
        (In n (measures (r_kind r)) -> numeric th n -> forall v x, attributes_of r' n = Ok v -> ThrSpec.present v ->
           measured (e_lib E) row v x -> ~ meets (attributes_of r') row x))).

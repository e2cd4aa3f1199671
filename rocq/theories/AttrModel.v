(** fit and eval of a rule whose class has its own lists of attributes:
    [Rule.attributes_from_train_set] and [Rule.attributes_from_test_set] are class
    attributes that a user may assign or that a subclass may redefine
    (ruleskit/rule.py, lines 56-57, 577-578 and 726-727). *)
From Coq Require Import List ZArith QArith Bool String Ascii.
From Coq Require Import List.
From Verif Require Import Base Num CondModel ThrModel MetModel RuleModel.
Import ListNotations.
Open Scope string_scope.
Open Scope list_scope.
Open Scope Z_scope.

(** Names that are left out: the private attribute of these is not an entry of
    the dictionary of the model (or, for "prediction_vector", there is a method
    calc_prediction_vector that stores nothing), and a name that starts with an
    underscore may be that of a special method. *)
Definition set_aside : list string :=
  ["good"; "bad_because"; "condition"; "thresholds"; "fitted"; "evaluated"; "prediction_vector"].

Definition left_aside (names : list string) : bool :=
  existsb (fun n => existsb (str_eqb n) set_aside || prefix "_" n) names.

(** ** fit, lines 335-388, [names]: [self.__class__.attributes_from_train_set] *)
Definition fit_with (E : env) (names : list string) (y : target label) (xs : option table) (force : bool)
    (kw : keywords) (r : rule) : res unit * rule :=
  if left_aside names then (Err ENotImpl, r)
  else if k_method kw then (Err EIndex, r)
  else if r_fitted r && match xs with None => true | Some _ => false end then (Ok tt, r)
  else if match xs with Some t => (nrows t =? 0)%nat | None => false end then (Ok tt, r)
  else
    andthen (calc_activation E xs r) (fun r =>
    andthen (compute E names y None kw force r) (fun r =>
    andthen (if r_good r then check_all E r else (Ok tt, r)) (fun r =>
    andthen (if e_subattributes E then (trigger r, r) else (Ok tt, r)) (fun r =>
    (Ok tt, with_fitted (put_time E "_time_fit" r)))))).

(** ** eval, lines 390-462, [names]: [self.__class__.attributes_from_test_set].
    Lines 417-422 do not test the names: "activation" would replace the
    activation of a bad rule by NaN; left out. *)
Definition eval_with (E : env) (names : list string) (y : target label) (xs : option table) (recompute force : bool)
    (kw : keywords) (r : rule) : res unit * rule :=
  if left_aside names then (Err ENotImpl, r)
  else if k_method kw then (Err EIndex, r)
  else if negb (r_good r) && negb force then
    if existsb (str_eqb "activation") names then (Err ENotImpl, r)
    else (Ok tt, put_all names (with_fitted (put_time E "_time_eval" r)))
  else if match xs with Some t => (nrows t =? 0)%nat | None => false end then (Ok tt, r)
  else
    andthen (if recompute then calc_activation E xs r else (Ok tt, r)) (fun r =>
    let xs := if recompute then None else xs in
    if negb (activation_available r) then (Err EValue, r)
    else
      step (match xs with Some t => rmap Some (evaluate_activation r t) | None => Ok (r_act r) end) (fun act r =>
      andthen (compute E names y act kw force r) (fun r =>
      andthen (if r_good r then check_all E r else (Ok tt, r)) (fun r =>
      (Ok tt, with_evaluated (put_time E "_time_eval" r))))) r).

(** Model of ruleskit/rule.py: Rule, RegressionRule and ClassificationRule.

    Simplifications.  An activation is its vector, whether its data is still
    there and its coverage (ActModel models the storage; the vector of
    [Activation(v)] and of [a & b] is the subject of its theorems).  Reading the
    vector of a deleted activation raises FileNotFoundError whatever the format.
    Thresholds are not changed by a check (theorem C27_checks_keep_limits), so a
    check is a function of the limits.  The duration of a step is an argument.
    The statistics of an activation that has been deleted are taken to have been
    computed before.  The base class Condition is left out: a condition is a
    HyperrectangleCondition. *)
From Coq Require Import List ZArith QArith Bool String Ascii.
From Coq Require Import List.
From Verif Require ActModel.
From Verif Require Import Base Num Arith CondModel ThrModel MetModel.
Import ListNotations.
Open Scope string_scope.
Open Scope list_scope.
Open Scope Z_scope.

(** ** Objects *)

Inductive kind := KRule | KRegression | KClassification.

(** Values of attributes *)
Inductive obj :=
| OVal (v : val)
| OInts (l : list Z)
| ONums (l : list num)
| OTexts (l : list string)
| OTable (p : proba).   (* the array of class_probabilities *)

Definition none : obj := OVal XNone.
Definition nan : obj := OVal (XNum NaN).
Definition number (x : num) : obj := OVal (XNum x).
Definition integer (z : Z) : obj := OVal (XNum (numz z)).
Definition boolean (b : bool) : obj := integer (if b then 1 else 0).
Definition text (s : string) : obj := OVal (XText s).
Definition other : obj := OVal XOther.
Definition callable : obj := OVal XCall.

(** What a threshold sees of a value *)
Definition to_val (o : obj) : val := match o with OVal v => v | _ => XOther end.

Record activation := mkActv {
  v_bits : list Z;
  v_here : bool;         (* false once deleted *)
  v_coverage : val }.    (* _coverage *)

Definition new_activation (bits : list Z) : activation := mkActv bits true XNone.

Definition nones (a : activation) : Z := Z.of_nat (List.length (filter (fun x => x =? 1) (v_bits a))).
Definition alen (a : activation) : Z := Z.of_nat (List.length (v_bits a)).

Definition raw (a : activation) : res (list Z) :=
  if v_here a then Ok (v_bits a) else Err EFileNotFound.

(** activation.py 1214-1223 *)
Definition act_coverage (a : activation) : res val :=
  match v_coverage a with
  | XNone =>
      if alen a =? 0 then Err EZeroDiv
      else Ok (XNum (Fin (inject_Z (nones a) / inject_Z (alen a))))
  | v => Ok v
  end.

(** The instance attributes that are not fields of this record are in [r_dict]. *)
Record rule := mkRule {
  r_kind : kind;
  r_cond : option cond;
  r_act : option activation;
  r_thr : option thresholds;      (* _thresholds *)
  r_good : bool;
  r_bad : option string;          (* _bad_because *)
  r_fitted : bool;
  r_evaluated : bool;
  r_dict : list (string * obj) }.

Definition with_act (a : option activation) (r : rule) : rule :=
  mkRule (r_kind r) (r_cond r) a (r_thr r) (r_good r) (r_bad r) (r_fitted r) (r_evaluated r) (r_dict r).
Definition with_thr (t : option thresholds) (r : rule) : rule :=
  mkRule (r_kind r) (r_cond r) (r_act r) t (r_good r) (r_bad r) (r_fitted r) (r_evaluated r) (r_dict r).
Definition with_bad (a : string) (r : rule) : rule :=
  mkRule (r_kind r) (r_cond r) (r_act r) (r_thr r) false (Some a) (r_fitted r) (r_evaluated r) (r_dict r).
Definition with_fitted (r : rule) : rule :=
  mkRule (r_kind r) (r_cond r) (r_act r) (r_thr r) (r_good r) (r_bad r) true (r_evaluated r) (r_dict r).
Definition with_evaluated (r : rule) : rule :=
  mkRule (r_kind r) (r_cond r) (r_act r) (r_thr r) (r_good r) (r_bad r) (r_fitted r) true (r_dict r).
(** [self._x = v] *)
Definition put (name : string) (v : obj) (r : rule) : rule :=
  mkRule (r_kind r) (r_cond r) (r_act r) (r_thr r) (r_good r) (r_bad r) (r_fitted r) (r_evaluated r)
         (dset name v (r_dict r)).

(** [self._x] for an attribute that __init__ sets *)
Definition slot (name : string) (r : rule) : obj :=
  match dget name (r_dict r) with Some v => v | None => none end.

(** ** The class attributes *)

(** Lines 56-57, 577-578 and 726-727 *)
Definition train_attributes (k : kind) : list string :=
  match k with
  | KRule => ["train_set_size"]
  | KRegression => ["train_set_size"; "prediction"; "std"; "sign"; "zscore"]
  | KClassification => ["train_set_size"; "prediction"]
  end.

Definition test_attributes (k : kind) : list string :=
  match k with
  | KRule => ["test_set_size"]
  | KRegression | KClassification => ["criterion"]
  end.

(** [index]: lines 52-54, 575-576 and 724-725 *)
Definition index (k : kind) : list string :=
  ["features_names"; "features_indexes"; "bmins"; "bmaxs"; "prediction"] ++
  match k with
  | KRule => []
  | KRegression => ["coverage"; "zscore"; "criterion"; "std"]
  | KClassification => ["coverage"; "criterion"]
  end.

(** THRESHOLDS, as an attribute of each class; RegressionRule and
    ClassificationRule have the one of Rule until they are given their own. *)
Record classes := mkClasses {
  c_rule : option thresholds;
  c_regression : option (option thresholds);
  c_classification : option (option thresholds) }.

Definition class_thresholds (cs : classes) (k : kind) : option thresholds :=
  match k with
  | KRule => c_rule cs
  | KRegression => match c_regression cs with Some t => t | None => c_rule cs end
  | KClassification => match c_classification cs with Some t => t | None => c_rule cs end
  end.

(** SET_THRESHOLDS, lines 64-70.  A path is the content of its file. *)
Notation threshold_file := (option (list (string * row))).

Definition SET_THRESHOLDS (k : kind) (path : option threshold_file) (cs : classes) : classes :=
  let t := match path with None => None | Some f => Some (load f) end in
  match k with
  | KRule => mkClasses t (c_regression cs) (c_classification cs)
  | KRegression => mkClasses (c_rule cs) (Some t) (c_classification cs)
  | KClassification => mkClasses (c_rule cs) (c_regression cs) (Some t)
  end.

(** The rest of the world *)
Record env := mkEnv {
  e_classes : classes;
  e_lib : library;                (* functions used by thresholds *)
  e_sqrt : num -> num;
  e_repr : num -> string;
  e_time : string -> num;         (* duration of each step *)
  e_subattributes : bool;         (* COMPUTE_SUBATTRIBUTES *)
  e_sort : settings }.            (* of the conditions *)

(** ** Reading attributes *)

(** Lines 177-182.  Reading does not set [_coverage] here. *)
Definition coverage (r : rule) : res obj :=
  match r_act r with
  | Some a => rmap OVal (act_coverage a)
  | None => Ok (slot "_coverage" r)
  end.

(** Lines 210-221; an activation of length 0 is false. *)
Definition activation_vector (r : rule) : res (option (list Z)) :=
  match r_act r with
  | Some a => if alen a =? 0 then Ok None else rmap Some (raw a)
  | None => Ok None
  end.

(** Lines 167-175 *)
Definition activation_available (r : rule) : bool :=
  match r_act r with
  | Some a => v_here a
  | None => false
  end.

Definition label_obj (c : label) : obj :=
  match c with LNum x => number x | LText s => text s end.

(** Lines 223-225 and 729-741 *)
Definition prediction (r : rule) : res obj :=
  match r_kind r, slot "_prediction" r with
  | KClassification, OTable p => rmap label_obj (most_probable p)
  | _, v => Ok v
  end.

Definition has_condition (r : rule) : bool :=
  match r_cond r with Some _ => true | None => false end.

(** Public names that read an instance attribute *)
Definition reads (name : string) : string * (rule -> res obj) :=
  (name, fun r => Ok (slot ("_" ++ name)%string r)).

Definition properties (k : kind) : list (string * (rule -> res obj)) :=
  match k with
  | KRule => []
  | KRegression =>
      [reads "std"; reads "sign"; reads "criterion"; reads "zscore"; reads "time_calc_prediction";
       reads "time_calc_criterion"; reads "time_calc_std"]
  | KClassification => [reads "criterion"]
  end ++
  [("activation", fun r => rmap (fun o => match o with Some l => OInts l | None => none end) (activation_vector r));
   ("activation_available", fun r => Ok (boolean (activation_available r)));
   ("coverage", coverage);
   reads "train_set_size"; reads "test_set_size";
   ("condition", fun r => Ok (if has_condition r then other else none));
   ("prediction", prediction);
   ("thresholds", fun r => Ok (match r_thr r with Some _ => callable | None => none end));
   ("good", fun r => Ok (boolean (r_good r)));
   ("bad_because", fun r => Ok (match r_bad r with Some a => text a | None => none end));
   reads "time_fit"; reads "time_predict"; reads "time_calc_activation";
   ("to_hash", fun r => if has_condition r then Ok other else Err EAttr)].

(** The fields of [rule] as instance attributes *)
Definition fields (r : rule) : list (string * obj) :=
  [("_condition", if has_condition r then other else none);
   ("_activation", match r_act r with Some _ => other | None => none end);
   ("_thresholds", match r_thr r with Some _ => callable | None => none end);
   ("_good", boolean (r_good r));
   ("_bad_because", match r_bad r with Some a => text a | None => none end);
   ("_fitted", boolean (r_fitted r));
   ("_evaluated", boolean (r_evaluated r))].

(** Methods and other class attributes (LOCAL_ACTIVATION has its default value) *)
Definition methods (k : kind) : list string :=
  ["SET_THRESHOLDS"; "THRESHOLDS"; "calc_activation"; "calc_prediction_vector"; "calc_test_set_size";
   "calc_train_set_size"; "check_thresholds"; "del_activation"; "eval"; "evaluate_activation"; "fit";
   "get_correlation"; "predict"; "set_thresholds"; "trigger_subattributes_computation"] ++
  match k with
  | KRule => []
  | KRegression => ["calc_prediction"; "calc_sign"; "calc_std"; "calc_criterion"; "calc_zscore"]
  | KClassification => ["calc_prediction"; "calc_criterion"]
  end.

Definition constants (k : kind) : list (string * obj) :=
  [("LOCAL_ACTIVATION", boolean true); ("COMPUTE_SUBATTRIBUTES", boolean false); ("_abc_impl", other);
   ("attributes_from_test_set", OTexts (test_attributes k));
   ("attributes_from_train_set", OTexts (train_attributes k));
   ("condition_index", OTexts ["features_names"; "features_indexes"; "bmins"; "bmaxs"]);
   ("rule_index", OTexts (skipn 4 (index k))); ("index", OTexts (index k));
   ("fitted_if_has", text "prediction"); ("daughters", OTexts [])] ++
  map (fun n => (n, callable)) (methods k).

(** Attributes of the activation; the values of those of the last line are left
    out. *)
Definition activation_attributes : list (string * (activation -> res obj)) :=
  [("nones", fun a => Ok (integer (nones a)));
   ("length", fun a => Ok (integer (alen a)));
   ("coverage", fun a => rmap OVal (act_coverage a));
   ("entropy", fun a => Ok (integer (Z.of_nat (List.length (ActModel.compress_list (v_bits a))))));
   ("rel_entropy", fun a =>
      if alen a =? 0 then Err EZeroDiv
      else Ok (number (Fin (inject_Z (Z.of_nat (List.length (ActModel.compress_list (v_bits a)))) /
                            inject_Z (alen a)))));
   ("raw", fun a => rmap OInts (raw a));
   ("ones", fun a => rmap (fun l => OInts (ActModel.where_one 0 l)) (raw a))] ++
  map (fun n => (n, fun _ => Ok callable)) ["delete"; "clear"; "to_raw_from_any"; "multi_logical_and";
     "multi_logical_or"; "multi_logical_xor"; "clean_files"] ++
  map (fun n => (n, fun _ => Ok other)) ["data"; "data_format"; "optimize"; "loaded"; "lasy"; "as_bitarray";
     "as_integer"; "as_compressed"; "as_compressed_array"; "as_compressed_str"; "n_written"; "n_read"].

Definition list_or_none {A} (f : list A -> obj) (o : option (list A)) : res obj :=
  Ok (match o with Some l => f l | None => none end).

(** Attributes of the condition *)
Definition condition_attributes : list (string * (cond -> res obj)) :=
  [("features_names", fun c => list_or_none OTexts (c_names c));
   ("features_indexes", fun c => list_or_none OInts (c_idx c));
   ("bmins", fun c => list_or_none ONums (c_min c));
   ("bmaxs", fun c => list_or_none ONums (c_max c));
   ("impossible", fun c => Ok (boolean (c_imp c)));
   ("evaluate", fun _ => Ok callable); ("sort", fun _ => Ok callable);
   ("normalize_features_indexes", fun _ => Ok callable); ("getattr", fun _ => Ok other)].

(** [hasattr(o, name)] and [getattr(o, name)] in one: None if there is no such
    attribute. *)
Definition find_attribute {T} (table : list (string * (T -> res obj))) (o : option T) (name : string)
    : option (res obj) :=
  match o with
  | None => None
  | Some x =>
      match dget name table with
      | None => None
      | Some f => match f x with Err EAttr => None | v => Some v end
      end
  end.

(** __getattr__, lines 254-263 *)
Definition delegated (r : rule) (name : string) : res obj :=
  match find_attribute activation_attributes (r_act r) name with
  | Some v => v
  | None =>
      match find_attribute condition_attributes (r_cond r) name with
      | Some v => v
      | None => Err EAttr
      end
  end.

(** [getattr(rule, name)]: a property, otherwise an instance attribute,
    otherwise a class attribute, otherwise (also when the property raises
    AttributeError) __getattr__ *)
Definition getattr (r : rule) (name : string) : res obj :=
  match dget name (properties (r_kind r)) with
  | Some f => match f r with Err EAttr => delegated r name | v => v end
  | None =>
      match dget name (r_dict r ++ fields r ++ constants (r_kind r)) with
      | Some v => Ok v
      | None => delegated r name
      end
  end.

(** [dir(rule)] without the names that start with two underscores *)
Definition dir (r : rule) : list string :=
  sorted str_ltb (set_of str_eqb
    (map fst (properties (r_kind r)) ++ map fst (r_dict r) ++ map fst (fields r) ++ map fst (constants (r_kind r)))).

(** ** Writing attributes, lines 265-280 *)

Definition hasattr (r : rule) (name : string) : res bool :=
  match getattr r name with
  | Ok _ => Ok true
  | Err EAttr => Ok false
  | Err e => Err e
  end.

(** Lines 184-188 *)
Definition set_coverage (v : obj) (r : rule) : rule :=
  put "_coverage" v
    match r_act r with
    | Some a => with_act (Some (mkActv (v_bits a) (v_here a) (to_val v))) r
    | None => r
    end.

(** object.__setattr__: properties without setter refuse. *)
Definition super_setattr (r : rule) (name : string) (v : obj) : res unit * rule :=
  if str_eqb name "coverage" then (Ok tt, set_coverage v r)
  else if str_eqb name "train_set_size" then (Ok tt, put "_train_set_size" v r)
  else if str_eqb name "test_set_size" then (Ok tt, put "_test_set_size" v r)
  else match dget name (properties (r_kind r)) with
       | Some _ => (Err EAttr, r)
       | None => (Ok tt, put name v r)
       end.

(** [rule.name = v] for a name that does not start with an underscore.  The
    values assigned to the activation and to the condition are left out (these
    branches are never taken, see C32). *)
Definition setattr (r : rule) (name : string) (v : obj) : res unit * rule :=
  match hasattr r name with
  | Err e => (Err e, r)
  | Ok true => super_setattr r name v
  | Ok false =>
      match find_attribute activation_attributes (r_act r) name with
      | Some _ => (Err ENotImpl, r)
      | None =>
          match find_attribute condition_attributes (r_cond r) name with
          | Some _ => (Err ENotImpl, r)
          | None => (Err EAttr, r)
          end
      end
  end.

(** ** Thresholds *)

(** Lines 134-138: one attribute *)
Definition judge (E : env) (th : thresholds) (attribute : string) (r : rule) : res bool :=
  fst (call (e_lib E) th attribute (fun n => rmap to_val (getattr r n))).

Definition check_attribute (E : env) (attribute : string) (r : rule) : res unit * rule :=
  match class_thresholds (e_classes E) (r_kind r) with
  | None => (Ok tt, r)
  | Some th =>
      match judge E th attribute r with
      | Err e => (Err e, r)
      | Ok true => (Ok tt, r)
      | Ok false => (Ok tt, with_bad attribute r)
      end
  end.

(** Lines 140-147: all the attributes, up to the first that fails *)
Fixpoint check_names (E : env) (th : thresholds) (names : list string) (r : rule) : res unit * rule :=
  match names with
  | [] => (Ok tt, r)
  | a :: t =>
      match judge E th a r with
      | Err e => (Err e, r)
      | Ok true => check_names E th t r
      | Ok false => (Ok tt, with_bad a r)
      end
  end.

Definition check_all (E : env) (r : rule) : res unit * rule :=
  match class_thresholds (e_classes E) (r_kind r) with
  | None => (Ok tt, r)
  | Some th => check_names E th (dir r) r
  end.

(** Lines 113-118.  [self._thresholds.THRESHOLDS = None] only adds an attribute
    to the Thresholds object. *)
Definition set_thresholds (path : option threshold_file) (r : rule) : res unit * rule :=
  match path with
  | None => match r_thr r with None => (Err EAttr, r) | Some _ => (Ok tt, r) end
  | Some f => (Ok tt, with_thr (Some (load f)) r)
  end.

(** ** Construction, lines 72-110 and 580-590 *)

Definition times : list string :=
  ["_time_fit"; "_time_eval"; "_time_calc_activation"; "_time_predict"; "_time_calc_prediction";
   "_time_calc_criterion"; "_time_calc_zscore"].

Definition initial_dict (k : kind) : list (string * obj) :=
  [("_name", none); ("_coverage", none); ("_prediction", none); ("_criterion", none); ("_zscore", none)] ++
  map (fun n => (n, integer (-1))) times ++
  [("_train_set_size", none); ("_test_set_size", none)].

Inductive cond_arg := CNone | CCond (c : cond) | COther.
Inductive act_arg := VNone | VActivation (a : activation) | VOther.

(** RegressionRule sets three more attributes after the check of the coverage. *)
Definition regression_dict (r : rule) : rule :=
  match r_kind r with
  | KRegression => put "_time_calc_std" (integer (-1)) (put "_sign" none (put "_std" none r))
  | _ => r
  end.

Definition new_rule (E : env) (k : kind) (condition : cond_arg) (act : act_arg) : res rule :=
  match condition with
  | COther => Err EType
  | _ =>
      match act with
      | VOther => Err EType
      | _ =>
          match condition, act with
          | CNone, VActivation _ => Err EValue
          | _, _ =>
              let c := match condition with CCond c => Some c | _ => None end in
              let a := match act with VActivation a => Some a | _ => None end in
              let r := mkRule k c a (class_thresholds (e_classes E) k) true None false false (initial_dict k) in
              match a with
              | None => Ok (regression_dict r)
              | Some _ =>
                  match check_attribute E "coverage" r with
                  | (Err e, _) => Err e
                  | (Ok _, r) => Ok (regression_dict r)
                  end
              end
          end
      end
  end.

(** Activation.__and__ on vectors *)
Definition act_and (a b : activation) : res activation :=
  if negb (alen a =? alen b) then Err EValue
  else rbind (raw a) (fun x => rbind (raw b) (fun y =>
       Ok (new_activation (map (fun p => fst p * snd p) (combine x y))))).

(** __and__, lines 149-153 *)
Definition rule_and (E : env) (r1 r2 : rule) : res rule :=
  match r_cond r1, r_cond r2 with
  | Some c1, Some c2 =>
      rbind (band (e_sort E) c1 c2) (fun c =>
      match r_act r1, r_act r2 with
      | Some a1, Some a2 => rbind (act_and a1 a2) (fun a => new_rule E (r_kind r1) (CCond c) (VActivation a))
      | Some _, None => Err EAttr
      | None, _ => Err EType
      end)
  | Some c1, None => rbind (copied (e_sort E) c1) (fun _ => Err EAttr)
  | None, _ => Err EType
  end.

(** del_activation, lines 161-165 *)
Definition del_activation (r : rule) : rule :=
  match r_act r with
  | None => r
  | Some a => with_act (Some (mkActv (v_bits a) false (v_coverage a))) r
  end.

(** ** Comparison, lines 282-315 *)

Definition rule_len (r : rule) : res nat :=
  match r_cond r with Some c => Ok (clen c) | None => Err EType end.

(** [to_hash] as the hashes of its elements *)
Definition rule_to_hash (H : hashing) (r : rule) : res (list Z) :=
  match r_cond r with
  | None => Err EAttr
  | Some c => rmap (fun l => h_str H "r" :: tl l) (to_hash H c)
  end.

Definition rule_hash (H : hashing) (r : rule) : res Z := rmap (h_set H) (rule_to_hash H r).

(** A rule without condition compared with one that has a condition is left out. *)
Definition rule_eq (H : hashing) (r1 r2 : rule) : res bool :=
  match r_cond r1, r_cond r2 with
  | Some c1, Some c2 => ceq H c1 c2
  | None, None => Ok true
  | _, _ => Err ENotImpl
  end.

(** Activation.__contains__ *)
Definition act_contains (a b : activation) : res bool :=
  rbind (act_and a b) (fun i => Ok (negb (nones i <? Z.min (nones a) (nones b)))).

(** [other in self] *)
Definition rule_contains (self r2 : rule) : res bool :=
  match r_act self, r_act r2 with
  | Some a, Some b => if (alen a =? 0) || (alen b =? 0) then Ok false else act_contains a b
  | _, _ => Ok false
  end.

(** ** Steps of a computation *)

Definition andthen (m : res unit * rule) (f : rule -> res unit * rule) : res unit * rule :=
  match m with
  | (Ok _, r) => f r
  | (Err e, r) => (Err e, r)
  end.

(** A value computed from the rule, then stored *)
Definition step {A} (v : res A) (f : A -> rule -> res unit * rule) (r : rule) : res unit * rule :=
  match v with
  | Ok a => f a r
  | Err e => (Err e, r)
  end.

Definition put_time (E : env) (name : string) (r : rule) : rule := put name (number (e_time E name)) r.

(** Lines 317-333 *)
Definition evaluate_activation (r : rule) (xs : table) : res activation :=
  match r_cond r with
  | None => Err EAttr
  | Some c => rmap new_activation (evaluate c xs)
  end.

(** calc_activation, lines 535-557 *)
Definition calc_activation (E : env) (xs : option table) (r : rule) : res unit * rule :=
  match xs with
  | None => match r_act r with None => (Err EValue, r) | Some _ => (Ok tt, r) end
  | Some xs =>
      if (nrows xs =? 0)%nat then (Ok tt, r)
      else
        step (evaluate_activation r xs)
             (fun a r => check_attribute E "coverage" (put_time E "_time_calc_activation" (with_act (Some a) r))) r
  end.

(** ** Attributes *)

(** A target as numbers; a target with texts is left out. *)
Definition number_target (y : target label) : res (target num) :=
  let numbers l := rseq (map (fun c => match c with LNum x => Ok x | LText _ => Err EType end) l) in
  match y with
  | YVector l => rmap YVector (numbers l)
  | YColumn l => rmap YColumn (numbers l)
  | YTable => Ok YTable
  end.

(** [len(y)]; for a table with several columns left out *)
Definition target_len {A} (y : target A) : res Z :=
  rmap (fun l => Z.of_nat (List.length l)) (flat y).

(** A criterion computed from numbers *)
Definition the_metric (m : metric) : res num :=
  match m with MNum x => Ok x | MSeries _ => Err ENotImpl end.

(** [activation.raw] of the argument, or of the rule when it is None.  None:
    return without doing anything *)
Definition raw_of (act : option activation) (r : rule) : option (res (list Z)) :=
  match act with
  | Some a => Some (raw a)
  | None => match r_act r with Some a => Some (raw a) | None => None end
  end.

Definition if_activation (act : option activation) (r : rule) (f : list Z -> rule -> res unit * rule)
    : res unit * rule :=
  match raw_of act r with
  | None => (Ok tt, r)
  | Some v => step v f r
  end.

(** Lines 559-569 *)
Definition calc_train_set_size (y : target label) (r : rule) : res unit * rule :=
  step (target_len y) (fun n r => (Ok tt, put "_train_set_size" (integer n) r)) r.
Definition calc_test_set_size (y : target label) (r : rule) : res unit * rule :=
  step (target_len y) (fun n r => (Ok tt, put "_test_set_size" (integer n) r)) r.

(** RegressionRule.calc_prediction, lines 621-642 *)
Definition calc_mean (E : env) (y : target label) (act : option activation) (r : rule) : res unit * rule :=
  if_activation act r (fun v =>
    step (rbind (number_target y) (fun y => rbind (conditional_mean (ActArray v) y) the_metric)) (fun m r =>
    check_attribute E "prediction" (put_time E "_time_calc_prediction" (put "_prediction" (number m) r)))).

(** ClassificationRule.calc_prediction, lines 747-760 *)
Definition calc_classes (E : env) (y : target label) (r : rule) : res unit * rule :=
  step (activation_vector r) (fun o r =>
    match o with
    | None => (Err EValue, r)
    | Some v =>
        step (rbind (flat y) (class_probabilities (e_repr E) v)) (fun p r =>
        check_attribute E "prediction" (put_time E "_time_calc_prediction" (put "_prediction" (OTable p) r))) r
    end) r.

(** calc_sign, lines 644-650 *)
Definition calc_sign (r : rule) : res unit * rule :=
  match slot "_prediction" r with
  | OVal XNone => (Ok tt, r)
  | OVal (XNum x) => (Ok tt, put "_sign" (text (if nltb x (Fin 0) then "-" else "+")) r)
  | _ => (Err EType, r)
  end.

(** calc_std, lines 652-673 *)
Definition calc_std (E : env) (y : target label) (act : option activation) (r : rule) : res unit * rule :=
  if_activation act r (fun v =>
    step (rbind (number_target y) (fun y => rbind (conditional_std (e_sqrt E) (ActArray v) y) the_metric)) (fun m r =>
    check_attribute E "std" (put_time E "_time_calc_std" (put "_std" (number m) r)))).

(** calc_zscore, lines 706-718 *)
Definition calc_rule_zscore (E : env) (y : target label) (act : option activation) (horizon : Z) (r : rule)
    : res unit * rule :=
  match match act with Some a => Some a | None => r_act r end with
  | None => (Ok tt, r)
  | Some a =>
      step (rbind (number_target y) flat) (fun y r =>
        match slot "_prediction" r with
        | OVal (XNum p) =>
            andthen (check_attribute E "zscore"
                       (put "_zscore" (number (calc_zscore (e_sqrt E) p true (nones a) y horizon)) r))
                    (fun r => (Ok tt, put_time E "_time_calc_zscore" r))
        | _ => (Err EType, r)
        end) r
  end.

(** calc_prediction_vector, lines 470-485, for an activation that is given *)
Definition predicted_cell (p : obj) (a : Z) : label :=
  match p with
  | OVal (XText s) => if a =? 0 then LNum NaN else if a =? 1 then LText s else LNum (numz a)
  | OVal (XNum x) => if a =? 0 then LNum NaN else LNum (nmul x (numz a))
  | _ => LNum NaN
  end.

Definition prediction_vector (r : rule) (v : list Z) : res (list label) :=
  rbind (prediction r) (fun p =>
  match p with
  | OVal XNone => Ok (map (fun _ => LNum NaN) v)
  | _ => rbind (rule_len r) (fun n => if (n =? 0)%nat then Ok [] else Ok (map (predicted_cell p) v))
  end).

(** [calc_prediction_vector()]; None without activation *)
Definition calc_prediction_vector (r : rule) : res (option (list label)) :=
  rbind (activation_vector r) (fun o =>
  match o with
  | None => Ok None
  | Some v => rmap Some (prediction_vector r v)
  end).

(** RegressionRule.calc_criterion, lines 675-704 *)
Definition calc_error (E : env) (y : target label) (act : option activation) (method : option string) (r : rule)
    : res unit * rule :=
  if_activation act r (fun v r =>
    step (rbind (number_target y) (fun y =>
          rbind (prediction_vector r v) (fun p =>
          rbind (rseq (map (fun c => match c with LNum x => Ok x | LText _ => Err EType end) p)) (fun p =>
          rbind (unsqueezed y) (fun y =>
          rbind (calc_regression_criterion (VSeries p) y method) the_metric)))))
      (fun m r =>
    check_attribute E "criterion" (put_time E "_time_calc_criterion" (put "_criterion" (number m) r))) r).

(** ClassificationRule.calc_criterion, lines 762-789 *)
Definition label_arg (p : obj) : prediction_arg :=
  match p with
  | OVal (XNum x) => QLabel (LNum x)
  | OVal (XText s) => QLabel (LText s)
  | _ => QOther
  end.

Definition the_rate (m : rate) : res num :=
  match m with RNum x => Ok x | _ => Err ENotImpl end.

Definition calc_rate (E : env) (y : target label) (act : option activation) (method : option string) (r : rule)
    : res unit * rule :=
  if_activation act r (fun v r =>
    step (rbind (prediction r) (fun p =>
          rbind (calc_classification_criterion (ActArray v) (List.length v) (label_arg p) y method) the_rate))
      (fun m r =>
    check_attribute E "criterion" (put_time E "_time_calc_criterion" (put "_criterion" (number m) r))) r).

(** The keyword arguments given to fit and eval *)
Record keywords := mkKw {
  k_method : bool;                 (* "method" is among them *)
  k_horizon : Z;
  k_criterion : option string }.

(** [launch_method(getattr(self, "calc_" + attr), ...)]; [act]: the argument
    activation, that fit does not give.  calc_sign takes no argument. *)
Definition launch (E : env) (attr : string) (y : target label) (act : option activation) (kw : keywords) (r : rule)
    : res unit * rule :=
  match r_kind r with
  | KRegression =>
      if str_eqb attr "prediction" then calc_mean E y act r
      else if str_eqb attr "std" then calc_std E y act r
      else if str_eqb attr "sign" then calc_sign r
      else if str_eqb attr "zscore" then calc_rule_zscore E y act (k_horizon kw) r
      else if str_eqb attr "criterion" then calc_error E y act (k_criterion kw) r
      else if str_eqb attr "train_set_size" then calc_train_set_size y r
      else if str_eqb attr "test_set_size" then calc_test_set_size y r
      else (Err EAttr, r)
  | KClassification =>
      if str_eqb attr "prediction" then calc_classes E y r
      else if str_eqb attr "criterion" then calc_rate E y act (k_criterion kw) r
      else if str_eqb attr "train_set_size" then calc_train_set_size y r
      else if str_eqb attr "test_set_size" then calc_test_set_size y r
      else (Err EAttr, r)
  | KRule =>
      if str_eqb attr "train_set_size" then calc_train_set_size y r
      else if str_eqb attr "test_set_size" then calc_test_set_size y r
      else (Err EAttr, r)
  end.

(** The loops of lines 373-381 and 449-457 *)
Fixpoint compute (E : env) (attrs : list string) (y : target label) (act : option activation) (kw : keywords)
    (force : bool) (r : rule) : res unit * rule :=
  match attrs with
  | [] => (Ok tt, r)
  | attr :: t =>
      if str_eqb attr "activation" then (Err EValue, r)
      else if negb (r_good r) && negb force then
        compute E t y act kw force (put ("_" ++ attr)%string nan r)
      else
        andthen (launch E attr y act kw r) (fun r =>
        andthen (if r_good r then check_attribute E attr r else (Ok tt, r)) (fun r =>
        compute E t y act kw force r))
  end.

(** Lines 464-468 *)
Definition trigger (r : rule) : res unit := rmap (fun _ => tt) (rseq (map (getattr r) (index (r_kind r)))).

(** ** fit, lines 335-388 *)

Definition fit (E : env) (y : target label) (xs : option table) (force : bool) (kw : keywords) (r : rule)
    : res unit * rule :=
  if k_method kw then (Err EIndex, r)
  else if r_fitted r && match xs with None => true | Some _ => false end then (Ok tt, r)
  else if match xs with Some t => (nrows t =? 0)%nat | None => false end then (Ok tt, r)
  else
    andthen (calc_activation E xs r) (fun r =>
    andthen (compute E (train_attributes (r_kind r)) y None kw force r) (fun r =>
    andthen (if r_good r then check_all E r else (Ok tt, r)) (fun r =>
    andthen (if e_subattributes E then (trigger r, r) else (Ok tt, r)) (fun r =>
    (Ok tt, with_fitted (put_time E "_time_fit" r)))))).

(** ** eval, lines 390-462 *)

Definition put_all (names : list string) (r : rule) : rule :=
  fold_left (fun r a => put ("_" ++ a)%string nan r) names r.

Definition eval (E : env) (y : target label) (xs : option table) (recompute force : bool) (kw : keywords) (r : rule)
    : res unit * rule :=
  if k_method kw then (Err EIndex, r)
  else if negb (r_good r) && negb force then
    (Ok tt, put_all (test_attributes (r_kind r)) (with_fitted (put_time E "_time_eval" r)))
  else if match xs with Some t => (nrows t =? 0)%nat | None => false end then (Ok tt, r)
  else
    andthen (if recompute then calc_activation E xs r else (Ok tt, r)) (fun r =>
    let xs := if recompute then None else xs in
    if negb (activation_available r) then (Err EValue, r)
    else
      step (match xs with Some t => rmap Some (evaluate_activation r t) | None => Ok (r_act r) end) (fun act r =>
      andthen (compute E (test_attributes (r_kind r)) y act kw force r) (fun r =>
      andthen (if r_good r then check_all E r else (Ok tt, r)) (fun r =>
      (Ok tt, with_evaluated (put_time E "_time_eval" r))))) r).

(** ** predict, lines 487-521 *)

(** An array or a Series; squeeze turns a Series of one row into its element. *)
Inductive predicted :=
| PVector (l : list label)
| PScalar (c : label).

(** Assignment to an element of an array of 32 characters *)
Definition first_32 (s : string) : string := substring 0 32 s.

(** The array before the assignment of line 517: NaN, or the text of NaN. *)
Definition predict_cell (p : obj) (a : Z) : res label :=
  match p with
  | OVal (XText s) => Ok (LText (if a =? 1 then first_32 s else "nan"))
  | OVal (XNum x) => Ok (LNum (if a =? 1 then x else NaN))
  | OVal XNone => Ok (LNum NaN)
  | _ => Err EType
  end.

Definition squeezed (xs : option table) (l : list label) : predicted :=
  match xs with
  | Some (TFrame _ _) => match l with [c] => PScalar c | _ => PVector l end
  | _ => PVector l
  end.

Definition predict (E : env) (xs : option table) (r : rule) : res predicted * rule :=
  match
    match xs with
    | Some t => rbind (evaluate_activation r t) raw
    | None =>
        rbind (activation_vector r) (fun o => match o with None => Err EValue | Some v => Ok v end)
    end
  with
  | Err e => (Err e, r)
  | Ok v =>
      match prediction r with
      | Err e => (Err e, r)
      | Ok p =>
          match p with
          | OVal (XText "nan") => (Err EValue, r)
          | _ =>
              match rseq (map (predict_cell p) v) with
              | Err e => (Err e, r)
              | Ok l => (Ok (squeezed xs l), put_time E "_time_predict" r)
              end
          end
      end
  end.

(** ** get_correlation, lines 523-533 *)

Definition act_correlation (a b : activation) : res Q :=
  if negb (alen a =? alen b) then Err EValue
  else rbind (raw a) (fun x => rbind (raw b) (fun y =>
       if alen a =? 0 then Err EZeroDiv
       else Ok (inject_Z (Z.of_nat (List.length (filter (fun p => fst p =? snd p) (combine x y)))) / inject_Z (alen a))%Q)).

(** prediction / abs(prediction) *)
Definition sign_of (p : obj) : res num :=
  match p with
  | OVal (XNum x) => Ok (ndiv x (nabs x))
  | _ => Err EType
  end.

Definition get_correlation (r1 r2 : rule) : res num :=
  rbind (rule_len r1) (fun n1 => rbind (rule_len r2) (fun n2 =>
  if negb (n1 =? n2)%nat then Err EValue
  else
    rbind (prediction r1) (fun p1 => rbind (prediction r2) (fun p2 =>
    rbind (sign_of p1) (fun s1 => rbind (sign_of p2) (fun s2 =>
    match r_act r1, r_act r2 with
    | Some a, Some b => rmap (fun q => nmul (Fin q) (nmul s1 s2)) (act_correlation a b)
    | _, _ => Err EAttr
    end)))))).

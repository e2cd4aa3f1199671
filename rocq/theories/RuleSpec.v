(** Vocabulary of the statements about rules. *)
From Coq Require Import List ZArith QArith Bool String Ascii.
From Coq Require Import List.
From Verif Require Import Base Num Arith CondModel CondSpec ThrModel ThrSpec MetModel MetSpec RuleModel.
Import ListNotations.
Open Scope string_scope.
Open Scope list_scope.
Open Scope Z_scope.

(** ** Reading a rule *)

Definition is_good (r : rule) : Prop := getattr r "good" = Ok (boolean true).
Definition is_bad (r : rule) : Prop := getattr r "good" = Ok (boolean false).
Definition blames (r : rule) (n : string) : Prop := getattr r "bad_because" = Ok (text n).
Definition blames_nothing (r : rule) : Prop := getattr r "bad_because" = Ok none.

(** What a threshold sees of a rule. *)
Definition attributes_of (r : rule) : attributes := fun n => rmap to_val (getattr r n).

(** The quantities that describe a rule, besides the durations. *)
Definition measures (k : kind) : list string :=
  match k with
  | KRule => ["coverage"; "train_set_size"; "test_set_size"; "prediction"]
  | KRegression => ["coverage"; "train_set_size"; "test_set_size"; "prediction"; "std"; "sign"; "zscore"; "criterion"]
  | KClassification => ["coverage"; "train_set_size"; "test_set_size"; "prediction"; "criterion"]
  end.

(** The names that the limits of a row refer to. *)
Definition refers_to (r : row) (s : string) : Prop := exists j, In (j, XText s) r /\ j <> "arg".


(** ** Operations *)

Inductive operation :=
| Fit (y : target label) (xs : option table) (force : bool) (kw : keywords)
| Eval (y : target label) (xs : option table) (recompute force : bool) (kw : keywords)
| CalcActivation (xs : option table)
| CheckOne (attribute : string)
| CheckAll
| SetThresholds (path : option threshold_file)
| Assign (name : string) (v : obj)
| DelActivation
| Predict (xs : option table)
| Calculate (attribute : string) (y : target label) (act : option activation) (kw : keywords).

(** The rule after the operation, whether it raises or not. *)
Definition after (E : env) (op : operation) (r : rule) : rule :=
  match op with
  | Fit y xs force kw => snd (fit E y xs force kw r)
  | Eval y xs recompute force kw => snd (eval E y xs recompute force kw r)
  | CalcActivation xs => snd (calc_activation E xs r)
  | CheckOne a => snd (check_attribute E a r)
  | CheckAll => snd (check_all E r)
  | SetThresholds path => snd (set_thresholds path r)
  | Assign name v => snd (setattr r name v)
  | DelActivation => del_activation r
  | Predict xs => snd (predict E xs r)
  | Calculate a y act kw => snd (launch E a y act kw r)
  end.

Fixpoint history (E : env) (ops : list operation) (r : rule) : rule :=
  match ops with
  | [] => r
  | op :: t => history E t (after E op r)
  end.

(** ** Values of a fitted rule *)

(** The value of the train attribute [n] of a regression rule activated at the
    points [act]. *)
Definition regression_value (E : env) (act : list Z) (ys : list num) (horizon : Z) (n : string) (o : obj) : Prop :=
  (n = "train_set_size" /\ o = integer (Z.of_nat (List.length ys))) \/
  (n = "prediction" /\ exists m, conditional_mean (ActArray act) (YVector ys) = Ok (MNum m) /\ o = number m) \/
  (n = "std" /\ exists s, conditional_std (e_sqrt E) (ActArray act) (YVector ys) = Ok (MNum s) /\ o = number s) \/
  (n = "sign" /\ exists m, conditional_mean (ActArray act) (YVector ys) = Ok (MNum m) /\
     ((nlt m (Fin 0) /\ o = text "-") \/ (~ nlt m (Fin 0) /\ o = text "+"))) \/
  (n = "zscore" /\ exists m ones, conditional_mean (ActArray act) (YVector ys) = Ok (MNum m) /\
     tally (eq 1) act ones /\
     o = number (calc_zscore (e_sqrt E) m true (Z.of_nat ones) ys horizon)).

Definition class_obj (c : label) : obj :=
  match c with LNum x => OVal (XNum x) | LText s => OVal (XText s) end.

Definition classification_value (E : env) (act : list Z) (ys : list label) (n : string) (o : obj) : Prop :=
  (n = "train_set_size" /\ o = integer (Z.of_nat (List.length ys))) \/
  (n = "prediction" /\ exists c, rbind (class_probabilities (e_repr E) act ys) most_probable = Ok c /\
     o = class_obj c).

(** The vector on which a rule works when it is given [xs]: that of its
    condition on [xs], or its own. *)
Definition working (r : rule) (xs : option table) (act : list Z) : Prop :=
  match xs with
  | Some t => exists c, r_cond r = Some c /\ evaluate c t = Ok act
  | None => exists a, r_act r = Some a /\ raw a = Ok act
  end.

(** [l] has an element that satisfies [P] where the vector is 1 and [q] where it is 0. *)
Inductive where_active {A} (P : A -> Prop) (q : A) : list Z -> list A -> Prop :=
| wa_nil : where_active P q [] []
| wa_on v l x : P x -> where_active P q v l -> where_active P q (1 :: v) (x :: l)
| wa_off v l : where_active P q v l -> where_active P q (0 :: v) (q :: l).

(** The limits of the class of [r] are [th], those of [n] being numbers. *)
Definition numeric (th : thresholds) (n : string) : Prop :=
  forall row j l, limits_of th n row -> In (j, l) row -> j <> "arg" -> exists x, l = XNum x.

(** fit does something. *)
Definition starts (r : rule) (xs : option table) (kw : keywords) : Prop :=
  k_method kw = false /\
  match xs with Some t => nrows t <> 0%nat | None => r_fitted r = false end.

(** The activation can be used when no data is given. *)
Definition at_hand (r : rule) (xs : option table) : Prop :=
  match xs with Some _ => True | None => getattr r "activation_available" = Ok (boolean true) end.

(** eval does something. *)
Definition evaluates (r : rule) (xs : option table) (force : bool) (kw : keywords) : Prop :=
  k_method kw = false /\ (is_good r \/ force = true) /\
  match xs with Some t => nrows t <> 0%nat | None => True end.

(** predict returns the list [l]; a DataFrame of one row gives a scalar. *)
Definition returns (xs : option table) (l : list label) (p : predicted) : Prop :=
  match xs, l with
  | Some (TFrame _ _), [c] => p = PScalar c
  | _, _ => p = PVector l
  end.

(** The attributes of [r'] are those of [r], except the names given. *)
Definition same_attributes (names : list string) (r r' : rule) : Prop :=
  forall n, ~ In n names -> getattr r' n = getattr r n.

(** The positions where both vectors have the same value. *)
Inductive agreements : list Z -> list Z -> nat -> Prop :=
| agree_nil : agreements [] [] 0
| agree_same x u v k : agreements u v k -> agreements (x :: u) (x :: v) (S k)
| agree_other x y u v k : x <> y -> agreements u v k -> agreements (x :: u) (y :: v) k.

(** Every 1 of [u] is a 1 of [v]. *)
Definition included (u v : list Z) : Prop := Forall2 (fun x y => x = 1 -> y = 1) u v.

(** 1 for a positive number, -1 for a negative one. *)
Definition unit_sign (q s : Q) : Prop := ((0 < q)%Q /\ s = 1%Q) \/ ((q < 0)%Q /\ s = (-1)%Q).

(** The name does not start with an underscore. *)
Definition public (n : string) : Prop := forall s, n <> ("_" ++ s)%string.

(** The arguments of the constructor *)
Definition condition_of (c : cond_arg) : option cond := match c with CCond c => Some c | _ => None end.
Definition activation_of (a : act_arg) : option activation := match a with VActivation a => Some a | _ => None end.

(** Calls to SET_THRESHOLDS of the three classes, in order *)
Fixpoint limits_after (calls : list (kind * option threshold_file)) (cs : classes) : classes :=
  match calls with
  | [] => cs
  | (k, path) :: t => limits_after t (SET_THRESHOLDS k path cs)
  end.

Definition untouched : classes := mkClasses None None None.

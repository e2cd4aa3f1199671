(** Vocabulary of the statements on lists of attributes. *)
From Coq Require Import List ZArith QArith Bool String Ascii.
From Coq Require Import List.
From Verif Require Import Base Num CondModel ThrModel MetModel MetSpec RuleModel RuleSpec.
Import ListNotations.
Open Scope string_scope.
Open Scope list_scope.
Open Scope Z_scope.

(** The lists that the model accepts. *)
Definition accepted (names : list string) : Prop :=
  forall n, In n names -> prefix "_" n = false /\
    ~ In n ["good"; "bad_because"; "condition"; "thresholds"; "fitted"; "evaluated"; "prediction_vector"].

(** The attributes that a rule can compute. *)
Definition computable (k : kind) : list string :=
  match k with
  | KRule => ["train_set_size"; "test_set_size"]
  | KRegression => ["train_set_size"; "test_set_size"; "prediction"; "std"; "sign"; "zscore"; "criterion"]
  | KClassification => ["train_set_size"; "test_set_size"; "prediction"; "criterion"]
  end.

(** The sign and the zscore come after the prediction. *)
Definition in_order (names : list string) : Prop :=
  forall u n v, names = u ++ n :: v -> n = "sign" \/ n = "zscore" -> In "prediction" u.

(** The value of an attribute for the points [act] and the targets [ys]. *)
Definition value_on (E : env) (act : list Z) (ys : list num) (horizon : Z) (n : string) (o : obj) : Prop :=
  (n = "test_set_size" /\ o = integer (Z.of_nat (List.length ys))) \/ regression_value E act ys horizon n o.

Definition class_value_on (E : env) (act : list Z) (ys : list label) (n : string) (o : obj) : Prop :=
  (n = "test_set_size" /\ o = integer (Z.of_nat (List.length ys))) \/ classification_value E act ys n o.

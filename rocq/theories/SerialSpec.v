(** Vocabulary for the statements about saving and loading. *)
From Coq Require Import List ZArith QArith Bool String Ascii Relations.
From Coq Require Import List.
From Verif Require Import Base Num CondModel CondSpec ThrModel MetModel RuleModel RuleSpec PredModel SetModel SetSpec SerialModel.
Import ListNotations.
Open Scope string_scope.
Open Scope list_scope.
Open Scope Z_scope.

(** ** Flattening *)

(** Not one of the containers to open *)
Definition elementary {A} (types : container -> bool) (o : nest A) : Prop :=
  forall c l, o = Node c l -> types c = false.

(** Removing the brackets of one container in a sequence *)
Inductive unwrap {A} (types : container -> bool) : list (nest A) -> list (nest A) -> Prop :=
| unwrap_one l1 c m l2 : types c = true -> unwrap types (l1 ++ Node c m :: l2) (l1 ++ m ++ l2).

(** ** Texts *)

Definition labels : list string :=
  ["ruleset coverage"; "ruleset criterion"; "ruleset train set size"; "ruleset test set size"].

(** str of a text is the text, NaN is "nan"; the empty text and "nan" are
    missing values in a CSV file, the labels above are texts. *)
Record lawful (X : texts) : Prop := {
  str_text : forall t, x_str X (text t) = t;
  str_nan : x_str X nan = "nan";
  empty_missing : x_missing X "" = true;
  nan_missing : x_missing X "nan" = true;
  labels_texts : forall t, In t labels -> x_missing X t = false /\ x_number X t = None }.

(** The list [l] is written as a text that ast.literal_eval reads as [w]. *)
Definition written (X : texts) (l w : obj) : Prop :=
  x_missing X (x_str X l) = false /\ x_number X (x_str X l) = None /\ x_eval X (x_str X l) = Ok w.

(** Lists as Python has them: an empty list has no type, 1 is 1.0. *)
Definition empty_list (w : obj) : Prop := w = OTexts [] \/ w = OInts [] \/ w = ONums [].
Definition list_of_texts (l : list string) (w : obj) : Prop := w = OTexts l \/ l = [] /\ empty_list w.
Definition list_of_ints (l : list Z) (w : obj) : Prop := w = OInts l \/ l = [] /\ empty_list w.
Definition list_of_numbers (l : list num) (w : obj) : Prop :=
  w = ONums l \/ (exists zs, w = OInts zs /\ l = map (fun z => Fin (inject_Z z)) zs) \/ l = [] /\ empty_list w.

(** The value [v] of the attribute [a] of a rule comes back from a file. *)
Inductive survives (X : texts) (a : string) (v : obj) : Prop :=
| literal :
    x_eval X (x_str X v) = Ok v -> x_missing X (x_str X v) = false ->
    (forall x, x_number X (x_str X v) = Some x -> v = number x) ->
    survives X a v
| not_a_number : v = nan -> survives X a v
| class_name t :
    a = "prediction" -> v = text t ->
    x_eval X t = Err EValue -> x_missing X t = false -> x_number X t = None ->
    survives X a v.

(** The attributes of a rule that a file has besides the condition *)
Definition statistics (k : kind) : list string :=
  match k with
  | KRule => ["prediction"]
  | KRegression => ["prediction"; "coverage"; "zscore"; "criterion"; "std"]
  | KClassification => ["prediction"; "coverage"; "criterion"]
  end.

Definition conditions : list string := ["features_names"; "features_indexes"; "bmins"; "bmaxs"].

(** A rule can be read back; its features are [fs]. *)
Record storable (X : texts) (sett : settings) (k : kind) (r : rule) (fs : list feature) : Prop := {
  st_kind : r_kind r = k;
  st_cond : exists c, r_cond r = Some c /\ condition c fs;
  st_order : in_order sett fs;
  st_names : getattr r "features_names" = Ok (OTexts (map f_name fs));
  st_indexes : getattr r "features_indexes" = Ok (OInts (map f_index fs));
  st_mins : getattr r "bmins" = Ok (ONums (map f_low fs));
  st_maxs : getattr r "bmaxs" = Ok (ONums (map f_high fs));
  wr_names : exists w, written X (OTexts (map f_name fs)) w /\ list_of_texts (map f_name fs) w;
  wr_indexes : exists w, written X (OInts (map f_index fs)) w /\ list_of_ints (map f_index fs) w;
  wr_mins : exists w, written X (ONums (map f_low fs)) w /\ list_of_numbers (map f_low fs) w;
  wr_maxs : exists w, written X (ONums (map f_high fs)) w /\ list_of_numbers (map f_high fs) w;
  st_statistics : forall a, In a (statistics k) -> exists v, getattr r a = Ok v /\ survives X a v;
  st_name : slot "_name" r = none \/ exists t, slot "_name" r = text t /\ ~ In t labels }.

(** The rule [r'] is [r] as it comes back from a file into a ruleset with the
    sizes [train] and [test]. *)
Record restored (E : env) (train test : obj) (r r' : rule) : Prop := {
  rs_kind : r_kind r' = r_kind r;
  rs_cond : r_cond r' = r_cond r;
  rs_attributes : forall a, In a (conditions ++ statistics (r_kind r)) -> getattr r' a = getattr r a;
  rs_act : r_act r' = None;
  rs_thr : r_thr r' = class_thresholds (e_classes E) (r_kind r);
  rs_good : r_good r' = true /\ r_bad r' = None;
  rs_fitted : r_fitted r' = true <-> getattr r "prediction" <> Ok none;
  rs_evaluated : r_evaluated r' = false;
  rs_train : getattr r' "train_set_size" = Ok train;
  rs_test : getattr r' "test_set_size" = Ok test;
  rs_name : slot "_name" r' = text "Unnamed: 0" }.

(** What a CSV file gives back of a value in a column that has a text *)
Inductive as_text (X : texts) (v : obj) : obj -> Prop :=
| lost : v = none \/ v = nan \/ x_missing X (x_str X v) = true -> as_text X v nan
| shown : v <> none -> v <> nan -> x_missing X (x_str X v) = false -> as_text X v (text (x_str X v)).

(** The same for the size of a set *)
Inductive as_size (X : texts) (v : obj) : obj -> Prop :=
| no_size : v = none \/ v = nan -> as_size X v nan
| a_size z : v = integer z -> x_missing X (x_str X v) = false -> x_int X (x_str X v) = Ok z -> as_size X v v.

(** ** The table *)

(** The label of the row of the [i]th rule, which has [n] features *)
Inductive label_of (X : texts) (i n : nat) (r : rule) : string -> Prop :=
| own_name t : slot "_name" r = text t -> label_of X i n r t
| signed v : slot "_name" r = none -> getattr r "sign" = Ok v ->
    label_of X i n r ("R_" ++ decimal (Z.of_nat i) ++ "(" ++ decimal (Z.of_nat n) ++ ")" ++ x_str X v)%string
| unsigned : slot "_name" r = none -> getattr r "sign" = Err EAttr ->
    label_of X i n r ("R_" ++ decimal (Z.of_nat i) ++ "(" ++ decimal (Z.of_nat n) ++ ")")%string.

(** A rule of [n] features that has the attributes of rules of type [k] *)
Definition describable (k : kind) (r : rule) (n : nat) : Prop :=
  (exists c l, r_cond r = Some c /\ c_names c = Some l /\ List.length l = n) /\
  (forall a, In a (conditions ++ statistics k) -> exists v, getattr r a = Ok v) /\
  (slot "_name" r = none \/ exists t, slot "_name" r = text t).

(** The row of a rule: the texts of its attributes *)
Definition row_of (X : texts) (k : kind) (r : rule) (cells : list obj) : Prop :=
  Forall2 (fun a o => exists v, getattr r a = Ok v /\ o = text (x_str X v)) (conditions ++ statistics k) cells.

(** Only the name of the rule changed. *)
Definition renamed (label : string) (r r' : rule) : Prop :=
  slot "_name" r' = text label /\ same_attributes ["_name"] r r' /\ r_kind r' = r_kind r /\ r_cond r' = r_cond r /\
  r_act r' = r_act r /\ r_thr r' = r_thr r.

(** The last rows of the table: a value in the first column *)
Definition value_row (k : kind) (v : obj) (cells : list obj) : Prop :=
  exists rest, cells = v :: rest /\ List.length cells = List.length (conditions ++ statistics k) /\
    forall c, In c rest -> c = nan.

Definition last_rows (k : kind) (coverage criterion train test : obj) (l : list (string * list obj)) : Prop :=
  exists c1 c2 c3 c4, l = combine labels [c1; c2; c3; c4] /\
    value_row k coverage c1 /\ value_row k criterion c2 /\ value_row k train c3 /\ value_row k test c4.

(** ** Rows of any table *)

(** The value of the attribute [a] written as [t] *)
Inductive literally (X : texts) (a t : string) : obj -> Prop :=
| text_nan : t = "nan" -> literally X a t nan
| text_value v : t <> "nan" -> x_eval X t = Ok v -> literally X a t v
| text_class : t <> "nan" -> a = "prediction" -> x_eval X t = Err EValue -> literally X a t (text t).

(** A value as an argument of HyperrectangleCondition *)
Inductive as_argument : obj -> option (list item) -> Prop :=
| arg_ints l : as_argument (OInts l) (Some (map AInt l))
| arg_nums l : as_argument (ONums l) (Some (map AFloat l))
| arg_texts l : as_argument (OTexts l) (Some (map AStr l))
| arg_none : as_argument none None.

(** The argument given by the column [a] of a row *)
Inductive given (X : texts) (srule : list (string * obj)) (a : string) : option (list item) -> Prop :=
| given_cell w l o : In (a, w) srule -> x_eval X (x_str X w) = Ok l -> as_argument l o -> given X srule a o
| not_given : ~ In a (map fst srule) -> given X srule a None.

(** The rule [r] is read from a row with the given cells. *)
Record reads_row (X : texts) (E : env) (srule : list (string * obj)) (r : rule) : Prop := {
  rr_columns : forall a, In a (map fst srule) -> a = "Unnamed: 0" \/ In a (conditions ++ statistics KRegression);
  rr_regression : r_kind r = KRegression <-> In "std" (map fst srule);
  rr_classification : r_kind r = KClassification <-> In "criterion" (map fst srule) /\ ~ In "std" (map fst srule);
  rr_cells : forall a w, In (a, w) srule -> In a (statistics (r_kind r)) -> literally X a (x_str X w) (slot ("_" ++ a) r);
  rr_missing : forall a, In a (statistics (r_kind r)) -> ~ In a (map fst srule) -> slot ("_" ++ a) r = none;
  rr_cond : exists c idx mins maxs names, r_cond r = Some c /\
     given X srule "features_indexes" idx /\ given X srule "bmins" mins /\ given X srule "bmaxs" maxs /\
     given X srule "features_names" names /\ build (e_sort E) idx mins maxs names false true = Ok c;
  rr_fitted : r_fitted r = true <-> getattr r "prediction" <> Ok none;
  rr_fresh : r_act r = None /\ r_good r = true /\ r_bad r = None /\ r_evaluated r = false;
  rr_thr : r_thr r = class_thresholds (e_classes E) (r_kind r) }.

(** A row that is not one of the last rows *)
Definition plain_row (row : list obj) : Prop := forall label rest, row = text label :: rest -> ~ In label labels.

(** The rows [m] are those of [l] that are not the last rows. *)
Inductive rule_rows : list (list obj) -> list (list obj) -> Prop :=
| no_rows : rule_rows [] []
| keep_row row l m : plain_row row -> rule_rows l m -> rule_rows (row :: l) (row :: m)
| skip_row row l m : ~ plain_row row -> rule_rows l m -> rule_rows (row :: l) m.

(** The value of the first row with the given label, if there is one *)
Inductive row_value (label : string) (l : list (list obj)) : option obj -> Prop :=
| has_row l1 v rest l2 : l = l1 ++ (text label :: v :: rest) :: l2 -> (forall row, In row l1 -> hd_error row <> Some (text label)) ->
    row_value label l (Some v)
| has_no_row : (forall row, In row l -> hd_error row <> Some (text label)) -> row_value label l None.

(** The attribute becomes the value if there is one. *)
Definition value_kept (o : option obj) (old new : obj) : Prop := new = match o with Some v => v | None => old end.

(** The same for a size, where a text must be that of an integer *)
Inductive size_kept (X : texts) (o : option obj) (old new : obj) : Prop :=
| size_text t z : o = Some (text t) -> x_int X t = Ok z -> new = integer z -> size_kept X o old new
| size_value : (forall t, o <> Some (text t)) -> value_kept o old new -> size_kept X o old new.

(** A row that load can read: the columns are known, each cell is a literal (or a prediction that is
    rejected with ValueError), and the cells of the condition make a condition with names. *)
Record readable (X : texts) (E : env) (srule : list (string * obj)) : Prop := {
  rd_some : srule <> [];
  rd_columns : forall a, In a (map fst srule) -> a = "Unnamed: 0" \/ In a (conditions ++ statistics KRegression);
  rd_cells : forall a w, In (a, w) srule -> In a (statistics KRegression) -> exists v, literally X a (x_str X w) v;
  rd_prediction : forall w p, In ("prediction", w) srule -> In "std" (map fst srule) \/ x_eval X (x_str X w) <> Ok (OTable p);
  rd_cond : exists c idx mins maxs names l,
     given X srule "features_indexes" idx /\ given X srule "bmins" mins /\ given X srule "bmaxs" maxs /\
     given X srule "features_names" names /\ build (e_sort E) idx mins maxs names false true = Ok c /\ c_names c = Some l }.

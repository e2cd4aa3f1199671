(** Model of the metrics of ruleskit/utils/rfunctions.py (lines 11-407 and
    622-629) and of the predictions computed from them (rule.py 729-741,
    ruleset.py 1074-1100 and 1171-1226).

    Simplifications.  Targets are one-dimensional (or two-dimensional with one
    column, which is the same after [squeeze]; a table with a single cell is
    left out).  pandas objects are aligned by position: fit and eval give both
    sides the same index.  The square root is an argument, as well as the text
    of a number. *)
From Coq Require Import List ZArith QArith Bool String Ascii.
From Coq Require Import List.
From Verif Require Import Base Num Arith CondModel.
Import ListNotations.
Open Scope Z_scope.

(** ** Arguments and results *)

(** The argument [activation]. *)
Inductive activations :=
| ActNone
| ActArray (a : list Z)
| ActFrame (cols : list (string * list Z))
| ActOther.

(** The argument [y]: a 1-D array or a Series, a 2-D array or DataFrame with one
    column, or with several. *)
Inductive target (A : Type) :=
| YVector (y : list A)
| YColumn (y : list A)
| YTable.
Arguments YVector {A} y.
Arguments YColumn {A} y.
Arguments YTable {A}.

Inductive metric :=
| MNum (x : num)
| MSeries (s : list (string * num)).

(** numpy.extract: the elements of the flattened [y] at the positions of the
    non-zero elements of the condition. *)
Fixpoint nonzero (i : nat) (a : list Z) : list nat :=
  match a with
  | [] => []
  | x :: t => if x =? 0 then nonzero (S i) t else i :: nonzero (S i) t
  end.

Definition extract {A} (a : list Z) (y : list A) : res (list A) :=
  rseq (map (fun i => match nth_error y i with Some v => Ok v | None => Err EIndex end) (nonzero O a)).

Definition flat {A} (y : target A) : res (list A) :=
  match y with
  | YVector v | YColumn v => Ok v
  | YTable => Err ENotImpl (* left out *)
  end.

(** The regression criteria subtract y as it is: with two dimensions it is left out. *)
Definition unsqueezed {A} (y : target A) : res (list A) :=
  match y with
  | YVector v => Ok v
  | YColumn _ | YTable => Err ENotImpl
  end.

(** Lines 45-56, 113-124, 389-400 *)
Definition one_dimensional {A} (y : target A) : res (list A) :=
  match y with
  | YVector v | YColumn v => Ok v
  | YTable => Err EValue
  end.

(** One value per column; the first exception wins. *)
Definition apply_columns {A B} (f : list A -> res B) (cols : list (string * list A))
    : res (list (string * B)) :=
  rseq (map (fun c => rmap (fun x => (fst c, x)) (f (snd c))) cols).

(** ** conditional_mean, lines 65-88 *)
Definition conditional_mean (a : activations) (y : target num) : res metric :=
  match a with
  | ActNone => rmap (fun v => MNum (nanmean v)) (flat y)
  | ActOther => Err EType
  | ActArray act =>
      rbind (flat y) (fun y =>
      rbind (extract act y) (fun v =>
      let v := drop_nan v in
      if (List.length v =? 0)%nat then Ok (MNum NaN) else Ok (MNum (nmean v))))
  | ActFrame cols =>
      rbind (flat y) (fun y =>
      rmap MSeries (apply_columns (fun act => rmap nanmean (extract act y)) cols))
  end.

(** ** Labels *)

(** Targets of a classification (and texts in the middle of a computation).
    Booleans and None are left out. *)
Inductive label :=
| LNum (x : num)
| LText (s : string).

Definition label_eqb (a b : label) : bool :=
  match a, b with
  | LNum x, LNum y => neqb x y
  | LText s, LText t => str_eqb s t
  | _, _ => false
  end.

(** [Series.replace(old, new)] on one element *)
Definition replace (old new : label) (x : label) : label :=
  if label_eqb x old then new else x.

Definition nan_label : label := LNum NaN.
Definition zero : label := LNum (Fin 0).

(** 0 or 1 times a target *)
Definition times (a : Z) (x : label) : label :=
  match x with
  | LNum v => LNum (nmul (numz a) v)
  | LText s => LText (if a =? 0 then "" else s)
  end.

(** Lines 57-59, 125-127 and 401-406 on one cell:
    activation.mul(y.replace(0, "zero")).replace(0, nan).replace("", nan).replace("zero", 0) *)
Definition masked (a : Z) (x : label) : label :=
  replace (LText "zero") zero
    (replace (LText "") nan_label
       (replace zero nan_label
          (times a (replace zero (LText "zero") x)))).

(** A column; the rows that only one of the two sides has are NaN. *)
Definition masked_column (act : list Z) (y : list label) : list label :=
  map (fun p => masked (fst p) (snd p)) (combine act y).

Definition numbers (l : list label) : list num :=
  flat_map (fun x => match x with LNum v => [v] | LText _ => [] end) l.

(** ** conditional_std, lines 91-128 *)
Definition conditional_std (sqrt : num -> num) (a : activations) (y : target num) : res metric :=
  match a with
  | ActNone => rmap (fun v => MNum (sqrt (nanvar 0 v))) (flat y)
  | ActOther => Err EType
  | ActArray act =>
      rbind (flat y) (fun y =>
      rbind (extract act y) (fun v =>
      if (List.length v =? 0)%nat then Ok (MNum NaN)
      else if (List.length v =? 1)%nat then Ok (MNum (Fin 0))
      else Ok (MNum (sqrt (nanvar 1 v)))))
  | ActFrame cols =>
      rbind (one_dimensional y) (fun y =>
      rmap MSeries (apply_columns
        (fun act => Ok (sqrt (nanvar 1 (numbers (masked_column act (map LNum y)))))) cols))
  end.

(** ** class_probabilities, lines 11-62 *)

(** collections.Counter: the keys in order of first appearance.  Two NaN are
    two keys. *)
Fixpoint count_one {K} (eqb : K -> K -> bool) (x : K) (d : list (K * nat)) : list (K * nat) :=
  match d with
  | [] => [(x, 1%nat)]
  | (k, n) :: t => if eqb x k then (k, S n) :: t else (k, n) :: count_one eqb x t
  end.

Definition counter {K} (eqb : K -> K -> bool) (l : list K) : list (K * nat) :=
  fold_left (fun d x => count_one eqb x d) l [].

(** The array of lines 41-42: numbers if all the classes are numbers, texts
    otherwise (the probabilities too are turned into texts); or the list of pairs
    of rule_utils.py 134-138. *)
Inductive proba :=
| PNumbers (rows : list (num * num))
| PTexts (rows : list (string * string))
| PPairs (rows : list (label * num)).

(** Order of numpy.argsort: NaN last. *)
Definition before (x y : num) : bool :=
  match x, y with
  | NaN, _ => false
  | _, NaN => true
  | _, _ => nltb x y
  end.

Definition is_text (x : label) : bool :=
  match x with LText _ => true | LNum _ => false end.

Definition word (repr : num -> string) (x : label) : string :=
  match x with LText s => s | LNum v => repr v end.

Definition the_number (x : label) : num :=
  match x with LNum v => v | LText _ => NaN end.

(** Lines 36-43 *)
Definition class_probabilities (repr : num -> string) (act : list Z) (y : list label) : res proba :=
  rbind (extract act y) (fun v =>
  let count := counter label_eqb v in
  let n := nat_num (List.length v) in
  let rows := map (fun p => (fst p, ndiv (nat_num (snd p)) n)) count in
  match rows with
  | [] => Err EIndex (* proba[:, 0] of an empty 1-D array *)
  | _ =>
      if existsb is_text v then
        Ok (PTexts (sorted (fun p q => str_ltb (fst p) (fst q))
                      (map (fun p => (word repr (fst p), repr (snd p))) rows)))
      else
        Ok (PNumbers (sorted (fun p q => before (fst p) (fst q))
                        (map (fun p => (the_number (fst p), snd p)) rows)))
  end).

(** numpy.bincount(y).argmax() of line 32, for non-negative integers: the most
    frequent value, the smallest first. *)
Definition occurrences (l : list nat) (v : nat) : nat :=
  List.length (filter (Nat.eqb v) l).

Fixpoint arg_max (best : nat) (fbest : nat) (l : list (nat * nat)) : nat :=
  match l with
  | [] => best
  | (i, f) :: t => if (fbest <? f)%nat then arg_max i f t else arg_max best fbest t
  end.

Definition most_common (y : list nat) : res nat :=
  match y with
  | [] => Err EValue (* argmax of an empty array *)
  | _ =>
      let values := seq 0 (S (list_max y)) in
      Ok (arg_max O (occurrences y O) (map (fun v => (v, occurrences y v)) values))
  end.

(** max(l): the first element that no later one exceeds *)
Fixpoint first_max {A} (lt : A -> A -> bool) (best : A) (l : list A) : A :=
  match l with
  | [] => best
  | x :: t => if lt best x then first_max lt x t else first_max lt best t
  end.

(** The row of the first element equal to [m] ([prop.index(m)]). *)
Fixpoint find_row {A B} (eqb : B -> B -> bool) (m : B) (rows : list (A * B)) : res A :=
  match rows with
  | [] => Err EValue
  | (c, p) :: t => if eqb p m then Ok c else find_row eqb m t
  end.

(** rule.py 737-739 *)
Definition most_probable (p : proba) : res label :=
  match p with
  | PNumbers ((c, p) :: t) =>
      rmap LNum (find_row neqb (first_max nltb p (map snd t)) ((c, p) :: t))
  | PTexts ((c, p) :: t) =>
      rmap LText (find_row str_eqb (first_max str_ltb p (map snd t)) ((c, p) :: t))
  | PPairs ((c, p) :: t) => find_row neqb (first_max nltb p (map snd t)) ((c, p) :: t)
  | _ => Err EValue
  end.

Definition is_nan_label (x : label) : bool :=
  match x with LNum v => is_nan v | LText _ => false end.

Definition label_ltb (a b : label) : bool :=
  match a, b with
  | LNum x, LNum y => nltb x y
  | LText s, LText t => str_ltb s t
  | _, _ => false
  end.

(** One column of the table of line 62: the classes that have a probability. *)
Definition class_column (act : list Z) (y : list label) : list (label * num) :=
  let v := filter (fun x => negb (is_nan_label x)) (masked_column act y) in
  map (fun p => (fst p, ndiv (nat_num (snd p)) (nat_num (List.length v)))) (counter label_eqb v).

(** ruleset.py 1092-1096 on one column: the first class, in ascending order,
    among those of maximal probability.  Classes of two kinds do not sort. *)
Definition column_prediction (col : list (label * num)) : res label :=
  match col with
  | [] => Err EIndex
  | (c, p) :: t =>
      let m := first_max nltb p (map snd t) in
      let best := map fst (filter (fun r => neqb (snd r) m) col) in
      if existsb is_text best && negb (forallb is_text best) then Err EType
      else match sorted label_ltb best with
           | c :: _ => Ok c
           | [] => Err EIndex
           end
  end.

Definition stacked_class_predictions (cols : list (string * list Z)) (y : target label)
    : res (list (string * label)) :=
  rbind (one_dimensional y) (fun y =>
  apply_columns (fun act => column_prediction (class_column act y)) cols).

(** ** Regression criteria, lines 131-290 *)

Inductive vector_arg :=
| VSeries (p : list num)
| VFrame (rows : nat) (cols : list (string * list num))
| VOther. (* an array, or anything else *)

(** [error.mean()], NaN being skipped; the length is checked first. *)
Definition mean_error (f : num -> num) (p : vector_arg) (y : list num) : res metric :=
  let errors v := map (fun c => f (nsub (fst c) (snd c))) (combine v y) in
  match p with
  | VOther => Err EType
  | VSeries v =>
      if (List.length v =? List.length y)%nat then Ok (MNum (nanmean (errors v))) else Err EValue
  | VFrame rows cols =>
      if (rows =? List.length y)%nat
      then Ok (MSeries (map (fun c => (fst c, nanmean (errors (snd c)))) cols))
      else Err EValue
  end.

Definition mse_function := mean_error nsquare.
Definition mae_function := mean_error nabs.

(** A metric divided by a number *)
Definition divided (m : metric) (d : num) : metric :=
  match m with
  | MNum x => MNum (ndiv x d)
  | MSeries s => MSeries (map (fun c => (fst c, ndiv (snd c) d)) s)
  end.

(** lines 167-170 *)
Definition mse_norm (p : vector_arg) (y : list num) : res metric :=
  rmap (fun m => divided m (nmean (map (fun v => nsquare (nsub (nmean y) v)) y))) (mse_function p y).

(** lines 209-212 *)
Definition mae_norm (p : vector_arg) (y : list num) : res metric :=
  rmap (fun m => divided m (nmean (map (fun v => nsub (nmean y) v) y))) (mae_function p y).

(** numpy.median *)
Definition nmedian (y : list num) : num :=
  if existsb is_nan y then NaN
  else
    let s := sorted nltb y in
    let n := List.length s in
    if (n =? 0)%nat then NaN
    else if Nat.even n then nmean [nth (n / 2 - 1) s NaN; nth (n / 2) s NaN]
    else nth (n / 2) s NaN.

(** lines 215-248 *)
Definition aae_function (p : vector_arg) (y : list num) : res metric :=
  rmap (fun m => divided m (nmean (map (fun v => nabs (nsub v (nmedian y))) y))) (mae_function p y).

(** [str.lower] on ASCII *)
Definition lower_char (c : ascii) : ascii :=
  let n := nat_of_ascii c in
  if ((65 <=? n) && (n <=? 90))%nat then ascii_of_nat (n + 32) else c.

Fixpoint lower (s : string) : string :=
  match s with
  | EmptyString => EmptyString
  | String c t => String (lower_char c) (lower t)
  end.

(** lines 251-290 *)
Definition calc_regression_criterion (p : vector_arg) (y : list num) (criterion_method : option string)
    : res metric :=
  let m := lower (match criterion_method with Some s => s | None => "mse_norm" end) in
  if str_eqb m "mse" then mse_function p y
  else if str_eqb m "mse_norm" then mse_norm p y
  else if str_eqb m "mae" then mae_function p y
  else if str_eqb m "mae_norm" then mae_norm p y
  else if str_eqb m "aae" then aae_function p y
  else Err EValue.

(** ** Classification criterion, lines 293-407 *)

Inductive prediction_arg :=
| QLabel (c : label)                          (* float, int or str *)
| QSeries (s : list label)                    (* one prediction per row *)
| QByRule (s : list (string * label))         (* one prediction per rule *)
| QArray                                      (* numpy.ndarray *)
| QOther.

Inductive rate :=
| RNum (x : num)
| REmpty                                      (* an empty Series *)
| RSeries (s : list (string * num)).

Definition count_true (l : list bool) : nat := List.length (filter (fun b => b) l).

(** Lines 318-321: an array of comparisons divided by a length that is not 0. *)
Definition success_rate_label (c : label) (y : list label) : rate :=
  if (List.length y =? 0)%nat then RNum NaN
  else RNum (ndiv (nat_num (count_true (map (fun v => label_eqb c v) y))) (nat_num (List.length y))).

(** Lines 322-325.  The sum over a Series of booleans is a Python integer, so
    that a division by 0 raises. *)
Definition success_rate_rows (p y : list label) : res rate :=
  if (List.length y =? 0)%nat then Ok REmpty
  else if negb (List.length p =? List.length y)%nat then Err EValue
  else
    let n := List.length (filter (fun v => negb (is_nan_label v)) p) in
    if (n =? 0)%nat then Err EZeroDiv
    else Ok (RNum (ndiv (nat_num (count_true (map (fun c => label_eqb (fst c) (snd c)) (combine p y))))
                        (nat_num n))).

(** Lines 331-335 on one column *)
Definition success_rate_column (c : label) (y : list label) : num :=
  ndiv (nat_num (count_true (map (fun v => label_eqb v c) y)))
       (nat_num (List.length (filter (fun v => negb (is_nan_label v)) y))).

Fixpoint names_eqb (a b : list string) : bool :=
  match a, b with
  | [], [] => true
  | x :: s, y :: t => str_eqb x y && names_eqb s t
  | _, _ => false
  end.

(** The table and the predictions must have the same labels in the same order. *)
Definition success_rate_columns (p : list (string * label)) (cols : list (string * list label)) : res rate :=
  if negb (names_eqb (map fst cols) (map fst p)) then Err EValue
  else Ok (RSeries (map (fun c => (fst (fst c), success_rate_column (snd (snd c)) (snd (fst c))))
                        (combine cols p))).

(** Elements of a list at the rows where the activation is not 0. *)
Definition at_rows {A} (act : list Z) (l : list A) : list A :=
  map snd (filter (fun c => negb (fst c =? 0)) (combine act l)).

(** [rows]: the number of rows of the table [activation_vector] *)
Definition calc_classification_criterion (a : activations) (rows : nat) (p : prediction_arg)
    (y : target label) (criterion_method : option string) : res rate :=
  let m := lower (match criterion_method with Some s => s | None => "success_rate" end) in
  match a with
  | ActNone | ActOther => Err EType
  | ActArray act =>
      match p with
      | QArray => Err EType
      | _ =>
          rbind (flat y) (fun y =>
          rbind (extract act y) (fun v =>
          match p with
          | QSeries s =>
              if negb (List.length s =? List.length act)%nat then Err EIndex
              else if str_eqb m "success_rate" then success_rate_rows (at_rows act s) v
              else Err EValue
          | QByRule _ => Err EIndex (* left out: the predictions of rules with one activation *)
          | QLabel c =>
              if str_eqb m "success_rate" then Ok (success_rate_label c v) else Err EValue
          | _ => if str_eqb m "success_rate" then Err EType else Err EValue
          end))
      end
  | ActFrame cols =>
      match p with
      | QByRule s =>
          rbind (one_dimensional y) (fun y =>
          if (rows =? 0)%nat then Ok REmpty
          else success_rate_columns s (map (fun c => (fst c, masked_column (snd c) y)) cols))
      | QSeries _ => Err EValue (* left out: one prediction per row with a table *)
      | _ => Err EType
      end
  end.

(** ** Z-score, lines 622-629 *)

(** [exact]: the number of activated points is a Python int (not a numpy one). *)
Definition calc_zscore (sqrt : num -> num) (prediction : num) (exact : bool) (nones : Z)
    (y : list num) (horizon : Z) : num :=
  if exact && (nones =? 0) then NaN
  else
    ndiv (nabs (nsub prediction (nanmean y)))
         (nmul (sqrt (ndiv (numz horizon) (numz nones))) (sqrt (nanvar 0 y))).

(** The stacked computation: one value per rule. *)
Definition calc_zscores (sqrt : num -> num) (rules : list (string * (num * Z))) (y : list num) (horizon : Z)
    : list (string * num) :=
  map (fun r => (fst r, calc_zscore sqrt (fst (snd r)) false (snd (snd r)) y horizon)) rules.

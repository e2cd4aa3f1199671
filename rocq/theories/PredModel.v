(** Model of the predictions of a list of rules: ruleskit/utils/rfunctions.py
    lines 410-619 and ruleskit/ruleset.py lines 792-799 and 1242-1345.

    Simplifications.  Weights are floats.  Predictions of one ruleset are all
    numbers or all texts.  The stacked activations have no column twice.  The log
    messages are left out. *)
From Coq Require Import List ZArith QArith Bool String Ascii.
From Coq Require Import List.
From Verif Require Import Base Num Arith CondModel ThrModel MetModel RuleModel.
Import ListNotations.
Open Scope string_scope.
Open Scope list_scope.
Open Scope Z_scope.

(** condition.py 342-350: [str(condition)] *)
Fixpoint show_bounds (repr : num -> string) (names : list string) (mins maxs : list num) (n : nat) : res string :=
  match names, mins, maxs with
  | s :: names, lo :: mins, hi :: maxs =>
      let first := (s ++ " in [" ++ repr lo ++ ", " ++ repr hi ++ "]")%string in
      match n with
      | O => Ok first
      | S n => rmap (fun t => (first ++ " AND " ++ t)%string) (show_bounds repr names mins maxs n)
      end
  | _, _, _ => Err EIndex
  end.

Definition cond_str (repr : num -> string) (c : cond) : res string :=
  match c_names c with
  | None => Ok "empty condition"
  | Some names =>
      match c_min c, c_max c with
      | Some mins, Some maxs => show_bounds repr names mins maxs (clen c - 1)
      | _, _ => match names with [] => Err EIndex | _ => Err EType end
      end
  end.

(** [str(rule.condition)] *)
Definition rule_name (E : env) (r : rule) : res string :=
  match r_cond r with
  | None => Ok "None"
  | Some c => cond_str (e_repr E) c
  end.

(** A pandas Series of numbers *)
Notation series := (list (string * num)).

Definition entries {A} (name : string) (s : list (string * A)) : list A :=
  map snd (filter (fun e => str_eqb name (fst e)) s).

(** The weight of a rule, or None when the rule is ignored (lines 444-453 and
    545-553): [weights[name]] is a Series when the index has the name twice. *)
Definition weight_of (weights : series) (name : string) : res (option num) :=
  match entries name weights with
  | [] => Ok None
  | [w] => if neqb w (Fin 0) then Ok None else if is_nan w then Ok None else Ok (Some w)
  | _ => Err EValue
  end.

(** Lines 454-461 and 496-503: the activation to use, if any *)
Definition usable (xs : option table) (r : rule) : res (option (list Z)) :=
  rbind match xs with
        | None => activation_vector r
        | Some t => rbind (evaluate_activation r t) (fun a => rmap Some (raw a))
        end
        (fun o =>
  match o with
  | None => Ok None
  | Some [] => Ok None
  | Some v => Ok (Some v)
  end).

(** The numbers of a prediction vector *)
Definition number_cells (l : list label) : res (list num) :=
  rseq (map (fun c => match c with LNum x => Ok x | LText _ => Err EType end) l).

(** [activation * rule.prediction] *)
Definition times_prediction (v : list Z) (p : obj) : res (list num) :=
  match p with
  | OVal (XNum x) => Ok (map (fun a => nmul (numz a) x) v)
  | _ => Err EType
  end.

Definition same_length {A B} (u : list A) (v : list B) : bool := (List.length u =? List.length v)%nat.

Definition zip_with {A B C} (f : A -> B -> C) (u : list A) (v : list B) : list C :=
  map (fun p => f (fst p) (snd p)) (combine u v).

(** [u + v] and [u += v]: numpy repeats a [v] of one element, other differences
    of length are a ValueError (the sum must be as long as [u], the index of the
    Series or the array that is changed). *)
Definition broadcasts {A B} (u : list A) (v : list B) : bool := same_length u v || (List.length v =? 1)%nat.

Definition repeated_to {A B} (u : list A) (v : list B) : list B :=
  match v with
  | [x] => repeat x (List.length u)
  | _ => v
  end.

(** [cum_pred.replace(0, "zero").replace(np.nan, 0) + v], then
    [.replace(0, np.nan).replace("zero", 0)]: "zero" plus a number raises
    TypeError, or ValueError when the lengths differ. *)
Definition accumulate (cum v : list num) : res (list num) :=
  if negb (broadcasts cum v) then Err EValue
  else if existsb (fun x => neqb x (Fin 0)) cum then Err (if same_length cum v then EType else EValue)
  else Ok (map (fun x => if neqb x (Fin 0) then NaN else x)
               (zip_with (fun c x => nadd (if is_nan c then Fin 0 else c) x) cum (repeated_to cum v))).

(** Lines 475 and 517: [cum_pred / cum_w] *)
Definition quotient (cum w : list num) : res (list num) :=
  if negb (same_length cum w) then Err EValue else Ok (zip_with ndiv cum w).

(** ** Regression, weighted, unstacked: lines 433-475 *)

Definition weighted_step (E : env) (weights : series) (xs : option table) (r : rule) (acc : option (list num * list num))
    : res (option (list num * list num)) :=
  rbind (rule_name E r) (fun name =>
  rbind (weight_of weights name) (fun o =>
  match o with
  | None => Ok acc
  | Some w =>
      rbind (usable xs r) (fun o =>
      match o with
      | None => Ok acc
      | Some v =>
          match acc with
          | None =>
              rbind (prediction_vector r v) (fun l =>
              rbind (number_cells l) (fun l =>
              Ok (Some (map (fun x => nmul x w) l, map (fun a => nmul (numz a) w) v))))
          | Some (cum, cumw) =>
              rbind (prediction r) (fun p =>
              rbind (times_prediction v p) (fun l =>
              rbind (accumulate cum (map (fun x => nmul x w) l)) (fun cum =>
              if negb (broadcasts cumw v) then Err EValue
              else Ok (Some (cum, zip_with nadd cumw (repeated_to cumw (map (fun a => nmul (numz a) w) v)))))))
          end
      end)
  end)).

Fixpoint weighted_loop (E : env) (weights : series) (xs : option table) (rules : list rule)
    (acc : option (list num * list num)) : res (option (list num * list num)) :=
  match rules with
  | [] => Ok acc
  | r :: t => rbind (weighted_step E weights xs r acc) (weighted_loop E weights xs t)
  end.

Definition weighted_regressor_unstacked (E : env) (rules : list rule) (weights : series) (xs : option table)
    : res (list num) :=
  match rules with
  | [] => Ok []
  | _ =>
      rbind (weighted_loop E weights xs rules None) (fun o =>
      match o with
      | None => Err EValue
      | Some (cum, cumw) => quotient cum cumw
      end)
  end.

(** ** Regression, unweighted, unstacked: lines 487-517 *)

(** [cum_w] is an array of unsigned bytes.  The sums and the counter are
    returned also when an exception stops the loop: the counter is the array of
    the first activation. *)
Definition equal_step (xs : option table) (r : rule) (acc : option (list num * list Z))
    : res unit * option (list num * list Z) :=
  match usable xs r with
  | Err e => (Err e, acc)
  | Ok None => (Ok tt, acc)
  | Ok (Some v) =>
      match acc with
      | None =>
          match rbind (prediction_vector r v) number_cells with
          | Err e => (Err e, None)
          | Ok l => (Ok tt, Some (l, v))
          end
      | Some (cum, count) =>
          match rbind (prediction r) (fun p => rbind (times_prediction v p) (accumulate cum)) with
          | Err e => (Err e, acc)
          | Ok cum =>
              if negb (broadcasts count v) then (Err EValue, Some (cum, count))
              else (Ok tt, Some (cum, zip_with (fun c a => (c + a) mod 256) count (repeated_to count v)))
          end
      end
  end.

Fixpoint equal_loop (xs : option table) (rules : list rule) (acc : option (list num * list Z))
    : res unit * option (list num * list Z) :=
  match rules with
  | [] => (Ok tt, acc)
  | r :: t =>
      match equal_step xs r acc with
      | (Err e, acc) => (Err e, acc)
      | (Ok _, acc) => equal_loop xs t acc
      end
  end.

(** The rules once the array of the first activation has become the counter *)
Fixpoint overwrite_first (count : list Z) (rules : list rule) : list rule :=
  match rules with
  | [] => []
  | r :: t =>
      match usable None r, r_act r with
      | Ok (Some _), Some a => with_act (Some (mkActv count (v_here a) (v_coverage a))) r :: t
      | _, _ => r :: overwrite_first count t
      end
  end.

(** [shared]: the activations are stored as raw arrays, so that [rule.activation]
    is the stored array itself (activation.py 1231-1233).  The rules are returned
    as the call leaves them. *)
Definition equal_regressor_unstacked (shared : bool) (rules : list rule) (xs : option table)
    : res (list num) * list rule :=
  match rules with
  | [] => (Ok [], rules)
  | _ =>
      let (o, acc) := equal_loop xs rules None in
      let rules' :=
        match acc with
        | Some (_, count) =>
            if shared && match xs with None => true | Some _ => false end then overwrite_first count rules else rules
        | None => rules
        end in
      (match o, acc with
       | Err e, _ => Err e
       | Ok _, None => Err EValue
       | Ok _, Some (cum, count) => quotient cum (map numz count)
       end, rules')
  end.

(** ** Regression, stacked: lines 410-430, 478-483 and 520-521 *)

(** A DataFrame with [rows] rows; its columns have different names. *)
Record frame (A : Type) := mkFrame { f_rows : nat; f_columns : list (string * list A) }.
Arguments mkFrame {A}.
Arguments f_rows {A}.
Arguments f_columns {A}.

Definition cell {A} (d : A) (i : nat) (column : list A) : A := nth i column d.

(** The elements of row [i] *)
Definition line {A} (d : A) (f : frame A) (i : nat) : list A :=
  map (fun c => cell d i (snd c)) (f_columns f).

Definition by_rows {A B} (g : list A -> B) (d : A) (f : frame A) : list B :=
  map (fun i => g (line d f i)) (seq 0 (f_rows f)).

(** Sum of a row; NaN elements are skipped. *)
Definition row_sum (l : list num) : num := nsum (drop_nan l).

(** Lines 410-430.  [isna]: the elements of [prediction_vectors] that are NaN. *)
Definition init_weights_stacked {A} (isna : A -> bool) (pv : frame A) (weights : frame num)
    : res (frame A * frame num) :=
  if match f_columns weights with [] => true | _ => (f_rows weights =? 0)%nat end then Err EValue
  else
    let weights := map (fun c => (fst c, map (fun x => if neqb x (Fin 0) then NaN else x) (snd c))) (f_columns weights) in
    let weights := filter (fun c => existsb (fun x => negb (is_nan x)) (snd c)) weights in
    let present := filter (fun c => mem str_eqb (fst c) (map fst weights)) (f_columns pv) in
    let weights :=
      map (fun c =>
        (fst c,
         match dget (fst c) weights with
         | Some w => zip_with (fun x w => if isna x then NaN else w) (snd c) w
         | None => []
         end)) present in
    match present with
    | [] => Err EValue
    | _ => Ok (mkFrame (f_rows pv) present, mkFrame (f_rows pv) weights)
    end.

Definition weighted_regressor_stacked (pv weights : frame num) : res (list num) :=
  rbind (init_weights_stacked is_nan pv weights) (fun p =>
  let (pv, weights) := p in
  Ok (map (fun i =>
        let p := line NaN pv i in
        let w := line NaN weights i in
        ndiv (row_sum (zip_with nmul p w)) (row_sum w))
      (seq 0 (f_rows pv)))).

Definition equal_regressor_stacked (pv : frame num) : list num := by_rows nanmean NaN pv.

(** ** Classification, unstacked: lines 525-594 *)

(** Predictions as classes; other values are left out. *)
Definition class_of (p : obj) : res label :=
  match p with
  | OVal (XNum x) => Ok (LNum x)
  | OVal (XText s) => Ok (LText s)
  | _ => Err ENotImpl
  end.

(** [preds]: a row per class *)
Notation votes := (list (label * list num)).

(** Lines 565-571.  A new row must have as many elements as the others. *)
Fixpoint vote (c : label) (v : list num) (preds : votes) : res votes :=
  match preds with
  | [] => Ok [(c, v)]
  | (c', u) :: t =>
      if negb (broadcasts u v) then Err EValue
      else if label_eqb c c' then Ok ((c', zip_with nadd u (repeated_to u v)) :: t)
      else if negb (same_length u v) && match t with [] => true | _ => false end then Err EValue
      else rmap (cons (c', u)) (vote c v t)
  end.

Definition vote_step (E : env) (weights : series) (xs : option table) (r : rule) (preds : votes) : res votes :=
  rbind (rule_name E r) (fun name =>
  rbind (weight_of weights name) (fun o =>
  match o with
  | None => Ok preds
  | Some w =>
      rbind match xs with
            | None =>
                rbind (activation_vector r) (fun o =>
                match r_act r with
                | None => Err EAttr      (* rule.nones *)
                | Some a => Ok (o, nones a)
                end)
            | Some t => rbind (evaluate_activation r t) (fun a => rmap (fun v => (Some v, nones a)) (raw a))
            end
            (fun p =>
      match p with
      | (None, _) => Ok preds
      | (Some v, n) =>
          if n =? 0 then Ok preds
          else
            rbind (prediction r) (fun p =>
            rbind (class_of p) (fun c => vote c (map (fun a => nmul (numz a) w) v) preds))
      end)
  end)).

Fixpoint vote_loop (E : env) (weights : series) (xs : option table) (rules : list rule) (preds : votes) : res votes :=
  match rules with
  | [] => Ok preds
  | r :: t => rbind (vote_step E weights xs r preds) (vote_loop E weights xs t)
  end.

(** The largest number that is not NaN *)
Definition largest (l : list num) : num :=
  match drop_nan l with
  | [] => NaN
  | x :: t => first_max nltb x t
  end.

(** Lines 575-584 for one column: the class of the largest number, unless it is
    0 or several classes have it. *)
Definition winner (column : list (label * num)) : label :=
  let m := largest (map snd column) in
  if neqb m (Fin 0) then nan_label
  else if existsb (fun p => is_nan (snd p)) column then nan_label
  else
    match filter (fun p => neqb (snd p) m) column with
    | [(c, _)] => c
    | _ => nan_label
    end.

Definition weighted_classificator_unstacked (E : env) (rules : list rule) (weights : series) (xs : option table)
    : res (list label) :=
  match rules with
  | [] => Ok []
  | _ =>
      rbind (vote_loop E weights xs rules []) (fun preds =>
      match preds with
      | [] => Err EValue
      | (_, v) :: _ =>
          Ok (map (fun i => winner (map (fun p => (fst p, cell NaN i (snd p))) preds)) (seq 0 (List.length v)))
      end)
  end.

(** Lines 588-594: a dictionary from the names to 1 *)
Definition equal_classificator_unstacked (E : env) (rules : list rule) (xs : option table) : res (list label) :=
  rbind (rseq (map (rule_name E) rules)) (fun names =>
  weighted_classificator_unstacked E rules (fold_left (fun d n => dset n (Fin 1) d) names []) xs).

(** ** Classification, stacked: lines 597-619 *)

(** An element of the result: a class, NaN, or a DataFrame *)
Inductive outcome :=
| Class (c : label)
| Frame.

(** [mode] of a row: the most frequent values; NaN elements are skipped.  The
    order of the modes does not matter here. *)
Definition frequency (c : label) (l : list label) : nat := List.length (filter (label_eqb c) l).

Definition modes (l : list label) : list label :=
  let l := filter (fun c => negb (is_nan_label c)) l in
  let top := list_max (map (fun c => frequency c l) l) in
  filter (fun c => (frequency c l =? top)%nat) (set_of label_eqb l).

(** Lines 608-611: "nan" stands for NaN when the predictions are texts. *)
Definition clean (c : label) : label :=
  match c with
  | LText s => if str_eqb s "nan" then nan_label else c
  | LNum _ => c
  end.

(** Lines 612-619.  With a single row [squeeze] gives the value itself, that is
    put at the row 0; without any row it leaves a DataFrame. *)
Definition equal_classificator_stacked (pv : frame label) : list outcome :=
  let rows := by_rows (fun l => match modes (map clean l) with [c] => Some c | _ => None end) nan_label pv in
  let decided := filter (fun o => match o with Some _ => true | None => false end) rows in
  let first o := o :: map (fun _ => Class nan_label) (tl rows) in
  match rows, decided with
  | [], _ => []
  | _, [] => first Frame
  | _, [Some c] => first (Class c)
  | _, _ => map (fun o => Class (match o with Some c => c | None => nan_label end)) rows
  end.

Definition weighted_classificator_stacked (pv : frame label) (weights : frame num) : res (list outcome) :=
  rbind (init_weights_stacked is_nan_label pv weights) (fun p =>
  let (pv, weights) := p in
  let best := by_rows largest NaN weights in
  let kept :=
    map (fun c =>
      (fst c,
       map (fun t => if neqb (fst (snd t)) (snd (snd t)) then fst t else nan_label)
           (combine (snd c) (combine match dget (fst c) (f_columns weights) with Some w => w | None => [] end best))))
      (f_columns pv) in
  Ok (equal_classificator_stacked (mkFrame (f_rows pv) kept))).

(** ** RuleSet.predict: ruleset.py lines 1242-1345 *)

(** [pd.Series({str(r.condition): f(r) for r in rules})] *)
Definition by_name {A} (E : env) (f : rule -> res A) (rules : list rule) : res (list (string * A)) :=
  rmap (fun l => fold_left (fun d p => dset (fst p) (snd p) d) l [])
       (rseq (map (fun r => rbind (rule_name E r) (fun s => rmap (pair s) (f r))) rules)).

(** Lines 792-799: evaluate_stacked_activations, for a nonempty ruleset.
    Activations of length 0 are left out. *)
Definition stack (E : env) (xs : option table) (rules : list rule) : res (option (frame Z)) :=
  let frame_of l :=
    let n := match l with [] => O | (_, v) :: _ => List.length v end in
    if forallb (fun c => (List.length (snd c) =? n)%nat) l then Ok (Some (mkFrame n l)) else Err EValue in
  match xs with
  | Some t =>
      rbind (by_name E (fun r => rbind (evaluate_activation r t) raw) rules) frame_of
  | None =>
      if forallb activation_available rules
      then rbind (by_name E (fun r => rbind (activation_vector r) (fun o =>
                     match o with Some v => Ok v | None => Err ENotImpl end)) rules) frame_of
      else Ok None
  end.

(** Argument [weights]: a Series, or the name of an attribute *)
Inductive weighting :=
| WSeries (s : series)
| WName (attribute : string).

(** The elements of a Series of numbers; None among numbers is NaN.  Other
    elements, and a Series of None only, are left out. *)
Definition number_series (l : list (string * obj)) : res series :=
  if forallb (fun p => match snd p with OVal XNone => true | _ => false end) l then Err ENotImpl
  else rseq (map (fun p => match snd p with
                           | OVal (XNum x) => Ok (fst p, x)
                           | OVal XNone => Ok (fst p, NaN)
                           | _ => Err ENotImpl
                           end) l).

(** Lines 1304-1305 and 1327-1328 *)
Definition weights_of (E : env) (rules : list rule) (w : weighting) : res series :=
  match w with
  | WSeries s => Ok s
  | WName a => rbind (by_name E (fun r => getattr r a) rules) number_series
  end.

(** A DataFrame times a Series, with NaN instead of 0 in the DataFrame; the
    columns without an element in the Series are NaN, and the elements without a
    column give a column of NaN. *)
Definition frame_times {A B} (nan : B) (f : Z -> A -> B) (st : frame Z) (s : list (string * A)) : frame B :=
  mkFrame (f_rows st)
    (map (fun c =>
       (fst c,
        match dget (fst c) s with
        | Some x => map (fun a => if a =? 0 then nan else f a x) (snd c)
        | None => map (fun _ => nan) (snd c)
        end)) (f_columns st) ++
     map (fun p => (fst p, repeat nan (f_rows st)))
         (filter (fun p => negb (mem str_eqb (fst p) (map fst (f_columns st)))) s)).

(** A Series of texts: the predictions of classification rules; a rule without
    prediction has NaN.  Other elements are left out. *)
Definition text_series (l : list (string * obj)) : res (list (string * label)) :=
  rseq (map (fun p => match snd p with
                      | OVal (XText s) => Ok (fst p, LText s)
                      | OVal (XNum NaN) => Ok (fst p, nan_label)
                      | _ => Err ENotImpl
                      end) l).

(** A Series or an empty object *)
Inductive answer :=
| Numbers (l : list num)
| Outcomes (l : list outcome)
| Empty.

Definition is_empty {A} (f : frame A) : bool :=
  match f_columns f with [] => true | _ => (f_rows f =? 0)%nat end.

(** Lines 1281-1319; [st] is the argument or [self.stacked_activations]. *)
Definition predict_stacked (E : env) (k : kind) (rules : list rule) (st : frame Z) (w : option weighting) : res answer :=
  rbind (by_name E prediction rules) (fun predictions =>
  match rules with
  | [] => Err EIndex
  | r :: _ =>
      rbind (prediction r) (fun p =>
      let weighted s := frame_times NaN (fun a x => nmul (numz a) x) st s in
      match k with
      | KRegression =>
          match p with
          | OVal (XText _) => Err ENotImpl
          | _ =>
              rbind (number_series predictions) (fun s =>
              let pv := frame_times NaN (fun a x => nmul (numz a) x) st s in
              if is_empty pv then Ok Empty
              else
                match w with
                | None => Ok (Numbers (equal_regressor_stacked pv))
                | Some w =>
                    rbind (weights_of E rules w) (fun s => rmap Numbers (weighted_regressor_stacked pv (weighted s)))
                end)
          end
      | KClassification =>
          rbind
            (match p with
             | OVal (XText _) => rmap (frame_times nan_label (fun _ c => c) st) (text_series predictions)
             | _ => rmap (frame_times nan_label (fun a x => LNum (nmul (numz a) x)) st) (number_series predictions)
             end)
            (fun pv =>
          if is_empty pv then Ok Empty
          else
            match w with
            | None => Ok (Outcomes (equal_classificator_stacked pv))
            | Some w =>
                rbind (weights_of E rules w) (fun s => rmap Outcomes (weighted_classificator_stacked pv (weighted s)))
            end)
      | KRule =>
          if (f_rows st =? 0)%nat then Ok Empty
          else match w with
               | None => Err EType
               | Some w => rbind (weights_of E rules w) (fun _ => Err EType)
               end
      end)
  end).

(** Lines 1321-1345.  The rules are returned as the call leaves them. *)
Definition predict_unstacked (E : env) (shared : bool) (k : kind) (rules : list rule) (xs : option table)
    (w : option weighting) : res answer * list rule :=
  let classes o := rmap (fun l => Outcomes (map Class l)) o in
  match w with
  | Some w =>
      (rbind (weights_of E rules w) (fun s =>
       match k with
       | KRegression => rmap Numbers (weighted_regressor_unstacked E rules s xs)
       | KClassification => classes (weighted_classificator_unstacked E rules s xs)
       | KRule => Err EType
       end), rules)
  | None =>
      match k with
      | KRegression =>
          let (o, rules) := equal_regressor_unstacked shared rules xs in (rmap Numbers o, rules)
      | KClassification => (classes (equal_classificator_unstacked E rules xs), rules)
      | KRule => (Err EType, rules)
      end
  end.

(** Lines 1242-1279.  [stacked_fit] is STACKED_FIT, [k] the type of the rules and
    [st] the stacked activations of the ruleset. *)
Definition predict_rules (E : env) (stacked_fit shared : bool) (k : option kind) (rules : list rule)
    (st : option (frame Z)) (xs : option table) (w : option weighting) : res answer * list rule :=
  match rules, k with
  | [], _ => (Ok Empty, rules)
  | _, None => (Ok Empty, rules)
  | _, Some k =>
      match (if stacked_fit then st else None) with
      | Some st =>
          (rbind (match xs with
                  | Some _ => rmap (fun o => match o with Some f => f | None => st end) (stack E xs rules)
                  | None => Ok st
                  end) (fun st => predict_stacked E k rules st w), rules)
      | None => predict_unstacked E shared k rules xs w
      end
  end.

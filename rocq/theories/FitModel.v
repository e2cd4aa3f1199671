(** Model of ruleskit/ruleset.py: fit (lines 331-470), eval (lines 473-678), the
    attributes of the rules computed together (lines 1049-1240), calc_criterion and
    the sizes (lines 1347-1412).

    Simplifications, besides those of SetModel.  A ruleset has no rule object
    twice.  The class attributes attributes_from_train_set and
    attributes_from_test_set have their default values.  pandas objects are
    aligned by position; Series whose names differ are left out.  Targets are as
    in MetModel; [series] tells whether y is a pandas object or an array.  An
    empty Series as criterion is a value about which nothing is known. *)
From Coq Require Import List ZArith QArith Bool String Ascii.
From Coq Require Import List.
From Verif Require Import Base Num Arith CondModel ThrModel MetModel RuleModel PredModel SetModel.
Import ListNotations.
Open Scope string_scope.
Open Scope list_scope.
Open Scope Z_scope.

(** A step that gives a value *)
Definition next {A B} (m : res A * ruleset) (f : A -> ruleset -> res B * ruleset) : res B * ruleset :=
  match m with
  | (Ok a, s) => f a s
  | (Err e, s) => (Err e, s)
  end.

(** Lines 352-360 and 506-514 *)
Definition learns (s : ruleset) (kw : keywords) : res kind :=
  match s_type s with
  | None => Err EValue
  | Some KRule => Err EType
  | Some k => if k_method kw then Err EIndex else Ok k
  end.

Definition no_rows (xs : option table) : bool :=
  match xs with Some t => (nrows t =? 0)%nat | None => false end.

Definition given (xs : option table) : bool :=
  match xs with Some _ => true | None => false end.

(** [self._activation is None or self._activation.length == 0] *)
Definition no_activation (s : ruleset) : bool :=
  match s_act s with None => true | Some a => alen a =? 0 end.

Definition not_stacked (s : ruleset) : bool :=
  match s_stacked s with None => true | Some _ => false end.

(** ** Dropping rules, lines 438-446 and 637-645 *)

(** [r in to_drop], [r] being the rule number [i]: the same object, or an equal one *)
Fixpoint among (H : hashing) (i : nat) (r : rule) (drop : list (nat * rule)) : res bool :=
  match drop with
  | [] => Ok false
  | (j, q) :: t => if (i =? j)%nat then Ok true else rbind (rule_eq H q r) (fun b => if b then Ok true else among H i r t)
  end.

Definition numbered {A} (l : list A) : list (nat * A) := combine (seq 0 (List.length l)) l.

Definition keep (H : hashing) (rules : list rule) (drop : list (nat * rule)) : res (list rule) :=
  rmap (fun l => map snd (filter (fun p => negb (fst p)) l))
       (rseq (map (fun p => rmap (fun b => (b, snd p)) (among H (fst p) (snd p) drop)) (numbered rules))).

(** Activation.clear *)
Definition cleared (s : ruleset) : ruleset :=
  match s_act s with
  | None => s
  | Some a => with_activation (Some (new_activation (map (fun _ => 0) (v_bits a)))) s
  end.

Definition rebuild (G : setup) (l : list rule) (s : ruleset) : res unit * ruleset :=
  append_all G (map ERule l) (del_stacked_activations (cleared (with_rules [] s))).

Definition drop_rules (G : setup) (drop : list (nat * rule)) (s : ruleset) : res unit * ruleset :=
  use (keep (g_hash G) (s_rules s) drop) (rebuild G) s.

(** Lines 448-453 and the like *)
Definition refresh (G : setup) (activation : bool) (stacked : ruleset -> bool) (s : ruleset) : res unit * ruleset :=
  chain (if activation then compute_self_activation None (with_activation None s) else done s) (fun s =>
  if s_stack s && stacked s then compute_stacked_activation G None (with_stacked None s) else done s).

(** The rules that are not good, by their numbers *)
Definition bad_numbers (rules : list rule) : list nat :=
  map fst (filter (fun p => negb (r_good (snd p))) (numbered rules)).

(** [to_drop], as the rules are now *)
Definition numbers_rules (rules : list rule) (drop : list nat) : list (nat * rule) :=
  flat_map (fun i => match nth_error rules i with Some r => [(i, r)] | None => [] end) drop.

(** ** Attributes of all the rules *)

Definition metric_series (m : metric) : res (list (string * obj)) :=
  match m with
  | MSeries l => Ok (map (fun c => (fst c, number (snd c))) l)
  | MNum _ => Err ENotImpl
  end.

(** calc_train_set_sizes, lines 1228-1233 *)
Definition train_sizes (E : env) (rules : list rule) (y : target label) : res (list (string * obj)) :=
  rbind (target_len y) (fun n => by_name E (fun _ => Ok (integer n)) rules).

(** calc_predictions, lines 1049-1100 *)
Definition calc_predictions (k : kind) (st : frame Z) (y : target label) : res (list (string * obj)) :=
  match k with
  | KRegression =>
      rbind (number_target y) (fun y => rbind (conditional_mean (ActFrame (f_columns st)) y) metric_series)
  | KClassification =>
      rmap (map (fun c => (fst c, label_obj (snd c)))) (stacked_class_predictions (f_columns st) y)
  | KRule => Err EType
  end.

(** calc_stds, lines 1102-1144 *)
Definition calc_stds (E : env) (k : kind) (st : frame Z) (y : target label) : res (list (string * obj)) :=
  match k with
  | KRegression =>
      rbind (number_target y) (fun y => rbind (conditional_std (e_sqrt E) (ActFrame (f_columns st)) y) metric_series)
  | _ => Err EType
  end.

(** calc_signs, lines 1146-1157, with the predictions that have been computed *)
Definition calc_signs (k : kind) (predictions : list (string * obj)) : res (list (string * obj)) :=
  match k with
  | KRegression =>
      rseq (map (fun p =>
        match snd p with
        | OVal (XNum x) => Ok (fst p, text (if nltb x (Fin 0) then "-" else "+"))
        | OVal XNone => Ok (fst p, none)
        | _ => Err EType
        end) predictions)
  | _ => Err EType
  end.

(** calc_zscores, lines 1159-1175 *)
Definition set_zscores (E : env) (k : kind) (rules : list rule) (predictions : list (string * obj)) (y : target label)
    (horizon : Z) : res (list (string * obj)) :=
  match k with
  | KRegression =>
      rbind (by_name E (fun r => match r_act r with Some a => Ok (nones a) | None => Err EAttr end) rules) (fun counts =>
      rbind (number_series predictions) (fun predictions =>
      rbind (number_target y) (fun y =>
      rbind (flat y) (fun y =>
      if names_eqb (map fst predictions) (map fst counts)
      then Ok (map (fun c => (fst c, number (snd c)))
                   (calc_zscores (e_sqrt E)
                      (map (fun p => (fst (fst p), (snd (fst p), snd (snd p)))) (combine predictions counts)) y horizon))
      else Err ENotImpl))))
  | _ => Err EType
  end.

(** Lines 411-419: the Series of one attribute, given those before it *)
Definition train_series (E : env) (k : kind) (rules : list rule) (st : frame Z) (y : target label) (kw : keywords)
    (attr : string) (computed : list (string * list (string * obj))) : res (list (string * obj)) :=
  let predictions := match dget "prediction" computed with Some p => Ok p | None => Err ENotImpl end in
  if str_eqb attr "train_set_size" then train_sizes E rules y
  else if str_eqb attr "prediction" then calc_predictions k st y
  else if str_eqb attr "std" then calc_stds E k st y
  else if str_eqb attr "sign" then rbind predictions (calc_signs k)
  else if str_eqb attr "zscore" then rbind predictions (fun p => set_zscores E k rules p y (k_horizon kw))
  else Err EAttr.

Fixpoint computed_attributes (series : string -> list (string * list (string * obj)) -> res (list (string * obj)))
    (attrs : list string) (computed : list (string * list (string * obj))) : res (list (string * list (string * obj))) :=
  match attrs with
  | [] => Ok computed
  | a :: t =>
      if str_eqb a "activation" then Err EValue
      else rbind (series a computed) (fun l => computed_attributes series t (computed ++ [(a, l)]))
  end.

(** Lines 429-434 and 620-625: the numbers appended to to_drop *)
Fixpoint assign (E : env) (attrs : list (string * list (string * obj))) (i : nat) (r : rule) : res (list nat) * rule :=
  match attrs with
  | [] => (Ok [], r)
  | (a, l) :: t =>
      match nth_error l i with
      | None => (Err EIndex, r)
      | Some (_, v) =>
          let r := put ("_" ++ a)%string v r in
          match (if r_good r then check_attribute E a r else (Ok tt, r)) with
          | (Err e, r) => (Err e, r)
          | (Ok _, r) =>
              let (o, r') := assign E t i r in
              (rmap (fun l => if r_good r then l else i :: l) o, r')
          end
      end
  end.

(** Lines 427-437 and 618-627 *)
Definition assign_rule (E : env) (mark : rule -> rule) (attrs : list (string * list (string * obj))) (i : nat) (r : rule)
    : res (list nat) * rule :=
  match assign E attrs i (mark r) with
  | (Err e, r) => (Err e, r)
  | (Ok l, r) =>
      if r_good r then let (o, r) := check_all E r in (rmap (fun _ => l) o, r) else (Ok l, r)
  end.

Fixpoint assign_rules (E : env) (mark : rule -> rule) (attrs : list (string * list (string * obj))) (i : nat)
    (rules : list rule) : res (list nat) * list rule :=
  match rules with
  | [] => (Ok [], [])
  | r :: t =>
      match assign_rule E mark attrs i r with
      | (Err e, r) => (Err e, r :: t)
      | (Ok l, r) => let (o, t) := assign_rules E mark attrs (S i) t in (rmap (app l) o, r :: t)
      end
  end.

Definition assign_all (E : env) (mark : rule -> rule) (attrs : list (string * list (string * obj))) (s : ruleset)
    : res (list nat) * ruleset :=
  let (o, rules) := assign_rules E mark attrs 0 (s_rules s) in (o, with_rules rules s).

(** A computation with stack_activation set; it stays set when it raises. *)
Definition while_stacking (f : ruleset -> res unit * ruleset) (s : ruleset) : res unit * ruleset :=
  chain (f (with_stack true s)) (fun s' => done (with_stack (s_stack s) s')).

(** ** fit *)

(** Lines 383-392: the stacked activations to use *)
Definition fit_activations (G : setup) (xs : option table) (s : ruleset) : res unit * ruleset :=
  match xs with
  | Some t => while_stacking (set_calc_activation G t) s
  | None => if not_stacked s then while_stacking (compute_stacked_activation G None) s else done s
  end.

(** Lines 394-432 *)
Definition fit_assign (G : setup) (k : kind) (y : target label) (series clean : bool) (kw : keywords) (s : ruleset)
    : res (list nat) * ruleset :=
  use (match s_stacked s with
       | None => Err EAttr
       | Some st =>
           rbind (target_len y) (fun n =>
           if Z.of_nat (f_rows st) =? n
           then computed_attributes (train_series (g_env G) k (s_rules s) st y kw) (train_attributes k) []
           else Err (if series then EValue else EIndex))
       end) (fun attrs s =>
  assign_all (g_env G) with_fitted attrs (if clean then del_stacked_activations s else s)) s.

Definition fit_stacked (G : setup) (k : kind) (y : target label) (series : bool) (xs : option table) (kw : keywords)
    (s : ruleset) : res (list nat) * ruleset :=
  let fresh := given xs || not_stacked s in
  let clean := fresh && negb (s_stack s) in
  chain (fit_activations G xs s) (fit_assign G k y series clean kw).

(** Lines 438-470 *)
Definition fit_rules (G : setup) (k : kind) (y : target label) (series : bool) (xs : option table) (force : bool)
    (kw : keywords) (s : ruleset) : res (list nat) * ruleset :=
  if g_stacked G then fit_stacked G k y series xs kw s
  else
    chain (for_each (RuleModel.fit (g_env G) y xs force kw) s) (fun s => (Ok (bad_numbers (s_rules s)), s)).

Definition set_fit (G : setup) (y : target label) (series : bool) (xs : option table) (force : bool) (kw : keywords)
    (s : ruleset) : res (list rule) * ruleset :=
  use (learns s kw) (fun k s =>
  if no_rows xs then (Ok [], s)
  else
    match s_rules s with
    | [] => (Ok [], s)
    | rules =>
        if forallb r_fitted rules && negb (given xs) then (Ok [], s)
        else
          next (fit_rules G k y series xs force kw s) (fun drop s =>
          let drop := numbers_rules (s_rules s) drop in
          chain (match drop with
                 | [] =>
                     if g_stacked G then done s
                     else refresh G (no_activation s || given xs) (fun s => not_stacked s || given xs) s
                 | _ => chain (drop_rules G drop s) (refresh G true (fun _ => true))
                 end) (fun s =>
          use (target_len y) (fun n s => (Ok (map snd drop), with_train (integer n) s)) s))
    end) s.

(** ** The criterion of the ruleset, lines 1347-1401 *)

Definition labels_of (l : list outcome) : res (list label) :=
  rseq (map (fun o => match o with Class c => Ok c | Frame => Err ENotImpl end) l).

Definition rate_obj (m : rate) : res obj :=
  match m with
  | RNum x => Ok (number x)
  | REmpty => Ok other
  | RSeries _ => Err ENotImpl
  end.

Definition is_nothing (p : answer) : bool :=
  match p with Numbers [] | Outcomes [] | Empty => true | _ => false end.

(** The activation of lines 1387-1392 *)
Definition criterion_activation (xs : option table) (s : ruleset) : res (option (list Z)) * ruleset :=
  match xs with
  | Some _ =>
      use (evaluate_self_activation xs s) (fun o s =>
        (match o with Some a => rmap Some (raw a) | None => Err EAttr end, s)) s
  | None =>
      chain (if no_activation s then compute_self_activation None s else done s) (fun s => (set_vector s, s))
  end.

Definition calc_criterion (G : setup) (y : target label) (xs : option table) (w : option weighting) (kw : keywords)
    (s : ruleset) : res unit * ruleset :=
  match s_rules s, s_type s with
  | [], _ => done s
  | _, None => done s
  | _, Some k =>
      next (set_predict G xs w s) (fun p s =>
      if is_nothing p then done (with_criterion nan s)
      else
        match k, p with
        | KRegression, Numbers l =>
            use (rbind (number_target y) (fun y => rbind (unsqueezed y) (fun y =>
                 rbind (calc_regression_criterion (VSeries l) y (k_criterion kw)) the_metric)))
                (fun m s => done (with_criterion (number m) s)) s
        | KClassification, Outcomes l =>
            next (criterion_activation xs s) (fun o s =>
            use (rbind (labels_of l) (fun l =>
                 rbind (calc_classification_criterion (match o with Some v => ActArray v | None => ActOther end)
                          (match o with Some v => List.length v | None => O end) (QSeries l) y (k_criterion kw)) rate_obj))
                (fun m s => done (with_criterion m s)) s)
        | _, _ => (Err EType, s)
        end)
  end.

(** ** eval *)

(** calc_criterions, lines 1177-1226, with the predictions and activations that eval gives *)
Definition criterion_series (E : env) (k : kind) (rules : list rule) (st : frame Z) (y : target label) (kw : keywords)
    (attr : string) (computed : list (string * list (string * obj))) : res (list (string * obj)) :=
  rbind (by_name E prediction rules) (fun predictions =>
  if negb (str_eqb attr "criterion") then Err EAttr
  else
    match k with
    | KRegression =>
        rbind (number_series predictions) (fun predictions =>
        if negb (names_eqb (map fst (f_columns st)) (map fst predictions)) then Err ENotImpl
        else
          let pv := frame_times NaN (fun a x => nmul (numz a) x) st predictions in
          rbind (number_target y) (fun y => rbind (unsqueezed y) (fun y =>
          rbind (calc_regression_criterion (VFrame (f_rows pv) (f_columns pv)) y (k_criterion kw)) metric_series)))
    | KClassification =>
        rbind (rseq (map (fun p => rmap (pair (fst p)) (class_of (snd p))) predictions)) (fun predictions =>
        rbind (calc_classification_criterion (ActFrame (f_columns st)) (f_rows st) (QByRule predictions) y (k_criterion kw))
          (fun m =>
        match m with
        | RSeries l => Ok (map (fun c => (fst c, number (snd c))) l)
        | REmpty => Ok []
        | RNum _ => Err ENotImpl
        end))
    | KRule => Err EType
    end).

(** Lines 545-578: the stacked activations to use *)
Definition eval_activations (G : setup) (xs : option table) (keep_new : bool) (s : ruleset)
    : res (option (frame Z)) * ruleset :=
  match xs with
  | Some t =>
      if keep_new then chain (while_stacking (set_calc_activation G t) s) (fun s => (Ok (s_stacked s), s))
      else
        use (evaluate_stacked_activations G xs s) (fun f s =>
        use (evaluate_self_activation xs s) (fun _ s => (Ok f, s)) s) s
  | None =>
      chain
        (if not_stacked s then
           while_stacking (fun s =>
             chain (compute_stacked_activation G None s) (fun s =>
             chain (compute_self_activation None s) (fun s =>
             if not_stacked s then (Err EValue, s) else done s))) s
         else done s)
        (fun s => (Ok (s_stacked s), s))
  end.

(** Lines 580-631 *)
Definition eval_assign (G : setup) (k : kind) (y : target label) (clean : bool) (kw : keywords) (f : option (frame Z))
    (s : ruleset) : res (list nat) * ruleset :=
  use (match f with
       | None => Err EAttr
       | Some st =>
           rbind (target_len y) (fun n =>
           if Z.of_nat (f_rows st) =? n
           then computed_attributes (criterion_series (g_env G) k (s_rules s) st y kw) (test_attributes k) []
           else Err EIndex)
       end) (fun attrs s =>
  assign_all (g_env G) with_evaluated attrs (if clean then del_stacked_activations s else s)) s.

Definition eval_stacked (G : setup) (k : kind) (y : target label) (xs : option table) (keep_new : bool) (kw : keywords)
    (s : ruleset) : res (list nat) * ruleset :=
  let clean := (if given xs then keep_new else not_stacked s) && negb (s_stack s) in
  next (eval_activations G xs keep_new s) (eval_assign G k y clean kw).

Definition eval_rules (G : setup) (k : kind) (y : target label) (xs : option table) (keep_new force : bool)
    (kw : keywords) (s : ruleset) : res (list nat) * ruleset :=
  if g_stacked G then eval_stacked G k y xs keep_new kw s
  else
    chain (for_each (RuleModel.eval (g_env G) y xs keep_new force kw) s) (fun s => (Ok (bad_numbers (s_rules s)), s)).

(** Lines 506-678 *)
Definition set_eval (G : setup) (y : target label) (xs : option table) (keep_new : bool) (w : option weighting)
    (force : bool) (kw : keywords) (s : ruleset) : res (list rule) * ruleset :=
  use (learns s kw) (fun k s =>
  if no_rows xs then (Ok [], s)
  else
    match s_rules s with
    | [] => (Ok [], s)
    | rules =>
        if negb (forallb r_fitted rules) && negb (given xs) then (Err EValue, s)
        else
          let keep_new := keep_new || negb (forallb r_fitted rules) in
          let kept := given xs && keep_new in
          next (eval_rules G k y xs keep_new force kw s) (fun drop s =>
          let drop := numbers_rules (s_rules s) drop in
          chain (match drop with
                 | [] =>
                     if g_stacked G then done s
                     else refresh G (no_activation s || kept) (fun s => match s_act s with None => true | Some _ => kept end) s
                 | _ =>
                     chain (drop_rules G drop s) (fun s =>
                     refresh G (no_activation s || kept) (fun s => not_stacked s || kept) s)
                 end) (fun s =>
          chain (calc_criterion G y (if keep_new then None else xs) w kw s) (fun s =>
          use (target_len y) (fun n s => (Ok (map snd drop), with_test (integer n) s)) s)))
    end) s.

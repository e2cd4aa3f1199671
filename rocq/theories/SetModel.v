(** Model of ruleskit/ruleset.py: class RuleSet without fit, eval, save and load.

    Simplifications.  The rules of a ruleset are values: what follows when two
    rulesets have the same rule objects is in PoolModel.  The order of
    [list(set(l))] is not specified by Python; the model takes one, and the
    statements only use the elements.  Texts of numbers and of quoted strings are
    arguments.  Activations hold 0 and 1 (ActModel models their storage); the
    memory tests of multi_logical_or are left out (theorems about them are in
    ActProps).  Bounds are floats.  Columns of 0 rows in a DataFrame that is not
    empty are left out. *)
From Coq Require Import List ZArith QArith Bool String Ascii.
From Coq Require Import List.
From Verif Require Import Base Num CondModel ThrModel MetModel RuleModel PredModel.
Import ListNotations.
Open Scope string_scope.
Open Scope list_scope.
Open Scope Z_scope.

(** ** Objects *)

(** The class attributes of RuleSet, and the rest of the world *)
Record setup := mkSetup {
  g_env : env;
  g_hash : hashing;
  g_quote : string -> string;              (* repr of a string *)
  g_check : bool;                          (* CHECK_DUPLICATED *)
  g_stacked : bool;                        (* STACKED_FIT *)
  g_indexes : list (string * Z);           (* all_features_indexes *)
  g_shared : bool }.                       (* activations are raw arrays, see PredModel *)

(** Attributes set by __init__, lines 89-101 *)
Record ruleset := mkSet {
  s_rules : list rule;
  s_names : list string;                   (* features_names *)
  s_idx : list Z;                          (* features_indexes *)
  s_act : option activation;
  s_coverage : obj;                        (* _coverage *)
  s_criterion : obj;
  s_train : obj;
  s_test : obj;
  s_stacked : option (frame Z);            (* stacked_activations *)
  s_stack : bool;                          (* stack_activation *)
  s_type : option kind;                    (* _rule_type *)
  s_compute : bool }.                      (* _compute_activation *)

Definition with_rules (l : list rule) (s : ruleset) : ruleset :=
  mkSet l (s_names s) (s_idx s) (s_act s) (s_coverage s) (s_criterion s) (s_train s) (s_test s) (s_stacked s)
        (s_stack s) (s_type s) (s_compute s).
Definition with_names (l : list string) (s : ruleset) : ruleset :=
  mkSet (s_rules s) l (s_idx s) (s_act s) (s_coverage s) (s_criterion s) (s_train s) (s_test s) (s_stacked s)
        (s_stack s) (s_type s) (s_compute s).
Definition with_idx (l : list Z) (s : ruleset) : ruleset :=
  mkSet (s_rules s) (s_names s) l (s_act s) (s_coverage s) (s_criterion s) (s_train s) (s_test s) (s_stacked s)
        (s_stack s) (s_type s) (s_compute s).
Definition with_activation (a : option activation) (s : ruleset) : ruleset :=
  mkSet (s_rules s) (s_names s) (s_idx s) a (s_coverage s) (s_criterion s) (s_train s) (s_test s) (s_stacked s)
        (s_stack s) (s_type s) (s_compute s).
Definition with_coverage (v : obj) (s : ruleset) : ruleset :=
  mkSet (s_rules s) (s_names s) (s_idx s) (s_act s) v (s_criterion s) (s_train s) (s_test s) (s_stacked s)
        (s_stack s) (s_type s) (s_compute s).
Definition with_criterion (v : obj) (s : ruleset) : ruleset :=
  mkSet (s_rules s) (s_names s) (s_idx s) (s_act s) (s_coverage s) v (s_train s) (s_test s) (s_stacked s)
        (s_stack s) (s_type s) (s_compute s).
Definition with_train (v : obj) (s : ruleset) : ruleset :=
  mkSet (s_rules s) (s_names s) (s_idx s) (s_act s) (s_coverage s) (s_criterion s) v (s_test s) (s_stacked s)
        (s_stack s) (s_type s) (s_compute s).
Definition with_test (v : obj) (s : ruleset) : ruleset :=
  mkSet (s_rules s) (s_names s) (s_idx s) (s_act s) (s_coverage s) (s_criterion s) (s_train s) v (s_stacked s)
        (s_stack s) (s_type s) (s_compute s).
Definition with_stacked (f : option (frame Z)) (s : ruleset) : ruleset :=
  mkSet (s_rules s) (s_names s) (s_idx s) (s_act s) (s_coverage s) (s_criterion s) (s_train s) (s_test s) f
        (s_stack s) (s_type s) (s_compute s).
Definition with_stack (b : bool) (s : ruleset) : ruleset :=
  mkSet (s_rules s) (s_names s) (s_idx s) (s_act s) (s_coverage s) (s_criterion s) (s_train s) (s_test s) (s_stacked s)
        b (s_type s) (s_compute s).
Definition with_type (k : option kind) (s : ruleset) : ruleset :=
  mkSet (s_rules s) (s_names s) (s_idx s) (s_act s) (s_coverage s) (s_criterion s) (s_train s) (s_test s) (s_stacked s)
        (s_stack s) k (s_compute s).
Definition with_compute (b : bool) (s : ruleset) : ruleset :=
  mkSet (s_rules s) (s_names s) (s_idx s) (s_act s) (s_coverage s) (s_criterion s) (s_train s) (s_test s) (s_stacked s)
        (s_stack s) (s_type s) b.

Definition empty_set (stack : bool) : ruleset :=
  mkSet [] [] [] None none none none none None stack None true.

(** A step that may raise; what has been changed before stays. *)
Definition chain {A} (m : res unit * ruleset) (f : ruleset -> res A * ruleset) : res A * ruleset :=
  match m with
  | (Ok _, s) => f s
  | (Err e, s) => (Err e, s)
  end.

(** A value computed, then used *)
Definition use {A B} (v : res A) (f : A -> ruleset -> res B * ruleset) (s : ruleset) : res B * ruleset :=
  match v with
  | Ok a => f a s
  | Err e => (Err e, s)
  end.

Definition done (s : ruleset) : res unit * ruleset := (Ok tt, s).

(** ** Activations *)

(** Activation.__or__ *)
Definition act_or (a b : activation) : res activation :=
  if negb (alen a =? alen b) then Err EValue
  else rbind (raw a) (fun x => rbind (raw b) (fun y =>
       Ok (new_activation (map (fun p => Z.lor (fst p) (snd p)) (combine x y))))).

(** Activation.multi_logical_or; vectors of different lengths do not stack. *)
Definition or_column (vs : list (list Z)) (i : nat) : Z :=
  if existsb (fun v => negb (nth i v 0 =? 0)) vs then 1 else 0.

Definition multi_or (acs : list activation) : res activation :=
  rbind (rseq (map raw acs)) (fun vs =>
  match vs with
  | [] => Err EIndex
  | v :: t =>
      if forallb (fun w => (List.length w =? List.length v)%nat) t
      then Ok (new_activation (map (or_column vs) (seq 0 (List.length v))))
      else Err EValue
  end).

(** evaluate_self_activation, lines 757-790 *)
Definition evaluate_self_activation (xs : option table) (s : ruleset) : res (option activation) :=
  match s_rules s with
  | [] => Ok (Some (new_activation []))
  | rules =>
      rbind match xs with
            | Some t => rmap Some (rseq (map (fun r => evaluate_activation r t) rules))
            | None =>
                if forallb activation_available rules
                then rmap Some (rseq (map (fun r => match r_act r with Some a => Ok a | None => Err EAttr end) rules))
                else Ok None
            end
            (fun o =>
      match o with
      | None => Ok None
      | Some [a] => rmap (fun v => Some (new_activation v)) (raw a)
      | Some l => rmap Some (multi_or l)
      end)
  end.

(** Lines 792-794 *)
Definition compute_self_activation (xs : option table) (s : ruleset) : res unit * ruleset :=
  use (evaluate_self_activation xs s) (fun a s => done (with_activation a s)) s.

(** evaluate_stacked_activations, lines 797-805 *)
Definition evaluate_stacked_activations (G : setup) (xs : option table) (s : ruleset) : res (option (frame Z)) :=
  match s_rules s with
  | [] => Ok (Some (mkFrame 0 []))
  | rules => stack (g_env G) xs rules
  end.

(** Lines 807-810 *)
Definition compute_stacked_activation (G : setup) (xs : option table) (s : ruleset) : res unit * ruleset :=
  use (evaluate_stacked_activations G xs s) (fun f s => done (with_stacked f s)) s.

(** Lines 256-263 *)
Definition set_available (s : ruleset) : bool :=
  match s_act s with
  | None => false
  | Some a => if alen a =? 0 then false else v_here a
  end.

(** Lines 272-283; an activation of length 0 is false. *)
Definition set_vector (s : ruleset) : res (option (list Z)) :=
  match s_act s with
  | Some a => if alen a =? 0 then Ok None else rmap Some (raw a)
  | None => Ok None
  end.

(** Lines 285-291 *)
Definition ruleset_coverage (s : ruleset) : res obj :=
  if set_available s
  then match s_act s with Some a => rmap OVal (act_coverage a) | None => Err EAttr end
  else Ok (s_coverage s).

(** ** Adding rules *)

(** [isinstance(rule, t)], [k] being the type of the rule *)
Definition isinstance (k t : kind) : bool :=
  match t, k with
  | KRule, _ => true
  | KRegression, KRegression => true
  | KClassification, KClassification => true
  | _, _ => false
  end.

Definition kind_eqb (k t : kind) : bool :=
  match t, k with
  | KRule, KRule => true
  | KRegression, KRegression => true
  | KClassification, KClassification => true
  | _, _ => false
  end.

(** [list(set(l + other))]; None does not add to a list. *)
Definition union {A} (eqb : A -> A -> bool) (l : list A) (other : option (list A)) : res (list A) :=
  match other with
  | Some m => Ok (set_of eqb (l ++ m))
  | None => Err EType
  end.

(** [rule.features_indexes] and [rule.features_names] *)
Definition rule_indexes (r : rule) : res (option (list Z)) :=
  match r_cond r with Some c => Ok (c_idx c) | None => Err EAttr end.
Definition rule_names (r : rule) : res (option (list string)) :=
  match r_cond r with Some c => Ok (c_names c) | None => Err EAttr end.

(** Lines 144-146, with the features of the other object; a rule that has
    features_indexes has features_names. *)
Definition add_features (indexes : res (option (list Z))) (names : res (option (list string))) (s : ruleset)
    : res unit * ruleset :=
  chain (use (rbind indexes (union Z.eqb (s_idx s))) (fun l s => done (with_idx l s)) s) (fun s =>
  use (rbind names (union str_eqb (s_names s))) (fun l s => done (with_names l s)) s).

(** _update_activation, lines 294-300: [vector] and [act] are [other.activation]
    and [other._activation]. *)
Definition update_activation (available : bool) (vector : res (option (list Z))) (act : option activation)
    (s : ruleset) : res unit * ruleset :=
  if available then
    let fresh :=
      rbind vector (fun o => match o with Some v => Ok (new_activation v) | None => Err EType end) in
    use (match s_act s with
         | None => fresh
         | Some a =>
             if alen a =? 0 then fresh
             else match act with Some b => act_or a b | None => Err EAttr end
         end) (fun a s => done (with_activation (Some a) s)) s
  else done s.

(** [df[name] = v] *)
Definition set_column (name : string) (v : list Z) (f : frame Z) : res (frame Z) :=
  match f_columns f with
  | [] => if (f_rows f =? 0)%nat || same_length v (repeat 0 (f_rows f)) then Ok (mkFrame (List.length v) [(name, v)])
          else Err EValue
  | columns =>
      if (f_rows f =? 0)%nat then Err ENotImpl
      else if negb (List.length v =? f_rows f)%nat then Err EValue
      else Ok (mkFrame (f_rows f)
                 (if mem str_eqb name (map fst columns)
                  then map (fun c => if str_eqb name (fst c) then (fst c, v) else c) columns
                  else columns ++ [(name, v)]))
  end.

(** [pd.concat([f, g], axis=1)]; different numbers of rows are left out, except
    when one is empty. *)
Definition concat_columns (f g : frame Z) : res (frame Z) :=
  if is_empty f then Ok g
  else if is_empty g then Ok f
  else if (f_rows f =? f_rows g)%nat then Ok (mkFrame (f_rows f) (f_columns f ++ f_columns g))
  else Err ENotImpl.

(** _update_stacked_activation, lines 303-319, for a rule *)
Definition update_stacked_rule (G : setup) (r : rule) (s : ruleset) : res unit * ruleset :=
  if activation_available r then
    use (rbind (rule_name (g_env G) r) (fun name =>
         rbind (activation_vector r) (fun o =>
         match o with
         | None => Err EValue
         | Some v =>
             match s_stacked s with
             | None => Ok (mkFrame (List.length v) [(name, v)])
             | Some f => set_column name v f
             end
         end))) (fun f s => done (with_stacked (Some f) s)) s
  else done s.

(** and for a ruleset *)
Definition update_stacked_set (other s : ruleset) : res unit * ruleset :=
  if set_available other then
    match s_stacked s with
    | None => done (with_stacked (s_stacked other) s)
    | Some f =>
        match s_stacked other with
        | None => done s
        | Some g => use (concat_columns f g) (fun f s => done (with_stacked (Some f) s)) s
        end
    end
  else done s.

(** __iadd__, lines 120-150, for a rule *)
Definition add_rule (G : setup) (r : rule) (s : ruleset) : res unit * ruleset :=
  chain (match s_type s with
         | None => done (with_type (Some (r_kind r)) s)
         | Some t => if isinstance (r_kind r) t then done s else (Err EType, s)
         end) (fun s =>
  chain (add_features (rule_indexes r) (rule_names r) (with_rules (s_rules s ++ [r]) s)) (fun s =>
  chain (if s_compute s then update_activation (activation_available r) (activation_vector r) (r_act r) s
         else done s) (fun s =>
  if s_stack s then update_stacked_rule G r s else done s))).

(** and for a ruleset *)
Definition add_set (other s : ruleset) : res unit * ruleset :=
  chain (match s_type s, s_type other with
         | Some t, Some t' => if kind_eqb t t' then done s else (Err EType, s)
         | None, Some t' => done (with_type (Some t') s)
         | _, None => done s
         end) (fun s =>
  chain (add_features (Ok (Some (s_idx other))) (Ok (Some (s_names other)))
           (with_rules (s_rules s ++ s_rules other) s)) (fun s =>
  chain (if s_compute s then update_activation (set_available other) (set_vector other) (s_act other) s
         else done s) (fun s =>
  if s_stack s then update_stacked_set other s else done s))).

(** An element of the list given to the constructor, or an argument of append *)
Inductive element :=
| ERule (r : rule)
| ENone
| EOther.

(** append, lines 680-693 *)
Definition append (G : setup) (e : element) (update : bool) (s : ruleset) : res unit * ruleset :=
  match e with
  | ERule r =>
      let stack := s_stack s in
      chain (add_rule G r (if update then s else with_stack false (with_compute false s)))
            (fun s => done (with_stack stack (with_compute true s)))
  | _ => (Err EType, s)
  end.

(** ** Construction *)

(** [str(l)] *)
Definition show_list {A} (show : A -> string) (l : list A) : string :=
  ("[" ++ String.concat ", " (map show l) ++ "]")%string.

Definition show_option {A} (show : A -> string) (o : option (list A)) : string :=
  match o with Some l => show_list show l | None => "None" end.

(** [str(rule.prediction)]; other values are left out. *)
Definition show_prediction (E : env) (p : obj) : res string :=
  match p with
  | OVal XNone => Ok "None"
  | OVal (XNum x) => Ok (e_repr E x)
  | OVal (XText s) => Ok s
  | _ => Err ENotImpl
  end.

(** Lines 51-53 and 208-213 *)
Definition key (G : setup) (by_name : bool) (r : rule) : res string :=
  match r_cond r with
  | None => Err EAttr
  | Some c =>
      rbind (prediction r) (fun p =>
      rmap (fun text =>
        ((if by_name then show_option (g_quote G) (c_names c) else show_option show_int (c_idx c)) ++
         show_option (e_repr (g_env G)) (c_min c) ++ show_option (e_repr (g_env G)) (c_max c) ++ text)%string)
        (show_prediction (g_env G) p))
  end.

Definition uses_names (s : ruleset) : bool := match s_names s with [] => false | _ => true end.

(** check_duplicated_rules, lines 49-67 *)
Definition check_duplicated_rules (G : setup) (rules : list rule) (by_name : bool) : res unit :=
  rbind (rseq (map (key G by_name) rules)) (fun keys =>
  if has_dup str_eqb keys then Err EValue else Ok tt).

(** Line 326: the new indexes of a rule *)
Definition renumber (G : setup) (r : rule) : res rule :=
  match r_cond r with
  | None => Err EAttr
  | Some c =>
      rbind (need (c_names c)) (fun names =>
      rmap (fun l =>
        mkRule (r_kind r) (Some (mkCond (Some l) (c_min c) (c_max c) (c_names c) (c_imp c))) (r_act r) (r_thr r)
               (r_good r) (r_bad r) (r_fitted r) (r_evaluated r) (r_dict r))
        (rseq (map (fun f => match dget f (g_indexes G) with Some i => Ok i | None => Err EKey end) names)))
  end.

(** set_features_indexes, lines 321-328; without all_features_indexes it does
    nothing. *)
Definition init_features_indexes (G : setup) (s : ruleset) : res unit * ruleset :=
  match g_indexes G with
  | [] => done s
  | all =>
      use (rseq (map (fun f => match dget f all with Some i => Ok i | None => Err EKey end) (s_names s)))
          (fun l s => use (rseq (map (renumber G) (s_rules s))) (fun rules s => done (with_rules rules s)) (with_idx l s))
          s
  end.

Fixpoint append_all (G : setup) (l : list element) (s : ruleset) : res unit * ruleset :=
  match l with
  | [] => done s
  | ENone :: t => append_all G t s
  | e :: t => chain (append G e false s) (append_all G t)
  end.

(** __init__, lines 69-117.  [names_available] is true: the ruleset is still
    empty at line 103. *)
Definition new_set (G : setup) (rules : option (list element)) (compute stack : bool) : res ruleset :=
  let (o, s) :=
    match rules with
    | None => done (empty_set stack)
    | Some l =>
        chain (append_all G l (empty_set stack)) (fun s =>
        chain (if compute then compute_self_activation None s else done s) (fun s =>
        chain (if stack then compute_stacked_activation G None s else done s) (fun s =>
        chain (use (rseq (map (fun r => rbind (rule_names r) need) (s_rules s)))
                   (fun names s => done (with_names (set_of str_eqb (concat names)) s)) s) (fun s =>
        init_features_indexes G s))))
    end in
  rbind o (fun _ =>
  if g_check G then rmap (fun _ => s) (check_duplicated_rules G (s_rules s) (uses_names s)) else Ok s).

(** The setter of [rules], lines 236-243 *)
Definition set_rules (G : setup) (rules : option (list element)) (s : ruleset) : res unit * ruleset :=
  use (new_set G rules true (s_stack s)) (fun t s =>
    done (with_activation (s_act t) (with_stacked (s_stacked t) (with_idx (s_idx t) (with_names (s_names t)
         (with_rules (s_rules t) s)))))) s.

(** ** Sets of rules *)

(** A Python set: elements of the same hash that are equal are one element. *)
Definition same_element (H : hashing) (x y : Z * rule) : res bool :=
  if fst x =? fst y then rule_eq H (snd x) (snd y) else Ok false.

Fixpoint member (H : hashing) (x : Z * rule) (l : list (Z * rule)) : res bool :=
  match l with
  | [] => Ok false
  | y :: t => rbind (same_element H x y) (fun b => if b then Ok true else member H x t)
  end.

(** [set(rules)]: the first of equal rules stays. *)
Definition rule_set (H : hashing) (rules : list rule) : res (list (Z * rule)) :=
  fold_left (fun acc r =>
    rbind acc (fun l =>
    rbind (rule_hash H r) (fun h =>
    rbind (member H (h, r) l) (fun b => if b then Ok l else Ok (l ++ [(h, r)]))))) rules (Ok []).

(** __add__, lines 152-160 *)
Definition plus_rule (G : setup) (s : ruleset) (r : rule) : res ruleset :=
  new_set G (Some (map ERule (s_rules s ++ [r]))) (s_compute s) (s_stack s).

Definition plus_set (G : setup) (s other : ruleset) : res ruleset :=
  rbind (rule_set (g_hash G) (s_rules s ++ s_rules other)) (fun l =>
  new_set G (Some (map (fun x => ERule (snd x)) l)) (s_compute s) (s_stack s && s_stack other)).

(** [all(x in m for x in l)] *)
Fixpoint all_members (H : hashing) (l m : list (Z * rule)) : res bool :=
  match l with
  | [] => Ok true
  | x :: t => rbind (member H x m) (fun b => if b then all_members H t m else Ok false)
  end.

(** __eq__, lines 175-176: sets of the same size, one included in the other *)
Definition set_eq (H : hashing) (s other : ruleset) : res bool :=
  rbind (rule_set H (s_rules s)) (fun a =>
  rbind (rule_set H (s_rules other)) (fun b =>
  if (List.length a =? List.length b)%nat then all_members H a b else Ok false)).

(** to_hash and __hash__, lines 245-253 and 200-201, given by the hashes of the
    elements *)
Definition set_to_hash (H : hashing) (s : ruleset) : res (list Z) :=
  rmap (fun l => h_str H "rs" :: concat l) (rseq (map (fun r => rmap (@tl Z) (rule_to_hash H r)) (s_rules s))).

Definition set_hash (H : hashing) (s : ruleset) : res Z :=
  rmap (fun l => h_set H (set_of Z.eqb l)) (set_to_hash H s).

(** __contains__, lines 204-215 *)
Definition contains (G : setup) (s : ruleset) (r : rule) : res bool :=
  rbind (rseq (map (key G (uses_names s)) (s_rules s))) (fun keys =>
  rmap (fun k => mem str_eqb k keys) (key G (uses_names s) r)).

(** ** Access *)

(** [slice.indices(n)] and [range]; a step of 0 raises ValueError. *)
Definition clamp (lower upper n : Z) (i : Z) : Z :=
  if i <? 0 then Z.max (i + n) lower else Z.min i upper.

Definition slice_range (start stop step : option Z) (n : Z) : res (list Z) :=
  let step := match step with Some k => k | None => 1 end in
  if step =? 0 then Err EValue
  else
    let lower := if step <? 0 then -1 else 0 in
    let upper := if step <? 0 then n - 1 else n in
    let first := match start with Some i => clamp lower upper n i | None => if step <? 0 then upper else lower end in
    let last := match stop with Some i => clamp lower upper n i | None => if step <? 0 then lower else upper end in
    let count := if step <? 0 then (first - last - step - 1) / (- step) else (last - first + step - 1) / step in
    Ok (map (fun i => first + Z.of_nat i * step) (seq 0 (Z.to_nat count))).

(** __getitem__, lines 184-188 *)
Definition getitem_slice (G : setup) (start stop step : option Z) (s : ruleset) : res ruleset :=
  rbind (slice_range start stop step (Z.of_nat (List.length (s_rules s)))) (fun indices =>
  rbind (rseq (map (py_index (s_rules s)) indices)) (fun rules =>
  new_set G (Some (map ERule rules)) true false)).

Definition getitem_int (i : Z) (s : ruleset) : res rule := py_index (s_rules s) i.

(** evaluate, lines 829-845 *)
Definition set_evaluate (xs : table) (s : ruleset) : res activation :=
  match s_rules s with
  | [] => Err EValue
  | rules => rbind (rseq (map (fun r => evaluate_activation r xs) rules)) multi_or
  end.

(** Line 861: each rule in turn; those before one that raises are changed. *)
Fixpoint each (f : rule -> res unit * rule) (rules : list rule) : res unit * list rule :=
  match rules with
  | [] => (Ok tt, [])
  | r :: t =>
      match f r with
      | (Err e, r) => (Err e, r :: t)
      | (Ok _, r) => let (o, t) := each f t in (o, r :: t)
      end
  end.

Definition for_each (f : rule -> res unit * rule) (s : ruleset) : res unit * ruleset :=
  let (o, rules) := each f (s_rules s) in (o, with_rules rules s).

(** calc_activation, lines 847-867 *)
Definition set_calc_activation (G : setup) (xs : table) (s : ruleset) : res unit * ruleset :=
  match s_rules s with
  | [] => (Err EValue, s)
  | _ =>
      if (nrows xs =? 0)%nat then done s
      else
        chain (for_each (calc_activation (g_env G) (Some xs)) s) (fun s =>
        chain (compute_self_activation None (with_activation None s)) (fun s =>
        if s_stack s then compute_stacked_activation G None (with_stacked None s) else done s))
  end.

(** Lines 812-821 and 823-827 *)
Definition del_activations (s : ruleset) : ruleset := with_rules (map del_activation (s_rules s)) s.

Definition del_set_activation (s : ruleset) : ruleset :=
  match s_act s with
  | None => s
  | Some a => with_activation (Some (mkActv (v_bits a) false (v_coverage a))) s
  end.

Definition del_stacked_activations (s : ruleset) : ruleset := with_stacked None s.

(** predict, lines 1242-1279 *)
Definition set_predict (G : setup) (xs : option table) (w : option weighting) (s : ruleset) : res answer * ruleset :=
  let (o, rules) := predict_rules (g_env G) (g_stacked G) (g_shared G) (s_type s) (s_rules s) (s_stacked s) xs w in
  (o, with_rules rules s).

(** get_features_count, lines 869-887.  [rule.feautres_indexes] does not exist. *)
Definition get_features_count (s : ruleset) : res (list (string * nat)) :=
  match s_rules s with
  | [] => Ok []
  | rules =>
      if uses_names s then
        rbind (rseq (map (fun r => rbind (rule_names r) need) rules)) (fun names =>
        Ok (sorted (fun p q => (snd q <? snd p)%nat) (counter str_eqb (concat names))))
      else Err EAttr
  end.

(** ** sort, lines 695-754 *)

(** [<] on lists of numbers; NaN is left out. *)
Fixpoint nums_ltb (a b : list num) : bool :=
  match a, b with
  | _, [] => false
  | [], _ :: _ => true
  | x :: s, y :: t => if neqb x y then nums_ltb s t else nltb x y
  end.

Definition flip {A} (lt : A -> A -> bool) (x y : A) : bool := lt y x.

(** The features of a rule: their text and their number.  Literal_eval gives the
    list back; None has no length. *)
Definition feature_text (G : setup) (by_name : bool) (r : rule) : res (string * res nat) :=
  match r_cond r with
  | None => Err EAttr
  | Some c =>
      Ok (if by_name
          then (show_option (g_quote G) (c_names c), rmap (@List.length string) (need (c_names c)))
          else (show_option show_int (c_idx c), rmap (@List.length Z) (need (c_idx c))))
  end.

(** Lines 716-733: the texts in the order of the lengths, then of the texts; the
    lengths start at 1. *)
Definition ordered_texts (reverse : bool) (texts : list (string * nat)) : list string :=
  let lt := if reverse then flip str_ltb else str_ltb in
  flat_map (fun l => sorted lt (map fst (filter (fun t => (snd t =? l)%nat) texts)))
           (seq 1 (Nat.max 1 (list_max (map snd texts)))).

(** [bmins + bmaxs] *)
Definition bounds_of (r : rule) : res (list num) :=
  match r_cond r with
  | None => Err EAttr
  | Some c => rbind (need (c_min c)) (fun mins => rmap (fun maxs => mins ++ maxs) (need (c_max c)))
  end.

Definition first_lt {A B} (lt : A -> A -> bool) (x y : A * B) : bool := lt (fst x) (fst y).

Definition sort_by_features (G : setup) (reverse : bool) (s : ruleset) : res (list rule) :=
  let rules := s_rules s in
  rbind (rseq (map (feature_text G (uses_names s)) rules)) (fun texts =>
  let distinct := set_of (fun x y => str_eqb (fst x) (fst y)) texts in
  rbind (rseq (map (fun t => rmap (pair (fst t)) (snd t)) distinct)) (fun sized =>
  let order := ordered_texts reverse sized in
  if negb (forallb (fun t => mem str_eqb (fst t) order) texts) then Err EKey
  else
    rbind (rseq (map (fun r => rmap (fun b => (b, r)) (bounds_of r)) rules)) (fun keyed =>
    let group t := map snd (filter (fun p => str_eqb t (fst (fst p))) (combine texts keyed)) in
    Ok (flat_map (fun t => map snd (sorted (first_lt nums_ltb) (group t))) order)))).

(** Line 748.  Sorting fewer than two rules compares nothing; lists are left out. *)
Definition sort_by_attribute (criterion : string) (reverse : bool) (rules : list rule) : res (list rule) :=
  rbind (rseq (map (fun r => rmap (fun v => (v, r)) (getattr r criterion)) rules)) (fun keyed =>
  let sort_with {K} (lt : K -> K -> bool) (l : list (K * rule)) : list rule :=
    map snd (sorted (first_lt (if reverse then flip lt else lt)) l) in
  match keyed with
  | [] | [_] => Ok rules
  | _ =>
      if existsb (fun p => match fst p with OVal _ => false | _ => true end) keyed then Err ENotImpl
      else
        match rseq (map (fun p => match fst p with OVal (XNum x) => Ok (x, snd p) | _ => Err EType end) keyed) with
        | Ok l => Ok (sort_with nltb l)
        | Err _ =>
            rmap (sort_with str_ltb)
              (rseq (map (fun p => match fst p with OVal (XText t) => Ok (t, snd p) | _ => Err EType end) keyed))
        end
  end).

(** [df[names]] *)
Definition select_columns (names : list string) (f : frame Z) : res (frame Z) :=
  rmap (fun l => mkFrame (f_rows f) (concat l))
    (rseq (map (fun n =>
       match filter (fun c => str_eqb n (fst c)) (f_columns f) with
       | [] => Err EKey
       | l => Ok l
       end) names)).

Definition set_sort (G : setup) (criterion : option string) (reverse : bool) (s : ruleset) : res unit * ruleset :=
  let stacked s :=
    if s_stack s then
      use (match s_stacked s with
           | None => Err EType
           | Some f => rbind (rseq (map (rule_name (g_env G)) (s_rules s))) (fun names => select_columns names f)
           end) (fun f s => done (with_stacked (Some f) s)) s
    else done s in
  match s_rules s with
  | [] => done s
  | r :: _ =>
      match match criterion with None => "" | Some c => c end with
      | "" =>
          if has_condition r
          then chain (use (sort_by_features G reverse s) (fun l s => done (with_rules l s)) s) stacked
          else done s
      | c =>
          match hasattr r c with
          | Err e => (Err e, s)
          | Ok false => (Err EValue, s)
          | Ok true =>
              chain (use (sort_by_attribute c reverse (s_rules s)) (fun l s => done (with_rules l s)) s) stacked
          end
      end
  end.

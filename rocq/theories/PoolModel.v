(** Model of ruleskit/ruleset.py: several rulesets that have rules in common.

    A rule is an object that several rulesets can have in their lists, and so is
    the DataFrame stacked_activations.  What each method does to its ruleset is
    in SetModel; here is what becomes of the objects.  Activations of rulesets are
    always new objects (lines 297-300, 780-794).

    Simplifications.  load is in PoolLoadModel.  A constructor that raises leaves the rules
    as they were.  A rule that is twice in a list is changed once. *)
From Coq Require Import List ZArith QArith Bool String Ascii.
From Coq Require Import List.
From Verif Require Import Base Num CondModel ThrModel MetModel RuleModel PredModel SetModel FitModel SerialModel.
Import ListNotations.
Open Scope string_scope.
Open Scope list_scope.
Open Scope Z_scope.

(** ** Objects *)

(** A ruleset: the rules, the DataFrame, and the other attributes *)
Record handle := mkHandle {
  b_rules : list nat;
  b_frame : option nat;
  b_rest : ruleset }.

(** The objects; [p_next] and those after it are not used yet. *)
Record pool := mkPool {
  p_rules : nat -> rule;
  p_frames : nat -> frame Z;
  p_next : nat;
  p_sets : list handle }.

(** The ruleset as its user sees it *)
Definition view (p : pool) (h : handle) : ruleset :=
  with_rules (map (p_rules p) (b_rules h)) (with_stacked (option_map (p_frames p) (b_frame h)) (b_rest h)).

Definition put_at {A} (l : nat) (x : A) (f : nat -> A) (k : nat) : A := if (k =? l)%nat then x else f k.

Fixpoint put_all {A} (ls : list nat) (xs : list A) (f : nat -> A) : nat -> A :=
  match ls, xs with
  | l :: ls, x :: xs => put_at l x (put_all ls xs f)
  | _, _ => f
  end.

Fixpoint replace {A} (n : nat) (x : A) (l : list A) : list A :=
  match n, l with
  | _, [] => []
  | O, _ :: t => x :: t
  | S n, y :: t => y :: replace n x t
  end.

(** The rules [ls] become the given ones. *)
Definition keep_rules (ls : list nat) (rules : list rule) (p : pool) : pool :=
  mkPool (put_all ls rules (p_rules p)) (p_frames p) (p_next p) (p_sets p).

(** The ruleset [i] becomes [s], with the rules [ls] and the DataFrame [f]. *)
Definition keep_set (i : nat) (ls : list nat) (f : option nat) (s : ruleset) (p : pool) : pool :=
  mkPool (p_rules p) (p_frames p) (p_next p) (replace i (mkHandle ls f s) (p_sets p)).

(** The DataFrame [f] is a new object, or is changed. *)
Definition new_frame (f : frame Z) (p : pool) : option nat * pool :=
  (Some (p_next p), mkPool (p_rules p) (put_at (p_next p) f (p_frames p)) (S (p_next p)) (p_sets p)).

Definition change_frame (l : nat) (f : frame Z) (p : pool) : pool :=
  mkPool (p_rules p) (put_at l f (p_frames p)) (p_next p) (p_sets p).

(** The DataFrame of [s] as a new object *)
Definition fresh_frame (s : ruleset) (p : pool) : option nat * pool :=
  match s_stacked s with
  | None => (None, p)
  | Some f => new_frame f p
  end.

(** ** Methods *)

(** With a new ruleset *)
Definition pool_new (ls : list nat) (made : res ruleset) (p : pool) : res unit * pool :=
  match made with
  | Err e => (Err e, p)
  | Ok s =>
      let (f, p) := fresh_frame s (keep_rules ls (s_rules s) p) in
      (Ok tt, mkPool (p_rules p) (p_frames p) (p_next p) (p_sets p ++ [mkHandle ls f s]))
  end.

Definition get (p : pool) (i : nat) : res handle :=
  match nth_error (p_sets p) i with Some h => Ok h | None => Err ENotImpl end.

(** A method of the ruleset [i] *)
Definition method (i : nat) (f : handle -> ruleset -> res unit * pool) (p : pool) : res unit * pool :=
  match get p i with
  | Err e => (Err e, p)
  | Ok h => f h (view p h)
  end.

(** __init__, without and with a list *)
Definition pool_empty (G : setup) (stack : bool) (p : pool) : res unit * pool := pool_new [] (new_set G None true stack) p.

Definition pool_init (G : setup) (ls : list nat) (compute stack : bool) (p : pool) : res unit * pool :=
  pool_new ls (new_set G (Some (map ERule (map (p_rules p) ls))) compute stack) p.

(** After a rule has been appended: line 309 makes a DataFrame, line 317 changes
    the one there is. *)
Definition appended (i : nat) (h : handle) (s s' : ruleset) (l : nat) (p : pool) : pool :=
  let ls := if (List.length (s_rules s') =? List.length (s_rules s))%nat then b_rules h else b_rules h ++ [l] in
  match s_stacked s', b_frame h with
  | Some f, Some k => keep_set i ls (Some k) s' (change_frame k f p)
  | Some f, None => let (k, p) := new_frame f p in keep_set i ls k s' p
  | None, _ => keep_set i ls None s' p
  end.

(** [+= rule] and append *)
Definition pool_add_rule (G : setup) (i l : nat) (p : pool) : res unit * pool :=
  method i (fun h s => let (o, s') := add_rule G (p_rules p l) s in (o, appended i h s s' l p)) p.

Definition pool_append (G : setup) (i l : nat) (update : bool) (p : pool) : res unit * pool :=
  method i (fun h s => let (o, s') := append G (ERule (p_rules p l)) update s in (o, appended i h s s' l p)) p.

(** [+= ruleset]: line 314 takes the DataFrame of the other ruleset, line 319
    makes a new one. *)
Definition pool_add_set (i j : nat) (p : pool) : res unit * pool :=
  match get p j with
  | Err e => (Err e, p)
  | Ok g =>
      method i (fun h s =>
        let other := view p g in
        let (o, s') := add_set other s in
        let ls := if (List.length (s_rules s') =? List.length (s_rules s))%nat then b_rules h else b_rules h ++ b_rules g in
        match o with
        | Err _ => (o, keep_set i ls (b_frame h) s' p)
        | Ok _ =>
            if s_stack s && set_available other then
              match b_frame h with
              | None => (o, keep_set i ls (b_frame g) s' p)
              | Some _ => let (f, p) := fresh_frame s' p in (o, keep_set i ls f s' p)
              end
            else (o, keep_set i ls (b_frame h) s' p)
        end) p
  end.

(** [+] *)
Definition pool_plus_rule (G : setup) (i l : nat) (p : pool) : res unit * pool :=
  method i (fun h s => pool_new (b_rules h ++ [l]) (plus_rule G s (p_rules p l)) p) p.

(** The objects of [set(rules)]: the first of equal rules *)
Fixpoint distinct_rules (H : hashing) (rules : nat -> rule) (ls : list nat) (seen : list (Z * rule)) : res (list nat) :=
  match ls with
  | [] => Ok []
  | l :: ls =>
      rbind (rule_hash H (rules l)) (fun h =>
      rbind (member H (h, rules l) seen) (fun b =>
      if b then distinct_rules H rules ls seen
      else rmap (cons l) (distinct_rules H rules ls (seen ++ [(h, rules l)]))))
  end.

Definition pool_plus_set (G : setup) (i j : nat) (p : pool) : res unit * pool :=
  match get p j with
  | Err e => (Err e, p)
  | Ok g =>
      method i (fun h s =>
        match distinct_rules (g_hash G) (p_rules p) (b_rules h ++ b_rules g) [] with
        | Err e => (Err e, p)
        | Ok ls => pool_new ls (plus_set G s (view p g)) p
        end) p
  end.

(** A slice *)
Definition pool_slice (G : setup) (i : nat) (start stop step : option Z) (p : pool) : res unit * pool :=
  method i (fun h s =>
    match rbind (slice_range start stop step (Z.of_nat (List.length (b_rules h)))) (fun indices =>
          rseq (map (py_index (b_rules h)) indices)) with
    | Err e => (Err e, p)
    | Ok ls => pool_new ls (getitem_slice G start stop step s) p
    end) p.

(** The setter of [rules] *)
Definition pool_set_rules (G : setup) (i : nat) (ls : list nat) (p : pool) : res unit * pool :=
  method i (fun h s =>
    match set_rules G (Some (map ERule (map (p_rules p) ls))) s with
    | (Err e, _) => (Err e, p)
    | (Ok _, s') =>
        let (f, p) := fresh_frame s' (keep_rules ls (s_rules s') p) in
        (Ok tt, keep_set i ls f s' p)
    end) p.

(** A method that changes the rules, and leaves the DataFrame *)
Definition pool_change (i : nat) (f : ruleset -> res unit * ruleset) (p : pool) : res unit * pool :=
  method i (fun h s =>
    let (o, s') := f s in
    (o, keep_set i (b_rules h) (b_frame h) s' (keep_rules (b_rules h) (s_rules s') p))) p.

(** calc_activation: line 866 drops the DataFrame, then there is a new one; without
    rows nothing is done. *)
Definition pool_calc (G : setup) (i : nat) (xs : table) (p : pool) : res unit * pool :=
  method i (fun h s =>
    let (o, s') := set_calc_activation G xs s in
    let p := keep_rules (b_rules h) (s_rules s') p in
    match s_stacked s' with
    | None => (o, keep_set i (b_rules h) None s' p)
    | Some f =>
        match o with
        | Err _ => (o, keep_set i (b_rules h) (b_frame h) s' p)
        | Ok _ =>
            if s_stack s && negb (nrows xs =? 0)%nat
            then let (k, p) := new_frame f p in (o, keep_set i (b_rules h) k s' p)
            else (o, keep_set i (b_rules h) (b_frame h) s' p)
        end
    end) p.

(** del_activations, del_activation, and del_stacked_activations *)
Definition pool_del_activations (i : nat) (p : pool) : res unit * pool :=
  pool_change i (fun s => done (del_activations s)) p.

Definition pool_del_activation (i : nat) (p : pool) : res unit * pool :=
  method i (fun h s => (Ok tt, keep_set i (b_rules h) (b_frame h) (del_set_activation s) p)) p.

Definition pool_del_stacked (i : nat) (p : pool) : res unit * pool :=
  method i (fun h s => (Ok tt, keep_set i (b_rules h) None (del_stacked_activations s) p)) p.

(** to_df *)
Definition pool_to_df (X : texts) (i : nat) (attributes : bool) (p : pool) : res unit * pool :=
  pool_change i (fun s => let (o, s) := to_df X None attributes s in (rmap (fun _ => tt) o, s)) p.

(** ** Methods in several steps: fit, eval, sort and predict *)

(** The DataFrame after a step, the rules being kept: none; a new one if there was
    none or if the step has made one; the one there is otherwise. *)
Definition frame_after_step {A} (h : handle) (fresh : bool) (o : res A) (s' : ruleset) (p : pool) : option nat * pool :=
  match s_stacked s', b_frame h, o with
  | None, _, _ => (None, p)
  | Some f, None, _ => new_frame f p
  | Some f, Some k, Ok _ => if fresh then new_frame f p else (Some k, p)
  | Some _, Some k, Err _ => (Some k, p)
  end.

(** A step that changes attributes of the ruleset and of its rules; [fresh] tells
    whether it makes a DataFrame. *)
Definition phase {A} (i : nat) (fresh : ruleset -> bool) (f : ruleset -> res A * ruleset) (p : pool) : res A * pool :=
  match get p i with
  | Err e => (Err e, p)
  | Ok h =>
      let (o, s') := f (view p h) in
      let (k, p) := frame_after_step h (fresh (view p h)) o s' (keep_rules (b_rules h) (s_rules s') p) in
      (o, keep_set i (b_rules h) k s' p)
  end.

Definition never (s : ruleset) : bool := false.

Definition and_then {A B} (m : res A * pool) (f : A -> pool -> res B * pool) : res B * pool :=
  match m with
  | (Ok a, p) => f a p
  | (Err e, p) => (Err e, p)
  end.

(** The ruleset as it is now *)
Definition look {A} (i : nat) (f : ruleset -> pool -> res A * pool) (p : pool) : res A * pool :=
  match get p i with
  | Err e => (Err e, p)
  | Ok h => f (view p h) p
  end.

(** Lines 438-446 and 637-645.  [r in to_drop]: the same object, or an equal one *)
Fixpoint among_objects (H : hashing) (rules : nat -> rule) (l : nat) (drop : list nat) : res bool :=
  match drop with
  | [] => Ok false
  | d :: t => if (l =? d)%nat then Ok true else rbind (rule_eq H (rules d) (rules l)) (fun b => if b then Ok true else among_objects H rules l t)
  end.

Definition kept_objects (H : hashing) (rules : nat -> rule) (ls drop : list nat) : res (list nat) :=
  rmap (fun l => map snd (filter (fun q => negb (fst q)) l))
       (rseq (map (fun l => rmap (fun b => (b, l)) (among_objects H rules l drop)) ls)).

Definition objects_at (ls : list nat) (numbers : list nat) : list nat :=
  flat_map (fun n => match nth_error ls n with Some l => [l] | None => [] end) numbers.

(** The rules kept are appended again; when that raises, some are in the list. *)
Definition pool_drop (G : setup) (i : nat) (numbers : list nat) (p : pool) : res unit * pool :=
  method i (fun h s =>
    match kept_objects (g_hash G) (p_rules p) (b_rules h) (objects_at (b_rules h) numbers) with
    | Err e => (Err e, p)
    | Ok ls =>
        let (o, s') := rebuild G (map (p_rules p) ls) s in
        (o, keep_set i (firstn (List.length (s_rules s')) ls) None s' p)
    end) p.

Definition pool_refresh (G : setup) (i : nat) (activation : bool) (stacked : ruleset -> bool) (p : pool) : res unit * pool :=
  and_then (phase i never (fun s => if activation then compute_self_activation None (with_activation None s) else done s) p) (fun _ p =>
  phase i (fun s => s_stack s && stacked s)
    (fun s => if s_stack s && stacked s then compute_stacked_activation G None (with_stacked None s) else done s) p).

(** fit: as in FitModel; the DataFrame is new when it is computed. *)
Definition pool_fit_rules (G : setup) (i : nat) (k : kind) (y : target label) (series : bool) (xs : option table) (force : bool)
    (kw : keywords) (p : pool) : res (list nat) * pool :=
  if g_stacked G then
    look i (fun s p =>
      and_then (phase i (fun s => given xs || not_stacked s) (fit_activations G xs) p) (fun _ p =>
      phase i never (fit_assign G k y series ((given xs || not_stacked s) && negb (s_stack s)) kw) p)) p
  else phase i never (fit_rules G k y series xs force kw) p.

Definition pool_fit (G : setup) (i : nat) (y : target label) (series : bool) (xs : option table) (force : bool) (kw : keywords)
    (p : pool) : res unit * pool :=
  look i (fun s p =>
  match learns s kw with
  | Err e => (Err e, p)
  | Ok k =>
      if no_rows xs then (Ok tt, p)
      else
        match s_rules s with
        | [] => (Ok tt, p)
        | rules =>
            if forallb r_fitted rules && negb (given xs) then (Ok tt, p)
            else
              and_then (pool_fit_rules G i k y series xs force kw p) (fun drop p =>
              look i (fun s p =>
              and_then
                (match numbers_rules (s_rules s) drop with
                 | [] =>
                     if g_stacked G then (Ok tt, p)
                     else pool_refresh G i (no_activation s || given xs) (fun s => not_stacked s || given xs) p
                 | _ => and_then (pool_drop G i drop p) (fun _ => pool_refresh G i true (fun _ => true))
                 end) (fun _ =>
              phase i never (fun s => use (target_len y) (fun n s => done (with_train (integer n) s)) s))) p)
        end
  end) p.

(** eval *)
Definition pool_eval_rules (G : setup) (i : nat) (k : kind) (y : target label) (xs : option table) (keep_new force : bool)
    (kw : keywords) (p : pool) : res (list nat) * pool :=
  if g_stacked G then
    look i (fun s p =>
      and_then (phase i (fun s => if given xs then keep_new else not_stacked s) (eval_activations G xs keep_new) p) (fun f p =>
      phase i never (eval_assign G k y ((if given xs then keep_new else not_stacked s) && negb (s_stack s)) kw f) p)) p
  else phase i never (eval_rules G k y xs keep_new force kw) p.

Definition pool_eval (G : setup) (i : nat) (y : target label) (xs : option table) (keep_new : bool) (w : option weighting)
    (force : bool) (kw : keywords) (p : pool) : res unit * pool :=
  look i (fun s p =>
  match learns s kw with
  | Err e => (Err e, p)
  | Ok k =>
      if no_rows xs then (Ok tt, p)
      else
        match s_rules s with
        | [] => (Ok tt, p)
        | rules =>
            if negb (forallb r_fitted rules) && negb (given xs) then (Err EValue, p)
            else
              let keep_new := keep_new || negb (forallb r_fitted rules) in
              let kept := given xs && keep_new in
              and_then (pool_eval_rules G i k y xs keep_new force kw p) (fun drop p =>
              look i (fun s p =>
              and_then
                (match numbers_rules (s_rules s) drop with
                 | [] =>
                     if g_stacked G then (Ok tt, p)
                     else pool_refresh G i (no_activation s || kept) (fun s => match s_act s with None => true | Some _ => kept end) p
                 | _ =>
                     and_then (pool_drop G i drop p) (fun _ p =>
                     look i (fun s => pool_refresh G i (no_activation s || kept) (fun s => not_stacked s || kept)) p)
                 end) (fun _ p =>
              and_then (phase i never (calc_criterion G y (if keep_new then None else xs) w kw) p) (fun _ =>
              phase i never (fun s => use (target_len y) (fun n s => done (with_test (integer n) s)) s)))) p)
        end
  end) p.

(** sort, lines 695-754: the rules in their new order.  As in SetModel, with the
    objects. *)
Definition objects_by_features (G : setup) (rules : nat -> rule) (by_name reverse : bool) (ls : list nat) : res (list nat) :=
  rbind (rseq (map (fun l => feature_text G by_name (rules l)) ls)) (fun texts =>
  let distinct := set_of (fun x y => str_eqb (fst x) (fst y)) texts in
  rbind (rseq (map (fun t => rmap (pair (fst t)) (snd t)) distinct)) (fun sized =>
  let order := ordered_texts reverse sized in
  if negb (forallb (fun t => mem str_eqb (fst t) order) texts) then Err EKey
  else
    rbind (rseq (map (fun l => rmap (fun b => (b, l)) (bounds_of (rules l))) ls)) (fun keyed =>
    let group t := map snd (filter (fun p => str_eqb t (fst (fst p))) (combine texts keyed)) in
    Ok (flat_map (fun t => map snd (sorted (first_lt nums_ltb) (group t))) order)))).

Definition objects_by_attribute (rules : nat -> rule) (criterion : string) (reverse : bool) (ls : list nat) : res (list nat) :=
  rbind (rseq (map (fun l => rmap (fun v => (v, l)) (getattr (rules l) criterion)) ls)) (fun keyed =>
  let sort_with {K} (lt : K -> K -> bool) (l : list (K * nat)) : list nat :=
    map snd (sorted (first_lt (if reverse then flip lt else lt)) l) in
  match keyed with
  | [] | [_] => Ok ls
  | _ =>
      if existsb (fun p => match fst p with OVal _ => false | _ => true end) keyed then Err ENotImpl
      else
        match rseq (map (fun p => match fst p with OVal (XNum x) => Ok (x, snd p) | _ => Err EType end) keyed) with
        | Ok l => Ok (sort_with nltb l)
        | Err _ =>
            rmap (sort_with str_ltb)
              (rseq (map (fun p => match fst p with OVal (XText t) => Ok (t, snd p) | _ => Err EType end) keyed))
        end
  end).

(** The new order, or None if there is none *)
Definition objects_sorted (G : setup) (rules : nat -> rule) (criterion : option string) (reverse by_name : bool) (ls : list nat)
    : option (res (list nat)) :=
  match ls with
  | [] => None
  | l :: _ =>
      match match criterion with None => "" | Some c => c end with
      | "" => if has_condition (rules l) then Some (objects_by_features G rules by_name reverse ls) else None
      | c =>
          match hasattr (rules l) c with
          | Ok true => Some (objects_by_attribute rules c reverse ls)
          | _ => None
          end
      end
  end.

(** Line 754 makes a DataFrame. *)
Definition pool_sort (G : setup) (i : nat) (criterion : option string) (reverse : bool) (p : pool) : res unit * pool :=
  method i (fun h s =>
    let (o, s') := set_sort G criterion reverse s in
    match objects_sorted G (p_rules p) criterion reverse (uses_names s) (b_rules h) with
    | Some (Ok ls) => let (k, p) := frame_after_step h (s_stack s) o s' p in (o, keep_set i ls k s' p)
    | _ => (o, p)
    end) p.

(** predict *)
Definition pool_predict (G : setup) (i : nat) (xs : option table) (w : option weighting) (p : pool) : res unit * pool :=
  phase i never (fun s => let (o, s) := set_predict G xs w s in (rmap (fun _ => tt) o, s)) p.

(** ** Histories *)

Inductive command :=
| Empty (stack : bool)
| Init (ls : list nat) (compute stack : bool)
| AddRule (i l : nat)
| Append (i l : nat) (update : bool)
| AddSet (i j : nat)
| PlusRule (i l : nat)
| PlusSet (i j : nat)
| SetRules (i : nat) (ls : list nat)
| Slice (i : nat) (start stop step : option Z)
| Calc (i : nat) (xs : table)
| DelActivations (i : nat)
| DelActivation (i : nat)
| DelStacked (i : nat)
| ToDf (i : nat) (attributes : bool)
| Fit (i : nat) (y : target label) (series : bool) (xs : option table) (force : bool) (kw : keywords)
| Eval (i : nat) (y : target label) (xs : option table) (keep_new : bool) (w : option weighting) (force : bool) (kw : keywords)
| Sort (i : nat) (criterion : option string) (reverse : bool)
| Predict (i : nat) (xs : option table) (w : option weighting).

Definition exec (G : setup) (X : texts) (c : command) (p : pool) : res unit * pool :=
  match c with
  | Empty stack => pool_empty G stack p
  | Init ls compute stack => pool_init G ls compute stack p
  | AddRule i l => pool_add_rule G i l p
  | Append i l update => pool_append G i l update p
  | AddSet i j => pool_add_set i j p
  | PlusRule i l => pool_plus_rule G i l p
  | PlusSet i j => pool_plus_set G i j p
  | SetRules i ls => pool_set_rules G i ls p
  | Slice i start stop step => pool_slice G i start stop step p
  | Calc i xs => pool_calc G i xs p
  | DelActivations i => pool_del_activations i p
  | DelActivation i => pool_del_activation i p
  | DelStacked i => pool_del_stacked i p
  | ToDf i attributes => pool_to_df X i attributes p
  | Fit i y series xs force kw => pool_fit G i y series xs force kw p
  | Eval i y xs keep_new w force kw => pool_eval G i y xs keep_new w force kw p
  | Sort i criterion reverse => pool_sort G i criterion reverse p
  | Predict i xs w => pool_predict G i xs w p
  end.

(** One after another; a command may raise. *)
Fixpoint exec_all (G : setup) (X : texts) (cs : list command) (p : pool) : pool :=
  match cs with
  | [] => p
  | c :: cs => exec_all G X cs (snd (exec G X c p))
  end.

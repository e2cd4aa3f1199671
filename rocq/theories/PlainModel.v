(** Model of the class Condition of ruleskit/condition.py (lines 18-100) when it
    is used by itself, of what HyperrectangleCondition and Rule do with such a
    condition, and of [+] on conditions and rules (condition.py 51-52, rule.py
    155-156).

    Lists are values.  Comparison of two conditions of the base class is that
    of [object] (the same object) and is left out.  Of a rule only the condition
    and the activation are kept. *)
From Coq Require Import List ZArith QArith Bool String.
From Coq Require Import List.
From Verif Require Import Base Num CondModel ThrModel MetModel RuleModel.
Import ListNotations.
Open Scope Z_scope.

(** Attributes _features_indexes (None for an empty condition) and impossible. *)
Record plain := mkPlain {
  p_idx : option (list Z);
  p_imp : bool }.

(** lines 28-43.  [None] stands for an omitted argument. *)
Definition new_plain (idx : option (list item)) (empty : bool) : res plain :=
  if empty then Ok (mkPlain None false)
  else
    match idx with
    | None => Err EValue
    | Some l =>
        if existsb (fun a => negb (is_integer a)) l then Err EType
        else
          let l := map the_int l in
          if has_dup Z.eqb l then Err EDuplicated else Ok (mkPlain (Some l) false)
    end.

(** lines 45-46: sorted(None) raises TypeError *)
Definition plain_sort (p : plain) : res plain :=
  rbind (need (p_idx p)) (fun l => Ok (mkPlain (Some (sorted Z.ltb l)) (p_imp p))).

(** lines 48-50: [pass], so that the result is None *)
Definition plain_and {A} (p : plain) (other : A) : option plain := None.

(** [NotImplemented("...")] (line 52, rule.py line 156): the object
    NotImplemented can not be called *)
Definition call_not_implemented {A} : res A := Err EType.

(** lines 51-52, also for HyperrectangleCondition, which inherits it *)
Definition plain_add {A} (p : plain) (other : A) : res plain := call_not_implemented.
Definition cond_add {A} (c : cond) (other : A) : res cond := call_not_implemented.

(** rule.py lines 155-156 *)
Definition rule_add {A} (r : rule) (other : A) : res rule := call_not_implemented.

(** lines 54-56: the tuple ("c", index, ...), given by the hashes of its elements *)
Definition plain_to_hash (H : hashing) (p : plain) : res (list Z) :=
  rmap (fun l => h_str H "c" :: map hash_int l) (need (p_idx p)).

(** lines 58-59.  The indexes are distinct, so that the elements of the frozenset
    are the elements of the tuple. *)
Definition plain_hash (H : hashing) (p : plain) : res Z := rmap (h_set H) (plain_to_hash H p).

(** lines 75-77: len(None) raises TypeError *)
Definition plain_len (p : plain) : res nat := rmap (@List.length Z) (need (p_idx p)).

(** lines 65-73 *)
Definition plain_set_indexes (v : given Z) (p : plain) : res unit * plain :=
  match read_list v with
  | Err e => (Err e, p)
  | Ok l =>
      if has_dup Z.eqb l then (Err EDuplicated, p)
      else
        match plain_len p with
        | Err e => (Err e, p)
        | Ok n =>
            if (0 <? n)%nat && negb (n =? List.length l)%nat then (Err EIndex, p)
            else (Ok tt, mkPlain (Some l) (p_imp p))
        end
  end.

(** lines 79-95: only a docstring and [pass], so that the result is None *)
Definition plain_evaluate (p : plain) (xs : table) : option (list Z) := None.

(** lines 97-100 *)
Definition plain_normalize (p : plain) : res plain :=
  rbind (need (p_idx p)) (fun l =>
  Ok (mkPlain (Some (map Z.of_nat (seq 0 (List.length l)))) (p_imp p))).

(** HyperrectangleCondition.__and__ (lines 194-201 and 277) with a condition of
    the base class, which has no features_names and no getattr *)
Definition cond_and_plain (sett : settings) (c : cond) (p : plain) : res cond :=
  rbind (copied sett c) (fun _ => Err EAttr).

(** HyperrectangleCondition.__eq__ (lines 352-355) with a condition of the base
    class on either side: the base class leaves the comparison to the other
    operand *)
Definition cond_eq_plain (H : hashing) (c : cond) (p : plain) : res bool :=
  rbind (hash H c) (fun h1 => rbind (plain_hash H p) (fun h2 => Ok (h1 =? h2))).
Definition plain_eq_cond (H : hashing) (p : plain) (c : cond) : res bool := cond_eq_plain H c p.

(** ** A rule whose condition is of the base class *)

Record prule := mkPrule {
  q_cond : plain;
  q_act : option activation }.

(** Activation.__init__ (activation.py 199-287) of the result of an evaluation:
    None is none of the types of _init_with_any *)
Definition activation_of (v : option (list Z)) : res activation :=
  match v with Some l => Ok (new_activation l) | None => Err EType end.

(** rule.py lines 317-333 *)
Definition prule_evaluate_activation (r : prule) (xs : table) : res activation :=
  activation_of (plain_evaluate (q_cond r) xs).

(** rule.py lines 535-557, up to the thresholds on the coverage *)
Definition prule_calc_activation (xs : option table) (r : prule) : res unit * prule :=
  match xs with
  | None => match q_act r with None => (Err EValue, r) | Some _ => (Ok tt, r) end
  | Some xs =>
      if (nrows xs =? 0)%nat then (Ok tt, r)
      else
        match prule_evaluate_activation r xs with
        | Err e => (Err e, r)
        | Ok a => (Ok tt, mkPrule (q_cond r) (Some a))
        end
  end.

(** rule.py lines 71-84: the arguments of the constructor are a condition or
    None, and an activation or None *)
Definition new_prule (condition : option plain) (act : option activation) : res (option prule) :=
  match condition, act with
  | None, Some _ => Err EValue
  | None, None => Ok None
  | Some p, a => Ok (Some (mkPrule p a))
  end.

(** rule.py lines 149-153.  The result None stands for a rule without condition. *)
Definition prule_and (r1 r2 : prule) : res (option prule) :=
  let condition := plain_and (q_cond r1) (q_cond r2) in
  match q_act r1, q_act r2 with
  | Some a1, Some a2 => rbind (act_and a1 a2) (fun a => new_prule condition (Some a))
  | Some _, None => Err EAttr
  | None, _ => Err EType
  end.

(** What a rule and a ruleset print, and the small accessors of RuleSet:
    ruleskit/rule.py 298-304, ruleskit/ruleset.py 162-182, 190-198, 217-230, 265-270
    and 1235-1240.

    Simplifications.  The text that a format string makes of a prediction is the
    argument [show].  [NLINES] is an argument.  Of a type given to the setter of
    [rule_type] only what the test of line 225 sees is kept.  Of the attributes of an
    activation only those listed in RuleModel.v can be read through a ruleset. *)
From Coq Require Import List ZArith QArith Bool String.
From Coq Require Import List.
From Verif Require Import Base Num CondModel ThrModel MetModel RuleModel PredModel SetModel FitModel.
Import ListNotations.
Open Scope string_scope.
Open Scope list_scope.
Open Scope Z_scope.

(** ** Rule.__str__, rule.py 298-304 *)

Definition rule_str (E : env) (show : obj -> string) (r : rule) : res string :=
  let prediction :=
    match slot "_prediction" r with
    | OVal XNone => "<prediction unset>"
    | p => show p
    end in
  match r_cond r with
  | None => Ok "empty rule"
  | Some c => rmap (fun t => ("If " ++ t ++ " Then " ++ prediction ++ ".")%string) (cond_str (e_repr E) c)
  end.

(** ** RuleSet *)

(** [range(start, stop)] *)
Definition range (start stop : Z) : list Z := map (fun i => start + Z.of_nat i) (seq 0 (Z.to_nat (stop - start))).

(** [[str(self[i]) for i in indices]] *)
Definition rule_strs (E : env) (show : obj -> string) (s : ruleset) (indices : list Z) : res (list string) :=
  rseq (map (fun i => rbind (getitem_int i s) (rule_str E show)) indices).

(** __len__, lines 171-173 *)
Definition set_len (s : ruleset) : Z := Z.of_nat (List.length (s_rules s)).

Definition newline : string := String (Ascii.ascii_of_nat 10) "".

(** __str__, lines 190-198 *)
Definition set_str (E : env) (show : obj -> string) (nlines : Z) (s : ruleset) : res string :=
  let n := set_len s in
  if n <? 2 * nlines
  then rmap (String.concat newline) (rule_strs E show s (range 0 n))
  else
    rbind (rule_strs E show s (range 0 nlines)) (fun first =>
    rbind (rule_strs E show s (range (n - nlines) n)) (fun last =>
    Ok (String.concat newline (first ++ ["..."] ++ last)))).

(** __iter__, lines 178-182; a ruleset always has [_rules] once it is built. *)
Definition set_iter (s : ruleset) : list rule := s_rules s.

(** rule_type, lines 217-221 *)
Definition rule_type (s : ruleset) : res kind :=
  match s_type s with None => Err EValue | Some k => Ok k end.

(** What [issubclass(rule_type, (ClassificationRule, RegressionRule, Rule))] sees *)
Inductive class :=
| ARule (k : kind)       (* a class derived from Rule *)
| AClass                 (* another class *)
| NoClass.               (* not a class: issubclass raises *)

(** The setter, lines 223-230 *)
Definition set_rule_type (c : class) (s : ruleset) : res unit * ruleset :=
  match c with
  | ARule k => (Ok tt, with_type (Some k) s)
  | AClass => (Err EType, s)
  | NoClass => (Err EType, s)
  end.

(** stacked_activations_available, lines 265-270.  [stack_activation] is never None. *)
Definition stacked_activations_available (s : ruleset) : res bool :=
  match s_act s with
  | None => Err EAttr
  | Some a => Ok (negb (alen a =? 0))
  end.

(** __getattr__, lines 162-169, for a name that is not an attribute of the ruleset *)
Definition set_delegated (s : ruleset) (name : string) : res obj :=
  match find_attribute activation_attributes (s_act s) name with
  | Some v => v
  | None => Err EAttr
  end.

(** calc_test_set_sizes, lines 1235-1240 *)
Definition test_sizes (E : env) (rules : list rule) (y : target label) : res (list (string * obj)) :=
  rbind (target_len y) (fun n => by_name E (fun _ => Ok (integer n)) rules).

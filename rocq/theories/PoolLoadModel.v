(** Model of ruleskit/ruleset.py: load (lines 889-929) when several rulesets have
    rules in common.

    What load does to its ruleset is in SerialModel; here is what becomes of the
    objects, as in PoolModel.  [new] gives the objects that the interpreter makes:
    the rule number [n] of the list of line 913 is the object [new n]. *)
From Coq Require Import List ZArith QArith Bool String Ascii.
From Coq Require Import List.
From Verif Require Import Base Num CondModel ThrModel MetModel RuleModel PredModel SetModel FitModel SerialModel PoolModel.
Import ListNotations.
Open Scope string_scope.
Open Scope list_scope.
Open Scope Z_scope.

(** Lines 914-922 *)
Definition fill_rules (X : texts) (s : ruleset) : res unit * ruleset :=
  use (rseq (map (fill_sizes X s) (s_rules s))) (fun rules s => done (with_rules rules s)) s.

(** Lines 924-926 *)
Definition first_type (s : ruleset) : ruleset :=
  match s_rules s with [] => s | r :: _ => with_type (Some (r_kind r)) s end.

(** Line 929 *)
Definition gather_names (s : ruleset) : res unit * ruleset :=
  use (rseq (map (fun r => rbind (rule_names r) need) (s_rules s))) (fun names s =>
  done (with_names (set_of str_eqb
    (atoms (traverse tree_types (Node CList (map (fun l => Node CList (map Atom l)) names))))) s)) s.

(** Lines 914-929, on the ruleset with its new rules; lines 927-928 make a
    DataFrame. *)
Definition pool_load_rest (X : texts) (G : setup) (i : nat) (p : pool) : res unit * pool :=
  and_then (phase i never (fill_rules X) p) (fun _ p =>
  and_then (phase i never (fun s => compute_self_activation None (first_type s)) p) (fun _ p =>
  and_then (phase i s_stack (fun s => if s_stack s then compute_stacked_activation G None s else done s) p) (fun _ p =>
  phase i never gather_names p))).

Definition pool_load (X : texts) (G : setup) (new : nat -> nat) (i : nat) (w : rows) (p : pool) : res unit * pool :=
  method i (fun h s =>
  match w_columns w with
  | [] => (Err EIndex, p)
  | columns =>
      let (o, s) := load_attributes X (w_rows w) s in
      match rbind o (fun l => rseq (map (fun row => series_to_rule X (g_env G) (combine columns row)) l)) with
      | Err e => (Err e, keep_set i (b_rules h) (b_frame h) s p)
      | Ok rules =>
          let ls := map new (seq 0 (List.length rules)) in
          pool_load_rest X G i (keep_set i ls (b_frame h) s (keep_rules ls rules p))
      end
  end) p.

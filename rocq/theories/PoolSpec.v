(** Vocabulary for several rulesets: which command is about which ruleset and
    which rule. *)
From Coq Require Import List ZArith QArith Bool String.
From Coq Require Import List.
From Verif Require Import Base Num CondModel RuleModel PredModel SetModel FitModel SerialModel PoolModel.
Import ListNotations.

Definition ruleset_at (p : pool) (i : nat) (h : handle) : Prop := nth_error (p_sets p) i = Some h.

(** The ruleset whose attributes are set *)
Inductive target : command -> nat -> Prop :=
| T_add_rule i l : target (AddRule i l) i
| T_append i l u : target (Append i l u) i
| T_add_set i j : target (AddSet i j) i
| T_set_rules i ls : target (SetRules i ls) i
| T_calc i xs : target (Calc i xs) i
| T_del_activations i : target (DelActivations i) i
| T_del_activation i : target (DelActivation i) i
| T_del_stacked i : target (DelStacked i) i
| T_to_df i a : target (ToDf i a) i
| T_fit i y series xs force kw : target (Fit i y series xs force kw) i
| T_eval i y xs keep_new w force kw : target (Eval i y xs keep_new w force kw) i
| T_sort i criterion reverse : target (Sort i criterion reverse) i
| T_predict i xs w : target (Predict i xs w) i.

(** The rulesets that are read *)
Inductive operand : command -> nat -> Prop :=
| O_target c i : target c i -> operand c i
| O_add_set i j : operand (AddSet i j) j
| O_plus_rule i l : operand (PlusRule i l) i
| O_plus_left i j : operand (PlusSet i j) i
| O_plus_right i j : operand (PlusSet i j) j
| O_slice i a b c : operand (Slice i a b c) i.

(** The rules given *)
Inductive argument : command -> nat -> Prop :=
| G_init ls compute stack l : In l ls -> argument (Init ls compute stack) l
| G_add_rule i l : argument (AddRule i l) l
| G_append i l u : argument (Append i l u) l
| G_plus_rule i l : argument (PlusRule i l) l
| G_set_rules i ls l : In l ls -> argument (SetRules i ls) l.

(** Commands that set attributes of the rules of a ruleset *)
Inductive works_on : command -> nat -> Prop :=
| W_calc i xs : works_on (Calc i xs) i
| W_del i : works_on (DelActivations i) i
| W_to_df i a : works_on (ToDf i a) i
| W_fit i y series xs force kw : works_on (Fit i y series xs force kw) i
| W_eval i y xs keep_new w force kw : works_on (Eval i y xs keep_new w force kw) i
| W_predict i xs w : works_on (Predict i xs w) i.

(** Commands that construct a ruleset *)
Inductive constructs : command -> Prop :=
| C_empty stack : constructs (Empty stack)
| C_init ls compute stack : constructs (Init ls compute stack)
| C_plus_rule i l : constructs (PlusRule i l)
| C_plus_set i j : constructs (PlusSet i j)
| C_set_rules i ls : constructs (SetRules i ls)
| C_slice i a b c : constructs (Slice i a b c).

(** The rules that a command can change: those of the ruleset it works on; and
    with all_features_indexes the rules of a ruleset that it constructs. *)
Definition changes (G : setup) (p : pool) (c : command) (l : nat) : Prop :=
  (exists i h, works_on c i /\ ruleset_at p i h /\ In l (b_rules h)) \/
  (g_indexes G <> [] /\ constructs c /\
   (argument c l \/ exists i h, operand c i /\ ruleset_at p i h /\ In l (b_rules h))).

(** Commands that add a rule in place *)
Inductive adds : command -> nat -> Prop :=
| A_add i l : adds (AddRule i l) i
| A_append i l u : adds (Append i l u) i.

(** The DataFrames that exist *)
Definition in_use (p : pool) : Prop := forall i h k, ruleset_at p i h -> b_frame h = Some k -> (k < p_next p)%nat.

(** No two rulesets have one DataFrame. *)
Definition separate (p : pool) : Prop := forall i j h g k, ruleset_at p i h -> ruleset_at p j g -> i <> j ->
  b_frame h = Some k -> b_frame g <> Some k.

(** [+=] with a ruleset whose DataFrame becomes that of the target too *)
Definition takes (p : pool) (c : command) : Prop := exists i j h g k, c = AddSet i j /\ ruleset_at p i h /\ ruleset_at p j g /\
  s_stack (view p h) = true /\ set_available (view p g) = true /\ b_frame h = None /\ b_frame g = Some k.

(** Nothing of the ruleset is reachable from another one. *)
Definition alone (p : pool) (j : nat) (h : handle) : Prop := forall i g, i <> j -> ruleset_at p i g ->
  (forall l, In l (b_rules h) -> ~ In l (b_rules g)) /\ (forall k, b_frame g = Some k -> b_frame h <> Some k).

(** What a command is meant to do with its target: the method, on the values *)
Inductive method_of (G : setup) (X : texts) (p : pool) : command -> ruleset -> res unit * ruleset -> Prop :=
| M_add_rule i l s : method_of G X p (AddRule i l) s (add_rule G (p_rules p l) s)
| M_append i l u s : method_of G X p (Append i l u) s (append G (ERule (p_rules p l)) u s)
| M_add_set i j g s : ruleset_at p j g -> method_of G X p (AddSet i j) s (add_set (view p g) s)
| M_set_rules i ls s : method_of G X p (SetRules i ls) s (set_rules G (Some (map ERule (map (p_rules p) ls))) s)
| M_calc i xs s : method_of G X p (Calc i xs) s (set_calc_activation G xs s)
| M_del_activations i s : method_of G X p (DelActivations i) s (Ok tt, del_activations s)
| M_del_activation i s : method_of G X p (DelActivation i) s (Ok tt, del_set_activation s)
| M_del_stacked i s : method_of G X p (DelStacked i) s (Ok tt, del_stacked_activations s)
| M_to_df i a s o s' : to_df X None a s = (o, s') -> method_of G X p (ToDf i a) s (rmap (fun _ => tt) o, s')
| M_fit i y series xs force kw s o s' : set_fit G y series xs force kw s = (o, s') ->
    method_of G X p (Fit i y series xs force kw) s (rmap (fun _ => tt) o, s')
| M_eval i y xs keep_new w force kw s o s' : set_eval G y xs keep_new w force kw s = (o, s') ->
    method_of G X p (Eval i y xs keep_new w force kw) s (rmap (fun _ => tt) o, s')
| M_sort i criterion reverse s : method_of G X p (Sort i criterion reverse) s (set_sort G criterion reverse s)
| M_predict i xs w s o s' : set_predict G xs w s = (o, s') -> method_of G X p (Predict i xs w) s (rmap (fun _ => tt) o, s').

(** And the ruleset that a command is meant to make *)
Inductive made_of (G : setup) (p : pool) : command -> res ruleset -> Prop :=
| D_empty stack : made_of G p (Empty stack) (Ok (empty_set stack))
| D_init ls compute stack : made_of G p (Init ls compute stack) (new_set G (Some (map ERule (map (p_rules p) ls))) compute stack)
| D_plus_rule i l h : ruleset_at p i h -> made_of G p (PlusRule i l) (plus_rule G (view p h) (p_rules p l))
| D_plus_set i j h g : ruleset_at p i h -> ruleset_at p j g -> made_of G p (PlusSet i j) (plus_set G (view p h) (view p g))
| D_slice i a b c h : ruleset_at p i h -> made_of G p (Slice i a b c) (getitem_slice G a b c (view p h)).

(** Before any ruleset is made *)
Definition blank (rules : nat -> rule) : pool := mkPool rules (fun _ => mkFrame 0 []) 0 [].

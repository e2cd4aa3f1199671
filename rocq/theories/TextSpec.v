(** Vocabulary for what is printed. *)
From Coq Require Import List ZArith QArith Bool String Ascii.
From Coq Require Import List.
From Verif Require Import Base Num CondModel CondSpec ThrModel MetModel RuleModel RuleSpec PredModel PredSpec SetModel.
Import ListNotations.
Open Scope string_scope.
Open Scope list_scope.

(** What is said of the prediction stored in [r] *)
Inductive said (show : obj -> string) (r : rule) : string -> Prop :=
| said_unset : slot "_prediction" r = none -> said show r "<prediction unset>"
| said_set p : slot "_prediction" r = p -> p <> none -> said show r (show p).

(** The text of a rule whose condition has a text *)
Inductive spelled (E : env) (show : obj -> string) (r : rule) : string -> Prop :=
| spelled_empty : r_cond r = None -> spelled E show r "empty rule"
| spelled_rule s p : called E r s -> said show r p -> spelled E show r ("If " ++ s ++ " Then " ++ p ++ ".")%string.

(** The lines joined *)
Fixpoint lines (l : list string) : string :=
  match l with
  | [] => ""
  | [t] => t
  | t :: l => (t ++ String (ascii_of_nat 10) (lines l))%string
  end.

(** [repr] tells numbers apart, and writes neither commas nor closing brackets *)
Definition legible (repr : num -> string) : Prop :=
  (forall x, without "," (repr x) /\ without "]" (repr x)) /\
  forall x y, repr x = repr y <-> same_num x y.

(** Same values of everything but the type of the rules *)
Definition same_but_type (s s' : ruleset) : Prop :=
  s_rules s' = s_rules s /\ s_names s' = s_names s /\ s_idx s' = s_idx s /\ s_act s' = s_act s /\
  s_coverage s' = s_coverage s /\ s_criterion s' = s_criterion s /\ s_train s' = s_train s /\ s_test s' = s_test s /\
  s_stacked s' = s_stacked s /\ s_stack s' = s_stack s /\ s_compute s' = s_compute s.

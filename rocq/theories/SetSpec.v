(** Vocabulary of the statements about rulesets. *)
From Coq Require Import Decimal DecimalString DecimalZ.
From Coq Require Import List ZArith QArith Bool String Ascii Permutation Sorted.
From Coq Require Import List.
From Verif Require Import Base Num CondModel CondSpec CondMore ThrModel MetModel MetSpec RuleModel RuleSpec PredModel PredSpec SetModel.
Import ListNotations.
Open Scope string_scope.
Open Scope list_scope.
Open Scope Z_scope.

(** ** Histories *)

(** A ruleset made by successful calls that keep its activation up to date;
    unless [mixed], only rulesets that stack their activations are added to one that does. *)
Inductive made (G : setup) (mixed : bool) : ruleset -> Prop :=
| made_new l stack s : new_set G l true stack = Ok s -> made G mixed s
| made_append s r s' : made G mixed s -> append G (ERule r) true s = (Ok tt, s') -> made G mixed s'
| made_add_rule s r s' : made G mixed s -> add_rule G r s = (Ok tt, s') -> made G mixed s'
| made_add_set s t s' : made G mixed s -> made G mixed t -> (mixed = true \/ s_stack s = false \/ s_stack t = true) ->
    add_set t s = (Ok tt, s') -> made G mixed s'
| made_plus_rule s r s' : made G mixed s -> plus_rule G s r = Ok s' -> made G mixed s'
| made_plus_set s t s' : made G mixed s -> made G mixed t -> plus_set G s t = Ok s' -> made G mixed s'
| made_slice s a b c s' : made G mixed s -> getitem_slice G a b c s = Ok s' -> made G mixed s'
| made_set_rules s l s' : made G mixed s -> set_rules G l s = (Ok tt, s') -> made G mixed s'
| made_calc s xs s' : made G mixed s -> set_calc_activation G xs s = (Ok tt, s') -> made G mixed s'
| made_sort s c b s' : made G mixed s -> set_sort G c b s = (Ok tt, s') -> made G mixed s'.

(** ** Activations *)

(** The rule has a nonempty vector of 0 and 1. *)
Definition present (r : rule) : Prop := exists v, working r None v /\ bits v /\ v <> [].

(** [w] is 1 where the vector of some rule is 1, and 0 elsewhere. *)
Definition covers (rules : list rule) (w : list Z) : Prop :=
  (forall r v, In r rules -> working r None v -> List.length v = List.length w) /\
  forall i, (i < List.length w)%nat ->
    (nth i w 0 = 1 /\ exists r v, In r rules /\ working r None v /\ nth i v 0 = 1) \/
    (nth i w 0 = 0 /\ forall r v, In r rules -> working r None v -> nth i v 0 = 0).

(** The fraction of ones *)
Definition fraction (w : list Z) (q : Q) : Prop :=
  exists k, tally (eq 1) w k /\ (q == inject_Z (Z.of_nat k) / inject_Z (Z.of_nat (List.length w)))%Q.

(** ** Types *)

(** [rule] is an instance of [t]: Rule is the base class. *)
Definition instance (r : rule) (t : kind) : Prop := t = KRule \/ r_kind r = t.

(** A ruleset made by any calls, even with update_activation=False or compute_activation=False,
    that may raise, other than the setter of the rules *)
Inductive typed (G : setup) : ruleset -> Prop :=
| typed_new l compute stack s : new_set G l compute stack = Ok s -> typed G s
| typed_append s e update : typed G s -> typed G (snd (append G e update s))
| typed_add_rule s r : typed G s -> typed G (snd (add_rule G r s))
| typed_add_set s t : typed G s -> typed G t -> typed G (snd (add_set t s))
| typed_plus_rule s r s' : typed G s -> plus_rule G s r = Ok s' -> typed G s'
| typed_plus_set s t s' : typed G s -> typed G t -> plus_set G s t = Ok s' -> typed G s'
| typed_slice s a b c s' : typed G s -> getitem_slice G a b c s = Ok s' -> typed G s'
| typed_calc s xs : typed G s -> typed G (snd (set_calc_activation G xs s))
| typed_sort s c b : typed G s -> typed G (snd (set_sort G c b s)).

(** ** Features *)

(** [f] is a feature of some rule. *)
Definition feature_name (rules : list rule) (f : string) : Prop :=
  exists r c l, In r rules /\ r_cond r = Some c /\ c_names c = Some l /\ In f l.
Definition feature_index (rules : list rule) (i : Z) : Prop :=
  exists r c l, In r rules /\ r_cond r = Some c /\ c_idx c = Some l /\ In i l.

(** ** Texts *)

(** [repr] of a string: quoted, and one can tell where it ends. *)
Definition quotes (quote : string -> string) : Prop :=
  (forall s, exists t, quote s = String "'" t \/ quote s = String """" t) /\
  forall s s' u v, (quote s ++ u)%string = (quote s' ++ v)%string -> s = s'.

(** [repr] of a float: equal numbers have the same text, different ones different
    texts, without the characters of lists. *)
Definition prints (repr : num -> string) : Prop :=
  (forall x, repr x <> "" /\ repr x <> "None" /\ without "," (repr x) /\ without "]" (repr x)) /\
  forall x y, repr x = repr y <-> same_num x y.

(** The text of a list *)
Fixpoint items {A} (write : A -> string) (l : list A) : string :=
  match l with
  | [] => ""
  | [x] => write x
  | x :: t => (write x ++ ", " ++ items write t)%string
  end.
Definition listed {A} (write : A -> string) (l : list A) : string := ("[" ++ items write l ++ "]")%string.

Definition decimal (z : Z) : string := NilEmpty.string_of_int (Z.to_int z).

(** Alphabetical order *)
Inductive text_lt : string -> string -> Prop :=
| lt_empty c s : text_lt "" (String c s)
| lt_char c d s t : (nat_of_ascii c < nat_of_ascii d)%nat -> text_lt (String c s) (String d t)
| lt_next c s t : text_lt s t -> text_lt (String c s) (String c t).

(** Lexicographic order *)
Inductive nums_lt : list num -> list num -> Prop :=
| nums_empty x l : nums_lt [] (x :: l)
| nums_first x y l m : nlt x y -> nums_lt (x :: l) (y :: m)
| nums_next x y l m : same_num x y -> nums_lt l m -> nums_lt (x :: l) (y :: m).

(** ** Equal rules *)

(** The features of [r], by name or by index, its bounds and its prediction *)
Inductive same_features (by_name : bool) : cond -> cond -> Prop :=
| same_names c c' : by_name = true -> c_names c = c_names c' -> same_features by_name c c'
| same_indexes c c' : by_name = false -> c_idx c = c_idx c' -> same_features by_name c c'.

Inductive same_list {A} (P : A -> A -> Prop) : option (list A) -> option (list A) -> Prop :=
| same_none : same_list P None None
| same_some l m : Forall2 P l m -> same_list P (Some l) (Some m).

Inductive same_prediction : obj -> obj -> Prop :=
| sp_none : same_prediction none none
| sp_number x y : same_num x y -> same_prediction (number x) (number y)
| sp_text s : same_prediction (text s) (text s).

(** Same features, bounds and prediction *)
Definition alike (by_name : bool) (r r' : rule) : Prop :=
  exists c c' p p', r_cond r = Some c /\ r_cond r' = Some c' /\ same_features by_name c c' /\
    same_list same_num (c_min c) (c_min c') /\ same_list same_num (c_max c) (c_max c') /\
    prediction r = Ok p /\ prediction r' = Ok p' /\ same_prediction p p'.

(** Two members at different places are alike. *)
Definition repeated (by_name : bool) (rules : list rule) : Prop :=
  exists l r m r' n, rules = l ++ r :: m ++ r' :: n /\ alike by_name r r'.

(** The predictions of rules that go together: numbers and None, or texts *)
Definition number_like (r : rule) : Prop :=
  r_cond r <> None /\ (prediction r = Ok none \/ exists x, prediction r = Ok (number x)).
Definition text_like (r : rule) : Prop :=
  r_cond r <> None /\ exists s, prediction r = Ok (text s).
Definition comparable (rules : list rule) : Prop := Forall number_like rules \/ Forall text_like rules.

(** ** Order *)

(** What the rules of [s] are sorted by: the number of their features, the text of
    their names (of their indexes when the ruleset has no names) and their bounds *)
Definition described (G : setup) (s : ruleset) (r : rule) (n : nat) (t : string) (b : list num) : Prop :=
  exists c mins maxs, r_cond r = Some c /\ c_min c = Some mins /\ c_max c = Some maxs /\ b = mins ++ maxs /\
    ((s_names s <> [] /\ exists l, c_names c = Some l /\ n = List.length l /\ t = listed (g_quote G) l) \/
     (s_names s = [] /\ exists l, c_idx c = Some l /\ n = List.length l /\ t = listed decimal l)).

Definition without_nan (l : list num) : Prop := Forall (fun x => x <> NaN) l.

(** Each rule has features and bounds. *)
Definition sortable (G : setup) (s : ruleset) : Prop :=
  forall r, In r (s_rules s) -> exists n t b, described G s r n t b /\ (1 <= n)%nat /\ without_nan b.

(** [r] goes before [r']. *)
Definition precedes (G : setup) (s : ruleset) (reverse : bool) (r r' : rule) : Prop :=
  exists n t b n' t' b', described G s r n t b /\ described G s r' n' t' b' /\
    ((n < n')%nat \/
     n = n' /\ ((if reverse then text_lt t' t else text_lt t t') \/ t = t' /\ nums_lt b b')).

(** The values of an attribute: numbers, or texts *)
Definition number_attribute (name : string) (r : rule) : Prop :=
  exists x, getattr r name = Ok (number x) /\ x <> NaN.
Definition text_attribute (name : string) (r : rule) : Prop :=
  exists t, getattr r name = Ok (text t).

Definition precedes_by (name : string) (reverse : bool) (r r' : rule) : Prop :=
  (exists x y, getattr r name = Ok (number x) /\ getattr r' name = Ok (number y) /\ if reverse then nlt y x else nlt x y) \/
  (exists t u, getattr r name = Ok (text t) /\ getattr r' name = Ok (text u) /\ if reverse then text_lt u t else text_lt t u).

(** The elements of [l] that satisfy [P], in order *)
Inductive chosen {A} (P : A -> Prop) : list A -> list A -> Prop :=
| ch_nil : chosen P [] []
| ch_yes x l m : P x -> chosen P l m -> chosen P (x :: l) (x :: m)
| ch_no x l m : ~ P x -> chosen P l m -> chosen P (x :: l) m.

(** [l'] is the list [l] sorted: no element after one that it precedes; those
    that none precedes the other stay in the same order. *)
Definition stable_sort {A} (R : A -> A -> Prop) (l l' : list A) : Prop :=
  Permutation l l' /\
  StronglySorted (fun x y => ~ R y x) l' /\
  forall x, In x l -> exists m, chosen (fun y => ~ R x y /\ ~ R y x) l m /\ chosen (fun y => ~ R x y /\ ~ R y x) l' m.

(** Only the rules of the ruleset changed. *)
Definition same_but_rules (s s' : ruleset) : Prop :=
  s_names s' = s_names s /\ s_idx s' = s_idx s /\ s_act s' = s_act s /\ s_coverage s' = s_coverage s /\
  s_criterion s' = s_criterion s /\ s_train s' = s_train s /\ s_test s' = s_test s /\ s_stacked s' = s_stacked s /\
  s_stack s' = s_stack s /\ s_type s' = s_type s /\ s_compute s' = s_compute s.

(** Each column is the vector of a rule, under its name, and each rule has one. *)
Definition columns_of (E : env) (rules : list rule) (f : frame Z) : Prop :=
  (forall n v, In (n, v) (f_columns f) -> exists r, In r rules /\ called E r n /\ working r None v) /\
  forall r, In r rules -> exists n v, called E r n /\ In (n, v) (f_columns f) /\ List.length v = f_rows f.

(** ** Sets of rules *)

(** Same features and bounds, in any order of the features *)
Definition same_rule (r r' : rule) : Prop :=
  exists c d fs gs, r_cond r = Some c /\ r_cond r' = Some d /\ condition c fs /\ condition d gs /\ same_content fs gs.

(** A rule with a condition, the bounds being as in C24 *)
Definition regular (r : rule) : Prop := exists c fs, r_cond r = Some c /\ condition c fs /\ plain_bounds fs.

(** [u] has the first of the same rules of [l] each time. *)
Definition without_repetition (l u : list rule) : Prop :=
  (forall r, In r u -> exists a b, l = a ++ r :: b /\ forall q, In q a -> ~ same_rule q r) /\
  (forall r, In r l -> exists r', In r' u /\ same_rule r r') /\
  ForallOrdPairs (fun r r' => ~ same_rule r r') u.

(** A rule that a ruleset accepts *)
Definition usable (r : rule) : Prop :=
  exists c i n, r_cond r = Some c /\ c_idx c = Some i /\ c_names c = Some n.

(** Rules of one type, whose vectors have one length unless some rule has none *)
Definition compatible (l : list rule) : Prop :=
  (exists k, forall r, In r l -> r_kind r = k) /\ (forall r, In r l -> usable r) /\
  ((exists r, In r l /\ forall v, ~ working r None v) \/
   exists n, forall r, In r l -> exists v, working r None v /\ List.length v = n).

(** ** Counts of features *)

Definition uses (f : string) (r : rule) : Prop :=
  exists c l, r_cond r = Some c /\ c_names c = Some l /\ In f l.

(** Reading the features of the rules in turn, [f] comes before [g]. *)
Definition appears_before (rules : list rule) (f g : string) : Prop :=
  exists l r m c a b, rules = l ++ r :: m /\ r_cond r = Some c /\ c_names c = Some (a ++ f :: b) /\ ~ In g a /\
    forall q, In q l -> ~ uses g q.

(** Each feature with the number of rules that use it; most frequent first, and
    in order of appearance among those of the same frequency *)
Definition feature_counts (rules : list rule) (d : list (string * nat)) : Prop :=
  NoDup (map fst d) /\ (forall f, In f (map fst d) <-> feature_name rules f) /\
  (forall f n, In (f, n) d -> tally (uses f) rules n) /\
  ForallOrdPairs (fun p q => (snd q < snd p)%nat \/ (snd q = snd p /\ appears_before rules (fst p) (fst q))) d.

(** The names of the features of a rule are distinct. *)
Definition distinct_names (r : rule) : Prop :=
  forall c l, r_cond r = Some c -> c_names c = Some l -> NoDup l.

(** ** Evaluation *)

(** [w] is 1 where the condition of some rule holds, and 0 elsewhere. *)
Definition covers_on (xs : table) (rules : list rule) (w : list Z) : Prop :=
  (forall r v, In r rules -> working r (Some xs) v -> List.length v = List.length w) /\
  forall i, (i < List.length w)%nat ->
    (nth i w 0 = 1 /\ exists r v, In r rules /\ working r (Some xs) v /\ nth i v 0 = 1) \/
    (nth i w 0 = 0 /\ forall r v, In r rules -> working r (Some xs) v -> nth i v 0 = 0).

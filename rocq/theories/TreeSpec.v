(** Vocabulary of the statements about rules extracted from trees. *)
From Coq Require Import List ZArith QArith Bool String.
From Coq Require Import List.
From Verif Require Import Base Num CondModel CondSpec MetModel RuleModel PredModel SetModel TreeModel.
Import ListNotations.
Open Scope string_scope.
Open Scope list_scope.
Open Scope Z_scope.

(** ** Trees *)

Inductive tree :=
| Leaf (value : list num)
| Node (f : Z) (threshold : num) (value : list num) (left right : tree).

(** Node [n] of the arrays is the root of [t].  scikit-learn marks a leaf by the
    feature -2. *)
Inductive represents (T : arrays) : nat -> tree -> Prop :=
| represents_leaf n v :
    nth_error (t_feature T) n = Some (-2) -> nth_error (t_value T) n = Some v -> represents T n (Leaf v)
| represents_node n f th v a b l r :
    nth_error (t_feature T) n = Some f -> 0 <= f ->
    nth_error (t_threshold T) n = Some th -> nth_error (t_value T) n = Some v ->
    nth_error (t_left T) n = Some (Z.of_nat a) -> represents T a l ->
    nth_error (t_right T) n = Some (Z.of_nat b) -> represents T b r ->
    represents T n (Node f th v l r).

Fixpoint depth (t : tree) : nat :=
  match t with Leaf _ => 1 | Node _ _ _ l r => S (Nat.max (depth l) (depth r)) end.

Fixpoint leaves (t : tree) : nat :=
  match t with Leaf _ => 1 | Node _ _ _ l r => leaves l + leaves r end.

(** Number of nodes that are not leaves *)
Fixpoint splits (t : tree) : nat :=
  match t with Leaf _ => 0 | Node _ _ _ l r => S (splits l + splits r) end.

(** The nodes below [t], itself included *)
Inductive within_tree : tree -> tree -> Prop :=
| within_self t : within_tree t t
| within_left u f th v l r : within_tree u l -> within_tree u (Node f th v l r)
| within_right u f th v l r : within_tree u r -> within_tree u (Node f th v l r).

Definition value_of (t : tree) : list num := match t with Leaf v => v | Node _ _ v _ _ => v end.

(** ** Paths *)

(** The decision taken at a node: left if the value is at most the threshold. *)
Inductive side := Below | Above.
Record step := mkStep { on : Z; bound : num; goes : side }.

(** A point gives each feature a value. *)
Definition point := Z -> num.

Definition takes (x : point) (d : step) : Prop :=
  match goes d with Below => nle (x (on d)) (bound d) | Above => nlt (bound d) (x (on d)) end.

Definition follows (x : point) (p : list step) : Prop := forall d, In d p -> takes x d.

(** The paths from the root to each leaf, depth first and left first, with the
    value of the leaf *)
Fixpoint branches (t : tree) : list (list step * list num) :=
  match t with
  | Leaf v => [([], v)]
  | Node f th v l r =>
      map (fun b => (mkStep f th Below :: fst b, snd b)) (branches l) ++
      map (fun b => (mkStep f th Above :: fst b, snd b)) (branches r)
  end.

(** The point follows the path of this leaf and of no other. *)
Definition sends_to (x : point) (t : tree) (b : list step * list num) : Prop :=
  exists before after, branches t = before ++ b :: after /\ follows x (fst b) /\
    forall b', In b' (before ++ after) -> ~ follows x (fst b').

(** The paths from the root to each node but itself, depth first and left first,
    with the value of the parent of that node and the value of that node *)
Fixpoint edges (t : tree) : list (list step * (list num * list num)) :=
  match t with
  | Leaf _ => []
  | Node f th v l r =>
      ([mkStep f th Below], (v, value_of l)) ::
      map (fun b => (mkStep f th Below :: fst b, snd b)) (edges l) ++
      ([mkStep f th Above], (v, value_of r)) ::
      map (fun b => (mkStep f th Above :: fst b, snd b)) (edges r)
  end.

(** The rules that are asked for: the path of each, and the value given to it. *)
Definition asked (leaf : bool) (t : tree) : list (list step * list num) :=
  if leaf then branches t else map (fun b => (fst b, fst (snd b))) (edges t).

(** ** Points and rules *)

(** The features that a path uses have a finite value between their minimum and
    their maximum. *)
Definition in_box (q : request) (x : point) (p : list step) : Prop :=
  forall d, In d p -> exists lo hi,
    nth_error (q_xmins q) (Z.to_nat (on d)) = Some lo /\ nth_error (q_xmaxs q) (Z.to_nat (on d)) = Some hi /\
    within (x (on d)) lo hi.

(** and so have the thresholds. *)
Definition thresholds_in_box (q : request) (p : list step) : Prop :=
  forall d, In d p -> exists lo hi,
    nth_error (q_xmins q) (Z.to_nat (on d)) = Some lo /\ nth_error (q_xmaxs q) (Z.to_nat (on d)) = Some hi /\
    nle lo (bound d) /\ nle (bound d) hi.

(** Some point of the box follows the path. *)
Definition reachable (q : request) (p : list step) : Prop := exists y, in_box q y p /\ follows y p.

(** The name of feature [f] *)
Definition feature_name (q : request) (f : Z) (name : string) : Prop :=
  match q_names q with
  | Some names => nth_error names (Z.to_nat f) = Some name
  | None => f < Z.of_nat (q_features q) /\ name = String.append "X_" (show_int f)
  end.

(** Row [i] of the table has the values of [x] for the features of the path. *)
Definition row_is (q : request) (xs : table) (i : nat) (x : point) (p : list step) : Prop :=
  forall d, In d p -> forall name, feature_name q (on d) name -> value xs i (mkFeat name (on d) NaN NaN) (x (on d)).

(** Evaluating the condition of the rule gives 1 (0) to the row. *)
Definition holds (r : rule) (xs : table) (i : nat) : Prop :=
  exists c v, r_cond r = Some c /\ evaluate c xs = Ok v /\ nth_error v i = Some 1.
Definition fails (r : rule) (xs : table) (i : nat) : Prop :=
  exists c v, r_cond r = Some c /\ evaluate c xs = Ok v /\ nth_error v i = Some 0.

(** A step to the left counts as long as no later step goes right on its
    feature; a step to the right always counts. *)
Definition effective (p : list step) (d : step) : Prop :=
  exists before after, p = before ++ d :: after /\
    (goes d = Below -> forall e, In e after -> on e = on d -> goes e = Below).

(** On the side of a step, or on its threshold *)
Definition beside_threshold (x : point) (d : step) : Prop :=
  match goes d with Below => nle (x (on d)) (bound d) | Above => nle (bound d) (x (on d)) end.

(** No step goes right on a feature after a step left on it. *)
Definition never_back (p : list step) : Prop := forall d, In d p -> effective p d.

Definition off_thresholds (x : point) (p : list step) : Prop :=
  forall d, In d p -> ~ same_num (x (on d)) (bound d).

(** ** Values *)

Definition class_name (q : request) (i : nat) (c : label) : Prop :=
  match q_classes q with
  | Some names => nth_error names i = Some c
  | None => c = LNum (Fin (inject_Z (Z.of_nat i)))
  end.

(** Class [i] is the first one of greatest value. *)
Definition winner (values : list num) (i : nat) : Prop :=
  exists m, nth_error values i = Some m /\
  forall j v, nth_error values j = Some v -> nle v m /\ ((j < i)%nat -> nlt v m).

(** The rule predicts what the value says: a number for a regression tree, the
    pairs of class and frequency for a classification tree. *)
Definition carries (q : request) (values : list num) (r : rule) : Prop :=
  if q_classifier q then
    r_kind r = KClassification /\
    (exists rows, slot "_prediction" r = OTable (PPairs rows) /\ List.length rows = List.length values /\
       forall i v, nth_error values i = Some v -> exists c, class_name q i c /\ nth_error rows i = Some (c, v)) /\
    (forall i c, Forall (fun v => exists a, v = Fin a) values -> winner values i -> class_name q i c ->
       prediction r = Ok (label_obj c))
  else
    r_kind r = KRegression /\ exists v, nth_error values 0 = Some v /\ prediction r = Ok (number v).

(** What a call needs: lists that are long enough, names that differ, values *)
Definition fitting (q : request) (t : tree) : Prop :=
  (forall f th v l r, within_tree (Node f th v l r) t -> 0 <= f /\
     f < Z.of_nat (List.length (q_xmins q)) /\ f < Z.of_nat (List.length (q_xmaxs q)) /\
     exists name, feature_name q f name) /\
  (forall f g th th' v v' l l' r r' name, within_tree (Node f th v l r) t -> within_tree (Node g th' v' l' r') t ->
     feature_name q f name -> feature_name q g name -> f = g) /\
  (forall u, within_tree u t ->
     if q_classifier q then forall i, (i < List.length (value_of u))%nat -> exists c, class_name q i c
     else value_of u <> []).

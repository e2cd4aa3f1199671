(** Vocabulary of the statements about conditions. *)
From Coq Require Import List ZArith QArith Bool String.
From Coq Require Import Sorting.Sorted Sorting.Permutation.
From Verif Require Import Base Num CondModel.
Import ListNotations.
Open Scope Z_scope.

(** ** Order on numbers *)

Definition nle (x y : num) : Prop :=
  match x, y with
  | NaN, _ | _, NaN => False
  | MInf, _ | _, PInf => True
  | Fin a, Fin b => (a <= b)%Q
  | _, _ => False
  end.

Definition nlt (x y : num) : Prop :=
  match x, y with
  | NaN, _ | _, NaN => False
  | MInf, MInf | PInf, PInf => False
  | MInf, _ | _, PInf => True
  | Fin a, Fin b => (a < b)%Q
  | _, _ => False
  end.

(** The same number, whatever the fraction that writes it. *)
Definition same_num (x y : num) : Prop :=
  match x, y with
  | Fin a, Fin b => (a == b)%Q
  | NaN, NaN | MInf, MInf | PInf, PInf => True
  | _, _ => False
  end.

(** [x] is finite and between the bounds, which it may reach. *)
Definition within (x lo hi : num) : Prop :=
  (exists q, x = Fin q) /\ nle lo x /\ nle x hi.

(** ** Features of a condition *)

Record feature := mkFeat {
  f_name : string;
  f_index : Z;
  f_low : num;
  f_high : num }.

(** The four lists of the condition are those of [fs], in this order. *)
Definition lists (c : cond) (fs : list feature) : Prop :=
  c_idx c = Some (map f_index fs) /\
  c_min c = Some (map f_low fs) /\
  c_max c = Some (map f_high fs) /\
  c_names c = Some (map f_name fs).

Definition distinct (fs : list feature) : Prop :=
  NoDup (map f_name fs) /\ NoDup (map f_index fs).

(** Some feature has its lower bound above its upper bound. *)
Definition crossed (fs : list feature) : Prop :=
  exists f, In f fs /\ nlt (f_high f) (f_low f).

(** A condition on the features [fs] whose flag [impossible] tells the truth. *)
Definition condition (c : cond) (fs : list feature) : Prop :=
  lists c fs /\ distinct fs /\ (c_imp c = true <-> crossed fs).

Definition no_nan (fs : list feature) : Prop :=
  forall f, In f fs -> f_low f <> NaN /\ f_high f <> NaN.

Definition finite_bounds (fs : list feature) : Prop :=
  forall f, In f fs -> exists a b, f_low f = Fin a /\ f_high f = Fin b.

Definition same_feature (f g : feature) : Prop :=
  f_name f = f_name g /\ f_index f = f_index g /\
  same_num (f_low f) (f_low g) /\ same_num (f_high f) (f_high g).

(** Same names, indexes and bounds in the same order, same flag. *)
Definition same_cond (c d : cond) : Prop :=
  exists fs gs, lists c fs /\ lists d gs /\ Forall2 same_feature fs gs /\
                c_imp c = c_imp d.

(** Order of the features under SORT_ACCORDING_TO. *)
Inductive in_order (sett : settings) (fs : list feature) : Prop :=
| by_index : sett = "index"%string ->
    StronglySorted (fun f g => f_index f < f_index g) fs -> in_order sett fs
| by_name : sett = "name"%string ->
    StronglySorted (fun f g => str_ltb (f_name f) (f_name g) = true) fs ->
    in_order sett fs.

Definition known (sett : settings) : Prop :=
  sett = "index"%string \/ sett = "name"%string.

(** ** Tables *)

Definition well_shaped (xs : table) : Prop :=
  match xs with
  | TArray d rows => forall r, In r rows -> Z.of_nat (List.length r) = d
  | TFrame n columns =>
      NoDup (map fst columns) /\
      forall col, In col columns -> List.length (snd col) = n
  end.

(** The table has the feature.  numpy counts a negative index from the end. *)
Definition has_feature (xs : table) (f : feature) : Prop :=
  match xs with
  | TArray d _ => - d <= f_index f < d
  | TFrame _ columns => In (f_name f) (map fst columns)
  end.

(** The value of feature [f] in row [r] is [x]. *)
Definition value (xs : table) (r : nat) (f : feature) (x : num) : Prop :=
  match xs with
  | TArray d rows =>
      exists row, nth_error rows r = Some row /\
        ((0 <= f_index f /\ nth_error row (Z.to_nat (f_index f)) = Some x) \/
         (f_index f < 0 /\ nth_error row (Z.to_nat (d + f_index f)) = Some x))
  | TFrame _ columns =>
      exists col, In (f_name f, col) columns /\ nth_error col r = Some x
  end.

(** Row [r] satisfies every feature. *)
Definition satisfied (xs : table) (r : nat) (fs : list feature) : Prop :=
  forall f, In f fs -> exists x, value xs r f x /\ within x (f_low f) (f_high f).

(** [v] is the 0/1 vector of the rows that satisfy the features. *)
Definition marks (xs : table) (fs : list feature) (v : list Z) : Prop :=
  List.length v = nrows xs /\
  forall r, (r < nrows xs)%nat ->
    (nth r v 0 = 1 /\ satisfied xs r fs) \/ (nth r v 0 = 0 /\ ~ satisfied xs r fs).

(** A DataFrame is only accepted by a condition that has features. *)
Definition accepted (xs : table) (fs : list feature) : Prop :=
  (forall f, In f fs -> has_feature xs f) /\
  match xs with TFrame _ _ => fs <> [] | TArray _ _ => True end.

(** ** Logical and *)

(** Same name exactly when same index. *)
Definition consistent (fs gs : list feature) : Prop :=
  forall f g, In f fs -> In g gs -> (f_name f = f_name g <-> f_index f = f_index g).

(** The greatest and the smallest of two numbers. *)
Definition greatest (x y z : num) : Prop :=
  (z = x \/ z = y) /\ nle x z /\ nle y z.
Definition smallest (x y z : num) : Prop :=
  (z = x \/ z = y) /\ nle z x /\ nle z y.

(** [h] is a feature of the intersection of [fs] and [gs]. *)
Definition intersected (fs gs : list feature) (h : feature) : Prop :=
  (In h fs /\ ~ In (f_name h) (map f_name gs)) \/
  (In h gs /\ ~ In (f_name h) (map f_name fs)) \/
  (exists f g, In f fs /\ In g gs /\ f_name f = f_name h /\ f_name g = f_name h /\
     f_index f = f_index h /\ f_index g = f_index h /\
     greatest (f_low f) (f_low g) (f_low h) /\
     smallest (f_high f) (f_high g) (f_high h)).

(** Pointwise product of two vectors. *)
Fixpoint product (u v : list Z) : list Z :=
  match u, v with
  | x :: u', y :: v' => x * y :: product u' v'
  | _, _ => []
  end.

(** ** Arguments of the constructor *)

Definition ints (l : list item) (zs : list Z) : Prop := l = map AInt zs.

(** The number that an argument stands for. *)
Inductive reads : item -> num -> Prop :=
| reads_int z : reads (AInt z) (Fin (inject_Z z))
| reads_true : reads (ABool true) (Fin 1)
| reads_false : reads (ABool false) (Fin 0)
| reads_float x : reads (AFloat x) x.

(** Acceptable arguments and the features that they describe, in the order of
    the arguments. *)
Inductive acceptable : option (list item) -> option (list item) ->
    option (list item) -> option (list item) -> list feature -> Prop :=
| given_both idx mins maxs names fs :
    idx = map (fun f => AInt (f_index f)) fs ->
    names = map (fun f => AStr (f_name f)) fs ->
    Forall2 reads mins (map f_low fs) ->
    Forall2 reads maxs (map f_high fs) ->
    distinct fs ->
    acceptable (Some idx) (Some mins) (Some maxs) (Some names) fs
| given_indexes idx mins maxs fs :
    idx = map (fun f => AInt (f_index f)) fs ->
    (forall f, In f fs -> f_name f = String.append "X_" (show_int (f_index f))) ->
    Forall2 reads mins (map f_low fs) ->
    Forall2 reads maxs (map f_high fs) ->
    distinct fs ->
    acceptable (Some idx) (Some mins) (Some maxs) None fs
| given_names mins maxs names fs :
    names = map (fun f => AStr (f_name f)) fs ->
    map f_index fs = map Z.of_nat (seq 0 (List.length fs)) ->
    Forall2 reads mins (map f_low fs) ->
    Forall2 reads maxs (map f_high fs) ->
    distinct fs ->
    acceptable None (Some mins) (Some maxs) (Some names) fs.

(** ** Hashes *)

(** The hash of a frozenset does not depend on the order of its elements. *)
Definition unordered (H : hashing) : Prop :=
  forall l l', Permutation l l' -> h_set H l = h_set H l'.

(** No collision among strings, tuples and frozensets. *)
Definition collision_free (H : hashing) : Prop :=
  (forall s t, h_str H s = h_str H t -> s = t) /\
  (forall l l', h_tuple H l = h_tuple H l' -> l = l') /\
  (forall l l', h_set H l = h_set H l' -> Permutation l l') /\
  (forall l s, h_tuple H l <> h_str H s).

(** ** Reasons to reject arguments *)

(** An argument is missing or the lists have different lengths. *)
Definition misfit (idx mins maxs names : option (list item)) : Prop :=
  mins = None \/ maxs = None \/ (idx = None /\ names = None) \/
  exists a b, In (Some a) [idx; mins; maxs; names] /\
              In (Some b) [idx; mins; maxs; names] /\
              List.length a <> List.length b.

(** An element has the wrong type. *)
Definition mistyped (idx mins maxs names : option (list item)) : Prop :=
  (exists l a, idx = Some l /\ In a l /\ forall z, a <> AInt z) \/
  (exists l a, names = Some l /\ In a l /\ forall s, a <> AStr s) \/
  (exists l a, (mins = Some l \/ maxs = Some l) /\ In a l /\ exists s, a = AStr s).

(** An index or a name is given twice. *)
Definition repeated (idx names : option (list item)) : Prop :=
  exists l, (idx = Some l \/ names = Some l) /\ ~ NoDup l.

(** The integer that is left of [q] when the fractional part is dropped. *)
Definition toward_zero (q : Q) (z : Z) : Prop :=
  ((0 <= q)%Q -> (inject_Z z <= q)%Q /\ (q < inject_Z (z + 1))%Q) /\
  ((q <= 0)%Q -> (inject_Z (z - 1) < q)%Q /\ (q <= inject_Z z)%Q).

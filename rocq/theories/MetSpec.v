(** Vocabulary of the statements about metrics. *)
From Coq Require Import List ZArith QArith Qabs Bool String Ascii.
From Coq Require Import List.
From Coq Require Import Sorting.Sorted Sorting.Permutation.
From Verif Require Import Base Num CondModel CondSpec MetModel.
Import ListNotations.
Open Scope Z_scope.

(** ** Activated points *)

(** [l] is the list of the elements of [y] at the activated points; there is
    one element per point. *)
Inductive picks {A : Type} : list Z -> list A -> list A -> Prop :=
| picks_nil : picks [] [] []
| picks_on a x act y l : a <> 0 -> picks act y l -> picks (a :: act) (x :: y) (x :: l)
| picks_off x act y l : picks act y l -> picks (0 :: act) (x :: y) l.

Definition bits (act : list Z) : Prop := Forall (fun a => a = 0 \/ a = 1) act.

(** The target as a vector or as a table with one column. *)
Definition is_target {A} (t : target A) (y : list A) : Prop := t = YVector y \/ t = YColumn y.

(** ** Finite numbers *)

(** [qs] are the numbers of [l], which has no infinity; NaN is skipped. *)
Inductive values : list num -> list Q -> Prop :=
| values_nil : values [] []
| values_nan l qs : values l qs -> values (NaN :: l) qs
| values_fin q l qs : values l qs -> values (Fin q :: l) (q :: qs).

Definition total (qs : list Q) : Q := fold_right Qplus 0%Q qs.
Definition size {A} (l : list A) : Q := inject_Z (Z.of_nat (List.length l)).

(** [m] is the mean of [qs]. *)
Definition average (qs : list Q) (m : Q) : Prop := qs <> [] /\ (m * size qs == total qs)%Q.

(** [x] is the mean of [qs], NaN if there is none. *)
Definition mean_or_nan (qs : list Q) (x : num) : Prop :=
  match qs with [] => x = NaN | _ => exists m, x = Fin m /\ average qs m end.

Definition deviations (qs : list Q) (m : Q) : Q := total (map (fun q => (q - m) * (q - m))%Q qs).

(** [v] is the variance of [qs] with [d] degrees of freedom less. *)
Definition variance (d : Z) (qs : list Q) (v : Q) : Prop :=
  exists m, average qs m /\ (v * (size qs - inject_Z d) == deviations qs m)%Q.

(** ** Errors *)

(** Predictions minus targets where both are known. *)
Inductive residuals : list num -> list num -> list Q -> Prop :=
| res_nil : residuals [] [] []
| res_skip p q ps qs l : p = NaN \/ q = NaN -> residuals ps qs l -> residuals (p :: ps) (q :: qs) l
| res_both a b ps qs l : residuals ps qs l -> residuals (Fin a :: ps) (Fin b :: qs) ((a - b)%Q :: l).

(** The vector that predicts [c] at the activated points. *)
Inductive predicts (c : Q) : list Z -> list num -> Prop :=
| predicts_nil : predicts c [] []
| predicts_on a act p : a <> 0 -> predicts c act p -> predicts c (a :: act) (Fin c :: p)
| predicts_off act p : predicts c act p -> predicts c (0 :: act) (NaN :: p).

(** Middle of the sorted list. *)
Definition median (qs : list Q) (m : Q) : Prop :=
  exists s, Permutation qs s /\ StronglySorted Qle s /\
    ((exists l x r, s = l ++ x :: r /\ List.length l = List.length r /\ (m == x)%Q) \/
     (exists l x y r, s = l ++ x :: y :: r /\ List.length l = List.length r /\ (m * 2 == x + y)%Q)).

(** Same letters, capital or not in [s]. *)
Inductive ignoring_case : string -> string -> Prop :=
| ic_nil : ignoring_case EmptyString EmptyString
| ic_same c s t : ~ (65 <= nat_of_ascii c <= 90)%nat -> ignoring_case s t ->
    ignoring_case (String c s) (String c t)
| ic_upper c d s t : (65 <= nat_of_ascii c <= 90)%nat -> nat_of_ascii d = (nat_of_ascii c + 32)%nat ->
    ignoring_case s t -> ignoring_case (String c s) (String d t).

(** The keyword criterion_method asks for the success rate. *)
Definition rate_method (m : option string) : Prop :=
  match m with None => True | Some s => ignoring_case s "success_rate" end.

(** ** Classes *)

(** [k] elements of [l] satisfy [P]. *)
Inductive tally {A} (P : A -> Prop) : list A -> nat -> Prop :=
| tally_nil : tally P [] 0
| tally_yes x l k : P x -> tally P l k -> tally P (x :: l) (S k)
| tally_no x l k : ~ P x -> tally P l k -> tally P (x :: l) k.

(** Classes are numbers, or texts; NaN is not a class. *)
Inductive same_class : label -> label -> Prop :=
| same_number x y : x <> NaN -> same_num x y -> same_class (LNum x) (LNum y)
| same_text s : same_class (LText s) (LText s).

Inductive class_below : label -> label -> Prop :=
| below_number x y : nlt x y -> class_below (LNum x) (LNum y)
| below_text s t : str_ltb s t = true -> class_below (LText s) (LText t).

(** A vector of classes of one kind, without NaN. *)
Definition classes (y : list label) : Prop :=
  (forall c, In c y -> exists x, c = LNum x /\ x <> NaN) \/ (forall c, In c y -> exists s, c = LText s).

(** [c] is the most frequent class of [l]; the smallest one in case of a tie. *)
Definition majority (l : list label) (c : label) : Prop :=
  (exists d, In d l /\ same_class d c) /\
  exists k, tally (same_class c) l k /\
    forall d j, In d l -> tally (same_class d) l j ->
      (j < k)%nat \/ (j = k /\ (same_class c d \/ class_below c d)).

(** The classes of [l] once each, in ascending order, with their frequency. *)
Definition frequencies (l : list label) (rows : list (label * Q)) : Prop :=
  StronglySorted class_below (map fst rows) /\
  (forall d, In d l -> exists c f, In (c, f) rows /\ same_class d c) /\
  (forall c f, In (c, f) rows -> exists k, tally (same_class c) l k /\ (0 < k)%nat /\
     (f * size l == inject_Z (Z.of_nat k))%Q).

(** Texts of the frequencies compare like the frequencies. *)
Definition repr_monotone (repr : num -> string) (n : nat) : Prop :=
  forall p q : Q,
    (exists j, (p * inject_Z (Z.of_nat n) == inject_Z (Z.of_nat j))%Q /\ (0 < j <= n)%nat) ->
    (exists k, (q * inject_Z (Z.of_nat n) == inject_Z (Z.of_nat k))%Q /\ (0 < k <= n)%nat) ->
    ((p < q)%Q -> str_ltb (repr (Fin p)) (repr (Fin q)) = true) /\
    ((p == q)%Q -> repr (Fin p) = repr (Fin q)).

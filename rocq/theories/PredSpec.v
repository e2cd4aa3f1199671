(** Vocabulary of the statements about the predictions of several rules. *)
From Coq Require Import List ZArith QArith Bool String Ascii.
From Coq Require Import List.
From Verif Require Import Base Num CondModel CondSpec ThrModel MetModel MetSpec RuleModel RuleSpec PredModel.
Import ListNotations.
Open Scope string_scope.
Open Scope list_scope.
Open Scope Z_scope.

(** ** The name of a rule *)

Definition printed (repr : num -> string) (f : feature) : string :=
  (f_name f ++ " in [" ++ repr (f_low f) ++ ", " ++ repr (f_high f) ++ "]")%string.

(** The text of the condition of [r] *)
Definition called (E : env) (r : rule) (s : string) : Prop :=
  exists c fs, r_cond r = Some c /\ lists c fs /\ fs <> [] /\ s = String.concat " AND " (map (printed (e_repr E)) fs).

(** ** What a rule brings to the prediction *)

Record ballot (A : Type) := mkBallot { b_weight : Q; b_value : A; b_active : list Z }.
Arguments mkBallot {A}.
Arguments b_weight {A}.
Arguments b_value {A}.
Arguments b_active {A}.

(** The rule has features. *)
Definition has_features (r : rule) : Prop := exists c fs, r_cond r = Some c /\ lists c fs /\ fs <> [].

(** The prediction and the vector of a rule; None when it has no vector. *)
Definition gives {A} (value : A -> obj) (xs : option table) (r : rule) (o : option (A * list Z)) : Prop :=
  match o with
  | None => (xs = None /\ r_act r = None) \/ working r xs []
  | Some (p, v) =>
      has_features r /\ getattr r "prediction" = Ok (value p) /\ working r xs v /\ bits v /\ v <> []
  end.

(** Its weight is missing, zero or NaN. *)
Definition unweighted (weights : list (string * num)) (s : string) : Prop :=
  forall w, In (s, w) weights -> w = NaN \/ same_num w (Fin 0).

(** What the rule brings when there are weights *)
Inductive casts {A} (E : env) (weights : list (string * num)) (value : A -> obj) (xs : option table) (r : rule)
    : option (ballot A) -> Prop :=
| casts_ignored s : called E r s -> unweighted weights s -> casts E weights value xs r None
| casts_absent s : called E r s -> gives value xs r None -> casts E weights value xs r None
| casts_vote s w p v : called E r s -> In (s, Fin w) weights -> ~ (w == 0)%Q -> gives value xs r (Some (p, v)) ->
    casts E weights value xs r (Some (mkBallot w p v)).

(** and when there are none *)
Inductive casts_one {A} (value : A -> obj) (xs : option table) (r : rule) : option (ballot A) -> Prop :=
| one_absent : gives value xs r None -> casts_one value xs r None
| one_vote p v : gives value xs r (Some (p, v)) -> casts_one value xs r (Some (mkBallot 1 p v)).

(** The ballots of several rules *)
Inductive collected {A} (C : rule -> option (ballot A) -> Prop) : list rule -> list (ballot A) -> Prop :=
| collected_nil : collected C [] []
| collected_none r t bs : C r None -> collected C t bs -> collected C (r :: t) bs
| collected_some r t b bs : C r (Some b) -> collected C t bs -> collected C (r :: t) (b :: bs).

Definition rows {A} (n : nat) (bs : list (ballot A)) : Prop :=
  forall b, In b bs -> List.length (b_active b) = n.

(** ** Mean of the ballots at a row *)

Definition active {A} (i : nat) (b : ballot A) : Prop := nth i (b_active b) 0 = 1.

Definition at_row {A} (i : nat) (bs : list (ballot A)) : list (ballot A) :=
  filter (fun b => nth i (b_active b) 0 =? 1) bs.

Definition qsum (l : list Q) : Q := fold_right Qplus 0%Q l.

Definition weight {A} (i : nat) (bs : list (ballot A)) : Q := qsum (map b_weight (at_row i bs)).

Definition total (i : nat) (bs : list (ballot Q)) : Q := qsum (map (fun b => b_weight b * b_value b)%Q (at_row i bs)).

Definition is_mean (i : nat) (bs : list (ballot Q)) (x : num) : Prop :=
  ((forall b, In b bs -> ~ active i b) /\ x = NaN) \/
  ((exists b, In b bs /\ active i b) /\ exists q, x = Fin q /\ (q == total i bs / weight i bs)%Q).

(** The weights at the row do not cancel out. *)
Definition weighs {A} (i : nat) (bs : list (ballot A)) : Prop := at_row i bs = [] \/ ~ (weight i bs == 0)%Q.

(** [l] has a value for each of the [n] rows, that satisfies [P]. *)
Definition each_row {A} (n : nat) (d : A) (l : list A) (P : nat -> A -> Prop) : Prop :=
  List.length l = n /\ forall i, (i < n)%nat -> P i (nth i l d).

(** ** Stacked activations *)

(** The columns of a DataFrame with the vectors of the rules: [n] > 0 rows and a
    column per rule. *)
Definition vectors (E : env) (xs : option table) (rules : list rule) (n : nat) (columns : list (string * list Z)) : Prop :=
  Forall2 (fun r c => called E r (fst c) /\ working r xs (snd c) /\ bits (snd c) /\ List.length (snd c) = n) rules columns /\
  NoDup (map fst columns) /\ (0 < n)%nat.

(** The vectors of the rules: in the DataFrame [st], or evaluated on [xs] *)
Definition stacks (E : env) (xs : option table) (rules : list rule) (n : nat) (st : frame Z) : Prop :=
  exists columns, vectors E xs rules n columns /\ (xs = None -> st = mkFrame n columns).

(** Each rule predicts a number, maybe NaN. *)
Definition predicts_numbers (rules : list rule) : Prop :=
  forall r, In r rules -> exists p, getattr r "prediction" = Ok (number p).

Definition somebody {A} (n : nat) (bs : list (ballot A)) : Prop := exists b i, In b bs /\ (i < n)%nat /\ active i b.

(** ** Votes *)

Definition class_object (c : label) : obj :=
  match c with LNum x => OVal (XNum x) | LText s => OVal (XText s) end.

(** A class that can be compared *)
Definition comparable (c : label) : Prop := c <> LNum NaN.

(** The weight of the class [c] at the row [i] *)
Inductive favors (i : nat) (c : label) : list (ballot label) -> Q -> Prop :=
| favors_nil : favors i c [] 0
| favors_for b bs q : active i b -> same_class c (b_value b) -> favors i c bs q -> favors i c (b :: bs) (b_weight b + q)
| favors_not b bs q : ~ (active i b /\ same_class c (b_value b)) -> favors i c bs q -> favors i c (b :: bs) q.

(** The class [c] has more weight than any other class. *)
Definition wins (i : nat) (bs : list (ballot label)) (c : label) : Prop :=
  exists q, favors i c bs q /\ (0 < q)%Q /\
    forall b p, In b bs -> ~ same_class c (b_value b) -> favors i (b_value b) bs p -> (p < q)%Q.

(** The class that wins, or NaN when none does *)
Definition is_verdict (i : nat) (bs : list (ballot label)) (x : label) : Prop :=
  (exists c, wins i bs c /\ same_class c x) \/ ((forall c, ~ wins i bs c) /\ x = LNum NaN).

(** The weights are positive and the classes can be compared. *)
Definition fair (bs : list (ballot label)) : Prop :=
  forall b, In b bs -> (0 < b_weight b)%Q /\ comparable (b_value b).

(** Each rule has a vector. *)
Definition all_present (xs : option table) (rules : list rule) : Prop :=
  forall r, In r rules -> xs <> None \/ r_act r <> None.

(** Each rule predicts a text other than "nan". *)
Definition predicts_texts (rules : list rule) : Prop :=
  forall r, In r rules -> exists s, getattr r "prediction" = Ok (OVal (XText s)) /\ s <> "nan".

(** The same ballots, each with the weight 1 *)
Definition unit_weights {A} (bs : list (ballot A)) : list (ballot A) := map (fun b => mkBallot 1 (b_value b) (b_active b)) bs.

(** The active ballots with the largest weight *)
Definition heaviest {A} (i : nat) (bs : list (ballot A)) : list (ballot A) :=
  filter (fun b => forallb (fun b' => Qle_bool (b_weight b') (b_weight b)) (at_row i bs)) (at_row i bs).

(** The winning class as an element of the result *)
Definition verdict (W : nat -> label -> Prop) (i : nat) (x : outcome) : Prop :=
  (exists c, W i c /\ x = Class c) \/ ((forall c, ~ W i c) /\ x = Class (LNum NaN)).

(** The result of the stacked votes.  [W i c]: the class [c] wins the row [i].
    When two rows have a winning class, each row has its own; when only one
    row has, the row 0 gets its class; when none has, the row 0 gets a DataFrame. *)
Definition put_rows (n : nat) (W : nat -> label -> Prop) (l : list outcome) : Prop :=
  (forall i j, (i < j)%nat -> (j < n)%nat -> (exists c, W i c) -> (exists c, W j c) -> each_row n Frame l (verdict W)) /\
  (forall j c, (j < n)%nat -> W j c -> (forall i, (i < n)%nat -> i <> j -> forall d, ~ W i d) ->
     exists c', W j c' /\ each_row n Frame l (fun i x => x = Class (if (i =? 0)%nat then c' else LNum NaN))) /\
  ((0 < n)%nat -> (forall i, (i < n)%nat -> forall d, ~ W i d) ->
     each_row n Frame l (fun i x => x = if (i =? 0)%nat then Frame else Class (LNum NaN))).

(** ** Which algorithm *)

(** The stacked activations are not used. *)
Definition unstacked (stacked_fit : bool) (st : option (frame Z)) : Prop := stacked_fit = false \/ st = None.

(** The values of an attribute, by name *)
Definition attribute_values (E : env) (rules : list rule) (a : string) (ws : series) : Prop :=
  Forall2 (fun r p => called E r (fst p) /\ getattr r a = Ok (number (snd p))) rules ws /\ NoDup (map fst ws).

(** No zero among the sums: one ballot only, or a first ballot other than 0 *)
Definition starts_well (bs : list (ballot Q)) : Prop :=
  (exists b, bs = [b]) \/ (exists b t, bs = b :: t /\ ~ (b_value b == 0)%Q).

(** The sum of the row is not 0 either. *)
Definition sum_counts (i : nat) (bs : list (ballot Q)) : Prop :=
  List.length bs = 1%nat \/ at_row i bs = [] \/ ~ (total i bs == 0)%Q.

(** A ballot of one row counts at each of the [n] rows. *)
Definition spread {A} (n : nat) (b : ballot A) : ballot A :=
  mkBallot (b_weight b) (b_value b) (match b_active b with [a] => repeat a n | v => v end).

(** The first ballot has [n] rows, each other one has [n] rows or one. *)
Definition rows_or_one {A} (n : nat) (bs : list (ballot A)) : Prop :=
  match bs with
  | [] => True
  | b :: t => List.length (b_active b) = n /\
      forall c, In c t -> List.length (b_active c) = n \/ List.length (b_active c) = 1%nat
  end.

(** Each ballot has [n] rows, or one and the class of an earlier ballot with an
    active row. *)
Definition joins (n : nat) (bs : list (ballot label)) : Prop :=
  forall u b v, bs = u ++ b :: v ->
    List.length (b_active b) = n \/
    (List.length (b_active b) = 1%nat /\ exists d i, In d u /\ active i d /\ same_class (b_value b) (b_value d)).

(** The character [c] is not in [s]. *)
Definition without (c : ascii) (s : string) : Prop := forall u v, s <> (u ++ String c v)%string.

(** Same names and bounds *)
Definition same_bounds (f g : feature) : Prop :=
  f_name f = f_name g /\ same_num (f_low f) (f_low g) /\ same_num (f_high f) (f_high g).

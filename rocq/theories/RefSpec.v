(** Vocabulary for the lists of conditions as objects. *)
From Coq Require Import List ZArith QArith Bool String.
From Coq Require Import List.
From Verif Require Import Base Num CondModel TreeModel RefModel.
Import ListNotations.

(** The lists of a condition *)
Inductive holds_ints (o : robj) : nat -> Prop :=
| Holds_idx a : o_idx o = Some a -> holds_ints o a.
Inductive holds_nums (o : robj) : nat -> Prop :=
| Holds_min a : o_min o = Some a -> holds_nums o a
| Holds_max a : o_max o = Some a -> holds_nums o a.
Inductive holds_texts (o : robj) : nat -> Prop :=
| Holds_names a : o_names o = Some a -> holds_texts o a.

Definition holds (o : robj) (a : nat) : Prop := holds_ints o a \/ holds_nums o a \/ holds_texts o a.

(** A condition that exists, with its lists *)
Definition exists_in (H : heap) (c : nat) : Prop :=
  (c < h_next H)%nat /\ forall a, holds (h_conds H c) a -> (a < h_next H)%nat.

(** What was there is there, unchanged: every list and every condition. *)
Definition keeps (H H' : heap) : Prop :=
  (h_next H <= h_next H')%nat /\
  forall a, (a < h_next H)%nat ->
    h_ints H' a = h_ints H a /\ h_nums H' a = h_nums H a /\ h_texts H' a = h_texts H a /\ h_conds H' a = h_conds H a.

(** A condition made between the two moments, with lists made between the two
    moments, two for the bounds *)
Definition brand_new (H H' : heap) (c : nat) : Prop :=
  exists_in H' c /\ (h_next H <= c)%nat /\
  (forall a, holds (h_conds H' c) a -> (h_next H <= a)%nat) /\
  forall a, o_min (h_conds H' c) = Some a -> o_max (h_conds H' c) <> Some a.

(** No list is in both conditions. *)
Definition apart (H : heap) (c d : nat) : Prop := forall a, holds (h_conds H c) a -> ~ holds (h_conds H d) a.

(** The lists that an edit is about *)
Definition edited (e : edit) : nat := match e with EInts a _ | ENums a _ | ETexts a _ => a end.

(** What a list argument of the constructor stands for *)
Definition ints_given (H : heap) (o : option nat) : option (list item) := option_map (fun a => map AInt (h_ints H a)) o.
Definition nums_given (H : heap) (o : option nat) : option (list item) := option_map (fun a => map AFloat (h_nums H a)) o.
Definition texts_given (H : heap) (o : option nat) : option (list item) := option_map (fun a => map AStr (h_texts H a)) o.

(** An argument that exists *)
Definition there (H : heap) (o : option nat) : Prop := forall a, o = Some a -> (a < h_next H)%nat.

(** What is given to a setter *)
Definition meant {A} (read : nat -> list A) (v : source A) : given A :=
  match v with SList a => GList (read a) | SText r => GText r end.
Definition source_there {A} (H : heap) (v : source A) : Prop :=
  match v with SList a => (a < h_next H)%nat | SText _ => True end.

(** Only condition [c] may have changed; the lists have not. *)
Definition keeps_but (c : nat) (H H' : heap) : Prop :=
  (h_next H <= h_next H')%nat /\
  forall a, (a < h_next H)%nat ->
    h_ints H' a = h_ints H a /\ h_nums H' a = h_nums H a /\ h_texts H' a = h_texts H a /\
    (a <> c -> h_conds H' a = h_conds H a).

(** The edit is about a list of the condition. *)
Definition touches (e : edit) (o : robj) : Prop :=
  match e with
  | EInts a _ => holds_ints o a
  | ENums a _ => holds_nums o a
  | ETexts a _ => holds_texts o a
  end.

(** Nothing in common: not the same condition, no list in both *)
Definition strangers (H : heap) (c d : nat) : Prop := c <> d /\ apart H c d /\ apart H d c.

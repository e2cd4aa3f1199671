(** What an activation vector is, independently of the code: a list of
    booleans, and the plain mathematical functions of it. *)
From Coq Require Import List ZArith QArith Bool String Decimal DecimalString DecimalZ.
Import ListNotations.
Open Scope Z_scope.

Definition vec := list bool.

Definition size (v : vec) : Z := Z.of_nat (List.length v).

(** The vector as 0/1 integers. *)
Definition as_01 (v : vec) : list Z := map (fun b : bool => if b then 1 else 0) v.

(** Its value read as a binary number, most significant bit first. *)
Fixpoint binary (v : vec) : Z :=
  match v with
  | [] => 0
  | b :: t => (if b then 2 ^ size t else 0) + binary t
  end.

(** Number of ones, and their positions (from 0). *)
Definition n_ones (v : vec) : Z := Z.of_nat (count_occ Bool.bool_dec v true).
Definition positions (v : vec) : list Z :=
  map Z.of_nat (filter (fun i => nth i v false) (seq 0 (List.length v))).

(** Positions i >= 1 where the value differs from the one before. *)
Definition switches (v : vec) : list Z :=
  map Z.of_nat (filter (fun i => xorb (nth (i - 1) v false) (nth i v false))
                       (seq 1 (List.length v - 1))).

(** Run-length form: first value, switches, length. *)
Definition run_lengths (v : vec) : list Z :=
  (if hd false v then 1 else 0) :: switches v ++ [size v].

(** Its text: decimal numbers separated by commas. *)
Definition run_text (v : vec) : string :=
  String.concat "," (map (fun z => NilZero.string_of_int (Z.to_int z)) (run_lengths v)).

(** Fractions. *)
Definition fraction (k n : Z) : Q := (inject_Z k / inject_Z n)%Q.

(** Pointwise operations. *)
Definition pointwise (f : bool -> bool -> bool) (v1 v2 : vec) : vec :=
  map (fun p => f (fst p) (snd p)) (combine v1 v2).

(** Values an int32 array can hold; lengths for which the compressed array is
    stored without loss (see activation.py:22 and 1091). *)
Definition fits_compressed_array (v : vec) : Prop :=
  size v < 2 ^ 31 \/ 2 ^ 32 <= size v.


(** Every point of the first is a point of the second. *)
Definition subset (v1 v2 : vec) : Prop :=
  forall i, nth i v1 false = true -> nth i v2 false = true.
(** Number of positions where two vectors agree. *)
Definition agreements (v1 v2 : vec) : Z := n_ones (pointwise Bool.eqb v1 v2).
(** Where all, where at least one, where some but not all of the vectors are on. *)
Definition every (vs : list vec) : vec :=
  map (fun i => forallb (fun v => nth i v false) vs) (seq 0 (List.length (hd [] vs))).
Definition some (vs : list vec) : vec :=
  map (fun i => existsb (fun v => nth i v false) vs) (seq 0 (List.length (hd [] vs))).
Definition differ (vs : list vec) : vec :=
  map (fun i => existsb (fun v => nth i v false) vs && negb (forallb (fun v => nth i v false) vs))
      (seq 0 (List.length (hd [] vs))).
Definition same_size (vs : list vec) : Prop := forall v, In v vs -> List.length v = List.length (hd [] vs).

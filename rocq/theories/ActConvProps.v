(** Properties of the conversions between the formats of activations. *)
From Coq Require Import ZArith QArith Bool String Decimal DecimalString DecimalZ Lia List.
From Verif Require Import Base ActModel ActSpec ActObs ActConv ActWit.
Import ListNotations.
Open Scope Z_scope.

(** * C201 *)

Theorem C201_bits : forall (v : vec) (a : act) (w : world), fst (fst (to_raw_from_any (VBits v) a w)) = Ok (as_01 v).
Proof. exact any_bits. Qed.
Print Assumptions C201_bits.

Example C201_bits_ex : fst (fst (to_raw_from_any (VBits va) (blank true) (demo comparing even))) = Ok [1; 0; 1; 1].
Proof. apply (C201_bits va). Qed.

Theorem C201_raw : forall (v : vec) (a : act) (w : world), fst (fst (to_raw_from_any (VArr (as_01 v)) a w)) = Ok (as_01 v).
Proof. exact any_raw. Qed.
Print Assumptions C201_raw.

Example C201_raw_ex : fst (fst (to_raw_from_any (VArr [1; 0; 1; 1]) (blank true) (demo comparing even))) = Ok [1; 0; 1; 1].
Proof. apply (C201_raw va). Qed.

Theorem C201_integer : forall (v : vec) (a : act) (w : world), v <> [] -> a_len a = Some (size v) ->
  fst (fst (to_raw_from_any (VInt (binary v)) a w)) = Ok (as_01 v).
Proof. exact any_integer. Qed.
Print Assumptions C201_integer.

Example C201_integer_ex : fst (fst (to_raw_from_any (VInt 3) (fst (make va false (demo comparing even))) (demo comparing even))) = Ok [0; 0; 1; 1].
Proof. apply (C201_integer [false; false; true; true]); [discriminate|vm_compute; reflexivity]. Qed.

Theorem C201_text : forall (v : vec) (a : act) (w : world), v <> [] -> fst (fst (to_raw_from_any (VStr (run_text v)) a w)) = Ok (as_01 v).
Proof. exact any_text. Qed.
Print Assumptions C201_text.

Example C201_text_ex : fst (fst (to_raw_from_any (VStr "1,1,2,4") (blank true) (demo comparing even))) = Ok [1; 0; 1; 1].
Proof. apply (C201_text va). discriminate. Qed.

Theorem C201_array : forall (v : vec) (a : act) (w : world), 2 <= size v -> fst (fst (to_raw_from_any (VArr (run_lengths v)) a w)) = Ok (as_01 v).
Proof. exact any_array. Qed.
Print Assumptions C201_array.

Example C201_array_ex : fst (fst (to_raw_from_any (VArr [1; 1; 2; 4]) (blank true) (demo comparing even))) = Ok [1; 0; 1; 1].
Proof. apply (C201_array va). discriminate. Qed.

Theorem C201_refused : forall (a : act) (w : world),
  (forall n, a_len a = None -> fst (fst (to_raw_from_any (VInt n) a w)) = Err (if n <? 0 then EValue else EType)) /\
  (forall n l, n < 0 \/ 2 ^ l <= n -> 0 < l -> a_len a = Some l -> fst (fst (to_raw_from_any (VInt n) a w)) = Err EValue) /\
  (forall n, fst (fst (to_raw_from_any (VStr (NilZero.string_of_int (Z.to_int n))) a w)) = Err EType) /\
  (forall p, fst (fst (to_raw_from_any (VPath p) a w)) = Err EType) /\ fst (fst (to_raw_from_any VNone a w)) = Err EType.
Proof. exact any_refused. Qed.
Print Assumptions C201_refused.

Example C201_refused_ex : fst (fst (to_raw_from_any (VInt 16) (fst (make va false (demo comparing even))) (demo comparing even))) = Err EValue /\
  fst (fst (to_raw_from_any (VStr "12") (blank true) (demo comparing even))) = Err EType.
Proof.
  split.
  - apply (proj1 (proj2 (C201_refused (fst (make va false (demo comparing even))) (demo comparing even))) 16 4); [right; lia|lia|vm_compute; reflexivity].
  - apply (proj1 (proj2 (proj2 (C201_refused (blank true) (demo comparing even)))) 12).
Qed.

(** * C202 *)

Theorem C202_one_point_refuted : exists v a w, v <> [] /\
  fst (fst (to_raw_from_any (VArr (run_lengths v)) a w)) = Ok [0; 1] /\ as_01 v = [0].
Proof. exact one_point. Qed.
Print Assumptions C202_one_point_refuted.

(** * C203 *)

Theorem C203_compress : forall (i32 : Z -> option Z) (d : dtype),
  (forall n, compress i32 (VInt n) d = Err EType) /\ (forall v, compress i32 (VBits v) d = Err EType) /\
  (forall s, compress i32 (VStr s) DStr = Ok (VStr s)) /\
  (forall xs, 2 <= last xs 0 -> compress i32 (VArr xs) d = Ok (VArr xs)) /\
  compress i32 (VArr []) d = Ok (VArr []).
Proof. exact compress_other. Qed.
Print Assumptions C203_compress.

Example C203_compress_ex : compress (fun z => Some z) (VArr [0; 2; 5]) DStr = Ok (VArr [0; 2; 5]).
Proof. apply (C203_compress (fun z => Some z) DStr). cbn. lia. Qed.

Theorem C203_integer :
  (forall n, raw_to_integer (VInt n) = Ok n) /\ (forall v, raw_to_integer (VBits v) = Err EType) /\ (forall s, raw_to_integer (VStr s) = Err EType) /\
  (forall xs, 2 <= last xs 0 -> raw_to_integer (VArr xs) = Err EType) /\
  raw_to_integer (VArr []) = Err EValue /\
  (forall xs x, (last xs 0 = 0 \/ last xs 0 = 1) -> In x xs -> 2 <= x <= 9 -> raw_to_integer (VArr xs) = Err EValue).
Proof. exact integer_other. Qed.
Print Assumptions C203_integer.

Example C203_integer_ex : raw_to_integer (VArr [1; 5; 0]) = Err EValue.
Proof. apply (proj2 (proj2 (proj2 (proj2 (proj2 C203_integer)))) [1; 5; 0] 5); cbn; auto. lia. Qed.

Theorem C203_bitarray :
  (forall v, raw_to_bitarray (VBits v) = Ok v) /\ (forall n, raw_to_bitarray (VInt n) = Err EType) /\ (forall s, raw_to_bitarray (VStr s) = Err EType) /\
  (forall xs, 2 <= last xs 0 -> raw_to_bitarray (VArr xs) = Err EType) /\
  (forall xs x, (last xs 0 = 0 \/ last xs 0 = 1) -> In x xs -> x <> 0 -> x <> 1 -> raw_to_bitarray (VArr xs) = Err EValue).
Proof. exact bits_other. Qed.
Print Assumptions C203_bitarray.

Example C203_bitarray_ex : raw_to_bitarray (VArr [1; -3; 1]) = Err EValue.
Proof. apply (proj2 (proj2 (proj2 (proj2 C203_bitarray))) [1; -3; 1] (-3)); cbn; auto; lia. Qed.

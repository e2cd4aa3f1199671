(** Vocabulary of the statements about the profile of an activation: its
    counters (n_...), its times (time_...) and its sizes (sizeof_...).  Only
    definitions. *)
From Coq Require Import ZArith QArith Bool String List.
From Verif Require Import Base ActModel ActSpec ActObs.
Import ListNotations.
Open Scope Z_scope.

Definition op_eq_dec (a b : op) : {a = b} + {a <> b}.
Proof. decide equality. Defined.

(** Each counter of [a'] is the one of [a] plus the number of times the
    conversion is in the list. *)
Definition counts (l : list op) (a a' : act) : Prop :=
  forall o, a_cnt a' o = (a_cnt a o + count_occ op_eq_dec l o)%nat.

(** The conversions that lead from a stored form to the raw vector. *)
Definition to_raw (f : fmt) : list op :=
  match f with
  | FRaw => []
  | FBits => [OB2R]
  | FInt => [OI2R]
  | FCStr | FCArr => [OC2R]
  | FFile => [ORead]
  end.
(** ... and to the other forms. *)
Definition to_bits (f : fmt) : list op :=
  match f with
  | FRaw => [OR2B]
  | FBits => []
  | FInt => [OI2B]
  | FCStr | FCArr => [OC2R; OR2B; OC2B]
  | FFile => [ORead; OR2B]
  end.
Definition to_int (f : fmt) : list op :=
  match f with
  | FRaw => [OR2I]
  | FBits => [OB2I]
  | FInt => []
  | FCStr | FCArr => [OC2R; OR2I; OC2I]
  | FFile => [ORead; OR2I]
  end.
Definition to_compressed (f : fmt) : list op :=
  match f with
  | FRaw => [OR2C]
  | FBits => [OB2R; OR2C; OB2C]
  | FInt => [OI2R; OR2C; OI2C]
  | FCStr | FCArr => []
  | FFile => [ORead; OR2C]
  end.
(** Computing the entropy converts too, but through the bitarray or the integer
    it does not count the compression of the raw vector. *)
Definition to_entropy (f : fmt) : list op :=
  match f with
  | FRaw => [OR2C]
  | FBits => [OB2R; OB2C]
  | FInt => [OI2R; OI2C]
  | FCStr | FCArr => []
  | FFile => [ORead; OR2C]
  end.

(** [unless o l]: nothing if the statistic is known already. *)
Definition unless {A} (o : option A) (l : list op) : list op :=
  match o with Some _ => [] | None => l end.

(** The conversions made by reading an attribute. *)
Definition conversions (f : fmt) (a : act) (x : attr) : list op :=
  match x with
  | ARaw | AOnes => to_raw f
  | ANones => unless (a_nones a) (to_raw f)
  | ACoverage => unless (a_cov a) (unless (a_nones a) (to_raw f))
  | AEntropy => unless (a_entropy a) (to_entropy f)
  | ARelEntropy => unless (a_relent a) (unless (a_entropy a) (to_entropy f))
  | ALen => []
  | ABits => to_bits f
  | AInt => to_int f
  | ACStr | ACArr => to_compressed f
  end.

(** The conversions made by the constructor. *)
Definition stored_raw (w : world) (to_file : bool) : list op :=
  if STORE_RAW (w_cfg w) then []
  else if to_file then [OWrite]
  else if WILL_COMPARE (w_cfg w) then [OR2C; OR2I] else [OR2C; OR2B].
Definition when (b : bool) (l : list op) : list op := if b then l else [].
Definition constructed (w : world) (src : pyval) (optimize to_file : bool) : list op :=
  let wc := WILL_COMPARE (w_cfg w) in
  match src with
  | VBits _ =>
      if wc then OB2I :: when optimize [OI2R; OR2C; OI2C] else when optimize [OB2R; OR2C; OB2C]
  | VInt _ =>
      if wc then when optimize [OI2R; OR2C; OI2C] else OI2B :: when optimize [OB2R; OR2C; OB2C]
  | VArr xs => if 1 <? last xs 0 then [] else stored_raw w to_file
  | VPath _ => ORead :: stored_raw w to_file
  | _ => []
  end.

(** A time of the profile is set exactly when its counter is positive. *)
Definition timed (a : act) : Prop := forall o, a_time a o = true <-> (0 < a_cnt a o)%nat.

(** What measuring a time that is not set does: get the form to convert, then
    convert it. *)
Definition measured (f : fmt) (o : op) : list op :=
  match o with
  | OWrite => to_raw f ++ [OWrite]
  | ORead => to_raw f ++ [OWrite; ORead]
  | OC2R => to_compressed f ++ to_raw FCStr
  | OC2B => to_compressed f ++ to_bits FCStr
  | OC2I => to_compressed f ++ to_int FCStr
  | OR2C => to_raw f ++ to_compressed FRaw
  | OR2I => to_raw f ++ to_int FRaw
  | OR2B => to_raw f ++ to_bits FRaw
  | OB2R => to_bits f ++ to_raw FBits
  | OB2C => to_bits f ++ to_compressed FBits
  | OB2I => to_bits f ++ to_int FBits
  | OI2R => to_int f ++ to_raw FInt
  | OI2C => to_int f ++ to_compressed FInt
  | OI2B => to_int f ++ to_bits FInt
  end.
(** What measuring a size that is not recorded does. *)
Definition sized_by (f : fmt) (k : szk) : list op :=
  match k with
  | SRaw => to_raw f
  | SBits => to_bits f
  | SInt => to_int f
  | SCStr | SCArr => to_compressed f
  | SFile | SPath => to_raw f ++ [OWrite]
  end.

(** The size of each form of [v]: sys.getsizeof or nbytes of the value, the
    size of the file, the size of some path. *)
Definition right_size (w : world) (v : vec) (k : szk) (z : Z) : Prop :=
  match k with
  | SRaw => z = w_size w (VArr (as_01 v))
  | SBits => z = w_size w (VBits v)
  | SInt => z = w_size w (VInt (binary v))
  | SCStr => z = w_size w (VStr (run_text v))
  | SCArr => z = w_size w (VArr (run_lengths v))
  | SFile => z = w_fsize w (as_01 v)
  | SPath => exists p, z = w_size w (VPath p)
  end.
(** Every recorded size is right. *)
Definition right_sizes (w : world) (v : vec) (a : act) : Prop :=
  forall k z, a_size a k = Some z -> right_size w v k z.
(** Reading an activation records right sizes and forgets none. *)
Definition records (w : world) (v : vec) (a a' : act) : Prop :=
  forall k, a_size a' k = a_size a k \/ exists z, a_size a' k = Some z /\ right_size w v k z.
(** The size of the stored form is recorded. *)
Definition own_size (f : fmt) : szk :=
  match f with
  | FRaw => SRaw | FBits => SBits | FInt => SInt | FCStr => SCStr | FCArr => SCArr | FFile => SFile
  end.
Definition formed (a : act) : Prop := forall f, a_fmt a = Some f -> a_size a (own_size f) <> None.
(** The sizes that a file-stored activation does not record. *)
Definition unrecorded (f : fmt) (k : szk) : Prop := f = FFile /\ (k = SCStr \/ k = SCArr).

(** The form that an attribute gives, if it gives one. *)
Definition form (x : attr) : option szk :=
  match x with
  | ARaw | AOnes => Some SRaw
  | ABits => Some SBits
  | AInt => Some SInt
  | ACStr => Some SCStr
  | ACArr => Some SCArr
  | _ => None
  end.
(** The forms that the constructor makes, whose sizes it records. *)
Definition compressed_size (c : cfg) : szk := match DTYPE c with DStr => SCStr | DArr => SCArr end.
Definition made_raw (w : world) (to_file : bool) : list szk :=
  SRaw :: (if STORE_RAW (w_cfg w) then []
           else if to_file then [SFile; SPath]
           else [compressed_size (w_cfg w); if WILL_COMPARE (w_cfg w) then SInt else SBits]).
Definition made (w : world) (src : pyval) (optimize to_file : bool) : list szk :=
  let wc := WILL_COMPARE (w_cfg w) in
  let opt := if optimize then [SRaw; compressed_size (w_cfg w)] else [] in
  match src with
  | VBits _ => SBits :: (if wc then [SInt] else []) ++ opt
  | VInt _ => SInt :: (if wc then [] else [SBits]) ++ opt
  | VStr _ => [SCStr]
  | VArr xs => if 1 <? last xs 0 then [SCArr] else made_raw w to_file
  | VPath _ => SFile :: SPath :: made_raw w to_file
  | _ => []
  end.

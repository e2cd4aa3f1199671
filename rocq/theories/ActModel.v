(** Model of ruleskit/activation.py (class Activation), function by function.

    No proofs here.  "activation.py:N-M" are line numbers in /repo/ruleskit.

    An Activation instance is a record [act]; everything outside the instance
    (class attributes, disk, random numbers, memory sizes) is a record [world].
    A method is a function of both that returns a result or an exception and
    the new instance and world, which are kept when an exception is raised. *)
From Coq Require Import List ZArith QArith Bool String Ascii Decimal DecimalString DecimalZ.
From Verif Require Import Base.
Import ListNotations.
Open Scope Z_scope.

(** * Python values *)

(** A file.  [PTmp n] is DEFAULT_TEMPDIR / "ACTIVATION_VECTOR_{n}.txt", the
    names that [_write] generates (activation.py:310); [PUser s] is any other
    path.  Simplified: DEFAULT_TEMPDIR is fixed. *)
Inductive path := PTmp (n : Z) | PUser (s : string).

Definition path_eqb (p q : path) : bool :=
  match p, q with
  | PTmp a, PTmp b => a =? b
  | PUser a, PUser b => String.eqb a b
  | _, _ => false
  end.

(** The values an activation is built from or stored as.  [VArr] is a
    one-dimensional np.ndarray of integers (a raw vector or a compressed one),
    [VBits] a bitarray.  Simplified: float arrays are identified with the
    integer arrays of the same values. *)
Inductive pyval :=
| VNone
| VArr (xs : list Z)
| VBits (bs : list bool)
| VInt (n : Z)
| VStr (s : string)
| VPath (p : path).

(** Activation.DTYPE, activation.py:38: str or np.ndarray. *)
Inductive dtype := DStr | DArr.

(** Values of [data_format]. *)
Inductive fmt := FRaw | FBits | FInt | FCStr | FCArr | FFile.

(** Conversions that are timed and counted, activation.py:80-107. *)
Inductive op :=
| OWrite | ORead | OC2R | OR2C | OR2I | OB2R | OR2B | OC2B | OC2I | OB2C | OI2C
| OI2R | OB2I | OI2B.

(** Representations whose size is recorded, activation.py:108-114. *)
Inductive szk := SCArr | SCStr | SBits | SInt | SRaw | SFile | SPath.

Definition op_code (o : op) : Z :=
  match o with
  | OWrite => 0 | ORead => 1 | OC2R => 2 | OR2C => 3 | OR2I => 4 | OB2R => 5
  | OR2B => 6 | OC2B => 7 | OC2I => 8 | OB2C => 9 | OI2C => 10 | OI2R => 11
  | OB2I => 12 | OI2B => 13
  end.
Definition op_eqb (a b : op) : bool := op_code a =? op_code b.

Definition szk_code (s : szk) : Z :=
  match s with
  | SCArr => 0 | SCStr => 1 | SBits => 2 | SInt => 3 | SRaw => 4 | SFile => 5 | SPath => 6
  end.
Definition szk_eqb (a b : szk) : bool := szk_code a =? szk_code b.

(** * The instance *)

(** Instance attributes, activation.py:63-114 and 199-204.  [a_time o] says
    whether the profiling time of [o] has been set (is no longer -1);
    [a_cnt o] is the counter [_n_...]; [a_size s] is the recorded size in
    bytes, [None] for -1.  Simplified: the measured times are not kept and
    sizes are in bytes instead of MB. *)
Record act := mkAct {
  a_entropy : option Z;
  a_relent : option Q;
  a_nones : option Z;
  a_cov : option Q;
  a_len : option Z;
  a_data : pyval;
  a_fmt : option fmt;
  a_opt : bool;
  a_tofile : bool;
  a_loaded : bool;
  a_lasy : bool;
  a_time : op -> bool;
  a_cnt : op -> nat;
  a_size : szk -> option Z
}.

(** Class attributes, activation.py:38-49. *)
Record cfg := mkCfg {
  DTYPE : dtype;
  FORCE_STAT : bool;
  WILL_COMPARE : bool;
  STORE_RAW : bool;
  NCPUS : Z
}.

(** Everything outside the instance.  [w_fs] is the disk (content of each
    file as saved by np.save); [w_rnd] and [w_clk] give the successive results
    of random.randint and of psutil.virtual_memory().available;
    [w_oom] says whether a large np.vstack raises MemoryError;
    [w_size] is sys.getsizeof / nbytes; [w_fsize] the size of a saved file;
    [w_i32] the result of storing an integer in an int32 array, [None] if
    numpy raises OverflowError. *)
Record world := mkWorld {
  w_cfg : cfg;
  w_fs : path -> option (list Z);
  w_clk : nat;
  w_rnd : nat -> Z;
  w_mem : nat -> Z;
  w_oom : nat -> bool;
  w_size : pyval -> Z;
  w_fsize : list Z -> Z;
  w_i32 : Z -> option Z
}.

(** * State and exception monad *)

Definition M (A : Type) : Type := act -> world -> res A * act * world.

Definition ret {A} (x : A) : M A := fun a w => (Ok x, a, w).
Definition throw {A} (e : exn) : M A := fun a w => (Err e, a, w).
Definition bind {A B} (m : M A) (f : A -> M B) : M B :=
  fun a w =>
    match m a w with
    | (Ok x, a', w') => f x a' w'
    | (Err e, a', w') => (Err e, a', w')
    end.
Definition get {A} (f : act -> A) : M A := fun a w => (Ok (f a), a, w).
Definition getw {A} (f : world -> A) : M A := fun a w => (Ok (f w), a, w).
Definition upd (f : act -> act) : M unit := fun a w => (Ok tt, f a, w).
Definition updw (f : world -> world) : M unit := fun a w => (Ok tt, a, f w).
Definition lift {A} (r : res A) : M A := fun a w => (r, a, w).

Notation "x <- m ;; k" := (bind m (fun x => k))
  (at level 61, m at next level, right associativity).
Notation "m ;;; k" := (bind m (fun _ => k)) (at level 61, right associativity).

(** ** Attribute assignments *)

Definition set_entropy (v : option Z) (a : act) : act :=
  mkAct v (a_relent a) (a_nones a) (a_cov a) (a_len a) (a_data a) (a_fmt a) (a_opt a)
    (a_tofile a) (a_loaded a) (a_lasy a) (a_time a) (a_cnt a) (a_size a).
Definition set_relent (v : option Q) (a : act) : act :=
  mkAct (a_entropy a) v (a_nones a) (a_cov a) (a_len a) (a_data a) (a_fmt a) (a_opt a)
    (a_tofile a) (a_loaded a) (a_lasy a) (a_time a) (a_cnt a) (a_size a).
Definition set_nones (v : option Z) (a : act) : act :=
  mkAct (a_entropy a) (a_relent a) v (a_cov a) (a_len a) (a_data a) (a_fmt a) (a_opt a)
    (a_tofile a) (a_loaded a) (a_lasy a) (a_time a) (a_cnt a) (a_size a).
Definition set_cov (v : option Q) (a : act) : act :=
  mkAct (a_entropy a) (a_relent a) (a_nones a) v (a_len a) (a_data a) (a_fmt a) (a_opt a)
    (a_tofile a) (a_loaded a) (a_lasy a) (a_time a) (a_cnt a) (a_size a).
Definition set_len (v : option Z) (a : act) : act :=
  mkAct (a_entropy a) (a_relent a) (a_nones a) (a_cov a) v (a_data a) (a_fmt a) (a_opt a)
    (a_tofile a) (a_loaded a) (a_lasy a) (a_time a) (a_cnt a) (a_size a).
Definition set_data (v : pyval) (a : act) : act :=
  mkAct (a_entropy a) (a_relent a) (a_nones a) (a_cov a) (a_len a) v (a_fmt a) (a_opt a)
    (a_tofile a) (a_loaded a) (a_lasy a) (a_time a) (a_cnt a) (a_size a).
Definition set_fmt (v : option fmt) (a : act) : act :=
  mkAct (a_entropy a) (a_relent a) (a_nones a) (a_cov a) (a_len a) (a_data a) v (a_opt a)
    (a_tofile a) (a_loaded a) (a_lasy a) (a_time a) (a_cnt a) (a_size a).
Definition set_tofile (v : bool) (a : act) : act :=
  mkAct (a_entropy a) (a_relent a) (a_nones a) (a_cov a) (a_len a) (a_data a) (a_fmt a) (a_opt a)
    v (a_loaded a) (a_lasy a) (a_time a) (a_cnt a) (a_size a).
Definition set_loaded (v : bool) (a : act) : act :=
  mkAct (a_entropy a) (a_relent a) (a_nones a) (a_cov a) (a_len a) (a_data a) (a_fmt a) (a_opt a)
    (a_tofile a) v (a_lasy a) (a_time a) (a_cnt a) (a_size a).
Definition set_lasy (v : bool) (a : act) : act :=
  mkAct (a_entropy a) (a_relent a) (a_nones a) (a_cov a) (a_len a) (a_data a) (a_fmt a) (a_opt a)
    (a_tofile a) (a_loaded a) v (a_time a) (a_cnt a) (a_size a).
(** self._time_o = time() - t0 *)
Definition stamp (o : op) (a : act) : act :=
  mkAct (a_entropy a) (a_relent a) (a_nones a) (a_cov a) (a_len a) (a_data a) (a_fmt a) (a_opt a)
    (a_tofile a) (a_loaded a) (a_lasy a)
    (fun o' => if op_eqb o' o then true else a_time a o') (a_cnt a) (a_size a).
(** self._n_o += 1 *)
Definition bump (o : op) (a : act) : act :=
  mkAct (a_entropy a) (a_relent a) (a_nones a) (a_cov a) (a_len a) (a_data a) (a_fmt a) (a_opt a)
    (a_tofile a) (a_loaded a) (a_lasy a) (a_time a)
    (fun o' => if op_eqb o' o then S (a_cnt a o') else a_cnt a o') (a_size a).
(** self._sizeof_s = v *)
Definition set_size (s : szk) (v : Z) (a : act) : act :=
  mkAct (a_entropy a) (a_relent a) (a_nones a) (a_cov a) (a_len a) (a_data a) (a_fmt a) (a_opt a)
    (a_tofile a) (a_loaded a) (a_lasy a) (a_time a) (a_cnt a)
    (fun s' => if szk_eqb s' s then Some v else a_size a s').

Definition set_cfg (c : cfg) (w : world) : world :=
  mkWorld c (w_fs w) (w_clk w) (w_rnd w) (w_mem w) (w_oom w) (w_size w) (w_fsize w) (w_i32 w).
Definition set_fs (f : path -> option (list Z)) (w : world) : world :=
  mkWorld (w_cfg w) f (w_clk w) (w_rnd w) (w_mem w) (w_oom w) (w_size w) (w_fsize w) (w_i32 w).
Definition tick (w : world) : world :=
  mkWorld (w_cfg w) (w_fs w) (S (w_clk w)) (w_rnd w) (w_mem w) (w_oom w) (w_size w) (w_fsize w)
    (w_i32 w).
Definition fs_put (p : path) (xs : list Z) (f : path -> option (list Z)) : path -> option (list Z) :=
  fun q => if path_eqb q p then Some xs else f q.
Definition fs_del (p : path) (f : path -> option (list Z)) : path -> option (list Z) :=
  fun q => if path_eqb q p then None else f q.

(** Activation.WILL_COMPARE = b, activation.py:1283, 1324. *)
Definition set_will_compare (b : bool) : M unit :=
  updw (fun w => set_cfg (mkCfg (DTYPE (w_cfg w)) (FORCE_STAT (w_cfg w)) b
                                (STORE_RAW (w_cfg w)) (NCPUS (w_cfg w))) w).

Definition stamp_bump (o : op) : M unit := upd (fun a => bump o (stamp o a)).

(** self._sizeof_s = sys.getsizeof(v) (or v.nbytes) *)
Definition rec_size (s : szk) (v : pyval) : M unit :=
  z <- getw (fun w => w_size w v);; upd (set_size s z).
(** if self._sizeof_s == -1: self._sizeof_s = ... *)
Definition rec_size_if_unset (s : szk) (v : pyval) : M unit :=
  o <- get (fun a => a_size a s);;
  match o with None => rec_size s v | Some _ => ret tt end.

Definition opt_res {A} (e : exn) (o : option A) : res A :=
  match o with Some a => Ok a | None => Err e end.

(** Python true division of integers. *)
Definition pydiv (x y : Z) : res Q :=
  if y =? 0 then Err EZeroDiv else Ok (inject_Z x / inject_Z y)%Q.

(** x / self.length, TypeError when the length is None. *)
Definition div_len (x : Z) : M Q :=
  l <- get a_len;;
  match l with None => throw EType | Some n => lift (pydiv x n) end.

(** * numpy helpers *)

(** astype(np.ubyte), astype(np.byte) *)
Definition ubyte (z : Z) : Z := z mod 256.
Definition sbyte (z : Z) : Z := (z + 128) mod 256 - 128.

Definition len {A} (xs : list A) : Z := Z.of_nat (List.length xs).

(** np.count_nonzero(xs == 1) *)
Definition count_ones (xs : list Z) : Z := len (filter (fun x => x =? 1) xs).

(** len(value) > 0 and value[-1] != 0 and value[-1] != 1 (as in
    activation.py:1073, 1102, 1121) *)
Definition last_not_bit (xs : list Z) : bool :=
  match xs with
  | [] => false
  | _ => negb (last xs 0 =? 0) && negb (last xs 0 =? 1)
  end.

(** abs(np.diff(value)) on int8 *)
Fixpoint abs_diff (xs : list Z) : list Z :=
  match xs with
  | x :: t => match t with
              | y :: _ => sbyte (Z.abs (sbyte (y - x))) :: abs_diff t
              | [] => []
              end
  | [] => []
  end.

(** np.where(arr == 1)[0] + off *)
Fixpoint where_one (off : Z) (xs : list Z) : list Z :=
  match xs with
  | [] => []
  | x :: t => if x =? 1 then off :: where_one (off + 1) t else where_one (off + 1) t
  end.

(** * Text of compressed vectors *)

Definition string_of_Z (z : Z) : string := NilZero.string_of_int (Z.to_int z).
Definition Z_of_string (s : string) : option Z :=
  option_map Z.of_int (NilZero.int_of_string s).

(** str(list_of_ints) without spaces and brackets, activation.py:1089, 1408 *)
Fixpoint join_ints (xs : list Z) : string :=
  match xs with
  | [] => EmptyString
  | [x] => string_of_Z x
  | x :: t => (string_of_Z x ++ String "," (join_ints t))%string
  end.

(** s.split(",") *)
Fixpoint split_comma_aux (cur : string) (s : string) : list string :=
  match s with
  | EmptyString => [cur]
  | String c t =>
      if Ascii.eqb c "," then cur :: split_comma_aux EmptyString t
      else split_comma_aux (cur ++ String c EmptyString)%string t
  end.
Definition split_comma (s : string) : list string := split_comma_aux EmptyString s.

Fixpoint parse_ints (l : list string) : option (list Z) :=
  match l with
  | [] => Some []
  | s :: t => match Z_of_string s, parse_ints t with
              | Some z, Some r => Some (z :: r)
              | _, _ => None
              end
  end.

(** ast.literal_eval on the text of a compressed vector.  Simplified: the
    grammar is decimal integers separated by commas, everything else is a
    SyntaxError; one integer without a comma is an int, not a tuple. *)
Inductive literal := LTuple (xs : list Z) | LInt (z : Z).
Definition literal_eval (s : string) : res literal :=
  match parse_ints (split_comma s) with
  | None => Err ESyntax
  | Some [z] => Ok (LInt z)
  | Some xs => Ok (LTuple xs)
  end.
(** The code always uses the literal as a sequence: an int has no len() and
    cannot be indexed (TypeError). *)
Definition literal_seq (s : string) : res (list Z) :=
  rbind (literal_eval s) (fun l => match l with LTuple xs => Ok xs | LInt _ => Err EType end).

(** * Static codecs *)

(** MAX_INT_32, activation.py:22 *)
Definition MAX_INT_32 : Z := 2 ^ 32.

Fixpoint cast_i32 (i32 : Z -> option Z) (xs : list Z) : res (list Z) :=
  match xs with
  | [] => Ok []
  | x :: t => match i32 x with
              | None => Err EOverflow
              | Some y => rbind (cast_i32 i32 t) (fun r => Ok (y :: r))
              end
  end.

(** The list [to_ret] of activation.py:1084-1087. *)
Definition compress_list (xs : list Z) : list Z :=
  let v := map sbyte xs in
  (hd 0 v :: where_one 1 (abs_diff v)) ++ [len v].

(** _compress, activation.py:1060-1095.  Line 1075 (a string asked as an
    array) casts the numbers to ubyte. *)
Definition compress (i32 : Z -> option Z) (v : pyval) (d : dtype) : res pyval :=
  match v with
  | VInt _ | VBits _ => Err EType
  | VArr xs =>
      if last_not_bit xs then Ok (VArr xs)
      else match xs with
           | [] => Ok (VArr [])
           | _ =>
               let r := compress_list xs in
               match d with
               | DStr => Ok (VStr (join_ints r))
               | DArr =>
                   if last r 0 <? MAX_INT_32
                   then rbind (cast_i32 i32 r) (fun c => Ok (VArr c))
                   else Ok (VArr r)
               end
           end
  | VStr s =>
      match d with
      | DStr => Ok (VStr s)
      | DArr => match parse_ints (split_comma s) with
                | Some zs => Ok (VArr (map ubyte zs))
                | None => Err EValue
                end
      end
  | VNone | VPath _ => Ok v
  end.

(** _raw_to_bitarray, activation.py:1098-1107: bitarray(list) rejects entries
    other than 0 and 1. *)
Fixpoint bits_of_list (xs : list Z) : res (list bool) :=
  match xs with
  | [] => Ok []
  | x :: t => if x =? 0 then rbind (bits_of_list t) (fun r => Ok (false :: r))
              else if x =? 1 then rbind (bits_of_list t) (fun r => Ok (true :: r))
              else Err EValue
  end.
Definition raw_to_bitarray (v : pyval) : res (list bool) :=
  match v with
  | VBits bs => Ok bs
  | VArr xs => if last_not_bit xs then Err EType else bits_of_list xs
  | _ => Err EType
  end.

(** int(s, 2) on a string of digits (most significant first); anything but
    0 and 1, or no digit at all, is a ValueError. *)
Fixpoint int_base2 (acc : Z) (ds : list Z) : res Z :=
  match ds with
  | [] => Ok acc
  | d :: t => if (d =? 0) || (d =? 1) then int_base2 (2 * acc + d) t else Err EValue
  end.
Definition int_of_digits2 (ds : list Z) : res Z :=
  match ds with [] => Err EValue | _ => int_base2 0 ds end.

(** The decimal digits of str(i) for an unsigned byte. *)
Definition ubyte_digits (z : Z) : list Z :=
  if z <? 10 then [z]
  else if z <? 100 then [z / 10; z mod 10]
  else [z / 100; (z / 10) mod 10; z mod 10].

(** _raw_to_integer, activation.py:1110-1126 *)
Definition raw_to_integer (v : pyval) : res Z :=
  match v with
  | VInt n => Ok n
  | VArr xs => if last_not_bit xs then Err EType
               else int_of_digits2 (flat_map (fun x => ubyte_digits (ubyte x)) xs)
  | _ => Err EType
  end.

(** bin(n)[2:] as a list of bits, most significant first; for a negative n
    the text is "b101..." which every consumer rejects. *)
Fixpoint pos_bits (p : positive) : list bool :=
  match p with
  | xH => [true]
  | xO q => pos_bits q ++ [false]
  | xI q => pos_bits q ++ [true]
  end.
Definition bin_digits (n : Z) : res (list bool) :=
  match n with
  | Z0 => Ok [false]
  | Zpos p => Ok (pos_bits p)
  | Zneg _ => Err EValue
  end.

Definition bit (b : bool) : Z := if b then 1 else 0.

(** "0" * (length - len(s)) + s when len(s) != length, activation.py:225-226,
    1273-1274.  A negative repetition count gives the empty string. *)
Definition pad_bits (n : Z) (s : list bool) : list bool :=
  if len s =? n then s else repeat false (Z.to_nat (n - len s)) ++ s.

(** int(str(bitarray)..., 2), activation.py:237-239, 1317 *)
Definition bits_to_int (bs : list bool) : res Z := int_of_digits2 (map bit bs).

(** s[a:b] = np.ones(b - a) with Python slice normalisation and numpy
    broadcasting, activation.py:1010 *)
Definition norm_index (n i : Z) : Z := if i <? 0 then Z.max 0 (i + n) else Z.min i n.
Definition assign_ones (s : list Z) (a b : Z) : res (list Z) :=
  let n := len s in
  if b - a <? 0 then Err EValue
  else
    let la := norm_index n a in
    let lb := norm_index n b in
    let m := Z.max 0 (lb - la) in
    if (m =? b - a) || (b - a =? 1) then
      Ok (firstn (Z.to_nat la) s ++ repeat 1 (Z.to_nat m)
            ++ skipn (Z.to_nat (la + m)) s)
    else Err EValue.

(** The loop of activation.py:1005-1012.  [pv] is previous_value, [pi]
    previous_index. *)
Fixpoint decompress_loop (pv : bool) (pi : Z) (s : list Z) (idx : list Z) : res (list Z) :=
  match idx with
  | [] => Ok s
  | i :: t =>
      if pv then rbind (assign_ones s pi i) (fun s' => decompress_loop false i s' t)
      else decompress_loop true i s t
  end.

(** s[0] = 1 *)
Definition set_first (s : list Z) : res (list Z) :=
  match s with [] => Err EIndex | _ :: t => Ok (1 :: t) end.

(** activation.py:993-1013: from the list of numbers to the raw vector. *)
Definition decompress_list (c : list Z) : res (list Z) :=
  match c with
  | [] => Err EIndex
  | c0 :: rest =>
      let length := last c 0 in
      if length <? 0 then Err EValue
      else
        let zeros := repeat 0 (Z.to_nat length) in
        rbind (if c0 =? 1 then set_first zeros else Ok zeros) (fun s =>
          match rest with
          | [_] => if c0 =? 1 then Ok (repeat 1 (Z.to_nat length)) else Ok s
          | _ => decompress_loop (c0 =? 1) 0 s rest
          end)
  end.

(** * Methods of the instance *)

(** _read, activation.py:795-831.  Every caller in the package passes
    out=False, so that is the only case kept. *)
Definition read_at (p : path) : M (list Z) :=
  c <- getw (fun w => w_fs w p);;
  match c with
  | None => throw EFileNotFound
  | Some value =>
      rec_size_if_unset SRaw (VArr value) ;;;
      (n <- get a_nones;;
       match n with
       | None => upd (set_nones (Some (count_ones value)))
       | Some _ => ret tt
       end) ;;;
      (z <- getw (fun w => w_fsize w value);; upd (set_size SFile z)) ;;;
      (d <- get a_data;; rec_size SPath d) ;;;
      stamp_bump ORead ;;;
      upd (set_loaded true) ;;;
      ret value
  end.
(** _read() without a path, activation.py:807-811 *)
Definition read_self : M (list Z) :=
  f <- get a_fmt;;
  match f with
  | Some FFile =>
      d <- get a_data;;
      match d with
      | VPath p => read_at p
      | _ => throw EType
      end
  | _ => throw EValue
  end.

(** value[-1] == 0 or value[-1] == 1, or empty: the "is already raw" tests of
    activation.py:853 and 903 *)
Definition looks_raw (xs : list Z) : bool := negb (last_not_bit xs).

(** Assignment of [_nones] only if it is None. *)
Definition nones_if_unset (xs : list Z) : M unit :=
  n <- get a_nones;;
  match n with
  | None => upd (set_nones (Some (count_ones xs)))
  | Some _ => ret tt
  end.

(** _integer_to_raw(value, out=False), activation.py:833-882.  [None] is the
    call without a value; the only call with a value passes self.data or the
    constructor's integer with out=False. *)
Definition integer_to_raw (value : option pyval) : M (list Z) :=
  value <- match value with
           | Some v => ret v
           | None =>
               f <- get a_fmt;;
               match f with
               | Some FFile => xs <- read_self;; ret (VArr xs)
               | _ => get a_data
               end
           end;;
  match value with
  | VArr xs =>
      if looks_raw xs then stamp_bump OI2R ;;; ret xs else throw EType
  | VInt n =>
      bits <- lift (bin_digits n);;
      rec_size SInt value ;;;
      l <- get a_len;;
      match l with
      | None => throw EType
      | Some length =>
          if length <? len bits then throw EValue
          else
            let act_bis := repeat 0 (Z.to_nat (length - len bits)) ++ map bit bits in
            rec_size SRaw (VArr act_bis) ;;;
            stamp_bump OI2R ;;;
            nones_if_unset act_bis ;;;
            ret act_bis
      end
  | _ => throw EType
  end.

(** _bitarray_to_raw(value, out=False), activation.py:884-922 *)
Definition bitarray_to_raw (value : option pyval) : M (list Z) :=
  value <- match value with
           | Some v => ret v
           | None =>
               f <- get a_fmt;;
               match f with
               | Some FFile => xs <- read_self;; ret (VArr xs)
               | _ => get a_data
               end
           end;;
  match value with
  | VArr xs =>
      if looks_raw xs then stamp_bump OB2R ;;; ret xs else throw EType
  | VBits bs =>
      let act := map bit bs in
      rec_size_if_unset SRaw (VArr act) ;;;
      rec_size_if_unset SBits value ;;;
      stamp_bump OB2R ;;;
      ret act
  | _ => throw EType
  end.

(** _decompress(value, raw, out=False), activation.py:924-1055.  The result is
    an array (raw=True), an integer or a bitarray. *)
Definition decompress (value : option pyval) (raw : bool) : M pyval :=
  value <- match value with
           | Some v => ret v
           | None =>
               f <- get a_fmt;;
               match f with
               | Some FFile => xs <- read_self;; ret (VArr xs)
               | _ => get a_data
               end
           end;;
  let expand (c : list Z) : M pyval :=
    s <- lift (decompress_list c);;
    rec_size_if_unset SRaw (VArr s) ;;;
    stamp_bump OC2R ;;;
    nones_if_unset s ;;;
    (if raw then ret (VArr s)
     else
       wc <- getw (fun w => WILL_COMPARE (w_cfg w));;
       if wc then
         n <- lift (raw_to_integer (VArr s));;
         stamp_bump OR2I ;;;
         rec_size_if_unset SInt (VInt n) ;;;
         stamp_bump OC2I ;;;
         ret (VInt n)
       else
         b <- lift (raw_to_bitarray (VArr s));;
         stamp_bump OR2B ;;;
         rec_size_if_unset SBits (VBits b) ;;;
         stamp_bump OC2B ;;;
         ret (VBits b)) in
  match value with
  | VArr [] =>
      rec_size SRaw (VArr []) ;;; nones_if_unset [] ;;; ret (VArr [])
  | VArr xs =>
      if looks_raw xs then
        let xs' := map ubyte xs in
        rec_size SRaw (VArr xs') ;;; nones_if_unset xs' ;;; ret (VArr xs')
      else
        rec_size SCArr value ;;; expand xs
  | VStr EmptyString =>
      rec_size SRaw (VArr []) ;;; rec_size SCStr value ;;;
      nones_if_unset [] ;;; ret (VArr [])
  | VStr s =>
      c <- lift (literal_seq s);;
      rec_size SCStr value ;;; expand c
  | _ => throw EType
  end.

(** to_raw_from_any(activation, out=False), activation.py:779-793 *)
Definition to_raw_from_any (v : pyval) : M (list Z) :=
  match v with
  | VBits _ => bitarray_to_raw (Some v)
  | VInt _ => integer_to_raw (Some v)
  | VStr _ | VArr _ =>
      r <- decompress (Some v) true;;
      match r with VArr xs => ret xs | _ => throw EType end
  | _ => throw EType
  end.

(** random.randint( *arange): needs exactly two bounds. *)
Definition randint (arange : list Z) : M Z :=
  match arange with
  | [_; _] =>
      n <- getw (fun w => w_rnd w (w_clk w));; updw tick ;;; ret n
  | _ => throw EType
  end.
(** list.remove *)
Fixpoint list_remove (x : Z) (l : list Z) : res (list Z) :=
  match l with
  | [] => Err EValue
  | y :: t => if x =? y then Ok t else rbind (list_remove x t) (fun r => Ok (y :: r))
  end.

Definition e64 : Z := 10 ^ 64.

(** The search for a free name, activation.py:311-325; [attempts] counts down
    from 100.  [None] is the "return False" of line 320. *)
Fixpoint find_name (attempts : nat) (arange : list Z) (number : Z) : M (option path) :=
  c <- getw (fun w => w_fs w (PTmp number));;
  match c with
  | None => ret (Some (PTmp number))
  | Some _ =>
      match attempts with
      | O => ret None
      | S attempts' =>
          arange' <- lift (list_remove (number + 1) arange);;
          number' <- randint arange';;
          find_name attempts' arange' number'
      end
  end.

(** _write, activation.py:286-341.  Simplified: touch + open + np.save is one
    atomic step. *)
Definition write (value : list Z) : M bool :=
  let value := map ubyte value in
  rec_size SRaw (VArr value) ;;;
  upd (set_len (Some (len value))) ;;;
  upd (set_nones (Some (count_ones value))) ;;;
  let arange := [0; e64] in
  number <- randint arange;;
  lasy <- get a_lasy;;
  data <- (if lasy : bool then ret (Some (PTmp number)) else find_name 100 arange number);;
  match data with
  | None => ret false
  | Some p =>
      upd (set_data (VPath p)) ;;;
      upd (set_fmt (Some FFile)) ;;;
      updw (fun w => set_fs (fs_put p value (w_fs w)) w) ;;;
      (z <- getw (fun w => w_fsize w value);; upd (set_size SFile z)) ;;;
      rec_size SPath (VPath p) ;;;
      stamp_bump OWrite ;;;
      ret true
  end.

(** len(ast.literal_eval(compressed)) if dtype == str else len(compressed),
    activation.py:381-384, 440-443, 532-535.  literal_eval of an array is a
    ValueError. *)
Definition compressed_len (d : dtype) (c : pyval) : res Z :=
  match d, c with
  | DStr, VStr s => rmap len (literal_seq s)
  | DStr, _ => Err EValue
  | DArr, VArr xs => Ok (len xs)
  | DArr, VStr s => Ok (Z.of_nat (String.length s))
  | DArr, _ => Err EType
  end.

Definition cfmt (d : dtype) : fmt := match d with DStr => FCStr | DArr => FCArr end.

(** Recording and returning the size of the compressed form,
    activation.py:375-380, 434-439, 526-531 *)
Definition size_compressed (c : pyval) : M Z :=
  match c with
  | VStr _ => rec_size SCStr c
  | _ => rec_size SCArr c
  end ;;;
  getw (fun w => w_size w c).

(** The entropies, activation.py:381-385, 440-444, 532-536 *)
Definition set_entropies (d : dtype) (c : pyval) : M unit :=
  e <- lift (compressed_len d c);;
  upd (set_entropy (Some e)) ;;;
  q <- div_len e;;
  upd (set_relent (Some q)).

(** _init_with_bitarray, activation.py:343-397 *)
Definition init_with_bitarray (bs : list bool) : M unit :=
  d <- getw (fun w => DTYPE (w_cfg w));;
  i32 <- getw w_i32;;
  upd (set_len (Some (len bs))) ;;;
  rec_size SBits (VBits bs) ;;;
  upd (set_nones (Some (len (filter (fun b => b) bs)))) ;;;
  opt <- get a_opt;;
  if opt : bool then
    raw <- bitarray_to_raw (Some (VBits bs));;
    compressed <- lift (compress i32 (VArr raw) d);;
    stamp_bump OR2C ;;;
    stamp_bump OB2C ;;;
    sc <- size_compressed compressed;;
    set_entropies d compressed ;;;
    sb <- getw (fun w => w_size w (VBits bs));;
    if sb <? sc then
      upd (set_data (VBits bs)) ;;; upd (set_fmt (Some FBits))
    else
      upd (set_data compressed) ;;; upd (set_fmt (Some (cfmt d)))
  else
    upd (set_data (VBits bs)) ;;; upd (set_fmt (Some FBits)).

(** _init_with_integer, activation.py:399-456 *)
Definition init_with_integer (value : Z) (length : option Z) : M unit :=
  d <- getw (fun w => DTYPE (w_cfg w));;
  i32 <- getw w_i32;;
  match length with
  | None => throw EValue
  | Some _ =>
      upd (set_len length) ;;;
      rec_size SInt (VInt value) ;;;
      opt <- get a_opt;;
      if opt : bool then
        raw <- integer_to_raw (Some (VInt value));;
        upd (set_nones (Some (count_ones raw))) ;;;
        compressed <- lift (compress i32 (VArr raw) d);;
        stamp_bump OR2C ;;;
        stamp_bump OI2C ;;;
        sc <- size_compressed compressed;;
        set_entropies d compressed ;;;
        si <- getw (fun w => w_size w (VInt value));;
        if si <? sc then
          upd (set_data (VInt value)) ;;; upd (set_fmt (Some FInt))
        else
          upd (set_data compressed) ;;; upd (set_fmt (Some (cfmt d)))
      else
        upd (set_data (VInt value)) ;;; upd (set_fmt (Some FInt))
  end.

(** _init_with_str, activation.py:458-474.  Simplified: a text whose last number
    is 0 raises ZeroDivisionError (numpy gives an infinite relative entropy). *)
Definition init_with_str (s : string) : M unit :=
  l <- lift (literal_eval s);;
  upd (set_data (VStr s)) ;;;
  rec_size SCStr (VStr s) ;;;
  match l with
  | LInt _ => throw EType
  | LTuple c =>
      upd (set_entropy (Some (len c))) ;;;
      match c with
      | [] => throw EIndex
      | _ =>
          upd (set_len (Some (last c 0))) ;;;
          q <- div_len (len c);;
          upd (set_relent (Some q)) ;;;
          upd (set_fmt (Some FCStr))
      end
  end.

(** _init_with_compressed_array, activation.py:476-491 *)
Definition init_with_compressed_array (xs : list Z) : M unit :=
  upd (set_data (VArr xs)) ;;;
  rec_size SCArr (VArr xs) ;;;
  upd (set_entropy (Some (len xs))) ;;;
  upd (set_len (Some (last xs 0))) ;;;
  q <- div_len (len xs);;
  upd (set_relent (Some q)) ;;;
  upd (set_fmt (Some FCArr)).

(** _init_with_raw, activation.py:493-564 *)
Definition init_with_raw (xs : list Z) : M unit :=
  d <- getw (fun w => DTYPE (w_cfg w));;
  i32 <- getw w_i32;;
  let value := map ubyte xs in
  rec_size SRaw (VArr value) ;;;
  upd (set_len (Some (len value))) ;;;
  upd (set_nones (Some (count_ones value))) ;;;
  store_raw <- getw (fun w => STORE_RAW (w_cfg w));;
  if store_raw : bool then
    upd (set_data (VArr value)) ;;; upd (set_fmt (Some FRaw))
  else
    compressed <- lift (compress i32 (VArr value) d);;
    stamp_bump OR2C ;;;
    sc <- size_compressed compressed;;
    set_entropies d compressed ;;;
    wc <- getw (fun w => WILL_COMPARE (w_cfg w));;
    if wc : bool then
      inbit <- lift (raw_to_integer (VArr value));;
      stamp_bump OR2I ;;;
      rec_size SInt (VInt inbit) ;;;
      si <- getw (fun w => w_size w (VInt inbit));;
      if sc <? si then
        upd (set_data compressed) ;;; upd (set_fmt (Some (cfmt d)))
      else
        upd (set_fmt (Some FInt)) ;;; upd (set_data (VInt inbit))
    else
      inbit <- lift (raw_to_bitarray (VArr value));;
      stamp_bump OR2B ;;;
      rec_size SBits (VBits inbit) ;;;
      sb <- getw (fun w => w_size w (VBits inbit));;
      if sc <? sb then
        upd (set_data compressed) ;;; upd (set_fmt (Some (cfmt d)))
      else
        upd (set_fmt (Some FBits)) ;;; upd (set_data (VBits inbit)).

(** _init_with_any, activation.py:257-284.  The recursive call of line 275
    has to_file=False, so it is written out as init_with_raw. *)
Definition init_with_any (v : pyval) (length : option Z) (to_file : bool) : M unit :=
  match v with
  | VBits bs => init_with_bitarray bs
  | VInt n => init_with_integer n length
  | VStr s => init_with_str s
  | VArr xs =>
      if (0 <? len xs) && (1 <? last xs 0) then init_with_compressed_array xs
      else
        store_raw <- getw (fun w => STORE_RAW (w_cfg w));;
        if to_file && negb store_raw then
          raw <- to_raw_from_any v;;
          ok <- write raw;;
          if ok : bool then upd (set_tofile true) else init_with_raw xs
        else init_with_raw xs
  | VNone | VPath _ => throw EType
  end.

(** A fresh instance, activation.py:63-114 and 199-204. *)
Definition blank (optimize : bool) : act :=
  mkAct None None None None None VNone None optimize false false false
    (fun _ => false) (fun _ => O) (fun _ => None).

(** _reset_data_related_attributes on an existing instance *)
Definition reset (a : act) : act :=
  mkAct None None None None None VNone (a_fmt a) (a_opt a) (a_tofile a) (a_loaded a) (a_lasy a)
    (fun _ => false) (fun _ => O) (fun _ => None).

(** Lines 206-242 of __init__: conversions between int and bitarray before
    the dispatch.  The first branch compares type(activation) with the string
    "str" and is never taken. *)
Definition init_convert (v : pyval) (length : option Z) : M (pyval * option Z) :=
  wc <- getw (fun w => WILL_COMPARE (w_cfg w));;
  match v with
  | VInt n =>
      if wc : bool then ret (v, length)
      else
        match length with
        | None => throw EValue
        | Some l =>
            rec_size SInt v ;;;
            s <- lift (bin_digits n);;
            let bs := pad_bits l s in
            stamp_bump OI2B ;;;
            rec_size SBits (VBits bs) ;;;
            ret (VBits bs, length)
        end
  | VBits bs =>
      if wc : bool then
        rec_size SBits v ;;;
        upd (set_nones (Some (len (filter (fun b => b) bs)))) ;;;
        let length := match length with None => Some (len bs) | Some _ => length end in
        n <- lift (bits_to_int bs);;
        stamp_bump OB2I ;;;
        rec_size SInt (VInt n) ;;;
        ret (VInt n, length)
      else ret (v, length)
  | _ => ret (v, length)
  end.

(** __init__, activation.py:116-255, on a blank instance. *)
Definition init (v : pyval) (length : option Z) (to_file lasy : bool) : M unit :=
  vl <- init_convert v length;;
  let (v, length) := vl : pyval * option Z in
  match v with
  | VPath p =>
      if lasy then
        upd (set_lasy true) ;;; upd (set_data v) ;;; upd (set_fmt (Some FFile))
      else
        xs <- read_at p;;
        init_with_any (VArr xs) length to_file
  | _ =>
      upd (set_loaded true) ;;;
      init_with_any v length to_file
  end.

(** Activation(v, optimize, length, to_file, lasy): the new instance, or the
    exception, and the world after it. *)
Definition new (v : pyval) (optimize : bool) (length : option Z) (to_file lasy : bool)
    (w : world) : res act * world :=
  match init v length to_file lasy (blank optimize) w with
  | (Ok _, a, w') => (Ok a, w')
  | (Err e, _, w') => (Err e, w')
  end.

(** raw, activation.py:1226-1243 *)
Definition raw : M (list Z) :=
  loaded <- get a_loaded;;
  (if loaded : bool then ret tt
   else xs <- read_self;; init_with_any (VArr xs) None true) ;;;
  f <- get a_fmt;;
  match f with
  | Some FRaw =>
      d <- get a_data;;
      match d with VArr xs => ret xs | _ => throw EType end
  | Some FBits => bitarray_to_raw None
  | Some FInt => integer_to_raw None
  | Some FFile => read_self
  | Some FCStr | Some FCArr =>
      r <- decompress None true;;
      match r with VArr xs => ret xs | _ => throw EType end
  | None => throw EType
  end.

(** ones, activation.py:1131-1137 *)
Definition ones : M (list Z) := xs <- raw;; ret (where_one 0 xs).

(** nones, activation.py:1140-1150 *)
Definition nones : M Z :=
  n <- get a_nones;;
  (match n with None => raw ;;; ret tt | Some _ => ret tt end) ;;;
  c <- get a_cov;;
  (match c with
   | Some _ => ret tt
   | None =>
       n <- get a_nones;;
       match n with
       | None => throw EType
       | Some k => q <- div_len k;; upd (set_cov (Some q))
       end
   end) ;;;
  n <- get a_nones;;
  lift (opt_res EType n).

(** coverage, activation.py:1215-1221 *)
Definition coverage : M Q :=
  c <- get a_cov;;
  (match c with None => nones ;;; ret tt | Some _ => ret tt end) ;;;
  c <- get a_cov;;
  lift (opt_res EType c).

(** entropy, activation.py:1153-1203 *)
Definition entropy : M Z :=
  e <- get a_entropy;;
  (match e with
   | Some _ => ret tt
   | None =>
       i32 <- getw w_i32;;
       f <- get a_fmt;;
       compressed <- match f with
         | Some FFile =>
             xs <- read_self;;
             c <- lift (compress i32 (VArr xs) DStr);; stamp_bump OR2C ;;; ret c
         | Some FBits =>
             d <- get a_data;;
             xs <- bitarray_to_raw (Some d);;
             c <- lift (compress i32 (VArr xs) DStr);; stamp_bump OB2C ;;; ret c
         | Some FInt =>
             d <- get a_data;;
             xs <- integer_to_raw (Some d);;
             c <- lift (compress i32 (VArr xs) DStr);; stamp_bump OI2C ;;; ret c
         | Some FRaw =>
             d <- get a_data;;
             c <- lift (compress i32 d DStr);; stamp_bump OR2C ;;; ret c
         | _ => throw EValue
         end;;
       n <- lift (compressed_len DStr compressed);;
       upd (set_entropy (Some n))
   end) ;;;
  r <- get a_relent;;
  e <- get a_entropy;;
  (match r with
   | Some _ => ret tt
   | None =>
       n <- lift (opt_res EType e);;
       q <- div_len n;;
       upd (set_relent (Some q))
   end) ;;;
  lift (opt_res EType e).

(** rel_entropy, activation.py:1206-1212 *)
Definition rel_entropy : M Q :=
  r <- get a_relent;;
  (match r with None => entropy ;;; ret tt | Some _ => ret tt end) ;;;
  r <- get a_relent;;
  lift (opt_res EType r).

(** __len__, activation.py:754-756: len() of None raises TypeError *)
Definition length_of : M Z := l <- get a_len;; lift (opt_res EType l).

(** as_bitarray, activation.py:1246-1288 *)
Definition as_bitarray : M pyval :=
  f <- get a_fmt;;
  match f with
  | Some FFile =>
      xs <- read_self;;
      b <- lift (raw_to_bitarray (VArr xs));;
      stamp_bump OR2B ;;;
      rec_size_if_unset SBits (VBits b) ;;;
      ret (VBits b)
  | Some FRaw =>
      d <- get a_data;;
      b <- lift (raw_to_bitarray d);;
      stamp_bump OR2B ;;;
      rec_size_if_unset SBits (VBits b) ;;;
      ret (VBits b)
  | Some FBits => get a_data
  | Some FInt =>
      d <- get a_data;;
      match d with
      | VInt n =>
          s <- lift (bin_digits n);;
          l <- get a_len;;
          match l with
          | None => throw EType
          | Some l =>
              let b := pad_bits l s in
              stamp_bump OI2B ;;;
              rec_size_if_unset SBits (VBits b) ;;;
              ret (VBits b)
          end
      | _ => throw EType
      end
  | Some FCStr | Some FCArr =>
      wc <- getw (fun w => WILL_COMPARE (w_cfg w));;
      set_will_compare false ;;;
      to_ret <- decompress None false;;
      set_will_compare wc ;;;
      ret to_ret
  | None => throw EType
  end.

(** as_integer, activation.py:1291-1329 *)
Definition as_integer : M pyval :=
  f <- get a_fmt;;
  match f with
  | Some FFile =>
      xs <- read_self;;
      n <- lift (raw_to_integer (VArr xs));;
      stamp_bump OR2I ;;;
      rec_size_if_unset SInt (VInt n) ;;;
      ret (VInt n)
  | Some FRaw =>
      d <- get a_data;;
      n <- lift (raw_to_integer d);;
      stamp_bump OR2I ;;;
      rec_size_if_unset SInt (VInt n) ;;;
      ret (VInt n)
  | Some FInt => get a_data
  | Some FBits =>
      d <- get a_data;;
      match d with
      | VBits bs =>
          n <- lift (bits_to_int bs);;
          stamp_bump OB2I ;;;
          rec_size SInt (VInt n) ;;;
          ret (VInt n)
      | _ => throw EValue
      end
  | Some FCStr | Some FCArr =>
      wc <- getw (fun w => WILL_COMPARE (w_cfg w));;
      set_will_compare true ;;;
      to_ret <- decompress None false;;
      set_will_compare wc ;;;
      ret to_ret
  | None => throw EType
  end.

(** The last lines of as_compressed_array / as_compressed_str,
    activation.py:1387-1390, 1441-1444: _entropy is always overwritten. *)
Definition note_entropy (e : res Z) : M unit :=
  n <- lift e;;
  upd (set_entropy (Some n)) ;;;
  r <- get a_relent;;
  match r with
  | Some _ => ret tt
  | None => q <- div_len n;; upd (set_relent (Some q))
  end.

(** as_compressed_array, activation.py:1338-1390 *)
Definition as_compressed_array : M pyval :=
  i32 <- getw w_i32;;
  f <- get a_fmt;;
  to_ret <- match f with
    | Some FRaw =>
        d <- get a_data;;
        c <- lift (compress i32 d DArr);;
        stamp_bump OR2C ;;; rec_size_if_unset SCArr c ;;; ret c
    | Some FCArr =>
        d <- get a_data;;
        rec_size_if_unset SCArr d ;;; ret d
    | Some FCStr =>
        d <- get a_data;;
        match d with
        | VStr s =>
            c <- lift (literal_seq s);;
            rec_size_if_unset SCArr (VArr c) ;;; ret (VArr c)
        | _ => throw EValue
        end
    | Some FInt =>
        xs <- raw;;
        c <- lift (compress i32 (VArr xs) DArr);;
        stamp_bump OR2C ;;; stamp_bump OI2C ;;;
        rec_size_if_unset SCArr c ;;; ret c
    | Some FBits =>
        xs <- raw;;
        c <- lift (compress i32 (VArr xs) DArr);;
        stamp_bump OR2C ;;; stamp_bump OB2C ;;;
        rec_size_if_unset SCArr c ;;; ret c
    | Some FFile =>
        xs <- read_self;;
        c <- lift (compress i32 (VArr xs) DArr);;
        stamp_bump OR2C ;;; ret c
    | None => throw EValue
    end;;
  note_entropy (compressed_len DArr to_ret) ;;;
  ret to_ret.

(** as_compressed_str (= as_compressed), activation.py:1332-1335, 1393-1444 *)
Definition as_compressed_str : M pyval :=
  i32 <- getw w_i32;;
  f <- get a_fmt;;
  to_ret <- match f with
    | Some FRaw =>
        d <- get a_data;;
        c <- lift (compress i32 d DStr);;
        stamp_bump OR2C ;;; rec_size_if_unset SCStr c ;;; ret c
    | Some FCStr =>
        d <- get a_data;;
        rec_size_if_unset SCStr d ;;; ret d
    | Some FCArr =>
        d <- get a_data;;
        match d with
        | VArr xs =>
            let s := VStr (join_ints xs) in
            rec_size_if_unset SCStr s ;;; ret s
        | _ => throw EAttr
        end
    | Some FInt =>
        xs <- raw;;
        c <- lift (compress i32 (VArr xs) DStr);;
        stamp_bump OR2C ;;; stamp_bump OI2C ;;;
        rec_size_if_unset SCStr c ;;; ret c
    | Some FBits =>
        xs <- raw;;
        c <- lift (compress i32 (VArr xs) DStr);;
        stamp_bump OR2C ;;; stamp_bump OB2C ;;;
        rec_size_if_unset SCStr c ;;; ret c
    | Some FFile =>
        xs <- read_self;;
        c <- lift (compress i32 (VArr xs) DStr);;
        stamp_bump OR2C ;;; ret c
    | None => throw EValue
    end;;
  note_entropy (compressed_len DStr to_ret) ;;;
  ret to_ret.

(** clear, activation.py:738-742 *)
Definition clear : M unit :=
  l <- get a_len;;
  match l with
  | None => throw EType
  | Some n =>
      if n <? 0 then throw EValue
      else upd reset ;;; init_with_raw (repeat 0 (Z.to_nat n))
  end.

(** delete, activation.py:744-752 *)
Definition delete : M unit :=
  f <- get a_fmt;;
  match f with
  | Some FFile =>
      d <- get a_data;;
      match d with
      | VPath p => updw (fun w => set_fs (fs_del p (w_fs w)) w)
      | _ => throw EAttr
      end
  | _ => upd (set_data VNone)
  end.

(** clean_files, activation.py:53-59.  [dir]: DEFAULT_TEMPDIR is a directory;
    [matches s]: the path [s] is that of a file in it whose name matches the
    pattern (the names of [PTmp] do). *)
Definition clean_files (dir : bool) (matches : string -> bool) (w : world) : world :=
  if negb dir then w
  else set_fs (fun p =>
         match p with
         | PTmp _ => None
         | PUser s => if matches s then None else w_fs w p
         end) w.

(** * Profiling accessors, activation.py:1446-1735 *)

Definition force_stat : M bool := getw (fun w => FORCE_STAT (w_cfg w)).

(** data = self.data; fmt = self.data_format; ...; self.data = data;
    self.data_format = fmt.  Not restored when the body raises. *)
Definition with_saved_data (body : M unit) : M unit :=
  d <- get a_data;;
  f <- get a_fmt;;
  body ;;;
  upd (set_data d) ;;; upd (set_fmt f).

(** self.data.unlink() *)
Definition unlink_data : M unit :=
  d <- get a_data;;
  match d with
  | VPath p =>
      c <- getw (fun w => w_fs w p);;
      match c with
      | Some _ => updw (fun w => set_fs (fs_del p (w_fs w)) w)
      | None => throw EFileNotFound
      end
  | _ => throw EAttr
  end.

Definition write_then_unlink : M unit :=
  with_saved_data (xs <- raw;; write xs ;;; unlink_data).

(** sizeof_path and sizeof_file (1447-1472), then sizeof_raw ... (1475-1517) *)
Definition sizeof_ (s : szk) : M (option Z) :=
  c <- get (fun a => a_size a s);;
  fs <- force_stat;;
  (match c with
   | Some _ => ret tt
   | None =>
       if fs : bool then
         match s with
         | SPath | SFile => write_then_unlink
         | SRaw => raw ;;; ret tt
         | SBits => as_bitarray ;;; ret tt
         | SInt => as_integer ;;; ret tt
         | SCArr => as_compressed_array ;;; ret tt
         | SCStr => as_compressed_str ;;; ret tt
         end
       else ret tt
   end) ;;;
  get (fun a => a_size a s).

(** self.data = self.<accessor>; self.data_format = fmt *)
Definition use_raw : M unit :=
  xs <- raw;; upd (set_data (VArr xs)) ;;; upd (set_fmt (Some FRaw)).
Definition use_bits : M unit :=
  d <- as_bitarray;; upd (set_data d) ;;; upd (set_fmt (Some FBits)).
Definition use_int : M unit :=
  d <- as_integer;; upd (set_data d) ;;; upd (set_fmt (Some FInt)).
Definition use_compressed : M unit :=
  d <- as_compressed_str;; upd (set_data d) ;;;
  upd (set_fmt (Some (match d with VStr _ => FCStr | _ => FCArr end))).

(** time_* accessors (1520-1735); the returned value is whether the time is
    set. *)
Definition time_ (o : op) : M bool :=
  t <- get (fun a => a_time a o);;
  fs <- force_stat;;
  (if negb t && fs then
     match o with
     | OWrite => write_then_unlink
     | ORead =>
         with_saved_data
           (xs <- raw;; write xs ;;;
            (d <- get a_data;;
             match d with VPath p => read_at p ;;; ret tt | _ => throw EType end) ;;;
            unlink_data)
     | OR2C => with_saved_data (use_raw ;;; as_compressed_str ;;; ret tt)
     | OR2I => with_saved_data (use_raw ;;; as_integer ;;; ret tt)
     | OR2B => with_saved_data (use_raw ;;; as_bitarray ;;; ret tt)
     | OC2R => with_saved_data (use_compressed ;;; raw ;;; ret tt)
     | OB2R => with_saved_data (use_bits ;;; raw ;;; ret tt)
     | OI2R => with_saved_data (use_int ;;; raw ;;; ret tt)
     | OC2B => with_saved_data (use_compressed ;;; as_bitarray ;;; ret tt)
     | OB2C => with_saved_data (use_bits ;;; as_compressed_str ;;; ret tt)
     | OI2C => with_saved_data (use_int ;;; as_compressed_str ;;; ret tt)
     | OB2I => with_saved_data (use_bits ;;; as_integer ;;; ret tt)
     | OI2B => with_saved_data (use_int ;;; as_bitarray ;;; ret tt)
     | OC2I => with_saved_data (use_compressed ;;; as_integer ;;; ret tt)
     end
   else ret tt) ;;;
  get (fun a => a_time a o).

(** * Operators *)

(** Element-wise operation of two numpy arrays with broadcasting of a length
    one operand; other length mismatches are a ValueError. *)
Fixpoint zipw {A B C} (f : A -> B -> C) (xs : list A) (ys : list B) : list C :=
  match xs, ys with
  | x :: xs', y :: ys' => f x y :: zipw f xs' ys'
  | _, _ => []
  end.
Definition np_zip (f : Z -> Z -> Z) (xs ys : list Z) : res (list Z) :=
  if len xs =? len ys then Ok (zipw f xs ys)
  else match xs, ys with
       | [x], _ => Ok (map (f x) ys)
       | _, [y] => Ok (map (fun x => f x y) xs)
       | _, _ => Err EValue
       end.

(** The three operators: on bitarrays, on integers, on unsigned bytes. *)
Inductive lop := LAnd | LOr | LXor.
Definition lop_bool (o : lop) (x y : bool) : bool :=
  match o with LAnd => x && y | LOr => x || y | LXor => xorb x y end.
Definition lop_int (o : lop) (x y : Z) : Z :=
  match o with LAnd => Z.land x y | LOr => Z.lor x y | LXor => Z.lxor x y end.
(** self.raw * a2.raw (580), self.raw | a2.raw (640), self.raw ^ a2.raw (701) *)
Definition lop_ubyte (o : lop) (x y : Z) : Z :=
  match o with
  | LAnd => ubyte (x * y)
  | LOr => Z.lor x y
  | LXor => Z.lxor x y
  end.

(** Python's == of two lengths (None == None is True). *)
Definition len_eqb (x y : option Z) : bool :=
  match x, y with
  | Some a, Some b => a =? b
  | None, None => true
  | _, _ => false
  end.

Definition fmt_eqb (f g : option fmt) : bool :=
  match f, g with
  | Some FRaw, Some FRaw | Some FBits, Some FBits | Some FInt, Some FInt
  | Some FCStr, Some FCStr | Some FCArr, Some FCArr | Some FFile, Some FFile => true
  | None, None => true
  | _, _ => false
  end.
Definition is_fmt (f : fmt) (a : act) : bool := fmt_eqb (a_fmt a) (Some f).

(** Result of a method of two instances. *)
Definition R2 (A : Type) : Type := res A * act * act * world.

(** __and__, __or__, __xor__: activation.py:568-583, 628-643, 689-704.
    Simplified: the two operands are separate records, so [a & a] is modelled
    as the operation of two equal instances. *)
Definition binop (o : lop) (a1 a2 : act) (w : world) : R2 act :=
  if negb (len_eqb (a_len a1) (a_len a2)) then (Err EValue, a1, a2, w)
  else if (is_fmt FBits a1 && is_fmt FBits a2) || (is_fmt FInt a1 && is_fmt FInt a2) then
    match a_data a1, a_data a2 with
    | VBits b1, VBits b2 =>
        if len b1 =? len b2 then
          let (r, w') := new (VBits (zipw (lop_bool o) b1 b2)) (a_opt a1 && a_opt a2) None false false w in
          (r, a1, a2, w')
        else (Err EValue, a1, a2, w)
    | VInt n1, VInt n2 =>
        let (r, w') := new (VInt (lop_int o n1 n2)) (a_opt a1 && a_opt a2) None false false w in
        (r, a1, a2, w')
    | _, _ => (Err EType, a1, a2, w)
    end
  else
    match raw a1 w with
    | (Err e, a1', w1) => (Err e, a1', a2, w1)
    | (Ok x1, a1', w1) =>
        match raw a2 w1 with
        | (Err e, a2', w2) => (Err e, a1', a2', w2)
        | (Ok x2, a2', w2) =>
            match np_zip (lop_ubyte o) x1 x2 with
            | Err e => (Err e, a1', a2', w2)
            | Ok x =>
                let (r, w3) := new (VArr x) (a_opt a1' && a_opt a2') None
                                 (is_fmt FFile a1' && is_fmt FFile a2') false w2 in
                (r, a1', a2', w3)
            end
        end
    end.

(** __add__, activation.py:723-725: Python's [or] returns its first operand
    when it is true, i.e. when its len() is not 0. *)
Definition add (a1 a2 : act) : res act :=
  match a_len a1 with
  | None => Err EType
  | Some n => if n =? 0 then Ok a2 else Ok a1
  end.

(** __sub__, activation.py:727-729 *)
Definition sub (a1 a2 : act) (w : world) : R2 act :=
  match binop LXor a1 a2 w with
  | (Err e, a1', a2', w') => (Err e, a1', a2', w')
  | (Ok x, a1', a2', w') =>
      match binop LAnd x a1' w' with
      | (r, _, a1'', w'') => (r, a1'', a2', w'')
      end
  end.

(** __contains__, activation.py:758-764: [other in self].  Returns also the
    two instances, whose caches may have been filled. *)
Definition contains (self other : act) (w : world) : R2 bool :=
  match binop LAnd self other w with
  | (Err e, s', o', w') => (Err e, s', o', w')
  | (Ok i, s', o', w') =>
      match nones i w' with
      | (Err e, _, w1) => (Err e, s', o', w1)
      | (Ok ni, i', w1) =>
          match delete i' w1 with
          | (Err e, _, w2) => (Err e, s', o', w2)
          | (Ok _, _, w2) =>
              match nones s' w2 with
              | (Err e, s'', w3) => (Err e, s'', o', w3)
              | (Ok ns, s'', w3) =>
                  match nones o' w3 with
                  | (Err e, o'', w4) => (Err e, s'', o'', w4)
                  | (Ok no, o'', w4) =>
                      (* min(self.nones, other.nones) *)
                      (Ok (negb (ni <? (if no <? ns then no else ns))), s'', o'', w4)
                  end
              end
          end
      end
  end.

(** get_correlation, activation.py:766-775 *)
Definition get_correlation (self other : act) (w : world) : R2 Q :=
  match a_len self, a_len other with
  | Some n1, Some n2 =>
      if negb (n1 =? n2) then (Err EValue, self, other, w)
      else
        match raw self w with
        | (Err e, s', w1) => (Err e, s', other, w1)
        | (Ok x1, s', w1) =>
            match raw other w1 with
            | (Err e, o', w2) => (Err e, s', o', w2)
            | (Ok x2, o', w2) =>
                (rbind (np_zip (fun x y => if x =? y then 1 else 0) x1 x2)
                       (fun eqs => pydiv (count_ones eqs) n1), s', o', w2)
            end
        end
  | _, _ => (Err EType, self, other, w)
  end.

(** __copy__, activation.py:733-736 *)
Definition copy (a : act) (w : world) : res act * world :=
  if is_fmt FInt a then new (a_data a) (a_opt a) (a_len a) true false w
  else new (a_data a) (a_opt a) None (is_fmt FFile a) false w.

(** * Operators over many vectors, activation.py:585-721 *)

(** [a.raw for a in acs] *)
Fixpoint raws (acs : list act) (w : world) : res (list (list Z)) * list act * world :=
  match acs with
  | [] => (Ok [], [], w)
  | a :: t =>
      match raw a w with
      | (Err e, a', w') => (Err e, a' :: t, w')
      | (Ok x, a', w') =>
          match raws t w' with
          | (Err e, t', w'') => (Err e, a' :: t', w'')
          | (Ok xs, t', w'') => (Ok (x :: xs), a' :: t', w'')
          end
      end
  end.

Inductive mop := MAll | MAny.
(** .all(axis=0) / .any(axis=0) of one column, as 0/1 *)
Definition col (o : mop) (xs : list Z) : Z :=
  match o with
  | MAll => bit (forallb (fun x => negb (x =? 0)) xs)
  | MAny => bit (existsb (fun x => negb (x =? 0)) xs)
  end.
(** np.vstack(rows).all(axis=0): rows of different lengths are a ValueError *)
Fixpoint columns (n : nat) (rows : list (list Z)) : list (list Z) :=
  match n with
  | O => []
  | S n' => map (hd 0) rows :: columns n' (map (@tl Z) rows)
  end.
Definition vstack_reduce (o : mop) (rows : list (list Z)) : res (list Z) :=
  match rows with
  | [] => Err EValue
  | r :: t =>
      if forallb (fun x => Nat.eqb (List.length x) (List.length r)) t
      then Ok (map (col o) (columns (List.length r) rows))
      else Err EValue
  end.

(** res = acs[0].raw; for a in acs[1:]: res = vstack([res, a.raw])... *)
Fixpoint pairwise (o : mop) (r : list Z) (acs : list act) (w : world)
  : res (list Z) * list act * world :=
  match acs with
  | [] => (Ok r, [], w)
  | a :: t =>
      match raw a w with
      | (Err e, a', w') => (Err e, a' :: t, w')
      | (Ok x, a', w') =>
          match vstack_reduce o [r; x] with
          | Err e => (Err e, a' :: t, w')
          | Ok r' =>
              match pairwise o r' t w' with
              | (z, t', w'') => (z, a' :: t', w'')
              end
          end
      end
  end.
Definition by_pairs (o : mop) (acs : list act) (w : world) : res (list Z) * list act * world :=
  match acs with
  | [] => (Err EIndex, [], w)
  | a :: t =>
      match raw a w with
      | (Err e, a', w') => (Err e, a' :: t, w')
      | (Ok r, a', w') =>
          match pairwise o r t w' with
          | (z, t', w'') => (z, a' :: t', w'')
          end
      end
  end.

(** The array computed by multi_logical_and / multi_logical_or.  Memory is in
    bytes; the factor 1.1 is 11/10.  Simplified: a MemoryError can only come
    from the big vstack (oracle [w_oom]). *)
Definition multi_array (o : mop) (acs : list act) (w : world)
  : res (list Z) * list act * world :=
  match acs with
  | [] => (Err EIndex, [], w)
  | a0 :: t =>
      let available := w_mem w (w_clk w) in
      match raw a0 (tick w) with
      | (Err e, a0', w') => (Err e, a0' :: t, w')
      | (Ok _, a0', w') =>
          let single := available - w_mem w' (w_clk w') in
          let w1 := tick w' in
          let acs1 := a0' :: t in
          if available <? 2 * single then (Err EMemory, acs1, w1)
          else if 10 * available <? single * len acs * NCPUS (w_cfg w1) * 11 then
            by_pairs o acs1 w1
          else
            match raws acs1 w1 with
            | (Err e, acs2, w2) => (Err e, acs2, w2)
            | (Ok rows, acs2, w2) =>
                if w_oom w2 (w_clk w2) then by_pairs o acs2 w2
                else (vstack_reduce o rows, acs2, w2)
            end
      end
  end.

(** Wrapping of the result, activation.py:620-626, 681-687 *)
Definition wrap_multi (r : res (list Z)) (acs : list act) (w : world)
  : res act * list act * world :=
  match r with
  | Err e => (Err e, acs, w)
  | Ok x =>
      let (z, w') := new (VArr x) (forallb a_opt acs) None (forallb (is_fmt FFile) acs) false w in
      (z, acs, w')
  end.

Definition multi_logical (o : mop) (acs : list act) (w : world) : res act * list act * world :=
  match multi_array o acs w with (r, acs', w') => wrap_multi r acs' w' end.

(** multi_logical_xor, activation.py:707-721; the arithmetic is on ubyte *)
Definition multi_xor_array (acs : list act) (w : world) : res (list Z) * list act * world :=
  match multi_array MAny acs w with
  | (Err e, acs', w') => (Err e, acs', w')
  | (Ok lor, acs', w') =>
      match multi_array MAll acs' w' with
      | (Err e, acs'', w'') => (Err e, acs'', w'')
      | (Ok land, acs'', w'') =>
          let nland := map (fun x => ubyte (- ubyte (x - 1))) land in
          (np_zip Z.land lor nland, acs'', w'')
      end
  end.
Definition multi_logical_xor (acs : list act) (w : world) : res act * list act * world :=
  match acs with
  | [a] =>
      match raw a w with
      | (Err e, a', w') => (Err e, [a'], w')
      | (Ok x, a', w') =>
          let (z, w'') := new (VArr x) (a_opt a') None (is_fmt FFile a') false w' in
          (z, [a'], w'')
      end
  | _ => match multi_xor_array acs w with (r, acs', w') => wrap_multi r acs' w' end
  end.

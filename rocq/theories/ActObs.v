(** Vocabulary of the statements about activations: what a user can call, what
    the answers should be, and which activations a user can hold.  Only
    definitions. *)
From Coq Require Import ZArith QArith Bool String List.
From Verif Require Import Base ActModel ActSpec.
Import ListNotations.
Open Scope Z_scope.

(** The reading attributes of an activation. *)
Inductive attr :=
| ARaw | AOnes | ANones | ACoverage | AEntropy | ARelEntropy | ALen
| ABits | AInt | ACStr | ACArr.

(** What an attribute can return. *)
Inductive obs := OVal (v : pyval) | ONum (z : Z) | OFrac (q : Q).

(** Reading an attribute in the model. *)
Definition call (x : attr) : M obs :=
  match x with
  | ARaw => r <- raw;; ret (OVal (VArr r))
  | AOnes => r <- ones;; ret (OVal (VArr r))
  | ANones => r <- nones;; ret (ONum r)
  | ACoverage => r <- coverage;; ret (OFrac r)
  | AEntropy => r <- entropy;; ret (ONum r)
  | ARelEntropy => r <- rel_entropy;; ret (OFrac r)
  | ALen => r <- length_of;; ret (ONum r)
  | ABits => r <- as_bitarray;; ret (OVal r)
  | AInt => r <- as_integer;; ret (OVal r)
  | ACStr => r <- as_compressed_str;; ret (OVal r)
  | ACArr => r <- as_compressed_array;; ret (OVal r)
  end.

(** What it should return for the vector [v]. *)
Definition view (x : attr) (v : vec) : obs :=
  match x with
  | ARaw => OVal (VArr (as_01 v))
  | AOnes => OVal (VArr (positions v))
  | ANones => ONum (n_ones v)
  | ACoverage => OFrac (fraction (n_ones v) (size v))
  | AEntropy => ONum (Z.of_nat (List.length (switches v)) + 2)
  | ARelEntropy => OFrac (fraction (Z.of_nat (List.length (switches v)) + 2) (size v))
  | ALen => ONum (size v)
  | ABits => OVal (VBits v)
  | AInt => OVal (VInt (binary v))
  | ACStr => OVal (VStr (run_text v))
  | ACArr => OVal (VArr (run_lengths v))
  end.

(** Reading histories: attributes read, and class settings assigned, in any
    order.  An exception is caught by the user and the history goes on. *)
Inductive event := Read (x : attr) | Settings (c : cfg).

Fixpoint run (h : list event) (a : act) (w : world) : list (res obs) * act * world :=
  match h with
  | [] => ([], a, w)
  | Settings c :: t => run t a (set_cfg c w)
  | Read x :: t =>
      match call x a w with
      | (r, a', w') => match run t a' w' with (rs, a'', w'') => (r :: rs, a'', w'') end
      end
  end.

Fixpoint expected (h : list event) (v : vec) : list (res obs) :=
  match h with
  | [] => []
  | Settings _ :: t => expected t v
  | Read x :: t => Ok (view x v) :: expected t v
  end.

(** [a] answers like [v], now and in every later reading history, and reading
    changes no file. *)
Definition shows (w : world) (a : act) (v : vec) : Prop :=
  forall h, match run h a w with
            | (outs, _, w') => outs = expected h v /\ forall p, w_fs w' p = w_fs w p
            end.

(** numpy: a number in the int32 range is cast to itself. *)
Definition int32_cast (i32 : Z -> option Z) : Prop :=
  forall z, - 2 ^ 31 <= z < 2 ^ 31 -> i32 z = Some z.

(** Constructor arguments that stand for [v]. *)
Inductive denotes (w : world) (v : vec) : pyval -> option Z -> Prop :=
| den_raw l : denotes w v (VArr (as_01 v)) l
| den_bits l : l = None \/ l = Some (size v) -> denotes w v (VBits v) l
| den_int : denotes w v (VInt (binary v)) (Some (size v))
| den_text l : denotes w v (VStr (run_text v)) l
| den_runs l : 2 <= size v -> denotes w v (VArr (run_lengths v)) l
| den_file p l : w_fs w p = Some (as_01 v) -> denotes w v (VPath p) l.

(** The class settings can store [v] without loss: with DTYPE = np.ndarray,
    not of length 1, nor of a length between 2^31 and 2^32. *)
Definition cfg_fits (c : cfg) (v : vec) : Prop :=
  DTYPE c = DArr -> 2 <= size v /\ fits_compressed_array v.

(** The file name that would be drawn next. *)
Definition next_name (w : world) : path := PTmp (w_rnd w (w_clk w)).

(** The constructor writes a file. *)
Definition writes (w : world) (src : pyval) (to_file : bool) : bool :=
  match src with
  | VArr xs => negb (1 <? last xs 0)
  | VPath _ => true
  | _ => false
  end && to_file && negb (STORE_RAW (w_cfg w)).

(** World [w'] has all files of [w], unchanged. *)
Definition keeps_files (w w' : world) : Prop :=
  forall p c, w_fs w p = Some c -> w_fs w' p = Some c.

(** The file an activation keeps its data in, if any; [keeps_own a w w']: that
    file is the same in both worlds, whatever happened to the others. *)
Definition own_file (a : act) : option path :=
  match a_fmt a, a_data a with
  | Some FFile, VPath p => Some p
  | _, _ => None
  end.
Definition keeps_own (a : act) (w w' : world) : Prop :=
  forall p, own_file a = Some p -> w_fs w' p = w_fs w p.

(** The file of the activation, if it has one, is not removed. *)
Definition spared (matches : string -> bool) (a : act) : Prop :=
  a_fmt a = Some FFile -> exists s, a_data a = VPath (PUser s) /\ matches s = false.

(** Profiling attributes: sizes and conversion times. *)
Inductive profile := PSize (s : szk) | PTime (o : op).
Definition measure (x : profile) : M unit :=
  match x with
  | PSize s => sizeof_ s ;;; ret tt
  | PTime o => time_ o ;;; ret tt
  end.

(** Activations a user can hold, with the vector they stand for: constructed,
    lazily loaded and read, then read, measured, cleared, while the rest of the
    world (settings, other files, memory) changes arbitrarily. *)
Inductive obtained : world -> act -> vec -> Prop :=
| ob_new w v src l opt to_file a w' :
    int32_cast (w_i32 w) -> v <> [] -> fits_compressed_array v ->
    denotes w v src l ->
    cfg_fits (w_cfg w) v ->
    (writes w src to_file = true -> w_fs w (next_name w) = None) ->
    new src opt l to_file false w = (Ok a, w') ->
    obtained w' a v
| ob_read w v a x r a' w' :
    obtained w a v -> call x a w = (r, a', w') -> obtained w' a' v
| ob_world w v a w' :
    obtained w a v -> keeps_own a w w' -> int32_cast (w_i32 w') -> obtained w' a v
| ob_clear w v a a' w' :
    obtained w a v -> cfg_fits (w_cfg w) v -> clear a w = (Ok tt, a', w') ->
    obtained w' a' (map (fun _ => false) v)
| ob_measure w v a x r a' w' :
    obtained w a v -> w_fs w (next_name w) = None -> measure x a w = (r, a', w') ->
    obtained w' a' v
| ob_lazy w0 w v p opt l to_file a w1 x a' w' :
    new (VPath p) opt l to_file true w0 = (Ok a, w1) ->
    int32_cast (w_i32 w) -> v <> [] -> fits_compressed_array v ->
    w_fs w p = Some (as_01 v) ->
    (STORE_RAW (w_cfg w) = false -> w_fs w (next_name w) = None) ->
    raw a w = (Ok x, a', w') ->
    obtained w' a' v.

(** Do two operands make a result on disk? *)
Definition both_files (w : world) (a1 a2 : act) : bool :=
  is_fmt FFile a1 && is_fmt FFile a2 && negb (STORE_RAW (w_cfg w)).
(** The k next names are free and distinct. *)
Definition fresh_names (k : nat) (w : world) : Prop :=
  (forall i, (i < k)%nat -> w_fs w (PTmp (w_rnd w (w_clk w + i)%nat)) = None) /\
  (forall i j, (i < j < k)%nat -> w_rnd w (w_clk w + i)%nat <> w_rnd w (w_clk w + j)%nat).
(** No operand pair of integer-stored activations in [a1 - a2]. *)
Definition sub_safe (w : world) (a1 a2 : act) : Prop :=
  a_fmt a1 = Some FInt -> a_fmt a2 <> Some FInt /\ WILL_COMPARE (w_cfg w) = false.
(** A list of activations a user holds. *)
Definition held (w : world) (acs : list act) (vs : list vec) : Prop := Forall2 (obtained w) acs vs.
(** The explicit "not enough memory" test: the first two readings. *)
Definition memory_exhausted (w : world) : Prop :=
  w_mem w (w_clk w) < 2 * (w_mem w (w_clk w) - w_mem w (S (w_clk w))).
(** Free names for a result drawn after [k] memory readings. *)
Definition name_free_after (k : nat) (w : world) : Prop :=
  w_fs w (PTmp (w_rnd w (k + w_clk w)%nat)) = None.
(** All of them are stored on disk. *)
Definition all_files (acs : list act) : bool := forallb (is_fmt FFile) acs.

(** How the constructor keeps a vector in memory: raw with STORE_RAW, else the
    smaller of the compressed form and the bitarray (the integer with
    WILL_COMPARE).  A raw or saved vector is compressed only if that is
    strictly smaller; a bitarray or an integer is kept, with [optimize], only if
    it is strictly smaller than its compressed form. *)
Definition plain_form (c : cfg) (v : vec) : fmt * pyval :=
  if WILL_COMPARE c then (FInt, VInt (binary v)) else (FBits, VBits v).
Definition short_form (c : cfg) (v : vec) : fmt * pyval :=
  match DTYPE c with DStr => (FCStr, VStr (run_text v)) | DArr => (FCArr, VArr (run_lengths v)) end.
Definition chosen (w : world) (v : vec) (src : pyval) (optimize : bool) : fmt * pyval :=
  let plain := plain_form (w_cfg w) v in
  let short := short_form (w_cfg w) v in
  let raw := if STORE_RAW (w_cfg w) then (FRaw, VArr (as_01 v))
             else if w_size w (snd short) <? w_size w (snd plain) then short else plain in
  match src with
  | VStr s => (FCStr, VStr s)
  | VBits _ | VInt _ =>
      if optimize then if w_size w (snd plain) <? w_size w (snd short) then plain else short else plain
  | VArr xs => if 1 <? last xs 0 then (FCArr, VArr xs) else raw
  | _ => raw
  end.

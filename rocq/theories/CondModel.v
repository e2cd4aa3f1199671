(** Model of ruleskit/condition.py (class HyperrectangleCondition and its base
    class Condition).

    Lists are values here: the model does not show that a condition keeps a
    reference to the caller's lists (lines 38, 169-172). *)
From Coq Require Import List ZArith QArith Bool String Ascii DecimalString.
From Coq Require Import Decimal DecimalZ.
From Coq Require Import List.
From Verif Require Import Base Num.
Import ListNotations.
Open Scope Z_scope.

(** ** Arguments *)

(** Elements of the lists given by the caller.  Numpy scalars are identified
    with the Python ones. *)
Inductive item :=
| AInt (z : Z)
| ABool (b : bool)
| AFloat (x : num)
| AStr (s : string).

(** [np.issubdtype(type(a), np.integer)]: true of int, false of bool, float, str. *)
Definition is_integer (a : item) : bool :=
  match a with AInt _ => true | _ => false end.

(** [isinstance(a, Number)]: true of int, bool and float. *)
Definition is_number (a : item) : bool :=
  match a with AStr _ => false | _ => true end.

(** [isinstance(a, str)] *)
Definition is_string (a : item) : bool :=
  match a with AStr _ => true | _ => false end.

Definition the_int (a : item) : Z :=
  match a with AInt z => z | _ => 0 end.

Definition the_num (a : item) : num :=
  match a with
  | AInt z => numz z
  | ABool b => numz (if b then 1 else 0)
  | AFloat x => x
  | AStr _ => NaN
  end.

Definition the_str (a : item) : string :=
  match a with AStr s => s | _ => EmptyString end.

(** ** The object *)

(** Attributes _features_indexes, _bmins, _bmaxs, _features_names (None for an
    empty condition) and impossible. *)
Record cond := mkCond {
  c_idx : option (list Z);
  c_min : option (list num);
  c_max : option (list num);
  c_names : option (list string);
  c_imp : bool }.

(** The class attribute SORT_ACCORDING_TO (line 123) is a string. *)
Definition settings := string.

(** ** Python helpers *)

Fixpoint str_ltb (a b : string) : bool :=
  match a, b with
  | EmptyString, EmptyString => false
  | EmptyString, String _ _ => true
  | String _ _, EmptyString => false
  | String x a', String y b' =>
      if (nat_of_ascii x =? nat_of_ascii y)%nat then str_ltb a' b'
      else (nat_of_ascii x <? nat_of_ascii y)%nat
  end.

Definition str_eqb := String.eqb.

(** [l.index(x)] / [x in l] *)
Fixpoint index_of {A} (eqb : A -> A -> bool) (x : A) (l : list A) : option nat :=
  match l with
  | [] => None
  | y :: t =>
      if eqb x y then Some O
      else match index_of eqb x t with Some n => Some (S n) | None => None end
  end.

Definition mem {A} (eqb : A -> A -> bool) (x : A) (l : list A) : bool :=
  existsb (eqb x) l.

(** [set(l)] as a list of its elements, and [len(set(l)) != len(l)] *)
Fixpoint set_of {A} (eqb : A -> A -> bool) (l : list A) : list A :=
  match l with
  | [] => []
  | x :: t => let s := set_of eqb t in if mem eqb x s then s else x :: s
  end.

Definition has_dup {A} (eqb : A -> A -> bool) (l : list A) : bool :=
  negb (List.length (set_of eqb l) =? List.length l)%nat.

(** [l[i]] for a position that [range]/[enumerate] produced: IndexError past the
    end. *)
Definition at_pos {A} (l : list A) (i : nat) : res A :=
  match nth_error l i with Some x => Ok x | None => Err EIndex end.

(** An attribute that is None where a sequence is needed: TypeError. *)
Definition need {A} (o : option A) : res A :=
  match o with Some x => Ok x | None => Err EType end.

(** [str(i)] *)
Definition show_int (z : Z) : string := NilEmpty.string_of_int (Z.to_int z).

(** [sorted(l)] for the order [lt]: insertion, stable. *)
Fixpoint insert {A} (lt : A -> A -> bool) (x : A) (l : list A) : list A :=
  match l with
  | [] => [x]
  | y :: t => if lt y x then y :: insert lt x t else x :: l
  end.

Fixpoint sorted {A} (lt : A -> A -> bool) (l : list A) : list A :=
  match l with
  | [] => []
  | x :: t => insert lt x (sorted lt t)
  end.

(** [<] on pairs (tuples): the second components are compared when the first
    ones are equal. *)
Definition pair_lt {A B} (eqa lta : A -> A -> bool) (ltb : B -> B -> bool)
    (x y : A * B) : bool :=
  if eqa (fst x) (fst y) then ltb (snd x) (snd y) else lta (fst x) (fst y).

(** [[x for _, x in sorted(zip(keys, values))]] *)
Definition sort_values {A B} (eqa lta : A -> A -> bool) (ltb : B -> B -> bool)
    (keys : list A) (values : list B) : list B :=
  map snd (sorted (pair_lt eqa lta ltb) (combine keys values)).

(** ** Construction *)

(** lines 374-384 *)
Definition clen (c : cond) : nat :=
  match c_names c with
  | Some l => List.length l
  | None =>
      match c_idx c with
      | Some l => List.length l
      | None =>
          match c_min c with
          | Some l => List.length l
          | None => match c_max c with Some l => List.length l | None => O end
          end
      end
  end.

(** lines 386-402.  The four assignments only take place together here: on the
    paths that raise TypeError (an attribute is None) the real method may have
    replaced some of the lists already. *)
Definition sort (sett : settings) (c : cond) : res cond :=
  if (1 <? clen c)%nat then
    if str_eqb sett "index" then
      rbind (need (c_idx c)) (fun idx =>
      rbind (need (c_min c)) (fun mins =>
      rbind (need (c_max c)) (fun maxs =>
      rbind (need (c_names c)) (fun names =>
      Ok (mkCond (Some (sorted Z.ltb idx))
                 (Some (sort_values Z.eqb Z.ltb nltb idx mins))
                 (Some (sort_values Z.eqb Z.ltb nltb idx maxs))
                 (Some (sort_values Z.eqb Z.ltb str_ltb idx names))
                 (c_imp c))))))
    else if str_eqb sett "name" then
      rbind (need (c_names c)) (fun names =>
      rbind (need (c_min c)) (fun mins =>
      rbind (need (c_max c)) (fun maxs =>
      rbind (need (c_idx c)) (fun idx =>
      Ok (mkCond (Some (sort_values str_eqb str_ltb Z.ltb names idx))
                 (Some (sort_values str_eqb str_ltb nltb names mins))
                 (Some (sort_values str_eqb str_ltb nltb names maxs))
                 (Some (sorted str_ltb names))
                 (c_imp c))))))
    else Err EValue
  else Ok c.

(** [any([a > b for a, b in zip(bmins, bmaxs)])] (lines 166, 324, 335) *)
Definition some_above (mins maxs : list num) : bool :=
  existsb (fun p => ngtb (fst p) (snd p)) (combine mins maxs).

(** lines 28-42 and 125-178.  [None] stands for an omitted argument. *)
Definition build (sett : settings) (idx : option (list item))
    (bmins bmaxs : option (list item)) (names : option (list item))
    (empty do_sort : bool) : res cond :=
  if empty then Ok (mkCond None None None None false)
  else
    match bmins with
    | None => Err EValue
    | Some mins =>
    match bmaxs with
    | None => Err EValue
    | Some maxs =>
    let idx' :=
      match idx with
      | Some l => Ok l
      | None =>
          match names with
          | None => Err EValue
          | Some ns => Ok (map AInt (map Z.of_nat (seq 0 (List.length ns))))
          end
      end in
    rbind idx' (fun idx =>
    let length := List.length idx in
    if negb (List.length maxs =? length)%nat then Err EValue
    else if negb (List.length mins =? length)%nat then Err EValue
    else if match names with
            | Some ns => negb (List.length ns =? length)%nat
            | None => false
            end then Err EValue
    else if match names with
            | Some ns => existsb (fun a => negb (is_string a)) ns
            | None => false
            end then Err EType
    else if existsb (fun a => negb (is_number a)) mins then Err EType
    else if existsb (fun a => negb (is_number a)) maxs then Err EType
    else if existsb (fun a => negb (is_integer a)) idx then Err EType
    else
      let idx := map the_int idx in
      if has_dup Z.eqb idx then Err EDuplicated
      else
        let mins := map the_num mins in
        let maxs := map the_num maxs in
        let names :=
          match names with
          | Some ns => map the_str ns
          | None => map (fun i => String.append "X_" (show_int i)) idx
          end in
        if has_dup str_eqb names then Err EDuplicated
        else
          let c := mkCond (Some idx) (Some mins) (Some maxs) (Some names)
                          (some_above mins maxs) in
          if do_sort then sort sett c else Ok c)
    end end.

(** A construction from values that already have the right types, as in
    lines 194-199, 264-269 and 282-288. *)
Definition rebuild (sett : settings) (idx : list Z) (mins maxs : list num)
    (names : list string) : res cond :=
  build sett (Some (map AInt idx)) (Some (map AFloat mins))
    (Some (map AFloat maxs)) (Some (map AStr names)) false true.

(** ** Logical and, lines 180-289 *)

(** [[l[i] for i in positions]] *)
Definition pick {A} (l : list A) (positions : list nat) : res (list A) :=
  rseq (map (at_pos l) positions).

(** [[l[i] for i in range(len(l)) if i not in positions]] (lines 247-262) *)
Definition drop_at {A} (l : list A) (positions : list nat) : res (list A) :=
  rseq (map (at_pos l)
    (filter (fun i => negb (mem Nat.eqb i positions)) (seq 0 (List.length l)))).

(** [[l.index(f) for f in fs]]: ValueError if absent, which cannot happen in
    lines 208-209. *)
Definition positions (l fs : list string) : res (list nat) :=
  rseq (map (fun f => match index_of str_eqb f l with
                      | Some n => Ok n
                      | None => Err EValue
                      end) fs).

(** [l[i] = x] *)
Fixpoint set_nth {A} (i : nat) (x : A) (l : list A) : list A :=
  match l, i with
  | [], _ => []
  | _ :: t, O => x :: t
  | y :: t, S j => y :: set_nth j x t
  end.

(** The loop of lines 271-273 for one of the two lists of bounds. *)
Fixpoint assign {A} (ps : list nat) (xs : list A) (l : list A) : list A :=
  match ps, xs with
  | p :: ps', x :: xs' => assign ps' xs' (set_nth p x l)
  | _, _ => l
  end.

Fixpoint list_eqb {A} (eqb : A -> A -> bool) (a b : list A) : bool :=
  match a, b with
  | [], [] => true
  | x :: a', y :: b' => eqb x y && list_eqb eqb a' b'
  | _, _ => false
  end.

Definition band (sett : settings) (self other : cond) : res cond :=
  (* lines 194-199: copy(None) is None *)
  rbind (build sett (option_map (map AInt) (c_idx self)) (option_map (map AFloat) (c_min self))
           (option_map (map AFloat) (c_max self)) (option_map (map AStr) (c_names self)) false true) (fun self_clone =>
  rbind (need (c_idx self_clone)) (fun sidx =>
  rbind (need (c_min self_clone)) (fun smin =>
  rbind (need (c_max self_clone)) (fun smax =>
  rbind (need (c_names self_clone)) (fun snam =>
  (* line 201 *)
  rbind (match c_names other with
         | Some l => Ok l
         | None => match snam with [] => Ok [] | _ => Err EType end
         end) (fun onam =>
  let common := filter (fun f => mem str_eqb f onam) snam in
  rbind
    (match common with
     | _ :: _ =>
       (* lines 208-233 *)
       rbind (positions snam common) (fun spos =>
       rbind (positions onam common) (fun opos =>
       rbind (need (c_idx other)) (fun oidx =>
       rbind (need (c_min other)) (fun omin =>
       rbind (need (c_max other)) (fun omax =>
       rbind (pick sidx spos) (fun si =>
       rbind (pick smin spos) (fun sl =>
       rbind (pick smax spos) (fun sh =>
       rbind (pick oidx opos) (fun oi =>
       rbind (pick omin opos) (fun ol =>
       rbind (pick omax opos) (fun oh =>
       (* lines 235-238 *)
       if negb (list_eqb Z.eqb si oi) then Err EIndex
       else
         (* lines 240-245 *)
         let lows := map (fun p => py_max (fst p) (snd p)) (combine sl ol) in
         let highs := map (fun p => py_min (fst p) (snd p)) (combine sh oh) in
         (* lines 247-269 *)
         rbind (drop_at oidx opos) (fun idx =>
         let names := filter (fun f => negb (mem str_eqb f common)) onam in
         rbind (drop_at omin opos) (fun mins =>
         rbind (drop_at omax opos) (fun maxs =>
         rbind (rebuild sett idx mins maxs names) (fun other_clone =>
         (* lines 271-273 *)
         Ok (assign spos lows smin, assign spos highs smax, other_clone)
         )))))))))))))))
     | [] => Ok (smin, smax, other)
     end) (fun parts =>
  let '(smin, smax, other_clone) := parts in
  (* line 277 *)
  rbind (need (c_idx other_clone)) (fun oidx =>
  rbind (need (c_min other_clone)) (fun omin =>
  rbind (need (c_max other_clone)) (fun omax =>
  rbind (need (c_names other_clone)) (fun onam =>
  (* lines 278-280 *)
  if has_dup Z.eqb (sidx ++ oidx) then Err EIndex
  else
    (* lines 282-288 *)
    rebuild sett (sidx ++ oidx) (smin ++ omin) (smax ++ omax) (snam ++ onam)
  ))))))))))).

(** The copy of lines 194-199 alone: what [__and__] does before it reads the
    other operand *)
Definition copied (sett : settings) (c : cond) : res cond :=
  build sett (option_map (map AInt) (c_idx c)) (option_map (map AFloat) (c_min c))
    (option_map (map AFloat) (c_max c)) (option_map (map AStr) (c_names c)) false true.

(** ** Setters *)

(** A value given to a setter: a list, or a text with the list that
    ast.literal_eval reads from it. *)
Inductive given (A : Type) :=
| GList (l : list A)
| GText (r : res (list A)).
Arguments GList {A} l.
Arguments GText {A} r.

(** [int(v)]: ValueError on NaN, OverflowError on infinities. *)
Definition to_int (x : num) : res num :=
  match x with
  | Fin q => Ok (numz (trunc q))
  | NaN => Err EValue
  | _ => Err EOverflow
  end.

Definition read_list {A} (v : given A) : res (list A) :=
  match v with GList l => Ok l | GText r => r end.

(** lines 319-320 and 330-331 *)
Definition read_bounds (v : given num) : res (list num) :=
  match v with
  | GList l => Ok l
  | GText r => rbind r (fun l => rseq (map to_int l))
  end.

(** [len(self) > 0 and len(self) != len(value)] *)
Definition wrong_length {A} (c : cond) (l : list A) : bool :=
  (0 <? clen c)%nat && negb (clen c =? List.length l)%nat.

(** condition.py 65-73 *)
Definition set_features_indexes (v : given Z) (c : cond) : res unit * cond :=
  match read_list v with
  | Err e => (Err e, c)
  | Ok l =>
      if has_dup Z.eqb l then (Err EDuplicated, c)
      else if wrong_length c l then (Err EIndex, c)
      else (Ok tt, mkCond (Some l) (c_min c) (c_max c) (c_names c) (c_imp c))
  end.

(** lines 307-315 *)
Definition set_features_names (v : given string) (c : cond) : res unit * cond :=
  match read_list v with
  | Err e => (Err e, c)
  | Ok l =>
      if has_dup str_eqb l then (Err EDuplicated, c)
      else if wrong_length c l then (Err EIndex, c)
      else (Ok tt, mkCond (c_idx c) (c_min c) (c_max c) (Some l) (c_imp c))
  end.

(** lines 324-326 and 335-337: zip of None raises TypeError, after the
    assignment. *)
Definition flag_impossible (c : cond) : res unit * cond :=
  match c_min c, c_max c with
  | Some mins, Some maxs =>
      (Ok tt,
       mkCond (c_idx c) (c_min c) (c_max c) (c_names c)
              (if some_above mins maxs then true else c_imp c))
  | _, _ => (Err EType, c)
  end.

(** lines 317-326 *)
Definition set_bmins (v : given num) (c : cond) : res unit * cond :=
  match read_bounds v with
  | Err e => (Err e, c)
  | Ok l =>
      if wrong_length c l then (Err EIndex, c)
      else flag_impossible (mkCond (c_idx c) (Some l) (c_max c) (c_names c) (c_imp c))
  end.

(** lines 328-337 *)
Definition set_bmaxs (v : given num) (c : cond) : res unit * cond :=
  match read_bounds v with
  | Err e => (Err e, c)
  | Ok l =>
      if wrong_length c l then (Err EIndex, c)
      else flag_impossible (mkCond (c_idx c) (c_min c) (Some l) (c_names c) (c_imp c))
  end.

(** Condition.normalize_features_indexes, lines 97-100 *)
Definition normalize_features_indexes (c : cond) : res cond :=
  rbind (need (c_idx c)) (fun idx =>
  Ok (mkCond (Some (map Z.of_nat (seq 0 (List.length idx))))
             (c_min c) (c_max c) (c_names c) (c_imp c))).

(** lines 366-372, for an item that is a position or counts from the end *)
Definition py_index {A} (l : list A) (i : Z) : res A :=
  let n := Z.of_nat (List.length l) in
  if (0 <=? i) && (i <? n) then at_pos l (Z.to_nat i)
  else if (- n <=? i) && (i <? 0) then at_pos l (Z.to_nat (n + i))
  else Err EIndex.

Definition getitem (c : cond) (i : Z) : res (string * Z * num * num) :=
  rbind (need (c_names c)) (fun names =>
  rbind (py_index names i) (fun n =>
  rbind (need (c_idx c)) (fun idx =>
  rbind (py_index idx i) (fun j =>
  rbind (need (c_min c)) (fun mins =>
  rbind (py_index mins i) (fun lo =>
  rbind (need (c_max c)) (fun maxs =>
  rbind (py_index maxs i) (fun hi =>
  Ok (n, j, lo, hi))))))))).

(** ** Evaluation, lines 404-454 *)

(** A numpy array of shape (number of rows, d), or a DataFrame with one list of
    values per column (all of the number of rows). *)
Inductive table :=
| TArray (d : Z) (rows : list (list num))
| TFrame (n : nat) (columns : list (string * list num)).

(** [xs.shape[0]] *)
Definition nrows (xs : table) : nat :=
  match xs with TArray _ rows => List.length rows | TFrame n _ => n end.

(** [xs[:, j]] *)
Definition array_column (d : Z) (rows : list (list num)) (j : Z) : res (list num) :=
  if (0 <=? j) && (j <? d) then Ok (map (fun r => nth (Z.to_nat j) r NaN) rows)
  else if (- d <=? j) && (j <? 0) then Ok (map (fun r => nth (Z.to_nat (d + j)) r NaN) rows)
  else Err EIndex.

(** [xs[name]] *)
Fixpoint frame_column (columns : list (string * list num)) (f : string) : res (list num) :=
  match columns with
  | [] => Err EKey
  | (g, col) :: t => if str_eqb f g then Ok col else frame_column t f
  end.

(** One turn of the loops of lines 439-442 and 448-451.  The names geq_min,
    leq_min and not_nan are bound to one array (lines 438, 447), so the three
    in-place conjunctions accumulate in it. *)
Definition restrict (acc : list Z) (col : list num) (lo hi : num) : list Z :=
  map (fun p =>
         let acc := fst p in
         let x := snd p in
         let acc := Z.land acc (if ngeb x lo then 1 else 0) in
         let acc := Z.land acc (if nleb x hi then 1 else 0) in
         Z.land acc (if is_finite x then 1 else 0)) (combine acc col).

(** The loop over [enumerate(keys)]; [column] is xs[:, j] or xs[n]. *)
Fixpoint eval_loop {K} (column : K -> res (list num)) (mins maxs : option (list num))
    (i : nat) (keys : list K) (acc : list Z) : res (list Z) :=
  match keys with
  | [] => Ok acc
  | k :: t =>
      rbind (column k) (fun col =>
      rbind (need mins) (fun mins' =>
      rbind (at_pos mins' i) (fun lo =>
      rbind (need maxs) (fun maxs' =>
      rbind (at_pos maxs' i) (fun hi =>
      eval_loop column mins maxs (S i) t (restrict acc col lo hi))))))
  end.

Definition evaluate (c : cond) (xs : table) : res (list Z) :=
  if c_imp c then Ok (repeat 0 (nrows xs))
  else
    match xs with
    | TArray d rows =>
        rbind (need (c_idx c)) (fun idx =>
        if existsb (fun i => d <=? i) idx then Err EIndex
        else
          rbind (eval_loop (array_column d rows) (c_min c) (c_max c) O idx
                   (repeat 1 (List.length rows))) (fun acc =>
          Ok (map (fun x => Z.land (Z.land x x) x) acc)))
    | TFrame n columns =>
        rbind (need (c_names c)) (fun names =>
        if existsb (fun f => negb (mem str_eqb f (map fst columns))) names
        then Err EIndex
        else
          rbind (eval_loop (frame_column columns) (c_min c) (c_max c) O names
                   (repeat 1 n)) (fun acc =>
          match names with
          | [] => Err EAttr  (* line 452: .values of a numpy array *)
          | _ :: _ => Ok (map (fun x => Z.land (Z.land x x) x) acc)
          end))
    end.

(** ** Equality and hash, lines 352-364 *)

(** Hashes of strings, of tuples (from the hashes of the elements) and of
    frozensets (from the hashes of the distinct elements) are left abstract,
    and so is the hash of a float that is not integral, infinite or NaN.
    The hash of an integer is CPython's: modulo the Mersenne prime 2^61 - 1,
    with the sign of the number, -1 being replaced by -2. *)
Record hashing := mkHash {
  h_str : string -> Z;
  h_frac : Q -> Z;
  h_nan : Z;
  h_tuple : list Z -> Z;
  h_set : list Z -> Z }.

Definition hash_modulus : Z := 2 ^ 61 - 1.

Definition hash_int (z : Z) : Z :=
  let h := Z.rem z hash_modulus in if h =? -1 then -2 else h.

Definition hash_num (H : hashing) (x : num) : Z :=
  match x with
  | NaN => h_nan H
  | PInf => 314159
  | MInf => -314159
  | Fin q => if Zpos (Qden (Qred q)) =? 1 then hash_int (Qnum (Qred q)) else h_frac H (Qred q)
  end.

(** to_hash (lines 357-361): the tuple ("c", (name, bmin, bmax), ...), given by
    the hashes of its elements. *)
Definition to_hash (H : hashing) (c : cond) : res (list Z) :=
  rbind (need (c_names c)) (fun names =>
  rmap (fun l => h_str H "c" :: l)
    (rseq (map (fun i =>
       rbind (at_pos names i) (fun n =>
       rbind (need (c_min c)) (fun mins =>
       rbind (at_pos mins i) (fun lo =>
       rbind (need (c_max c)) (fun maxs =>
       rbind (at_pos maxs i) (fun hi =>
       Ok (h_tuple H [h_str H n; hash_num H lo; hash_num H hi])))))))
       (seq 0 (List.length names))))).

(** lines 363-364.  The names of a condition are distinct, so that the elements
    of the frozenset are the elements of the tuple. *)
Definition hash (H : hashing) (c : cond) : res Z := rmap (h_set H) (to_hash H c).

(** lines 352-355 *)
Definition ceq (H : hashing) (c1 c2 : cond) : res bool :=
  rbind (hash H c1) (fun h1 => rbind (hash H c2) (fun h2 => Ok (h1 =? h2))).

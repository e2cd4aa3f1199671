(** Model of ruleskit/condition.py and of the conditions in
    ruleskit/utils/rule_utils.py with the lists as objects: which condition has
    which list, and which lists are made or changed.  What the methods compute is
    in CondModel and TreeModel, where lists are values.

    Simplifications.  The lists have the types that the constructor asks for.
    Indexes, bounds and names are different lists; the two lists of bounds can be
    one object.  A method that raises leaves no object behind (the lists that it
    has made stay in the heap, where nobody can reach them). *)
From Coq Require Import List ZArith QArith Bool String.
From Coq Require Import List.
From Verif Require Import Base Num CondModel TreeModel.
Import ListNotations.
Open Scope string_scope.
Open Scope list_scope.
Open Scope Z_scope.

(** ** Objects *)

(** The attributes of a condition: None, or a list *)
Record robj := mkRobj {
  o_idx : option nat;
  o_min : option nat;
  o_max : option nat;
  o_names : option nat;
  o_imp : bool }.

(** The lists and conditions by address; [h_next] and those after it are not used
    yet. *)
Record heap := mkHeap {
  h_ints : nat -> list Z;
  h_nums : nat -> list num;
  h_texts : nat -> list string;
  h_conds : nat -> robj;
  h_next : nat }.

Definition deref (H : heap) (o : robj) : cond :=
  mkCond (option_map (h_ints H) (o_idx o)) (option_map (h_nums H) (o_min o)) (option_map (h_nums H) (o_max o))
         (option_map (h_texts H) (o_names o)) (o_imp o).

(** The condition as its user sees it *)
Definition view (H : heap) (c : nat) : cond := deref H (h_conds H c).

(** ** Programs *)

Definition prog (A : Type) := heap -> res A * heap.

Definition ret {A} (a : A) : prog A := fun H => (Ok a, H).
Definition raise {A} (e : exn) : prog A := fun H => (Err e, H).
Definition lift {A} (m : res A) : prog A := fun H => (m, H).
Definition bindp {A B} (m : prog A) (f : A -> prog B) : prog B :=
  fun H => match m H with (Ok a, H) => f a H | (Err e, H) => (Err e, H) end.

Notation "x <- m ; k" := (bindp m (fun x => k)) (at level 100, m at next level, right associativity).
Notation "m ;; k" := (bindp m (fun _ => k)) (at level 100, right associativity).

Definition update {A} (a : nat) (x : A) (f : nat -> A) (b : nat) : A := if (b =? a)%nat then x else f b.

Definition new_ints (l : list Z) : prog nat := fun H =>
  (Ok (h_next H), mkHeap (update (h_next H) l (h_ints H)) (h_nums H) (h_texts H) (h_conds H) (S (h_next H))).
Definition new_nums (l : list num) : prog nat := fun H =>
  (Ok (h_next H), mkHeap (h_ints H) (update (h_next H) l (h_nums H)) (h_texts H) (h_conds H) (S (h_next H))).
Definition new_texts (l : list string) : prog nat := fun H =>
  (Ok (h_next H), mkHeap (h_ints H) (h_nums H) (update (h_next H) l (h_texts H)) (h_conds H) (S (h_next H))).
Definition new_cond (o : robj) : prog nat := fun H =>
  (Ok (h_next H), mkHeap (h_ints H) (h_nums H) (h_texts H) (update (h_next H) o (h_conds H)) (S (h_next H))).

Definition get_ints (a : nat) : prog (list Z) := fun H => (Ok (h_ints H a), H).
Definition get_nums (a : nat) : prog (list num) := fun H => (Ok (h_nums H a), H).
Definition get_texts (a : nat) : prog (list string) := fun H => (Ok (h_texts H a), H).
Definition get_cond (c : nat) : prog robj := fun H => (Ok (h_conds H c), H).

(** In place *)
Definition put_ints (a : nat) (l : list Z) (H : heap) : heap :=
  mkHeap (update a l (h_ints H)) (h_nums H) (h_texts H) (h_conds H) (h_next H).
Definition put_nums (a : nat) (l : list num) (H : heap) : heap :=
  mkHeap (h_ints H) (update a l (h_nums H)) (h_texts H) (h_conds H) (h_next H).
Definition put_texts (a : nat) (l : list string) (H : heap) : heap :=
  mkHeap (h_ints H) (h_nums H) (update a l (h_texts H)) (h_conds H) (h_next H).
Definition put_cond (c : nat) (o : robj) : prog unit := fun H =>
  (Ok tt, mkHeap (h_ints H) (h_nums H) (h_texts H) (update c o (h_conds H)) (h_next H)).

(** [l[i] = x] *)
Definition set_item (a : nat) (i : nat) (x : num) : prog unit := fun H =>
  if (i <? List.length (h_nums H a))%nat then (Ok tt, put_nums a (set_nth i x (h_nums H a)) H) else (Err EIndex, H).

(** [len(l)] *)
Definition len {A} (l : prog (list A)) : prog nat := x <- l; ret (List.length x).

(** ** Construction, condition.py 28-42 and 125-178 *)

(** sort, lines 386-402: four new lists *)
Definition r_sort (sett : settings) (c : nat) : prog unit :=
  o <- get_cond c;
  s <- (fun H => (sort sett (deref H o), H));
  H <- (fun H => (Ok H, H));
  if (1 <? clen (deref H o))%nat then
    mins <- lift (need (c_min s)); mins <- new_nums mins;
    maxs <- lift (need (c_max s)); maxs <- new_nums maxs;
    names <- lift (need (c_names s)); names <- new_texts names;
    idx <- lift (need (c_idx s)); idx <- new_ints idx;
    put_cond c (mkRobj (Some idx) (Some mins) (Some maxs) (Some names) (o_imp o))
  else ret tt.

Definition need_list (o : option nat) : prog nat := lift (match o with Some a => Ok a | None => Err EValue end).

(** The arguments are lists of the caller, or None. *)
Definition r_build (sett : settings) (idx mins maxs names : option nat) (empty do_sort : bool) : prog nat :=
  if empty then new_cond (mkRobj None None None None false)
  else
    (* lines 139-142 *)
    mins <- need_list mins;
    maxs <- need_list maxs;
    (* lines 143-146 *)
    idx <- match idx with
           | Some a => ret a
           | None => names <- need_list names; n <- len (get_texts names); new_ints (map Z.of_nat (seq 0 n))
           end;
    (* lines 148-154 *)
    length <- len (get_ints idx);
    n <- len (get_nums maxs);
    if negb (n =? length)%nat then raise EValue else
    n <- len (get_nums mins);
    if negb (n =? length)%nat then raise EValue else
    n <- match names with Some a => len (get_texts a) | None => ret length end;
    if negb (n =? length)%nat then raise EValue else
    (* lines 37-39 *)
    indexes <- get_ints idx;
    if has_dup Z.eqb indexes then raise EDuplicated else
    (* lines 166-170 *)
    lows <- get_nums mins;
    highs <- get_nums maxs;
    (* lines 171-176 *)
    names <- match names with
             | Some a => ret a
             | None => new_texts (map (fun i => String.append "X_" (show_int i)) indexes)
             end;
    texts <- get_texts names;
    if has_dup str_eqb texts then raise EDuplicated else
    c <- new_cond (mkRobj (Some idx) (Some mins) (Some maxs) (Some names) (some_above lows highs));
    (* lines 177-178 *)
    (if do_sort then r_sort sett c else ret tt) ;;
    ret c.

(** ** Logical and, lines 180-289 *)

(** [copy(l)], also of None *)
Definition copy_ints (o : option nat) : prog (option nat) :=
  match o with None => ret None | Some a => l <- get_ints a; b <- new_ints l; ret (Some b) end.
Definition copy_nums (o : option nat) : prog (option nat) :=
  match o with None => ret None | Some a => l <- get_nums a; b <- new_nums l; ret (Some b) end.
Definition copy_texts (o : option nat) : prog (option nat) :=
  match o with None => ret None | Some a => l <- get_texts a; b <- new_texts l; ret (Some b) end.

(** Lines 208-262: the positions of the common features in self, their bounds, and
    the lists of what is left of other *)
Definition intersect (snam onam common : list string) (sidx : list Z) (smin smax : list num)
    (oidx : res (list Z)) (omin omax : res (list num))
    : res (list nat * list num * list num * (list Z * list num * list num * list string)) :=
  rbind (positions snam common) (fun spos =>
  rbind (positions onam common) (fun opos =>
  rbind oidx (fun oidx =>
  rbind omin (fun omin =>
  rbind omax (fun omax =>
  rbind (pick sidx spos) (fun si =>
  rbind (pick smin spos) (fun sl =>
  rbind (pick smax spos) (fun sh =>
  rbind (pick oidx opos) (fun oi =>
  rbind (pick omin opos) (fun ol =>
  rbind (pick omax opos) (fun oh =>
  if negb (list_eqb Z.eqb si oi) then Err EIndex
  else
    let lows := map (fun p => py_max (fst p) (snd p)) (combine sl ol) in
    let highs := map (fun p => py_min (fst p) (snd p)) (combine sh oh) in
    rbind (drop_at oidx opos) (fun idx =>
    let names := filter (fun f => negb (mem str_eqb f common)) onam in
    rbind (drop_at omin opos) (fun mins =>
    rbind (drop_at omax opos) (fun maxs =>
    Ok (spos, lows, highs, (idx, mins, maxs, names)))))))))))))))).

(** The loop of lines 271-273 *)
Fixpoint set_bounds (mins maxs : nat) (ps : list nat) (lows highs : list num) : prog unit :=
  match ps, lows, highs with
  | p :: ps, lo :: lows, hi :: highs => set_item mins p lo ;; set_item maxs p hi ;; set_bounds mins maxs ps lows highs
  | _, _, _ => ret tt
  end.

(** A construction from four new lists *)
Definition r_rebuild (sett : settings) (idx : list Z) (mins maxs : list num) (names : list string) : prog nat :=
  idx <- new_ints idx;
  mins <- new_nums mins;
  maxs <- new_nums maxs;
  names <- new_texts names;
  r_build sett (Some idx) (Some mins) (Some maxs) (Some names) false true.

Definition r_band (sett : settings) (self other : nat) : prog nat :=
  (* lines 194-199 *)
  o <- get_cond self;
  idx <- copy_ints (o_idx o);
  mins <- copy_nums (o_min o);
  maxs <- copy_nums (o_max o);
  names <- copy_texts (o_names o);
  self_clone <- r_build sett idx mins maxs names false true;
  clone <- get_cond self_clone;
  sidx <- lift (need (o_idx clone));
  smin <- lift (need (o_min clone));
  smax <- lift (need (o_max clone));
  snam <- lift (need (o_names clone));
  (* line 201 *)
  oc <- get_cond other;
  mine <- get_texts snam;
  theirs <- match o_names oc with
            | Some a => get_texts a
            | None => match mine with [] => ret [] | _ => raise EType end
            end;
  let common := filter (fun f => mem str_eqb f theirs) mine in
  other_clone <-
    match common with
    | [] => ret other
    | _ =>
        parts <- (fun H => (intersect mine theirs common (h_ints H sidx) (h_nums H smin) (h_nums H smax)
                              (rmap (h_ints H) (need (o_idx oc))) (rmap (h_nums H) (need (o_min oc)))
                              (rmap (h_nums H) (need (o_max oc))), H));
        let '(spos, lows, highs, (idx, mins, maxs, names)) := parts in
        other_clone <- r_rebuild sett idx mins maxs names;
        set_bounds smin smax spos lows highs ;;
        ret other_clone
    end;
  (* line 277 *)
  oc <- get_cond other_clone;
  oidx <- lift (need (o_idx oc));
  omin <- lift (need (o_min oc));
  omax <- lift (need (o_max oc));
  onam <- lift (need (o_names oc));
  args <- (fun H => (Ok (h_ints H sidx ++ h_ints H oidx, h_nums H smin ++ h_nums H omin,
                         h_nums H smax ++ h_nums H omax, h_texts H snam ++ h_texts H onam), H));
  let '(idx, mins, maxs, names) := args in
  (* lines 278-289 *)
  if has_dup Z.eqb idx then raise EIndex
  else r_rebuild sett idx mins maxs names.

(** ** Setters *)

(** A value given to a setter: a list of the caller, or a text with the list that
    ast.literal_eval reads from it *)
Inductive source (A : Type) :=
| SList (a : nat)
| SText (r : res (list A)).
Arguments SList {A} a.
Arguments SText {A} r.

(** [len(self) > 0 and len(self) != len(value)] *)
Definition r_wrong_length (c : nat) (n : nat) : prog bool := fun H =>
  let m := clen (view H c) in (Ok ((0 <? m)%nat && negb (m =? n)%nat), H).

(** lines 65-73 *)
Definition r_set_indexes (v : source Z) (c : nat) : prog unit :=
  a <- match v with SList a => ret a | SText r => l <- lift r; new_ints l end;
  l <- get_ints a;
  if has_dup Z.eqb l then raise EDuplicated else
  b <- r_wrong_length c (List.length l);
  if b : bool then raise EIndex else
  o <- get_cond c;
  put_cond c (mkRobj (Some a) (o_min o) (o_max o) (o_names o) (o_imp o)).

(** lines 307-315 *)
Definition r_set_names (v : source string) (c : nat) : prog unit :=
  a <- match v with SList a => ret a | SText r => l <- lift r; new_texts l end;
  l <- get_texts a;
  if has_dup str_eqb l then raise EDuplicated else
  b <- r_wrong_length c (List.length l);
  if b : bool then raise EIndex else
  o <- get_cond c;
  put_cond c (mkRobj (o_idx o) (o_min o) (o_max o) (Some a) (o_imp o)).

(** lines 324-326 and 335-337 *)
Definition r_flag (c : nat) : prog unit :=
  o <- get_cond c;
  mins <- lift (need (o_min o)); mins <- get_nums mins;
  maxs <- lift (need (o_max o)); maxs <- get_nums maxs;
  if some_above mins maxs then put_cond c (mkRobj (o_idx o) (o_min o) (o_max o) (o_names o) true) else ret tt.

(** lines 317-326 and 328-337 *)
Definition bounds_of (v : source num) : prog nat :=
  match v with SList a => ret a | SText r => l <- lift (rbind r (fun l => rseq (map to_int l))); new_nums l end.

Definition r_set_bmins (v : source num) (c : nat) : prog unit :=
  a <- bounds_of v;
  n <- len (get_nums a);
  b <- r_wrong_length c n;
  if b : bool then raise EIndex else
  o <- get_cond c;
  put_cond c (mkRobj (o_idx o) (Some a) (o_max o) (o_names o) (o_imp o)) ;;
  r_flag c.

Definition r_set_bmaxs (v : source num) (c : nat) : prog unit :=
  a <- bounds_of v;
  n <- len (get_nums a);
  b <- r_wrong_length c n;
  if b : bool then raise EIndex else
  o <- get_cond c;
  put_cond c (mkRobj (o_idx o) (o_min o) (Some a) (o_names o) (o_imp o)) ;;
  r_flag c.

(** ** Extraction of rules, rule_utils.py *)

(** [copy.deepcopy(condition)]; a list that is there twice is copied once. *)
Definition deepcopy (c : nat) : prog nat :=
  o <- get_cond c;
  idx <- copy_ints (o_idx o);
  mins <- copy_nums (o_min o);
  maxs <- (if match o_min o, o_max o with Some a, Some b => (a =? b)%nat | _, _ => false end
           then ret mins else copy_nums (o_max o));
  names <- copy_texts (o_names o);
  new_cond (mkRobj idx mins maxs names (o_imp o)).

(** Lines 105-110 and 156-161 *)
Definition r_one_feature (sett : settings) (q : request) (f : Z) (lo hi : num) : prog nat :=
  name <- lift (py_index (tree_names q) f);
  r_rebuild sett [f] [lo] [hi] [name].

(** Lines 105-126 *)
Definition r_left (sett : settings) (q : request) (condition : option nat) (f : Z) (threshold : num) : prog nat :=
  xmin <- lift (py_index (q_xmins q) f);
  new <- r_one_feature sett q f xmin threshold;
  match condition with
  | None => ret new
  | Some c =>
      o <- get_cond c;
      idx <- lift (need (o_idx o));
      idx <- get_ints idx;
      match index_of Z.eqb f idx with
      | None => r_band sett c new
      | Some place =>
          d <- deepcopy c;
          o <- get_cond d;
          maxs <- lift (need (o_max o));
          l <- get_nums maxs;
          old <- lift (at_pos l place);
          set_item maxs place (py_min threshold old) ;;
          ret d
      end
  end.

(** Lines 156-178 *)
Definition r_right (sett : settings) (q : request) (condition : option nat) (f : Z) (threshold : num) : prog nat :=
  xmax <- lift (py_index (q_xmaxs q) f);
  new <- r_one_feature sett q f threshold xmax;
  match condition with
  | None => ret new
  | Some c =>
      o <- get_cond c;
      idx <- lift (need (o_idx o));
      idx <- get_ints idx;
      match index_of Z.eqb f idx with
      | None => r_band sett c new
      | Some place =>
          d <- deepcopy c;
          o <- get_cond d;
          mins <- lift (need (o_min o));
          l <- get_nums mins;
          old <- lift (at_pos l place);
          set_item mins place (py_max threshold old) ;;
          maxs <- lift (need (o_max o));
          l <- get_nums maxs;
          old <- lift (at_pos l place);
          set_item maxs place (py_max xmax old) ;;
          ret d
      end
  end.

(** visitor, lines 100-213: the conditions of the rules, in the order in which
    the rules are appended.  [None]: a rule without condition. *)
Fixpoint r_visitor (limit : nat) (sett : settings) (T : arrays) (q : request) (node : Z) (condition : option nat)
    (rules : list (option nat)) : prog (list (option nat)) :=
  match limit with
  | O => raise ERecursion
  | S limit =>
      f <- lift (py_index (t_feature T) node);
      if negb (f =? TREE_UNDEFINED) then
        threshold <- lift (py_index (t_threshold T) node);
        c <- r_left sett q condition f threshold;
        rules <- (if negb (q_leaf q) then d <- deepcopy c; ret (rules ++ [Some d]) else ret rules);
        child <- lift (py_index (t_left T) node);
        rules <- r_visitor limit sett T q child (Some c) rules;
        c <- r_right sett q condition f threshold;
        rules <- (if negb (q_leaf q) then d <- deepcopy c; ret (rules ++ [Some d]) else ret rules);
        child <- lift (py_index (t_right T) node);
        r_visitor limit sett T q child (Some c) rules
      else if q_leaf q then
        match condition with
        | None => ret (rules ++ [None])
        | Some c => d <- deepcopy c; ret (rules ++ [Some d])
        end
      else ret rules
  end.

(** ** Histories *)

(** In place: any change of a list that somebody has (an assignment to an element,
    append, clear, sort...) *)
Inductive edit :=
| EInts (a : nat) (l : list Z)
| ENums (a : nat) (l : list num)
| ETexts (a : nat) (l : list string).

Definition apply_edit (e : edit) (H : heap) : heap :=
  match e with
  | EInts a l => put_ints a l H
  | ENums a l => put_nums a l H
  | ETexts a l => put_texts a l H
  end.

Definition apply_edits (es : list edit) (H : heap) : heap := fold_left (fun H e => apply_edit e H) es H.

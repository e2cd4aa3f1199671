(** Model of ruleskit/thresholds.py.

    The limits are a dict of dicts.  The inner dicts live in a heap, so that the
    difference between a dict and its copy is visible. *)
From Coq Require Import List ZArith QArith Qabs Bool String.
From Coq Require Import List.
From Verif Require Import Base Num Arith CondModel.
Import ListNotations.
Open Scope Z_scope.

(** Values of attributes and of limits.  numpy arrays and DataFrames are left
    out (their comparisons are arrays). *)
Inductive val :=
| XNone
| XCall                 (* a function or a bound method *)
| XNum (x : num)        (* int, bool, float, numpy.float64 *)
| XInt (z : Z)          (* numpy integers: neither int nor float *)
| XText (s : string)
| XOther.               (* a list or another object, unhashable *)

Notation row := (list (string * val)).

(** [d.get(k)] and [d[k] = v] *)
Fixpoint dget {A} (k : string) (d : list (string * A)) : option A :=
  match d with
  | [] => None
  | (k', v) :: t => if str_eqb k k' then Some v else dget k t
  end.

Fixpoint dset {A} (k : string) (v : A) (d : list (string * A)) : list (string * A) :=
  match d with
  | [] => [(k, v)]
  | (k', v') :: t => if str_eqb k k' then (k, v) :: t else (k', v') :: dset k v t
  end.

Record thresholds := mkThr {
  t_limits : list (string * nat);   (* name of an attribute -> address *)
  t_heap : list row }.

Definition row_at (h : list row) (p : nat) : row := nth p h [].

(** ** Loading, lines 24-57 *)

(** [file]: None if there is no such file, otherwise its content (a JSON object
    whose values are JSON objects, the other contents are left out). *)
Fixpoint place_rows (file : list (string * row)) (p : nat) : list (string * nat) :=
  match file with
  | [] => []
  | (k, _) :: t => (k, p) :: place_rows t (S p)
  end.

Definition load (file : option (list (string * row))) : thresholds :=
  match file with
  | None => mkThr [] []
  | Some rows =>
      let limits := place_rows rows O in
      let heap := map snd rows in
      match dget "coverage" limits with
      | None =>
          mkThr (dset "coverage" (List.length heap) limits)
                (heap ++ [[("min"%string, XNum (Fin (1 # 20)))]])
      | Some p =>
          match dget "min" (row_at heap p) with
          | None =>
              mkThr limits (set_nth p (dset "min" (XNum (Fin (1 # 20))) (row_at heap p)) heap)
          | Some _ => mkThr limits heap
          end
      end
  end.

(** ** Transformations, line 22 *)

(** math.sqrt, math.exp and math.log of a number, str of a value, int of a
    text.  They are not computed here. *)
Record library := mkLib {
  l_sqrt : num -> res num;
  l_exp : num -> res num;
  l_log : num -> res num;
  l_str : val -> string;
  l_int : string -> res Z }.

Definition real (f : num -> res num) (v : val) : res val :=
  match v with
  | XNum x => rmap XNum (f x)
  | XInt z => rmap XNum (f (numz z))
  | _ => Err EType
  end.

Definition known_arg (lib : library) (name : string) : option (val -> res val) :=
  if str_eqb name "abs" then
    Some (fun v => match v with
                   | XNum x => Ok (XNum (nabs x))
                   | XInt z => Ok (XInt (Z.abs z))
                   | _ => Err EType
                   end)
  else if str_eqb name "sqrt" then Some (real (l_sqrt lib))
  else if str_eqb name "exp" then Some (real (l_exp lib))
  else if str_eqb name "log" then Some (real (l_log lib))
  else if str_eqb name "str" then Some (fun v => Ok (XText (l_str lib v)))
  else if str_eqb name "int" then
    Some (fun v => match v with
                   | XNum x => rmap XNum (to_int x)
                   | XInt z => Ok (XNum (numz z))
                   | XText s => rmap (fun z => XNum (numz z)) (l_int lib s)
                   | _ => Err EType
                   end)
  else None.

(** ** __call__, lines 59-96 *)

(** [getattr(rule, name)] *)
Definition attributes := string -> res val.

(** [isinstance(v, (int, float))] *)
Definition is_plain (v : val) : bool :=
  match v with XNum _ => true | _ => false end.

(** Lines 78-84: the loop over the names of the limits of the dict at [p]. *)
Fixpoint resolve (rule : attributes) (lims : list string) (p : nat) (h : list row)
    : res unit * list row :=
  match lims with
  | [] => (Ok tt, h)
  | lim :: t =>
      if str_eqb lim "arg" then resolve rule t p h
      else
        match dget lim (row_at h p) with
        | None => (Err EKey, h)
        | Some (XText s) =>
            match rule s with
            | Err e => (Err e, h)
            | Ok v =>
                let h' := set_nth p (dset lim v (row_at h p)) h in
                if is_plain v then resolve rule t p h' else (Err EType, h')
            end
        | Some v => if is_plain v then resolve rule t p h else (Err EType, h)
        end
  end.

(** [value < limit], [value > limit]: TypeError unless both are numbers. *)
Definition compare (op : num -> num -> bool) (v l : val) : res bool :=
  match v, l with
  | XNum x, XNum y => Ok (op x y)
  | XInt z, XNum y => Ok (op (numz z) y)
  | _, _ => Err EType
  end.

(** [value == limit] for a numeric limit *)
Definition equals (v l : val) : bool :=
  match v, l with
  | XNum x, XNum y => neqb x y
  | XInt z, XNum y => neqb (numz z) y
  | _, _ => false
  end.

(** Lines 86-96 on the resolved dict. *)
Definition decide (v : val) (r : row) : res bool :=
  rbind (match dget "min" r with Some l => compare nltb v l | None => Ok false end) (fun low =>
  if low : bool then Ok false
  else
  rbind (match dget "max" r with Some l => compare ngtb v l | None => Ok false end) (fun high =>
  if high : bool then Ok false
  else if match dget "equal" r with Some l => negb (equals v l) | None => false end then Ok false
  else if match dget "different" r with Some l => equals v l | None => false end then Ok false
  else Ok true)).

Definition call (lib : library) (th : thresholds) (tkey : string) (rule : attributes)
    : res bool * thresholds :=
  match dget tkey (t_limits th) with
  | None => (Ok true, th)
  | Some p =>
      match rule tkey with
      | Err e => (Err e, th)
      | Ok XCall => (Ok true, th)
      | Ok XNone => (Ok true, th)
      | Ok value =>
          (* line 69: the copy is a new dict *)
          let q := List.length (t_heap th) in
          let h := t_heap th ++ [row_at (t_heap th) p] in
          let th' h := mkThr (t_limits th) h in
          let value' :=
            match dget "arg" (row_at h q) with
            | None => Ok value
            | Some (XText a) =>
                match known_arg lib a with
                | None => Err EValue
                | Some f => f value
                end
            | Some XOther => Err EType
            | Some _ => Err EValue
            end in
          match value' with
          | Err e => (Err e, th' h)
          | Ok value =>
              match resolve rule (map fst (row_at h q)) q h with
              | (Err e, h') => (Err e, th' h')
              | (Ok _, h') => (decide value (row_at h' q), th' h')
              end
          end
      end
  end.

(** Numbers as Python and numpy floats see them, without rounding.

    Simplifications: finite floats and ints are exact rationals, there is no
    signed zero, and complex numbers are left out. *)
From Coq Require Import List ZArith QArith Bool.
Import ListNotations.

Inductive num :=
| NaN
| MInf
| Fin (q : Q)
| PInf.

Definition numz (z : Z) : num := Fin (inject_Z z).

Definition qltb (x y : Q) : bool := negb (Qle_bool y x).

(** [x < y], [x <= y], [x == y] of Python and numpy: false as soon as one side
    is NaN. *)
Definition nltb (x y : num) : bool :=
  match x, y with
  | Fin a, Fin b => qltb a b
  | MInf, Fin _ | MInf, PInf | Fin _, PInf => true
  | _, _ => false
  end.

Definition nleb (x y : num) : bool :=
  match x, y with
  | NaN, _ | _, NaN => false
  | Fin a, Fin b => Qle_bool a b
  | MInf, _ | _, PInf => true
  | _, _ => false
  end.

Definition neqb (x y : num) : bool :=
  match x, y with
  | Fin a, Fin b => Qeq_bool a b
  | MInf, MInf | PInf, PInf => true
  | _, _ => false
  end.

Definition ngtb (x y : num) : bool := nltb y x.
Definition ngeb (x y : num) : bool := nleb y x.

Definition is_nan (x : num) : bool := match x with NaN => true | _ => false end.

(** numpy.isfinite *)
Definition is_finite (x : num) : bool := match x with Fin _ => true | _ => false end.

(** The Python builtins [max(a, b)] and [min(a, b)]: the first argument is kept
    unless the second one compares strictly better. *)
Definition py_max (a b : num) : num := if ngtb b a then b else a.
Definition py_min (a b : num) : num := if nltb b a then b else a.

(** [int(v)]: truncation toward zero, with the exceptions of NaN and infinity
    left to the caller. *)
Definition trunc (q : Q) : Z := Z.quot (Qnum q) (Zpos (Qden q)).

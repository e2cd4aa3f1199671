(** Arithmetic of numpy floats, without rounding and without signed zero. *)
From Coq Require Import List ZArith QArith Qabs Bool.
From Verif Require Import Num.
Import ListNotations.

Definition nneg (x : num) : num :=
  match x with
  | NaN => NaN
  | MInf => PInf
  | PInf => MInf
  | Fin q => Fin (- q)
  end.

Definition nadd (x y : num) : num :=
  match x, y with
  | NaN, _ | _, NaN => NaN
  | Fin a, Fin b => Fin (a + b)
  | PInf, MInf | MInf, PInf => NaN
  | PInf, _ | _, PInf => PInf
  | _, _ => MInf
  end.

Definition nsub (x y : num) : num := nadd x (nneg y).

(** An infinity with the sign of [q]; 0 times infinity is NaN. *)
Definition signed_inf (q : Q) (positive : bool) : num :=
  if Qeq_bool q 0 then NaN
  else if xorb (qltb q 0) positive then PInf else MInf.

Definition nmul (x y : num) : num :=
  match x, y with
  | NaN, _ | _, NaN => NaN
  | Fin a, Fin b => Fin (a * b)
  | Fin a, PInf | PInf, Fin a => signed_inf a true
  | Fin a, MInf | MInf, Fin a => signed_inf a false
  | PInf, PInf | MInf, MInf => PInf
  | _, _ => MInf
  end.

(** Division by zero gives an infinity of the sign of the numerator, or NaN. *)
Definition ndiv (x y : num) : num :=
  match x, y with
  | NaN, _ | _, NaN => NaN
  | Fin a, Fin b => if Qeq_bool b 0 then signed_inf a true else Fin (a / b)
  | Fin _, _ => Fin 0
  | PInf, Fin b => if qltb b 0 then MInf else PInf
  | MInf, Fin b => if qltb b 0 then PInf else MInf
  | _, _ => NaN
  end.

Definition nabs (x : num) : num :=
  match x with
  | NaN => NaN
  | MInf | PInf => PInf
  | Fin q => Fin (Qabs q)
  end.

Definition nsum (l : list num) : num := fold_left nadd l (Fin 0).

Definition nat_num (n : nat) : num := Fin (inject_Z (Z.of_nat n)).

(** numpy.mean; NaN for an empty array *)
Definition nmean (l : list num) : num := ndiv (nsum l) (nat_num (length l)).

(** The elements that are not NaN. *)
Definition drop_nan (l : list num) : list num := filter (fun x => negb (is_nan x)) l.

(** numpy.nanmean, and the mean of pandas *)
Definition nanmean (l : list num) : num := nmean (drop_nan l).

Definition nsquare (x : num) : num := nmul x x.

(** Under the square root of numpy.nanstd(l, ddof) and of the std of pandas. *)
Definition nanvar (ddof : nat) (l : list num) : num :=
  let v := drop_nan l in
  if (length v <=? ddof)%nat then NaN
  else ndiv (nsum (map (fun x => nsquare (nsub x (nmean v))) v)) (nat_num (length v - ddof)).

(** Common vocabulary: Python exceptions as values. *)
From Coq Require Import List ZArith Bool String.
Import ListNotations.

(** The Python exception classes that the modelled code can raise. *)
Inductive exn :=
| EValue          (* ValueError *)
| EType           (* TypeError *)
| EIndex          (* IndexError *)
| EKey            (* KeyError *)
| EAttr           (* AttributeError *)
| EZeroDiv        (* ZeroDivisionError *)
| EOverflow       (* OverflowError *)
| EFileNotFound   (* FileNotFoundError *)
| ESyntax         (* SyntaxError *)
| EMemory         (* MemoryError *)
| EDuplicated     (* ruleskit.condition.DuplicatedFeatures, a ValueError-like class *)
| ENotImpl        (* NotImplementedError *)
| ERecursion.     (* RecursionError *)

(** Result of a computation that may raise. *)
Inductive res (A : Type) :=
| Ok (a : A)
| Err (e : exn).
Arguments Ok {A} a.
Arguments Err {A} e.

Definition rbind {A B} (m : res A) (f : A -> res B) : res B :=
  match m with Ok a => f a | Err e => Err e end.

Definition rmap {A B} (f : A -> B) (m : res A) : res B :=
  match m with Ok a => Ok (f a) | Err e => Err e end.

(** Left-to-right evaluation of a list of computations, first error wins. *)
Fixpoint rseq {A} (l : list (res A)) : res (list A) :=
  match l with
  | [] => Ok []
  | m :: t => rbind m (fun a => rbind (rseq t) (fun r => Ok (a :: r)))
  end.

Definition is_ok {A} (m : res A) : bool :=
  match m with Ok _ => true | Err _ => false end.

(** Vocabulary of the statements about thresholds. *)
From Coq Require Import List ZArith QArith Qabs Bool String.
From Coq Require Import List.
From Verif Require Import Base Num Arith CondModel CondSpec ThrModel.
Import ListNotations.
Open Scope Z_scope.

(** The limits of attribute [k] are [r]. *)
Definition limits_of (th : thresholds) (k : string) (r : row) : Prop :=
  exists p, In (k, p) (t_limits th) /\ nth_error (t_heap th) p = Some r.

Definition well_formed (th : thresholds) : Prop :=
  NoDup (map fst (t_limits th)) /\
  (forall k p, In (k, p) (t_limits th) -> (p < List.length (t_heap th))%nat) /\
  (forall k r, limits_of th k r -> NoDup (map fst r)).

Definition present (v : val) : Prop := v <> XNone /\ v <> XCall.

(** The value is the number [x]. *)
Definition means (v : val) (x : num) : Prop :=
  v = XNum x \/ exists z, v = XInt z /\ x = Fin (inject_Z z).

Definition no_arg (r : row) : Prop := forall a, ~ In ("arg"%string, a) r.

(** The number that is compared with the limits: that of the attribute, or its
    image by the function named by "arg". *)
Inductive measured (lib : library) (r : row) (v : val) : num -> Prop :=
| m_plain x : no_arg r -> means v x -> measured lib r v x
| m_abs_fin q : In ("arg", XText "abs")%string r -> means v (Fin q) -> measured lib r v (Fin (Qabs q))
| m_abs_inf x : In ("arg", XText "abs")%string r -> means v x -> x = PInf \/ x = MInf ->
    measured lib r v PInf
| m_abs_nan : In ("arg", XText "abs")%string r -> means v NaN -> measured lib r v NaN
| m_sqrt y x : In ("arg", XText "sqrt")%string r -> means v y -> l_sqrt lib y = Ok x -> measured lib r v x
| m_exp y x : In ("arg", XText "exp")%string r -> means v y -> l_exp lib y = Ok x -> measured lib r v x
| m_log y x : In ("arg", XText "log")%string r -> means v y -> l_log lib y = Ok x -> measured lib r v x
| m_int q z : In ("arg", XText "int")%string r -> means v (Fin q) -> toward_zero q z ->
    measured lib r v (Fin (inject_Z z))
| m_text s z : In ("arg", XText "int")%string r -> v = XText s -> l_int lib s = Ok z ->
    measured lib r v (Fin (inject_Z z)).

(** The text that is compared with the limits. *)
Inductive worded (lib : library) (r : row) (v : val) : Prop :=
| w_plain : no_arg r -> (exists s, v = XText s) \/ v = XOther -> worded lib r v
| w_str : In ("arg", XText "str")%string r -> worded lib r v.

(** The limit [k] is the number [x], directly or as the value of an attribute. *)
Definition limit (rule : attributes) (r : row) (k : string) (x : num) : Prop :=
  In (k, XNum x) r \/ exists s, In (k, XText s) r /\ rule s = Ok (XNum x).

(** Every limit is a number. *)
Definition all_numbers (rule : attributes) (r : row) : Prop :=
  forall k l, In (k, l) r -> k <> "arg"%string -> exists x, limit rule r k x.

(** The same number (NaN is not equal to itself). *)
Definition equal_numbers (x y : num) : Prop := same_num x y /\ x <> NaN.

Definition meets (rule : attributes) (r : row) (x : num) : Prop :=
  (forall l, limit rule r "min" l -> ~ nlt x l) /\
  (forall l, limit rule r "max" l -> ~ nlt l x) /\
  (forall l, limit rule r "equal" l -> equal_numbers x l) /\
  (forall l, limit rule r "different" l -> ~ equal_numbers x l).

Definition six : list string := ["abs"; "sqrt"; "exp"; "log"; "str"; "int"]%string.

(** Some checks, one after the other; the exceptions are caught. *)
Fixpoint checks (lib : library) (th : thresholds) (l : list (string * attributes)) : thresholds :=
  match l with
  | [] => th
  | (k, rule) :: t => checks lib (snd (call lib th k rule)) t
  end.

(** The limits of "coverage" after loading a file with the given rows. *)
Inductive coverage_row (rows : list (string * row)) : row -> Prop :=
| cov_given r l : In ("coverage"%string, r) rows -> In ("min"%string, l) r -> coverage_row rows r
| cov_no_min r : In ("coverage"%string, r) rows -> (forall l, ~ In ("min"%string, l) r) ->
    coverage_row rows (r ++ [("min"%string, XNum (Fin (1 # 20)))])
| cov_none : (forall r, ~ In ("coverage"%string, r) rows) ->
    coverage_row rows [("min"%string, XNum (Fin (1 # 20)))].

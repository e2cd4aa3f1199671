(** Vocabulary of the statements about conditions of the base class. *)
From Coq Require Import List ZArith QArith Bool String.
From Coq Require Import Sorting.Sorted Sorting.Permutation.
From Verif Require Import Base Num CondModel ThrModel MetModel RuleModel PlainModel.
Import ListNotations.
Open Scope Z_scope.

(** A condition on the features of these indexes. *)
Definition about (p : plain) (l : list Z) : Prop := p = mkPlain (Some l) false /\ NoDup l.

(** What can be done to a condition. *)
Inductive act_on := DoSort | DoNormalize | DoAssign (v : given Z).

(** One such step, which leaves the condition as it is when it raises. *)
Definition takes_step (a : act_on) (p p' : plain) : Prop :=
  match a with
  | DoSort => match plain_sort p with Ok q => p' = q | Err _ => p' = p end
  | DoNormalize => match plain_normalize p with Ok q => p' = q | Err _ => p' = p end
  | DoAssign v => snd (plain_set_indexes v p) = p'
  end.

Inductive steps : list act_on -> plain -> plain -> Prop :=
| steps_nil p : steps [] p p
| steps_cons a l p q r : takes_step a p q -> steps l q r -> steps (a :: l) p r.

(** No integer has the hash of the tuple of a feature. *)
Definition tuples_apart (H : hashing) : Prop :=
  forall l z, h_tuple H l <> hash_int z.

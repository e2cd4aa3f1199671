(** Vocabulary for load with several rulesets. *)
From Coq Require Import List.
From Verif Require Import PoolModel PoolSpec.

(** Objects that are all different, and that no ruleset has *)
Definition new_objects (p : pool) (new : nat -> nat) : Prop :=
  (forall m n, new m = new n -> m = n) /\ forall n i h, ruleset_at p i h -> ~ In (new n) (b_rules h).

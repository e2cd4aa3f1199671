(** Properties of equality of conditions with infinite bounds. *)
From Coq Require Import List ZArith QArith Bool String Lia.
From Coq Require Import List.
From Coq Require Import Sorting.Permutation.
From Verif Require Import Base Num CondModel CondSpec CondBase CondProofs CondEval CondAnd CondMore CondSet CondWit CondInf.
Import ListNotations.
Open Scope Z_scope.

(** ** C212 *)

Theorem C212_infinite : forall (H : hashing) (c d : cond) (fs gs : list feature),
  collision_free H -> condition c fs -> condition d gs -> clear_bounds fs -> clear_bounds gs ->
  ceq H c d = Ok true -> same_content fs gs.
Proof. exact equal_clear. Qed.
Print Assumptions C212_infinite.

Definition below := mkFeat "width" 0 MInf (numz 5).
Definition above := mkFeat "width" 0 (numz 5) PInf.
Definition everywhere := mkFeat "width" 0 MInf PInf.

Lemma all_clear f : In f [below; above; everywhere] -> clear_bounds [f].
Proof.
  intros I g [<-|[]]. unfold clear_bound.
  destruct I as [<-|[<-|[<-|[]]]]; cbn [below above everywhere f_low f_high]; split; auto;
    right; right; exists 5; (split; [reflexivity|lia]).
Qed.

Example C212_infinite_ex : ceq ideal (raw_cond [below]) (raw_cond [everywhere]) <> Ok true /\ ceq ideal (raw_cond [above]) (raw_cond [everywhere]) <> Ok true.
Proof.
  split; intros E.
  - destruct (C212_infinite ideal (raw_cond [below]) (raw_cond [everywhere]) [below] [everywhere]) as (A & _); auto using ideal_collision_free, one_distinct, raw_cond_ok.
    + apply all_clear. cbn. auto.
    + apply all_clear. cbn. auto.
    + destruct (A below (or_introl eq_refl)) as (g & [<-|[]] & _ & _ & K). exact K.
  - destruct (C212_infinite ideal (raw_cond [above]) (raw_cond [everywhere]) [above] [everywhere]) as (A & _); auto using ideal_collision_free, one_distinct, raw_cond_ok.
    + apply all_clear. cbn. auto.
    + apply all_clear. cbn. auto.
    + destruct (A above (or_introl eq_refl)) as (g & [<-|[]] & _ & K & _). exact K.
Qed.

(** ** C213 *)

Theorem C213_infinite_refuted : forall (H : hashing), exists (c d : cond) (fs gs : list feature) (xs : table),
  condition c fs /\ condition d gs /\ well_shaped xs /\ ceq H c d = Ok true /\ ~ same_content fs gs /\
  evaluate c xs = Ok [1] /\ evaluate d xs = Ok [0].
Proof. exact infinite_equal. Qed.
Print Assumptions C213_infinite_refuted.

(** Concrete conditions of the base class. *)
From Coq Require Import List ZArith QArith Bool String Ascii Lia.
From Coq Require Import Sorting.Permutation.
From Coq Require Import List.
From Verif Require Import Base Num CondModel CondSpec CondBase CondWit ThrModel MetModel MetWit RuleModel RuleWit PlainModel PlainSpec PlainProofs.
Import ListNotations.
Open Scope string_scope.
Open Scope list_scope.
Open Scope Z_scope.

(** Condition([4, 0, 2]) *)
Definition sites : plain := mkPlain (Some [4; 0; 2]) false.
(** Condition([2, 4, 0]) *)
Definition turned : plain := mkPlain (Some [2; 4; 0]) false.

Lemma sites_about : about sites [4; 0; 2].
Proof. split; [auto|]. repeat constructor; cbn; lia. Qed.
Lemma turned_about : about turned [2; 4; 0].
Proof. split; [auto|]. repeat constructor; cbn; lia. Qed.

(** RegressionRule(Condition([4, 0, 2]), Activation([1, 0, 1])) *)
Definition placed : prule := mkPrule sites (Some (new_activation [1; 0; 1])).
Definition moved : prule := mkPrule turned (Some (new_activation [1; 1; 0])).

(** Hashes without collision, those of tuples being out of reach of integers. *)
Definition apart : hashing := {|
  h_str := h_str ideal;
  h_frac := h_frac ideal;
  h_nan := h_nan ideal;
  h_tuple l := 2 ^ 62 + h_tuple ideal l;
  h_set := h_set ideal |}.

Lemma apart_collision_free : collision_free apart.
Proof.
  destruct ideal_collision_free as (A & B & C & D). split; [exact A|]. split; [|split; [exact C|]].
  - intros l l' E. apply B. unfold apart in E. cbn [h_tuple] in E. lia.
  - intros l s E. unfold apart in E. cbn [h_tuple h_str] in E.
    unfold ideal in E. cbn [h_tuple h_str] in E. lia.
Qed.

Lemma apart_tuples : tuples_apart apart.
Proof.
  intros l z E. unfold apart in E. cbn [h_tuple] in E. unfold ideal in E. cbn [h_tuple] in E.
  unfold hash_int in E. pose proof (Z.rem_bound_abs z hash_modulus ltac:(discriminate)) as B.
  change (Z.abs hash_modulus) with hash_modulus in B. change hash_modulus with (2 ^ 61 - 1) in *.
  destruct (Z.rem z (2 ^ 61 - 1) =? -1); lia.
Qed.

(** The logical and of the two conditions, and of the two rules, is built, while
    their sum raises. *)
Lemma plus_refuted :
  (exists c d e, band "index" c d = Ok e /\ cond_add c d = Err EType) /\
  (exists E r1 r2 r, rule_and E r1 r2 = Ok r /\ rule_add r1 r2 = Err EType).
Proof.
  split.
  - exists floor_plan, profile. eexists. split; [vm_compute; reflexivity|reflexivity].
  - exists free, (plan_rule floor_plan [1; 0] 3), (plan_rule profile [1; 0] 2). eexists.
    split; [vm_compute; reflexivity|reflexivity].
Qed.

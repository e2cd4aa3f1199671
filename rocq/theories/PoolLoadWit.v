(** Files loaded by rulesets with common rules: instances for the examples of
    PoolLoadProps.v. *)
From Coq Require Import List ZArith QArith Bool String Ascii Lia.
From Coq Require Import List.
From Verif Require Import Base Num CondModel ThrModel MetModel MetWit RuleModel RuleWit PredModel PredWit SetModel SetWit FitModel FitWit SerialModel SerialWit.
From Verif Require Import PoolModel PoolSpec PoolWit PoolLoadModel PoolLoadSpec.
Import ListNotations.
Open Scope string_scope.
Open Scope list_scope.
Open Scope Z_scope.

Definition priced_file : rows := read_csv ink (filed prices).
Definition nothing : rows := mkRows ["Unnamed: 0"] [].

(** The objects that the interpreter makes *)
Definition upstairs (n : nat) : nat := (10 + n)%nat.

Lemma loaded_ran X G new i w p o : fst (pool_load X G new i w p) = o -> pool_load X G new i w p = (o, snd (pool_load X G new i w p)).
Proof. intros <-. apply surjective_pairing. Qed.

(** One of two rulesets with the same rules loads a file. *)
Definition reread : pool := snd (pool_load ink quiet upstairs 0 priced_file twice).

Lemma reread_ok : pool_load ink quiet upstairs 0 priced_file twice = (Ok tt, reread).
Proof. apply loaded_ran. vm_compute. reflexivity. Qed.

Lemma upstairs_new : new_objects twice upstairs.
Proof.
  split; [unfold upstairs; intros m n; lia|]. intros n [|[|[|i]]] h A; vm_compute in A; try discriminate A; injection A as <-; intros I; cbn in I;
    unfold upstairs in I; lia.
Qed.

(** One of two rulesets with the same DataFrame loads a file without rules. *)
Definition restocked : pool := snd (pool_load ink quiet upstairs 0 nothing common).

Lemma restocked_ok : pool_load ink quiet upstairs 0 nothing common = (Ok tt, restocked).
Proof. apply loaded_ran. vm_compute. reflexivity. Qed.

Lemma upstairs_common : new_objects common upstairs.
Proof.
  split; [unfold upstairs; intros m n; lia|]. intros n [|[|[|i]]] h A; vm_compute in A; try discriminate A; injection A as <-; intros I; cbn in I;
    unfold upstairs in I; lia.
Qed.

Lemma common_shared : ~ alone common 0 (handle_at common 0).
Proof.
  intros A. destruct (A 1%nat (handle_at common 1)) as (_ & B); [discriminate|vm_compute; reflexivity|].
  apply (B 0%nat); vm_compute; reflexivity.
Qed.

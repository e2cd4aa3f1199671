(** Properties of load when several rulesets have rules in common. *)
From Coq Require Import List ZArith QArith Bool String Ascii Lia.
From Coq Require Import List.
From Verif Require Import Base Num CondModel ThrModel MetModel MetWit RuleModel RuleWit PredModel PredWit SetModel SetWit FitModel FitWit SerialModel SerialWit.
From Verif Require Import PoolModel PoolSpec PoolMore PoolWit PoolLoadModel PoolLoadSpec PoolLoad PoolLoadWit.
Import ListNotations.
Open Scope string_scope.
Open Scope list_scope.
Open Scope Z_scope.

(** ** C199 *)

Theorem C199_acts : forall (X : texts) (G : setup) (new : nat -> nat) (i : nat) (w : rows) (p p' : pool) (o o1 : res unit) (h : handle) (s' : ruleset),
  pool_load X G new i w p = (o, p') -> ruleset_at p i h -> new_objects p new -> load X G w (view p h) = (o1, s') ->
  o = o1 /\ exists h', ruleset_at p' i h' /\ view p' h' = s'.
Proof. exact load_acts. Qed.
Print Assumptions C199_acts.

Example C199_acts_ex : exists h, ruleset_at reread 0 h /\ view reread h = snd (load ink quiet priced_file (view twice (handle_at twice 0))) /\
  List.length (s_rules (view reread h)) = List.length (s_rules prices).
Proof.
  destruct (C199_acts ink quiet upstairs 0 priced_file twice reread (Ok tt) (fst (load ink quiet priced_file (view twice (handle_at twice 0)))) (handle_at twice 0)
    (snd (load ink quiet priced_file (view twice (handle_at twice 0)))) reread_ok) as (_ & h & A & B).
  - vm_compute. reflexivity.
  - exact upstairs_new.
  - apply surjective_pairing.
  - exists h. split; [exact A|]. split; [exact B|]. rewrite B. vm_compute. reflexivity.
Qed.

Theorem C199_others : forall (X : texts) (G : setup) (new : nat -> nat) (i j : nat) (w : rows) (p p' : pool) (o : res unit) (g : handle),
  pool_load X G new i w p = (o, p') -> in_use p -> new_objects p new -> i <> j -> ruleset_at p j g ->
  ruleset_at p' j g /\ view p' g = view p g.
Proof. exact load_others. Qed.
Print Assumptions C199_others.

Example C199_others_ex : b_rules (handle_at twice 0) = b_rules (handle_at twice 1) /\ view reread (handle_at twice 1) = view twice (handle_at twice 1).
Proof.
  split; [vm_compute; reflexivity|]. apply (C199_others ink quiet upstairs 0 1 priced_file twice reread (Ok tt) (handle_at twice 1) reread_ok).
  - apply from_blank.
  - exact upstairs_new.
  - discriminate.
  - vm_compute. reflexivity.
Qed.

Theorem C199_objects : forall (X : texts) (G : setup) (new : nat -> nat) (i : nat) (w : rows) (p p' : pool) (o : res unit) (l : nat),
  pool_load X G new i w p = (o, p') -> new_objects p new -> (forall n, l <> new n) -> p_rules p' l = p_rules p l.
Proof. exact load_objects. Qed.
Print Assumptions C199_objects.

Example C199_objects_ex : p_rules reread 1 = p_rules twice 1 /\ In 1%nat (b_rules (handle_at twice 0)).
Proof.
  split; [|vm_compute; auto]. apply (C199_objects ink quiet upstairs 0 priced_file twice reread (Ok tt) 1 reread_ok upstairs_new).
  intros n. unfold upstairs. lia.
Qed.

Theorem C199_own : forall (X : texts) (G : setup) (new : nat -> nat) (i : nat) (w : rows) (p p' : pool) (h' : handle),
  pool_load X G new i w p = (Ok tt, p') -> new_objects p new -> ruleset_at p' i h' ->
  NoDup (b_rules h') /\ forall j g l, i <> j -> ruleset_at p' j g -> In l (b_rules h') -> ~ In l (b_rules g).
Proof. exact load_own. Qed.
Print Assumptions C199_own.

Example C199_own_ex : b_rules (handle_at reread 0) <> [] /\
  forall l, In l (b_rules (handle_at reread 0)) -> ~ In l (b_rules (handle_at reread 1)).
Proof.
  split; [vm_compute; discriminate|]. intros l. destruct (C199_own ink quiet upstairs 0 priced_file twice reread (handle_at reread 0) reread_ok upstairs_new) as (_ & A).
  - vm_compute. reflexivity.
  - apply (A 1%nat); [discriminate|vm_compute; reflexivity].
Qed.

Theorem C199_frames : forall (X : texts) (G : setup) (new : nat -> nat) (i : nat) (w : rows) (p p' : pool) (h h' : handle),
  pool_load X G new i w p = (Ok tt, p') -> in_use p -> ruleset_at p i h -> ruleset_at p' i h' ->
  (s_stack (view p h) = true -> forall k, b_frame h' = Some k -> (p_next p <= k)%nat) /\
  (s_stack (view p h) = false -> b_frame h' = b_frame h).
Proof. exact load_frames. Qed.
Print Assumptions C199_frames.

Example C199_frames_ex : forall k, b_frame (handle_at restocked 0) = Some k -> (1 <= k)%nat.
Proof.
  destruct (C199_frames ink quiet upstairs 0 nothing common restocked (handle_at common 0) (handle_at restocked 0) restocked_ok) as (A & _).
  - apply from_blank.
  - vm_compute. reflexivity.
  - vm_compute. reflexivity.
  - apply A. vm_compute. reflexivity.
Qed.

Theorem C199_alone : forall (X : texts) (G : setup) (new : nat -> nat) (i : nat) (w : rows) (p p' : pool) (h h' : handle),
  pool_load X G new i w p = (Ok tt, p') -> in_use p -> new_objects p new -> ruleset_at p i h -> ruleset_at p' i h' ->
  s_stack (view p h) = true \/ b_frame h = None -> alone p' i h'.
Proof. exact load_alone. Qed.
Print Assumptions C199_alone.

Example C199_alone_ex : ~ alone common 0 (handle_at common 0) /\ alone restocked 0 (handle_at restocked 0).
Proof.
  split; [exact common_shared|].
  apply (C199_alone ink quiet upstairs 0 nothing common restocked (handle_at common 0) (handle_at restocked 0) restocked_ok).
  - apply from_blank.
  - exact upstairs_common.
  - vm_compute. reflexivity.
  - vm_compute. reflexivity.
  - left. vm_compute. reflexivity.
Qed.

Theorem C199_keeps : forall (X : texts) (G : setup) (new : nat -> nat) (i : nat) (w : rows) (p p' : pool) (o : res unit),
  pool_load X G new i w p = (o, p') -> in_use p -> new_objects p new -> in_use p' /\ (separate p -> separate p').
Proof. exact load_keeps. Qed.
Print Assumptions C199_keeps.

Example C199_keeps_ex : in_use reread /\ separate reread.
Proof.
  destruct (C199_keeps ink quiet upstairs 0 priced_file twice reread (Ok tt) reread_ok) as (A & B).
  - apply from_blank.
  - exact upstairs_new.
  - split; [exact A|]. apply B. apply from_blank. intros i j [E|[E|[]]]; discriminate E.
Qed.

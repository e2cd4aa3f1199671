(** Properties of histories that mix methods and loads. *)
From Coq Require Import List ZArith QArith Bool String Ascii Lia.
From Coq Require Import List.
From Verif Require Import Base Num CondModel ThrModel MetModel MetWit RuleModel RuleWit PredModel PredWit SetModel SetWit FitModel FitWit SerialModel SerialWit.
From Verif Require Import PoolModel PoolSpec PoolMore PoolWit PoolLoadModel PoolLoadSpec PoolLoad PoolLoadWit PoolHistory.
Import ListNotations.
Open Scope string_scope.
Open Scope list_scope.
Open Scope Z_scope.

(** ** C208 *)

Theorem C208_isolated : forall (G : setup) (X : texts) (es : list event) (p p' : pool) (j : nat) (h : handle),
  history G X es p p' -> in_use p -> ruleset_at p j h -> alone p j h -> (forall e, In e es -> about_others j h e) ->
  ruleset_at p' j h /\ view p' h = view p h /\ alone p' j h.
Proof. exact history_isolated. Qed.
Print Assumptions C208_isolated.

(** The first of two rulesets without common rules sorts its rules, loads a file and
    then drops its last rule. *)
Definition busy : list event := [Call (Sort 0 None false); Loads upstairs 0 priced_file; Call (Slice 0 None None (Some (-1))); Call (DelStacked 0)].

Definition after_busy : pool := run_events loose ink busy disjoint.

Lemma busy_new : new_objects (snd (exec loose ink (Sort 0 None false) disjoint)) upstairs.
Proof.
  split; [unfold upstairs; intros m n; lia|]. intros n [|[|[|i]]] h A; vm_compute in A; try discriminate A; injection A as <-; intros I; cbn in I;
    unfold upstairs in I; lia.
Qed.

Lemma busy_ran : history loose ink busy disjoint after_busy.
Proof.
  apply run_call, run_load; [exact busy_new|].
  exact (run_calls loose ink [Slice 0 None None (Some (-1)); DelStacked 0] _).
Qed.

Example C208_isolated_ex : view after_busy (handle_at disjoint 1) = view disjoint (handle_at disjoint 1) /\
  b_rules (handle_at after_busy 0) <> b_rules (handle_at disjoint 0).
Proof.
  split; [|vm_compute; discriminate].
  destruct (C208_isolated loose ink busy disjoint after_busy 1 (handle_at disjoint 1) busy_ran) as (_ & V & _); [| | | |exact V].
  - apply from_blank.
  - vm_compute. reflexivity.
  - intros [|[|i]] g N A; vm_compute in A; [|contradiction|destruct i; discriminate A]. injection A as <-. split.
    + intros l I K. vm_compute in I, K. destruct K as [<-|[]]. destruct I as [I|[I|[]]]; discriminate I.
    + intros k K. discriminate K.
  - intros e I. destruct I as [<-|[<-|[<-|[<-|[]]]]]; cbn [about_others]; try discriminate;
      (split; [intros O; inversion O as [? ? T| | | | |]; inversion T|intros l K R; inversion R]).
Qed.

Theorem C208_in_use : forall (G : setup) (X : texts) (es : list event) (p p' : pool), history G X es p p' -> in_use p -> in_use p'.
Proof. exact history_in_use. Qed.
Print Assumptions C208_in_use.

Example C208_in_use_ex : in_use after_busy.
Proof. apply (C208_in_use loose ink busy disjoint after_busy busy_ran). apply from_blank. Qed.

Theorem C208_separate : forall (G : setup) (X : texts) (es : list event) (p p' : pool),
  history G X es p p' -> in_use p -> separate p -> (forall i j, ~ In (Call (AddSet i j)) es) -> separate p'.
Proof. exact history_separate. Qed.
Print Assumptions C208_separate.

Example C208_separate_ex : separate after_busy.
Proof.
  apply (C208_separate loose ink busy disjoint after_busy busy_ran).
  - apply from_blank.
  - apply from_blank. intros i j [E|[E|[]]]; discriminate E.
  - intros i j [E|[E|[E|[E|[]]]]]; discriminate E.
Qed.

Theorem C208_loaded : forall (G : setup) (X : texts) (new : nat -> nat) (i : nat) (w : rows) (es : list event) (p p1 p' : pool) (h : handle) (s' : ruleset),
  in_use p -> ruleset_at p i h -> new_objects p new -> s_stack (view p h) = true \/ b_frame h = None ->
  load X G w (view p h) = (Ok tt, s') -> pool_load X G new i w p = (Ok tt, p1) -> history G X es p1 p' ->
  (forall e h1, ruleset_at p1 i h1 -> In e es -> about_others i h1 e) ->
  exists h1, ruleset_at p' i h1 /\ view p' h1 = s' /\ alone p' i h1.
Proof. exact history_loaded. Qed.
Print Assumptions C208_loaded.

(** After the load of [reread], the other ruleset, which had the same rules, drops
    their activations. *)
Definition later_on : list event := [Call (DelActivations 1); Call (Sort 1 None true)].

Definition after_later : pool := run_events quiet ink later_on reread.

Lemma later_ran : history quiet ink later_on reread after_later.
Proof. exact (run_calls quiet ink [DelActivations 1; Sort 1 None true] reread). Qed.

Example C208_loaded_ex : view after_later (handle_at after_later 0) = snd (load ink quiet priced_file (view twice (handle_at twice 0))).
Proof.
  destruct (C208_loaded quiet ink upstairs 0 priced_file later_on twice reread after_later (handle_at twice 0)
    (snd (load ink quiet priced_file (view twice (handle_at twice 0))))) as (h1 & A & B & _).
  - apply from_blank.
  - vm_compute. reflexivity.
  - exact upstairs_new.
  - right. vm_compute. reflexivity.
  - assert (Q : forall (x : res unit * ruleset) o, fst x = o -> x = (o, snd x)) by (intros x o <-; apply surjective_pairing). apply Q. vm_compute. reflexivity.
  - exact reread_ok.
  - exact later_ran.
  - intros e h1 _ [<-|[<-|[]]]; cbn [about_others]; (split; [intros O; inversion O as [? ? T| | | | |]; inversion T|intros l K R; inversion R]).
  - assert (h1 = handle_at after_later 0) as <-; [|exact B]. unfold handle_at, ruleset_at in *. rewrite (nth_error_nth _ _ _ A). reflexivity.
Qed.

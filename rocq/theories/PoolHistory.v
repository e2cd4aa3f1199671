(** Histories of several rulesets that mix the methods of PoolModel.v and load. *)
From Coq Require Import List ZArith QArith Bool String Ascii Lia.
From Coq Require Import List.
From Verif Require Import Base Num SetModel FitModel SerialModel PoolModel PoolSpec PoolBase PoolStep PoolFrames PoolMore
  PoolLoadModel PoolLoadSpec PoolLoad.
Import ListNotations.

(** A call of a method, or a load of the file [w] by the ruleset [i], for which the
    interpreter makes the objects [new] *)
Inductive event : Type :=
| Call (c : command)
| Loads (new : nat -> nat) (i : nat) (w : rows).

(** From a pool to another by events, whatever their outcomes *)
Inductive history (G : setup) (X : texts) : list event -> pool -> pool -> Prop :=
| H_end : forall p, history G X [] p p
| H_call : forall c es p p1 p' o, exec G X c p = (o, p1) -> history G X es p1 p' -> history G X (Call c :: es) p p'
| H_load : forall new i w es p p1 p' o, new_objects p new -> pool_load X G new i w p = (o, p1) -> history G X es p1 p' ->
    history G X (Loads new i w :: es) p p'.

(** Nothing that the event names is the ruleset [j] or one of its rules. *)
Definition about_others (j : nat) (h : handle) (e : event) : Prop :=
  match e with
  | Call c => ~ operand c j /\ forall l, In l (b_rules h) -> ~ argument c l
  | Loads _ i _ => i <> j
  end.

Lemma load_still_alone X G new i w p o p' j g :
  pool_load X G new i w p = (o, p') -> in_use p -> new_objects p new -> i <> j -> ruleset_at p j g -> alone p j g -> alone p' j g.
Proof.
  intros E U N IJ J L. destruct (nth_error (p_sets p) i) as [h|] eqn:A.
  2: { rewrite (load_nobody _ _ _ _ _ _ _ _ E); auto. intros h B. unfold ruleset_at in B. congruence. }
  destruct (load_at _ _ _ _ _ _ _ _ _ E A N) as (h' & B & [_ _ _ L4 L5 L6] & _). intros k g' KJ K. destruct (Nat.eq_dec i k) as [<-|IK].
  - assert (g' = h') by (unfold ruleset_at in *; congruence). subst g'. destruct (L i h IJ A) as (R & F). split.
    + intros l I Q. destruct (L6 l Q) as [O|(n & ->)]; [exact (R l I O)|]. destruct N as (_ & N). exact (N n j g J I).
    + intros q Q I. destruct L5 as [L5|[L5|(q1 & L5 & LT)]]; [rewrite L5 in Q; exact (F q Q I)|congruence|].
      pose proof (U j g q J I). assert (q1 = q) by congruence. lia.
  - apply (L k g'); auto. unfold ruleset_at in *. rewrite L4, replace_other in K; auto.
Qed.

Lemma history_isolated (G : setup) (X : texts) (es : list event) (p p' : pool) (j : nat) (h : handle) :
  history G X es p p' -> in_use p -> ruleset_at p j h -> alone p j h -> (forall e, In e es -> about_others j h e) ->
  ruleset_at p' j h /\ view p' h = view p h /\ alone p' j h.
Proof.
  intros H. induction H as [p|c es p p1 p' o E _ IH|new i w es p p1 p' o N E _ IH]; intros U A L O; auto.
  - destruct (isolated G X [c] p j h U A L) as (A1 & V1 & L1).
    { intros d [<-|[]]. exact (O (Call c) (or_introl eq_refl)). }
    cbn in A1, V1, L1. rewrite E in A1, V1, L1. cbn [snd] in A1, V1, L1.
    destruct IH as (A2 & V2 & L2); auto; [exact (in_use_step _ _ _ _ _ _ E U)|intros e I; apply O; right; auto|].
    repeat split; auto; try congruence; apply (L2 i g); auto.
  - assert (IJ : i <> j) by exact (O (Loads new i w) (or_introl eq_refl)).
    destruct (load_others _ _ _ _ _ _ _ _ _ _ E U N IJ A) as (A1 & V1).
    pose proof (load_still_alone _ _ _ _ _ _ _ _ _ _ E U N IJ A L) as L1. destruct (load_keeps _ _ _ _ _ _ _ _ E U N) as (U1 & _).
    destruct IH as (A2 & V2 & L2); auto; [intros e I; apply O; right; auto|].
    split; auto. split; [congruence|auto].
Qed.

Lemma history_in_use (G : setup) (X : texts) (es : list event) (p p' : pool) : history G X es p p' -> in_use p -> in_use p'.
Proof.
  intros H. induction H as [p|c es p p1 p' o E _ IH|new i w es p p1 p' o N E _ IH]; intros U; auto.
  - apply IH. exact (in_use_step _ _ _ _ _ _ E U).
  - apply IH. exact (proj1 (load_keeps _ _ _ _ _ _ _ _ E U N)).
Qed.

Lemma history_separate (G : setup) (X : texts) (es : list event) (p p' : pool) :
  history G X es p p' -> in_use p -> separate p -> (forall i j, ~ In (Call (AddSet i j)) es) -> separate p'.
Proof.
  intros H. induction H as [p|c es p p1 p' o E _ IH|new i w es p p1 p' o N E _ IH]; intros U S C; auto.
  - destruct (separate_step _ _ _ _ _ _ E U S) as (U1 & S1).
    { intros (i & j & _ & _ & _ & -> & _). apply (C i j). left; auto. }
    apply IH; auto. intros i j I. apply (C i j). right. auto.
  - destruct (load_keeps _ _ _ _ _ _ _ _ E U N) as (U1 & S1). apply IH; auto. intros a b I. apply (C a b). right. auto.
Qed.

(** After a load, whatever the others do: what the file says *)
Lemma history_loaded (G : setup) (X : texts) (new : nat -> nat) (i : nat) (w : rows) (es : list event) (p p1 p' : pool) (h : handle) (s' : ruleset) :
  in_use p -> ruleset_at p i h -> new_objects p new -> s_stack (view p h) = true \/ b_frame h = None ->
  load X G w (view p h) = (Ok tt, s') -> pool_load X G new i w p = (Ok tt, p1) -> history G X es p1 p' ->
  (forall e h1, ruleset_at p1 i h1 -> In e es -> about_others i h1 e) ->
  exists h1, ruleset_at p' i h1 /\ view p' h1 = s' /\ alone p' i h1.
Proof.
  intros U A N F V E H O. destruct (load_acts _ _ _ _ _ _ _ _ _ _ _ E A N V) as (_ & h1 & B & W). exists h1.
  destruct (load_keeps _ _ _ _ _ _ _ _ E U N) as (U1 & _). pose proof (load_alone _ _ _ _ _ _ _ _ _ E U N A B F) as L.
  destruct (history_isolated _ _ _ _ _ _ _ H U1 B L) as (B2 & V2 & L2); [intros e I; apply O; auto|]. repeat split; auto; try congruence; apply (L2 i0 g); auto.
Qed.

(** The only pool that the events lead to *)
Fixpoint run_events (G : setup) (X : texts) (es : list event) (p : pool) : pool :=
  match es with
  | [] => p
  | Call c :: es => run_events G X es (snd (exec G X c p))
  | Loads new i w :: es => run_events G X es (snd (pool_load X G new i w p))
  end.

Lemma run_call G X c es p : history G X es (snd (exec G X c p)) (run_events G X es (snd (exec G X c p))) ->
  history G X (Call c :: es) p (run_events G X (Call c :: es) p).
Proof. intros H. eapply H_call; [apply surjective_pairing|exact H]. Qed.

Lemma run_load G X new i w es p : new_objects p new ->
  history G X es (snd (pool_load X G new i w p)) (run_events G X es (snd (pool_load X G new i w p))) ->
  history G X (Loads new i w :: es) p (run_events G X (Loads new i w :: es) p).
Proof. intros N H. eapply H_load; [exact N|apply surjective_pairing|exact H]. Qed.

Lemma run_calls G X cs p : history G X (map Call cs) p (run_events G X (map Call cs) p).
Proof. revert p. induction cs as [|c cs IH]; intros p; [apply H_end|apply run_call, IH]. Qed.

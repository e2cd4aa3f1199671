From Coq Require Import List ZArith QArith Bool String Lia.
From Coq Require Import List.
From Verif Require Import Base Num CondModel ThrModel MetModel RuleModel PredModel SetModel SetSpec SetBase SetAdd SetEq FitModel SerialModel SerialSave PoolModel PoolSpec PoolBase PoolProofs.
Import ListNotations.
Open Scope string_scope.
Open Scope list_scope.
Open Scope Z_scope.

(** ** One command *)

(** A command only sets the attributes of its target. *)
Lemma other_kept (G : setup) (X : texts) (c : command) (p p' : pool) (o : res unit) (j : nat) (h : handle) :
  exec G X c p = (o, p') -> ruleset_at p j h -> ~ target c j ->
  ruleset_at p' j h /\ exists rules f, view p' h = with_rules rules (with_stacked f (view p h)) /\
    List.length rules = List.length (s_rules (view p h)) /\ (f = None <-> s_stacked (view p h) = None).
Proof.
  intros E A N. apply exec_does in E as ([_ _ _ S] & _). split.
  - apply S; auto. intros T. apply N, target_iff, T.
  - exists (map (p_rules p') (b_rules h)), (option_map (p_frames p') (b_frame h)). split; [reflexivity|].
    cbn. rewrite !map_length. split; auto. destruct (b_frame h); cbn; split; congruence.
Qed.

(** Another ruleset stays the same when its rules are not changed, and when its
    DataFrame is not the one that a rule is added to. *)
Lemma other_same (G : setup) (X : texts) (c : command) (p p' : pool) (o : res unit) (j : nat) (h : handle) :
  exec G X c p = (o, p') -> in_use p -> ruleset_at p j h -> ~ target c j ->
  (forall l, In l (b_rules h) -> ~ changes G p c l) ->
  (forall i g k, adds c i -> ruleset_at p i g -> b_frame g = Some k -> b_frame h <> Some k) ->
  ruleset_at p' j h /\ view p' h = view p h.
Proof.
  intros E U A N R F. apply exec_does in E as ([ER EF _ ES] & _). split.
  - apply ES; auto. intros T. apply N, target_iff, T.
  - apply view_same.
    + intros l I. apply ER. auto.
    + intros k K. apply EF; [eapply U; eauto|]. intros (i & g & H1 & H2 & H3). eapply F; eauto.
Qed.

Lemma in_use_step G X c p p' o : exec G X c p = (o, p') -> in_use p -> in_use p'.
Proof.
  intros E U. apply exec_does in E as ([_ _ EN _] & D). intros i h k A K.
  destruct D as [(D & D')|(q & D & (_ & Q))].
  - rewrite D'. eapply U; [unfold ruleset_at in *; rewrite <- D; eauto|auto].
  - apply D in A as [(A & _)|(-> & _)]; [apply (Nat.lt_le_trans _ (p_next p)); auto; eapply U; eauto|].
    destruct Q as [[Q|(k' & Q & Q')]|(i' & h' & _ & A' & Q & _)].
    + congruence.
    + rewrite Q in K. injection K as <-. lia.
    + apply (Nat.lt_le_trans _ (p_next p)); auto. eapply U; [exact A'|congruence].
Qed.

(** Only [+=] with a ruleset makes a DataFrame common. *)
Lemma separate_step (G : setup) (X : texts) (c : command) (p p' : pool) (o : res unit) :
  exec G X c p = (o, p') -> in_use p -> separate p -> ~ takes p c -> in_use p' /\ separate p'.
Proof.
  intros E U S N. split; [eapply in_use_step; eauto|]. apply exec_does in E as ([_ _ EN _] & D).
  destruct D as [(D & D')|(q & D & (_ & Q))].
  - intros i j h g k A B. unfold ruleset_at in *. rewrite D in A, B. eapply S; eauto.
  - assert (O : forall j g k, ruleset_at p j g -> target_of c <> Some j -> b_frame q = Some k -> b_frame g <> Some k).
    { intros j g k B T K K'. destruct Q as [[Q|(k' & Q & Q')]|(i' & h' & _ & A' & Q & [T'|T'])].
      - congruence.
      - assert (k = k') by congruence. subst k'. pose proof (U _ _ _ B K'). lia.
      - apply (S i' j h' g k A' B); congruence.
      - auto. }
    intros i j h g k A B I K. apply D in A, B.
    destruct A as [(A & TA)|(-> & TA)], B as [(B & TB)|(-> & TB)].
    + exact (S _ _ _ _ _ A B I K).
    + intros K'. apply (O i h k A TA K'). auto.
    + eapply O; eauto.
    + exfalso. apply I. destruct TA as [TA|(TA & ->)], TB as [TB|(TB & ->)]; congruence.
Qed.

(** ** Histories *)

(** Additions and constructions, without all_features_indexes and without [+=] of
    rulesets, change no other ruleset, whatever rules they have in common. *)
Lemma additions_local (G : setup) (X : texts) (cs : list command) (p : pool) (j : nat) (h : handle) :
  in_use p -> separate p -> g_indexes G = [] -> ruleset_at p j h ->
  (forall c, In c cs -> ~ target c j /\ (forall i, ~ works_on c i) /\ (forall i k, c <> AddSet i k)) ->
  ruleset_at (exec_all G X cs p) j h /\ view (exec_all G X cs p) h = view p h.
Proof.
  revert p. induction cs as [|c cs IH]; intros p U S GI A C; cbn; auto.
  destruct (exec G X c p) as [o p1] eqn:E. cbn [snd].
  destruct (C c (or_introl eq_refl)) as (C1 & C2 & C3).
  assert (N : ~ takes p c) by (intros (i & k & _ & _ & _ & T & _); exact (C3 _ _ T)).
  destruct (separate_step _ _ _ _ _ _ E U S N) as (U1 & S1).
  destruct (other_same _ _ _ _ _ _ j h E U A C1) as (A1 & V1).
  - intros l I [(i & _ & W & _)|(G1 & _)]; [exact (C2 _ W)|auto].
  - intros i g k AD B K. apply (S i j g h k); auto. intros ->. apply C1. inversion AD; subst; constructor.
  - destruct (IH p1 U1 S1 GI A1) as (A2 & V2); [intros c' I; apply C; right; auto|]. split; auto. congruence.
Qed.

(** [+=] of rulesets too, when the target has a DataFrame, does not stack, or the
    other one has no DataFrame. *)
Lemma additions_local_step (G : setup) (X : texts) (c : command) (p p' : pool) (o : res unit) (j : nat) (h : handle) :
  exec G X c p = (o, p') -> in_use p -> separate p -> g_indexes G = [] -> ruleset_at p j h ->
  ~ target c j -> (forall i, ~ works_on c i) ->
  ruleset_at p' j h /\ view p' h = view p h /\ (~ takes p c -> in_use p' /\ separate p').
Proof.
  intros E U S GI A C1 C2. destruct (other_same _ _ _ _ _ _ j h E U A C1) as (A1 & V1).
  - intros l I [(i & _ & W & _)|(G1 & _)]; [exact (C2 _ W)|auto].
  - intros i g k AD B K. apply (S i j g h k); auto. intros ->. apply C1. inversion AD; subst; constructor.
  - repeat split; auto; eapply separate_step; eauto.
Qed.

(** A ruleset that has nothing in common with the others, and that no command is
    about, stays the same. *)
Lemma isolated (G : setup) (X : texts) (cs : list command) (p : pool) (j : nat) (h : handle) :
  in_use p -> ruleset_at p j h -> alone p j h ->
  (forall c, In c cs -> ~ operand c j /\ forall l, In l (b_rules h) -> ~ argument c l) ->
  ruleset_at (exec_all G X cs p) j h /\ view (exec_all G X cs p) h = view p h /\ alone (exec_all G X cs p) j h.
Proof.
  revert p. induction cs as [|c cs IH]; intros p U A L C; cbn; auto.
  destruct (exec G X c p) as [o p1] eqn:E. cbn [snd].
  destruct (C c (or_introl eq_refl)) as (C1 & C2).
  assert (T : ~ target c j) by (intros T; apply C1, O_target, T).
  destruct (other_same _ _ _ _ _ _ j h E U A T) as (A1 & V1).
  - intros l I [(i & g & W & B & I')|(_ & _ & [K|(i & g & O & B & I')])].
    + assert (i <> j) by (intros ->; apply C1, O_target; inversion W; subst; constructor). destruct (L i g H B) as (L1 & _). eapply L1; eauto.
    + eapply C2; eauto.
    + assert (i <> j) by (intros ->; auto). destruct (L i g H B) as (L1 & _). eapply L1; eauto.
  - intros i g k AD B K. assert (i <> j) by (intros ->; apply T; inversion AD; subst; constructor).
    destruct (L i g H B) as (_ & L2). auto.
  - assert (L' : alone p1 j h).
    { apply exec_does in E as (_ & D). intros i g I B. destruct D as [(D & _)|(q & D & (Q1 & Q2))].
      - apply (L i g I). unfold ruleset_at in *. congruence.
      - apply D in B as [(B & _)|(-> & _)]; [apply (L i g I B)|]. split.
        + intros l K K'. destruct (Q1 _ K') as [Q|(i' & g & O & B & Q)]; [eapply C2; eauto|].
          assert (i' <> j) by (intros ->; auto). destruct (L i' g H B) as (L1 & _). eapply L1; eauto.
        + intros k K K'. destruct Q2 as [[Q|(k' & Q & Q')]|(i' & g & O & B & Q & _)].
          * congruence.
          * assert (k = k') by congruence. subst k'. pose proof (U _ _ _ A K'). lia.
          * assert (i' <> j) by (intros ->; auto). destruct (L i' g H B) as (_ & L2). apply (L2 k); congruence. }
    destruct (IH p1 (in_use_step _ _ _ _ _ _ E U) A1 L') as (A2 & V2 & L2); [intros c' I; apply C; right; auto|].
    split; [exact A2|]. split; [congruence|exact L2].
Qed.

(** ** From the beginning *)

Lemma all_in_use G X cs : forall p, in_use p -> in_use (exec_all G X cs p).
Proof.
  induction cs as [|c cs IH]; intros p U; cbn; auto. destruct (exec G X c p) as [o p1] eqn:E. apply IH. eapply in_use_step; eauto.
Qed.

Lemma all_separate G X cs : (forall i j, ~ In (AddSet i j) cs) -> forall p, in_use p -> separate p -> separate (exec_all G X cs p).
Proof.
  induction cs as [|c cs IH]; intros N p U S; cbn; auto. destruct (exec G X c p) as [o p1] eqn:E.
  destruct (separate_step _ _ _ _ _ _ E U S) as (U1 & S1).
  - intros (i & j & _ & _ & _ & -> & _). apply (N i j). left; auto.
  - apply IH; auto. intros i j I. apply (N i j). right; auto.
Qed.

(** The DataFrames of rulesets made without [+=] of rulesets are different objects. *)
Lemma from_blank (G : setup) (X : texts) (cs : list command) (rules : nat -> rule) :
  in_use (exec_all G X cs (blank rules)) /\ ((forall i j, ~ In (AddSet i j) cs) -> separate (exec_all G X cs (blank rules))).
Proof.
  assert (U : in_use (blank rules)) by (intros [|i] h k A; discriminate A).
  assert (S : separate (blank rules)) by (intros [|i] j h g k A; discriminate A).
  split; [apply all_in_use; auto|]. intros N. apply all_separate; auto.
Qed.

(** Which DataFrame a ruleset has after sort, by any criterion. *)
From Coq Require Import List ZArith QArith Bool String Lia.
From Coq Require Import List.
From Verif Require Import Base Num CondModel ThrModel MetModel RuleModel PredModel SetModel SetSpec SetBase SetAdd SetEq SetSort FitModel SerialModel
  PoolModel PoolSpec PoolBase PoolStep PoolLearn PoolProofs PoolMore PoolView.
Import ListNotations.
Open Scope string_scope.
Open Scope list_scope.
Open Scope Z_scope.

(** A sort that succeeds has an order. *)
Lemma sort_has_order G p h c reverse r l s' : s_rules (view p h) = r :: l -> (c = None \/ c = Some "" -> has_condition r = true) ->
  set_sort G c reverse (view p h) = (Ok tt, s') -> exists ls, objects_sorted G (p_rules p) c reverse (uses_names (view p h)) (b_rules h) = Some ls.
Proof.
  intros RL HC E. unfold set_sort in E. rewrite RL in E. unfold objects_sorted.
  cbn [view with_rules with_stacked s_rules] in RL. destruct (b_rules h) as [|x xs]; [discriminate|]. injection RL as RL _. rewrite RL.
  assert (D : (c = None \/ c = Some "") \/ exists d, c = Some d /\ d <> "").
  { destruct c as [[|a d]|]; auto. right. eexists. split; [reflexivity|discriminate]. }
  destruct D as [D|(d & -> & D)].
  - rewrite (HC D). destruct D as [-> | ->]; eauto.
  - destruct d as [|a d]; [congruence|]. cbv iota in E |- *. destruct (hasattr r (String a d)) as [[|]|]; eauto; discriminate.
Qed.

Lemma sort_frame_any (G : setup) (X : texts) (p p' : pool) (i : nat) (c : option string) (reverse : bool) (h : handle) (r : rule) (l : list rule) :
  exec G X (Sort i c reverse) p = (Ok tt, p') -> in_use p -> ruleset_at p i h -> s_rules (view p h) = r :: l ->
  (c = None \/ c = Some "" -> has_condition r = true) ->
  exists h', ruleset_at p' i h' /\
    (s_stack (view p h) = false -> b_frame h' = b_frame h) /\
    (s_stack (view p h) = true -> forall k, b_frame h' = Some k -> (p_next p <= k)%nat).
Proof.
  intros E U A RL HC. cbn [exec] in E. unfold pool_sort, method in E. rewrite (proj2 (get_ok _ _ _) A) in E.
  pose proof (set_sort_from G (p_rules p) c reverse (view p h) (b_rules h) eq_refl) as SF.
  destruct (set_sort G c reverse (view p h)) as [o s'] eqn:Q.
  assert (o = Ok tt) as ->.
  { destruct (objects_sorted _ _ _ _ _ _) as [[ls|]|]; [|injection E; auto|injection E; auto].
    destruct (frame_after_step h (s_stack (view p h)) o s' p); injection E; auto. }
  destruct (sort_has_order _ _ _ _ _ _ _ _ RL HC Q) as (ls & O).
  rewrite O in E, SF. destruct ls as [ls|e]; [|injection SF as SF; discriminate].
  unfold reorder in SF. cbn [s_stack with_rules] in SF.
  destruct (s_stack (view p h)) eqn:ST.
  - unfold frame_after_step, new_frame in E.
    destruct (s_stacked s') as [f|]; [destruct (b_frame h) as [k0|]|]; injection E as <-; eexists; (split; [eapply at_kept; exact A|]); cbn; (split; [discriminate|]);
      intros _ k K; try discriminate; injection K as <-; lia.
  - injection SF as ->. unfold frame_after_step in E. cbn [with_rules s_stacked] in E.
    destruct (b_frame h) as [k0|] eqn:B; cbn in E; rewrite ?B in E; cbn in E; injection E as <-; eexists; (split; [eapply at_kept; exact A|]); cbn; split; auto; discriminate.
Qed.

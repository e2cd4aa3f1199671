(** fit of rulesets succeeds. *)
From Coq Require Import List ZArith QArith Bool String Ascii Permutation Lia.
From Coq Require Import List.
From Verif Require Import Base Num Arith CondModel CondSpec CondBase CondMore CondSet ThrModel ThrProofs MetModel MetSpec RuleModel RuleSpec RuleProofs RuleFit RuleEval RuleValues RuleMisc.
From Verif Require Import PredModel PredSpec PredReg PredStack PredMisc SetModel SetSpec SetBase SetSort SetAct SetAdd SetEq SetMisc FitModel FitSpec FitDrop FitMain FitEval FitStack.
Import ListNotations.
Open Scope string_scope.
Open Scope list_scope.
Open Scope Z_scope.

Lemma each_total f l m : Forall2 (fun r r' => f r = (Ok tt, r')) l m -> each f l = (Ok tt, m).
Proof. induction 1 as [|r r' l m X F IH]; auto. cbn [each]. rewrite X, IH. auto. Qed.

(** Rules of one type, with vectors of one length *)
Definition aligned (k : kind) (n : nat) (l : list rule) : Prop :=
  forall r, In r l -> r_kind r = k /\ usable r /\ exists v, working r None v /\ List.length v = n.

Lemma aligned_compatible k n l : aligned k n l -> compatible l.
Proof.
  intros A. split; [exists k; intros r I; apply (A r I)|]. split; [intros r I; apply (A r I)|]. right. exists n. intros r I. apply (A r I).
Qed.

Lemma refresh_total G b c s k n : s_stack s = false -> aligned k n (s_rules s) -> exists s', refresh G b c s = (Ok tt, s') /\ s_rules s' = s_rules s.
Proof.
  intros St A. unfold refresh. destruct b.
  - destruct (evaluate_self_plain (with_activation None s)) as (o & O). { apply aligned_compatible with (k := k) (n := n). auto. }
    unfold compute_self_activation. rewrite O. cbn [use chain done]. cbn [s_stack with_activation]. rewrite St. cbn. eauto.
  - cbn [chain done]. rewrite St. cbn. eauto.
Qed.

Lemma drop_total G drop s k n : unordered (g_hash G) -> collision_free (g_hash G) -> (forall r, In r (s_rules s) -> regular r) ->
  (forall j q, In (j, q) drop -> nth_error (s_rules s) j = Some q) -> s_compute s = true -> s_type s = Some k -> aligned k n (s_rules s) ->
  exists s', drop_rules G drop s = (Ok tt, s') /\ s_stack s' = s_stack s /\ aligned k n (s_rules s').
Proof.
  intros U F R D Cp T A. destruct (keep_ok _ _ drop U F R D) as (l & L & C). unfold drop_rules, rebuild. rewrite L. cbn [use].
  assert (Al : aligned k n l). { intros r I. apply A. apply (chosen_In _ _ _ C). auto. }
  set (s1 := del_stacked_activations (cleared (with_rules [] s))).
  assert (X : s_compute s1 = true /\ s_type s1 = Some k /\ s_stack s1 = s_stack s /\ s_rules s1 = []).
  { unfold s1, cleared. cbn [s_act with_rules]. destruct (s_act s); cbn; auto. }
  destruct X as (X1 & X2 & X3 & X4).
  destruct (append_all_plain G k l) with (s := s1) as (s2 & H2); auto.
  { intros r I. apply (Al r I). }
  { intros r I. apply (Al r I). }
  exists s2. split; auto. apply append_all_extends in H2 as (H2 & _). rewrite the_rules_map in H2.
  destruct H2 as [E1 _ _ _ _ _ _ (B1 & B2 & B3 & B4 & B5 & B6)]. rewrite X4 in E1. cbn in E1. rewrite E1. split; auto. congruence.
Qed.

Lemma fit_total G y series xs force kw s fitted k n z :
  unordered (g_hash G) -> collision_free (g_hash G) -> g_stacked G = false -> fits_something s xs kw ->
  (forall r, In r (s_rules s) -> regular r /\ usable r /\ r_kind r = k) -> s_type s = Some k -> s_stack s = false -> s_compute s = true ->
  Forall2 (fun r r' => RuleModel.fit (g_env G) y xs force kw r = (Ok tt, r')) (s_rules s) fitted ->
  (forall r, In r fitted -> exists v, working r None v /\ List.length v = n) -> target_len y = Ok z ->
  exists dropped s', set_fit G y series xs force kw s = (Ok dropped, s').
Proof.
  intros U F St (L & Ne & Rows & Some_) R T Sk Cp A V Z. destruct (learns_ok _ _ L) as (k' & Lk & T' & _). assert (k' = k) as -> by congruence.
  assert (S : Forall2 still (s_rules s) fitted) by (eapply forall2_weaken; [|exact A]; intros a b; apply still_fit).
  assert (Al : aligned k n fitted).
  { intros r I. destruct (forall2_in _ _ _ S) as (_ & Y). destruct (Y r I) as (q & J & (Q1 & Q2)). destruct (R q J) as (_ & (c & i & l & C1 & C2) & R2).
    split; [congruence|]. split; [exists c, i, l; rewrite Q2; auto|auto]. }
  assert (Rg : forall r, In r fitted -> regular r). { apply (forall2_regular _ _ S). intros r I. apply R. auto. }
  unfold set_fit. rewrite Lk. cbn [use]. rewrite (rows_given _ Rows).
  destruct (s_rules s) as [|r0 t0] eqn:Rs; [congruence|]. rewrite <- Rs in *.
  assert (X : forallb r_fitted (s_rules s) && negb (given xs) = false).
  { destruct xs as [t|]; [apply andb_false_r|]. cbn. rewrite andb_true_r. destruct (forallb r_fitted (s_rules s)) eqn:X; auto.
    rewrite forallb_forall in X. destruct (Some_ eq_refl) as (q & I & J). rewrite X in J; auto. }
  rewrite X. unfold fit_rules. rewrite St. unfold for_each. rewrite (each_total _ _ _ A). cbn [chain next].
  set (s1 := with_rules fitted s). change (s_rules s1) with fitted.
  destruct (numbers_rules fitted (bad_numbers fitted)) as [|p d] eqn:Dr.
  - destruct (refresh_total G (no_activation s1 || given xs) (fun s => not_stacked s || given xs) s1 k n Sk Al) as (s2 & H2 & _).
    rewrite H2. cbn [chain]. rewrite Z. cbn [use]. eauto.
  - destruct (drop_total G (p :: d) s1 k n) as (s2 & H2 & E2 & A2); auto.
    { intros j q I. rewrite <- Dr in I. apply (numbers_from fitted (bad_numbers fitted)). auto. }
    rewrite H2. cbn [chain]. destruct (refresh_total G true (fun _ => true) s2 k n) as (s3 & H3 & _); auto. { rewrite E2. auto. }
    rewrite H3. cbn [chain]. rewrite Z. cbn [use]. eauto.
Qed.

(** fit and eval of rulesets, rule by rule: the statements. *)
From Coq Require Import List ZArith QArith Bool String Ascii Permutation Lia.
From Coq Require Import List.
From Verif Require Import Base Num Arith CondModel CondSpec CondBase CondMore CondSet ThrModel ThrProofs MetModel MetSpec RuleModel RuleSpec RuleProofs RuleFit RuleEval RuleValues RuleMisc.
From Verif Require Import PredModel PredSpec PredReg PredStack PredMisc SetModel SetSpec SetBase SetSort SetAct SetAdd SetEq SetMisc FitModel FitSpec FitDrop.
Import ListNotations.
Open Scope string_scope.
Open Scope list_scope.
Open Scope Z_scope.

Lemma same_rule_sym H r q : unordered H -> collision_free H -> regular r -> regular q -> same_rule r q -> same_rule q r.
Proof.
  intros U F R Q S. destruct (regular_code H r R) as (h & C). apply (code_same H U F q r h); auto. eapply (same_code H U r q); eauto.
Qed.

Lemma different_still l m : Forall2 still l m -> all_different l -> all_different m.
Proof.
  unfold all_different. induction 1 as [|a b l m S F IH]; intros D; [constructor|]. inversion D as [|x t D1 D2]; subst. constructor; auto.
  apply Forall_forall. intros q I K. destruct (forall2_in _ _ _ F) as (_ & X). destruct (X q I) as (p & J & Sp).
  rewrite Forall_forall in D1. apply (D1 p J). apply (same_rule_still a p b q); auto.
Qed.

(** Among different rules, those that are not the same as a bad one are the good ones. *)
Lemma good_kept H rules dropped : unordered H -> collision_free H -> (forall r, In r rules -> regular r) -> all_different rules ->
  chosen is_bad rules dropped -> forall r, In r rules -> (forall q, In q dropped -> ~ same_rule q r) <-> is_good r.
Proof.
  intros U F R D C r I. rewrite is_good_spec. split.
  - intros K. destruct (r_good r) eqn:G; auto. exfalso. apply (K r); [|apply (same_refl H U F); auto].
    apply (chosen_In _ _ _ C). split; auto. apply is_bad_spec. auto.
  - intros G q J S. apply (chosen_In _ _ _ C) in J as (J & B). apply is_bad_spec in B.
    destruct (ForallOrdPairs_In D q r J I) as [E|[K|K]]; [congruence|auto|]. apply K. apply (same_rule_sym H); auto.
Qed.

Lemma fit_same_rules G y series xs force kw s dropped s' :
  unordered (g_hash G) -> collision_free (g_hash G) -> g_stacked G = false -> fits_something s xs kw ->
  (forall r, In r (s_rules s) -> regular r) ->
  set_fit G y series xs force kw s = (Ok dropped, s') ->
  exists fitted, Forall2 (fun r r' => RuleModel.fit (g_env G) y xs force kw r = (Ok tt, r')) (s_rules s) fitted /\
    chosen is_bad fitted dropped /\
    chosen (fun r => forall q, In q dropped -> ~ same_rule q r) fitted (s_rules s').
Proof.
  intros U F St Fs R H. destruct (fit_settled _ _ _ _ _ _ _ _ _ U F St Fs R H) as (fitted & n & s2 & A & B & _ & -> & S).
  exists fitted. split; auto. split; auto. exact (se_kept _ _ _ _ _ S).
Qed.

Lemma fit_drops G y series xs force kw s dropped s' :
  unordered (g_hash G) -> collision_free (g_hash G) -> g_stacked G = false -> fits_something s xs kw ->
  (forall r, In r (s_rules s) -> regular r) -> all_different (s_rules s) ->
  set_fit G y series xs force kw s = (Ok dropped, s') ->
  exists fitted, Forall2 (fun r r' => RuleModel.fit (g_env G) y xs force kw r = (Ok tt, r')) (s_rules s) fitted /\
    chosen is_bad fitted dropped /\ chosen is_good fitted (s_rules s').
Proof.
  intros U F St Fs R D H. destruct (fit_same_rules _ _ _ _ _ _ _ _ _ U F St Fs R H) as (fitted & A & B & C).
  exists fitted. split; auto. split; auto.
  assert (S : Forall2 still (s_rules s) fitted) by (eapply forall2_weaken; [|exact A]; intros a b; apply still_fit).
  eapply chosen_iff; [|exact C]. intros r I.
  apply (good_kept (g_hash G) fitted dropped U F (forall2_regular _ _ S R) (different_still _ _ S D) B r I).
Qed.

Lemma in_step_same s s' : Forall2 (fun r r' => r_act r' = r_act r) (s_rules s) (s_rules s') -> s_act s' = s_act s -> in_step s -> in_step s'.
Proof.
  intros F A K P. assert (W : forall r r', r_act r' = r_act r -> forall v, working r None v <-> working r' None v).
  { intros r r' E v. unfold working. rewrite E. tauto. }
  destruct (forall2_in _ _ _ F) as (F1 & F2). unfold set_vector in *. unfold in_step, set_vector in K. rewrite A.
  assert (P0 : forall r, In r (s_rules s) -> present r).
  { intros r I. destruct (F1 r I) as (r' & J & E). destruct (P r' J) as (v & X & Y). exists v. split; auto. apply (W r r'); auto. }
  specialize (K P0). destruct F as [|r r' l m E F]; auto.
  destruct K as (w & V & C & B). exists w. split; auto. split; auto.
  eapply covers_same; [| |exact C].
  - intros q I. destruct (F1 q I) as (q' & J & X). eauto.
  - intros q I. destruct (F2 q I) as (q' & J & X). eauto.
Qed.

Lemma fit_rest G y ys series xs force kw s dropped s' :
  unordered (g_hash G) -> collision_free (g_hash G) -> g_stacked G = false -> fits_something s xs kw ->
  (forall r, In r (s_rules s) -> regular r) -> is_target y ys ->
  set_fit G y series xs force kw s = (Ok dropped, s') ->
  s_train s' = integer (Z.of_nat (List.length ys)) /\ s_test s' = s_test s /\ s_criterion s' = s_criterion s /\
  s_type s' = s_type s /\ s_stack s' = s_stack s /\ s_coverage s' = s_coverage s /\
  (forall f, In f (s_names s) -> In f (s_names s')) /\
  (dropped = [] -> s_names s' = s_names s /\ s_idx s' = s_idx s) /\
  (in_step s \/ xs <> None \/ dropped <> [] -> in_step s').
Proof.
  intros U F St Fs R Y H. destruct (fit_settled _ _ _ _ _ _ _ _ _ U F St Fs R H) as (fitted & n & s2 & A & B & N & -> & S).
  rewrite (target_len_ok _ _ Y) in N. injection N as <-. destruct S as [S1 S2 (D1 & D2 & D3 & D4 & D5 & D6) S4 S5 (S6 & S7)].
  cbn [s_rules s_act s_type s_stack s_coverage s_criterion s_train s_test s_names s_idx with_rules with_train] in *.
  do 7 (split; auto). split. { intros E. destruct (S4 E) as (_ & _ & X1 & X2 & _). auto. }
  intros K.
  assert (X : in_step s2 -> in_step (with_train (integer (Z.of_nat (List.length ys))) s2)) by (intros X; exact X). apply X. clear X.
  destruct dropped as [|q dropped].
  - destruct (S4 eq_refl) as (E1 & E2 & _). destruct (no_activation s || given xs) eqn:O.
    + apply united_in_step. auto.
    + apply orb_false_iff in O as (O1 & O2). destruct xs as [t|]; [discriminate|].
      destruct K as [K|[K|K]]; [|congruence|congruence]. eapply in_step_same; [|exact E2|exact K]. rewrite E1.
      eapply forall2_weaken; [|exact A]. intros a b. apply act_fit.
  - destruct S5 as (S5 & _); [discriminate|]. apply united_in_step. auto.
Qed.

(** fit does nothing, or raises. *)
Lemma fit_nothing G y series xs force kw s :
  (s_type s = None -> set_fit G y series xs force kw s = (Err EValue, s)) /\
  (s_type s = Some KRule -> set_fit G y series xs force kw s = (Err EType, s)) /\
  (s_type s <> None -> s_type s <> Some KRule -> k_method kw = true -> set_fit G y series xs force kw s = (Err EIndex, s)) /\
  (learner s kw -> (exists t, xs = Some t /\ nrows t = 0%nat) \/ s_rules s = [] \/
     (xs = None /\ forall r, In r (s_rules s) -> r_fitted r = true) -> set_fit G y series xs force kw s = (Ok [], s)).
Proof.
  unfold set_fit. split; [|split; [|split]].
  - intros T. unfold learns. rewrite T. auto.
  - intros T. unfold learns. rewrite T. auto.
  - intros T T' M. unfold learns. destruct (s_type s) as [[]|]; try congruence; rewrite M; auto.
  - intros L K. destruct (learns_ok _ _ L) as (k & Lk & _). rewrite Lk. cbn [use].
    destruct K as [(t & -> & Z)|[E|(-> & A)]].
    + cbn. rewrite Z. auto.
    + destruct (no_rows xs); auto. rewrite E. auto.
    + cbn [no_rows]. destruct (s_rules s) as [|r t] eqn:Rs; auto. rewrite <- Rs in *.
      replace (forallb r_fitted (s_rules s)) with true; auto. symmetry. apply forallb_forall. auto.
Qed.

Lemma fit_fails G y series xs force kw s r l r' m e :
  g_stacked G = false -> fits_something s xs kw -> s_rules s = l ++ r :: m ->
  (forall q, In q l -> exists q', RuleModel.fit (g_env G) y xs force kw q = (Ok tt, q')) ->
  RuleModel.fit (g_env G) y xs force kw r = (Err e, r') ->
  fst (set_fit G y series xs force kw s) = Err e.
Proof.
  intros St (L & Ne & Rows & Some_) E B F. destruct (learns_ok _ _ L) as (k & Lk & T & _).
  unfold set_fit. rewrite Lk. cbn [use]. rewrite (rows_given _ Rows).
  destruct (s_rules s) as [|r0 t0] eqn:Rs; [congruence|]. rewrite <- Rs in *.
  assert (X : forallb r_fitted (s_rules s) && negb (given xs) = false).
  { destruct xs as [t|]; [apply andb_false_r|]. cbn. rewrite andb_true_r. destruct (forallb r_fitted (s_rules s)) eqn:X; auto.
    rewrite forallb_forall in X. destruct (Some_ eq_refl) as (q & I & J). rewrite X in J; auto. }
  rewrite X. unfold fit_rules. rewrite St. unfold for_each.
  assert (Y : fst (each (RuleModel.fit (g_env G) y xs force kw) (s_rules s)) = Err e).
  { rewrite E. clear - B F. induction l as [|q l IH]; cbn [each app].
    - rewrite F. auto.
    - destruct (B q (or_introl eq_refl)) as (q' & Q). rewrite Q. destruct (each _ _) as (o, t). cbn in *. apply IH. intros p I. apply B. right; auto. }
  destruct (each _ (s_rules s)) as (o, t). cbn in Y. subst. auto.
Qed.

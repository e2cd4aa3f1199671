(** eval of rulesets at the edges. *)
From Coq Require Import List ZArith QArith Bool String Ascii Lia.
From Coq Require Import List.
From Verif Require Import Base Num Arith CondModel CondSpec CondWit ThrModel MetModel MetSpec RuleModel RuleSpec RuleMisc RuleWit PredModel PredSpec PredMisc PredWit
  SetModel SetSpec SetBase SetWit FitModel FitSpec FitWit EdgeProofs.
Import ListNotations.
Open Scope string_scope.
Open Scope list_scope.
Open Scope Z_scope.

Lemma eval_fails G y keep_new w force kw s k e : g_stacked G = true -> s_type s = Some k -> k <> KRule -> k_method kw = false ->
  s_rules s <> [] -> (forall r, In r (s_rules s) -> r_fitted r = true) ->
  (forall keep_new, fst (eval_stacked G k y None keep_new kw s) = Err e) ->
  fst (set_eval G y None keep_new w force kw s) = Err e.
Proof.
  intros St K T M R F E. unfold set_eval, learns. rewrite K, M.
  assert (Fa : forallb r_fitted (s_rules s) = true) by (apply forallb_forall; auto).
  destruct k; [congruence| |]; cbn [use no_rows given]; destruct (s_rules s) as [|r t]; try congruence; rewrite Fa;
    cbn [negb andb orb]; unfold eval_rules; rewrite St; specialize (E (keep_new || false));
    destruct (eval_stacked G _ y None (keep_new || false) kw s) as [[?|?] ?]; cbn [fst] in E; try discriminate E; injection E as ->; reflexivity.
Qed.

(** Without any stacked activation, and a rule without activation *)
Lemma eval_unactivated G y keep_new w force kw s k r : g_stacked G = true -> s_type s = Some k -> k <> KRule -> k_method kw = false ->
  (forall r, In r (s_rules s) -> r_fitted r = true) -> s_stacked s = None -> In r (s_rules s) -> r_act r = None ->
  fst (set_eval G y None keep_new w force kw s) = Err EValue.
Proof.
  intros St K T M F S I A. assert (R : s_rules s <> []) by (intros X; rewrite X in I; contradiction).
  apply eval_fails with (k := k); auto. intros kn. unfold eval_stacked, eval_assign, eval_activations, while_stacking. assert (NS : not_stacked s = true) by (unfold not_stacked; rewrite S; auto). rewrite NS.
  unfold compute_stacked_activation. rewrite (stacked_missing G (with_stack true s) r); [|auto|intros v (a & E & _); congruence].
  cbn [use chain done]. unfold compute_self_activation.
  assert (E : evaluate_self_activation None (with_stacked None (with_stack true s)) = Ok None).
  { unfold evaluate_self_activation. cbn [s_rules with_stacked with_stack].
    assert (X : forallb activation_available (s_rules s) = false).
    { apply not_true_is_false. intros X. rewrite forallb_forall in X. specialize (X r I). unfold activation_available in X.
      rewrite A in X. discriminate. }
    destruct (s_rules s); [congruence|]. rewrite X. reflexivity. }
  rewrite E. reflexivity.
Qed.

(** With stacked activations, and a target of another length *)
Lemma eval_wrong_length G y keep_new w force kw s k st l : g_stacked G = true -> s_type s = Some k -> k <> KRule -> k_method kw = false ->
  s_rules s <> [] -> (forall r, In r (s_rules s) -> r_fitted r = true) -> s_stacked s = Some st -> flat y = Ok l -> List.length l <> f_rows st ->
  fst (set_eval G y None keep_new w force kw s) = Err EIndex.
Proof.
  intros St K T M R F S L N. apply eval_fails with (k := k); auto. intros kn. unfold eval_stacked, eval_assign, eval_activations, not_stacked. rewrite S.
  cbn [chain done next]. rewrite S. unfold target_len. rewrite L. cbn [rmap rbind].
  destruct (Z.eqb_spec (Z.of_nat (f_rows st)) (Z.of_nat (List.length l))); [lia|]. reflexivity.
Qed.

(** ** Instances *)

Definition bare_stock : ruleset := with_stacked None (with_rules (map (with_act None) (s_rules fitted_stock)) fitted_stock).

Lemma bare_fitted r : In r (s_rules bare_stock) -> r_fitted r = true.
Proof.
  assert (X : forallb r_fitted (s_rules bare_stock) = true) by (vm_compute; reflexivity).
  rewrite forallb_forall in X. apply X.
Qed.

Lemma shades_fitted r : In r (s_rules fitted_stock) -> r_fitted r = true.
Proof.
  assert (X : forallb r_fitted (s_rules fitted_stock) = true) by (vm_compute; reflexivity).
  rewrite forallb_forall in X. apply X.
Qed.

Lemma stacked_rules f s : s_rules (with_stacked f s) = s_rules s.
Proof. reflexivity. Qed.

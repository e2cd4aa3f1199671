(** fit with a target of a wrong length, and predictions of regression rules that are texts. *)
From Coq Require Import List ZArith QArith Bool String Ascii Lia.
From Coq Require Import List.
From Verif Require Import Base Num CondModel ThrModel MetModel RuleModel PredModel PredSpec SetModel FitModel FitSpec.
Import ListNotations.
Open Scope string_scope.
Open Scope list_scope.
Open Scope Z_scope.

Lemma fit_wrong_length G y series force kw s r st l : g_stacked G = true -> learner s kw -> In r (s_rules s) -> r_fitted r = false ->
  s_stacked s = Some st -> flat y = Ok l -> List.length l <> f_rows st ->
  set_fit G y series None force kw s = (Err (if series then EValue else EIndex), s).
Proof.
  intros St (K & M) I F S L N. unfold set_fit, learns.
  assert (Fa : forallb r_fitted (s_rules s) = false).
  { apply not_true_is_false. intros X. rewrite forallb_forall in X. rewrite (X r I) in F. discriminate. }
  assert (E : forall k, fit_rules G k y series None force kw s = (Err (if series then EValue else EIndex), s)).
  { intros k. unfold fit_rules. rewrite St. unfold fit_stacked, fit_activations, not_stacked. rewrite S. cbn [chain done].
    unfold fit_assign. rewrite S. unfold target_len. rewrite L. cbn [rmap rbind].
    destruct (Z.eqb_spec (Z.of_nat (f_rows st)) (Z.of_nat (List.length l))); [lia|]. reflexivity. }
  destruct K as [K|K]; rewrite K, M; cbn [use no_rows given]; destruct (s_rules s) as [|r0 t] eqn:R; try destruct I; rewrite Fa; cbn [negb andb]; rewrite E; reflexivity.
Qed.

Lemma text_cells s v a : In a v -> a = 1 -> number_cells (map (predicted_cell (text s)) v) = Err EType.
Proof.
  intros I ->. unfold number_cells. induction v as [|x t IH]; [destruct I|]. cbn [map rseq]. destruct I as [->|I].
  - reflexivity.
  - rewrite (IH I). cbn. destruct (x =? 0); cbn; auto. destruct (x =? 1); auto.
Qed.

Lemma text_first E sf shared r t st a v s n : unstacked sf st -> r_act r = Some a -> raw a = Ok v -> In 1 v ->
  prediction r = Ok (text s) -> rule_len r = Ok n -> n <> 0%nat ->
  fst (predict_rules E sf shared (Some KRegression) (r :: t) st None None) = Err EType.
Proof.
  intros US A R I P L N. unfold predict_rules. assert (X : (if sf then st else None) = None) by (destruct US as [-> | ->]; [auto|destruct sf; auto]). rewrite X.
  unfold predict_unstacked, equal_regressor_unstacked. cbn [equal_loop].
  assert (U : usable None r = Ok (Some v)) by (unfold usable, activation_vector; rewrite A, R; unfold raw, alen in *; destruct (v_here a); [|discriminate R]; injection R as R; rewrite R; destruct v; [destruct I|reflexivity]).
  unfold equal_step. rewrite U. unfold prediction_vector. rewrite P. cbn [rbind text]. rewrite L. cbn [rbind].
  destruct (Nat.eqb_spec n 0); [congruence|]. cbn [rbind]. change (OVal (XText s)) with (text s). rewrite (text_cells s v 1 I eq_refl). reflexivity.
Qed.

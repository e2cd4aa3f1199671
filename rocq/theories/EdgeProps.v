(** Properties of predictions and stacked activations at the edges. *)
From Coq Require Import List ZArith QArith Bool String Ascii Lia.
From Coq Require Import List.
From Verif Require Import Base Num CondModel CondSpec CondProofs CondWit ThrModel ThrSpec ThrWit MetModel MetSpec RuleModel RuleSpec RuleMisc
  RuleWit PredModel PredSpec PredReg PredMode PredMisc PredWit SetModel SetSpec SetBase SetWit EdgeProofs EdgeWit.
Import ListNotations.
Open Scope string_scope.
Open Scope list_scope.
Open Scope Z_scope.

(** ** C49, C104 *)

Theorem C49_ruleset : forall G xs w s,
  g_shared G = false \/ xs <> None \/ w <> None \/ s_type s <> Some KRegression \/ (g_stacked G = true /\ s_stacked s <> None) ->
  set_predict G xs w s =
  (fst (predict_rules (g_env G) (g_stacked G) (g_shared G) (s_type s) (s_rules s) (s_stacked s) xs w), s).
Proof. exact ruleset_unchanged. Qed.
Print Assumptions C49_ruleset.

Example C49_ruleset_ex : snd (set_predict quiet None None trio) = trio.
Proof. rewrite C49_ruleset by (left; reflexivity). reflexivity. Qed.

Theorem C104_ruleset_refuted : exists G s s' l r r', made G false s /\
  set_predict G None None s = (Ok (Numbers l), s') /\
  nth_error (s_rules s) 0 = Some r /\ nth_error (s_rules s') 0 = Some r' /\
  working r None [1; 1; 0] /\ working r' None [2; 1; 1] /\ bits [1; 1; 0].
Proof. exact ruleset_overwritten. Qed.
Print Assumptions C104_ruleset_refuted.

(** ** C108 *)

Theorem C108_untyped_stacked : forall E shared rules st w,
  named E rules -> rules <> [] -> (forall r, In r rules -> exists o, getattr r "prediction" = Ok o) ->
  (forall a, w = Some (WName a) -> exists ws, attribute_values E rules a ws) ->
  fst (predict_rules E true shared (Some KRule) rules (Some st) None w) =
  if (f_rows st =? 0)%nat then Ok Empty else Err EType.
Proof. exact untyped_stacked. Qed.
Print Assumptions C108_untyped_stacked.

Example C108_untyped_stacked_ex :
  fst (predict_rules free true false (Some KRule) three (Some (stacked_of three_columns)) None None) = Err EType.
Proof.
  rewrite C108_untyped_stacked; [reflexivity|exact three_named|discriminate| |discriminate].
  intros r I. destruct (three_numbers r I) as (p & P). eauto.
Qed.

Theorem C108_untyped_unnamed : forall E shared r rules st a e,
  named E (r :: rules) -> (forall r', In r' (r :: rules) -> exists o, getattr r' "prediction" = Ok o) ->
  f_rows st <> 0%nat -> getattr r a = Err e ->
  fst (predict_rules E true shared (Some KRule) (r :: rules) (Some st) None (Some (WName a))) = Err e.
Proof. exact untyped_unnamed. Qed.
Print Assumptions C108_untyped_unnamed.

Example C108_untyped_unnamed_ex :
  fst (predict_rules free true false (Some KRule) three (Some (stacked_of three_columns)) None (Some (WName "colour"))) = Err EAttr.
Proof.
  apply C108_untyped_unnamed; [exact three_named| |discriminate|reflexivity].
  intros r I. destruct (three_numbers r I) as (p & P). eauto.
Qed.

(** ** C118 *)

Theorem C118_stored_coverage : forall s,
  (forall a, s_act s = Some a -> v_here a = false \/ v_bits a = []) -> ruleset_coverage s = Ok (s_coverage s).
Proof. exact stored_coverage. Qed.
Print Assumptions C118_stored_coverage.

Example C118_stored_coverage_ex : ruleset_coverage (del_set_activation trio) = Ok none.
Proof. apply C118_stored_coverage. intros a A. injection A as <-. left. reflexivity. Qed.

(** ** C135 *)

Theorem C135_stacked : forall E shared k rules st ws,
  named E rules -> rules <> [] -> (0 < f_rows st)%nat -> weightless ws ->
  (k = KRegression /\ predicts_numbers rules) \/ (k = KClassification /\ predicts_texts rules) ->
  fst (predict_rules E true shared (Some k) rules (Some st) None (Some (WSeries ws))) = Err EValue.
Proof. exact weightless_stacked. Qed.
Print Assumptions C135_stacked.

Example C135_stacked_ex :
  fst (predict_rules free true false (Some KRegression) three (Some (stacked_of three_columns)) None (Some (WSeries worthless))) = Err EValue /\
  fst (predict_rules free true false (Some KClassification) jury (Some (stacked_of jury_columns)) None (Some (WSeries worthless))) = Err EValue.
Proof.
  split; apply C135_stacked; try (intros X; discriminate X); try exact worthless_ok; try (cbn; lia).
  - exact three_named.
  - left. split; [reflexivity|exact three_numbers].
  - exact jury_named.
  - right. split; [reflexivity|exact jury_texts].
Qed.

Theorem C135_stacked_on_data : forall E shared k rules st t n columns ws,
  vectors E (Some t) rules n columns -> rules <> [] -> weightless ws ->
  (k = KRegression /\ predicts_numbers rules) \/ (k = KClassification /\ predicts_texts rules) ->
  fst (predict_rules E true shared (Some k) rules (Some st) (Some t) (Some (WSeries ws))) = Err EValue.
Proof. exact weightless_stacked_on. Qed.
Print Assumptions C135_stacked_on_data.

Example C135_stacked_on_data_ex : forall columns t, vectors free (Some t) three 4 columns ->
  fst (predict_rules free true false (Some KRegression) three (Some (stacked_of three_columns)) (Some t) (Some (WSeries []))) = Err EValue.
Proof.
  intros columns t V. apply (C135_stacked_on_data free false KRegression three _ t 4 columns); auto; try (intros X; discriminate X).
  - intros s w [].
  - left. split; [reflexivity|exact three_numbers].
Qed.

Theorem C135_no_vote : forall E sf shared rules st xs ws,
  unstacked sf st -> rules <> [] -> NoDup (map fst ws) ->
  (forall r, In r rules -> exists s, called E r s /\ (unweighted ws s \/ nowhere xs r)) ->
  fst (predict_rules E sf shared (Some KClassification) rules st xs (Some (WSeries ws))) = Err EValue.
Proof. exact no_vote. Qed.
Print Assumptions C135_no_vote.

Example C135_no_vote_ex :
  fst (predict_rules free false false (Some KClassification) jury None None (Some (WSeries worthless))) = Err EValue.
Proof.
  apply C135_no_vote; [left; reflexivity|discriminate|distinct|].
  intros r I. destruct (jury_called r I) as (s & S). exists s. split; [exact S|]. left. apply worthless_ok.
Qed.

Theorem C135_no_equal_vote : forall E sf shared rules st xs,
  unstacked sf st -> rules <> [] ->
  (forall r, In r rules -> (exists s, called E r s) /\ nowhere xs r) ->
  fst (predict_rules E sf shared (Some KClassification) rules st xs None) = Err EValue.
Proof. exact no_equal_vote. Qed.
Print Assumptions C135_no_equal_vote.

Example C135_no_equal_vote_ex : fst (predict_rules free false false (Some KClassification) idle None None None) = Err EValue.
Proof.
  apply C135_no_equal_vote; [left; reflexivity|discriminate|].
  intros r [<-|[<-|[]]]; (split; [eexists; apply voter_called|]); (apply voter_nowhere; [bit_by_bit|intros [|[|[|i]]]; discriminate]).
Qed.

(** ** C136 *)

Theorem C136_means : forall E shared rules st xs bs n,
  stacks E xs rules n st -> (forall r, In r rules -> abstains r \/ exists p, getattr r "prediction" = Ok (number p)) ->
  (exists r p, In r rules /\ getattr r "prediction" = Ok (number p)) ->
  collected (casts_or_not regression_number xs) rules bs ->
  exists l, fst (predict_rules E true shared (Some KRegression) rules (Some st) xs None) = Ok (Numbers l) /\
    each_row n NaN l (fun i x => is_mean i bs x).
Proof. exact abstaining_means. Qed.
Print Assumptions C136_means.

Example C136_means_ex : exists l,
  fst (predict_rules free true false (Some KRegression) mute_regression (Some (stacked_of mute_columns)) None None) = Ok (Numbers l) /\
  Forall2 same_num l [Fin 4; NaN; Fin (5 # 2)].
Proof.
  destruct (fun A B => C136_means free false mute_regression _ None _ 3 mute_stacks A B mute_ballots) as (l & L & _).
  - intros r [<-|[<-|[<-|[<-|[]]]]]; [left; left; reflexivity|right; eexists; reflexivity|left; right; reflexivity|right; eexists; reflexivity].
  - eexists _, _. split; [right; left; reflexivity|reflexivity].
  - exists l. split; [exact L|]. vm_compute in L. injection L as <-. repeat constructor; reflexivity.
Qed.

Theorem C136_classes : forall E shared r rules st xs bs n p,
  stacks E xs (r :: rules) n st -> getattr r "prediction" = Ok (text p) ->
  (forall r', In r' (r :: rules) -> getattr r' "prediction" = Ok (number NaN) \/ exists p, getattr r' "prediction" = Ok (text p) /\ p <> "nan") ->
  collected (casts_or_not class_object xs) (r :: rules) bs -> (forall b, In b bs -> PredSpec.comparable (b_value b)) ->
  exists l, fst (predict_rules E true shared (Some KClassification) (r :: rules) (Some st) xs None) = Ok (Outcomes l) /\
    put_rows n (fun i => wins i bs) l.
Proof. exact tied_votes. Qed.
Print Assumptions C136_classes.

Example C136_classes_ex : exists l,
  fst (predict_rules free true false (Some KClassification) mute_jury
    (Some (stacked_of [(name "a", [1; 1; 0]); (name "b", [1; 1; 1]); (name "c", [0; 1; 0]); (name "d", [0; 1; 0])])) None None) = Ok (Outcomes l) /\
  l = [Class (LText "red"); Class (LText "blue"); Class (LNum NaN)].
Proof.
  destruct (fun A B => C136_classes free false _ _ _ None _ 3 "red" mute_jury_stacks A B mute_jury_ballots) as (l & L & _).
  - reflexivity.
  - intros r [<-|[<-|[<-|[<-|[]]]]]; [right|left; reflexivity|right|right]; eexists; (split; [reflexivity|discriminate]).
  - intros b [<-|[<-|[<-|[]]]]; discriminate.
  - exists l. split; [exact L|]. vm_compute in L. injection L as <-. reflexivity.
Qed.

(** ** C137 *)

Theorem C137_nothing : forall G xs s,
  s_rules s = [] -> evaluate_stacked_activations G xs s = Ok (Some (mkFrame 0 [])).
Proof. exact stacked_nothing. Qed.
Print Assumptions C137_nothing.

Example C137_nothing_ex : evaluate_stacked_activations quiet None (empty_set true) = Ok (Some (mkFrame 0 [])).
Proof. apply C137_nothing. reflexivity. Qed.

Theorem C137_missing : forall G s r,
  In r (s_rules s) -> (forall v, ~ working r None v) ->
  evaluate_stacked_activations G None s = Ok None.
Proof. exact stacked_missing. Qed.
Print Assumptions C137_missing.

Example C137_missing_ex : evaluate_stacked_activations quiet None (with_rules (sided KRegression "z" :: three) trio) = Ok None.
Proof. apply C137_missing with (sided KRegression "z"); [left; reflexivity|]. intros v (a & A & _). discriminate. Qed.

Theorem C137_ragged : forall G xs s columns c d,
  Forall2 (fun r c => called (g_env G) r (fst c) /\ working r xs (snd c) /\ snd c <> []) (s_rules s) columns -> NoDup (map fst columns) ->
  In c columns -> In d columns -> List.length (snd c) <> List.length (snd d) ->
  evaluate_stacked_activations G xs s = Err EValue.
Proof. exact stacked_ragged. Qed.
Print Assumptions C137_ragged.

Example C137_ragged_ex : evaluate_stacked_activations quiet None (with_rules ragged trio) = Err EValue.
Proof.
  apply (C137_ragged quiet None _ [(name "a", [1; 1; 0]); (name "b", [1; 0])] (name "a", [1; 1; 0]) (name "b", [1; 0])).
  - repeat apply Forall2_cons; try apply Forall2_nil; (split; [apply voter_called|split; [apply voter_working|discriminate]]).
  - distinct.
  - left. reflexivity.
  - right. left. reflexivity.
  - discriminate.
Qed.

(** ** C138 *)

Theorem C138_no_condition : forall E r,
  r_cond r = None -> rule_name E r = Ok "None".
Proof. exact cond_unnamed. Qed.
Print Assumptions C138_no_condition.

Example C138_no_condition_ex : rule_name free (mkRule KRegression None None None true None false false []) = Ok "None".
Proof. apply C138_no_condition. reflexivity. Qed.

Theorem C138_empty_condition : forall E r c,
  r_cond r = Some c -> c_names c = None -> rule_name E r = Ok "empty condition".
Proof. exact cond_empty. Qed.
Print Assumptions C138_empty_condition.

Example C138_empty_condition_ex : rule_name free (mkRule KRegression (Some (mkCond None None None None true)) None None true None false false []) = Ok "empty condition".
Proof. eapply C138_empty_condition; reflexivity. Qed.

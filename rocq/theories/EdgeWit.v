(** Concrete cases at the edges. *)
From Coq Require Import List ZArith QArith Bool String Ascii Lia.
From Coq Require Import List.
From Verif Require Import Base Num CondModel CondSpec CondProofs CondWit ThrModel ThrSpec ThrWit MetModel MetSpec RuleModel RuleSpec RuleMisc
  RuleWit PredModel PredSpec PredReg PredMode PredMisc PredWit SetModel SetSpec SetBase SetWit EdgeProofs.
Import ListNotations.
Open Scope string_scope.
Open Scope list_scope.
Open Scope Z_scope.

(** ** More about rulesets *)

Lemma ruleset_unchanged G xs w s : g_shared G = false \/ xs <> None \/ w <> None \/ s_type s <> Some KRegression \/ (g_stacked G = true /\ s_stacked s <> None) ->
  set_predict G xs w s =
  (fst (predict_rules (g_env G) (g_stacked G) (g_shared G) (s_type s) (s_rules s) (s_stacked s) xs w), s).
Proof.
  intros H. unfold set_predict.
  assert (K : snd (predict_rules (g_env G) (g_stacked G) (g_shared G) (s_type s) (s_rules s) (s_stacked s) xs w) = s_rules s)
    by (apply predict_keeps; auto).
  destruct (predict_rules _ _ _ _ _ _ _ _) as (o & rules). cbn [fst snd] in *. subst rules. destruct s; reflexivity.
Qed.

Lemma stored_coverage s : (forall a, s_act s = Some a -> v_here a = false \/ v_bits a = []) -> ruleset_coverage s = Ok (s_coverage s).
Proof.
  intros H. unfold ruleset_coverage, set_available. destruct (s_act s) as [a|]; auto.
  destruct (H a eq_refl) as [X|X]; [rewrite X; destruct (alen a =? 0); auto|]. unfold alen. rewrite X. auto.
Qed.

Lemma untyped_stacked E shared rules st w : named E rules -> rules <> [] -> (forall r, In r rules -> exists o, getattr r "prediction" = Ok o) ->
  (forall a, w = Some (WName a) -> exists ws, attribute_values E rules a ws) ->
  fst (predict_rules E true shared (Some KRule) rules (Some st) None w) =
  if (f_rows st =? 0)%nat then Ok Empty else Err EType.
Proof.
  intros N R P W. destruct (listed E rules N P) as (l & B & _). unfold predict_rules. destruct rules as [|r rules]; [congruence|].
  cbn [fst rbind]. unfold predict_stacked. rewrite B. cbn [rbind]. destruct (P r) as (o & O); [left; auto|].
  rewrite prediction_attr in O. rewrite O. cbn [rbind]. destruct (f_rows st =? 0)%nat; [reflexivity|].
  destruct w as [[s|a]|]; [reflexivity| |reflexivity].
  destruct (W a eq_refl) as (ws & X). rewrite (weights_by_name E (r :: rules) a ws R X). reflexivity.
Qed.

(** The attribute that the weights name is missing *)
Lemma untyped_unnamed E shared r rules st a e : named E (r :: rules) -> (forall r', In r' (r :: rules) -> exists o, getattr r' "prediction" = Ok o) ->
  f_rows st <> 0%nat -> getattr r a = Err e ->
  fst (predict_rules E true shared (Some KRule) (r :: rules) (Some st) None (Some (WName a))) = Err e.
Proof.
  intros N P Ne G. destruct (listed E (r :: rules) N P) as (l & B & _). unfold predict_rules.
  cbn [fst rbind]. unfold predict_stacked. rewrite B. cbn [rbind]. destruct (P r) as (o & O); [left; auto|].
  rewrite prediction_attr in O. rewrite O. cbn [rbind]. apply Nat.eqb_neq in Ne. rewrite Ne.
  destruct N as (names & F & _). inversion F as [|? s ? ? C _]; subst. apply called_name in C.
  unfold weights_of, by_name. cbn [map rseq]. rewrite C. cbn [rbind]. rewrite G. reflexivity.
Qed.

(** ** Witnesses and instances *)

Definition raw_arrays : setup := mkSetup free ideal quoted false false [] true.

Lemma ruleset_overwritten : exists G s s' l r r', made G false s /\
  set_predict G None None s = (Ok (Numbers l), s') /\
  nth_error (s_rules s) 0 = Some r /\ nth_error (s_rules s') 0 = Some r' /\
  working r None [1; 1; 0] /\ working r' None [2; 1; 1] /\ bits [1; 1; 0].
Proof.
  eexists raw_arrays, (set_of_rules raw_arrays false two), _, _, _, _. split; [eapply (made_new raw_arrays false (Some (map ERule two)) false); vm_compute; reflexivity|].
  split; [vm_compute; reflexivity|]. split; [vm_compute; reflexivity|]. split; [vm_compute; reflexivity|].
  split; [eexists; split; reflexivity|]. split; [eexists; split; reflexivity|]. bit_by_bit.
Qed.

Definition worthless : list (string * num) := [(name "a", Fin 0); (name "b", NaN); (name "c", Fin 0)].

Lemma worthless_ok : weightless worthless.
Proof.
  intros s w W. cbn in W. repeat destruct W as [W|W]; try contradiction; injection W as _ <-; auto; right; reflexivity.
Qed.

Lemma three_named : named free three.
Proof. exists [name "a"; name "b"; name "c"]. split; [repeat apply Forall2_cons; try apply Forall2_nil; apply voter_called|distinct]. Qed.

Lemma jury_named : named free jury.
Proof. exists [name "a"; name "b"; name "c"]. split; [repeat apply Forall2_cons; try apply Forall2_nil; apply voter_called|distinct]. Qed.

(** Rules that are not active anywhere *)
Definition idle : list rule := [class_voter "a" "red" [0; 0]; class_voter "b" "blue" [0; 0]].

Lemma voter_nowhere k s p v : bits v -> (forall i, nth i v 0 <> 1) -> nowhere None (voter k s p v).
Proof. intros B N. exists v. split; [apply voter_working|]. auto. Qed.

(** A rule that has no prediction *)
Definition mute_regression : list rule :=
  [voter KRegression "a" none [1; 1; 0]; number_voter "b" 4 [1; 0; 1]; voter KRegression "c" (number NaN) [1; 1; 1]; number_voter "d" 1 [0; 0; 1]].
Definition mute_columns : list (string * list Z) := [(name "a", [1; 1; 0]); (name "b", [1; 0; 1]); (name "c", [1; 1; 1]); (name "d", [0; 0; 1])].

Lemma mute_stacks : stacks free None mute_regression 3 (stacked_of mute_columns).
Proof.
  exists mute_columns. split; [|reflexivity]. split; [|split; [distinct|lia]].
  repeat apply Forall2_cons; try apply Forall2_nil; (split; [apply voter_called|split; [apply voter_working|split; [bit_by_bit|reflexivity]]]).
Qed.

Definition mute_jury : list rule :=
  [class_voter "a" "red" [1; 1; 0]; voter KClassification "b" (number NaN) [1; 1; 1]; class_voter "c" "blue" [0; 1; 0]; class_voter "d" "blue" [0; 1; 0]].

Lemma mute_jury_stacks : stacks free None mute_jury 3 (stacked_of [(name "a", [1; 1; 0]); (name "b", [1; 1; 1]); (name "c", [0; 1; 0]); (name "d", [0; 1; 0])]).
Proof.
  eexists. split; [|reflexivity]. split; [|split; [distinct|cbn; lia]].
  repeat apply Forall2_cons; try apply Forall2_nil; (split; [apply voter_called|split; [apply voter_working|split; [bit_by_bit|reflexivity]]]).
Qed.

Lemma voter_casts_or_not {A} (value : A -> obj) k s p v : (exists x, value p = OVal x) -> bits v -> v <> [] ->
  casts_or_not value None (voter k s (value p) v) (Some (mkBallot 1 p v)).
Proof. intros K B N. left. apply voter_one; auto. Qed.

Lemma mute_ballots : collected (casts_or_not regression_number None) mute_regression [mkBallot 1 4%Q [1; 0; 1]; mkBallot 1 1%Q [0; 0; 1]].
Proof.
  apply collected_none; [right; split; auto; left; reflexivity|].
  apply collected_some; [apply voter_casts_or_not; [eexists; reflexivity|bit_by_bit|discriminate]|].
  apply collected_none; [right; split; auto; right; reflexivity|].
  apply collected_some; [apply voter_casts_or_not; [eexists; reflexivity|bit_by_bit|discriminate]|]. apply collected_nil.
Qed.

Lemma mute_jury_ballots : collected (casts_or_not class_object None) mute_jury
  [mkBallot 1 (LText "red") [1; 1; 0]; mkBallot 1 (LText "blue") [0; 1; 0]; mkBallot 1 (LText "blue") [0; 1; 0]].
Proof.
  apply collected_some; [apply voter_casts_or_not; [eexists; reflexivity|bit_by_bit|discriminate]|].
  apply collected_none; [right; split; auto; right; reflexivity|].
  apply collected_some; [apply voter_casts_or_not; [eexists; reflexivity|bit_by_bit|discriminate]|].
  apply collected_some; [apply voter_casts_or_not; [eexists; reflexivity|bit_by_bit|discriminate]|]. apply collected_nil.
Qed.

(** Rules that do not stack *)
Definition ragged : list rule := [number_voter "a" 2 [1; 1; 0]; number_voter "b" 4 [1; 0]].

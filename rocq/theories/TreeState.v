(** The ruleset that the extraction returns. *)
From Coq Require Import List ZArith QArith Bool String Lia.
From Coq Require Import List.
From Verif Require Import Base Num CondModel CondSpec CondBase CondProofs CondAnd CondEval CondMore.
From Verif Require Import MetModel RuleModel RuleProofs PredModel SetModel SetSpec SetBase TreeModel TreeSpec TreeProofs TreeVisit TreeFacts TreeMore.
Import ListNotations.
Open Scope string_scope.
Open Scope list_scope.
Open Scope Z_scope.

Lemma visitor_invariant G T q (P : ruleset -> Prop) :
  (forall o v r s s', node_rule (g_env G) q o v = Ok r -> append_to G r s = Ok s' -> P s -> P s') ->
  forall limit n o s s', visitor limit G T q n o s = Ok s' -> P s -> P s'.
Proof.
  intros A. induction limit as [|limit IH]; intros n o s s' H Hs; cbn [visitor] in H; [discriminate|]. pull H f F.
  destruct (negb (f =? TREE_UNDEFINED)).
  - assert (Rec : forall c s s', (if negb (q_leaf q) then rbind (py_index (t_value T) n) (fun values => record_rule G q c values s) else Ok s) = Ok s' ->
      P s -> P s').
    { intros c s0 s1 E Hs0. destruct (q_leaf q); cbn [negb] in E; [injection E as <-; auto|]. pull E v V. unfold record_rule in E. pull E r N.
      eapply A; eauto. }
    pull H th E1. pull H c1 C1. pull H s1 S1. pull H ch E2. pull H s2 S2. pull H c2 C2. pull H s3 S3. pull H ch' E3.
    eapply IH; eauto.
  - destruct (q_leaf q); [|injection H as <-; auto]. pull H v V. pull H r N. eapply A; eauto.
Qed.

Definition is_nil {A} (l : list A) : bool := match l with [] => true | _ => false end.

Record sound (q : request) (s : ruleset) : Prop := mkSound {
  so_stack : s_stack s = q_stack q;
  so_compute : s_compute s = true;
  so_act : s_act s = None;
  so_stacked : s_stacked s = None;
  so_values : s_coverage s = none /\ s_criterion s = none /\ s_train s = none /\ s_test s = none;
  so_type : s_type s = if is_nil (s_rules s) then None else Some (tree_kind q);
  so_idx : forall f, In f (s_idx s) <-> exists r c i, In r (s_rules s) /\ r_cond r = Some c /\ c_idx c = Some i /\ In f i;
  so_names : forall f, In f (s_names s) <-> exists r c i, In r (s_rules s) /\ r_cond r = Some c /\ c_names c = Some i /\ In f i }.


Lemma is_nil_snoc {A} (l : list A) x : is_nil (l ++ [x]) = false.
Proof. destruct l; auto. Qed.

Lemma append_sound G q o v r s s' : node_rule (g_env G) q o v = Ok r -> append_to G r s = Ok s' -> sound q s -> sound q s'.
Proof.
  intros N H S. apply node_rule_ok in N as (_ & _ & K & A & _). unfold append_to in H.
  destruct (append G (ERule r) true s) as [[[]|e] s1] eqn:Ap; [|discriminate]. cbn in H. injection H as <-.
  apply append_true in Ap as (s2 & Ap & ->).
  assert (St : s_stacked s2 = s_stacked s).
  { unfold add_rule in Ap. apply chain_ok in Ap as (x1 & X1 & Ap). apply chain_ok in Ap as (x2 & X2 & Ap).
    apply chain_ok in Ap as (x3 & X3 & X4).
    assert (Y1 : s_stacked x1 = s_stacked s).
    { destruct (s_type s); [destruct (isinstance (r_kind r) _); inv X1|inv X1]; auto. }
    apply add_features_ok in X2 as (i & n & _ & _ & ->).
    assert (Y3 : s_stacked x3 = s_stacked x1).
    { unfold activation_available in X3. rewrite A in X3. cbn in X3. unfold update_activation in X3.
      destruct (s_compute x1); cbn in X3; inv X3; auto. }
    unfold update_stacked_rule, activation_available in X4. rewrite A in X4.
    destruct (s_stack x3); cbn in X4; inv X4; congruence. }
  apply add_rule_ok in Ap. destruct Ap as [R T I (c & i & n & Rc & Ci & Cn & Ei & En) Ac _ (V1 & V2 & V3 & V4 & V5 & V6)].
  destruct S as [P1 P2 P3 P4 (P5 & P6 & P7 & P8) P9 P10 P11].
  constructor; cbn [with_stack with_compute s_stack s_compute s_act s_stacked s_coverage s_criterion s_train s_test s_type s_idx s_names s_rules].
  - auto.
  - auto.
  - rewrite P2 in Ac. unfold activation_available in Ac. rewrite A in Ac. cbn in Ac. inversion Ac; congruence.
  - congruence.
  - repeat split; congruence.
  - rewrite T, R, is_nil_snoc. unfold type_after. rewrite P9, K. destruct (is_nil (s_rules s)); auto.
  - intros f. rewrite Ei, set_of_In, in_app_iff, P10 by apply Z.eqb_eq. rewrite R. split.
    + intros [(r0 & c0 & i0 & J & X)|J]; [exists r0, c0, i0; split; auto; apply in_app_iff; auto|].
      exists r, c, i. split; [apply in_app_iff; right; left; auto|auto].
    + intros (r0 & c0 & i0 & J & X1 & X2 & X3). apply in_app_iff in J. destruct J as [J|[ <- |[]]]; [left; exists r0, c0, i0; auto|right; congruence].
  - intros f. rewrite En, set_of_In, in_app_iff, P11 by apply str_eqb_iff. rewrite R. split.
    + intros [(r0 & c0 & i0 & J & X)|J]; [exists r0, c0, i0; split; auto; apply in_app_iff; auto|].
      exists r, c, n. split; [apply in_app_iff; right; left; auto|auto].
    + intros (r0 & c0 & i0 & J & X1 & X2 & X3). apply in_app_iff in J. destruct J as [J|[ <- |[]]]; [left; exists r0, c0, i0; auto|right; congruence].
Qed.

Lemma extracted_sound limit G T q s : extract_rules_from_tree limit G T q = Ok s -> sound q s.
Proof.
  unfold extract_rules_from_tree. destruct limit as [|limit]; [discriminate|]. rewrite new_set_none_ok. cbn [rbind]. intros H.
  eapply visitor_invariant; [|exact H|].
  - intros o v r s0 s1. apply append_sound.
  - constructor; cbn; auto; intros f; (split; [intros []|intros (r & _ & _ & [] & _)]).
Qed.

Lemma node_on_edge u t : within_tree u t -> forall f th v l r, u = Node f th v l r ->
  exists b d, In b (edges t) /\ In d (fst b) /\ on d = f /\ bound d = th.
Proof.
  intros Wu. induction Wu as [t|u f' th' v' l' r' Wu IH|u f' th' v' l' r' Wu IH]; intros f th v l r E.
  - subst t. eexists _, _. split; [left; reflexivity|]. split; [left; reflexivity|auto].
  - destruct (IH f th v l r E) as (b & d & Ib & Id & O & B). exists (mkStep f' th' Below :: fst b, snd b), d.
    split; [|split; [right; auto|auto]]. cbn. right. apply in_app_iff. left. apply in_map_iff. exists b. auto.
  - destruct (IH f th v l r E) as (b & d & Ib & Id & O & B). exists (mkStep f' th' Above :: fst b, snd b), d.
    split; [|split; [right; auto|auto]]. cbn. right. apply in_app_iff. right. right. apply in_map_iff. exists b. auto.
Qed.

Lemma node_asked leaf t f th v l r : within_tree (Node f th v l r) t ->
  exists b d, In b (asked leaf t) /\ In d (fst b) /\ on d = f.
Proof.
  intros W. destruct leaf; unfold asked.
  - destruct (node_on_branch _ _ W f th v l r eq_refl) as (b & d & I & D & O & _). eauto.
  - destruct (node_on_edge _ _ W f th v l r eq_refl) as (b & d & I & D & O & _).
    exists (fst b, fst (snd b)), d. split; [|auto]. apply in_map_iff. exists b. auto.
Qed.

Lemma forall2_inl {A B} (P : A -> B -> Prop) l m a : Forall2 P l m -> In a l -> exists b, In b m /\ P a b.
Proof.
  induction 1 as [|x y l m Pxy F IH]; intros []; [subst; exists y; split; [left|]; auto|].
  destruct IH as (b & I & Q); auto. exists b. split; [right|]; auto.
Qed.
Lemma forall2_inr {A B} (P : A -> B -> Prop) l m b : Forall2 P l m -> In b m -> exists a, In a l /\ P a b.
Proof.
  induction 1 as [|x y l m Pxy F IH]; intros []; [subst; exists x; split; [left|]; auto|].
  destruct IH as (a & I & Q); auto. exists a. split; [right|]; auto.
Qed.

Lemma extracted_state limit G T q t s : known (e_sort (g_env G)) -> represents T O t ->
  extract_rules_from_tree limit G T q = Ok s ->
  s_stack s = q_stack q /\ s_act s = None /\ s_stacked s = None /\
  s_coverage s = none /\ s_criterion s = none /\ s_train s = none /\ s_test s = none /\
  (s_rules s <> [] -> s_type s = Some (if q_classifier q then KClassification else KRegression)) /\
  (s_rules s = [] -> s_type s = None) /\
  (forall f, In f (s_idx s) <-> exists th v l r, within_tree (Node f th v l r) t) /\
  (forall name, In name (s_names s) <-> exists f th v l r, within_tree (Node f th v l r) t /\ feature_name q f name).
Proof.
  intros K R X. pose proof (extracted_features _ _ _ _ _ _ K R X) as F. apply extracted_sound in X.
  destruct X as [P1 P2 P3 P4 (P5 & P6 & P7 & P8) P9 P10 P11]. do 7 (split; [auto|]). split; [|split; [|split]].
  - intros N. rewrite P9. destruct (s_rules s); [congruence|]. reflexivity.
  - intros N. rewrite P9, N. reflexivity.
  - intros f. rewrite P10. split.
    + intros (r & c & i & I & Rc & Ci & J). destruct (forall2_inr _ _ _ _ F I) as (b & Ib & _ & _ & _ & _ & c' & fs & Rc' & L & _ & _ & Q & _).
      assert (c' = c) as -> by congruence. destruct L as (L & _). rewrite L in Ci. injection Ci as <-. apply Q in J.
      destruct J as (d & Id & <-). destruct (asked_paths _ _ _ Ib d Id) as (f0 & th & v & l & r0 & W & -> & _). eauto.
    + intros (th & v & l & r & W). destruct (node_asked (q_leaf q) _ _ _ _ _ _ W) as (b & d & Ib & Id & O).
      destruct (forall2_inl _ _ _ _ F Ib) as (r0 & I & _ & _ & _ & _ & c & fs & Rc & L & _ & _ & Q & _).
      exists r0, c, (map f_index fs). split; auto. split; auto. split; [apply L|]. apply Q. eauto.
  - intros name. rewrite P11. split.
    + intros (r & c & i & I & Rc & Ci & J). destruct (forall2_inr _ _ _ _ F I) as (b & Ib & _ & _ & _ & _ & c' & fs & Rc' & L & _ & _ & Q & Nm).
      assert (c' = c) as -> by congruence. destruct L as (_ & _ & _ & L). rewrite L in Ci. injection Ci as <-. apply in_map_iff in J.
      destruct J as (g & <- & Ig). destruct (proj1 (Q (f_index g)) (in_map _ _ _ Ig)) as (d & Id & O).
      destruct (asked_paths _ _ _ Ib d Id) as (f0 & th & v & l & r0 & W & O' & _). exists f0, th, v, l, r0. split; auto.
      replace f0 with (f_index g) by congruence. auto.
    + intros (f & th & v & l & r & W & Nf). destruct (node_asked (q_leaf q) _ _ _ _ _ _ W) as (b & d & Ib & Id & O).
      destruct (forall2_inl _ _ _ _ F Ib) as (r0 & I & _ & _ & _ & _ & c & fs & Rc & L & _ & _ & Q & Nm).
      exists r0, c, (map f_name fs). split; auto. split; auto. split; [apply L|].
      destruct (proj1 (in_map_iff _ _ _) (proj2 (Q f) (ex_intro _ d (conj Id O)))) as (g & Eg & Ig).
      apply in_map_iff. exists g. split; auto. eapply feature_name_unique; [apply Nm; auto|]. rewrite Eg. auto.
Qed.

(** Properties of the rules extracted from trees. *)
From Coq Require Import List ZArith QArith Bool String Ascii Lia.
From Coq Require Import List.
From Verif Require Import Base Num CondModel CondSpec CondWit ThrModel MetModel RuleModel RuleWit PredModel SetModel SetSpec SetWit.
From Verif Require Import TreeModel TreeSpec TreeProofs TreeVisit TreeFacts TreeMore TreeState TreeWit.
Import ListNotations.
Open Scope string_scope.
Open Scope list_scope.
Open Scope Z_scope.

(** ** C56 *)

Theorem C56_covers : forall limit G T q t s,
  known (e_sort (g_env G)) -> represents T O t ->
  extract_rules_from_tree limit G T q = Ok s ->
  Forall2 (fun b r => forall xs i x, well_shaped xs -> row_is q xs i x (fst b) -> in_box q x (fst b) -> follows x (fst b) ->
                      holds r xs i) (asked (q_leaf q) t) (s_rules s).
Proof. exact extracted_covers. Qed.
Print Assumptions C56_covers.

Example C56_covers_ex : exists r, nth_error (s_rules pine_set) 1 = Some r /\ holds r (spot 3 1) 0.
Proof.
  destruct (forall2_nth _ _ _ 1 _ (C56_covers _ _ _ _ _ _ quiet_known pine_represented pine_run) eq_refl) as (r & N & H).
  exists r. split; auto. apply (H (spot 3 1) O (at_spot 3 1)); [apply spot_shaped|apply spot_row; walk|apply spot_box; [walk|lia|lia]|walk].
Qed.

(** ** C57 *)

Theorem C57_exact : forall limit G T q t s,
  known (e_sort (g_env G)) -> represents T O t ->
  extract_rules_from_tree limit G T q = Ok s ->
  Forall2 (fun b r => reachable q (fst b) -> forall xs i x, well_shaped xs -> row_is q xs i x (fst b) -> in_box q x (fst b) ->
             (holds r xs i <-> forall d, effective (fst b) d -> beside_threshold x d) /\ (holds r xs i \/ fails r xs i))
          (asked (q_leaf q) t) (s_rules s).
Proof. exact extracted_exact. Qed.
Print Assumptions C57_exact.

Example C57_exact_ex : exists r, nth_error (s_rules pine_set) 1 = Some r /\ (holds r (spot 8 1) 0 \/ fails r (spot 8 1) 0).
Proof.
  destruct (forall2_nth _ _ _ 1 _ (C57_exact _ _ _ _ _ _ quiet_known pine_represented pine_run) eq_refl) as (r & N & H).
  exists r. split; auto.
  apply (H (pine_reachable _ _ _ _ _ (or_intror (or_introl eq_refl))) (spot 8 1) O (at_spot 8 1));
    [apply spot_shaped|apply spot_row; walk|apply spot_box; [walk|lia|lia]].
Qed.

Theorem C57_only : forall limit G T q t s,
  known (e_sort (g_env G)) -> represents T O t ->
  extract_rules_from_tree limit G T q = Ok s ->
  Forall2 (fun b r => reachable q (fst b) -> never_back (fst b) ->
             forall xs i x, well_shaped xs -> row_is q xs i x (fst b) -> in_box q x (fst b) -> off_thresholds x (fst b) ->
             (holds r xs i <-> follows x (fst b))) (asked (q_leaf q) t) (s_rules s).
Proof. exact extracted_only. Qed.
Print Assumptions C57_only.

Example C57_only_ex : exists r, nth_error (s_rules maple_set) 1 = Some r /\ ~ holds r (spot 8 1) 0.
Proof.
  destruct (forall2_nth _ _ _ 1 _ (C57_only _ _ _ _ _ _ quiet_known maple_represented maple_run) eq_refl) as (r & N & H).
  exists r. split; auto.
  destruct (maple_branches 8 1) with (br := ([mkStep 0 (numz 2) Above; mkStep 0 (numz 5) Below], [numz 5])) as (A & B & C & D & E);
    try lia; [right; left; reflexivity|].
  rewrite (H A B (spot 8 1) O (at_spot 8 1) (spot_shaped _ _) C D E). intros F. specialize (F _ (or_intror (or_introl eq_refl))).
  cbn in F. unfold Qle in F. cbn in F. lia.
Qed.

Theorem C57_partition : forall limit G T q t s xs i x,
  known (e_sort (g_env G)) -> represents T O t ->
  extract_rules_from_tree limit G T q = Ok s -> q_leaf q = true -> well_shaped xs ->
  (forall b, In b (branches t) -> reachable q (fst b) /\ never_back (fst b) /\ row_is q xs i x (fst b) /\
     in_box q x (fst b) /\ off_thresholds x (fst b)) ->
  exists b before r after, sends_to x t b /\ s_rules s = before ++ r :: after /\ holds r xs i /\ carries q (snd b) r /\
    forall r', In r' (before ++ after) -> fails r' xs i.
Proof. exact partition. Qed.
Print Assumptions C57_partition.

Example C57_partition_ex : exists b before r after, sends_to (at_spot 3 1) maple b /\ s_rules maple_set = before ++ r :: after /\
  holds r (spot 3 1) 0 /\ carries pine_leaves (snd b) r /\ forall r', In r' (before ++ after) -> fails r' (spot 3 1) 0.
Proof.
  apply (C57_partition _ _ _ pine_leaves _ _ _ _ _ quiet_known maple_represented maple_run eq_refl (spot_shaped _ _)).
  apply maple_branches; lia.
Qed.

Theorem C57_one_leaf : forall x t,
  (forall f th v l r, within_tree (Node f th v l r) t -> th <> NaN /\ exists a, x f = Fin a) ->
  exists b, sends_to x t b.
Proof. exact one_leaf. Qed.
Print Assumptions C57_one_leaf.

Example C57_one_leaf_ex : exists b, sends_to (at_spot 3 1) oak b.
Proof.
  apply C57_one_leaf. intros f th v l r W. repeat (match goal with W : within_tree (Node _ _ _ _ _) _ |- _ => inversion W; clear W; subst end).
  split; [discriminate|]. eexists. reflexivity.
Qed.

(** ** C58 *)

Theorem C58_number : forall limit G T q t s,
  known (e_sort (g_env G)) -> represents T O t ->
  extract_rules_from_tree limit G T q = Ok s ->
  List.length (s_rules s) = if q_leaf q then leaves t else (2 * splits t)%nat.
Proof. exact extracted_number. Qed.
Print Assumptions C58_number.

Example C58_number_ex : List.length (s_rules pine_set) = 4%nat /\ List.length (s_rules pine_node_set) = 6%nat.
Proof.
  rewrite (C58_number _ _ _ _ _ _ quiet_known pine_represented pine_run), (C58_number _ _ _ _ _ _ quiet_known pine_represented pine_node_run).
  split; reflexivity.
Qed.

Theorem C58_features : forall limit G T q t s,
  known (e_sort (g_env G)) -> represents T O t ->
  extract_rules_from_tree limit G T q = Ok s ->
  Forall2 (fun b r => r_act r = None /\ r_good r = true /\ r_fitted r = false /\ r_evaluated r = false /\
    exists c fs, r_cond r = Some c /\ lists c fs /\ distinct fs /\ in_order (e_sort (g_env G)) fs /\
      (forall f, In f (map f_index fs) <-> exists d, In d (fst b) /\ on d = f) /\
      (forall g, In g fs -> feature_name q (f_index g) (f_name g)))
    (asked (q_leaf q) t) (s_rules s).
Proof. exact extracted_features. Qed.
Print Assumptions C58_features.

Example C58_features_ex : exists r c, nth_error (s_rules oak_set) 1 = Some r /\ r_cond r = Some c /\ c_names c = Some ["X_1"].
Proof.
  destruct (forall2_nth _ _ _ 1 _ (C58_features _ _ _ _ _ _ quiet_known oak_represented oak_run) eq_refl)
    as (r & N & _ & _ & _ & _ & c & fs & R & L & D & _ & I & F).
  exists r, c. split; auto. split; auto. destruct L as (_ & _ & _ & ->). destruct D as (D & _).
  assert (X : forall g, In g fs -> f_index g = 1 /\ f_name g = "X_1").
  { intros g J. destruct (proj1 (I _) (in_map f_index _ _ J)) as (d & [ <- |[]] & E). cbn in E. split; auto.
    destruct (F g J) as (_ & ->). rewrite <- E. reflexivity. }
  assert (One : In 1 (map f_index fs)) by (apply I; eexists; split; [left; reflexivity|reflexivity]).
  destruct fs as [|g [|g' fs]]; [destruct One| |].
  - destruct (X g (or_introl eq_refl)) as (_ & E). cbn. rewrite E. reflexivity.
  - exfalso. destruct (X g (or_introl eq_refl)) as (_ & E). destruct (X g' (or_intror (or_introl eq_refl))) as (_ & E').
    cbn in D. rewrite E, E' in D. inversion D as [|? ? Q]. apply Q. left. reflexivity.
Qed.

Theorem C58_bounds : forall limit G T q t s,
  known (e_sort (g_env G)) -> represents T O t ->
  extract_rules_from_tree limit G T q = Ok s ->
  Forall2 (fun b r => thresholds_in_box q (fst b) ->
    forall c fs g xmin xmax, r_cond r = Some c -> lists c fs -> In g fs ->
      nth_error (q_xmins q) (Z.to_nat (f_index g)) = Some xmin -> nth_error (q_xmaxs q) (Z.to_nat (f_index g)) = Some xmax ->
      ((f_low g = xmin \/ exists d, In d (fst b) /\ on d = f_index g /\ goes d = Above /\ bound d = f_low g) /\
       nle xmin (f_low g) /\
       forall d, In d (fst b) -> on d = f_index g -> goes d = Above -> nle (bound d) (f_low g)) /\
      ((f_high g = xmax \/ exists d, effective (fst b) d /\ on d = f_index g /\ goes d = Below /\ bound d = f_high g) /\
       nle (f_high g) xmax /\
       forall d, effective (fst b) d -> on d = f_index g -> goes d = Below -> nle (f_high g) (bound d)))
    (asked (q_leaf q) t) (s_rules s).
Proof. exact extracted_bounds. Qed.
Print Assumptions C58_bounds.

Example C58_bounds_ex : exists r, nth_error (s_rules pine_set) 0 = Some r /\
  forall c fs g, r_cond r = Some c -> lists c fs -> In g fs -> f_index g = 0 -> nle (f_high g) (numz 2).
Proof.
  destruct (forall2_nth _ _ _ 0 _ (C58_bounds _ _ _ _ _ _ quiet_known pine_represented pine_run) eq_refl) as (r & N & H).
  exists r. split; auto. intros c fs g R L I E. specialize (H (pine_thresholds _ _ _ _ _ (or_introl eq_refl)) c fs g (numz 0) (numz 10) R L I).
  rewrite E in H. destruct (H eq_refl eq_refl) as (_ & (_ & _ & B)).
  apply (B (mkStep 0 (numz 2) Below)); auto. exists [mkStep 0 (numz 5) Below], []. split; [reflexivity|]. intros _ e [].
Qed.

Theorem C58_state : forall limit G T q t s,
  known (e_sort (g_env G)) -> represents T O t ->
  extract_rules_from_tree limit G T q = Ok s ->
  s_stack s = q_stack q /\ s_act s = None /\ s_stacked s = None /\
  s_coverage s = none /\ s_criterion s = none /\ s_train s = none /\ s_test s = none /\
  (s_rules s <> [] -> s_type s = Some (if q_classifier q then KClassification else KRegression)) /\
  (s_rules s = [] -> s_type s = None) /\
  (forall f, In f (s_idx s) <-> exists th v l r, within_tree (Node f th v l r) t) /\
  (forall name, In name (s_names s) <-> exists f th v l r, within_tree (Node f th v l r) t /\ feature_name q f name).
Proof. exact extracted_state. Qed.
Print Assumptions C58_state.

Example C58_state_ex : s_type pine_set = Some KRegression /\ In 1 (s_idx pine_set) /\ In "b" (s_names pine_set).
Proof.
  destruct (C58_state _ _ _ _ _ _ quiet_known pine_represented pine_run) as (_ & _ & _ & _ & _ & _ & _ & T & _ & I & N).
  assert (W : within_tree (Node 1 (numz 3) [numz 4] (Leaf [numz 2]) (Leaf [numz 6])) pine)
    by (apply within_left, within_right, within_self).
  split; [apply T; vm_compute; discriminate|]. split; [apply I; eauto|]. apply N. exists 1. do 4 eexists. split; [exact W|reflexivity].
Qed.

(** ** C59 *)

Theorem C59_leaves : forall limit G T q t s,
  known (e_sort (g_env G)) -> represents T O t -> q_leaf q = true ->
  extract_rules_from_tree limit G T q = Ok s ->
  Forall2 (fun b r => carries q (snd b) r) (branches t) (s_rules s).
Proof. exact leaf_values. Qed.
Print Assumptions C59_leaves.

Example C59_leaves_ex : exists r, nth_error (s_rules oak_set) 0 = Some r /\ prediction r = Ok (text "yes").
Proof.
  destruct (forall2_nth _ _ _ 0 _ (C59_leaves _ _ _ oak_leaves _ _ quiet_known oak_represented eq_refl oak_run) eq_refl) as (r & N & H).
  exists r. split; auto. destruct H as (_ & _ & H). apply (H 1%nat (LText "yes")); [|exists (numz 4)|reflexivity].
  - repeat constructor; eexists; reflexivity.
  - split; [reflexivity|]. intros j v J. destruct j as [|[|j]]; cbn in J; [| |destruct j; discriminate]; injection J as <-; cbn; unfold Qle, Qlt; cbn; lia.
Qed.

Theorem C59_nodes : forall limit G T q t s,
  known (e_sort (g_env G)) -> represents T O t -> q_leaf q = false ->
  extract_rules_from_tree limit G T q = Ok s ->
  Forall2 (fun e r => carries q (fst (snd e)) r) (edges t) (s_rules s).
Proof. exact node_values. Qed.
Print Assumptions C59_nodes.

Example C59_nodes_ex : exists r, nth_error (s_rules pine_node_set) 5 = Some r /\ prediction r = Ok (number (numz 4)).
Proof.
  destruct (forall2_nth _ _ _ 5 _ (C59_nodes _ _ _ pine_nodes _ _ quiet_known pine_represented eq_refl pine_node_run) eq_refl) as (r & N & H).
  exists r. split; auto. destruct H as (_ & v & V & P). cbn in V. injection V as <-. exact P.
Qed.

(** ** C139 *)

Theorem C139_refuted : exists limit G T q t s xs i x r r' k k',
  known (e_sort (g_env G)) /\ represents T O t /\ q_leaf q = true /\ extract_rules_from_tree limit G T q = Ok s /\
  (forall b, In b (branches t) -> reachable q (fst b) /\ never_back (fst b) /\
     in_box q x (fst b) /\ row_is q xs i x (fst b)) /\
  well_shaped xs /\ k <> k' /\ nth_error (s_rules s) k = Some r /\ nth_error (s_rules s) k' = Some r' /\
  holds r xs i /\ holds r' xs i.
Proof. exact both_sides. Qed.
Print Assumptions C139_refuted.

(** ** C140 *)

Theorem C140_refuted : exists limit G T q t,
  known (e_sort (g_env G)) /\ represents T O t /\ fitting q t /\ (depth t <= limit)%nat /\
  extract_rules_from_tree limit G T q = Err EAttr.
Proof. exact bare_root. Qed.
Print Assumptions C140_refuted.

Theorem C140_lone_leaf : forall limit G T q v,
  represents T O (Leaf v) -> q_leaf q = true -> fitting q (Leaf v) -> (0 < limit)%nat ->
  extract_rules_from_tree limit G T q = Err EAttr.
Proof. exact lone_leaf. Qed.
Print Assumptions C140_lone_leaf.

Example C140_lone_leaf_ex : extract_rules_from_tree 1000 quiet stick_arrays pine_leaves = Err EAttr.
Proof.
  apply (C140_lone_leaf _ _ _ _ [numz 7]); [apply stick_represented|reflexivity| |lia]. split; [|split].
  - intros f th v l r W. inversion W.
  - intros f g th th' v v' l l' r r' name W. inversion W.
  - intros u W. inversion W. cbn. discriminate.
Qed.

(** ** C141 *)

Theorem C141_refuted : exists limit G T q t s k b r xs i x,
  known (e_sort (g_env G)) /\ represents T O t /\ q_leaf q = true /\ extract_rules_from_tree limit G T q = Ok s /\
  nth_error (branches t) k = Some b /\ nth_error (s_rules s) k = Some r /\
  (forall b', In b' (branches t) -> reachable q (fst b') /\ thresholds_in_box q (fst b') /\
     in_box q x (fst b') /\ row_is q xs i x (fst b') /\ off_thresholds x (fst b')) /\
  well_shaped xs /\ holds r xs i /\ ~ follows x (fst b).
Proof. exact too_wide. Qed.
Print Assumptions C141_refuted.

(** ** C142 *)

Theorem C142_refuted : exists limit G T q t s k p v w r x,
  known (e_sort (g_env G)) /\ represents T O t /\ q_leaf q = false /\ extract_rules_from_tree limit G T q = Ok s /\
  nth_error (edges t) k = Some (p, (v, w)) /\ nth_error (s_rules s) k = Some r /\
  nth_error w 0 = Some x /\ prediction r <> Ok (number x) /\ ~ carries q w r.
Proof. exact parent_value. Qed.
Print Assumptions C142_refuted.

(** ** C143 *)

Theorem C143_succeeds : forall limit G T q t,
  known (e_sort (g_env G)) -> represents T O t -> fitting q t ->
  (depth t <= limit)%nat -> (q_leaf q = true -> forall v, t <> Leaf v) ->
  exists s, extract_rules_from_tree limit G T q = Ok s.
Proof. exact extraction_succeeds. Qed.
Print Assumptions C143_succeeds.

Example C143_succeeds_ex : (exists s, extract_rules_from_tree 4 quiet pine_arrays pine_leaves = Ok s) /\
  exists s, extract_rules_from_tree 2 stacking oak_arrays oak_leaves = Ok s.
Proof.
  split.
  - apply (C143_succeeds 4 quiet pine_arrays pine_leaves pine quiet_known pine_represented (pine_fits true)); [cbn; lia|intros _ v X; discriminate X].
  - apply (C143_succeeds 2 stacking oak_arrays oak_leaves oak quiet_known oak_represented (oak_fits true)); [cbn; lia|intros _ v X; discriminate X].
Qed.

Theorem C143_deep : forall limit G T q t,
  represents T O t -> (limit < depth t)%nat ->
  exists e, extract_rules_from_tree limit G T q = Err e.
Proof. exact extraction_deep. Qed.
Print Assumptions C143_deep.

Example C143_deep_ex : exists e, extract_rules_from_tree 3 quiet pine_arrays pine_nodes = Err e.
Proof. apply (C143_deep 3 quiet pine_arrays pine_nodes pine pine_represented). cbn. lia. Qed.


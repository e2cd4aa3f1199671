(** Concrete trees: witnesses against the properties that the extraction does not
    have, and instances for the examples of TreeProps.v. *)
From Coq Require Import List ZArith QArith Bool String Ascii Lia.
From Coq Require Import List.
From Verif Require Import Base Num CondModel CondSpec CondBase CondProofs CondAnd CondEval CondMore CondWit.
From Verif Require Import ThrModel MetModel RuleModel RuleProofs RuleWit PredModel SetModel SetSpec SetBase SetWit TreeModel TreeSpec TreeProofs TreeVisit TreeFacts TreeMore TreeState.
Import ListNotations.
Open Scope string_scope.
Open Scope list_scope.
Open Scope Z_scope.

(** Two splits on the first feature, then one on the second *)
Definition pine_arrays : arrays :=
  mkArrays [0; 0; -2; 1; -2; -2; -2] [numz 5; numz 2; numz (-2); numz 3; numz (-2); numz (-2); numz (-2)]
           [1; 2; -1; 4; -1; -1; -1] [6; 3; -1; 5; -1; -1; -1]
           [[numz 4]; [numz 3]; [numz 1]; [numz 4]; [numz 2]; [numz 6]; [numz 9]].

Definition pine : tree :=
  Node 0 (numz 5) [numz 4]
    (Node 0 (numz 2) [numz 3] (Leaf [numz 1]) (Node 1 (numz 3) [numz 4] (Leaf [numz 2]) (Leaf [numz 6])))
    (Leaf [numz 9]).

(** One split, two classes *)
Definition oak_arrays : arrays :=
  mkArrays [1; -2; -2] [numz 5; numz (-2); numz (-2)] [1; -1; -1] [2; -1; -1]
           [[numz 5; numz 5]; [numz 1; numz 4]; [numz 4; numz 1]].

Definition oak : tree := Node 1 (numz 5) [numz 5; numz 5] (Leaf [numz 1; numz 4]) (Leaf [numz 4; numz 1]).

(** No split *)
Definition stick_arrays : arrays := mkArrays [-2] [numz (-2)] [-1] [-1] [[numz 7]].
Definition stick : tree := Leaf [numz 7].

Definition box (classifier leaf : bool) (names : option (list string)) (classes : option (list label)) : request :=
  mkRequest classifier 2 [numz 0; numz 0] [numz 10; numz 10] names classes leaf true false.

Definition pine_leaves := box false true (Some ["a"; "b"]) None.
Definition pine_nodes := box false false (Some ["a"; "b"]) None.
Definition oak_leaves := box true true None (Some [LText "no"; LText "yes"]).
Definition oak_nodes := box true false None None.

Lemma pine_represented : represents pine_arrays O pine.
Proof.
  assert (Z0 : 0 <= 0) by lia. assert (Z1 : 0 <= 1) by lia.
  apply represents_node with (a := 1%nat) (b := 6%nat); try reflexivity.
  - apply represents_node with (a := 2%nat) (b := 3%nat); try reflexivity; [apply represents_leaf; reflexivity|].
    apply represents_node with (a := 4%nat) (b := 5%nat); try reflexivity; auto; apply represents_leaf; reflexivity.
  - apply represents_leaf; reflexivity.
Qed.

Lemma oak_represented : represents oak_arrays O oak.
Proof. apply represents_node with (a := 1%nat) (b := 2%nat); try reflexivity; [lia| |]; apply represents_leaf; reflexivity. Qed.

Lemma stick_represented : represents stick_arrays O stick.
Proof. apply represents_leaf; reflexivity. Qed.

Lemma quiet_known : known (e_sort (g_env quiet)).
Proof. first [left; reflexivity|right; reflexivity]. Qed.

(** Two splits on the first feature, the second one on the right *)
Definition maple_arrays : arrays :=
  mkArrays [0; -2; 0; -2; -2] [numz 2; numz (-2); numz 5; numz (-2); numz (-2)]
           [1; -1; 3; -1; -1] [2; -1; 4; -1; -1] [[numz 4]; [numz 1]; [numz 6]; [numz 5]; [numz 8]].

Definition maple : tree :=
  Node 0 (numz 2) [numz 4] (Leaf [numz 1]) (Node 0 (numz 5) [numz 6] (Leaf [numz 5]) (Leaf [numz 8])).

Lemma maple_represented : represents maple_arrays O maple.
Proof.
  apply represents_node with (a := 1%nat) (b := 2%nat); try reflexivity; [apply represents_leaf; reflexivity|].
  apply represents_node with (a := 3%nat) (b := 4%nat); try reflexivity; apply represents_leaf; reflexivity.
Qed.

Definition of_res (m : res ruleset) : ruleset := match m with Ok s => s | Err _ => empty_set false end.
Definition pine_set := of_res (extract_rules_from_tree 1000 quiet pine_arrays pine_leaves).
Definition pine_node_set := of_res (extract_rules_from_tree 1000 quiet pine_arrays pine_nodes).
Definition oak_set := of_res (extract_rules_from_tree 1000 quiet oak_arrays oak_leaves).
Definition maple_set := of_res (extract_rules_from_tree 1000 quiet maple_arrays pine_leaves).

Lemma pine_run : extract_rules_from_tree 1000 quiet pine_arrays pine_leaves = Ok pine_set.
Proof. vm_compute. reflexivity. Qed.
Lemma pine_node_run : extract_rules_from_tree 1000 quiet pine_arrays pine_nodes = Ok pine_node_set.
Proof. vm_compute. reflexivity. Qed.
Lemma oak_run : extract_rules_from_tree 1000 quiet oak_arrays oak_leaves = Ok oak_set.
Proof. vm_compute. reflexivity. Qed.
Lemma maple_run : extract_rules_from_tree 1000 quiet maple_arrays pine_leaves = Ok maple_set.
Proof. vm_compute. reflexivity. Qed.

(** One row *)
Definition spot (a b : Z) : table := TArray 2 [[numz a; numz b]].
Definition at_spot (a b : Z) : point := fun f => if f =? 0 then numz a else numz b.

Lemma spot_shaped a b : well_shaped (spot a b).
Proof. intros r [ <- |[]]. reflexivity. Qed.

Lemma spot_row q a b p : (forall d, In d p -> on d = 0 \/ on d = 1) -> row_is q (spot a b) O (at_spot a b) p.
Proof.
  intros H d I name _. exists [numz a; numz b]. split; [reflexivity|]. left. cbn [f_index].
  destruct (H d I) as [-> | ->]; (split; [lia|reflexivity]).
Qed.

Lemma spot_within a : 0 <= a <= 10 -> within (numz a) (numz 0) (numz 10).
Proof. intros A. split; [eexists; reflexivity|]. split; cbn; unfold Qle; cbn; lia. Qed.

Lemma spot_box c l n k a b p : (forall d, In d p -> on d = 0 \/ on d = 1) -> 0 <= a <= 10 -> 0 <= b <= 10 ->
  in_box (box c l n k) (at_spot a b) p.
Proof.
  intros H A B d I. exists (numz 0), (numz 10). destruct (H d I) as [-> | ->]; (split; [reflexivity|]); (split; [reflexivity|]);
    apply spot_within; auto.
Qed.

Ltac walk := let d := fresh in let I := fresh in
  intros d I; cbn in I; repeat (destruct I as [ <- |I]; [cbn; auto; unfold Qle, Qlt, Qeq; cbn; lia|]); destruct I.

Lemma pine_reachable c l n k b : In b (branches pine) -> reachable (box c l n k) (fst b).
Proof.
  intros I. cbn in I. destruct I as [ <- |[ <- |[ <- |[ <- |[]]]]].
  - exists (at_spot 1 1). split; [apply spot_box; [walk|lia|lia]|walk].
  - exists (at_spot 3 1). split; [apply spot_box; [walk|lia|lia]|walk].
  - exists (at_spot 3 6). split; [apply spot_box; [walk|lia|lia]|walk].
  - exists (at_spot 6 1). split; [apply spot_box; [walk|lia|lia]|walk].
Qed.

Lemma pine_features b : In b (branches pine) -> forall d, In d (fst b) -> on d = 0 \/ on d = 1.
Proof. intros I. cbn in I. destruct I as [ <- |[ <- |[ <- |[ <- |[]]]]]; walk. Qed.

Lemma pine_thresholds c l n k b : In b (branches pine) -> thresholds_in_box (box c l n k) (fst b).
Proof.
  intros I d J. exists (numz 0), (numz 10).
  assert (X : (on d = 0 \/ on d = 1) /\ nle (numz 0) (bound d) /\ nle (bound d) (numz 10)).
  { split; [eapply pine_features; eauto|]. revert d J. cbn in I. destruct I as [ <- |[ <- |[ <- |[ <- |[]]]]];
    intros d J; cbn in J; repeat (destruct J as [ <- |J]; [cbn; unfold Qle; cbn; lia|]); destruct J. }
  destruct X as ([-> | ->] & X); cbn; auto.
Qed.

Lemma pine_off a b br : a <> 5 -> a <> 2 -> b <> 3 -> In br (branches pine) -> off_thresholds (at_spot a b) (fst br).
Proof.
  intros A B C I. cbn in I. destruct I as [ <- |[ <- |[ <- |[ <- |[]]]]];
    intros d J; cbn in J; repeat (destruct J as [ <- |J]; [cbn; unfold Qeq; cbn; lia|]); destruct J.
Qed.

Lemma holds_by r xs i c v : r_cond r = Some c -> evaluate c xs = Ok v -> nth_error v i = Some 1 -> holds r xs i.
Proof. intros. exists c, v. auto. Qed.

(** ** Refutations *)

(** C57: the second rule is on [2, 10] instead of [2, 5]. *)
Lemma too_wide : exists limit G T q t s k b r xs i x,
  known (e_sort (g_env G)) /\ represents T O t /\ q_leaf q = true /\ extract_rules_from_tree limit G T q = Ok s /\
  nth_error (branches t) k = Some b /\ nth_error (s_rules s) k = Some r /\
  (forall b', In b' (branches t) -> reachable q (fst b') /\ thresholds_in_box q (fst b') /\
     in_box q x (fst b') /\ row_is q xs i x (fst b') /\ off_thresholds x (fst b')) /\
  well_shaped xs /\ holds r xs i /\ ~ follows x (fst b).
Proof.
  exists 1000%nat, quiet, pine_arrays, pine_leaves, pine, pine_set, 1%nat,
    ([mkStep 0 (numz 5) Below; mkStep 0 (numz 2) Above; mkStep 1 (numz 3) Below], [numz 2]).
  eexists. exists (spot 8 1), O, (at_spot 8 1). split; [apply quiet_known|]. split; [apply pine_represented|].
  split; [reflexivity|]. split; [apply pine_run|]. split; [reflexivity|]. split; [vm_compute; reflexivity|]. split; [|split; [apply spot_shaped|split]].
  - intros b I. split; [apply pine_reachable; auto|]. split; [apply pine_thresholds; auto|].
    split; [apply spot_box; [apply pine_features; auto|lia|lia]|]. split; [apply spot_row, pine_features; auto|].
    apply pine_off; auto; lia.
  - eapply holds_by; [reflexivity|vm_compute; reflexivity|reflexivity].
  - intros F. specialize (F _ (or_introl eq_refl)). cbn in F. unfold Qle in F. cbn in F. lia.
Qed.

(** C139: a point on a threshold satisfies the rules of both sides. *)
Lemma both_sides : exists limit G T q t s xs i x r r' k k',
  known (e_sort (g_env G)) /\ represents T O t /\ q_leaf q = true /\ extract_rules_from_tree limit G T q = Ok s /\
  (forall b, In b (branches t) -> reachable q (fst b) /\ never_back (fst b) /\
     in_box q x (fst b) /\ row_is q xs i x (fst b)) /\
  well_shaped xs /\ k <> k' /\ nth_error (s_rules s) k = Some r /\ nth_error (s_rules s) k' = Some r' /\
  holds r xs i /\ holds r' xs i.
Proof.
  exists 1000%nat, quiet, oak_arrays, oak_leaves, oak, oak_set, (spot 1 5), O, (at_spot 1 5). eexists. eexists. exists O, 1%nat.
  split; [apply quiet_known|]. split; [apply oak_represented|]. split; [reflexivity|]. split; [apply oak_run|].
  split; [|split; [apply spot_shaped|]]; [|split; [discriminate|]; split; [vm_compute; reflexivity|]; split; [vm_compute; reflexivity|]; split].
  - intros b I. cbn in I. destruct I as [ <- |[ <- |[]]].
    + split; [exists (at_spot 1 1); split; [apply spot_box; [walk|lia|lia]|walk]|].
      split; [intros d [ <- |[]]; exists [], []; split; [reflexivity|intros _ e []]|].
      split; [apply spot_box; [walk|lia|lia]|apply spot_row; walk].
    + split; [exists (at_spot 1 6); split; [apply spot_box; [walk|lia|lia]|walk]|].
      split; [intros d [ <- |[]]; exists [], []; split; [reflexivity|discriminate]|].
      split; [apply spot_box; [walk|lia|lia]|apply spot_row; walk].
  - eapply holds_by; [reflexivity|vm_compute; reflexivity|reflexivity].
  - eapply holds_by; [reflexivity|vm_compute; reflexivity|reflexivity].
Qed.

(** C59: the rules of the nodes have the value of the parent. *)
Lemma parent_value : exists limit G T q t s k p v w r x,
  known (e_sort (g_env G)) /\ represents T O t /\ q_leaf q = false /\ extract_rules_from_tree limit G T q = Ok s /\
  nth_error (edges t) k = Some (p, (v, w)) /\ nth_error (s_rules s) k = Some r /\
  nth_error w 0 = Some x /\ prediction r <> Ok (number x) /\ ~ carries q w r.
Proof.
  exists 1000%nat, quiet, pine_arrays, pine_nodes, pine, pine_node_set, 5%nat, [mkStep 0 (numz 5) Above], [numz 4], [numz 9].
  eexists. exists (numz 9). split; [apply quiet_known|]. split; [apply pine_represented|]. split; [reflexivity|]. split; [apply pine_node_run|].
  split; [reflexivity|]. split; [vm_compute; reflexivity|]. split; [reflexivity|].
  assert (N : forall r, prediction r = Ok (number (numz 4)) -> prediction r <> Ok (number (numz 9))).
  { intros r E. rewrite E. intros X. discriminate X. }
  split; [apply N; vm_compute; reflexivity|]. intros (_ & v & V & P). cbn in V. injection V as <-. revert P. apply N. vm_compute. reflexivity.
Qed.

(** C140: a tree without split has no leaf rule. *)
Lemma bare_root : exists limit G T q t,
  known (e_sort (g_env G)) /\ represents T O t /\ fitting q t /\ (depth t <= limit)%nat /\
  extract_rules_from_tree limit G T q = Err EAttr.
Proof.
  exists 1000%nat, quiet, stick_arrays, pine_leaves, stick. split; [apply quiet_known|]. split; [apply stick_represented|].
  split; [|split; [cbn; lia|vm_compute; reflexivity]]. split; [|split].
  - intros f th v l r W. inversion W.
  - intros f g th th' v v' l l' r r' name W. inversion W.
  - intros u W. inversion W. cbn. discriminate.
Qed.

(** ** Instances *)

Lemma pine_nodes_of f th v l r : within_tree (Node f th v l r) pine -> f = 0 \/ f = 1.
Proof.
  intros W. repeat (match goal with W : within_tree (Node _ _ _ _ _) _ |- _ => inversion W; clear W; subst end); auto.
Qed.

Lemma pine_fits leaf : fitting (box false leaf (Some ["a"; "b"]) None) pine.
Proof.
  split; [|split].
  - intros f th v l r W. apply pine_nodes_of in W. destruct W as [-> | ->]; cbn; (split; [lia|]); (split; [lia|]); (split; [lia|]).
    + exists "a". reflexivity.
    + exists "b". reflexivity.
  - intros f g th th' v v' l l' r r' name W W' N N'. apply pine_nodes_of in W. apply pine_nodes_of in W'.
    destruct W as [-> | ->], W' as [-> | ->]; auto; exfalso; unfold feature_name in N, N'; cbn in N, N'; rewrite <- N in N'; discriminate N'.
  - intros u W. cbn [q_classifier box].
    repeat (match goal with W : within_tree _ _ |- _ => inversion W; clear W; subst end); cbn; discriminate.
Qed.

Lemma oak_fits leaf : fitting (box true leaf None (Some [LText "no"; LText "yes"])) oak.
Proof.
  assert (F : forall f th v l r, within_tree (Node f th v l r) oak -> f = 1).
  { intros f th v l r W. repeat (match goal with W : within_tree (Node _ _ _ _ _) _ |- _ => inversion W; clear W; subst end); auto. }
  split; [|split].
  - intros f th v l r W. apply F in W. subst f. cbn. split; [lia|]. split; [lia|]. split; [lia|]. exists "X_1". split; [cbn; lia|reflexivity].
  - intros f g th th' v v' l l' r r' name W W' N N'. apply F in W. apply F in W'. congruence.
  - intros u W. cbn [q_classifier box].
    assert (Two : List.length (value_of u) = 2%nat)
      by (repeat (match goal with W : within_tree _ _ |- _ => inversion W; clear W; subst end); reflexivity).
    rewrite Two. intros i I. unfold class_name. cbn [q_classes box].
    destruct i as [|[|i]]; [eexists; reflexivity|eexists; reflexivity|lia].
Qed.

Lemma maple_branches a b : 0 <= a <= 10 -> 0 <= b <= 10 -> a <> 2 -> a <> 5 -> forall br, In br (branches maple) ->
  reachable pine_leaves (fst br) /\ never_back (fst br) /\ row_is pine_leaves (spot a b) O (at_spot a b) (fst br) /\
  in_box pine_leaves (at_spot a b) (fst br) /\ off_thresholds (at_spot a b) (fst br).
Proof.
  intros A B N2 N5 br I.
  assert (On : forall d, In d (fst br) -> on d = 0 \/ on d = 1) by (cbn in I; destruct I as [ <- |[ <- |[ <- |[]]]]; walk).
  split; [|split; [|split; [apply spot_row; auto|split; [apply spot_box; auto|]]]].
  - cbn in I; destruct I as [ <- |[ <- |[ <- |[]]]];
      [exists (at_spot 1 1)|exists (at_spot 3 1)|exists (at_spot 6 1)]; (split; [apply spot_box; [auto|lia|lia]|walk]).
  - cbn in I; destruct I as [ <- |[ <- |[ <- |[]]]]; intros d J; cbn in J.
    + destruct J as [ <- |[]]. exists [], []. split; [reflexivity|intros _ e []].
    + destruct J as [ <- |[ <- |[]]]; [exists [], [mkStep 0 (numz 5) Below]|exists [mkStep 0 (numz 2) Above], []];
        (split; [reflexivity|]); [discriminate|intros _ e []].
    + destruct J as [ <- |[ <- |[]]]; [exists [], [mkStep 0 (numz 5) Above]|exists [mkStep 0 (numz 2) Above], []];
        (split; [reflexivity|discriminate]).
  - cbn in I; destruct I as [ <- |[ <- |[ <- |[]]]]; intros d J; cbn in J;
      repeat (destruct J as [ <- |J]; [cbn; unfold Qeq; cbn; lia|]); destruct J.
Qed.

(** Number, bounds and success of the extraction. *)
From Coq Require Import List ZArith QArith Bool String Lia.
From Coq Require Import List.
From Verif Require Import Base Num CondModel CondSpec CondBase CondProofs CondAnd CondEval CondMore.
From Verif Require Import MetModel RuleModel RuleProofs PredModel SetModel SetSpec SetBase TreeModel TreeSpec TreeProofs TreeVisit TreeFacts.
Import ListNotations.
Open Scope string_scope.
Open Scope list_scope.
Open Scope Z_scope.

(** ** Number *)

Lemma asked_number leaf t : List.length (asked leaf t) = if leaf then leaves t else (2 * splits t)%nat.
Proof.
  induction t as [v|f th v l IHl r IHr]; [destruct leaf; auto|]. rewrite asked_node, !app_length, !map_length, IHl, IHr.
  destruct leaf; cbn [leaves splits List.length]; lia.
Qed.

Lemma extracted_number limit G T q t s : known (e_sort (g_env G)) -> represents T O t ->
  extract_rules_from_tree limit G T q = Ok s ->
  List.length (s_rules s) = if q_leaf q then leaves t else (2 * splits t)%nat.
Proof. intros K R X. rewrite <- (forall2_len _ _ _ (extracted _ _ _ _ _ _ K R X)). apply asked_number. Qed.

(** ** Features and bounds *)

Lemma extracted_features limit G T q t s : known (e_sort (g_env G)) -> represents T O t ->
  extract_rules_from_tree limit G T q = Ok s ->
  Forall2 (fun b r => r_act r = None /\ r_good r = true /\ r_fitted r = false /\ r_evaluated r = false /\
    exists c fs, r_cond r = Some c /\ lists c fs /\ distinct fs /\ in_order (e_sort (g_env G)) fs /\
      (forall f, In f (map f_index fs) <-> exists d, In d (fst b) /\ on d = f) /\
      (forall g, In g fs -> feature_name q (f_index g) (f_name g)))
    (asked (q_leaf q) t) (s_rules s).
Proof.
  intros K R X. pose proof (extracted _ _ _ _ _ _ K R X) as F. revert F. apply forall2_same.
  intros b r (Ne & c & Rc & D & _ & A1 & A2 & A3 & A4). do 4 (split; [auto|]). destruct D as (fs & L & Di & O & B & A & _).
  exists c, fs. split; auto. split; auto. split; auto. split; auto. split.
  - intros f. split.
    + intros I. apply in_map_iff in I. destruct I as (g & <- & I). destruct (B g I) as (_ & Ag).
      destruct (in_dec Z.eq_dec (f_index g) (map on (fst b))) as [J|J].
      * apply in_map_iff in J. destruct J as (d & O' & J). eauto.
      * exfalso. rewrite (proj2 (along_none q (fst b) (f_index g))) in Ag; [discriminate|]. intros e Ie Ee. apply J.
        rewrite <- Ee. apply in_map; auto.
    + intros (d & I & <-). apply A. intros Z. apply (proj1 (along_none _ _ _) Z d); auto.
  - intros g I. apply B. auto.
Qed.

Lemma bounds_exact q p f lo hi : thresholds_in_box q p -> along q p f = Some (lo, hi) ->
  ((lo = low_of q f \/ exists d, In d p /\ on d = f /\ goes d = Above /\ bound d = lo) /\ nle (low_of q f) lo /\
   forall d, In d p -> on d = f -> goes d = Above -> nle (bound d) lo) /\
  ((hi = high_of q f \/ exists d, effective p d /\ on d = f /\ goes d = Below /\ bound d = hi) /\ nle hi (high_of q f) /\
   forall d, effective p d -> on d = f -> goes d = Below -> nle hi (bound d)).
Proof.
  revert lo hi. induction p as [|e p IH] using rev_ind; intros lo hi B A; [discriminate|].
  rewrite along_snoc in A. unfold update in A.
  assert (Be : nle (low_of q (on e)) (bound e) /\ nle (bound e) (high_of q (on e))).
  { destruct (B e) as (l & h & L & H & W1 & W2); [apply in_snoc; auto|]. rewrite (nth_low _ _ _ L), (nth_high _ _ _ H). auto. }
  destruct Be as (Bl & Bh). pose proof (nle_nan _ _ Bl) as (Nl & Ne). pose proof (nle_nan _ _ Bh) as (_ & Nh).
  assert (B' : thresholds_in_box q p) by (intros d I; apply B; apply in_snoc; auto).
  specialize (fun l h => IH l h B'). destruct (Z.eqb_spec f (on e)) as [->|Ef].
  - destruct (along q p (on e)) as [[l h]|] eqn:AP.
    + destruct (IH l h eq_refl) as ((L1 & L2 & L3) & (H1 & H2 & H3)).
      pose proof (nle_nan _ _ L2) as (_ & N1). pose proof (nle_nan _ _ H2) as (N2 & _).
      destruct (goes e) eqn:Ge; injection A as <- <-.
      * destruct (py_min_spec (bound e) h Ne N2) as (S1 & S2 & S3). split; (split; [|split]).
        { destruct L1 as [->|(d & I & X)]; auto. right. exists d. split; auto. apply in_snoc; auto. }
        { auto. }
        { intros d I O G. apply in_snoc in I. destruct I as [I| ->]; [auto|congruence]. }
        { destruct S1 as [-> | ->].
          - right. exists e. split; auto. apply effective_snoc. auto.
          - destruct H1 as [->|(d & I & X)]; auto. right. exists d. split; auto. apply effective_snoc. right. split; auto. }
        { eapply nle_trans; eauto. }
        { intros d I O G. apply effective_snoc in I. destruct I as [->|(I & _)]; auto. eapply nle_trans; eauto. }
      * destruct (py_max_spec (bound e) l Ne N1) as (S1 & S2 & S3).
        assert (EH : py_max (high_of q (on e)) h = high_of q (on e)).
        { unfold py_max, ngtb. destruct (nltb (high_of q (on e)) h) eqn:Z; auto. apply nltb_spec in Z. exfalso. eapply nlt_not_nle; eauto. }
        rewrite EH. split; (split; [|split]).
        { destruct S1 as [-> | ->].
          - right. exists e. split; auto. apply in_snoc. auto.
          - destruct L1 as [->|(d & I & X)]; auto. right. exists d. split; auto. apply in_snoc; auto. }
        { eapply nle_trans; eauto. }
        { intros d I O G. apply in_snoc in I. destruct I as [I| ->]; auto. eapply nle_trans; eauto. }
        { auto. }
        { apply nle_refl. auto. }
        { intros d I O G. apply effective_snoc in I. destruct I as [->|(I & C)]; [congruence|]. rewrite (C G) in Ge; congruence. }
    + pose proof (proj1 (along_none q p (on e)) AP) as No. destruct (goes e) eqn:Ge; injection A as <- <-; split; (split; [|split]); auto.
      * apply nle_refl. auto.
      * intros d I O G. apply in_snoc in I. destruct I as [I| ->]; [destruct (No d I O)|congruence].
      * right. exists e. split; auto. apply effective_snoc. auto.
      * intros d I O G. apply effective_in in I. apply in_snoc in I. destruct I as [I| ->]; [destruct (No d I O)|apply nle_refl; auto].
      * right. exists e. split; auto. apply in_snoc. auto.
      * intros d I O G. apply in_snoc in I. destruct I as [I| ->]; [destruct (No d I O)|apply nle_refl; auto].
      * apply nle_refl. auto.
      * intros d I O G. apply effective_in in I. apply in_snoc in I. destruct I as [I| ->]; [destruct (No d I O)|congruence].
  - destruct (IH lo hi A) as ((L1 & L2 & L3) & (H1 & H2 & H3)). split; (split; [|split]); auto.
    + destruct L1 as [->|(d & I & X)]; auto. right. exists d. split; auto. apply in_snoc; auto.
    + intros d I O G. apply in_snoc in I. destruct I as [I| ->]; [auto|congruence].
    + destruct H1 as [->|(d & I & O & X)]; auto. right. exists d. split; auto. apply effective_snoc. right. split; auto. congruence.
    + intros d I O G. apply effective_snoc in I. destruct I as [->|(I & _)]; [congruence|auto].
Qed.

Lemma extracted_bounds limit G T q t s : known (e_sort (g_env G)) -> represents T O t ->
  extract_rules_from_tree limit G T q = Ok s ->
  Forall2 (fun b r => thresholds_in_box q (fst b) ->
    forall c fs g xmin xmax, r_cond r = Some c -> lists c fs -> In g fs ->
      nth_error (q_xmins q) (Z.to_nat (f_index g)) = Some xmin -> nth_error (q_xmaxs q) (Z.to_nat (f_index g)) = Some xmax ->
      ((f_low g = xmin \/ exists d, In d (fst b) /\ on d = f_index g /\ goes d = Above /\ bound d = f_low g) /\
       nle xmin (f_low g) /\
       forall d, In d (fst b) -> on d = f_index g -> goes d = Above -> nle (bound d) (f_low g)) /\
      ((f_high g = xmax \/ exists d, effective (fst b) d /\ on d = f_index g /\ goes d = Below /\ bound d = f_high g) /\
       nle (f_high g) xmax /\
       forall d, effective (fst b) d -> on d = f_index g -> goes d = Below -> nle (f_high g) (bound d)))
    (asked (q_leaf q) t) (s_rules s).
Proof.
  intros K R X. pose proof (extracted _ _ _ _ _ _ K R X) as F. revert F. apply forall2_same.
  intros b r (Ne & c & Rc & (fs & L & Di & O & B & A & _) & _) TB c' fs' g xmin xmax Rc' L' I Hl Hh.
  rewrite Rc in Rc'. injection Rc' as <-.
  assert (fs' = fs) as ->.
  { destruct L as (L1 & L2 & L3 & L4), L' as (M1 & M2 & M3 & M4). rewrite L1 in M1. rewrite L2 in M2. rewrite L3 in M3. rewrite L4 in M4.
    injection M1 as M1. injection M2 as M2. injection M3 as M3. injection M4 as M4.
    clear - M1 M2 M3 M4. revert fs' M1 M2 M3 M4. induction fs as [|[n i l h] t IH]; intros [|[n' i' l' h'] t'] M1 M2 M3 M4; cbn in *; try discriminate; auto.
    injection M1 as -> M1. injection M2 as -> M2. injection M3 as -> M3. injection M4 as -> M4. f_equal. auto. }
  rewrite <- (nth_low _ _ _ Hl), <- (nth_high _ _ _ Hh). apply bounds_exact; auto. apply B; auto.
Qed.

Lemma extracted_values limit G T q t s : known (e_sort (g_env G)) -> represents T O t ->
  extract_rules_from_tree limit G T q = Ok s ->
  Forall2 (fun b r => carries q (snd b) r) (asked (q_leaf q) t) (s_rules s).
Proof.
  intros K R X. pose proof (extracted _ _ _ _ _ _ K R X) as F. revert F. apply forall2_same.
  intros b r (_ & c & _ & _ & C & _). auto.
Qed.

Lemma leaf_values limit G T q t s : known (e_sort (g_env G)) -> represents T O t -> q_leaf q = true ->
  extract_rules_from_tree limit G T q = Ok s ->
  Forall2 (fun b r => carries q (snd b) r) (branches t) (s_rules s).
Proof. intros K R Q X. apply extracted_values with (t := t) in X; auto. rewrite Q in X. exact X. Qed.

Lemma node_values limit G T q t s : known (e_sort (g_env G)) -> represents T O t -> q_leaf q = false ->
  extract_rules_from_tree limit G T q = Ok s ->
  Forall2 (fun e r => carries q (fst (snd e)) r) (edges t) (s_rules s).
Proof. intros K R Q X. apply extracted_values with (t := t) in X; auto. rewrite Q in X. exact (proj1 (forall2_mapl (fun b => (fst b, fst (snd b))) _ _ _) X). Qed.

(** ** Success *)

Lemma rseq_exists {A B} (f : A -> res B) l : (forall x, In x l -> exists y, f x = Ok y) -> exists ys, rseq (map f l) = Ok ys.
Proof.
  induction l as [|x t IH]; intros H; [exists []; auto|]. destruct (H x) as (y & E); [left; auto|].
  destruct IH as (ys & E'); [intros z I; apply H; right; auto|]. exists (y :: ys). cbn. rewrite E, E'. auto.
Qed.

Definition named_values (q : request) (v : list num) : Prop :=
  if q_classifier q then forall i, (i < List.length v)%nat -> exists c, class_name q i c else v <> [].

Lemma node_rule_succeeds E q o v : named_values q v -> exists r, node_rule E q o v = Ok r.
Proof.
  unfold node_rule, named_values. destruct (q_classifier q); intros H.
  - destruct (new_rule E KClassification (match o with Some c => CCond c | None => CNone end) VNone) as [r|] eqn:N;
      [|destruct o; discriminate]. cbn [rbind].
    destruct (class_pairs (q_classes q) v) as [rows|] eqn:C; [cbn; eauto|]. exfalso. revert C. unfold class_pairs.
    match goal with |- rseq (map ?f ?l) = _ -> _ => destruct (rseq_exists f l) as (ys & E') end; [|rewrite E'; discriminate].
    intros (i & x) I. cbn [fst snd]. unfold enumerate in I. apply in_combine_l in I. apply in_seq in I.
    destruct (H i) as (c & Hc); [lia|]. unfold class_name in Hc. destruct (q_classes q) as [names|]; [|eauto].
    apply at_nth in Hc. rewrite Hc. cbn. eauto.
  - destruct (new_rule E KRegression (match o with Some c => CCond c | None => CNone end) VNone) as [r|] eqn:N;
      [|destruct o; discriminate]. cbn [rbind]. destruct v as [|x v]; [congruence|]. cbn. eauto.
Qed.

Lemma record_succeeds G q p c v s : named_values q v -> describes (e_sort (g_env G)) q p c -> typed q s ->
  exists s', record_rule G q c v s = Ok s' /\ typed q s'.
Proof.
  intros V (fs & (L1 & _ & _ & L4) & _) Ty. unfold record_rule. destruct (node_rule_succeeds (g_env G) q (Some c) v V) as (r & E). rewrite E. cbn [rbind].
  apply node_rule_ok in E as (Rc & _ & Rk & Ra & _). eapply append_to_succeeds; eauto.
Qed.

Definition tree_of_features (q : request) (p : list step) (t : tree) : Prop :=
  (forall f th v l r, within_tree (Node f th v l r) t ->
     f < Z.of_nat (List.length (q_xmins q)) /\ f < Z.of_nat (List.length (q_xmaxs q)) /\
     (exists name, feature_name q f name) /\ names_differ q p f) /\
  (forall f g th th' v v' l l' r r' name, within_tree (Node f th v l r) t -> within_tree (Node g th' v' l' r') t ->
     feature_name q f name -> feature_name q g name -> f = g) /\
  (forall u, within_tree u t -> named_values q (value_of u)).

Lemma tof_below q p f th v l r sd u : tree_of_features q p (Node f th v l r) -> u = l \/ u = r ->
  tree_of_features q (p ++ [mkStep f th sd]) u.
Proof.
  intros (A & B & C) U.
  assert (W : forall x, within_tree x u -> within_tree x (Node f th v l r))
    by (intros x Wx; destruct U as [-> | ->]; [apply within_left|apply within_right]; auto).
  split; [|split].
  - intros f0 th0 v0 l0 r0 W0. destruct (A _ _ _ _ _ (W _ W0)) as (A1 & A2 & A3 & A4). do 3 (split; auto).
    intros e name I N1 N2. apply in_snoc in I. destruct I as [I| ->]; [eauto|]. cbn [on] in *.
    eapply (B f f0); eauto. constructor.
  - intros. eapply B; eauto.
  - auto.
Qed.

Lemma visitor_succeeds G T q : known (e_sort (g_env G)) -> forall n t, represents T n t ->
  forall limit p o s, (depth t <= limit)%nat -> so_far (e_sort (g_env G)) q p o -> typed q s ->
  tree_of_features q p t -> (q_leaf q = true -> o = None -> forall v, t <> Leaf v) ->
  exists s', visitor limit G T q (Z.of_nat n) o s = Ok s' /\ typed q s'.
Proof.
  intros K. induction 1 as [n v Hf Hv|n f th v a b l r Hf Pf Ht Hv Hl Rl IHl Hr Rr IHr]; intros limit p o s Dp S Ty Tf NL;
    (destruct limit as [|limit]; cbn [visitor]; [cbn in Dp; lia|]).
  - assert (P1 : py_index (t_feature T) (Z.of_nat n) = Ok (-2)) by (apply py_index_nth; [lia|]; rewrite Nat2Z.id; auto).
    assert (P2 : py_index (t_value T) (Z.of_nat n) = Ok v) by (apply py_index_nth; [lia|]; rewrite Nat2Z.id; auto).
    rewrite P1. cbn [rbind TREE_UNDEFINED Z.eqb negb Pos.eqb]. destruct (q_leaf q) eqn:Q; [|eauto].
    rewrite P2. cbn [rbind]. destruct o as [c|]; [|exfalso; apply (NL eq_refl eq_refl v); auto].
    destruct S as (_ & S). apply (record_succeeds G q p c v s); auto. destruct Tf as (_ & _ & Tf). apply (Tf _ (within_self _)).
  - assert (P1 : py_index (t_feature T) (Z.of_nat n) = Ok f) by (apply py_index_nth; [lia|]; rewrite Nat2Z.id; auto).
    assert (P2 : py_index (t_value T) (Z.of_nat n) = Ok v) by (apply py_index_nth; [lia|]; rewrite Nat2Z.id; auto).
    assert (P3 : py_index (t_threshold T) (Z.of_nat n) = Ok th) by (apply py_index_nth; [lia|]; rewrite Nat2Z.id; auto).
    assert (P4 : py_index (t_left T) (Z.of_nat n) = Ok (Z.of_nat a)) by (apply py_index_nth; [lia|]; rewrite Nat2Z.id; auto).
    assert (P5 : py_index (t_right T) (Z.of_nat n) = Ok (Z.of_nat b)) by (apply py_index_nth; [lia|]; rewrite Nat2Z.id; auto).
    rewrite P1, P2, P3, P4, P5. cbn [rbind]. assert (E : negb (f =? TREE_UNDEFINED) = true).
    { unfold TREE_UNDEFINED. destruct (Z.eqb_spec f (-2)); [lia|auto]. }
    rewrite E. clear E. pose proof Tf as (T1 & T2 & T3). destruct (T1 f th v l r (within_self _)) as (A1 & A2 & A3 & A4).
    pose proof (T3 _ (within_self _)) as V. cbn [value_of] in V. cbn [depth] in Dp.
    destruct (left_succeeds _ q p o f th K Pf S A1 A3 A4) as (c1 & E1). rewrite E1. cbn [rbind].
    apply (left_step _ _ p) in E1; auto.
    assert (X1 : exists s1, (if negb (q_leaf q) then record_rule G q c1 v s else Ok s) = Ok s1 /\ typed q s1).
    { destruct (q_leaf q); cbn [negb]; [eauto|]. eapply record_succeeds; eauto. }
    destruct X1 as (s1 & X1 & Ty1). rewrite X1. cbn [rbind].
    destruct (IHl limit (p ++ [mkStep f th Below]) (Some c1) s1) as (s2 & E2 & Ty2); auto; [lia|apply so_far_describes; auto| | |].
    { eapply tof_below; eauto. } { discriminate. }
    rewrite E2. cbn [rbind]. destruct (right_succeeds _ q p o f th K Pf S A2 A3 A4) as (c2 & E3). rewrite E3. cbn [rbind].
    apply (right_step _ _ p) in E3; auto.
    assert (X3 : exists s3, (if negb (q_leaf q) then record_rule G q c2 v s2 else Ok s2) = Ok s3 /\ typed q s3).
    { destruct (q_leaf q); cbn [negb]; [eauto|]. eapply record_succeeds; eauto. }
    destruct X3 as (s3 & X3 & Ty3). rewrite X3. cbn [rbind].
    apply (IHr limit (p ++ [mkStep f th Above])); auto; [lia|apply so_far_describes; auto| |].
    { eapply tof_below; eauto. } { discriminate. }
Qed.

Lemma extraction_succeeds limit G T q t : known (e_sort (g_env G)) -> represents T O t -> fitting q t ->
  (depth t <= limit)%nat -> (q_leaf q = true -> forall v, t <> Leaf v) ->
  exists s, extract_rules_from_tree limit G T q = Ok s.
Proof.
  intros K R (F1 & F2 & F3) D NL. unfold extract_rules_from_tree.
  destruct limit as [|limit]; [destruct t; cbn in D; lia|]. rewrite new_set_none_ok. cbn [rbind].
  destruct (visitor_succeeds G T q K O t R (S limit) [] None (empty_set (q_stack q))) as (s & E & _); auto.
  - reflexivity.
  - left. reflexivity.
  - split; [|split]; auto. intros f th v l r W. destruct (F1 _ _ _ _ _ W) as (P & A & B & C). do 3 (split; auto). intros e name [].
  - exists s. exact E.
Qed.

(** ** Failures *)

Lemma lone_leaf limit G T q v : represents T O (Leaf v) -> q_leaf q = true -> fitting q (Leaf v) -> (0 < limit)%nat ->
  extract_rules_from_tree limit G T q = Err EAttr.
Proof.
  intros R Q (_ & _ & V) L. specialize (V _ (within_self _)). inversion R as [? ? Hf Hv|]. subst. unfold extract_rules_from_tree. destruct limit as [|limit]; [lia|].
  rewrite new_set_none_ok. cbn [rbind visitor].
  assert (P1 : py_index (t_feature T) 0 = Ok (-2)) by (apply py_index_nth; [lia|]; auto).
  assert (P2 : py_index (t_value T) 0 = Ok v) by (apply py_index_nth; [lia|]; auto).
  rewrite P1, P2. cbn [rbind TREE_UNDEFINED Z.eqb negb Pos.eqb]. rewrite Q.
  destruct (node_rule_succeeds (g_env G) q None v V) as (r & E). rewrite E. cbn [rbind].
  apply node_rule_ok in E as (Rc & _). unfold append_to, append, add_rule, rule_indexes. rewrite Rc. reflexivity.
Qed.

Lemma visitor_deep G T q : forall n t, represents T n t -> forall limit o s,
  (limit < depth t)%nat -> exists e, visitor limit G T q (Z.of_nat n) o s = Err e.
Proof.
  induction 1 as [n v Hf Hv|n f th v a b l r Hf Pf Ht Hv Hl Rl IHl Hr Rr IHr]; intros limit o s D.
  - cbn in D. destruct limit; [cbn; eauto|lia].
  - destruct limit as [|limit]; [cbn; eauto|]. cbn [depth] in D.
    destruct (visitor (S limit) G T q (Z.of_nat n) o s) as [s'|e] eqn:H; eauto. exfalso. cbn [visitor] in H.
    pull H f0 F0. apply py_index_nth in F0; [|lia]. rewrite Nat2Z.id in F0. assert (f0 = f) as -> by congruence.
    assert (E : negb (f =? TREE_UNDEFINED) = true). { unfold TREE_UNDEFINED. destruct (Z.eqb_spec f (-2)); [lia|auto]. }
    rewrite E in H. pull H th0 E1. pull H c1 C1. pull H s1 S1. pull H ch E2. apply py_index_nth in E2; [|lia]. rewrite Nat2Z.id in E2.
    assert (ch = Z.of_nat a) as -> by congruence. pull H s2 S2. pull H c2 C2. pull H s3 S3. pull H ch E3. apply py_index_nth in E3; [|lia].
    rewrite Nat2Z.id in E3. assert (ch = Z.of_nat b) as -> by congruence.
    destruct (Nat.lt_ge_cases limit (depth l)) as [Y|Y].
    + destruct (IHl limit (Some c1) s1 Y) as (e & Z). congruence.
    + destruct (IHr limit (Some c2) s3) as (e & Z); [lia|]. congruence.
Qed.

Lemma extraction_deep limit G T q t : represents T O t -> (limit < depth t)%nat ->
  exists e, extract_rules_from_tree limit G T q = Err e.
Proof.
  intros R D. unfold extract_rules_from_tree. destruct limit as [|limit]; [eauto|]. rewrite new_set_none_ok. cbn [rbind].
  apply (visitor_deep G T q O t R); auto.
Qed.

(** ** Exactly one leaf rule *)

Lemma Forall2_cons_iff {A B} (P : A -> B -> Prop) a l b m : Forall2 P (a :: l) (b :: m) <-> P a b /\ Forall2 P l m.
Proof. split; [intros F; inversion F; auto|intros (H1 & H2); constructor; auto]. Qed.

Lemma forall2_split {A B} (P : A -> B -> Prop) l1 a l2 m : Forall2 P (l1 ++ a :: l2) m ->
  exists m1 b m2, m = m1 ++ b :: m2 /\ Forall2 P l1 m1 /\ P a b /\ Forall2 P l2 m2.
Proof.
  intros F. apply Forall2_app_inv_l in F. destruct F as (m1 & m' & F1 & F2 & ->). inversion F2 as [|? b ? m2 Pb F3]. subst.
  exists m1, b, m2. auto.
Qed.

Lemma forall2_right {A B} (P : A -> B -> Prop) (Q : B -> Prop) l m :
  (forall a b, In a l -> P a b -> Q b) -> Forall2 P l m -> forall b, In b m -> Q b.
Proof.
  intros H F. induction F as [|x y l m Pxy F IH]; intros b []; [subst; apply (H x); auto; left; auto|].
  apply IH; auto. intros a c I. apply H. right. auto.
Qed.

Lemma node_on_branch u t : within_tree u t -> forall f th v l r, u = Node f th v l r ->
  exists b d, In b (branches t) /\ In d (fst b) /\ on d = f /\ bound d = th.
Proof.
  intros Wu. induction Wu as [t|u f' th' v' l' r' Wu IH|u f' th' v' l' r' Wu IH]; intros f th v l r E.
      - subst t. assert (N : exists b, In b (branches l)).
        { clear. induction l as [v|f th v l [b IH] r _]; [exists ([], v); left; auto|]. eexists. cbn. apply in_app_iff. left.
          apply in_map_iff. exists b. split; [reflexivity|auto]. }
        destruct N as (b & Ib). exists (mkStep f th Below :: fst b, snd b), (mkStep f th Below).
        split; [|split; [left; auto|auto]]. cbn. apply in_app_iff. left. apply in_map_iff. exists b. auto.
      - destruct (IH f th v l r E) as (b & d & Ib & Id & O & B). exists (mkStep f' th' Below :: fst b, snd b), d.
        split; [|split; [right; auto|auto]]. cbn. apply in_app_iff. left. apply in_map_iff. exists b. auto.
      - destruct (IH f th v l r E) as (b & d & Ib & Id & O & B). exists (mkStep f' th' Above :: fst b, snd b), d.
        split; [|split; [right; auto|auto]]. cbn. apply in_app_iff. right. apply in_map_iff. exists b. auto.
Qed.

Lemma partition limit G T q t s xs i x : known (e_sort (g_env G)) -> represents T O t ->
  extract_rules_from_tree limit G T q = Ok s -> q_leaf q = true -> well_shaped xs ->
  (forall b, In b (branches t) -> reachable q (fst b) /\ never_back (fst b) /\ row_is q xs i x (fst b) /\
     in_box q x (fst b) /\ off_thresholds x (fst b)) ->
  exists b before r after, sends_to x t b /\ s_rules s = before ++ r :: after /\ holds r xs i /\ carries q (snd b) r /\
    forall r', In r' (before ++ after) -> fails r' xs i.
Proof.
  intros K R X Q W H.
  assert (One : exists b, sends_to x t b).
  { pose proof node_on_branch as Br.
    apply one_leaf. intros f th v l r Wn. destruct (Br _ _ Wn f th v l r eq_refl) as (b & d & Ib & Id & <- & <-).
    destruct (H b Ib) as ((y & _ & Fy) & _ & _ & Bx & _). split; [apply (takes_nan y); auto|].
    destruct (Bx d Id) as (lo & hi & _ & _ & Fx & _). auto. }
  destruct One as (b & One). pose proof One as (bf & af & E & Fb & No).
  assert (F : Forall2 (fun b r => carries q (snd b) r /\ (holds r xs i \/ fails r xs i) /\ (holds r xs i <-> follows x (fst b)))
                (branches t) (s_rules s)).
  { pose proof (extracted_only _ _ _ _ _ _ K R X) as F1. pose proof (extracted_exact _ _ _ _ _ _ K R X) as F2.
    pose proof (extracted_values _ _ _ _ _ _ K R X) as F3. unfold asked in F1, F2, F3. rewrite Q in F1, F2, F3.
    revert F1 F2 F3. generalize (s_rules s). intros rs. revert rs H. clear - W. induction (branches t) as [|b bs IH]; intros rs H F1 F2 F3.
    - inversion F1. constructor.
    - destruct rs as [|r rs]; [inversion F1|]. apply Forall2_cons_iff in F1. apply Forall2_cons_iff in F2. apply Forall2_cons_iff in F3.
      destruct F1 as (P1 & F1), F2 as (P2 & F2), F3 as (P3 & F3).
      constructor; [|apply IH; auto; intros; apply H; right; auto].
      destruct (H b (or_introl eq_refl)) as (H1 & H2 & H3 & H4 & H5). split; auto. destruct (P2 H1 xs i x W H3 H4); auto. }
  rewrite E in F. destruct (forall2_split _ _ _ _ _ F) as (m1 & r & m2 & Er & F1 & (Ca & _ & Ho) & F2).
  exists b, m1, r, m2. split; auto. split; auto. split; [apply Ho; auto|]. split; auto.
  intros r' I. apply in_app_iff in I. destruct I as [I|I].
  - apply (forall2_right _ (fun r => fails r xs i) _ _) with (2 := F1); auto. intros b' r0 Ib (_ & [Y|Y] & Z); auto.
    exfalso. apply (No b'); [apply in_app_iff; auto|apply Z; auto].
  - apply (forall2_right _ (fun r => fails r xs i) _ _) with (2 := F2); auto. intros b' r0 Ib (_ & [Y|Y] & Z); auto.
    exfalso. apply (No b'); [apply in_app_iff; auto|apply Z; auto].
Qed.

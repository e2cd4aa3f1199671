(** The rules that visitor records. *)
From Coq Require Import List ZArith QArith Bool String Lia.
From Coq Require Import List.
From Verif Require Import Base Num CondModel CondSpec CondBase CondProofs CondAnd CondEval CondMore.
From Verif Require Import MetModel RuleModel RuleProofs PredModel SetModel SetSpec SetBase TreeModel TreeSpec TreeProofs.
Import ListNotations.
Open Scope string_scope.
Open Scope list_scope.
Open Scope Z_scope.

(** ** Values *)

Lemma enumerate_nth {A} (l : list A) i x : nth_error l i = Some x -> nth_error (enumerate l) i = Some (i, x).
Proof.
  intros H. unfold enumerate. assert (L : (i < List.length l)%nat) by (apply nth_error_Some; congruence).
  assert (E : nth_error (seq 0 (List.length l)) i = Some i).
  { rewrite (nth_error_nth' _ O) by (rewrite seq_length; auto). rewrite seq_nth by auto. auto. }
  revert H E. generalize (seq 0 (List.length l)). intros m. clear L. generalize i at 3 5. revert l m.
  induction i as [|i IH]; intros [|a l] [|b m] k; cbn; try discriminate.
  - intros H E. injection H as ->. injection E as ->. auto.
  - apply IH.
Qed.

Lemma enumerate_length {A} (l : list A) : List.length (enumerate l) = List.length l.
Proof. unfold enumerate. rewrite combine_length, seq_length. lia. Qed.

Lemma forall2_nth {A B} (P : A -> B -> Prop) l m i a : Forall2 P l m -> nth_error l i = Some a ->
  exists b, nth_error m i = Some b /\ P a b.
Proof.
  intros F. revert i. induction F as [|x y l m H F IH]; intros [|i] E; cbn in E; try discriminate.
  - injection E as <-. exists y. auto.
  - apply IH; auto.
Qed.

Lemma forall2_len {A B} (P : A -> B -> Prop) l m : Forall2 P l m -> List.length l = List.length m.
Proof. induction 1; cbn; auto. Qed.

Lemma class_pairs_ok q values rows : class_pairs (q_classes q) values = Ok rows ->
  List.length rows = List.length values /\
  forall i v, nth_error values i = Some v -> exists c, class_name q i c /\ nth_error rows i = Some (c, v).
Proof.
  intros H. unfold class_pairs in H. apply rseq_map_ok in H. split.
  - rewrite <- (forall2_len _ _ _ H). apply enumerate_length.
  - intros i v E. apply enumerate_nth in E. destruct (forall2_nth _ _ _ _ _ H E) as (b & Hb & P). cbn [fst snd] in P.
    unfold class_name. destruct (q_classes q) as [names|].
    + destruct (at_pos names i) as [c|] eqn:A; [|discriminate]. injection P as <-. exists c. split; auto. apply at_nth. auto.
    + injection P as <-. eauto.
Qed.

Lemma find_first {A} m (rows : list (A * num)) i c p :
  nth_error rows i = Some (c, p) -> neqb p m = true ->
  (forall j r, (j < i)%nat -> nth_error rows j = Some r -> neqb (snd r) m = false) ->
  find_row neqb m rows = Ok c.
Proof.
  revert i. induction rows as [|(k, v) t IH]; intros i H E B; [destruct i; discriminate|]. cbn [find_row].
  destruct i as [|i].
  - injection H as -> ->. rewrite E. auto.
  - pose proof (B O (k, v) ltac:(lia) eq_refl) as B0. cbn [snd] in B0. rewrite B0. apply (IH i); auto.
    intros j r L N. apply (B (S j) r); [lia|auto].
Qed.

Lemma first_max_ge l : forall x, Forall (fun v => exists a, v = Fin a) (x :: l) ->
  In (first_max nltb x l) (x :: l) /\ forall v, In v (x :: l) -> nle v (first_max nltb x l).
Proof.
  induction l as [|y t IH]; intros x F.
  - cbn. split; auto. intros v [ <- |[]]. inversion F as [|? ? (a & ->) _]. cbn. apply Qle_refl.
  - cbn [first_max]. inversion F as [|? ? (a & ->) F1]. subst. inversion F1 as [|? ? (b & ->) F2]. subst.
    destruct (nltb (Fin a) (Fin b)) eqn:L.
    + destruct (IH (Fin b)) as (I & M); [constructor; eauto|]. split; [right; auto|].
      intros v [ <- |Iv]; auto. apply nle_trans with (Fin b); [|apply M; left; auto].
      apply nlt_nle. apply nltb_spec. auto.
    + destruct (IH (Fin a)) as (I & M); [constructor; eauto|]. split.
      { destruct I as [I|I]; [left|right; right]; auto. }
      intros v [ <- |[ <- |Iv]]; [apply M; left; auto| |apply M; right; auto].
      apply nle_trans with (Fin a); [|apply M; left; auto]. cbn in L |- *. unfold qltb in L.
      apply negb_false_iff in L. apply Qle_bool_iff. auto.
Qed.

Lemma most_probable_winner q values rows i c :
  List.length rows = List.length values ->
  (forall i v, nth_error values i = Some v -> exists c, class_name q i c /\ nth_error rows i = Some (c, v)) ->
  Forall (fun v => exists a, v = Fin a) values -> winner values i -> class_name q i c ->
  most_probable (PPairs rows) = Ok c.
Proof.
  intros Len Rows Fi (m & Hm & W) Hc.
  assert (ES : map snd rows = values).
  { apply nth_ext with (d := NaN) (d' := NaN); [rewrite map_length; auto|]. intros j L.
    rewrite map_length, Len in L. destruct (nth_error values j) as [v|] eqn:E; [|apply nth_error_None in E; lia].
    destruct (Rows j v E) as (k & _ & R). rewrite (nth_error_nth _ _ _ E).
    apply nth_error_nth. apply (map_nth_error snd) in R. auto. }
  assert (Uq : forall k, class_name q i k -> k = c).
  { intros k Hk. unfold class_name in *. destruct (q_classes q); congruence. }
  destruct (Rows i m Hm) as (k & Hk & Ri). apply Uq in Hk. subst k.
  destruct rows as [|(c0, p0) t]; [destruct i; discriminate|]. cbn [most_probable]. cbn [map snd] in ES.
  rewrite <- ES in Fi, W, Hm. destruct (first_max_ge _ _ Fi) as (I & M).
  set (mx := first_max nltb p0 (map snd t)) in *. clearbody mx.
  apply In_nth_error in I as (j & Hj). destruct (W j mx Hj) as (Wj & _).
  assert (Mm : nle m mx) by (apply M; eapply nth_error_In; eauto).
  rewrite Forall_forall in Fi. destruct (Fi m) as (a & ->); [eapply nth_error_In; eauto|].
  destruct (Fi mx) as (b & ->); [eapply nth_error_In; eauto|]. cbn in Wj, Mm.
  apply (find_first _ _ i c (Fin a)); auto.
  - cbn. apply Qeq_bool_iff. apply Qle_antisym; auto.
  - intros k r L Hr. assert (Hs : nth_error (p0 :: map snd t) k = Some (snd r)).
    { change (p0 :: map snd t) with (map snd ((c0, p0) :: t)). apply map_nth_error. auto. }
    destruct (W k _ Hs) as (_ & Wk). specialize (Wk L). destruct (snd r) as [| |z|]; cbn in *; auto; try contradiction.
    destruct (Qeq_bool z b) eqn:E; auto. apply Qeq_bool_iff in E. exfalso. rewrite E in Wk.
    apply (Qlt_irrefl b). apply Qlt_le_trans with a; auto.
Qed.

(** ** One rule *)

Definition made (E : env) (q : request) (p : list step) (values : list num) (r : rule) : Prop :=
  p <> [] /\ exists c, r_cond r = Some c /\ describes (e_sort E) q p c /\ carries q values r /\
  r_act r = None /\ r_good r = true /\ r_fitted r = false /\ r_evaluated r = false.

Definition tree_kind (q : request) : kind := if q_classifier q then KClassification else KRegression.

Lemma node_rule_ok E q o values r : node_rule E q o values = Ok r ->
  r_cond r = o /\ carries q values r /\ r_kind r = tree_kind q /\
  r_act r = None /\ r_good r = true /\ r_fitted r = false /\ r_evaluated r = false.
Proof.
  unfold node_rule, carries, tree_kind. intros H. destruct (q_classifier q).
  - pull H r0 N. assert (X : r0 = mkRule KClassification o None (class_thresholds (e_classes E) KClassification) true None false false
      (initial_dict KClassification)) by (destruct o; injection N as <-; auto). clear N.
    destruct (class_pairs (q_classes q) values) as [rows|] eqn:C; [|discriminate]. cbn [rmap] in H. injection H as <-.
    destruct (class_pairs_ok _ _ _ C) as (L & R). rewrite X. split; [auto|]. split; [|repeat (split; auto)].
    split; auto. split; [exists rows; split; [apply slot_put|auto]|].
    intros i c F W Hc. unfold prediction. rewrite slot_put. cbn [r_kind put].
    rewrite (most_probable_winner q values rows i c); auto.
  - pull H r0 N. assert (X : r_kind r0 = KRegression /\ r_cond r0 = o /\ r_act r0 = None /\ r_good r0 = true /\
      r_fitted r0 = false /\ r_evaluated r0 = false) by (destruct o; injection N as <-; repeat split).
    destruct X as (X1 & X2 & X3 & X4 & X5 & X6). clear N.
    destruct (at_pos values O) as [v|] eqn:V; [|discriminate]. cbn [rmap] in H. injection H as <-.
    apply at_nth in V. cbn [put r_cond r_kind r_act r_good r_fitted r_evaluated]. split; [auto|]. split; [|repeat (split; auto)].
    split; auto. exists v. split; auto. unfold prediction. rewrite slot_put. cbn [r_kind put]. rewrite X1. auto.
Qed.

Lemma append_to_ok G r s s' : append_to G r s = Ok s' ->
  s_rules s' = s_rules s ++ [r] /\ r_cond r <> None.
Proof.
  unfold append_to. destruct (append G (ERule r) true s) as [[[]|e] s1] eqn:A; [|discriminate]. cbn. intros H. injection H as <-.
  apply append_true in A as (s2 & A & ->). apply add_rule_ok in A. cbn. split; [apply (ad_rules _ _ _ _ A)|].
  destruct (ad_feat _ _ _ _ A) as (c & i & n & Rc & _). congruence.
Qed.

Definition typed (q : request) (s : ruleset) : Prop := s_type s = None \/ s_type s = Some (tree_kind q).

Lemma append_to_succeeds G q r s c i n : r_cond r = Some c -> c_idx c = Some i -> c_names c = Some n ->
  r_act r = None -> r_kind r = tree_kind q -> typed q s ->
  exists s', append_to G r s = Ok s' /\ typed q s'.
Proof.
  intros Rc Ci Cn A K T. unfold append_to, append, add_rule.
  assert (X : (match s_type s with
         | None => done (with_type (Some (r_kind r)) s)
         | Some t => if isinstance (r_kind r) t then done s else (Err EType, s)
         end) = (Ok tt, with_type (Some (tree_kind q)) s)).
  { rewrite K. destruct T as [T|T]; rewrite T; [auto|].
    replace (isinstance (tree_kind q) (tree_kind q)) with true by (destruct (tree_kind q); auto).
    rewrite <- T. destruct s; auto. }
  rewrite X. cbn [chain]. unfold add_features, rule_indexes, rule_names. rewrite Rc, Ci, Cn. cbn [rbind union use chain done].
  unfold update_activation, update_stacked_rule, activation_available. rewrite A.
  destruct s as [s0 s1 s2 s3 s4 s5 s6 s7 s8 s9 s10 s11]. destruct s9, s11; cbn; eexists; (split; [reflexivity|]); right; reflexivity.
Qed.

(** ** visitor *)

Lemma asked_node leaf f th v l r : asked leaf (Node f th v l r) =
  (if leaf then [] else [([mkStep f th Below], v)]) ++
  map (fun b => (mkStep f th Below :: fst b, snd b)) (asked leaf l) ++
  (if leaf then [] else [([mkStep f th Above], v)]) ++
  map (fun b => (mkStep f th Above :: fst b, snd b)) (asked leaf r).
Proof.
  destruct leaf; cbn [asked branches edges app map fst snd]; auto.
  rewrite map_app. cbn [map fst snd app]. rewrite !map_map. auto.
Qed.

Lemma forall2_mapl {A B C} (f : A -> B) (P : B -> C -> Prop) l m :
  Forall2 P (map f l) m <-> Forall2 (fun a c => P (f a) c) l m.
Proof.
  split.
  - revert m. induction l; intros m H; inversion H; subst; constructor; auto.
  - induction 1; constructor; auto.
Qed.

Lemma forall2_same {A B} (P Q : A -> B -> Prop) l m : (forall a b, P a b -> Q a b) -> Forall2 P l m -> Forall2 Q l m.
Proof. intros H. induction 1; constructor; auto. Qed.

Definition recorded (E : env) (q : request) (p : list step) (t : tree) (rs : list rule) : Prop :=
  Forall2 (fun b r => made E q (p ++ fst b) (snd b) r) (asked (q_leaf q) t) rs.

Lemma record_ok G q (leaf : bool) p c values s s' :
  p <> [] -> describes (e_sort (g_env G)) q p c ->
  (if negb leaf then rbind values (fun values => record_rule G q c values s) else Ok s) = Ok s' ->
  forall v, values = Ok v ->
  exists rs, s_rules s' = s_rules s ++ rs /\ Forall2 (fun b r => made (g_env G) q (fst b) (snd b) r) (if leaf then [] else [(p, v)]) rs.
Proof.
  intros Ne D H v ->. destruct leaf; cbn [negb] in H.
  - injection H as <-. exists []. rewrite app_nil_r. split; auto.
  - cbn [rbind] in H. unfold record_rule in H. pull H r N. apply append_to_ok in H as (R & _).
    apply node_rule_ok in N as (C & Ca & _ & X). exists [r]. split; auto. constructor; auto. split; auto. exists c. cbn [fst snd]. auto.
Qed.

Lemma snoc_nonempty {A} (l : list A) x : l ++ [x] <> [].
Proof. destruct l; discriminate. Qed.

Lemma so_far_describes sett q p d c : describes sett q (p ++ [d]) c -> so_far sett q (p ++ [d]) (Some c).
Proof. split; auto. destruct p; discriminate. Qed.

Lemma visitor_rules G T q : known (e_sort (g_env G)) -> forall n t, represents T n t ->
  forall limit p o s s', so_far (e_sort (g_env G)) q p o -> visitor limit G T q (Z.of_nat n) o s = Ok s' ->
  exists rs, s_rules s' = s_rules s ++ rs /\ recorded (g_env G) q p t rs.
Proof.
  intros K. induction 1 as [n v Hf Hv|n f th v a b l r Hf Pf Ht Hv Hl Rl IHl Hr Rr IHr]; intros limit p o s s' S H;
    (destruct limit as [|limit]; cbn [visitor] in H; [discriminate|]);
    pull H f0 F0; apply py_index_nth in F0; [|lia| |lia]; rewrite Nat2Z.id in F0.
  - assert (f0 = -2) as -> by congruence. cbn [TREE_UNDEFINED Z.eqb negb Pos.eqb] in H. unfold recorded, asked.
    destruct (q_leaf q).
    + pull H values V. apply py_index_nth in V; [|lia]. rewrite Nat2Z.id in V. assert (values = v) as -> by congruence.
      pull H r0 N. apply append_to_ok in H as (R & C). apply node_rule_ok in N as (C' & Ca & _ & X).
      exists [r0]. split; auto. constructor; auto. cbn [fst snd]. rewrite app_nil_r.
      rewrite C' in C. destruct o as [c|]; [|congruence]. destruct S as (Ne & S). split; auto. exists c. auto.
    + injection H as <-. exists []. rewrite app_nil_r. split; auto. constructor.
  - assert (f0 = f) as -> by congruence. assert (E : negb (f =? TREE_UNDEFINED) = true).
    { unfold TREE_UNDEFINED. destruct (Z.eqb_spec f (-2)); [lia|auto]. }
    rewrite E in H. clear E.
    assert (PV : py_index (t_value T) (Z.of_nat n) = Ok v) by (apply py_index_nth; [lia|]; rewrite Nat2Z.id; auto).
    pull H th0 E. apply py_index_nth in E; [|lia]. rewrite Nat2Z.id in E. assert (th0 = th) as -> by congruence. clear E.
    pull H c1 C1. apply (left_step _ _ p) in C1; auto.
    pull H s1 S1. apply (record_ok _ _ _ _ _ _ _ _ (snoc_nonempty _ _) C1) with (v := v) in S1 as (rs1 & R1 & F1); auto.
    pull H ch E. apply py_index_nth in E; [|lia]. rewrite Nat2Z.id in E. assert (ch = Z.of_nat a) as -> by congruence. clear E.
    pull H s2 S2. apply (IHl _ (p ++ [mkStep f th Below])) in S2 as (rs2 & R2 & F2); [|apply so_far_describes; auto].
    pull H c2 C2. apply (right_step _ _ p) in C2; auto.
    pull H s3 S3. apply (record_ok _ _ _ _ _ _ _ _ (snoc_nonempty _ _) C2) with (v := v) in S3 as (rs3 & R3 & F3); auto.
    pull H ch E. apply py_index_nth in E; [|lia]. rewrite Nat2Z.id in E. assert (ch = Z.of_nat b) as -> by congruence. clear E.
    apply (IHr _ (p ++ [mkStep f th Above])) in H as (rs4 & R4 & F4); [|apply so_far_describes; auto].
    exists (rs1 ++ rs2 ++ rs3 ++ rs4). split; [rewrite R4, R3, R2, R1, <- !app_assoc; auto|].
    unfold recorded. rewrite asked_node. repeat apply Forall2_app.
    + destruct (q_leaf q); [inversion F1; subst; constructor|]. inversion F1 as [|? ? ? ? M F1']; subst. inversion F1'; subst. constructor; auto.
    + apply forall2_mapl. cbn [fst snd]. revert F2. apply forall2_same. intros x y. rewrite <- app_assoc. auto.
    + destruct (q_leaf q); [inversion F3; subst; constructor|]. inversion F3 as [|? ? ? ? M F1']; subst. inversion F1'; subst. constructor; auto.
    + apply forall2_mapl. cbn [fst snd]. revert F4. apply forall2_same. intros x y. rewrite <- app_assoc. auto.
Qed.

Lemma new_set_none G compute stack s : new_set G None compute stack = Ok s -> s = empty_set stack.
Proof.
  unfold new_set. cbn [done rbind]. destruct (g_check G); [|congruence].
  destruct (check_duplicated_rules G (s_rules (empty_set stack)) (uses_names (empty_set stack))); cbn; congruence.
Qed.

Lemma new_set_none_ok G compute stack : new_set G None compute stack = Ok (empty_set stack).
Proof. unfold new_set. cbn [done rbind]. destruct (g_check G); auto. Qed.

(** One rule for each path *)
Lemma extracted limit G T q t s : known (e_sort (g_env G)) -> represents T O t ->
  extract_rules_from_tree limit G T q = Ok s ->
  Forall2 (fun b r => made (g_env G) q (fst b) (snd b) r) (asked (q_leaf q) t) (s_rules s).
Proof.
  intros K R H. unfold extract_rules_from_tree in H. destruct limit as [|limit]; [discriminate|].
  rewrite new_set_none_ok in H. cbn [rbind] in H.
  destruct (visitor_rules G T q K O t R _ [] None _ _ eq_refl H) as (rs & E & F). rewrite E. exact F.
Qed.

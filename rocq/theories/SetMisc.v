(** Counts of features, slices and evaluations of rulesets. *)
From Coq Require Import List ZArith QArith Bool String Ascii Permutation Sorted Lia.
From Coq Require Import List.
From Verif Require Import Base Num CondModel CondSpec CondBase CondMore CondSet ThrModel ThrProofs MetModel MetSpec MetClass RuleModel RuleSpec RuleProofs RuleValues RuleFit RuleMisc.
From Verif Require Import PredModel PredSpec PredReg PredStack PredMisc SetModel SetSpec SetBase SetText SortBase SetSort SetAct SetAdd SetEq.
Import ListNotations.
Open Scope string_scope.
Open Scope list_scope.
Open Scope Z_scope.

(** ** Counter *)

(** [f] comes before [g] in [l]. *)
Definition earlier (l : list string) (f g : string) : Prop := exists a b, l = a ++ f :: b /\ ~ In g a.

Fixpoint occurrences (f : string) (l : list string) : nat :=
  match l with [] => O | x :: t => if str_eqb f x then S (occurrences f t) else occurrences f t end.

Lemma occurrences_app f l m : occurrences f (l ++ m) = (occurrences f l + occurrences f m)%nat.
Proof. induction l as [|x l IH]; cbn; auto. destruct (str_eqb f x); rewrite IH; auto. Qed.

Lemma str_eqb_false x y : str_eqb x y = false <-> x <> y.
Proof. split; intros H; [intros E; apply str_eqb_iff in E; congruence|]. destruct (str_eqb x y) eqn:E; auto. apply str_eqb_iff in E. congruence. Qed.

Lemma count_one_keys x d : (In x (map fst d) /\ map fst (count_one str_eqb x d) = map fst d) \/
  (~ In x (map fst d) /\ map fst (count_one str_eqb x d) = map fst d ++ [x]).
Proof.
  induction d as [|(k, n) d IH]; cbn [count_one map fst]; [right; split; auto|]. destruct (str_eqb x k) eqn:E.
  - apply str_eqb_iff in E. subst. left. cbn. auto.
  - apply str_eqb_false in E. cbn [map fst]. destruct IH as [(I & IH)|(I & IH)]; rewrite IH; [left|right]; cbn; (split; [|auto]); intuition.
Qed.

Lemma count_one_get x d f n : NoDup (map fst d) -> In (f, n) (count_one str_eqb x d) ->
  (f <> x /\ In (f, n) d) \/ (f = x /\ (exists m, n = S m /\ In (f, m) d)) \/ (f = x /\ n = 1%nat /\ ~ In x (map fst d)).
Proof.
  induction d as [|(k, m) d IH]; cbn [count_one map fst].
  - intros _ [E|[]]. injection E as <- <-. right. right. auto.
  - intros N. inv N. destruct (str_eqb x k) eqn:E.
    + apply str_eqb_iff in E. subst k. intros [E|I].
      * injection E as <- <-. right. left. split; auto. exists m. split; [auto|left; auto].
      * left. split; [|right; auto]. intros ->. apply H1. apply (in_map fst) in I. auto.
    + apply str_eqb_false in E. intros [X|I].
      * injection X as <- <-. left. split; [auto|left; auto].
      * destruct (IH H2 I) as [(A & B)|[(A & p & B & C)|(A & B & C)]].
        -- left. split; [auto|right; auto].
        -- right. left. split; auto. exists p. split; [auto|right; auto].
        -- right. right. split; auto. split; auto. intros [X|X]; auto.
Qed.

Lemma counter_snoc l x : counter str_eqb (l ++ [x]) = count_one str_eqb x (counter str_eqb l).
Proof. unfold counter. rewrite fold_left_app. reflexivity. Qed.

Lemma counter_spec l : let d := counter str_eqb l in
  NoDup (map fst d) /\ (forall f, In f (map fst d) <-> In f l) /\ (forall f n, In (f, n) d -> n = occurrences f l) /\
  ForallOrdPairs (earlier l) (map fst d).
Proof.
  cbn zeta. induction l as [|x l IH] using rev_ind.
  - split; [constructor|]. split; [reflexivity|]. split; [intros f n []|constructor].
  - destruct IH as (N & K & C & OO). rewrite counter_snoc.
    assert (OC : forall f n, In (f, n) (count_one str_eqb x (counter str_eqb l)) -> n = occurrences f (l ++ [x])).
    { intros f n I. rewrite occurrences_app. cbn [occurrences]. apply count_one_get in I as [(A & B)|[(A & m & B & D)|(A & B & D)]]; auto.
      - apply C in B. apply str_eqb_false in A. rewrite A. lia.
      - subst. apply C in D. replace (str_eqb x x) with true by (symmetry; apply str_eqb_iff; auto). lia.
      - subst. replace (str_eqb x x) with true by (symmetry; apply str_eqb_iff; auto). rewrite K in D.
        assert (Z : occurrences x l = 0%nat). { clear - D. induction l as [|y l IH]; cbn; auto. replace (str_eqb x y) with false.
          - apply IH. intros I. apply D. right; auto.
          - symmetry. apply str_eqb_false. intros ->. apply D. left; auto. }
        lia. }
    assert (EA : forall f g, earlier l f g -> earlier (l ++ [x]) f g).
    { intros f g (a & b & -> & NI). exists a, (b ++ [x]). rewrite <- app_assoc. auto. }
    assert (OE : ForallOrdPairs (earlier (l ++ [x])) (map fst (counter str_eqb l))).
    { clear - OO EA. induction OO as [|a t A OO IH]; constructor; auto. eapply Forall_impl; [|exact A]. auto. }
    destruct (count_one_keys x (counter str_eqb l)) as [(I & E)|(I & E)]; rewrite E.
    + split; auto. split; [|split; auto]. intros f. rewrite K, in_app_iff. split; auto. intros [X|[<-|[]]]; auto. apply K. auto.
    + split; [apply (Permutation_NoDup (Permutation_cons_append _ x)); constructor; auto|]. split; [|split; auto].
      * intros f. rewrite !in_app_iff, K. tauto.
      * apply fop_snoc; auto. intros y Y. apply K in Y. apply in_split in Y as (a & b & ->). exists a, (b ++ [x]). rewrite <- app_assoc. split; auto.
        intros X. apply I. apply K. apply in_or_app. auto.
Qed.

(** ** Order of the counts *)

Definition more (p q : string * nat) : bool := (snd q <? snd p)%nat.

Lemma more_weak l : weak more l.
Proof.
  constructor; unfold more.
  - intros x y _ _ H. apply Nat.ltb_lt in H. apply Nat.ltb_ge. lia.
  - intros x y z _ _ _ H. apply Nat.ltb_lt in H. destruct (Nat.lt_ge_cases (snd y) (snd x)); [left|right]; apply Nat.ltb_lt; lia.
Qed.

(** Elements of the same count keep their order. *)
Lemma filter_order {A} (R : A -> A -> Prop) (p : A -> bool) l l' : ForallOrdPairs R l -> filter p l' = filter p l -> ForallOrdPairs R (filter p l').
Proof.
  intros H ->. induction H as [|x l F H IH]; cbn; [constructor|]. destruct (p x); auto. constructor; auto.
  rewrite Forall_forall in F |- *. intros y Y. apply filter_In in Y. apply F. tauto.
Qed.

Lemma counts_ordered (R : string * nat -> string * nat -> Prop) d : ForallOrdPairs R d ->
  ForallOrdPairs (fun p q => (snd q < snd p)%nat \/ (snd q = snd p /\ R p q)) (sorted more d).
Proof.
  intros H.
  assert (ST : forall x, In x d -> filter (tied more x) (sorted more d) = filter (tied more x) d).
  { intros x I. apply sorted_stable; auto. apply more_weak. }
  assert (OR : StronglySorted (fun x y => more y x = false) (sorted more d)) by (apply sorted_ordered; apply more_weak).
  assert (IN : forall x, In x (sorted more d) -> In x d) by (intros x; apply sorted_In).
  assert (FO : forall x, In x d -> ForallOrdPairs R (filter (tied more x) (sorted more d))).
  { intros x I. eapply filter_order; eauto. }
  clear H ST. induction OR as [|x l OR IH F]; constructor.
  - rewrite Forall_forall in F |- *. intros y Y. specialize (F y Y). unfold more in F. apply Nat.ltb_ge in F.
    destruct (Nat.eq_dec (snd y) (snd x)) as [E|E]; [right|left; lia]. split; auto.
    pose proof (FO x (IN x (or_introl eq_refl))) as G. cbn [filter] in G.
    assert (T : forall z, snd z = snd x -> tied more x z = true).
    { intros z Z. unfold tied, more. rewrite Z, Nat.ltb_irrefl. auto. }
    rewrite (T x eq_refl) in G. inversion G as [|? ? G1 G2]. subst. rewrite Forall_forall in G1. apply G1. apply filter_In. split; auto.
  - apply IH.
    + intros z Z. apply IN. right; auto.
    + intros z Z. specialize (FO z Z). cbn [filter] in FO. destruct (tied more z x); [inversion FO; auto|auto].
Qed.

(** ** C53 *)

Lemma names_of_rules rules names : rseq (map (fun r => rbind (rule_names r) need) rules) = Ok names ->
  Forall2 (fun r l => exists c, r_cond r = Some c /\ c_names c = Some l) rules names.
Proof.
  intros H. apply rseq_map_ok in H. induction H as [|r l rules names E F IH]; constructor; auto.
  unfold rule_names in E. destruct (r_cond r) as [c|]; [|discriminate]. cbn in E. destruct (c_names c) eqn:N; [|discriminate].
  injection E as <-. eauto.
Qed.

Lemma occurrences_nodup f l : NoDup l -> (In f l /\ occurrences f l = 1%nat) \/ (~ In f l /\ occurrences f l = O).
Proof.
  assert (Z : forall l, ~ In f l -> occurrences f l = O).
  { clear. induction l as [|x l IH]; cbn; auto. intros H. replace (str_eqb f x) with false; [apply IH; auto|]. symmetry. apply str_eqb_false. auto. }
  induction 1 as [|x l NI N IH]; [right; auto|]. cbn [occurrences]. destruct (str_eqb f x) eqn:E.
  - apply str_eqb_iff in E. subst. left. split; [left; auto|]. rewrite Z; auto.
  - apply str_eqb_false in E. destruct IH as [(A & B)|(A & B)]; [left|right]; (split; [|auto]).
    + right; auto.
    + intros [X|X]; auto.
Qed.

Lemma occurrences_tally f rules names : Forall2 (fun r l => exists c, r_cond r = Some c /\ c_names c = Some l) rules names ->
  (forall r, In r rules -> distinct_names r) -> tally (uses f) rules (occurrences f (concat names)).
Proof.
  induction 1 as [|r l rules names (c & C & N) F IH]; intros D; [constructor|]. cbn [concat]. rewrite occurrences_app.
  assert (DN : NoDup l) by (apply (D r (or_introl eq_refl) c); auto).
  destruct (occurrences_nodup f l DN) as [(A & B)|(A & B)]; rewrite B.
  - constructor; [|apply IH; intros; apply D; right; auto]. exists c, l. auto.
  - constructor; [|apply IH; intros; apply D; right; auto]. intros (c' & l' & C' & N' & I). congruence.
Qed.

Lemma earlier_appears f g rules names : Forall2 (fun r l => exists c, r_cond r = Some c /\ c_names c = Some l) rules names ->
  earlier (concat names) f g -> appears_before rules f g.
Proof.
  intros F (a & b & E & NI). revert a E NI. induction F as [|r l rules names (c & C & N) F IH]; intros a E NI.
  - destruct a; discriminate.
  - cbn [concat] in E.
    assert (X : (exists b', l = a ++ f :: b') \/ exists a', a = l ++ a' /\ concat names = a' ++ f :: b).
    { clear - E. revert a E. induction l as [|x l IH]; intros a E; cbn in E.
      - right. exists a. auto.
      - destruct a as [|y a]; cbn in E; injection E as -> E.
        + left. exists l. auto.
        + destruct (IH a E) as [(b' & ->)|(a' & -> & K)]; [left; exists b'; auto|right; exists a'; auto]. }
    destruct X as [(b' & ->)|(a' & -> & K)].
    + exists [], r, rules, c, a, b'. do 4 (split; auto).
    + destruct (IH a' K) as (l1 & q & m & d & a1 & b1 & -> & D & M & NA & Q). { intros I. apply NI. apply in_or_app. auto. }
      exists (r :: l1), q, m, d, a1, b1. do 4 (split; auto). intros z [<-|Z]; auto. intros (c' & l' & C' & N' & I).
      apply NI. apply in_or_app. left. congruence.
Qed.

Lemma fop_impl {A} (R Q : A -> A -> Prop) l : (forall x y, R x y -> Q x y) -> ForallOrdPairs R l -> ForallOrdPairs Q l.
Proof. intros I. induction 1 as [|x l F H IH]; constructor; auto. eapply Forall_impl; [|exact F]. auto. Qed.

Lemma fop_map {A B} (f : A -> B) (R : B -> B -> Prop) l : ForallOrdPairs R (map f l) -> ForallOrdPairs (fun x y => R (f x) (f y)) l.
Proof.
  induction l as [|x l IH]; cbn; intros H; [constructor|]. inversion H as [|? ? F H']. subst. constructor; auto.
  rewrite Forall_forall in *. intros y Y. apply F. apply in_map. auto.
Qed.

Lemma made_usable G mixed s : made G mixed s -> forall r, In r (s_rules s) -> usable r.
Proof.
  assert (NS : forall l compute stack s, new_set G l compute stack = Ok s -> forall r, In r (s_rules s) -> usable r).
  { intros l compute stk s0 H r R. destruct l as [l|].
    - apply new_set_ok in H as (B & _). destruct (forall2_in _ _ _ (bu_rules _ _ _ _ _ B)) as (_ & F). destruct (F r R) as (q & Q & X).
      assert (C : exists c i n, r_cond q = Some c /\ c_idx c = Some i /\ c_names c = Some n) by (apply (bu_cond _ _ _ _ _ B); auto).
      destruct C as (c & i & n & C1 & C2 & C3). destruct (re_cond _ _ X) as (d & d' & k & D1 & D2 & _ & _ & D3 & _ & D4).
      exists d', k, n. assert (d = c) as -> by congruence. repeat split; congruence.
    - unfold new_set in H. cbn in H. destruct (g_check G); cbn in H; injection H as <-; destruct R. }
  induction 1 as [l stack s H|s r s' M IH H|s r s' M IH H|s t s' M IH M' IH' X H|s r s' M IH H|s t s' M IH M' IH' H|s a b c s' M IH H
                 |s l s' M IH H|s xs s' M IH H|s c b s' M IH H]; intros q Q.
  - eapply NS; eauto.
  - apply append_true in H as (s1 & H & ->). apply add_rule_ok in H. cbn in Q. rewrite (ad_rules _ _ _ _ H) in Q.
    apply in_app_or in Q as [Q|[<-|[]]]; auto. destruct (ad_feat _ _ _ _ H) as (c & i & n & C & Ci & Cn & _). exists c, i, n. auto.
  - apply add_rule_ok in H. rewrite (ad_rules _ _ _ _ H) in Q.
    apply in_app_or in Q as [Q|[<-|[]]]; auto. destruct (ad_feat _ _ _ _ H) as (c & i & n & C & Ci & Cn & _). exists c, i, n. auto.
  - apply add_set_ok in H. rewrite (jo_rules _ _ _ H) in Q. apply in_app_or in Q as [Q|Q]; auto.
  - unfold plus_rule in H. eapply NS; eauto.
  - unfold plus_set in H. destruct (rule_set _ _) as [l|]; [|discriminate]. cbn [rbind] in H. eapply NS; eauto.
  - unfold getitem_slice in H. destruct (slice_range _ _ _ _); [|discriminate]. cbn [rbind] in H. destruct (rseq _) in H; [|discriminate].
    cbn [rbind] in H. eapply NS; eauto.
  - apply use_ok in H as (t & H & E). injection E as <-. cbn in Q. eapply NS; eauto.
  - pose proof (set_calc_any G xs s) as (F & _). rewrite H in F. cbn in F. destruct (forall2_in _ _ _ F) as (_ & F2).
    destruct (F2 q Q) as (r & R & _ & E). destruct (IH r R) as (c & i & n & C & K). exists c, i, n. rewrite E. auto.
  - pose proof (set_sort_any G c b s) as (l & f & P & E & _). rewrite H in E. cbn in E. subst s'. cbn in Q. apply IH.
    apply (Permutation_in q (Permutation_sym P) Q).
Qed.

Lemma counts_ok G mixed s : made G mixed s -> (forall r, In r (s_rules s) -> distinct_names r) ->
  (s_rules s = [] \/ exists f, feature_name (s_rules s) f) ->
  exists d, get_features_count s = Ok d /\ feature_counts (s_rules s) d.
Proof.
  intros M D NE. pose proof (made_features _ _ _ M) as (FN & _). pose proof (made_usable _ _ _ M) as U.
  unfold get_features_count. destruct (s_rules s) as [|r0 t0] eqn:R.
  - exists []. split; auto. split; [constructor|]. split; [|split; [intros f n []|constructor]].
    intros f. split; [intros []|intros (r & _ & _ & [] & _)].
  - rewrite <- R in *. assert (UN : uses_names s = true).
    { unfold uses_names. destruct NE as [NE|(f & NE)]; [congruence|]. apply FN in NE. destruct (s_names s); [destruct NE|auto]. }
    rewrite UN. clear UN NE r0 t0 R.
    assert (X : exists names, rseq (map (fun r => rbind (rule_names r) need) (s_rules s)) = Ok names).
    { clear - U. induction (s_rules s) as [|r l IH]; [exists []; auto|]. destruct (U r (or_introl eq_refl)) as (c & i & n & A & B & D).
      destruct IH as (names & E). { intros q Q. apply U. right; auto. }
      exists (n :: names). cbn [map rseq]. unfold rule_names at 1. rewrite A. cbn [rbind]. rewrite D. cbn [need rbind]. rewrite E. auto. }
    destruct X as (names & E). rewrite E. cbn [rbind]. apply names_of_rules in E. eexists. split; [reflexivity|].
    change (fun p q : string * nat => (snd q <? snd p)%nat) with more.
    pose proof (counter_spec (concat names)) as (N & K & C & OO). cbn zeta in *.
    assert (P : Permutation (counter str_eqb (concat names)) (sorted more (counter str_eqb (concat names)))).
    { apply Permutation_sym, sorted_perm. }
    split; [apply (Permutation_NoDup (Permutation_map fst P)); auto|]. split; [|split].
    + intros f. split.
      * intros I. apply (Permutation_in f (Permutation_sym (Permutation_map fst P))) in I. apply K in I. apply in_concat in I as (l & L & I).
        destruct (forall2_in _ _ _ E) as (_ & F2). destruct (F2 l L) as (r & R & c & C1 & C2). exists r, c, l. auto.
      * intros (r & c & l & R & C1 & C2 & I). apply (Permutation_in f (Permutation_map fst P)). apply K. apply in_concat.
        destruct (forall2_in _ _ _ E) as (F1 & _). destruct (F1 r R) as (l' & L & c' & C1' & C2'). exists l'. split; auto. congruence.
    + intros f n I. apply (Permutation_in _ (Permutation_sym P)) in I. rewrite (C f n I). apply occurrences_tally; auto.
    + apply counts_ordered with (R := fun p q => appears_before (s_rules s) (fst p) (fst q)).
      apply fop_map in OO. eapply fop_impl; [|exact OO]. cbn. intros p q. apply earlier_appears. auto.
Qed.

(** Without any feature the exception of a misspelt attribute is raised. *)
Lemma counts_nothing G mixed s : made G mixed s -> s_rules s <> [] -> (forall f, ~ feature_name (s_rules s) f) ->
  get_features_count s = Err EAttr.
Proof.
  intros M N F. pose proof (made_features _ _ _ M) as (FN & _). unfold get_features_count. destruct (s_rules s) as [|r t]; [congruence|].
  unfold uses_names. destruct (s_names s) as [|f l]; auto. exfalso. apply (F f). apply FN. left; auto.
Qed.

(** ** Slices *)

Lemma slice_step start stop step n : slice_range start stop step n =
  slice_range start stop (Some (match step with Some k => k | None => 1 end)) n.
Proof. destruct step; auto. Qed.

Lemma nth_map_seq_z (f : nat -> Z) m j : nth_error (map f (seq 0 m)) j = if (j <? m)%nat then Some (f j) else None.
Proof.
  destruct (j <? m)%nat eqn:L.
  - apply Nat.ltb_lt in L. apply map_nth_error. rewrite (nth_error_nth' _ O) by (rewrite seq_length; auto). rewrite seq_nth; auto.
  - apply Nat.ltb_ge in L. apply nth_error_None. rewrite map_length, seq_length. auto.
Qed.

Lemma index_all {A} (l : list A) is : (forall i, In i is -> 0 <= i < Z.of_nat (List.length l)) ->
  exists m, rseq (map (py_index l) is) = Ok m /\ forall j, nth_error m j = match nth_error is j with Some i => nth_error l (Z.to_nat i) | None => None end.
Proof.
  induction is as [|i is IH]; intros H.
  - exists []. split; auto. intros j. destruct j; auto.
  - destruct IH as (m & E & M). { intros k K. apply H. right; auto. }
    destruct (H i (or_introl eq_refl)) as (L1 & L2). cbn [map rseq]. unfold py_index at 1.
    replace ((0 <=? i) && (i <? Z.of_nat (List.length l))) with true.
    2: { symmetry. apply andb_true_iff. split; [apply Z.leb_le|apply Z.ltb_lt]; auto. }
    unfold at_pos. destruct (nth_error l (Z.to_nat i)) as [x|] eqn:X.
    + rewrite E. exists (x :: m). split; auto. intros [|j]; cbn [nth_error]; [rewrite X; auto|apply M].
    + apply nth_error_None in X. lia.
Qed.

Lemma slice_up G a b k s : let n := Z.of_nat (List.length (s_rules s)) in 0 <= a <= n -> 0 <= b <= n -> 0 < k ->
  exists l, getitem_slice G (Some a) (Some b) (Some k) s = new_set G (Some (map ERule l)) true false /\
    forall j, nth_error l j = if a + Z.of_nat j * k <? b then nth_error (s_rules s) (Z.to_nat (a + Z.of_nat j * k)) else None.
Proof.
  cbn zeta. intros A B K. unfold getitem_slice, slice_range.
  replace (k =? 0) with false by (symmetry; apply Z.eqb_neq; lia). replace (k <? 0) with false by (symmetry; apply Z.ltb_ge; lia).
  cbn [rbind]. unfold clamp. replace (a <? 0) with false by (symmetry; apply Z.ltb_ge; lia). replace (b <? 0) with false by (symmetry; apply Z.ltb_ge; lia).
  rewrite !Z.min_l by lia. set (count := Z.to_nat ((b - a + k - 1) / k)).
  assert (C : forall j, (j < count)%nat <-> a + Z.of_nat j * k < b).
  { intros j. unfold count. split.
    - intros H. assert (H1 : Z.of_nat j + 1 <= (b - a + k - 1) / k) by lia. apply (Z.mul_le_mono_nonneg_r _ _ k) in H1; [|lia].
      pose proof (Z.mul_div_le (b - a + k - 1) k K). nia.
    - intros H. assert (H1 : Z.of_nat j + 1 <= (b - a + k - 1) / k) by (apply Z.div_le_lower_bound; nia). lia. }
  destruct (index_all (s_rules s) (map (fun i => a + Z.of_nat i * k) (seq 0 count))) as (l & E & L).
  { intros i I. apply in_map_iff in I as (j & <- & J). apply in_seq in J. destruct (C j) as (C1 & _). assert (a + Z.of_nat j * k < b) by (apply C1; lia). nia. }
  rewrite E. cbn [rbind]. exists l. split; auto. intros j. rewrite L, nth_map_seq_z. destruct (j <? count)%nat eqn:X.
  - apply Nat.ltb_lt, C in X. apply Z.ltb_lt in X. rewrite X. auto.
  - replace (a + Z.of_nat j * k <? b) with false; auto. symmetry. apply Z.ltb_ge. apply Nat.ltb_ge in X. destruct (C j) as (_ & C2). lia.
Qed.

Lemma slice_down G a b k s : let n := Z.of_nat (List.length (s_rules s)) in 0 <= a < n -> 0 <= b < n -> k < 0 ->
  exists l, getitem_slice G (Some a) (Some b) (Some k) s = new_set G (Some (map ERule l)) true false /\
    forall j, nth_error l j = if b <? a + Z.of_nat j * k then nth_error (s_rules s) (Z.to_nat (a + Z.of_nat j * k)) else None.
Proof.
  cbn zeta. intros A B K. unfold getitem_slice, slice_range.
  replace (k =? 0) with false by (symmetry; apply Z.eqb_neq; lia). replace (k <? 0) with true by (symmetry; apply Z.ltb_lt; lia).
  cbn [rbind]. unfold clamp. replace (a <? 0) with false by (symmetry; apply Z.ltb_ge; lia). replace (b <? 0) with false by (symmetry; apply Z.ltb_ge; lia).
  rewrite !Z.min_l by lia. set (count := Z.to_nat ((a - b - k - 1) / - k)).
  assert (C : forall j, (j < count)%nat <-> b < a + Z.of_nat j * k).
  { intros j. unfold count. split.
    - intros H. assert (H1 : Z.of_nat j + 1 <= (a - b - k - 1) / - k) by lia. apply (Z.mul_le_mono_nonneg_r _ _ (- k)) in H1; [|lia].
      pose proof (Z.mul_div_le (a - b - k - 1) (- k) ltac:(lia)). nia.
    - intros H. assert (H1 : Z.of_nat j + 1 <= (a - b - k - 1) / - k) by (apply Z.div_le_lower_bound; nia). lia. }
  destruct (index_all (s_rules s) (map (fun i => a + Z.of_nat i * k) (seq 0 count))) as (l & E & L).
  { intros i I. apply in_map_iff in I as (j & <- & J). apply in_seq in J. destruct (C j) as (C1 & _). assert (b < a + Z.of_nat j * k) by (apply C1; lia). nia. }
  rewrite E. cbn [rbind]. exists l. split; auto. intros j. rewrite L, nth_map_seq_z. destruct (j <? count)%nat eqn:X.
  - apply Nat.ltb_lt, C in X. apply Z.ltb_lt in X. rewrite X. auto.
  - replace (b <? a + Z.of_nat j * k) with false; auto. symmetry. apply Z.ltb_ge. apply Nat.ltb_ge in X. destruct (C j) as (_ & C2). lia.
Qed.

(** Other ways to write the same slices *)
Lemma slice_forms G a b k s : let n := Z.of_nat (List.length (s_rules s)) in
  getitem_slice G a b None s = getitem_slice G a b (Some 1) s /\
  getitem_slice G a b (Some 0) s = Err EValue /\
  (0 < k -> getitem_slice G None b (Some k) s = getitem_slice G (Some 0) b (Some k) s /\
            getitem_slice G a None (Some k) s = getitem_slice G a (Some n) (Some k) s) /\
  (k < 0 -> getitem_slice G None b (Some k) s = getitem_slice G (Some (n - 1)) b (Some k) s).
Proof.
  cbn zeta. split; [reflexivity|]. split; [reflexivity|]. unfold getitem_slice, slice_range. split.
  - intros K. replace (k =? 0) with false by (symmetry; apply Z.eqb_neq; lia). replace (k <? 0) with false by (symmetry; apply Z.ltb_ge; lia).
    unfold clamp. cbn [Z.ltb Z.compare]. rewrite Z.min_l by lia. split; auto.
    replace (Z.of_nat (List.length (s_rules s)) <? 0) with false by (symmetry; apply Z.ltb_ge; lia). rewrite Z.min_id. auto.
  - intros K. replace (k =? 0) with false by (symmetry; apply Z.eqb_neq; lia). replace (k <? 0) with true by (symmetry; apply Z.ltb_lt; lia).
    unfold clamp. destruct (Z.of_nat (List.length (s_rules s)) - 1 <? 0) eqn:Z1; [|rewrite Z.min_id; auto].
    apply Z.ltb_lt in Z1. assert (E : Z.of_nat (List.length (s_rules s)) = 0) by lia. rewrite E. auto.
Qed.

Lemma slice_negative G a b k s : let n := Z.of_nat (List.length (s_rules s)) in 0 < k ->
  (- n <= a < 0 -> getitem_slice G (Some a) b (Some k) s = getitem_slice G (Some (n + a)) b (Some k) s) /\
  (a < - n -> getitem_slice G (Some a) b (Some k) s = getitem_slice G (Some 0) b (Some k) s) /\
  (n < a -> getitem_slice G (Some a) b (Some k) s = getitem_slice G (Some n) b (Some k) s) /\
  (- n <= a < 0 -> getitem_slice G b (Some a) (Some k) s = getitem_slice G b (Some (n + a)) (Some k) s) /\
  (a < - n -> getitem_slice G b (Some a) (Some k) s = getitem_slice G b (Some 0) (Some k) s) /\
  (n < a -> getitem_slice G b (Some a) (Some k) s = getitem_slice G b (Some n) (Some k) s).
Proof.
  cbn zeta. intros K. unfold getitem_slice, slice_range.
  replace (k =? 0) with false by (symmetry; apply Z.eqb_neq; lia). replace (k <? 0) with false by (symmetry; apply Z.ltb_ge; lia).
  set (n := Z.of_nat (List.length (s_rules s))). assert (N : 0 <= n) by (unfold n; lia). clearbody n.
  assert (C1 : - n <= a < 0 -> clamp 0 n n a = clamp 0 n n (n + a)).
  { intros H. unfold clamp. replace (a <? 0) with true by (symmetry; apply Z.ltb_lt; lia).
    replace (n + a <? 0) with false by (symmetry; apply Z.ltb_ge; lia). rewrite Z.max_l, Z.min_l; lia. }
  assert (C2 : a < - n -> clamp 0 n n a = clamp 0 n n 0).
  { intros H. unfold clamp. replace (a <? 0) with true by (symmetry; apply Z.ltb_lt; lia). cbn [Z.ltb Z.compare].
    rewrite Z.max_r, Z.min_l; lia. }
  assert (C3 : n < a -> clamp 0 n n a = clamp 0 n n n).
  { intros H. unfold clamp. replace (a <? 0) with false by (symmetry; apply Z.ltb_ge; lia).
    replace (n <? 0) with false by (symmetry; apply Z.ltb_ge; lia). rewrite Z.min_r, Z.min_id; lia. }
  repeat split; intros H; try rewrite (C1 H); try rewrite (C2 H); try rewrite (C3 H); auto.
Qed.

Lemma item_ok i s : let n := Z.of_nat (List.length (s_rules s)) in
  (0 <= i < n -> exists r, getitem_int i s = Ok r /\ nth_error (s_rules s) (Z.to_nat i) = Some r) /\
  (- n <= i < 0 -> getitem_int i s = getitem_int (n + i) s) /\
  (i < - n \/ n <= i -> getitem_int i s = Err EIndex).
Proof.
  cbn zeta. unfold getitem_int, py_index. set (n := Z.of_nat (List.length (s_rules s))). split; [|split].
  - intros H. replace ((0 <=? i) && (i <? n)) with true by (symmetry; apply andb_true_iff; split; [apply Z.leb_le|apply Z.ltb_lt]; lia).
    unfold at_pos. destruct (nth_error (s_rules s) (Z.to_nat i)) as [r|] eqn:E; [eauto|]. apply nth_error_None in E. lia.
  - intros H. replace (0 <=? i) with false by (symmetry; apply Z.leb_gt; lia).
    replace ((- n <=? i) && (i <? 0)) with true by (symmetry; apply andb_true_iff; split; [apply Z.leb_le|apply Z.ltb_lt]; lia).
    replace ((0 <=? n + i) && (n + i <? n)) with true by (symmetry; apply andb_true_iff; split; [apply Z.leb_le|apply Z.ltb_lt]; lia). auto.
  - intros H. replace ((0 <=? i) && (i <? n)) with false.
    2: { symmetry. apply andb_false_iff. destruct H; [left; apply Z.leb_gt|right; apply Z.ltb_ge]; lia. }
    replace ((- n <=? i) && (i <? 0)) with false; auto. symmetry. apply andb_false_iff. destruct H; [left; apply Z.leb_gt|right; apply Z.ltb_ge]; lia.
Qed.

Lemma slice_down_all G a k s : let n := Z.of_nat (List.length (s_rules s)) in 0 <= a < n -> k < 0 ->
  exists l, getitem_slice G (Some a) None (Some k) s = new_set G (Some (map ERule l)) true false /\
    forall j, nth_error l j = if 0 <=? a + Z.of_nat j * k then nth_error (s_rules s) (Z.to_nat (a + Z.of_nat j * k)) else None.
Proof.
  cbn zeta. intros A K. unfold getitem_slice, slice_range.
  replace (k =? 0) with false by (symmetry; apply Z.eqb_neq; lia). replace (k <? 0) with true by (symmetry; apply Z.ltb_lt; lia).
  cbn [rbind]. unfold clamp. replace (a <? 0) with false by (symmetry; apply Z.ltb_ge; lia).
  rewrite !Z.min_l by lia. set (count := Z.to_nat ((a - -1 - k - 1) / - k)).
  assert (C : forall j, (j < count)%nat <-> 0 <= a + Z.of_nat j * k).
  { intros j. unfold count. split.
    - intros H. assert (H1 : Z.of_nat j + 1 <= (a - -1 - k - 1) / - k) by lia. apply (Z.mul_le_mono_nonneg_r _ _ (- k)) in H1; [|lia].
      pose proof (Z.mul_div_le (a - -1 - k - 1) (- k) ltac:(lia)). nia.
    - intros H. assert (H1 : Z.of_nat j + 1 <= (a - -1 - k - 1) / - k) by (apply Z.div_le_lower_bound; nia). lia. }
  destruct (index_all (s_rules s) (map (fun i => a + Z.of_nat i * k) (seq 0 count))) as (l & E & L).
  { intros i I. apply in_map_iff in I as (j & <- & J). apply in_seq in J. destruct (C j) as (C1 & _). assert (0 <= a + Z.of_nat j * k) by (apply C1; lia). nia. }
  rewrite E. cbn [rbind]. exists l. split; auto. intros j. rewrite L, nth_map_seq_z. destruct (j <? count)%nat eqn:X.
  - apply Nat.ltb_lt, C in X. apply Z.leb_le in X. rewrite X. auto.
  - replace (0 <=? a + Z.of_nat j * k) with false; auto. symmetry. apply Z.leb_gt. apply Nat.ltb_ge in X. destruct (C j) as (_ & C2). lia.
Qed.

Lemma slice_negative_down G a b k s : let n := Z.of_nat (List.length (s_rules s)) in k < 0 ->
  (- n <= a < 0 -> getitem_slice G (Some a) b (Some k) s = getitem_slice G (Some (n + a)) b (Some k) s) /\
  (n <= a -> getitem_slice G (Some a) b (Some k) s = getitem_slice G None b (Some k) s) /\
  (- n <= a < 0 -> getitem_slice G b (Some a) (Some k) s = getitem_slice G b (Some (n + a)) (Some k) s) /\
  (a < - n -> getitem_slice G b (Some a) (Some k) s = getitem_slice G b None (Some k) s).
Proof.
  cbn zeta. intros K. unfold getitem_slice, slice_range.
  replace (k =? 0) with false by (symmetry; apply Z.eqb_neq; lia). replace (k <? 0) with true by (symmetry; apply Z.ltb_lt; lia).
  set (n := Z.of_nat (List.length (s_rules s))). assert (N : 0 <= n) by (unfold n; lia). clearbody n.
  assert (C1 : - n <= a < 0 -> clamp (-1) (n - 1) n a = clamp (-1) (n - 1) n (n + a)).
  { intros H. unfold clamp. replace (a <? 0) with true by (symmetry; apply Z.ltb_lt; lia).
    replace (n + a <? 0) with false by (symmetry; apply Z.ltb_ge; lia). rewrite Z.max_l, Z.min_l; lia. }
  assert (C2 : a < - n -> clamp (-1) (n - 1) n a = -1).
  { intros H. unfold clamp. replace (a <? 0) with true by (symmetry; apply Z.ltb_lt; lia). rewrite Z.max_r; lia. }
  assert (C3 : n <= a -> clamp (-1) (n - 1) n a = n - 1).
  { intros H. unfold clamp. replace (a <? 0) with false by (symmetry; apply Z.ltb_ge; lia). rewrite Z.min_r; lia. }
  repeat split; intros H; try rewrite (C1 H); try rewrite (C2 H); try rewrite (C3 H); auto.
Qed.

(** ** append accepts *)

Lemma append_total G mixed s r : made G mixed s -> s_stack s = false -> usable r -> present r ->
  (s_type s = None \/ exists t, s_type s = Some t /\ instance r t) ->
  (forall q, In q (s_rules s) -> present q) ->
  (forall q v w, In q (s_rules s) -> working q None v -> working r None w -> List.length v = List.length w) ->
  exists s', append G (ERule r) true s = (Ok tt, s') /\ s_rules s' = s_rules s ++ [r].
Proof.
  intros M K (c & i & n & Rc & Ci & Cn) P T Q L. destruct (made_united _ _ _ M) as (U & C).
  assert (X : exists s', append G (ERule r) true s = (Ok tt, s')).
  { unfold append, add_rule.
    assert (X : exists s1, (match s_type s with
         | None => done (with_type (Some (r_kind r)) s)
         | Some t => if isinstance (r_kind r) t then done s else (Err EType, s)
         end) = (Ok tt, s1) /\ s_compute s1 = true /\ s_stack s1 = false /\ s_act s1 = s_act s).
    { destruct T as [T|(t & T & I)]; rewrite T; [eexists; split; [reflexivity|]; auto|]. apply isinstance_spec in I. rewrite I. exists s. auto. }
    destruct X as (s1 & X & C1 & K1 & A1). rewrite X. cbn [chain]. unfold add_features, rule_indexes, rule_names. rewrite Rc, Ci, Cn.
    cbn [rbind union use chain done s_compute with_idx with_names with_rules s_stack]. rewrite C1.
    destruct (present_act _ P) as (b & Rb & Hb & Nb & Bb). destruct (available_vector r b Rb Hb Nb) as (V1 & V2).
    unfold update_activation. rewrite V1, V2, Rb. cbn [rbind use s_act with_idx with_names with_rules]. rewrite A1.
    assert (Y : exists a, (match s_act s with
         | None => Ok (new_activation (v_bits b))
         | Some a => if alen a =? 0 then Ok (new_activation (v_bits b)) else act_or a b
         end) = Ok a).
    { destruct (s_act s) as [a|] eqn:A; [|eauto]. destruct (alen a =? 0) eqn:Z; [eauto|].
      destruct (s_rules s) as [|q0 t0] eqn:R.
      - destruct (united_empty _ U) as [Y|(a' & Y & Ya)]; [discriminate|]. injection Y as <-. unfold alen in Z. rewrite Ya in Z. discriminate.
      - rewrite <- R in *. assert (Ne0 : s_rules s <> []) by (rewrite R; discriminate).
        destruct (united_nonempty _ _ Ne0 U Q) as (a' & Y & H1 & H2 & H3 & H4 & (H5 & _)).
        injection Y as <-. unfold act_or.
        assert (W : List.length (v_bits a) = List.length (v_bits b)).
        { assert (Pq : In q0 (s_rules s)) by (rewrite R; left; auto). destruct (Q q0 Pq) as (v & Wv & _). rewrite <- (H5 q0 v Pq Wv).
          apply (L q0 v (v_bits b)); auto. apply working_act. eauto. }
        assert (AL : alen a = alen b) by (unfold alen; congruence). rewrite AL, Z.eqb_refl. cbn [negb]. unfold raw. rewrite H1, Hb. cbn [rbind]. eauto. }
    destruct Y as (a & Y). rewrite Y. cbn [use done chain s_stack with_activation with_idx with_names with_rules]. rewrite K1. eexists. reflexivity. }
  destruct X as (s' & X). exists s'. split; auto. destruct (append_success _ _ _ _ _ X) as (r' & E & E' & _). injection E as <-. auto.
Qed.

(** ** CHECK_DUPLICATED *)

Lemma new_set_checks G l compute : compatible l -> g_indexes G = [] ->
  exists s, new_set G (Some (map ERule l)) compute false =
    (if g_check G then rmap (fun _ => s) (check_duplicated_rules G (s_rules s) (uses_names s)) else Ok s) /\ s_rules s = l /\
    forall f, In f (s_names s) <-> feature_name l f.
Proof.
  intros C GI. pose proof C as ((k & K) & U & V). destruct (append_all_plain G k l K U (empty_set false)) as (s1 & H1); auto.
  pose proof (append_all_extends _ _ _ _ H1) as (X & _). rewrite the_rules_map in X. destruct X as [R _ _ _ _ _ _ _]. cbn in R.
  unfold new_set. rewrite H1. cbn [chain].
  destruct (evaluate_self_plain s1) as (o & E). { rewrite R. auto. }
  assert (X : exists s2, (if compute then compute_self_activation None s1 else done s1) = (Ok tt, s2) /\ s_rules s2 = l).
  { destruct compute; [|exists s1; auto]. unfold compute_self_activation. rewrite E. cbn. eexists. split; [reflexivity|auto]. }
  destruct X as (s2 & E2 & R2). rewrite E2. cbn [chain done].
  assert (X : exists names, rseq (map (fun r => rbind (rule_names r) need) (s_rules s2)) = Ok names).
  { rewrite R2. clear - U. induction l as [|r l IH]; [exists []; auto|]. destruct (U r (or_introl eq_refl)) as (c & i & n & A & B & D).
    destruct IH as (names & E). { intros q Q. apply U. right; auto. }
    exists (n :: names). cbn [map rseq]. unfold rule_names at 1. rewrite A. cbn [rbind]. rewrite D. cbn [need rbind]. rewrite E. auto. }
  destruct X as (names & EN). rewrite EN. cbn [use chain done]. unfold init_features_indexes. rewrite GI. cbn [rbind done].
  eexists. split; [reflexivity|]. cbn [s_rules s_names with_names]. split; auto. intros f.
  rewrite R2 in EN. apply names_of_rules in EN. destruct (forall2_in _ _ _ EN) as (F1 & F2). rewrite (set_of_In _ str_eqb_iff), in_concat. split.
  - intros (n & N & I). destruct (F2 n N) as (r & Rr & c & C1 & C2). exists r, c, n. auto.
  - intros (r & c & n & Rr & C1 & C2 & I). destruct (F1 r Rr) as (n' & N' & c' & C1' & C2'). exists n'. split; auto. congruence.
Qed.

Lemma duplicates_ok G l compute by_name : compatible l -> g_indexes G = [] -> g_check G = true ->
  quotes (g_quote G) -> prints (e_repr (g_env G)) -> SetSpec.comparable l ->
  (by_name = true <-> exists f, feature_name l f) ->
  ((exists s, new_set G (Some (map ERule l)) compute false = Ok s /\ s_rules s = l) /\ ~ repeated by_name l) \/
  (new_set G (Some (map ERule l)) compute false = Err EValue /\ repeated by_name l).
Proof.
  intros C GI GC Q P CM BN. destruct (new_set_checks G l compute C GI) as (s & E & R & F). rewrite GC, R in E. rewrite E.
  assert (U : uses_names s = by_name).
  { unfold uses_names. destruct (s_names s) as [|f t] eqn:N.
    - destruct by_name; auto. destruct BN as (BN & _). destruct (BN eq_refl) as (f & Hf). apply F in Hf. destruct Hf.
    - symmetry. apply BN. exists f. apply F. left; auto. }
  rewrite U. destruct (check_ok G l by_name Q P CM) as [(X & Y)|(X & Y)]; rewrite X; cbn; [left|right]; eauto.
Qed.

(** ** Calculations *)

Lemma each_ok f rules rules' : each f rules = (Ok tt, rules') -> Forall2 (fun r r' => f r = (Ok tt, r')) rules rules'.
Proof.
  revert rules'. induction rules as [|r t IH]; cbn [each]; intros rules' H; [injection H as <-; constructor|].
  destruct (f r) as [[[]|] r1] eqn:E; [|discriminate]. destruct (each f t) as (o, t1). injection H as -> <-. constructor; auto.
Qed.

Lemma set_calc_vectors G xs s s' : set_calc_activation G xs s = (Ok tt, s') -> nrows xs <> 0%nat ->
  Forall2 (fun r r' => exists v, working r (Some xs) v /\ working r' None v) (s_rules s) (s_rules s').
Proof.
  unfold set_calc_activation. intros H N. destruct (s_rules s) as [|r t] eqn:R; [discriminate|]. rewrite <- R.
  pose proof N as N0. apply Nat.eqb_neq in N. rewrite N in H. clear R.
  apply chain_ok in H as (s1 & H1 & H). apply chain_ok in H as (s2 & H2 & H3).
  unfold for_each in H1. destruct (each _ _) as ([[]|] & rules) eqn:E; [|discriminate]. injection H1 as <-.
  apply use_ok in H2 as (o & H2 & X). injection X as <-.
  assert (X : s_rules s' = rules).
  { cbn [s_stack with_activation with_rules] in H3. destruct (s_stack s).
    - apply use_ok in H3 as (f & _ & X). injection X as <-. auto.
    - injection H3 as <-. auto. }
  rewrite X. apply each_ok in E. eapply forall2_weaken; [|exact E]. cbn. intros q q' C.
  destruct (calc_given _ _ _ _ C N0) as (c & act & Rc & Ev & D). cbv zeta in D. destruct D as (D & _). exists act. split; [exists c; auto|].
  apply working_act. destruct D as [D1 D2 D3 D4 D5]. exists (new_activation act). split; auto.
Qed.

Lemma set_calc_cases G xs s : (s_rules s = [] -> set_calc_activation G xs s = (Err EValue, s)) /\
  (s_rules s <> [] -> nrows xs = 0%nat -> set_calc_activation G xs s = (Ok tt, s)).
Proof.
  unfold set_calc_activation. split; intros H; [rewrite H; auto|]. intros N. destruct (s_rules s); [congruence|]. rewrite N. auto.
Qed.

Lemma set_evaluate_ok xs s n : s_rules s <> [] ->
  (forall r, In r (s_rules s) -> exists v, working r (Some xs) v /\ bits v /\ List.length v = n) ->
  exists a w, set_evaluate xs s = Ok a /\ raw a = Ok w /\ bits w /\ covers_on xs (s_rules s) w.
Proof.
  intros NE V. unfold set_evaluate. destruct (s_rules s) as [|r0 t0] eqn:R; [congruence|]. rewrite <- R in *. clear R r0 t0.
  assert (X : exists acs vs, rseq (map (fun r => evaluate_activation r xs) (s_rules s)) = Ok acs /\ rseq (map raw acs) = Ok vs /\
    Forall2 (fun r v => working r (Some xs) v /\ bits v /\ List.length v = n) (s_rules s) vs).
  { clear NE. induction (s_rules s) as [|r l IH]; [exists [], []; repeat split; constructor|].
    destruct IH as (acs & vs & E1 & E2 & E3). { intros q Q. apply V. right; auto. }
    destruct (V r (or_introl eq_refl)) as (v & W & B & L). exists (new_activation v :: acs), (v :: vs). cbn [map rseq].
    pose proof W as (c & Rc & Ev). unfold evaluate_activation at 1. rewrite Rc, Ev. cbn [rmap]. rewrite E1, E2. cbn. repeat split; auto. }
  destruct X as (acs & vs & E1 & E2 & F). rewrite E1. cbn [rbind]. unfold multi_or. rewrite E2. cbn [rbind].
  destruct (forall2_in _ _ _ F) as (F1 & F2). destruct vs as [|v t]; [inversion F; congruence|].
  assert (LV : forall u, In u (v :: t) -> List.length u = n). { intros u U. destruct (F2 u U) as (r & _ & _ & _ & L). auto. }
  replace (forallb (fun w => (List.length w =? List.length v)%nat) t) with true.
  2: { symmetry. apply forallb_forall. intros u U. apply Nat.eqb_eq. rewrite !LV; auto; [left|right]; auto. }
  eexists _, _. split; [reflexivity|]. split; [reflexivity|]. cbn [v_bits new_activation]. rewrite (LV v (or_introl eq_refl)). split.
  { apply Forall_forall. intros x X. apply in_map_iff in X as (i & <- & _). unfold or_column. destruct (existsb _ _); auto. }
  split; rewrite map_length, seq_length.
  - intros r u Rr U. destruct (F1 r Rr) as (u' & I & U' & _ & L). assert (u = u') as -> by (eapply working_fun; eauto). auto.
  - intros i I. rewrite nth_map_seq by auto. unfold or_column. destruct (existsb _ _) eqn:X.
    + left. split; auto. apply existsb_exists in X as (u & U & K). destruct (F2 u U) as (r & Rr & Wu & B & _). exists r, u. split; auto. split; auto.
      apply negb_true_iff, Z.eqb_neq in K. destruct (bits_nth u i B); auto. congruence.
    + right. split; auto. intros r u Rr U. rewrite existsb_false in X. destruct (F1 r Rr) as (u' & I' & U' & _).
      assert (u' = u) as -> by (eapply working_fun; eauto). specialize (X u I'). apply negb_false_iff, Z.eqb_eq in X. auto.
Qed.

Lemma set_evaluate_empty xs s : s_rules s = [] -> set_evaluate xs s = Err EValue.
Proof. unfold set_evaluate. intros ->. auto. Qed.

(** ** Deletions *)

Lemma deletions s :
  (forall r, In r (s_rules (del_activations s)) -> forall v, ~ working r None v) /\
  map r_cond (s_rules (del_activations s)) = map r_cond (s_rules s) /\ same_but_rules s (del_activations s) /\
  set_available (del_set_activation s) = false /\ s_rules (del_set_activation s) = s_rules s /\
  s_stacked (del_set_activation s) = s_stacked s /\
  (forall w, w <> [] -> set_vector (del_set_activation s) <> Ok (Some w)) /\
  s_stacked (del_stacked_activations s) = None /\ s_rules (del_stacked_activations s) = s_rules s /\
  s_act (del_stacked_activations s) = s_act s.
Proof.
  split; [|split; [|split; [|split; [|split; [|split; [|split]]]]]]; auto.
  - intros r R v W. cbn in R. apply in_map_iff in R as (q & <- & _). unfold del_activation in W. destruct (r_act q) eqn:A.
    + apply working_act in W as (a' & A' & H & _). cbn in A'. injection A' as <-. discriminate.
    + apply working_act in W as (a' & A' & H & _). congruence.
  - cbn. rewrite map_map. apply map_ext. intros r. unfold del_activation. destruct (r_act r); auto.
  - repeat split.
  - unfold set_available, del_set_activation. destruct (s_act s) as [a|] eqn:A; [|rewrite A; auto]. cbn. destruct (alen _ =? 0); auto.
  - unfold del_set_activation. destruct (s_act s); auto.
  - unfold del_set_activation. destruct (s_act s); auto.
  - intros w W. unfold set_vector, del_set_activation. destruct (s_act s) as [a|] eqn:A; [|rewrite A; discriminate]. cbn.
    destruct (alen _ =? 0); discriminate.
Qed.

(** ** Predictions *)

Lemma new_set_stacks G l s n columns : g_indexes G = [] -> new_set G (Some (map ERule l)) true true = Ok s -> l <> [] ->
  vectors (g_env G) None l n columns -> s_rules s = l /\ s_stacked s = Some (mkFrame n columns).
Proof.
  intros GI H NE (F & N & P). pose proof (new_set_same _ _ _ _ _ GI H) as R. split; auto.
  apply new_set_ok in H as (B & _). rewrite the_rules_map in B. pose proof (bu_stacked _ _ _ _ _ B) as St. cbn in St.
  unfold evaluate_stacked_activations in St. cbn [s_rules with_rules] in St.
  assert (St2 : stack (g_env G) None l = Ok (s_stacked s)) by (destruct l; [congruence|exact St]). clear St. rename St2 into St.
  unfold stack in St.
  replace (forallb activation_available l) with true in St.
  2: { symmetry. apply forallb_forall. intros r Rr. destruct (forall2_in _ _ _ F) as (F1 & _). destruct (F1 r Rr) as (c & _ & _ & W & _).
       apply available_working. eauto. }
  rewrite (by_name_ok (g_env G) _ l columns) in St; auto.
  2: { eapply forall2_weaken; [|exact F]. cbn. intros r c (C1 & C2 & C3 & C4). split; [apply called_name; auto|].
       apply working_act in C2 as (a & A & Ha & Hb). assert (Ne : v_bits a <> []). { rewrite Hb. destruct (snd c); [cbn in C4; lia|discriminate]. }
       destruct (available_vector r a A Ha Ne) as (_ & V). rewrite V. cbn. congruence. }
  cbn [rbind] in St. assert (LN : forall c, In c columns -> List.length (snd c) = n).
  { intros c C. destruct (forall2_in _ _ _ F) as (_ & F2). destruct (F2 c C) as (r & _ & _ & _ & _ & X). auto. }
  assert (E : match columns with [] => O | (_, v) :: _ => List.length v end = n).
  { destruct columns as [|(m, v) t].
    - inversion F. congruence.
    - apply (LN (m, v)). left; auto. }
  rewrite E in St. replace (forallb _ columns) with true in St; [congruence|]. symmetry. apply forallb_forall. intros c C. apply Nat.eqb_eq. auto.
Qed.

Lemma new_set_kind G l stacking s k : g_indexes G = [] -> new_set G (Some (map ERule l)) true stacking = Ok s -> l <> [] ->
  (forall r, In r l -> r_kind r = k) -> s_rules s = l /\ s_type s = Some k.
Proof.
  intros GI H NE K. pose proof (new_set_same _ _ _ _ _ GI H) as R. split; auto. apply new_set_ok in H as (B & _). rewrite the_rules_map in B.
  pose proof (bu_type _ _ _ _ _ B) as T. destruct l as [|r l]; [congruence|]. destruct T as (T & _). rewrite T. f_equal. apply K. left; auto.
Qed.

Lemma new_set_frame G l stacking s xs n columns : g_indexes G = [] -> new_set G (Some (map ERule l)) true stacking = Ok s -> l <> [] ->
  vectors (g_env G) xs l n columns -> unstacked (g_stacked G) (s_stacked s) \/
  exists st, g_stacked G = true /\ s_stacked s = Some st /\ stacks (g_env G) xs l n st.
Proof.
  intros GI H NE V. destruct (g_stacked G); [|left; left; auto]. destruct (s_stacked s) as [st|] eqn:E; [|left; right; auto].
  right. exists st. do 2 (split; auto). exists columns. split; auto. intros ->. destruct stacking.
  - destruct (new_set_stacks _ _ _ _ _ GI H NE V) as (_ & X). congruence.
  - exfalso. apply new_set_ok in H as (B & _). pose proof (bu_stacked _ _ _ _ _ B) as X. cbn in X. congruence.
Qed.

Lemma set_predict_mean G l stacking s xs bs n columns : g_indexes G = [] -> new_set G (Some (map ERule l)) true stacking = Ok s -> l <> [] ->
  (forall r, In r l -> r_kind r = KRegression) -> vectors (g_env G) xs l n columns -> predicts_numbers l ->
  collected (casts_one regression_number xs) l bs -> rows n bs -> starts_well bs ->
  exists nums, fst (set_predict G xs None s) = Ok (Numbers nums) /\
    each_row n NaN nums (fun i x => (List.length (at_row i bs) < 256)%nat -> sum_counts i bs -> is_mean i bs x).
Proof.
  intros GI H NE K V PN C R W. destruct (new_set_kind _ _ _ _ _ GI H NE K) as (Rs & T).
  assert (X : fst (set_predict G xs None s) = fst (predict_rules (g_env G) (g_stacked G) (g_shared G) (Some KRegression) l (s_stacked s) xs None)).
  { unfold set_predict. rewrite Rs, T. destruct (predict_rules _ _ _ _ _ _ _ _); auto. }
  rewrite X. destruct (new_set_frame _ _ _ _ _ _ _ GI H NE V) as [U|(st & E1 & E2 & S)].
  - apply equal_means; auto.
  - rewrite E1, E2. destruct (equal_stacked (g_env G) (g_shared G) l st xs bs n S NE PN C) as (nums & N1 & N2).
    exists nums. split; auto. destruct N2 as (N2 & N3). split; auto.
Qed.

Lemma set_predict_weighted G l stacking s xs ws bs n columns : g_indexes G = [] -> new_set G (Some (map ERule l)) true stacking = Ok s -> l <> [] ->
  (forall r, In r l -> r_kind r = KRegression) -> vectors (g_env G) xs l n columns -> predicts_numbers l -> NoDup (map fst ws) ->
  collected (casts (g_env G) ws regression_number xs) l bs -> rows n bs -> starts_well bs -> somebody n bs ->
  exists nums, fst (set_predict G xs (Some (WSeries ws)) s) = Ok (Numbers nums) /\
    each_row n NaN nums (fun i x => weighs i bs -> sum_counts i bs -> is_mean i bs x).
Proof.
  intros GI H NE K V PN ND C R W SB. destruct (new_set_kind _ _ _ _ _ GI H NE K) as (Rs & T).
  assert (X : fst (set_predict G xs (Some (WSeries ws)) s) = fst (predict_rules (g_env G) (g_stacked G) (g_shared G) (Some KRegression) l (s_stacked s) xs (Some (WSeries ws)))).
  { unfold set_predict. rewrite Rs, T. destruct (predict_rules _ _ _ _ _ _ _ _); auto. }
  rewrite X. destruct (new_set_frame _ _ _ _ _ _ _ GI H NE V) as [U|(st & E1 & E2 & S)].
  - apply weighted_means; auto.
  - rewrite E1, E2. destruct (weighted_stacked (g_env G) (g_shared G) l st xs ws bs n S PN ND C SB) as (nums & N1 & N2).
    exists nums. split; auto. destruct N2 as (N2 & N3). split; auto.
Qed.

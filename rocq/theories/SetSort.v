(** Sorting rulesets. *)
From Coq Require Import List ZArith QArith Bool String Ascii Permutation Sorted Lia Lqa.
From Coq Require Import List.
From Verif Require Import Base Num CondModel CondSpec CondBase CondProofs ThrModel ThrProofs MetModel MetSpec RuleModel RuleSpec RuleProofs.
From Verif Require Import PredModel PredSpec PredName PredReg SetModel SetSpec SetBase SetText SortBase.
Import ListNotations.
Open Scope string_scope.
Open Scope list_scope.
Open Scope Z_scope.

(** ** Orders *)

Lemma str_ltb_spec a : forall b, str_ltb a b = true <-> text_lt a b.
Proof.
  induction a as [|c a IH]; intros [|d b]; cbn [str_ltb].
  - split; [discriminate|intros H; inv H].
  - split; [constructor|auto].
  - split; [discriminate|intros H; inv H].
  - destruct (Nat.eqb_spec (nat_of_ascii c) (nat_of_ascii d)) as [E|E].
    + apply nat_of_ascii_inj in E. subst d. rewrite IH. split; [apply lt_next|].
      intros H. inv H; auto. lia.
    + rewrite Nat.ltb_lt. split; [apply lt_char|]. intros H. inv H; auto. congruence.
Qed.

Lemma str_ltb_asym a b : str_ltb a b = true -> str_ltb b a = false.
Proof. intros H. destruct (str_ltb b a) eqn:E; auto. rewrite <- (str_ltb_irrefl a). symmetry. eapply str_ltb_trans; eauto. Qed.

Lemma str_ltb_neg a b c : str_ltb a c = true -> str_ltb a b = true \/ str_ltb b c = true.
Proof.
  intros H. destruct (string_dec a b) as [->|N]; auto. destruct (str_ltb_total a b N) as [K|K]; auto.
  right. eapply str_ltb_trans; eauto.
Qed.

Lemma neqb_spec x y : x <> NaN -> (neqb x y = true <-> same_num x y).
Proof. destruct x, y; cbn; intros N; try (split; [discriminate|tauto]); try tauto; try congruence. apply Qeq_bool_iff. Qed.

Lemma nltb_asym x y : nltb x y = true -> nltb y x = false.
Proof.
  intros H. destruct (nltb y x) eqn:E; auto. apply nltb_spec in H. apply nltb_spec in E. exfalso.
  eapply nlt_not_nle; eauto. apply nlt_nle. auto.
Qed.

Lemma nltb_neg x y z : y <> NaN -> nltb x z = true -> nltb x y = true \/ nltb y z = true.
Proof.
  intros N H. rewrite !nltb_spec in *. pose proof (nlt_nan _ _ H) as (X & Z).
  destruct (nle_or y x N X) as [K|K]; auto. right. eapply nle_nlt_trans; eauto.
Qed.

Lemma tri x y : x <> NaN -> y <> NaN -> nlt x y \/ same_num x y \/ nlt y x.
Proof.
  intros X Y. destruct (nle_or x y X Y) as [K|K]; auto. destruct (nle_or y x Y X) as [L|L]; auto.
  right. left. apply same_num_le; auto.
Qed.

Lemma same_num_not_lt x y : same_num x y -> nlt x y -> False.
Proof. destruct x, y; cbn; auto. intros. lra. Qed.

Lemma same_num_nlt x x' y y' : same_num x x' -> same_num y y' -> nlt x y -> nlt x' y'.
Proof. destruct x, x', y, y'; cbn; auto; try tauto. intros. lra. Qed.

Lemma nums_ltb_spec a : forall b, without_nan a -> without_nan b -> (nums_ltb a b = true <-> nums_lt a b).
Proof.
  induction a as [|x a IH]; intros [|y b] A B; cbn.
  - split; [discriminate|intros H; inv H].
  - split; [constructor|auto].
  - split; [discriminate|intros H; inv H].
  - inv A. inv B. destruct (neqb x y) eqn:E.
    + apply neqb_spec in E; auto. rewrite IH by auto. split; [apply nums_next; auto|]. intros H. inv H; auto.
      exfalso. eapply same_num_not_lt; eauto.
    + rewrite nltb_spec. split; [apply nums_first|]. intros H. inv H; auto. apply neqb_spec in H7; auto. congruence.
Qed.

Lemma nums_lt_asym a b : nums_lt a b -> nums_lt b a -> False.
Proof.
  induction 1; intros K; inv K.
  - eapply nlt_not_nle; eauto using nlt_nle.
  - eapply same_num_not_lt; [apply same_num_sym|]; eauto.
  - eapply same_num_not_lt; [apply same_num_sym|]; eauto.
  - auto.
Qed.

Lemma nums_lt_neg a c : nums_lt a c -> forall b, without_nan a -> without_nan b -> without_nan c -> nums_lt a b \/ nums_lt b c.
Proof.
  induction 1 as [y m|x y l m H|x y l m H K IH]; intros [|z b] A B C; inv A || clear A; inv B || clear B; inv C || clear C;
    try (left; constructor; fail); try (right; constructor; auto; fail).
  - destruct (tri x z) as [T|[T|T]]; auto.
    + left. constructor; auto.
    + right. constructor. eapply same_num_nlt; eauto using same_num_refl.
    + right. constructor. apply nltb_spec. destruct (nltb_neg x z y) as [F|F]; auto; [apply nltb_spec; auto|].
      apply nltb_spec in F. exfalso. eapply nlt_not_nle; eauto using nlt_nle.
  - destruct (tri x z) as [T|[T|T]]; auto.
    + left. constructor; auto.
    + destruct (IH b) as [F|F]; auto; [left|right]; apply nums_next; auto. eapply same_num_trans; eauto using same_num_sym.
    + right. constructor. eapply same_num_nlt; eauto using same_num_refl.
Qed.

(** ** Lists of groups *)

Lemma sorted_flat {A B} (f : A -> list B) (Q : A -> A -> Prop) (R : B -> B -> Prop) l :
  StronglySorted Q l -> (forall a, In a l -> StronglySorted R (f a)) ->
  (forall a b x y, In a l -> In b l -> Q a b -> In x (f a) -> In y (f b) -> R x y) -> StronglySorted R (flat_map f l).
Proof.
  induction 1 as [|a l S IH F]; intros G C; cbn; [constructor|].
  assert (T : StronglySorted R (flat_map f l)). { apply IH; intros; [apply G|eapply C with (a := a0) (b := b)]; cbn; auto. }
  rewrite Forall_forall in F.
  assert (H : forall m, StronglySorted R m -> (forall x, In x m -> In x (f a)) -> StronglySorted R (m ++ flat_map f l)).
  { induction 1 as [|x m M IHm K]; intros J; cbn; auto. constructor; [apply IHm; intros; apply J; right; auto|].
    apply Forall_forall. intros y Y. apply in_app_or in Y. destruct Y as [Y|Y].
    - rewrite Forall_forall in K. auto.
    - apply in_flat_map in Y as (b & Ib & Y). apply (C a b); cbn; auto. apply J. left; auto. }
  apply H; auto. apply G. left; auto.
Qed.

Lemma sorted_nodup {A} (R : A -> A -> Prop) l : StronglySorted R l -> (forall x, In x l -> ~ R x x) -> NoDup l.
Proof.
  induction 1 as [|x l S IH F]; intros I; constructor.
  - rewrite Forall_forall in F. intros K. apply (I x); cbn; auto.
  - apply IH. intros. apply I. right; auto.
Qed.

Lemma seq_sorted n : forall k, StronglySorted lt (seq k n).
Proof.
  induction n as [|n IH]; intros k; cbn; constructor; auto. apply Forall_forall. intros x H. apply in_seq in H. lia.
Qed.

Lemma filter_disjoint {A} (p q : A -> bool) l : (forall x, p x = true -> q x = true -> False) ->
  Permutation (filter (fun x => p x || q x) l) (filter p l ++ filter q l).
Proof.
  intros D. induction l as [|x l IH]; cbn; auto. destruct (p x) eqn:P, (q x) eqn:Q; cbn; auto.
  - exfalso. eauto.
  - rewrite IH. apply Permutation_middle.
Qed.

Lemma groups_perm {A} (T : A -> string) order rules : NoDup order ->
  Permutation (filter (fun r => mem str_eqb (T r) order) rules) (flat_map (fun t => filter (fun r => str_eqb t (T r)) rules) order).
Proof.
  induction 1 as [|t order N D IH]; cbn [flat_map].
  - cbn. induction rules; auto.
  - rewrite <- IH. rewrite <- filter_disjoint.
    + apply Permutation_refl'. apply filter_ext. intros r. unfold mem. cbn [existsb]. unfold str_eqb at 1. rewrite String.eqb_sym. auto.
    + intros x P Q. apply str_eqb_iff in P. apply (mem_spec _ str_eqb_iff) in Q. congruence.
Qed.

Lemma flat_map_perm {A B} (f g : A -> list B) l : (forall x, Permutation (f x) (g x)) -> Permutation (flat_map f l) (flat_map g l).
Proof. intros H. induction l; cbn; auto. apply Permutation_app; auto. Qed.

Lemma filter_flat_map {A B} (p : B -> bool) (f : A -> list B) l : filter p (flat_map f l) = flat_map (fun x => filter p (f x)) l.
Proof. induction l; cbn; auto. rewrite filter_app. congruence. Qed.

Lemma flat_map_none {A B} (f : A -> list B) l : (forall b, In b l -> f b = []) -> flat_map f l = [].
Proof. induction l; intros H; cbn; auto. rewrite H by (left; auto). apply IHl. intros; apply H; right; auto. Qed.

Lemma flat_map_one {A B} (f : A -> list B) l a : NoDup l -> In a l -> (forall b, In b l -> b <> a -> f b = []) -> flat_map f l = f a.
Proof.
  induction 1 as [|b l N D IH]; intros I Z; [destruct I|]. cbn. destruct I as [->|I].
  - rewrite flat_map_none; [apply app_nil_r|]. intros b K. apply Z; [right; auto|]. intros ->. auto.
  - rewrite Z; [|left; auto|intros ->; auto]. apply IH; auto. intros; apply Z; auto. right; auto.
Qed.

Lemma filter_none {A} (p : A -> bool) l : (forall x, In x l -> p x = false) -> filter p l = [].
Proof. induction l as [|x l IH]; intros H; cbn; auto. rewrite H by (left; auto). apply IH. intros; apply H; right; auto. Qed.

Lemma filter_all {A} (p : A -> bool) l : (forall x, In x l -> p x = true) -> filter p l = l.
Proof. induction l as [|x l IH]; intros H; cbn; auto. rewrite H by (left; auto). f_equal. apply IH. intros; apply H; right; auto. Qed.

Lemma filter_filter {A} (p q : A -> bool) l : (forall x, In x l -> p x = true -> q x = true) -> filter p (filter q l) = filter p l.
Proof.
  induction l as [|x l IH]; intros H; cbn; auto. assert (I : filter p (filter q l) = filter p l) by (apply IH; intros; apply H; cbn; auto).
  destruct (q x) eqn:Q; cbn; rewrite I; auto. destruct (p x) eqn:P; auto. rewrite (H x) in Q; cbn; auto. discriminate.
Qed.

(** Sorting by a key *)
Lemma insert_key {A K} (lt : K -> K -> bool) (key : A -> K) x l :
  insert (first_lt lt) (key x, x) (map (fun r => (key r, r)) l) = map (fun r => (key r, r)) (insert (fun a b => lt (key a) (key b)) x l).
Proof. induction l as [|y l IH]; cbn; auto. unfold first_lt at 1. cbn [fst]. destruct (lt (key y) (key x)); cbn; auto. f_equal. auto. Qed.

Lemma sorted_key {A K} (lt : K -> K -> bool) (key : A -> K) l :
  map snd (sorted (first_lt lt) (map (fun r => (key r, r)) l)) = sorted (fun a b => lt (key a) (key b)) l.
Proof.
  assert (E : sorted (first_lt lt) (map (fun r => (key r, r)) l) = map (fun r => (key r, r)) (sorted (fun a b => lt (key a) (key b)) l)).
  { induction l as [|x l IH]; cbn; auto. rewrite IH. apply insert_key. }
  rewrite E, map_map. cbn. apply map_id.
Qed.

(** ** By features *)

Definition text_before (reverse : bool) : string -> string -> bool := if reverse then flip str_ltb else str_ltb.

Lemma text_before_asym b x y : text_before b x y = true -> text_before b y x = false.
Proof. destruct b; cbn; unfold flip; apply str_ltb_asym. Qed.

Lemma text_before_neg b x y z : text_before b x z = true -> text_before b x y = true \/ text_before b y z = true.
Proof. destruct b; cbn; unfold flip; intros H; [apply (str_ltb_neg _ y) in H; tauto|apply str_ltb_neg; auto]. Qed.

Lemma text_before_total b x y : x <> y -> text_before b x y = true \/ text_before b y x = true.
Proof. destruct b; cbn; unfold flip; intros H; apply str_ltb_total in H; tauto. Qed.

Section Features.
Context (T : rule -> string) (N : rule -> nat) (B : rule -> list num) (reverse : bool).

Definition before (r r' : rule) : bool :=
  (N r <? N r')%nat ||
  ((N r =? N r')%nat && (text_before reverse (T r) (T r') || (str_eqb (T r) (T r') && nums_ltb (B r) (B r')))).

Lemma before_spec r r' : without_nan (B r) -> without_nan (B r') -> before r r' = true <->
  ((N r < N r')%nat \/ N r = N r' /\ ((if reverse then text_lt (T r') (T r) else text_lt (T r) (T r')) \/ T r = T r' /\ nums_lt (B r) (B r'))).
Proof.
  intros H K. unfold before. rewrite orb_true_iff, andb_true_iff, orb_true_iff, andb_true_iff.
  rewrite Nat.ltb_lt, Nat.eqb_eq, nums_ltb_spec by auto.
  assert (E1 : text_before reverse (T r) (T r') = true <-> (if reverse then text_lt (T r') (T r) else text_lt (T r) (T r'))).
  { unfold text_before, flip. destruct reverse; apply str_ltb_spec. }
  assert (E2 : str_eqb (T r) (T r') = true <-> T r = T r') by apply str_eqb_iff.
  rewrite E1, E2. tauto.
Qed.

Lemma before_weak l : (forall r, In r l -> without_nan (B r)) -> weak before l.
Proof.
  intros H. constructor.
  - intros x y X Y K. apply not_true_iff_false. intros L. rewrite before_spec in K, L by auto.
    destruct K as [K|(E & [K|(E2 & K)])], L as [L|(F & [L|(F2 & L)])]; try lia.
    + destruct reverse; apply str_ltb_spec in K, L; apply str_ltb_asym in K; congruence.
    + rewrite F2 in K. destruct reverse; apply str_ltb_spec in K; rewrite str_ltb_irrefl in K; discriminate.
    + rewrite E2 in L. destruct reverse; apply str_ltb_spec in L; rewrite str_ltb_irrefl in L; discriminate.
    + eapply nums_lt_asym; eauto.
  - intros x y z X Y Z K. unfold before in K |- *.
    destruct (Nat.lt_trichotomy (N x) (N y)) as [C|[C|C]].
    + left. apply Nat.ltb_lt in C. rewrite C. auto.
    + rewrite C in K |- *. destruct (Nat.lt_trichotomy (N y) (N z)) as [D|[D|D]].
      * right. apply Nat.ltb_lt in D. rewrite D. auto.
      * rewrite D in K |- *. rewrite Nat.ltb_irrefl, Nat.eqb_refl in *. cbn [orb andb] in *.
        apply orb_true_iff in K as [K|K].
        { destruct (text_before_neg _ _ (T y) _ K) as [L|L]; rewrite L; auto. }
        apply andb_true_iff in K as (E & K). apply str_eqb_iff in E.
        destruct (string_dec (T x) (T y)) as [F|F].
        { assert (G : T y = T z) by congruence. apply str_eqb_iff in F. apply str_eqb_iff in G. rewrite F, G. cbn [andb].
          apply nums_ltb_spec in K; auto. destruct (nums_lt_neg _ _ K (B y)) as [L|L]; auto;
            apply nums_ltb_spec in L; auto; rewrite L; rewrite orb_true_r; auto. }
        { destruct (text_before_total reverse _ _ F) as [L|L]; [rewrite L; auto|]. rewrite E in L. rewrite L. auto. }
      * exfalso. assert (N y <? N z = false)%nat by (apply Nat.ltb_ge; lia). assert (N y =? N z = false)%nat by (apply Nat.eqb_neq; lia).
        rewrite H0, H1 in K. discriminate.
    + right. apply orb_true_iff in K as [K|K].
      * apply Nat.ltb_lt in K. assert (D : (N y < N z)%nat) by lia. apply Nat.ltb_lt in D. rewrite D. auto.
      * apply andb_true_iff in K as (K & _). apply Nat.eqb_eq in K. assert (D : (N y < N z)%nat) by lia. apply Nat.ltb_lt in D. rewrite D. auto.
Qed.

Definition grouped (order : list string) (rules : list rule) : list rule :=
  flat_map (fun t => sorted (fun a b => nums_ltb (B a) (B b)) (filter (fun r => str_eqb t (T r)) rules)) order.

Definition text_ok (rules : list rule) (t t' : string) : Prop :=
  forall r r', In r rules -> In r' rules -> T r = t -> T r' = t' -> (N r < N r')%nat \/ N r = N r' /\ text_before reverse t t' = true.

Lemma grouped_sort order rules :
  (forall r, In r rules -> without_nan (B r)) -> (forall r r', In r rules -> In r' rules -> T r = T r' -> N r = N r') ->
  StronglySorted (text_ok rules) order -> NoDup order -> (forall r, In r rules -> In (T r) order) ->
  stable_sort (fun r r' => before r r' = true) rules (grouped order rules).
Proof.
  intros HB HN HO HD HC. apply (sorted_by before).
  - tauto.
  - apply before_weak; auto.
  - unfold grouped. transitivity (filter (fun r => mem str_eqb (T r) order) rules).
    + apply Permutation_refl'. symmetry. clear - HC. induction rules as [|r rules IH]; cbn; auto.
      assert (M : mem str_eqb (T r) order = true) by (apply (mem_spec _ str_eqb_iff); apply HC; left; auto). rewrite M. f_equal. apply IH. intros; apply HC; right; auto.
    + rewrite groups_perm by auto. apply flat_map_perm. intros t. symmetry. apply sorted_perm.
  - unfold grouped. apply (sorted_flat _ (text_ok rules)); auto.
    + intros t _. assert (S : StronglySorted (fun x y => nums_ltb (B y) (B x) = false) (sorted (fun a b => nums_ltb (B a) (B b)) (filter (fun r => str_eqb t (T r)) rules))).
      { apply (sorted_ordered (fun a b => nums_ltb (B a) (B b))). constructor.
        - intros x y X Y K. apply filter_In in X, Y. apply not_true_iff_false. intros L. apply nums_ltb_spec in K, L; try (apply HB; tauto).
          eapply nums_lt_asym; eauto.
        - intros x y z X Y Z K. apply filter_In in X, Y, Z. apply nums_ltb_spec in K; try (apply HB; tauto).
          rewrite !nums_ltb_spec by (apply HB; tauto). apply nums_lt_neg; auto; apply HB; tauto. }
      assert (J : forall x, In x (sorted (fun a b => nums_ltb (B a) (B b)) (filter (fun r => str_eqb t (T r)) rules)) -> In x rules /\ T x = t).
      { intros x X. rewrite sorted_In in X. apply filter_In in X as (X & K). apply str_eqb_iff in K. auto. }
      induction S as [|x l S IH F]; constructor; [apply IH; intros; apply J; right; auto|].
      rewrite Forall_forall in *. intros y Y. destruct (J x (or_introl eq_refl)) as (X & Tx), (J y (or_intror Y)) as (Yr & Ty).
      unfold before. rewrite (HN y x) by congruence. rewrite Nat.ltb_irrefl, Nat.eqb_refl, Tx, Ty, (F y Y), andb_false_r.
      assert (E : text_before reverse t t = false) by (unfold text_before, flip; destruct reverse; apply str_ltb_irrefl). rewrite E. auto.
    + intros t t' x y It It' K X Y. rewrite sorted_In in X, Y. apply filter_In in X as (X & Ex), Y as (Y & Ey).
      apply str_eqb_iff in Ex, Ey. subst t t'. unfold before.
      destruct (K x y X Y eq_refl eq_refl) as [L|(L & M)].
      * assert (E1 : (N y <? N x = false)%nat) by (apply Nat.ltb_ge; lia). assert (E2 : (N y =? N x = false)%nat) by (apply Nat.eqb_neq; lia).
        rewrite E1, E2. auto.
      * rewrite L, Nat.ltb_irrefl, Nat.eqb_refl, (text_before_asym _ _ _ M). cbn [orb andb].
        destruct (str_eqb (T y) (T x)) eqn:E; auto. apply str_eqb_iff in E. rewrite E in M.
        exfalso. pose proof (text_before_asym _ _ _ M). congruence.
  - intros x X. unfold grouped. rewrite filter_flat_map.
    assert (TX : forall y, tied before x y = true -> T y = T x).
    { intros y K. unfold tied in K. apply andb_true_iff in K as (K1 & K2). apply negb_true_iff in K1, K2.
      unfold before in K1, K2. apply orb_false_iff in K1 as (K1 & K3), K2 as (K2 & K4). apply Nat.ltb_ge in K1, K2.
      assert (E : N x = N y) by lia. rewrite E, Nat.eqb_refl in K3. rewrite E, Nat.eqb_refl in K4. cbn [andb] in K3, K4.
      apply orb_false_iff in K3 as (K3 & _), K4 as (K4 & _). destruct (string_dec (T y) (T x)) as [|Q]; auto.
      destruct (text_before_total reverse _ _ Q); congruence. }
    rewrite (flat_map_one _ _ (T x)); auto.
    + rewrite sorted_filter.
      * apply filter_filter. intros y _ K. apply str_eqb_iff. symmetry. auto.
      * intros y z Y Z Ky Kz. apply filter_In in Y as (Y & Ey), Z as (Z & Ez). apply str_eqb_iff in Ey, Ez.
        assert (W : weak before rules) by (apply before_weak; auto).
        assert (K : tied before y z = true). { rewrite tied_sym in Ky. apply (weak_tied before rules y x z); auto. }
        unfold tied in K. apply andb_true_iff in K as (_ & K). apply negb_true_iff in K. unfold before in K.
        apply orb_false_iff in K as (_ & K). rewrite (HN z y), Nat.eqb_refl in K by congruence. cbn [andb] in K.
        apply orb_false_iff in K as (_ & K). assert (E : str_eqb (T z) (T y) = true) by (apply str_eqb_iff; congruence).
        rewrite E in K. auto.
    + intros t _ D. apply filter_none. intros y Y. rewrite sorted_In in Y. apply filter_In in Y as (Y & E). apply str_eqb_iff in E.
      apply not_true_iff_false. intros K. apply TX in K. congruence.
Qed.

(** ** The order of the texts *)

Lemma ordered_texts_ok rules sized :
  (forall t n, In (t, n) sized -> exists r, In r rules /\ T r = t /\ N r = n) ->
  (forall r, In r rules -> In (T r, N r) sized) -> NoDup (map fst sized) ->
  (forall r, In r rules -> (1 <= N r)%nat) -> (forall r r', In r rules -> In r' rules -> T r = T r' -> N r = N r') ->
  StronglySorted (text_ok rules) (ordered_texts reverse sized) /\ NoDup (ordered_texts reverse sized) /\
  (forall t, In t (ordered_texts reverse sized) <-> exists r, In r rules /\ T r = t).
Proof.
  intros S1 S2 ND P HN.
  assert (I : forall t, In t (ordered_texts reverse sized) <-> exists r, In r rules /\ T r = t).
  { intros t. unfold ordered_texts. rewrite in_flat_map. split.
    - intros (n & _ & K). rewrite sorted_In in K. apply in_map_iff in K as ((t' & n') & E & K). cbn in E. subst t'.
      apply filter_In in K as (K & _). destruct (S1 _ _ K) as (r & R & Tr & _). eauto.
    - intros (r & R & Tr). exists (N r). split.
      + apply in_seq. split; [apply P; auto|]. assert (L : (N r <= list_max (map snd sized))%nat); [|lia].
        pose proof (proj1 (list_max_le (map snd sized) _) (Nat.le_refl _)) as F. rewrite Forall_forall in F. apply F.
        apply in_map_iff. exists (T r, N r). auto.
      + rewrite sorted_In. apply in_map_iff. exists (T r, N r). split; auto. apply filter_In. split; auto. apply Nat.eqb_refl. }
  assert (S : StronglySorted (text_ok rules) (ordered_texts reverse sized)).
  { unfold ordered_texts. apply (sorted_flat _ lt).
    - apply seq_sorted.
    - intros n _. set (l := map fst (filter (fun t => (snd t =? n)%nat) sized)).
      assert (L : NoDup l). { apply NoDup_map_filter. auto. }
      assert (K : StronglySorted (fun a b => text_before reverse a b = true) (sorted (text_before reverse) l)).
      { apply sorted_sorted; auto.
        - intros x y z X Y. destruct (text_before_neg reverse x z y X) as [|Z]; auto. exfalso. apply text_before_asym in Z. congruence.
        - intros x y _ _ D. apply text_before_total. auto. }
      change (if reverse then flip str_ltb else str_ltb) with (text_before reverse).
      assert (J : forall t, In t (sorted (text_before reverse) l) -> exists r, In r rules /\ T r = t /\ N r = n).
      { intros t H. rewrite sorted_In in H. apply in_map_iff in H as ((t' & n') & E & H). cbn in E. subst t'. apply filter_In in H as (H & E).
        cbn in E. apply Nat.eqb_eq in E. subst n'. apply S1. auto. }
      induction K as [|t m K IH F]; constructor; [apply IH; intros; apply J; right; auto|].
      rewrite Forall_forall in *. intros t' H r r' R R' E E'. right. split; auto.
      destruct (J t (or_introl eq_refl)) as (r1 & R1 & E1 & N1), (J t' (or_intror H)) as (r2 & R2 & E2 & N2).
      rewrite (HN r r1), (HN r' r2) by congruence. congruence.
    - intros n n' t t' _ _ L H H' r r' R R' E E'. left. rewrite sorted_In in H, H'.
      apply in_map_iff in H as ((u & k) & U & H), H' as ((u' & k') & U' & H'). cbn in U, U'. subst u u'.
      apply filter_In in H as (H & K), H' as (H' & K'). cbn in K, K'. apply Nat.eqb_eq in K, K'. subst k k'.
      destruct (S1 _ _ H) as (r1 & R1 & E1 & N1), (S1 _ _ H') as (r2 & R2 & E2 & N2).
      rewrite (HN r r1), (HN r' r2) by congruence. lia. }
  split; auto. split; auto. apply (sorted_nodup _ _ S). intros t H K. apply I in H as (r & R & E).
  destruct (K r r R R E E) as [L|(_ & L)]; [lia|]. pose proof (text_before_asym _ _ _ L). congruence.
Qed.

Lemma sort_by_features_ok G s :
  (forall r, In r (s_rules s) -> feature_text G (uses_names s) r = Ok (T r, Ok (N r)) /\ bounds_of r = Ok (B r) /\ (1 <= N r)%nat /\ without_nan (B r)) ->
  (forall r r', In r (s_rules s) -> In r' (s_rules s) -> T r = T r' -> N r = N r') ->
  exists l, sort_by_features G reverse s = Ok l /\ stable_sort (fun r r' => before r r' = true) (s_rules s) l.
Proof.
  intros H HN. set (rules := s_rules s) in *. unfold sort_by_features. fold rules.
  rewrite (rseq_ok _ (fun r => (T r, Ok (N r)))) by (intros r R; apply H; auto). cbn [rbind].
  set (texts := map (fun r => (T r, Ok (N r))) rules).
  set (distinct := set_of (fun x y : string * res nat => str_eqb (fst x) (fst y)) texts).
  assert (D1 : forall x, In x distinct -> exists r, In r rules /\ x = (T r, Ok (N r))).
  { intros x X. assert (Y : In x texts).
    { revert X. unfold distinct. clear. induction texts as [|y l IH]; cbn; auto. destruct (mem _ y _); cbn; intuition. }
    apply in_map_iff in Y as (r & E & R). eauto. }
  assert (D2 : forall r, In r rules -> In (T r, Ok (N r)) distinct).
  { intros r R. assert (Y : In (T r, Ok (N r)) texts) by (apply in_map_iff; eauto).
    assert (Z : exists y, In y distinct /\ fst y = T r).
    { revert Y. unfold distinct. clear. generalize (T r, Ok (N r)) (eq_refl : fst (T r, Ok (N r)) = T r). intros x Ex.
      induction texts as [|y l IH]; cbn; [tauto|]. destruct (mem _ y _) eqn:M.
      - intros [->|K]; auto. unfold mem in M. apply existsb_exists in M as (z & Z & E). apply str_eqb_iff in E. exists z. split; auto. congruence.
      - intros [->|K]; [exists x; cbn; auto|]. destruct (IH K) as (z & Z & E). exists z. cbn; auto. }
    destruct Z as (y & Y' & E). destruct (D1 _ Y') as (r' & R' & ->). cbn in E. rewrite (HN r r') by congruence. rewrite <- E. auto. }
  assert (D3 : NoDup (map fst distinct)).
  { unfold distinct. clear. induction texts as [|y l IH]; cbn; [constructor|]. destruct (mem _ y _) eqn:M; auto.
    cbn. constructor; auto. intros K. apply in_map_iff in K as (z & E & Z).
    assert (X : mem (fun x y : string * res nat => str_eqb (fst x) (fst y)) y (set_of (fun x y : string * res nat => str_eqb (fst x) (fst y)) l) = true);
      [|congruence]. unfold mem. apply existsb_exists. exists z. split; auto. apply str_eqb_iff. auto. }
  set (num := fun t : string * res nat => match snd t with Ok n => n | Err _ => O end).
  rewrite (rseq_ok _ (fun t => (fst t, num t))).
  2: { intros t Ht. destruct (D1 _ Ht) as (r & _ & ->). cbn. auto. }
  cbn [rbind]. set (sized := map (fun t => (fst t, num t)) distinct).
  destruct (ordered_texts_ok rules sized) as (O1 & O2 & O3); auto.
  { intros t n K. apply in_map_iff in K as (x & E & K). destruct (D1 _ K) as (r & R & ->). cbn in E. injection E as <- <-. eauto. }
  { intros r R. apply in_map_iff. exists (T r, Ok (N r)). split; auto. }
  { unfold sized. rewrite map_map. cbn. auto. }
  { intros r R. apply H. auto. }
  set (order := ordered_texts reverse sized) in *.
  assert (M : forallb (fun t : string * res nat => mem str_eqb (fst t) order) texts = true).
  { apply forallb_forall. intros x X. apply in_map_iff in X as (r & <- & R). cbn. apply (mem_spec _ str_eqb_iff). apply O3. eauto. }
  rewrite M. cbn [negb]. rewrite (rseq_ok _ (fun r => (B r, r))).
  2: { intros r R. destruct (H r R) as (_ & -> & _). auto. }
  cbn [rbind]. eexists. split; eauto.
  replace (flat_map _ order) with (grouped order rules).
  - apply grouped_sort; auto.
    + intros r R. apply H; auto.
    + intros r R. apply O3. eauto.
  - unfold grouped. apply flat_map_ext. intros t. unfold texts. rewrite combine_map.
    replace (map snd (filter _ _)) with (map (fun r => (B r, r)) (filter (fun r => str_eqb t (T r)) rules)).
    + symmetry. apply sorted_key.
    + clear. induction rules as [|r l IH]; cbn; auto. destruct (str_eqb t (T r)); cbn; auto. f_equal. auto.
Qed.

End Features.

(** ** sort *)

Lemma described_ok G s r n t b : described G s r n t b ->
  feature_text G (uses_names s) r = Ok (t, Ok n) /\ bounds_of r = Ok b.
Proof.
  intros (c & mins & maxs & C & A1 & A2 & -> & H). unfold feature_text, bounds_of. rewrite C, A1, A2. split; auto.
  destruct H as [(U & l & L & -> & ->)|(U & l & L & -> & ->)]; unfold uses_names.
  - destruct (s_names s); [congruence|]. rewrite L, listed_show. auto.
  - rewrite U, L, listed_show. auto.
Qed.

Lemma described_same G s r r' n n' t b b' : quotes (g_quote G) -> described G s r n t b -> described G s r' n' t b' -> n = n'.
Proof.
  intros Q (c & mins & maxs & C & A1 & A2 & E & H) (c' & mins' & maxs' & C' & A1' & A2' & E' & H').
  destruct H as [(U & l & L & -> & T)|(U & l & L & -> & T)], H' as [(U' & l' & L' & -> & T')|(U' & l' & L' & -> & T')]; try congruence.
  - rewrite T in T'. apply (listed_inj _ (quote_tells _ Q)) in T'. congruence.
  - rewrite T in T'. apply (listed_inj _ int_tells) in T'. congruence.
Qed.

Definition the_text G s r := match feature_text G (uses_names s) r with Ok (t, _) => t | _ => "" end.
Definition the_size G s r := match feature_text G (uses_names s) r with Ok (_, Ok n) => n | _ => O end.
Definition the_bounds r := match bounds_of r with Ok b => b | _ => [] end.

Lemma precedes_before G s reverse r r' : sortable G s -> In r (s_rules s) -> In r' (s_rules s) ->
  before (the_text G s) (the_size G s) the_bounds reverse r r' = true <-> precedes G s reverse r r'.
Proof.
  intros S R R'. destruct (S r R) as (n & t & b & D & P & B), (S r' R') as (n' & t' & b' & D' & P' & B').
  pose proof (described_ok _ _ _ _ _ _ D) as (F1 & F2). pose proof (described_ok _ _ _ _ _ _ D') as (F1' & F2').
  rewrite before_spec; unfold the_text, the_size, the_bounds; rewrite ?F1, ?F1', ?F2, ?F2'; auto.
  split.
  - intros H. exists n, t, b, n', t', b'. auto.
  - intros (m & u & d & m' & u' & d' & K & K' & H). apply described_ok in K as (K1 & K2), K' as (K1' & K2').
    rewrite F1 in K1. rewrite F2 in K2. rewrite F1' in K1'. rewrite F2' in K2'. injection K1 as <- <-. injection K2 as <-.
    injection K1' as <- <-. injection K2' as <-. auto.
Qed.

Lemma sortable_weak G s reverse : sortable G s -> weak (before (the_text G s) (the_size G s) the_bounds reverse) (s_rules s).
Proof.
  intros S. apply before_weak. intros r R. destruct (S r R) as (n & t & b & D & P & B). apply described_ok in D as (_ & D).
  unfold the_bounds. rewrite D. auto.
Qed.

Lemma stable_sort_ext {A} (R R' : A -> A -> Prop) l l' : (forall x y, In x l -> In y l -> (R x y <-> R' x y)) ->
  stable_sort R l l' -> stable_sort R' l l'.
Proof.
  intros E (P & O & F). assert (I : forall x, In x l' -> In x l) by (intros x; apply (Permutation_in x (Permutation_sym P))).
  split; auto. split.
  - clear P F. induction O as [|x l' O IH H]; constructor; [apply IH; intros; apply I; right; auto|].
    rewrite Forall_forall in *. intros y Y K. apply (H y Y). apply E; auto; apply I; cbn; auto.
  - intros x X. destruct (F x X) as (m & M & M'). exists m.
    assert (C : forall k, (forall y, In y k -> In y l) -> chosen (fun y => ~ R x y /\ ~ R y x) k m -> chosen (fun y => ~ R' x y /\ ~ R' y x) k m).
    { intros k J. clear M M'. intros M. induction M as [|y k m Py M IH|y k m Py M IH]; constructor; try (apply IH; intros; apply J; right; auto).
      - rewrite <- (E x y), <- (E y x) by (auto; apply J; left; auto). auto.
      - rewrite <- (E x y), <- (E y x) by (auto; apply J; left; auto). auto. }
    split; apply C; auto.
Qed.

Lemma sort_features G reverse s : quotes (g_quote G) -> sortable G s ->
  exists l, sort_by_features G reverse s = Ok l /\ stable_sort (precedes G s reverse) (s_rules s) l.
Proof.
  intros Q S. destruct (sort_by_features_ok (the_text G s) (the_size G s) the_bounds reverse G s) as (l & E & H).
  - intros r R. destruct (S r R) as (n & t & b & D & P & B). apply described_ok in D as (D1 & D2).
    unfold the_text, the_size, the_bounds. rewrite D1, D2. auto.
  - intros r r' R R' E. destruct (S r R) as (n & t & b & D & P & B), (S r' R') as (n' & t' & b' & D' & P' & B').
    pose proof (described_ok _ _ _ _ _ _ D) as (F1 & F2). pose proof (described_ok _ _ _ _ _ _ D') as (F1' & F2').
    unfold the_text in E. unfold the_size. rewrite F1, F1' in *. subst t'. eapply described_same; eauto.
  - exists l. split; auto. revert H. apply stable_sort_ext. intros x y X Y. apply precedes_before; auto.
Qed.

Lemma stable_refl {A} (R : A -> A -> Prop) l : (List.length l <= 1)%nat -> (forall x y, R x y \/ ~ R x y) -> stable_sort R l l.
Proof.
  destruct l as [|x [|y l]]; cbn; intros L D; [|clear L|lia].
  - split; auto. split; [constructor|]. intros x [].
  - split; auto. split; [repeat constructor|]. intros y [->|[]].
    destruct (D y y); [exists []|exists [y]]; split; constructor; try constructor; tauto.
Qed.

(** By attribute *)
Lemma flip_weak {A} (lt : A -> A -> bool) l : weak lt l -> weak (flip lt) l.
Proof.
  intros [As Ne]. constructor; unfold flip.
  - intros x y X Y. apply As; auto.
  - intros x y z X Y Z H. destruct (Ne z y x); auto.
Qed.

Lemma sorted_stable_sort {A} (lt : A -> A -> bool) (R : A -> A -> Prop) l :
  (forall x y, In x l -> In y l -> (lt x y = true <-> R x y)) -> weak lt l -> stable_sort R l (sorted lt l).
Proof.
  intros E W. apply (sorted_by lt); auto.
  - symmetry. apply sorted_perm.
  - apply sorted_ordered. auto.
  - intros x X. apply sorted_stable; auto.
Qed.

Definition the_number name r := match getattr r name with Ok (OVal (XNum x)) => x | _ => NaN end.
Definition the_word name r := match getattr r name with Ok (OVal (XText t)) => t | _ => "" end.

Definition number_before name (reverse : bool) (r r' : rule) : bool :=
  (if reverse then flip nltb else nltb) (the_number name r) (the_number name r').
Definition word_before name (reverse : bool) (r r' : rule) : bool := text_before reverse (the_word name r) (the_word name r').

Lemma number_weak name reverse l : (forall r, In r l -> number_attribute name r) -> weak (number_before name reverse) l.
Proof.
  intros H. assert (F : forall r, In r l -> the_number name r <> NaN).
  { intros r R. destruct (H r R) as (x & E & N). unfold the_number. rewrite E. auto. }
  constructor; unfold number_before, flip; destruct reverse; intros.
  - apply nltb_asym; auto.
  - apply nltb_asym; auto.
  - destruct (nltb_neg (the_number name z) (the_number name y) (the_number name x)); auto.
  - apply nltb_neg; auto.
Qed.

Lemma word_weak name reverse l : weak (word_before name reverse) l.
Proof.
  constructor; unfold word_before; intros.
  - apply text_before_asym; auto.
  - apply text_before_neg; auto.
Qed.

Lemma number_precedes name reverse r r' : number_attribute name r -> number_attribute name r' ->
  number_before name reverse r r' = true <-> precedes_by name reverse r r'.
Proof.
  intros (x & E & N) (y & E' & N'). unfold number_before, the_number, precedes_by, flip. rewrite E, E'. cbn [number]. split.
  - intros H. left. exists x, y. split; auto. split; auto. destruct reverse; apply nltb_spec; auto.
  - intros [(u & v & U & V & H)|(u & v & U & V & H)]; [|discriminate]. injection U as <-. injection V as <-.
    destruct reverse; apply nltb_spec; auto.
Qed.

Lemma word_precedes name reverse r r' : text_attribute name r -> text_attribute name r' ->
  word_before name reverse r r' = true <-> precedes_by name reverse r r'.
Proof.
  intros (x & E) (y & E'). unfold word_before, the_word, precedes_by, text_before, flip. rewrite E, E'. cbn [text]. split.
  - intros H. right. exists x, y. split; auto. split; auto. destruct reverse; apply str_ltb_spec; auto.
  - intros [(u & v & U & V & H)|(u & v & U & V & H)]; [discriminate|]. injection U as <-. injection V as <-.
    destruct reverse; apply str_ltb_spec; auto.
Qed.

Lemma sorted_singleton {A} (lt : A -> A -> bool) x : sorted lt [x] = [x].
Proof. auto. Qed.

Lemma sort_attribute name reverse rules :
  Forall (number_attribute name) rules \/ Forall (text_attribute name) rules ->
  exists l, sort_by_attribute name reverse rules = Ok l /\ stable_sort (precedes_by name reverse) rules l.
Proof.
  intros [H|H]; rewrite Forall_forall in H.
  - exists (sorted (number_before name reverse) rules). split.
    + unfold sort_by_attribute. rewrite (rseq_ok _ (fun r => (number (the_number name r), r))).
      2: { intros r R. destruct (H r R) as (x & E & _). unfold the_number. rewrite E. auto. }
      cbn [rbind]. destruct rules as [|r [|r' l]]; auto. set (rules := r :: r' :: l) in *.
      change (map (fun r0 => (number (the_number name r0), r0)) rules) with
        ((number (the_number name r), r) :: (number (the_number name r'), r') :: map (fun r0 => (number (the_number name r0), r0)) l) at 1.
      cbv iota.
      replace (existsb _ _) with false.
      2: { symmetry. apply existsb_false. intros x X. apply in_map_iff in X as (q & <- & _). auto. }
      rewrite map_map. cbn [fst snd]. rewrite (rseq_ok _ (fun r => (the_number name r, r))) by auto.
      f_equal. apply (sorted_key (if reverse then flip nltb else nltb) (the_number name)).
    + apply sorted_stable_sort; [|apply number_weak; auto]. intros x y X Y. apply number_precedes; auto.
  - exists (sorted (word_before name reverse) rules). split.
    + unfold sort_by_attribute. rewrite (rseq_ok _ (fun r => (text (the_word name r), r))).
      2: { intros r R. destruct (H r R) as (x & E). unfold the_word. rewrite E. auto. }
      cbn [rbind]. destruct rules as [|r [|r' l]]; auto. set (rules := r :: r' :: l) in *.
      change (map (fun r0 => (text (the_word name r0), r0)) rules) with
        ((text (the_word name r), r) :: (text (the_word name r'), r') :: map (fun r0 => (text (the_word name r0), r0)) l) at 1.
      cbv iota.
      replace (existsb _ _) with false.
      2: { symmetry. apply existsb_false. intros x X. apply in_map_iff in X as (q & <- & _). auto. }
      rewrite map_map. cbn [fst snd]. unfold rules at 1. cbn [map rseq rbind text].
      rewrite map_map. cbn [fst snd]. rewrite (rseq_ok _ (fun r => (the_word name r, r))) by auto.
      cbn [rmap]. f_equal. apply (sorted_key (text_before reverse) (the_word name)).
    + apply sorted_stable_sort; [|apply word_weak; auto]. intros x y X Y. apply word_precedes; auto.
Qed.

(** The rules are sorted, then the columns. *)
Definition reorder (G : setup) (s : ruleset) : res unit * ruleset :=
  if s_stack s then
    use (match s_stacked s with
         | None => Err EType
         | Some f => rbind (rseq (map (rule_name (g_env G)) (s_rules s))) (fun names => select_columns names f)
         end) (fun f s => done (with_stacked (Some f) s)) s
  else done s.

Lemma set_sort_features G c reverse s l : (c = None \/ c = Some "") -> s_rules s <> [] ->
  (forall r, In r (s_rules s) -> r_cond r <> None) -> sort_by_features G reverse s = Ok l ->
  set_sort G c reverse s = reorder G (with_rules l s).
Proof.
  intros C N K E. unfold set_sort. destruct (s_rules s) as [|r t] eqn:R; [congruence|].
  assert (H : has_condition r = true). { unfold has_condition. specialize (K r (or_introl eq_refl)). destruct (r_cond r); congruence. }
  replace (match c with None => "" | Some c => c end) with "" by (destruct C as [->| -> ]; auto).
  rewrite H, E. auto.
Qed.

Lemma set_sort_attribute G name reverse s r t l : name <> "" -> s_rules s = r :: t -> (exists v, getattr r name = Ok v) ->
  sort_by_attribute name reverse (s_rules s) = Ok l -> set_sort G (Some name) reverse s = reorder G (with_rules l s).
Proof.
  intros C N (v & V) E. unfold set_sort. rewrite N in *. destruct name; [congruence|].
  assert (H : hasattr r (String a name) = Ok true) by (unfold hasattr; rewrite V; auto). rewrite H, E. auto.
Qed.

Lemma reorder_plain G s : s_stack s = false -> reorder G s = (Ok tt, s).
Proof. intros H. unfold reorder. rewrite H. auto. Qed.

Lemma select_ok names f : NoDup (map fst (f_columns f)) -> (forall n, In n names -> exists v, In (n, v) (f_columns f)) ->
  exists cols, select_columns names f = Ok (mkFrame (f_rows f) cols) /\ Forall2 (fun n c => fst c = n /\ In c (f_columns f)) names cols.
Proof.
  intros D H. unfold select_columns.
  set (pick := fun n => filter (fun c : string * list Z => str_eqb n (fst c)) (f_columns f)).
  assert (P : forall n, In n names -> exists c, pick n = [c] /\ fst c = n /\ In c (f_columns f)).
  { intros n N. destruct (H n N) as (v & V). clear H. unfold pick. revert D V. induction (f_columns f) as [|(m, w) l IH]; [intros _ []|].
    cbn [map fst]. intros D. inv D. intros [E|I]; cbn [filter fst].
    - injection E as -> ->. assert (X : str_eqb n n = true) by (apply str_eqb_iff; auto). rewrite X.
      exists (n, v). split; [|split; cbn; auto]. f_equal. apply filter_none. intros (k, u) K. cbn. apply not_true_iff_false. intros F.
      apply str_eqb_iff in F. subst k. apply H1. apply in_map_iff. exists (n, u). auto.
    - assert (X : str_eqb n m = false). { apply not_true_iff_false. intros F. apply str_eqb_iff in F. subst m. apply H1. apply in_map_iff. exists (n, v). auto. }
      rewrite X. destruct (IH H2 I) as (c & Hc & F & G). exists c. cbn. auto. }
  rewrite (rseq_ok _ pick).
  - cbn [rmap]. eexists. split; [reflexivity|]. clear H. induction names as [|n names IH]; cbn; [constructor|].
    destruct (P n (or_introl eq_refl)) as (c & -> & E & I). cbn. constructor; auto. apply IH. intros; apply P; right; auto.
  - intros n N. destruct (P n N) as (c & E & _). unfold pick in *. rewrite E. auto.
Qed.

(** ** Results *)

Lemma same_but_with_rules l s : same_but_rules s (with_rules l s).
Proof. unfold same_but_rules. cbn. tauto. Qed.

Lemma sortable_conds G s r : sortable G s -> In r (s_rules s) -> r_cond r <> None.
Proof. intros S R. destruct (S r R) as (n & t & b & (c & _ & _ & C & _) & _). congruence. Qed.

Lemma stable_nil {A} (R : A -> A -> Prop) : stable_sort R [] [].
Proof. split; auto. split; [constructor|]. intros x []. Qed.

Lemma sort_ok G c reverse s : quotes (g_quote G) -> (c = None \/ c = Some "") -> sortable G s -> s_stack s = false ->
  exists s', set_sort G c reverse s = (Ok tt, s') /\ same_but_rules s s' /\
    stable_sort (precedes G s reverse) (s_rules s) (s_rules s').
Proof.
  intros Q C S K. destruct (s_rules s) as [|r t] eqn:R.
  - exists s. split; [unfold set_sort; rewrite R; auto|]. split; [unfold same_but_rules; tauto|]. rewrite R. apply stable_nil.
  - destruct (sort_features G reverse s Q S) as (l & E & H). exists (with_rules l s). split; [|split].
    + rewrite (set_sort_features G c reverse s l) by (auto; try congruence; intros; eapply sortable_conds; eauto). apply reorder_plain. auto.
    + apply same_but_with_rules.
    + cbn. rewrite <- R. auto.
Qed.

Lemma sort_by_ok G name reverse s : name <> "" ->
  Forall (number_attribute name) (s_rules s) \/ Forall (text_attribute name) (s_rules s) -> s_stack s = false ->
  exists s', set_sort G (Some name) reverse s = (Ok tt, s') /\ same_but_rules s s' /\
    stable_sort (precedes_by name reverse) (s_rules s) (s_rules s').
Proof.
  intros N H K. destruct (s_rules s) as [|r t] eqn:R.
  - exists s. split; [unfold set_sort; rewrite R; auto|]. split; [unfold same_but_rules; tauto|]. rewrite R. apply stable_nil.
  - rewrite <- R in *. destruct (sort_attribute name reverse _ H) as (l & E & S). exists (with_rules l s). split; [|split; auto using same_but_with_rules].
    rewrite (set_sort_attribute G name reverse s r t l); auto; [apply reorder_plain; auto|].
    rewrite R in H. destruct H as [H|H]; inv H; [destruct H2 as (x & X & _)|destruct H2 as (x & X)]; eauto.
Qed.

Lemma described_same_but G s s' r n t b : same_but_rules s s' -> (described G s r n t b <-> described G s' r n t b).
Proof. intros (E & _). unfold described. rewrite E. tauto. Qed.

Lemma precedes_same_but G s s' reverse r r' : same_but_rules s s' -> (precedes G s reverse r r' <-> precedes G s' reverse r r').
Proof.
  intros E. unfold precedes. split; intros (n & t & b & n' & t' & b' & D & D' & H); exists n, t, b, n', t', b';
    (split; [|split; auto]); apply (described_same_but G s s'); auto.
Qed.

Lemma sort_again G c reverse s s' : quotes (g_quote G) -> (c = None \/ c = Some "") -> sortable G s -> s_stack s = false ->
  set_sort G c reverse s = (Ok tt, s') -> set_sort G c reverse s' = (Ok tt, s').
Proof.
  intros Q C S K E. destruct (sort_ok G c reverse s Q C S K) as (s1 & E1 & B1 & H1). rewrite E in E1. injection E1 as <-.
  assert (I : forall r, In r (s_rules s') -> In r (s_rules s)) by (intros r; apply (Permutation_in r (Permutation_sym (proj1 H1)))).
  assert (S' : sortable G s').
  { intros r R. destruct (S r (I r R)) as (n & t & b & D & P). exists n, t, b. split; auto. apply (described_same_but G s s'); auto. }
  assert (K' : s_stack s' = false) by (destruct B1 as (_ & _ & _ & _ & _ & _ & _ & _ & B & _); congruence).
  destruct (sort_ok G c reverse s' Q C S' K') as (s2 & E2 & B2 & H2). rewrite E2. f_equal.
  assert (R2 : s_rules s2 = s_rules s').
  { apply (stable_unique (before (the_text G s') (the_size G s') the_bounds reverse) (precedes G s' reverse) (s_rules s')); auto.
    - intros x y X Y. apply precedes_before; auto.
    - apply sortable_weak; auto.
    - apply (stable_again (before (the_text G s) (the_size G s) the_bounds reverse) _ (s_rules s)).
      + intros x y X Y. rewrite precedes_before by auto. apply precedes_same_but. auto.
      + apply sortable_weak; auto.
      + revert H1. apply stable_sort_ext. intros x y X Y. apply precedes_same_but. auto. }
  destruct B2 as (X1 & X2 & X3 & X4 & X5 & X6 & X7 & X8 & X9 & X10 & X11). destruct s2, s'; cbn in *; congruence.
Qed.

Lemma sort_by_again G name reverse s s' : name <> "" ->
  Forall (number_attribute name) (s_rules s) \/ Forall (text_attribute name) (s_rules s) -> s_stack s = false ->
  set_sort G (Some name) reverse s = (Ok tt, s') -> set_sort G (Some name) reverse s' = (Ok tt, s').
Proof.
  intros N A K E. destruct (sort_by_ok G name reverse s N A K) as (s1 & E1 & B1 & H1). rewrite E in E1. injection E1 as <-.
  assert (I : forall r, In r (s_rules s') -> In r (s_rules s)) by (intros r; apply (Permutation_in r (Permutation_sym (proj1 H1)))).
  assert (A' : Forall (number_attribute name) (s_rules s') \/ Forall (text_attribute name) (s_rules s')).
  { rewrite !Forall_forall in *. destruct A as [A|A]; [left|right]; intros; apply A; auto. }
  assert (K' : s_stack s' = false) by (destruct B1 as (_ & _ & _ & _ & _ & _ & _ & _ & B & _); congruence).
  destruct (sort_by_ok G name reverse s' N A' K') as (s2 & E2 & B2 & H2). rewrite E2. f_equal.
  assert (R2 : s_rules s2 = s_rules s').
  { rewrite !Forall_forall in *. destruct A as [A|A].
    - apply (stable_unique (number_before name reverse) (precedes_by name reverse) (s_rules s')); auto.
      + intros x y X Y. apply number_precedes; auto.
      + apply number_weak. auto.
      + apply (stable_again (number_before name reverse) _ (s_rules s)); auto.
        * intros x y X Y. apply number_precedes; auto.
        * apply number_weak. auto.
    - apply (stable_unique (word_before name reverse) (precedes_by name reverse) (s_rules s')); auto.
      + intros x y X Y. apply word_precedes; auto.
      + apply word_weak.
      + apply (stable_again (word_before name reverse) _ (s_rules s)); auto.
        * intros x y X Y. apply word_precedes; auto.
        * apply word_weak. }
  destruct B2 as (X1 & X2 & X3 & X4 & X5 & X6 & X7 & X8 & X9 & X10 & X11). destruct s2, s'; cbn in *; congruence.
Qed.

(** The columns *)
Lemma reorder_ok G s f : s_stack s = true -> s_stacked s = Some f -> NoDup (map fst (f_columns f)) ->
  (forall r, In r (s_rules s) -> exists n v, called (g_env G) r n /\ In (n, v) (f_columns f)) ->
  exists f', reorder G s = (Ok tt, with_stacked (Some f') s) /\ f_rows f' = f_rows f /\
    Forall2 (fun r c => called (g_env G) r (fst c) /\ In c (f_columns f)) (s_rules s) (f_columns f').
Proof.
  intros K F D H. unfold reorder. rewrite K, F.
  set (nm := fun r => match rule_name (g_env G) r with Ok n => n | Err _ => "" end).
  assert (C : forall r, In r (s_rules s) -> called (g_env G) r (nm r) /\ rule_name (g_env G) r = Ok (nm r) /\ exists v, In (nm r, v) (f_columns f)).
  { intros r R. destruct (H r R) as (n & v & N & I). pose proof (called_name _ _ _ N) as E. unfold nm. rewrite E. eauto. }
  rewrite (rseq_ok _ nm) by (intros; apply C; auto). cbn [rbind].
  destruct (select_ok (map nm (s_rules s)) f D) as (cols & E & P).
  { intros n N. apply in_map_iff in N as (r & <- & R). apply C. auto. }
  exists (mkFrame (f_rows f) cols). rewrite E. cbn. split; auto. split; auto.
  clear - C P. revert cols P. induction (s_rules s) as [|r l IH]; intros cols P; inv P; constructor.
  - destruct H1 as (En & I). split; auto. rewrite En. apply C. left; auto.
  - apply IH; auto. intros; apply C; right; auto.
Qed.

Lemma sort_columns G c reverse s f : quotes (g_quote G) -> (c = None \/ c = Some "") -> sortable G s ->
  s_stack s = true -> s_stacked s = Some f -> NoDup (map fst (f_columns f)) -> s_rules s <> [] ->
  (forall r, In r (s_rules s) -> exists n v, called (g_env G) r n /\ In (n, v) (f_columns f)) ->
  exists s' f', set_sort G c reverse s = (Ok tt, s') /\ stable_sort (precedes G s reverse) (s_rules s) (s_rules s') /\
    s_stacked s' = Some f' /\ f_rows f' = f_rows f /\
    Forall2 (fun r c => called (g_env G) r (fst c) /\ In c (f_columns f)) (s_rules s') (f_columns f').
Proof.
  intros Q C S K F D N H. destruct (sort_features G reverse s Q S) as (l & E & P).
  destruct (reorder_ok G (with_rules l s) f) as (f' & E' & R & V); auto.
  { intros r I. apply H. apply (Permutation_in r (Permutation_sym (proj1 P))). auto. }
  exists (with_stacked (Some f') (with_rules l s)), f'. split; [|cbn in *; auto].
  rewrite (set_sort_features G c reverse s l) by (auto; intros; eapply sortable_conds; eauto). auto.
Qed.

Lemma sort_by_columns G name reverse s f : name <> "" ->
  Forall (number_attribute name) (s_rules s) \/ Forall (text_attribute name) (s_rules s) ->
  s_stack s = true -> s_stacked s = Some f -> NoDup (map fst (f_columns f)) -> s_rules s <> [] ->
  (forall r, In r (s_rules s) -> exists n v, called (g_env G) r n /\ In (n, v) (f_columns f)) ->
  exists s' f', set_sort G (Some name) reverse s = (Ok tt, s') /\ stable_sort (precedes_by name reverse) (s_rules s) (s_rules s') /\
    s_stacked s' = Some f' /\ f_rows f' = f_rows f /\
    Forall2 (fun r c => called (g_env G) r (fst c) /\ In c (f_columns f)) (s_rules s') (f_columns f').
Proof.
  intros Ne A K F D N H. destruct (sort_attribute name reverse _ A) as (l & E & P).
  destruct (reorder_ok G (with_rules l s) f) as (f' & E' & R & V); auto.
  { intros r I. apply H. apply (Permutation_in r (Permutation_sym (proj1 P))). auto. }
  exists (with_stacked (Some f') (with_rules l s)), f'. split; [|cbn in *; auto].
  destruct (s_rules s) as [|r t] eqn:Rs; [congruence|]. rewrite (set_sort_attribute G name reverse s r t l); auto.
  - destruct A as [A|A]; inv A; [destruct H2 as (x & X & _)|destruct H2 as (x & X)]; eauto.
  - rewrite Rs. auto.
Qed.

(** Whatever happens, the rules are permuted. *)
Lemma ordered_nodup reverse sized : NoDup (map fst sized) -> NoDup (ordered_texts reverse sized).
Proof.
  intros ND.
  assert (U : forall t n n', In (t, n) sized -> In (t, n') sized -> n = n').
  { intros t n n' A B. assert (E : (t, n) = (t, n')) by (eapply (NoDup_map_inj fst); eauto). congruence. }
  apply (sorted_nodup (fun t t' => forall n n', In (t, n) sized -> In (t', n') sized -> (n < n')%nat \/ n = n' /\ text_before reverse t t' = true)).
  - unfold ordered_texts. apply (sorted_flat _ lt).
    + apply seq_sorted.
    + intros k _. set (l := map fst (filter (fun t => (snd t =? k)%nat) sized)).
      assert (L : NoDup l). { apply NoDup_map_filter. auto. }
      assert (K : StronglySorted (fun a b => text_before reverse a b = true) (sorted (text_before reverse) l)).
      { apply sorted_sorted; auto.
        - intros x y z X Y. destruct (text_before_neg reverse x z y X) as [|Z]; auto. exfalso. apply text_before_asym in Z. congruence.
        - intros x y _ _ D. apply text_before_total. auto. }
      change (if reverse then flip str_ltb else str_ltb) with (text_before reverse).
      assert (J : forall t, In t (sorted (text_before reverse) l) -> In (t, k) sized).
      { intros t H. rewrite sorted_In in H. apply in_map_iff in H as ((t' & n') & E & H). cbn in E. subst t'. apply filter_In in H as (H & E).
        cbn in E. apply Nat.eqb_eq in E. subst n'. auto. }
      induction K as [|t m K IH F]; constructor; [apply IH; intros; apply J; right; auto|].
      rewrite Forall_forall in *. intros t' H n n' A B. right. split; auto.
      rewrite (U t n k), (U t' n' k); auto; apply J; cbn; auto.
    + intros n n' t t' _ _ L H H' k k' A A'. left. rewrite sorted_In in H, H'.
      apply in_map_iff in H as ((u & m) & E & H), H' as ((u' & m') & E' & H'). cbn in E, E'. subst u u'.
      apply filter_In in H as (H & K), H' as (H' & K'). cbn in K, K'. apply Nat.eqb_eq in K, K'. subst m m'.
      rewrite (U t k n), (U t' k' n') by auto. auto.
  - intros t I K. unfold ordered_texts in I. apply in_flat_map in I as (n & _ & I). rewrite sorted_In in I.
    apply in_map_iff in I as ((u & m) & E & H). cbn in E. subst u. apply filter_In in H as (H & _).
    destruct (K m m H H) as [L|(_ & L)]; [lia|]. pose proof (text_before_asym _ _ _ L). congruence.
Qed.

Lemma set_of_fst_nodup (l : list (string * res nat)) :
  NoDup (map fst (set_of (fun x y : string * res nat => str_eqb (fst x) (fst y)) l)).
Proof.
  induction l as [|y l IH]; cbn [set_of map]; [constructor|]. destruct (mem _ y _) eqn:M; auto.
  cbn [map]. constructor; auto. intros K. apply in_map_iff in K as (z & E & Z).
  assert (X : mem (fun x y : string * res nat => str_eqb (fst x) (fst y)) y (set_of (fun x y : string * res nat => str_eqb (fst x) (fst y)) l) = true);
    [|congruence]. unfold mem. apply existsb_exists. exists z. split; auto. apply str_eqb_iff. auto.
Qed.

Lemma sort_by_features_perm G reverse s l : sort_by_features G reverse s = Ok l -> Permutation (s_rules s) l.
Proof.
  unfold sort_by_features. set (rules := s_rules s). intros H.
  destruct (rseq (map (feature_text G (uses_names s)) rules)) as [texts|] eqn:E1; [|discriminate]. cbn [rbind] in H.
  destruct (rseq _) as [sized|] eqn:E2 in H; [|discriminate]. cbn [rbind] in H.
  set (order := ordered_texts reverse sized) in *.
  destruct (forallb _ texts) eqn:E3 in H; [|discriminate]. cbn [negb] in H.
  destruct (rseq _) as [keyed|] eqn:E4 in H; [|discriminate]. cbn [rbind] in H. injection H as <-.
  apply rseq_map_ok in E1, E2, E4.
  assert (ND : NoDup order).
  { apply ordered_nodup. assert (E : map fst sized = map fst (set_of (fun x y : string * res nat => str_eqb (fst x) (fst y)) texts)).
    { clear - E2. induction E2 as [|x y l m P F IH]; auto. cbn. rewrite IH. f_equal. destruct (snd x); [|discriminate]. injection P as <-. auto. }
    rewrite E. apply set_of_fst_nodup. }
  set (T := fun r => match feature_text G (uses_names s) r with Ok (t, _) => t | _ => "" end).
  assert (ET : map fst texts = map T rules).
  { clear - E1. unfold T. induction E1 as [|r t l m P F IH]; auto. cbn. rewrite IH, P. destruct t; auto. }
  set (B := fun r => match bounds_of r with Ok b => b | _ => [] end).
  assert (EK : keyed = map (fun r => (B r, r)) rules).
  { clear - E4. unfold B. induction E4 as [|r t l m P F IH]; auto. cbn. rewrite IH. f_equal. destruct (bounds_of r); [|discriminate]. injection P as <-. auto. }
  assert (C : forall r, In r rules -> mem str_eqb (T r) order = true).
  { intros r R. rewrite forallb_forall in E3. assert (I : In (T r) (map fst texts)) by (rewrite ET; apply in_map; auto).
    apply in_map_iff in I as (x & X & I). rewrite <- X. apply E3. auto. }
  transitivity (filter (fun r => mem str_eqb (T r) order) rules).
  { apply Permutation_refl'. symmetry. apply filter_all. auto. }
  rewrite groups_perm by auto. apply flat_map_perm. intros t.
  assert (EG : map snd (filter (fun p => str_eqb t (fst (fst p))) (combine texts keyed)) = map (fun r => (B r, r)) (filter (fun r => str_eqb t (T r)) rules)).
  { rewrite EK. clear - ET. revert texts ET. induction rules as [|r rules IH]; intros [|x texts] ET; try discriminate; auto.
    cbn in ET. injection ET as Ex ET. cbn [map combine filter fst snd]. rewrite Ex. destruct (str_eqb t (T r)); cbn; rewrite IH by auto; auto. }
  rewrite EG. transitivity (map snd (map (fun r => (B r, r)) (filter (fun r => str_eqb t (T r)) rules))).
  - rewrite map_map. cbn. rewrite map_id. auto.
  - apply Permutation_map. symmetry. apply sorted_perm.
Qed.

Lemma snd_same {A B C} (f : A * C -> res (B * C)) l m : (forall p q, f p = Ok q -> snd q = snd p) ->
  Forall2 (fun p q => f p = Ok q) l m -> map snd l = map snd m.
Proof. intros P Q. induction Q as [|p q l m H F IH]; auto. cbn. rewrite IH, (P _ _ H). auto. Qed.

Lemma sort_by_attribute_perm name reverse rules l : sort_by_attribute name reverse rules = Ok l -> Permutation rules l.
Proof.
  unfold sort_by_attribute. intros H. destruct (rseq _) as [keyed|] eqn:E in H; [|discriminate]. cbn [rbind] in H.
  apply rseq_map_ok in E. assert (ES : map snd keyed = rules).
  { clear - E. induction E as [|r k l m P F IH]; auto. cbn. rewrite IH. f_equal. destruct (getattr r name); [|discriminate]. injection P as <-. auto. }
  destruct keyed as [|k1 [|k2 keyed]]; try (injection H as <-; auto; fail).
  set (ks := k1 :: k2 :: keyed) in *. destruct (existsb _ ks); [discriminate|].
  assert (G : forall K (f : obj * rule -> res (K * rule)) (lt : K -> K -> bool) m, (forall p q, f p = Ok q -> snd q = snd p) ->
     rseq (map f ks) = Ok m -> Permutation rules (map snd (sorted (first_lt lt) m))).
  { intros K f lt m P Q. apply rseq_map_ok in Q. rewrite <- ES. transitivity (map snd m).
    - apply Permutation_refl'. exact (snd_same f ks m P Q).
    - apply Permutation_map. symmetry. apply sorted_perm. }
  destruct (rseq _) as [m|] eqn:E1 in H.
  - injection H as <-. eapply G; [|exact E1]. intros (o, r) q. cbn.
    destruct o as [[]| | | |]; try discriminate. intros X. injection X as <-. auto.
  - destruct (rseq _) as [m|] eqn:E2 in H; [|discriminate]. injection H as <-. eapply G; [|exact E2].
    intros (o, r) q. cbn. destruct o as [[]| | | |]; try discriminate. intros X. injection X as <-. auto.
Qed.

Definition same_but_order (s s' : ruleset) : Prop :=
  exists l f, Permutation (s_rules s) l /\ s' = with_stacked f (with_rules l s) /\ (s_stack s = false -> f = s_stacked s).

Lemma reorder_any G s : exists f, snd (reorder G s) = with_stacked f s /\ (s_stack s = false -> f = s_stacked s).
Proof.
  unfold reorder. destruct (s_stack s).
  - destruct (match s_stacked s with None => Err EType | Some f => _ end) as [f|]; cbn; [exists (Some f)|exists (s_stacked s)]; split; auto; try discriminate.
    destruct s; auto.
  - exists (s_stacked s). destruct s; auto.
Qed.

Lemma set_sort_any G c reverse s : same_but_order s (snd (set_sort G c reverse s)).
Proof.
  assert (Z : same_but_order s s) by (exists (s_rules s), (s_stacked s); split; auto; split; auto; destruct s; auto).
  unfold set_sort. destruct (s_rules s) as [|r t] eqn:R; auto.
  assert (X : forall v, (forall l, v = Ok l -> Permutation (s_rules s) l) ->
    same_but_order s (snd (chain (use v (fun l s => done (with_rules l s)) s) (reorder G)))).
  { intros [l|e] P; auto. cbn [use chain done]. destruct (reorder_any G (with_rules l s)) as (f & E & F). rewrite E. exists l, f. auto. }
  destruct (match c with None => "" | Some c => c end) as [|ch name] eqn:C.
  - destruct (has_condition r); auto. apply X. intros l. apply sort_by_features_perm.
  - destruct (hasattr r (String ch name)) as [[]|]; auto. rewrite <- R. apply X. intros l. apply sort_by_attribute_perm.
Qed.

(** Lemmas on the helpers of CondModel: numbers, sets, sorting, positions. *)
From Coq Require Import List ZArith QArith Bool String Ascii Lia.
From Coq Require Import Sorting.Sorted Sorting.Permutation.
From Verif Require Import Base Num CondModel CondSpec.
Import ListNotations.
Open Scope Z_scope.

(** ** Numbers *)

Lemma qltb_spec x y : qltb x y = true <-> (x < y)%Q.
Proof.
  unfold qltb. rewrite negb_true_iff. split; intros H.
  - apply Qnot_le_lt. intros L. apply Qle_bool_iff in L. congruence.
  - destruct (Qle_bool y x) eqn:E; auto. apply Qle_bool_iff in E.
    exfalso. apply (Qlt_not_le _ _ H); auto.
Qed.

Lemma nltb_spec x y : nltb x y = true <-> nlt x y.
Proof. destruct x, y; cbn; try (split; (discriminate || tauto)). apply qltb_spec. Qed.

Lemma nleb_spec x y : nleb x y = true <-> nle x y.
Proof. destruct x, y; cbn; try (split; (discriminate || tauto)). apply Qle_bool_iff. Qed.

Lemma nlt_not_nle x y : nlt x y -> nle y x -> False.
Proof. destruct x, y; cbn; try tauto. intros H L. apply (Qlt_not_le _ _ H L). Qed.

Lemma nle_trans x y z : nle x y -> nle y z -> nle x z.
Proof. destruct x, y, z; cbn; try tauto. apply Qle_trans. Qed.

Lemma nle_nlt_trans x y z : nle x y -> nlt y z -> nlt x z.
Proof. destruct x, y, z; cbn; try tauto. apply Qle_lt_trans. Qed.

Lemma nlt_nle_trans x y z : nlt x y -> nle y z -> nlt x z.
Proof. destruct x, y, z; cbn; try tauto. apply Qlt_le_trans. Qed.

Lemma nle_refl x : x <> NaN -> nle x x.
Proof. destruct x; cbn; try tauto. intros _. apply Qle_refl. Qed.

Lemma nlt_nle x y : nlt x y -> nle x y.
Proof. destruct x, y; cbn; try tauto. apply Qlt_le_weak. Qed.

Lemma nle_or x y : x <> NaN -> y <> NaN -> nle x y \/ nlt y x.
Proof.
  destruct x, y; cbn; try tauto. intros _ _.
  destruct (Qlt_le_dec q0 q); auto.
Qed.

Lemma nlt_nan x y : nlt x y -> x <> NaN /\ y <> NaN.
Proof. destruct x, y; cbn; try tauto; intros; split; discriminate. Qed.

Lemma nle_nan x y : nle x y -> x <> NaN /\ y <> NaN.
Proof. destruct x, y; cbn; try tauto; intros; split; discriminate. Qed.

Lemma same_num_le x y : nle x y -> nle y x -> same_num x y.
Proof. destruct x, y; cbn; try tauto. intros. apply Qle_antisym; auto. Qed.

Lemma same_num_refl x : same_num x x.
Proof. destruct x; cbn; auto. apply Qeq_refl. Qed.

Lemma same_num_sym x y : same_num x y -> same_num y x.
Proof. destruct x, y; cbn; auto. apply Qeq_sym. Qed.

Lemma same_num_trans x y z : same_num x y -> same_num y z -> same_num x z.
Proof. destruct x, y, z; cbn; try tauto. apply Qeq_trans. Qed.

Lemma py_max_spec x y : x <> NaN -> y <> NaN -> greatest x y (py_max x y).
Proof.
  intros Hx Hy. unfold py_max, ngtb, greatest. destruct (nltb x y) eqn:E.
  - apply nltb_spec in E. auto using nlt_nle, nle_refl.
  - repeat split; auto using nle_refl. destruct (nle_or y x Hy Hx); auto.
    apply nltb_spec in H. congruence.
Qed.

Lemma py_min_spec x y : x <> NaN -> y <> NaN -> smallest x y (py_min x y).
Proof.
  intros Hx Hy. unfold py_min, smallest. destruct (nltb y x) eqn:E.
  - apply nltb_spec in E. auto using nlt_nle, nle_refl.
  - repeat split; auto using nle_refl. destruct (nle_or x y Hx Hy); auto.
    apply nltb_spec in H. congruence.
Qed.

(** ** Strings *)

Lemma nat_of_ascii_inj a b : nat_of_ascii a = nat_of_ascii b -> a = b.
Proof. intros H. rewrite <- (ascii_nat_embedding a), <- (ascii_nat_embedding b). congruence. Qed.

Lemma str_ltb_irrefl a : str_ltb a a = false.
Proof. induction a as [|x a IH]; cbn; auto. rewrite Nat.eqb_refl. auto. Qed.

Lemma str_ltb_trans a : forall b c, str_ltb a b = true -> str_ltb b c = true -> str_ltb a c = true.
Proof.
  induction a as [|x a IH]; intros [|y b] [|z c]; cbn; try discriminate; auto.
  destruct (Nat.eqb_spec (nat_of_ascii x) (nat_of_ascii y)) as [E|E];
  destruct (Nat.eqb_spec (nat_of_ascii y) (nat_of_ascii z)) as [F|F];
  destruct (Nat.eqb_spec (nat_of_ascii x) (nat_of_ascii z)) as [G|G];
    try (exfalso; congruence); intros H1 H2;
    repeat match goal with H : _ = true |- _ => apply Nat.ltb_lt in H end;
    try (apply Nat.ltb_lt); try lia; eauto.
Qed.

Lemma str_ltb_total a : forall b, a <> b -> str_ltb a b = true \/ str_ltb b a = true.
Proof.
  induction a as [|x a IH]; intros [|y b] H; cbn; auto; try congruence.
  destruct (Nat.eqb_spec (nat_of_ascii x) (nat_of_ascii y)) as [E|E].
  - rewrite <- E, Nat.eqb_refl. apply IH. apply nat_of_ascii_inj in E. congruence.
  - destruct (Nat.eqb_spec (nat_of_ascii y) (nat_of_ascii x)) as [F|F]; [congruence|].
    unfold Nat.ltb. destruct (Nat.lt_total (nat_of_ascii x) (nat_of_ascii y)) as [L|[L|L]]; [left|congruence|right]; apply Nat.ltb_lt; auto.
Qed.

(** ** Sets *)

Section Sets.
Context {A : Type} (eqb : A -> A -> bool) (E : forall x y, eqb x y = true <-> x = y).

Lemma mem_spec x l : mem eqb x l = true <-> In x l.
Proof.
  unfold mem. rewrite existsb_exists. split.
  - intros (y & H & Hy). apply E in Hy. subst; auto.
  - intros H. exists x. split; auto. apply E; auto.
Qed.

Lemma mem_false x l : mem eqb x l = false <-> ~ In x l.
Proof. rewrite <- mem_spec. destruct (mem eqb x l); split; congruence. Qed.

Lemma set_of_In x l : In x (set_of eqb l) <-> In x l.
Proof.
  revert x. induction l as [|y t IH]; intros x; cbn; [tauto|].
  destruct (mem eqb y (set_of eqb t)) eqn:M.
  - apply mem_spec in M. rewrite IH in M. rewrite IH. split; auto. intros [ <- |]; auto.
  - cbn. rewrite IH. tauto.
Qed.

Lemma set_of_length l : (List.length (set_of eqb l) <= List.length l)%nat.
Proof. induction l as [|y t IH]; cbn; auto. destruct mem; cbn; lia. Qed.

Lemma has_dup_spec l : has_dup eqb l = false <-> NoDup l.
Proof.
  unfold has_dup. rewrite negb_false_iff, Nat.eqb_eq.
  induction l as [|y t IH]; cbn; [split; auto using NoDup_nil|].
  pose proof (set_of_length t). destruct (mem eqb y (set_of eqb t)) eqn:M.
  - apply mem_spec in M. apply (proj1 (set_of_In _ _)) in M. split; [lia|].
    intros D. inversion D; subst; contradiction.
  - apply mem_false in M. rewrite set_of_In in M. cbn. split.
    + intros H1. constructor; auto. apply IH. lia.
    + intros D. inversion D; subst. f_equal. apply IH; auto.
Qed.

Lemma has_dup_true l : has_dup eqb l = true <-> ~ NoDup l.
Proof. rewrite <- has_dup_spec. destruct has_dup; split; congruence. Qed.

Lemma index_of_some x l : In x l -> exists n, index_of eqb x l = Some n.
Proof.
  induction l as [|y t IH]; cbn; [tauto|]. intros [ -> |H].
  - assert (eqb x x = true) as -> by (apply E; auto). eauto.
  - destruct (eqb x y); eauto. destruct (IH H) as (n & ->). eauto.
Qed.

End Sets.

Lemma Zeqb_spec : forall x y, Z.eqb x y = true <-> x = y.
Proof. apply Z.eqb_eq. Qed.
Lemma seqb_spec : forall x y, str_eqb x y = true <-> x = y.
Proof. apply String.eqb_eq. Qed.
Lemma neqb_nat_spec : forall x y, Nat.eqb x y = true <-> x = y.
Proof. apply Nat.eqb_eq. Qed.

Lemma list_eqb_spec {A} (eqb : A -> A -> bool) (E : forall x y, eqb x y = true <-> x = y) :
  forall a b, list_eqb eqb a b = true <-> a = b.
Proof.
  induction a as [|x a IH]; intros [|y b]; cbn; try (split; congruence).
  rewrite andb_true_iff, E, IH. split; [intros []; congruence | intros H; injection H; auto].
Qed.

(** ** Sorting *)

Section Sort.
Context {A : Type}.
Variable lt : A -> A -> bool.

Lemma insert_perm x l : Permutation (insert lt x l) (x :: l).
Proof.
  induction l as [|y t IH]; cbn; auto. destruct (lt y x); auto.
  rewrite IH. apply perm_swap.
Qed.

Lemma sorted_perm l : Permutation (sorted lt l) l.
Proof. induction l as [|x t IH]; cbn; auto. rewrite insert_perm. auto. Qed.

Lemma sorted_In x l : In x (sorted lt l) <-> In x l.
Proof. split; apply Permutation_in; [|symmetry]; apply sorted_perm. Qed.

Hypothesis trans : forall x y z, lt x y = true -> lt y z = true -> lt x z = true.

Lemma insert_sorted x l :
  (forall y, In y l -> lt x y = true \/ lt y x = true) ->
  StronglySorted (fun a b => lt a b = true) l ->
  StronglySorted (fun a b => lt a b = true) (insert lt x l).
Proof.
  induction l as [|y t IH]; cbn; intros T S; [repeat constructor|].
  inversion S; subst. destruct (lt y x) eqn:L.
  - constructor.
    + apply IH; auto.
    + apply Forall_forall. intros z Hz. apply (Permutation_in _ (insert_perm x t)) in Hz.
      destruct Hz as [ <- |Hz]; auto. rewrite Forall_forall in H2. auto.
  - destruct (T y (or_introl eq_refl)) as [Lx|]; [|congruence].
    constructor; auto. constructor; auto. apply Forall_forall. intros z Hz.
    rewrite Forall_forall in H2. eauto.
Qed.

Lemma sorted_sorted l :
  NoDup l ->
  (forall x y, In x l -> In y l -> x <> y -> lt x y = true \/ lt y x = true) ->
  StronglySorted (fun a b => lt a b = true) (sorted lt l).
Proof.
  induction l as [|x t IH]; cbn; intros N T; [constructor|].
  inversion N; subst. apply insert_sorted.
  - intros y Hy. rewrite sorted_In in Hy. apply T; auto. congruence.
  - apply IH; auto.
Qed.

End Sort.

Lemma insert_map {A B} (f : A -> B) lta ltb x l :
  (forall y, In y l -> ltb (f y) (f x) = lta y x) ->
  insert ltb (f x) (map f l) = map f (insert lta x l).
Proof.
  induction l as [|y t IH]; cbn; intros H; auto.
  rewrite H by auto. destruct (lta y x); cbn; auto. f_equal. auto.
Qed.

Lemma sorted_map {A B} (f : A -> B) lta ltb l :
  NoDup l ->
  (forall x y, In x l -> In y l -> x <> y -> ltb (f y) (f x) = lta y x) ->
  sorted ltb (map f l) = map f (sorted lta l).
Proof.
  induction l as [|x t IH]; cbn; intros N H; auto. inversion N; subst.
  rewrite IH by auto. apply insert_map. intros y Hy. rewrite sorted_In in Hy.
  apply H; auto. congruence.
Qed.

Lemma combine_map {A B C} (f : A -> B) (g : A -> C) l :
  combine (map f l) (map g l) = map (fun x => (f x, g x)) l.
Proof. induction l; cbn; congruence. Qed.

Lemma NoDup_map_inj {A B} (f : A -> B) l x y :
  NoDup (map f l) -> In x l -> In y l -> f x = f y -> x = y.
Proof.
  induction l as [|z t IH]; cbn; [tauto|]. intros N. inversion N; subst.
  intros [ -> |Hx] [ -> |Hy] Exy; auto.
  - exfalso. apply H1. rewrite Exy. apply in_map; auto.
  - exfalso. apply H1. rewrite <- Exy. apply in_map; auto.
Qed.

(** Sorting pairs whose keys are distinct sorts by the keys. *)
Lemma sort_values_map {F A B} (key : F -> A) (val : F -> B) eqa lta ltb fs :
  (forall x y, eqa x y = true <-> x = y) ->
  NoDup (map key fs) ->
  sort_values eqa lta ltb (map key fs) (map val fs) =
  map val (sorted (fun f g => lta (key f) (key g)) fs).
Proof.
  intros E N. unfold sort_values. rewrite combine_map.
  rewrite (sorted_map (fun x => (key x, val x)) (fun f g => lta (key f) (key g))).
  - rewrite map_map. auto.
  - eapply NoDup_map_inv; eauto.
  - intros x y Hx Hy D. unfold pair_lt; cbn.
    destruct (eqa (key y) (key x)) eqn:K; auto. apply E in K.
    exfalso. apply D. eapply NoDup_map_inj; eauto.
Qed.

Lemma sorted_keys {F A} (key : F -> A) lta fs :
  NoDup (map key fs) ->
  sorted lta (map key fs) = map key (sorted (fun f g => lta (key f) (key g)) fs).
Proof. intros N. apply sorted_map; auto. eapply NoDup_map_inv; eauto. Qed.

(** A strictly sorted list is determined by its keys. *)
Lemma sorted_unique {A} (R : A -> A -> Prop) (irr : forall x, ~ R x x)
    (tr : forall x y z, R x y -> R y z -> R x z) :
  forall l l', StronglySorted R l -> StronglySorted R l' ->
  (forall x, In x l <-> In x l') -> l = l'.
Proof.
  induction l as [|x t IH]; intros [|y t'] S S' I; auto.
  - exfalso. apply (I y). cbn; auto.
  - exfalso. apply (I x). cbn; auto.
  - inversion S; inversion S'; subst. rewrite Forall_forall in *.
    assert (x = y) as ->.
    { destruct (proj1 (I x) (or_introl eq_refl)) as [ |Hx]; auto.
      destruct (proj2 (I y) (or_introl eq_refl)) as [ |Hy]; auto.
      exfalso. apply (irr x). eauto. }
    f_equal. apply IH; auto. intros z. split; intros Hz.
    + destruct (proj1 (I z) (or_intror Hz)); auto. subst. exfalso. apply (irr z). auto.
    + destruct (proj2 (I z) (or_intror Hz)); auto. subst. exfalso. apply (irr z). auto.
Qed.

Lemma StronglySorted_map {A B} (f : A -> B) (R : B -> B -> Prop) l :
  StronglySorted (fun x y => R (f x) (f y)) l <-> StronglySorted R (map f l).
Proof.
  induction l as [|x t IH]; cbn; [split; constructor|].
  split; intros S; inversion S; subst; constructor.
  - apply IH; auto.
  - rewrite Forall_forall in *. intros z Hz. apply in_map_iff in Hz.
    destruct Hz as (w & <- & Hw). auto.
  - apply IH; auto.
  - rewrite Forall_forall in *. intros z Hz. apply H2. apply in_map; auto.
Qed.

(** ** Positions *)

Lemma rseq_ok {A B} (f : A -> res B) (g : A -> B) l :
  (forall x, In x l -> f x = Ok (g x)) -> rseq (map f l) = Ok (map g l).
Proof.
  induction l as [|x t IH]; cbn; intros H; auto. rewrite (H x) by auto. cbn.
  rewrite IH by auto. auto.
Qed.

Lemma Forall2_nth_seq {A} (l : list A) :
  rseq (map (at_pos l) (seq 0 (List.length l))) = Ok l.
Proof.
  assert (G : forall pre l : list A, rseq (map (at_pos (pre ++ l)) (seq (List.length pre) (List.length l))) = Ok l).
  { intros pre l'. revert pre. induction l' as [|x t IH]; intros pre; cbn; auto.
    unfold at_pos at 1. rewrite nth_error_app2, Nat.sub_diag by auto. cbn.
    specialize (IH (pre ++ [x])). rewrite <- app_assoc in IH. cbn in IH.
    rewrite app_length in IH. cbn in IH. rewrite Nat.add_1_r in IH. rewrite IH. auto. }
  apply (G [] l).
Qed.

Lemma existsb_false {A} (p : A -> bool) l :
  existsb p l = false <-> forall x, In x l -> p x = false.
Proof.
  split.
  - intros H x Hx. destruct (p x) eqn:E; auto.
    assert (existsb p l = true) by (apply existsb_exists; eauto). congruence.
  - intros H. destruct (existsb p l) eqn:E; auto. apply existsb_exists in E.
    destruct E as (x & Hx & E). rewrite H in E; auto.
Qed.

Lemma NoDup_app {A} (l l' : list A) :
  NoDup (l ++ l') <-> NoDup l /\ NoDup l' /\ forall x, In x l -> ~ In x l'.
Proof.
  induction l as [|x t IH]; cbn.
  - split; [intros; repeat split; auto using NoDup_nil|tauto].
  - split.
    + intros N. inversion N; subst. apply IH in H2. destruct H2 as (N1 & N2 & D).
      rewrite in_app_iff in H1. split; [constructor; tauto|]. split; auto.
      intros y [ <- |Hy]; auto.
    + intros (N1 & N2 & D). inversion N1; subst. constructor.
      * rewrite in_app_iff. intros [|]; auto. apply (D x); auto.
      * apply IH. repeat split; auto.
Qed.

Lemma NoDup_map_filter {A B} (f : A -> B) p l : NoDup (map f l) -> NoDup (map f (filter p l)).
Proof.
  induction l as [|x t IH]; cbn; auto. intros N. inversion N; subst.
  destruct (p x); cbn; auto. constructor; auto. intros H. apply H1.
  apply in_map_iff in H. destruct H as (y & <- & Hy). apply filter_In in Hy.
  apply in_map. tauto.
Qed.

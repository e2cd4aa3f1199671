(** Stable sorting. *)
From Coq Require Import List ZArith Bool Permutation Sorted Lia.
From Coq Require Import List.
From Verif Require Import Base CondModel CondBase SetSpec.
Import ListNotations.

Section Order.
Context {A : Type}.
Variable lt : A -> A -> bool.

Definition tied (x y : A) : bool := negb (lt x y) && negb (lt y x).

(** Elements that are tied with one another stay in order. *)
Lemma insert_filter p x l :
  (forall y, In y l -> p x = true -> p y = true -> lt y x = false) ->
  filter p (insert lt x l) = filter p (x :: l).
Proof.
  induction l as [|y l IH]; intros H; cbn [insert]; auto.
  destruct (lt y x) eqn:L; auto.
  assert (I : filter p (insert lt x l) = filter p (x :: l)) by (apply IH; intros; apply H; cbn; auto).
  cbn [filter] in *. rewrite I. destruct (p x) eqn:Px; auto. destruct (p y) eqn:Py; auto.
  rewrite (H y) in L; cbn; auto. discriminate.
Qed.

Lemma sorted_filter p l :
  (forall x y, In x l -> In y l -> p x = true -> p y = true -> lt y x = false) ->
  filter p (sorted lt l) = filter p l.
Proof.
  induction l as [|x l IH]; intros H; auto. cbn [sorted]. rewrite insert_filter.
  - cbn [filter]. rewrite IH; auto. intros. apply H; cbn; auto.
  - intros y I. rewrite sorted_In in I. apply H; cbn; auto.
Qed.

(** Weak orders on the elements of a list *)
Record weak (l : list A) : Prop := mkWeak {
  w_asym : forall x y, In x l -> In y l -> lt x y = true -> lt y x = false;
  w_neg : forall x y z, In x l -> In y l -> In z l -> lt x z = true -> lt x y = true \/ lt y z = true }.

Lemma weak_sub l m : weak l -> (forall x, In x m -> In x l) -> weak m.
Proof. intros [I N] H. constructor; intros; eauto. Qed.

Lemma weak_irr l x : weak l -> In x l -> lt x x = false.
Proof. intros [I _] H. destruct (lt x x) eqn:E; auto. rewrite (I x x) in E; auto. Qed.

Lemma weak_tied l x y z : weak l -> In x l -> In y l -> In z l -> tied x y = true -> tied y z = true -> tied x z = true.
Proof.
  unfold tied. intros [_ N] X Y Z. rewrite !andb_true_iff, !negb_true_iff. intros (A1 & A2) (B1 & B2). split.
  - destruct (lt x z) eqn:E; auto. destruct (N x y z); auto; congruence.
  - destruct (lt z x) eqn:E; auto. destruct (N z y x); auto; congruence.
Qed.

Lemma tied_sym x y : tied x y = tied y x.
Proof. unfold tied. apply andb_comm. Qed.

Lemma tied_refl l x : weak l -> In x l -> tied x x = true.
Proof. intros W I. unfold tied. rewrite (weak_irr l x W I). auto. Qed.

Notation ordered := (StronglySorted (fun x y => lt y x = false)).

Lemma insert_ordered x l : weak (x :: l) -> ordered l -> ordered (insert lt x l).
Proof.
  induction l as [|y l IH]; intros W O; cbn [insert]; [repeat constructor|].
  inversion O; subst. rewrite Forall_forall in H2. destruct W as [As N]. destruct (lt y x) eqn:L.
  - constructor.
    + apply IH; auto. constructor; intros; [apply As|apply N]; cbn in *; tauto.
    + apply Forall_forall. intros z K. apply (Permutation_in _ (insert_perm lt x l)) in K. destruct K as [<-|K]; auto.
      apply As; cbn; auto.
  - constructor; auto. apply Forall_forall. intros z [<-|K]; auto.
    destruct (lt z x) eqn:E; auto. destruct (N z y x) as [F|F]; cbn; auto; try congruence. rewrite H2 in F; auto.
Qed.

Lemma sorted_ordered l : weak l -> ordered (sorted lt l).
Proof.
  induction l as [|x l IH]; intros W; cbn [sorted]; [constructor|]. apply insert_ordered.
  - apply (weak_sub _ _ W). intros y [<-|K]; [left; auto|]. rewrite sorted_In in K. right; auto.
  - apply IH. apply (weak_sub _ _ W). intros; right; auto.
Qed.

Lemma sorted_stable l x : weak l -> In x l -> filter (tied x) (sorted lt l) = filter (tied x) l.
Proof.
  intros W X. apply sorted_filter. intros y z Y Z Ty Tz. rewrite tied_sym in Ty.
  pose proof (weak_tied l y x z W Y X Z Ty Tz) as T. unfold tied in T. apply andb_true_iff in T as (_ & T).
  apply negb_true_iff in T. auto.
Qed.

(** There is only one way to sort. *)
Lemma ordered_unique l m : weak l -> Permutation l m -> ordered l -> ordered m ->
  (forall x, In x l -> filter (tied x) l = filter (tied x) m) -> l = m.
Proof.
  revert m. induction l as [|x l IH]; intros m W P O1 O2 F.
  - apply Permutation_nil in P. auto.
  - destruct m as [|y m]; [apply Permutation_sym, Permutation_nil in P; discriminate|].
    inversion O1; inversion O2; subst. rewrite Forall_forall in *.
    assert (Y : In y (x :: l)) by (apply (Permutation_in _ (Permutation_sym P)); left; auto).
    assert (X : In x (y :: m)) by (apply (Permutation_in _ P); left; auto).
    assert (T : tied x y = true).
    { unfold tied. apply andb_true_iff. rewrite !negb_true_iff. split.
      - destruct X as [->|X]; auto. apply (weak_irr _ _ W). left; auto.
      - destruct Y as [->|Y]; auto. apply (weak_irr _ _ W). left; auto. }
    assert (x = y) as <-.
    { specialize (F x (or_introl eq_refl)). cbn [filter] in F. rewrite T, (tied_refl _ _ W (or_introl eq_refl)) in F. congruence. }
    f_equal. apply IH; auto.
    + apply (weak_sub _ _ W). intros; right; auto.
    + apply Permutation_cons_inv in P. auto.
    + intros z Z. specialize (F z (or_intror Z)). cbn [filter] in F. destruct (tied z x); congruence.
Qed.

End Order.

(** ** The specification *)

Lemma chosen_filter {A} (P : A -> Prop) p l : (forall x, In x l -> (p x = true <-> P x)) -> chosen P l (filter p l).
Proof.
  induction l as [|x l IH]; intros H; cbn; [constructor|].
  pose proof (H x (or_introl eq_refl)). destruct (p x); constructor; try (apply IH; intros; apply H; right; auto).
  - tauto.
  - intros K. apply H0 in K. discriminate.
Qed.

Lemma chosen_fun {A} (P : A -> Prop) l m n : chosen P l m -> chosen P l n -> m = n.
Proof.
  intros H. revert n. induction H; intros n K; inversion K; subst; try contradiction; auto. f_equal. auto.
Qed.

Lemma sorted_by {A} (lt : A -> A -> bool) (R : A -> A -> Prop) l l' :
  (forall x y, In x l -> In y l -> (lt x y = true <-> R x y)) -> weak lt l ->
  Permutation l l' -> StronglySorted (fun x y => lt y x = false) l' ->
  (forall x, In x l -> filter (tied lt x) l' = filter (tied lt x) l) ->
  stable_sort R l l'.
Proof.
  intros E W P O F.
  assert (I : forall x, In x l' -> In x l) by (intros; eapply Permutation_in; [symmetry|]; eauto).
  split; auto. split.
  - clear F P. assert (J : forall x, In x l' -> In x l) by auto. clear I. induction O as [|x l' O IH H]; constructor.
    + apply IH. intros. apply J. right; auto.
    + rewrite Forall_forall in *. intros y Y K. apply E in K; [|apply J; cbn; auto ..]. rewrite H in K; auto. discriminate.
  - intros x X. assert (T : forall y, In y l -> (tied lt x y = true <-> ~ R x y /\ ~ R y x)).
    { intros y Y. unfold tied. rewrite andb_true_iff, !negb_true_iff, <- !not_true_iff_false, (E x y), (E y x) by auto. tauto. }
    exists (filter (tied lt x) l). split; [apply chosen_filter; auto|]. rewrite <- F by auto. apply chosen_filter. auto.
Qed.

Lemma stable_unique {A} (lt : A -> A -> bool) (R : A -> A -> Prop) l l' l'' :
  (forall x y, In x l -> In y l -> (lt x y = true <-> R x y)) -> weak lt l ->
  stable_sort R l l' -> stable_sort R l l'' -> l' = l''.
Proof.
  intros E W (P1 & O1 & F1) (P2 & O2 & F2).
  assert (I1 : forall x, In x l' -> In x l) by (intros x; apply (Permutation_in x (Permutation_sym P1))).
  assert (I2 : forall x, In x l'' -> In x l) by (intros x; apply (Permutation_in x (Permutation_sym P2))).
  assert (O : forall m, (forall x, In x m -> In x l) -> StronglySorted (fun x y => ~ R y x) m -> StronglySorted (fun x y => lt y x = false) m).
  { intros m J K. induction K as [|x m K IH H]; constructor.
    - apply IH. intros. apply J. right; auto.
    - rewrite Forall_forall in *. intros y Y. apply not_true_iff_false. rewrite E by (apply J; cbn; auto). apply H. auto. }
  apply (ordered_unique lt); auto.
  - apply (weak_sub lt _ _ W). auto.
  - rewrite <- P1. auto.
  - intros x X. assert (T : forall y, In y l -> (tied lt x y = true <-> ~ R x y /\ ~ R y x)).
    { intros y Y. unfold tied. rewrite andb_true_iff, !negb_true_iff, <- !not_true_iff_false, (E x y), (E y x) by auto. tauto. }
    destruct (F1 x (I1 _ X)) as (m & M1 & M2), (F2 x (I1 _ X)) as (m' & M1' & M2').
    assert (m' = m) as -> by (apply (chosen_fun _ _ _ _ M1' M1)).
    transitivity m.
    + apply (chosen_fun _ l' _ _ (chosen_filter _ (tied lt x) l' (fun y Y => T y (I1 y Y))) M2).
    + symmetry. apply (chosen_fun _ l'' _ _ (chosen_filter _ (tied lt x) l'' (fun y Y => T y (I2 y Y))) M2').
Qed.

(** A sorted list is sorted. *)
Lemma stable_again {A} (lt : A -> A -> bool) (R : A -> A -> Prop) l l' :
  (forall x y, In x l -> In y l -> (lt x y = true <-> R x y)) -> weak lt l ->
  stable_sort R l l' -> stable_sort R l' l'.
Proof.
  intros E W (P & O & F). assert (I : forall x, In x l' -> In x l) by (intros; eapply Permutation_in; [symmetry|]; eauto).
  split; auto. split; auto. intros x X. destruct (F x (I _ X)) as (m & _ & M). eauto.
Qed.

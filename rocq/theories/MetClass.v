(** Proofs about the classes: frequencies, predictions, success rate. *)
From Coq Require Import List ZArith QArith Qabs Bool String Ascii Lia Lqa.
From Coq Require Import List.
From Coq Require Import Sorting.Sorted Sorting.Permutation.
From Verif Require Import Base Num Arith CondModel CondSpec CondBase MetModel MetSpec MetReg.
Import ListNotations.
Open Scope Z_scope.

(** ** Classes *)

Lemma neqb_same x y : neqb x y = true <-> x <> NaN /\ same_num x y.
Proof.
  destruct x, y; cbn; split; intros H; try discriminate; try tauto; try (split; [discriminate|]; auto).
  - apply Qeq_bool_iff; auto.
  - destruct H as (_ & H). apply Qeq_bool_iff. auto.
Qed.

Lemma label_eqb_spec a b : label_eqb a b = true <-> same_class a b.
Proof.
  destruct a as [x|s], b as [y|t]; cbn [label_eqb]; split; intros H; try discriminate; try (inversion H; fail).
  - apply neqb_same in H. constructor; tauto.
  - inversion H; subst. apply neqb_same; auto.
  - apply seqb_spec in H. subst. constructor.
  - inversion H; subst. apply seqb_spec; auto.
Qed.

Lemma label_eqb_false a b : label_eqb a b = false <-> ~ same_class a b.
Proof. rewrite <- label_eqb_spec. destruct (label_eqb a b); split; congruence. Qed.

Lemma same_class_sym a b : same_class a b -> same_class b a.
Proof.
  destruct 1; constructor.
  - intros ->. destruct x; cbn in H0; auto.
  - apply same_num_sym; auto.
Qed.

Lemma same_class_trans a b c : same_class a b -> same_class b c -> same_class a c.
Proof. destruct 1; intros H'; inversion H'; subst; constructor; auto. eapply same_num_trans; eauto. Qed.

Lemma same_class_dec a b : same_class a b \/ ~ same_class a b.
Proof. destruct (label_eqb a b) eqn:E; [left; apply label_eqb_spec|right; apply label_eqb_false]; auto. Qed.

(** Elements that are classes. *)
Definition known (c : label) : Prop := c <> LNum NaN.

Lemma known_refl c : known c -> same_class c c.
Proof.
  intros K. destruct c as [x|s]; constructor; [intros ->; apply K; auto|apply same_num_refl].
Qed.

Lemma same_known a b : same_class a b -> known a /\ known b.
Proof.
  destruct 1; unfold known; split; intros E; try discriminate; injection E as ->; auto.
  destruct x; cbn in H0; auto.
Qed.

Lemma is_nan_known c : is_nan_label c = true <-> c = LNum NaN.
Proof. destruct c as [[]|]; cbn; split; intros; try discriminate; auto. Qed.

Lemma known_nan c : is_nan_label c = false <-> known c.
Proof. unfold known. rewrite <- is_nan_known. destruct (is_nan_label c); split; congruence. Qed.

(** ** Counting *)

Lemma tally_unique {A} (P : A -> Prop) l j k : tally P l j -> tally P l k -> j = k.
Proof.
  intros J. revert k. induction J; intros k' K; inversion K; subst; auto; try contradiction.
Qed.

Lemma tally_app {A} (P : A -> Prop) l x k :
  tally P l k -> (P x -> tally P (l ++ [x]) (S k)) /\ (~ P x -> tally P (l ++ [x]) k).
Proof.
  induction 1 as [|y l k Y T IH|y l k Y T IH]; cbn [app].
  - split; intros; repeat constructor; auto.
  - destruct IH. split; intros; apply tally_yes; auto.
  - destruct IH. split; intros; apply tally_no; auto.
Qed.

Lemma tally_filter {A} (P : A -> Prop) (f : A -> bool) l :
  (forall x, In x l -> (f x = true <-> P x)) -> tally P l (List.length (filter f l)).
Proof.
  induction l as [|x t IH]; intros H; [constructor|]. cbn [filter].
  assert (I : tally P t (List.length (filter f t))) by (apply IH; intros; apply H; right; auto).
  specialize (H x (or_introl eq_refl)). destruct (f x) eqn:E.
  - apply tally_yes; auto. apply H; auto.
  - apply tally_no; auto. intros X. apply H in X. congruence.
Qed.

Lemma tally_le {A} (P : A -> Prop) l k : tally P l k -> (k <= List.length l)%nat.
Proof. induction 1; cbn; lia. Qed.

Lemma tally_zero {A} (P : A -> Prop) l : tally P l 0 -> forall x, In x l -> ~ P x.
Proof.
  intros T. remember O as n. induction T; intros y I; try discriminate; [contradiction|]. destruct I as [<-|I]; auto.
Qed.

Lemma tally_pos {A} (P : A -> Prop) l k x : tally P l k -> In x l -> P x -> (0 < k)%nat.
Proof. intros T I X. destruct k; [|lia]. exfalso. apply (tally_zero P l T x); auto. Qed.

Lemma tally_all {A} (P : A -> Prop) l k : tally P l k -> (k = List.length l <-> forall x, In x l -> P x).
Proof.
  induction 1 as [|x l k X T IH|x l k X T IH]; cbn [List.length].
  - split; auto. intros _ x [].
  - split.
    + intros E y [<-|H]; auto. apply IH; auto.
    + intros H. f_equal. apply IH. intros; apply H; right; auto.
  - apply tally_le in T. split; [lia|]. intros H. exfalso. apply X, H. left; auto.
Qed.

Lemma tally_ext {A B} (P : A -> Prop) (Q : B -> Prop) l l' :
  Forall2 (fun a b => P a <-> Q b) l l' -> forall k, tally P l k -> tally Q l' k.
Proof.
  induction 1 as [|a b l l' H F IH]; intros k T; inversion T; subst; try constructor; auto; try tauto.
  all: first [apply tally_yes; tauto || (apply tally_yes; [tauto|auto])|apply tally_no; [tauto|auto]].
Qed.

Lemma tally_exists {A} (P : A -> Prop) l : (forall x, P x \/ ~ P x) -> exists k, tally P l k.
Proof.
  intros D. induction l as [|x t (k & T)]; [exists O; constructor|].
  destruct (D x); [exists (S k)|exists k]; constructor; auto.
Qed.

(** What a Counter holds. *)
Definition counts (l : list label) (d : list (label * nat)) : Prop :=
  (forall k n, In (k, n) d -> In k l /\ tally (same_class k) l n /\ (0 < n)%nat) /\
  (forall x, In x l -> exists k n, In (k, n) d /\ same_class x k) /\
  ForallOrdPairs (fun a b => ~ same_class (fst a) (fst b)) d /\
  list_sum (map snd d) = List.length l.

Lemma count_one_cases x d :
  (exists a k n b, d = a ++ (k, n) :: b /\ same_class x k /\
     (forall k' m, In (k', m) a -> ~ same_class x k') /\ count_one label_eqb x d = a ++ (k, S n) :: b) \/
  ((forall k' m, In (k', m) d -> ~ same_class x k') /\ count_one label_eqb x d = d ++ [(x, 1%nat)]).
Proof.
  induction d as [|(k, n) t IH]; cbn [count_one].
  - right. split; [intros ? ? []|auto].
  - destruct (label_eqb x k) eqn:E.
    + left. exists [], k, n, t. apply label_eqb_spec in E. split; [auto|]. split; [auto|]. split; [intros ? ? []|auto].
    + apply label_eqb_false in E. destruct IH as [(a & k0 & n0 & b & -> & S & N & ->)|(N & ->)].
      * left. exists ((k, n) :: a), k0, n0, b. repeat split; auto. intros k' m [X|X]; [injection X as <- <-; auto|eauto].
      * right. split; auto. intros k' m [X|X]; [injection X as <- <-; auto|eauto].
Qed.

Lemma FOP_app {A} (R : A -> A -> Prop) a b :
  ForallOrdPairs R (a ++ b) <-> ForallOrdPairs R a /\ ForallOrdPairs R b /\ (forall x y, In x a -> In y b -> R x y).
Proof.
  induction a as [|x a IH]; cbn [app].
  - split; [intros H; repeat split; auto; [constructor|intros ? ? []]|tauto].
  - split.
    + intros H. inversion H as [|? ? F P]; subst. apply IH in P as (P1 & P2 & P3). apply Forall_app in F as (F1 & F2).
      repeat split; auto; [constructor; auto|]. intros u v [<-|U] V; auto. rewrite Forall_forall in F2. auto.
    + intros (H1 & H2 & H3). inversion H1; subst. constructor.
      * apply Forall_app. split; auto. apply Forall_forall. intros y Hy. apply H3; auto. left; auto.
      * apply IH. repeat split; auto. intros; apply H3; auto. right; auto.
Qed.

Lemma counter_counts l : Forall known l -> counts l (counter label_eqb l).
Proof.
  induction l as [|x l IH] using rev_ind; intros K.
  - split; [intros ? ? []|]. split; [intros ? []|]. split; [constructor|auto].
  - apply Forall_app in K as (K & Kx). inversion Kx as [|? ? Kx' _]; subst.
    destruct (IH K) as (C1 & C2 & C3 & C4). unfold counter. rewrite fold_left_app. cbn [fold_left].
    fold (counter label_eqb l). set (d := counter label_eqb l) in *. clearbody d.
    assert (R := known_refl x Kx').
    destruct (count_one_cases x d) as [(a & k & n & b & -> & S & N & ->)|(N & ->)].
    + apply FOP_app in C3 as (Pa & Pb & Pab). inversion Pb as [|? ? Fb Pb']; subst.
      destruct (C1 k n ltac:(apply in_app_iff; right; left; auto)) as (Ik & Tk & Pk).
      repeat split.
      * apply in_app_iff. apply in_app_iff in H as [H|[H|H]]; left.
        -- apply (C1 k0 n0). apply in_app_iff; auto.
        -- injection H as <- <-. auto.
        -- apply (C1 k0 n0). apply in_app_iff; right; right; auto.
      * apply in_app_iff in H as [H|[H|H]].
        -- destruct (C1 k0 n0 ltac:(apply in_app_iff; auto)) as (_ & T & _).
           apply (proj2 (tally_app _ l x n0 T)). intros X. apply (N k0 n0 H). apply same_class_sym; auto.
        -- injection H as <- <-. apply (proj1 (tally_app _ l x n Tk)). apply same_class_sym; auto.
        -- destruct (C1 k0 n0 ltac:(apply in_app_iff; right; right; auto)) as (_ & T & _).
           apply (proj2 (tally_app _ l x n0 T)). intros X.
           rewrite Forall_forall in Fb. apply (Fb (k0, n0) H). cbn [fst].
           apply same_class_trans with x; auto using same_class_sym.
      * apply in_app_iff in H as [H|[H|H]].
        -- apply (C1 k0 n0 ltac:(apply in_app_iff; auto)).
        -- injection H as <- <-. lia.
        -- apply (C1 k0 n0 ltac:(apply in_app_iff; right; right; auto)).
      * intros z Hz. apply in_app_iff in Hz as [Hz|[<-|[]]].
        -- destruct (C2 z Hz) as (k0 & n0 & I & E). apply in_app_iff in I as [I|[I|I]].
           ++ exists k0, n0. split; auto. apply in_app_iff; auto.
           ++ injection I as <- <-. exists k, (Datatypes.S n). split; auto. apply in_app_iff; right; left; auto.
           ++ exists k0, n0. split; auto. apply in_app_iff; right; right; auto.
        -- exists k, (Datatypes.S n). split; auto. apply in_app_iff; right; left; auto.
      * apply FOP_app. repeat split; auto.
        -- constructor; auto.
        -- intros u v U [<-|V]; cbn [fst]; [apply (Pab u (k, n) U); left; auto|apply Pab; auto; right; auto].
      * clear -C4. rewrite app_length, map_app, list_sum_app. rewrite map_app, list_sum_app in C4. cbn in *. lia.
    + repeat split.
      * apply in_app_iff. apply in_app_iff in H as [H|[H|[]]].
        -- left. apply (C1 k n H).
        -- injection H as <- <-. right; left; auto.
      * apply in_app_iff in H as [H|[H|[]]].
        -- destruct (C1 k n H) as (_ & T & _). apply (proj2 (tally_app _ l x n T)).
           intros X. apply (N k n H). apply same_class_sym; auto.
        -- injection H as <- <-. assert (Z : tally (same_class x) l 0).
           { clear -C2 N. assert (H : forall y, In y l -> ~ same_class x y).
             { intros y Hy X. destruct (C2 y Hy) as (k & n & I & S). apply (N k n I).
               apply same_class_trans with y; auto. }
             clear C2. induction l as [|y t IH]; [constructor|]. apply tally_no; [apply H; left; auto|].
             apply IH. intros; apply H; right; auto. }
           apply (proj1 (tally_app _ l x 0 Z)). auto.
      * apply in_app_iff in H as [H|[H|[]]].
        -- apply (C1 k n H).
        -- injection H as <- <-. lia.
      * intros z Hz. apply in_app_iff in Hz as [Hz|[<-|[]]].
        -- destruct (C2 z Hz) as (k0 & n0 & I & E). exists k0, n0. split; auto. apply in_app_iff; auto.
        -- exists x, 1%nat. split; auto. apply in_app_iff; right; left; auto.
      * apply FOP_app. repeat split; auto; [repeat constructor|].
        intros (k, n) v U [<-|[]]. cbn [fst]. intros X. apply (N k n U). apply same_class_sym; auto.
      * rewrite app_length, map_app, list_sum_app. cbn. lia.
Qed.

(** ** Order of the classes *)

Lemma nltb_lt x y : nltb x y = true <-> nlt x y.
Proof. apply nltb_spec. Qed.

Lemma label_ltb_spec a b : label_ltb a b = true <-> class_below a b.
Proof.
  destruct a, b; cbn [label_ltb]; split; intros H; try discriminate; try (inversion H; fail).
  - constructor. apply nltb_lt; auto.
  - inversion H; subst. apply nltb_lt; auto.
  - constructor; auto.
  - inversion H; auto.
Qed.

Lemma nlt_trans x y z : nlt x y -> nlt y z -> nlt x z.
Proof. destruct x, y, z; cbn; try tauto; try lra. Qed.

Lemma class_below_trans a b c : class_below a b -> class_below b c -> class_below a c.
Proof.
  destruct 1; intros H'; inversion H'; subst; constructor.
  - eapply nlt_trans; eauto.
  - eapply str_ltb_trans; eauto.
Qed.

Lemma class_below_same a b c : class_below a b -> same_class b c -> class_below a c.
Proof.
  destruct 1; intros H'; inversion H'; subst; constructor; auto.
  destruct x, y, y0; cbn in *; try tauto; try lra.
Qed.

Lemma class_total a b : known a -> known b -> is_text a = is_text b ->
  same_class a b \/ class_below a b \/ class_below b a.
Proof.
  intros Ka Kb E. destruct a as [x|s], b as [y|t]; try discriminate.
  - destruct x as [| |p|], y as [| |q|]; try (exfalso; apply Ka; reflexivity); try (exfalso; apply Kb; reflexivity);
      try (right; left; constructor; exact I); try (right; right; constructor; exact I);
      try (left; constructor; [discriminate|exact I]).
    destruct (Qlt_le_dec p q); [right; left; constructor; auto|].
    destruct (Qlt_le_dec q p); [right; right; constructor; auto|].
    left. constructor; [discriminate|]. cbn. apply Qle_antisym; auto.
  - destruct (string_dec s t) as [->|N]; [left; constructor|].
    destruct (str_ltb_total s t N); [right; left|right; right]; constructor; auto.
Qed.

Lemma FOP_In {A} (R : A -> A -> Prop) l x y : ForallOrdPairs R l -> In x l -> In y l -> x = y \/ R x y \/ R y x.
Proof. intros F. apply ForallOrdPairs_In; auto. Qed.

Lemma FOP_map {A B} (R : B -> B -> Prop) (f : A -> B) l :
  ForallOrdPairs (fun a b => R (f a) (f b)) l -> ForallOrdPairs R (map f l).
Proof.
  induction 1; cbn [map]; constructor; auto. apply Forall_forall. intros y Hy.
  apply in_map_iff in Hy as (z & <- & Hz). rewrite Forall_forall in H. auto.
Qed.

Lemma FOP_NoDup {A} (R : A -> A -> Prop) l : (forall x, In x l -> ~ R x x) -> ForallOrdPairs R l -> NoDup l.
Proof.
  intros I F. induction F; constructor.
  - intros X. rewrite Forall_forall in H. apply (I a); [left; auto|auto].
  - apply IHF. intros; apply I; right; auto.
Qed.

Lemma sorted_map_all {A B} (f : A -> B) lta ltb l :
  (forall x y, In x l -> In y l -> ltb (f x) (f y) = lta x y) -> sorted ltb (map f l) = map f (sorted lta l).
Proof.
  induction l as [|x t IH]; cbn [map sorted]; intros H; auto. rewrite IH by (intros; apply H; right; auto).
  apply insert_map. intros y Hy. apply sorted_In in Hy. apply H; [right|left]; auto.
Qed.

(** ** Frequencies *)

Definition share (l : list label) (p : label * nat) : label * Q :=
  (fst p, inject_Z (Z.of_nat (snd p)) / size l)%Q.
Definition by_class {B} (p q : label * B) : bool := label_ltb (fst p) (fst q).
Definition shares (l : list label) : list (label * Q) := map (share l) (counter label_eqb l).

Lemma one_kind_known l : classes l -> Forall known l.
Proof.
  intros [C|C]; apply Forall_forall; intros c Hc; destruct (C c Hc) as (x & H).
  - destruct H as (-> & N). intros E. injection E as ->. auto.
  - subst. discriminate.
Qed.

Lemma one_kind_text l : classes l -> forall a b, In a l -> In b l -> is_text a = is_text b.
Proof.
  intros [C|C] a b Ha Hb; destruct (C a Ha) as (x & Ea), (C b Hb) as (y & Eb).
  - destruct Ea as (-> & _), Eb as (-> & _). auto.
  - subst. auto.
Qed.

Lemma sorted_keys_below {B} (l : list label) (d : list (label * B)) :
  classes l -> (forall c x, In (c, x) d -> In c l) ->
  ForallOrdPairs (fun a b => ~ same_class (fst a) (fst b)) d ->
  StronglySorted class_below (map fst (sorted by_class d)).
Proof.
  intros C I F. assert (K := one_kind_known l C). rewrite Forall_forall in K.
  assert (S : StronglySorted (fun a b => by_class a b = true) (sorted by_class d)).
  { apply sorted_sorted.
    - intros x y z A B'. apply label_ltb_spec in A, B'. apply label_ltb_spec. eapply class_below_trans; eauto.
    - apply (FOP_NoDup _ _) in F; auto. intros (c, x) H N. apply N. apply known_refl. apply K. eapply I; eauto.
    - intros (a, u) (b, v) Ha Hb N. unfold by_class. cbn [fst]. rewrite !label_ltb_spec.
      assert (Ia := I a u Ha). assert (Ib := I b v Hb).
      destruct (class_total a b) as [S|S]; auto. 
      + apply (one_kind_text l); auto.
      + exfalso. destruct (FOP_In _ _ _ _ F Ha Hb) as [E|[E|E]]; cbn [fst] in *; [contradiction|auto|].
        apply E. apply same_class_sym; auto. }
  induction S as [|x t S IH H]; cbn [map]; constructor; auto.
  apply Forall_forall. intros c Hc. apply in_map_iff in Hc as (y & <- & Hy).
  rewrite Forall_forall in H. apply label_ltb_spec. apply H. auto.
Qed.

Lemma shares_frequencies l : classes l -> l <> [] -> frequencies l (sorted by_class (shares l)).
Proof.
  intros C N. assert (K := one_kind_known l C). destruct (counter_counts l K) as (C1 & C2 & C3 & C4).
  assert (P := size_pos l N). split; [|split].
  - apply (sorted_keys_below l); auto.
    + intros c x H. apply in_map_iff in H as ((k, n) & E & H). injection E as <- <-. apply (C1 k n H).
    + apply (FOP_map (fun a b => ~ same_class (fst a) (fst b)) (share l)). auto.
  - intros d Hd. destruct (C2 d Hd) as (k & n & I & S). exists k, (inject_Z (Z.of_nat n) / size l)%Q. split; auto.
    apply sorted_In. apply in_map_iff. exists (k, n). auto.
  - intros c f H. apply sorted_In in H. apply in_map_iff in H as ((k, n) & E & H). injection E as <- <-.
    destruct (C1 k n H) as (_ & T & Z). exists n. repeat split; auto. field. lra.
Qed.

Lemma total_shares l : classes l -> l <> [] -> (total (map snd (sorted by_class (shares l))) == 1)%Q.
Proof.
  intros C N. destruct (counter_counts l (one_kind_known l C)) as (_ & _ & _ & S). assert (P := size_pos l N).
  assert (X : forall a b, Permutation a b -> (total a == total b)%Q).
  { clear. induction 1; [reflexivity| | |].
    - rewrite !total_cons, IHPermutation. reflexivity.
    - rewrite !total_cons. ring.
    - rewrite IHPermutation1. auto. }
  rewrite (X _ _ (Permutation_map snd (sorted_perm by_class (shares l)))).
  assert (Y : forall d, (total (map snd (map (share l) d)) == inject_Z (Z.of_nat (list_sum (map snd d))) / size l)%Q).
  { induction d as [|(k, n) t IH]; cbn [map].
    - cbn. field. lra.
    - rewrite total_cons, IH. cbn [list_sum fold_right snd share].
      change (fold_right Nat.add 0%nat (map snd t)) with (list_sum (map snd t)).
      unfold list_sum at 2. cbn [fold_right]. fold (list_sum (map snd t)).
      rewrite Nat2Z.inj_add, inject_Z_plus. field. lra. }
  unfold shares. rewrite Y, S. fold (size l). field. lra.
Qed.

Lemma share_div (l : list label) (p : label * nat) : l <> [] ->
  ndiv (nat_num (snd p)) (nat_num (List.length l)) = Fin (inject_Z (Z.of_nat (snd p)) / size l).
Proof. intros N. unfold nat_num. fold (size l). apply ndiv_fin. assert (P := size_pos l N). lra. Qed.

Lemma counter_nil l : l <> [] -> counter label_eqb l <> [].
Proof.
  intros N. destruct l as [|x t _] using rev_ind; [congruence|]. unfold counter. rewrite fold_left_app.
  cbn [fold_left]. destruct (fold_left _ t []) as [|(k, n) d]; [discriminate|]. cbn [count_one].
  destruct (label_eqb x k); discriminate.
Qed.

Definition numeric (c : label) : Prop := exists x, c = LNum x /\ x <> NaN.

Lemma probabilities_numbers repr act y l :
  picks act y l -> l <> [] -> (forall c, In c l -> numeric c) ->
  class_probabilities repr act y =
  Ok (PNumbers (map (fun r => (the_number (fst r), Fin (snd r))) (sorted by_class (shares l)))).
Proof.
  intros P N H. unfold class_probabilities. rewrite (extract_picks act y l P). cbn [rbind].
  assert (T : existsb is_text l = false).
  { apply existsb_false. intros c Hc. destruct (H c Hc) as (x & -> & _). auto. }
  rewrite T. destruct (map _ (counter label_eqb l)) as [|r rs] eqn:E.
  { apply map_eq_nil in E. exfalso. apply (counter_nil l N E). }
  rewrite <- E. clear E r rs. do 2 f_equal. rewrite map_map.
  rewrite <- (sorted_map_all _ by_class (fun p q => before (fst p) (fst q))).
  - f_equal. unfold shares. rewrite map_map. apply map_ext. intros (k, n). cbn [fst snd share].
    pose proof (share_div l (k, n) N) as D. cbn [snd] in D. rewrite D. auto.
  - assert (K : forall r, In r (shares l) -> numeric (fst r)).
    { assert (F : Forall known l) by (apply one_kind_known; left; exact H).
      destruct (counter_counts l F) as (C1 & _). intros r Hr. apply in_map_iff in Hr as ((k, n) & <- & Hr).
      cbn [fst share]. apply H. apply (C1 k n Hr). }
    intros r s Hr Hs. cbn [fst]. unfold by_class. destruct (K r Hr) as (a & -> & Na), (K s Hs) as (b & -> & Nb).
    cbn [the_number label_ltb]. destruct a, b; auto; try (exfalso; apply Na; reflexivity); try (exfalso; apply Nb; reflexivity).
Qed.

Lemma probabilities_texts repr act y l :
  picks act y l -> l <> [] -> (forall c, In c l -> exists s, c = LText s) ->
  class_probabilities repr act y =
  Ok (PTexts (map (fun r => (word repr (fst r), repr (Fin (snd r)))) (sorted by_class (shares l)))).
Proof.
  intros P N H. unfold class_probabilities. rewrite (extract_picks act y l P). cbn [rbind].
  assert (T : existsb is_text l = true).
  { destruct l as [|c t]; [congruence|]. cbn [existsb]. destruct (H c (or_introl eq_refl)) as (s & ->). auto. }
  rewrite T. destruct (map _ (counter label_eqb l)) as [|r rs] eqn:E.
  { apply map_eq_nil in E. exfalso. apply (counter_nil l N E). }
  rewrite <- E. clear E r rs. do 2 f_equal. rewrite map_map.
  rewrite <- (sorted_map_all _ by_class (fun p q => str_ltb (fst p) (fst q))).
  - f_equal. unfold shares. rewrite map_map. apply map_ext. intros (k, n). cbn [fst snd share].
    pose proof (share_div l (k, n) N) as D. cbn [snd] in D. rewrite D. auto.
  - assert (K : forall r, In r (shares l) -> exists s, fst r = LText s).
    { assert (F : Forall known l) by (apply one_kind_known; right; exact H).
      destruct (counter_counts l F) as (C1 & _). intros r Hr. apply in_map_iff in Hr as ((k, n) & <- & Hr).
      cbn [fst share]. apply H. apply (C1 k n Hr). }
    intros r s Hr Hs. cbn [fst]. unfold by_class. destruct (K r Hr) as (a & ->), (K s Hs) as (b & ->). auto.
Qed.

Lemma frequencies_numbers repr act y l :
  picks act y l -> l <> [] -> (forall c, In c l -> exists x, c = LNum x /\ x <> NaN) ->
  exists out rows, class_probabilities repr act y = Ok (PNumbers out) /\
    Forall2 (fun o r => fst r = LNum (fst o) /\ snd o = Fin (snd r)) out rows /\
    frequencies l rows /\ (total (map snd rows) == 1)%Q.
Proof.
  intros P N H. eexists. exists (sorted by_class (shares l)).
  split; [apply (probabilities_numbers repr act y l P N H)|]. assert (C : classes l) by (left; auto).
  split; [|split; [apply shares_frequencies|apply total_shares]; auto].
  assert (K : forall r, In r (sorted by_class (shares l)) -> exists x, fst r = LNum x).
  { intros r Hr. apply sorted_In in Hr. apply in_map_iff in Hr as ((k, n) & <- & Hr).
    destruct (counter_counts l (one_kind_known l C)) as (C1 & _). cbn [fst share].
    destruct (H k) as (x & -> & _); [apply (C1 k n Hr)|eauto]. }
  induction (sorted by_class (shares l)) as [|r t IH]; cbn [map]; constructor.
  - cbn [fst snd]. split; auto. destruct (K r (or_introl eq_refl)) as (x & ->). auto.
  - apply IH. intros; apply K; right; auto.
Qed.

Lemma frequencies_texts repr act y l :
  picks act y l -> l <> [] -> (forall c, In c l -> exists s, c = LText s) ->
  exists out rows, class_probabilities repr act y = Ok (PTexts out) /\
    Forall2 (fun o r => fst r = LText (fst o) /\ snd o = repr (Fin (snd r))) out rows /\
    frequencies l rows /\ (total (map snd rows) == 1)%Q.
Proof.
  intros P N H. eexists. exists (sorted by_class (shares l)).
  split; [apply (probabilities_texts repr act y l P N H)|]. assert (C : classes l) by (right; auto).
  split; [|split; [apply shares_frequencies|apply total_shares]; auto].
  assert (K : forall r, In r (sorted by_class (shares l)) -> exists x, fst r = LText x).
  { intros r Hr. apply sorted_In in Hr. apply in_map_iff in Hr as ((k, n) & <- & Hr).
    destruct (counter_counts l (one_kind_known l C)) as (C1 & _). cbn [fst share].
    destruct (H k) as (x & ->); [apply (C1 k n Hr)|eauto]. }
  induction (sorted by_class (shares l)) as [|r t IH]; cbn [map]; constructor.
  - cbn [fst snd]. split; auto. destruct (K r (or_introl eq_refl)) as (x & ->). auto.
  - apply IH. intros; apply K; right; auto.
Qed.

Lemma no_point repr act (y : list label) : picks act y [] -> class_probabilities repr act y = Err EIndex.
Proof. intros P. unfold class_probabilities. rewrite (extract_picks act y [] P). auto. Qed.

(** ** Most frequent class *)

Lemma tally_same l a b j : same_class a b -> tally (same_class a) l j -> tally (same_class b) l j.
Proof.
  intros S T. induction T as [|x l k X T IH|x l k X T IH]; constructor; auto.
  - apply same_class_trans with a; auto using same_class_sym.
  - intros Y. apply X. apply same_class_trans with b; auto.
Qed.

Lemma tally_witness l c k : tally (same_class c) l k -> (0 < k)%nat -> exists d, In d l /\ same_class d c.
Proof.
  induction 1 as [|x l k X T IH|x l k X T IH]; intros Z; [lia| |].
  - exists x. split; [left; auto|apply same_class_sym; auto].
  - destruct (IH Z) as (d & I & S). exists d. split; auto. right; auto.
Qed.

Lemma share_order (f g s : Q) j k : (0 < s)%Q -> (f * s == inject_Z (Z.of_nat k))%Q -> (g * s == inject_Z (Z.of_nat j))%Q ->
  ((g < f)%Q -> (j < k)%nat) /\ ((g <= f)%Q -> (j <= k)%nat).
Proof.
  intros P F G. split; intros H.
  - assert (X : (g * s < f * s)%Q) by (apply Qmult_lt_r; auto). rewrite F, G, <- Zlt_Qlt in X. lia.
  - assert (X : (g * s <= f * s)%Q) by (apply Qmult_le_r; auto). rewrite F, G, <- Zle_Qle in X. lia.
Qed.

Lemma majority_first l rows pre c f post :
  l <> [] -> frequencies l rows -> rows = pre ++ (c, f) :: post ->
  (forall d g, In (d, g) pre -> (g < f)%Q) -> (forall d g, In (d, g) post -> (g <= f)%Q) -> majority l c.
Proof.
  intros N (S & A & B) E Pre Post. assert (P := size_pos l N).
  destruct (B c f) as (k & T & Z & F); [rewrite E; apply in_app_iff; right; left; auto|].
  split; [eapply tally_witness; eauto|]. exists k. split; auto. intros d j Hd Td.
  destruct (A d Hd) as (c' & g & I & Sd). destruct (B c' g I) as (j' & T' & _ & G).
  assert (j = j') as -> by (apply (tally_unique (same_class c') l); auto; apply (tally_same l d c'); auto).
  destruct (share_order f g (size l) j' k P F G) as (O1 & O2).
  rewrite E in I. apply in_app_iff in I as [I|[I|I]].
  - left. apply O1. eapply Pre; eauto.
  - injection I as <- <-. right. split; [apply (tally_unique (same_class c) l); auto|left; apply same_class_sym; auto].
  - assert (LE := O2 (Post c' g I)). destruct (Nat.eq_dec j' k) as [->|NE]; [|left; lia]. right. split; auto. right.
    apply class_below_same with c'; [|apply same_class_sym; auto].
    rewrite E, map_app in S. cbn [map fst] in S. clear -S I.
    induction pre as [|x t IH]; cbn [map app] in S; inversion S; subst; auto.
    rewrite Forall_forall in H2. apply H2. apply in_map_iff. exists (c', g). auto.
Qed.

(** The first maximum. *)
Lemma first_max_spec {A} (lt : A -> A -> bool) (le : A -> A -> Prop) :
  (forall x, le x x) -> (forall x y z, le x y -> le y z -> le x z) ->
  (forall x y, lt x y = true -> le x y) -> (forall x y, lt x y = false -> le y x) ->
  forall l x, In (first_max lt x l) (x :: l) /\ forall y, In y (x :: l) -> le y (first_max lt x l).
Proof.
  intros R T Lt Ge. induction l as [|z t IH]; intros x; cbn [first_max].
  - split; [left; auto|]. intros y [<-|[]]. auto.
  - destruct (lt x z) eqn:E.
    + destruct (IH z) as (I & M). split; [right; auto|]. intros y [<-|H]; auto.
      apply T with z; [auto|]. apply M. left; auto.
    + destruct (IH x) as (I & M). split.
      * destruct I as [I|I]; [left; auto|right; right; auto].
      * intros y [<-|[<-|H]]; [apply M; left; auto| |apply M; right; auto].
        apply T with x; [auto|]. apply M. left; auto.
Qed.

Lemma find_row_spec {A B} (eqb : B -> B -> bool) m (rows : list (A * B)) :
  (exists r, In r rows /\ eqb (snd r) m = true) ->
  exists pre c p post, rows = pre ++ (c, p) :: post /\ eqb p m = true /\
    (forall r, In r pre -> eqb (snd r) m = false) /\ find_row eqb m rows = Ok c.
Proof.
  induction rows as [|(c, p) t IH]; intros (r & I & E); [contradiction|]. cbn [find_row].
  destruct (eqb p m) eqn:Em.
  - exists [], c, p, t. repeat split; auto. intros ? [].
  - destruct I as [<-|I]; [cbn in E; congruence|].
    destruct IH as (pre & c' & p' & post & -> & E' & H & F); [eauto|].
    exists ((c, p) :: pre), c', p', post. repeat split; auto. intros r' [<-|H']; auto.
Qed.

Lemma split_map {A B} (f : A -> B) l pre x post : map f l = pre ++ x :: post ->
  exists p y q, l = p ++ y :: q /\ pre = map f p /\ x = f y /\ post = map f q.
Proof.
  revert pre. induction l as [|z t IH]; intros [|w pre] E; cbn in E; try discriminate.
  - injection E as <- <-. exists [], z, t. auto.
  - injection E as <- E. destruct (IH pre E) as (p & y & q & -> & -> & -> & ->). exists (z :: p), y, q. auto.
Qed.

Lemma first_max_map {A B} (f : A -> B) lta ltb l : forall x,
  (forall a b, In a (x :: l) -> In b (x :: l) -> ltb (f a) (f b) = lta a b) ->
  first_max ltb (f x) (map f l) = f (first_max lta x l).
Proof.
  induction l as [|z t IH]; intros x H; cbn [map first_max]; auto.
  rewrite H; [|left; auto|right; left; auto]. destruct (lta x z); apply IH.
  - intros a b Ha Hb. apply H; right; auto.
  - intros a b [<-|Ha] [<-|Hb]; apply H; cbn; auto.
Qed.

Lemma qltb_false x y : qltb x y = false -> (y <= x)%Q.
Proof. intros E. destruct (Qlt_le_dec x y) as [L|]; auto. apply qltb_spec in L. congruence. Qed.

(** Selection of the first row of maximal frequency. *)
Lemma select {A B} (lt eqb : B -> B -> bool) (name : label -> A) (show : Q -> B) l rows c0 f0 t :
  l <> [] -> frequencies l rows -> rows = (c0, f0) :: t ->
  (forall r s, In r rows -> In s rows -> lt (show (snd r)) (show (snd s)) = qltb (snd r) (snd s)) ->
  (forall r s, In r rows -> In s rows -> eqb (show (snd r)) (show (snd s)) = true <-> (snd r == snd s)%Q) ->
  exists c, find_row eqb (first_max lt (show f0) (map snd (map (fun r => (name (fst r), show (snd r))) t)))
      (map (fun r => (name (fst r), show (snd r))) rows) = Ok (name c) /\ In c (map fst rows) /\ majority l c.
Proof.
  intros N F E LT EQ.
  assert (X : map snd (map (fun r => (name (fst r), show (snd r))) t) = map show (map snd t)) by (rewrite !map_map; auto).
  rewrite X. rewrite (first_max_map show qltb lt).
  2:{ intros a b Ha Hb. change (f0 :: map snd t) with (map snd ((c0, f0) :: t)) in Ha, Hb. rewrite <- E in Ha, Hb.
      apply in_map_iff in Ha as (r & <- & Hr), Hb as (s & <- & Hs). auto. }
  destruct (first_max_spec qltb Qle Qle_refl Qle_trans
    (fun x y h => Qlt_le_weak _ _ (proj1 (qltb_spec x y) h)) qltb_false (map snd t) f0) as (I & M).
  set (m := first_max qltb f0 (map snd t)) in *. clearbody m.
  change (f0 :: map snd t) with (map snd ((c0, f0) :: t)) in *.
  rewrite <- E in *. apply in_map_iff in I as (r0 & <- & I0).
  destruct (find_row_spec eqb (show (snd r0)) (map (fun r => (name (fst r), show (snd r))) rows))
    as (pre & c & p & post & Er & Ep & Pre & Fr).
  { exists (name (fst r0), show (snd r0)). split; [apply in_map_iff; eauto|]. cbn [snd]. apply EQ; auto. reflexivity. }
  apply split_map in Er as (pre' & (c', f') & post' & Er & -> & Ec & ->). cbn [fst snd] in Ec. injection Ec as -> ->.
  exists c'. split; auto. rewrite Er. split; [rewrite map_app; apply in_app_iff; right; left; auto|].
  assert (Ic : In (c', f') rows) by (rewrite Er; apply in_app_iff; right; left; auto).
  apply (EQ (c', f') r0 Ic I0) in Ep. cbn [snd] in Ep.
  assert (MAX : forall d g, In (d, g) rows -> (g <= snd r0)%Q).
  { intros d g H. apply M. apply in_map_iff. exists (d, g). auto. }
  apply (majority_first l rows pre' c' f' post' N F Er).
  - intros d g H. assert (H' : In (d, g) rows) by (rewrite Er; apply in_app_iff; auto).
    assert (NE : ~ (g == snd r0)%Q).
    { intros Q. apply (EQ (d, g) r0 H' I0) in Q. cbn [snd] in Q.
      assert (Z := Pre (name d, show g)). cbn [snd] in Z. rewrite Z in Q; [discriminate|].
      apply in_map_iff. exists (d, g). auto. }
    specialize (MAX d g H'). lra.
  - intros d g H. assert (H' : In (d, g) rows) by (rewrite Er; apply in_app_iff; right; right; auto).
    specialize (MAX d g H'). lra.
Qed.

Lemma shares_cons l : l <> [] -> exists c f t, sorted by_class (shares l) = (c, f) :: t.
Proof.
  intros N. destruct (sorted by_class (shares l)) as [|(c, f) t] eqn:E; [|eauto]. exfalso.
  apply (counter_nil l N). assert (P := sorted_perm by_class (shares l)). rewrite E in P.
  apply Permutation_nil in P. apply map_eq_nil in P. auto.
Qed.

Lemma prediction_numbers repr act y l :
  picks act y l -> l <> [] -> (forall c, In c l -> exists x, c = LNum x /\ x <> NaN) ->
  exists c, rbind (class_probabilities repr act y) most_probable = Ok c /\ majority l c.
Proof.
  intros P N H. rewrite (probabilities_numbers repr act y l P N H). cbn [rbind].
  assert (C : classes l) by (left; auto).
  destruct (shares_cons l N) as (c0 & f0 & t & E).
  destruct (select nltb neqb the_number Fin l (sorted by_class (shares l)) c0 f0 t) as (c & F & I & M); auto.
  - apply shares_frequencies; auto.
  - intros r s _ _. rewrite (neqb_same (Fin (snd r)) (Fin (snd s))). cbn. split; [tauto|split; [discriminate|auto]].
  - assert (Ic : exists x, c = LNum x).
    { apply in_map_iff in I as (r & <- & I). apply sorted_In in I. apply in_map_iff in I as ((k, n) & <- & I).
      destruct (counter_counts l (one_kind_known l C)) as (C1 & _). cbn [fst share].
      destruct (H k) as (x & -> & _); [apply (C1 k n I)|eauto]. }
    destruct Ic as (x & ->). exists (LNum x). split; auto.
    rewrite E in F |- *. cbn [map fst snd most_probable] in F |- *. rewrite F. auto.
Qed.

Lemma prediction_texts repr act y l :
  picks act y l -> l <> [] -> (forall c, In c l -> exists s, c = LText s) -> repr_monotone repr (List.length l) ->
  exists c, rbind (class_probabilities repr act y) most_probable = Ok c /\ majority l c.
Proof.
  intros P N H RM. rewrite (probabilities_texts repr act y l P N H). cbn [rbind].
  assert (C : classes l) by (right; auto).
  destruct (shares_cons l N) as (c0 & f0 & t & E).
  assert (FR := shares_frequencies l C N).
  assert (RG : forall r, In r (sorted by_class (shares l)) -> exists j,
             (snd r * inject_Z (Z.of_nat (List.length l)) == inject_Z (Z.of_nat j))%Q /\ (0 < j <= List.length l)%nat).
  { intros (c, f) Hr. destruct FR as (_ & _ & B). destruct (B c f Hr) as (k & T & Z & F). exists k. cbn [snd].
    apply tally_le in T. fold (size l). split; auto. }
  assert (MON : forall r s, In r (sorted by_class (shares l)) -> In s (sorted by_class (shares l)) ->
     ((snd r < snd s)%Q -> str_ltb (repr (Fin (snd r))) (repr (Fin (snd s))) = true) /\
     ((snd r == snd s)%Q -> repr (Fin (snd r)) = repr (Fin (snd s)))).
  { intros r s Hr Hs. apply RM; auto. }
  destruct (select str_ltb str_eqb (word repr) (fun q => repr (Fin q)) l (sorted by_class (shares l)) c0 f0 t) as (c & F & I & M); auto.
  - intros r s Hr Hs. destruct (Qlt_le_dec (snd r) (snd s)) as [L|L].
    + rewrite (proj1 (MON r s Hr Hs) L). symmetry. apply qltb_spec. auto.
    + assert (X : qltb (snd r) (snd s) = false).
      { destruct (qltb (snd r) (snd s)) eqn:B; auto. apply qltb_spec in B. lra. }
      rewrite X. destruct (Qlt_le_dec (snd s) (snd r)) as [L'|L'].
      * assert (S := proj1 (MON s r Hs Hr) L'). destruct (str_ltb (repr (Fin (snd r))) (repr (Fin (snd s)))) eqn:B; auto.
        pose proof (str_ltb_trans _ _ _ S B) as Z. rewrite str_ltb_irrefl in Z. discriminate.
      * rewrite (proj2 (MON r s Hr Hs)) by (apply Qle_antisym; auto). apply str_ltb_irrefl.
  - intros r s Hr Hs. split.
    + intros B. apply seqb_spec in B. destruct (Qlt_le_dec (snd r) (snd s)) as [L|L].
      * assert (Z := proj1 (MON r s Hr Hs) L). rewrite B, str_ltb_irrefl in Z. discriminate.
      * destruct (Qlt_le_dec (snd s) (snd r)) as [L'|L'].
        -- assert (Z := proj1 (MON s r Hs Hr) L'). rewrite B, str_ltb_irrefl in Z. discriminate.
        -- apply Qle_antisym; auto.
    + intros Q. apply seqb_spec. apply (proj2 (MON r s Hr Hs)). auto.
  - assert (Ic : exists x, c = LText x).
    { apply in_map_iff in I as (r & <- & I). apply sorted_In in I. apply in_map_iff in I as ((k, n) & <- & I).
      destruct (counter_counts l (one_kind_known l C)) as (C1 & _). cbn [fst share].
      destruct (H k) as (x & ->); [apply (C1 k n I)|eauto]. }
    destruct Ic as (x & ->). exists (LText x). split; auto.
    rewrite E in F |- *. cbn [map fst snd most_probable] in F |- *. rewrite F. auto.
Qed.

(** ** Stacked predictions *)

Lemma masked_classes act y l : picks act y l -> bits act ->
  (forall c, In c l -> c <> LText "" /\ c <> LText "zero") -> Forall known l ->
  Forall2 same_class l (filter (fun x => negb (is_nan_label x)) (masked_column act y)).
Proof.
  intros P. induction P as [|a x act y l N P IH|x act y l P IH]; intros B G K; [constructor| |].
  - inversion B as [|? ? Ba B']; subst. destruct Ba as [->| ->]; [contradiction|].
    inversion K as [|? ? Kx K']; subst.
    unfold masked_column. cbn [map combine fst snd].
    assert (X : same_class x (masked 1 x)).
    { destruct x as [v|s].
      - destruct (masked_on_num v) as (v' & -> & S). constructor; auto. intros ->. apply Kx. auto.
      - destruct (G (LText s) (or_introl eq_refl)) as (G1 & G2).
        rewrite masked_on_text by congruence. constructor. }
    cbn [filter]. rewrite (proj2 (known_nan (masked 1 x)) (proj2 (same_known _ _ X))). cbn [negb].
    constructor; auto. apply IH; auto. intros; apply G; right; auto.
  - inversion B as [|? ? Ba B']; subst. unfold masked_column. cbn [map combine fst snd].
    rewrite masked_off by (destruct (is_text x); auto). cbn [filter nan_label is_nan_label is_nan negb].
    apply IH; auto.
Qed.

Lemma same_is_text a b : same_class a b -> is_text a = is_text b.
Proof. destruct 1; auto. Qed.

Lemma classes_same l l' : Forall2 same_class l l' -> classes l -> classes l'.
Proof.
  intros F [C|C]; [left|right]; intros c Hc.
  - induction F as [|a b l l' S F IH]; [contradiction|]. destruct Hc as [<-|Hc].
    + destruct (C a (or_introl eq_refl)) as (x & -> & N). inversion S; subst. exists y. split; auto.
      intros ->. destruct x; cbn in *; auto.
    + apply IH; auto. intros; apply C; right; auto.
  - induction F as [|a b l l' S F IH]; [contradiction|]. destruct Hc as [<-|Hc].
    + destruct (C a (or_introl eq_refl)) as (x & ->). inversion S; subst. eauto.
    + apply IH; auto. intros; apply C; right; auto.
Qed.

Lemma majority_same l l' c : Forall2 same_class l l' -> majority l' c -> majority l c.
Proof.
  intros F ((d & Id & Sd) & k & T & M).
  assert (F' : Forall2 same_class l' l) by (clear -F; induction F; constructor; auto using same_class_sym).
  assert (TR : forall a j, tally (same_class a) l j <-> tally (same_class a) l' j).
  { intros a j. split; apply tally_ext.
    - clear -F. induction F; constructor; auto. split; intros; eauto using same_class_trans, same_class_sym.
    - clear -F'. induction F'; constructor; auto. split; intros; eauto using same_class_trans, same_class_sym. }
  assert (IN : forall a, In a l -> exists b, In b l' /\ same_class a b).
  { clear -F. induction F; intros z Hz; [contradiction|]; destruct Hz as [<-|Hz]; [exists y; split; [left|]; auto|].
    destruct (IHF z Hz) as (b & I & S). exists b. split; [right|]; auto. }
  assert (IN' : forall a, In a l' -> exists b, In b l /\ same_class a b).
  { clear -F'. induction F'; intros z Hz; [contradiction|]; destruct Hz as [<-|Hz]; [exists y; split; [left|]; auto|].
    destruct (IHF' z Hz) as (b & I & S). exists b. split; [right|]; auto. }
  split.
  - destruct (IN' d Id) as (b & Ib & Sb). exists b. split; auto. apply same_class_trans with d; auto using same_class_sym.
  - exists k. split; [apply TR; auto|]. intros a j Ia Ta. destruct (IN a Ia) as (b & Ib & Sb).
    apply TR in Ta. destruct (M b j Ib (tally_same _ _ _ _ Sb Ta)) as [L|(-> & O)]; auto. right. split; auto.
    destruct O as [O|O]; [left|right].
    + apply same_class_trans with b; auto using same_class_sym.
    + apply class_below_same with b; auto using same_class_sym.
Qed.

Lemma sorted_head {A} (lt : A -> A -> bool) l c t : sorted lt l = c :: t -> In c l.
Proof. intros E. apply (sorted_In lt). rewrite E. left; auto. Qed.

Lemma column_majority l : classes l -> l <> [] ->
  exists c, column_prediction (map (fun p => (fst p, ndiv (nat_num (snd p)) (nat_num (List.length l)))) (counter label_eqb l)) = Ok c /\
    majority l c.
Proof.
  intros C N. assert (K := one_kind_known l C). destruct (counter_counts l K) as (C1 & C2 & C3 & _).
  assert (P := size_pos l N). set (d := counter label_eqb l) in *.
  assert (ND : d <> []) by (apply counter_nil; auto).
  assert (E : map (fun p : label * nat => (fst p, ndiv (nat_num (snd p)) (nat_num (List.length l)))) d =
              map (fun r => (fst r, Fin (snd r))) (map (share l) d)).
  { rewrite map_map. apply map_ext. intros p. cbn [share fst snd]. rewrite share_div; auto. }
  rewrite E. clear E. set (rows := map (share l) d).
  assert (NR : rows <> []) by (intros X; apply map_eq_nil in X; auto).
  unfold column_prediction. destruct rows as [|(c0, f0) t] eqn:ER; [congruence|]. cbn [map fst snd].
  assert (X : map snd (map (fun r => (fst r, Fin (snd r))) t) = map Fin (map snd t)) by (rewrite !map_map; auto).
  rewrite X, (first_max_map Fin qltb nltb) by reflexivity.
  destruct (first_max_spec qltb Qle Qle_refl Qle_trans
    (fun x y h => Qlt_le_weak _ _ (proj1 (qltb_spec x y) h)) qltb_false (map snd t) f0) as (I & M).
  set (m := first_max qltb f0 (map snd t)) in *. clearbody m.
  change (f0 :: map snd t) with (map snd ((c0, f0) :: t)) in *.
  change ((c0, Fin f0) :: map (fun r => (fst r, Fin (snd r))) t) with (map (fun r : label * Q => (fst r, Fin (snd r))) ((c0, f0) :: t)).
  rewrite <- ER in *. clear X t c0 f0 ER.
  set (best := map fst (filter (fun r => neqb (snd r) (Fin m)) (map (fun r => (fst r, Fin (snd r))) rows))).
  assert (HB : forall c, In c best <-> exists f, In (c, f) rows /\ (f == m)%Q).
  { intros c. unfold best. rewrite in_map_iff. split.
    - intros ((c', x) & <- & H). apply filter_In in H as (H & Q). apply in_map_iff in H as ((c2, f) & E & H).
      cbn [fst snd] in *. injection E as <- <-. exists f. split; auto. apply neqb_same in Q. apply Q.
    - intros (f & H & Q). exists (c, Fin f). split; auto. apply filter_In. split.
      + apply in_map_iff. exists (c, f). auto.
      + apply neqb_same. split; [discriminate|]. auto. }
  assert (RL : forall c f, In (c, f) rows -> In c l /\ exists k, tally (same_class c) l k /\ (0 < k)%nat /\ (f * size l == inject_Z (Z.of_nat k))%Q).
  { intros c f H. apply in_map_iff in H as ((k, n) & E & H). injection E as <- <-. destruct (C1 k n H) as (I' & T & Z).
    split; auto. exists n. repeat split; auto. cbn [fst snd]. field. lra. }
  assert (BL : forall c, In c best -> In c l).
  { intros c H. apply HB in H as (f & H & _). apply (RL c f H). }
  assert (KIND : existsb is_text best && negb (forallb is_text best) = false).
  { destruct (existsb is_text best) eqn:EX; auto. cbn [andb]. apply negb_false_iff. apply forallb_forall.
    intros x Hx. apply existsb_exists in EX as (z & Hz & Tz). rewrite <- Tz. apply (one_kind_text l C); auto. }
  rewrite KIND.
  assert (SB : StronglySorted (fun a b => label_ltb a b = true) (sorted label_ltb best)).
  { assert (FB : ForallOrdPairs (fun a b => ~ same_class a b) best).
    { unfold best. apply FOP_map.
      assert (FF : forall (A : Type) (R : A -> A -> Prop) g q, ForallOrdPairs R q -> ForallOrdPairs R (filter g q)).
      { clear. intros A R g q F. induction F; cbn [filter]; [constructor|]. destruct (g a); auto. constructor; auto.
        apply Forall_forall. intros z Hz. apply filter_In in Hz as (Hz & _). rewrite Forall_forall in H. auto. }
      apply FF. apply (FOP_map (fun a b : label * num => ~ same_class (fst a) (fst b))).
      apply (FOP_map (fun a b : label * Q => ~ same_class (fst a) (fst b))). auto. }
    rewrite Forall_forall in K. apply sorted_sorted.
    - intros a b c A B. apply label_ltb_spec in A, B. apply label_ltb_spec. eapply class_below_trans; eauto.
    - apply (FOP_NoDup _ _) in FB; auto. intros c H NS. apply NS. apply known_refl. auto.
    - intros a b Ha Hb NE. rewrite !label_ltb_spec. destruct (class_total a b) as [S|S]; auto.
      + apply (one_kind_text l C); auto.
      + exfalso. destruct (FOP_In _ _ _ _ FB Ha Hb) as [E|[E|E]]; auto. apply E. apply same_class_sym; auto. }
  destruct (sorted label_ltb best) as [|c ts] eqn:ES.
  { exfalso. apply in_map_iff in I as ((c, f) & Ef & I). cbn in Ef.
    assert (Hc : In c best) by (apply HB; exists f; split; auto; rewrite Ef; reflexivity).
    apply (sorted_In label_ltb) in Hc. rewrite ES in Hc. auto. }
  exists c. split; auto. assert (Hc : In c best) by (apply (sorted_head label_ltb best c ts ES)).
  apply HB in Hc as (f & Hf & Ef). destruct (RL c f Hf) as (_ & k & T & Z & Fk).
  split; [eapply tally_witness; eauto|]. exists k. split; auto. intros a j Ha Ta.
  destruct (C2 a Ha) as (k' & n' & Ik & Sk).
  assert (Hr : In (share l (k', n')) rows) by (apply in_map; auto). unfold share in Hr. cbn [fst snd] in Hr.
  set (g := (inject_Z (Z.of_nat n') / size l)%Q) in *.
  destruct (RL k' g Hr) as (_ & j' & T' & _ & Gj).
  assert (j = j') as -> by (apply (tally_unique (same_class k') l); auto; apply (tally_same l a k'); auto).
  destruct (share_order f g (size l) j' k P Fk Gj) as (O1 & O2).
  assert (LE : (g <= m)%Q) by (apply M; apply in_map_iff; exists (k', g); auto).
  destruct (Qlt_le_dec g f) as [L|L]; [left; auto|].
  assert (EQ : (g == m)%Q) by lra. right. split.
  - destruct (share_order g f (size l) k j' P Gj Fk) as (_ & O3). specialize (O2 ltac:(lra)). specialize (O3 ltac:(lra)). lia.
  - assert (Hb : In k' best) by (apply HB; exists g; auto).
    apply (sorted_In label_ltb) in Hb. rewrite ES in Hb. destruct Hb as [->|Hb].
    + left. apply same_class_sym; auto.
    + right. inversion SB as [|? ? _ FA]; subst. rewrite Forall_forall in FA.
      apply class_below_same with k'; [apply label_ltb_spec; auto|apply same_class_sym; auto].
Qed.

Lemma filter_length_same {A} (R : A -> A -> Prop) l l' : Forall2 R l l' -> l <> [] -> l' <> [].
Proof. destruct 1; congruence. Qed.

Lemma stacked_predictions t y cols :
  is_target t y ->
  (forall k act, In (k, act) cols -> bits act /\ exists l, picks act y l /\ l <> [] /\ classes l /\
     (forall c, In c l -> c <> LText "" /\ c <> LText "zero")) ->
  exists s, stacked_class_predictions cols t = Ok s /\
    Forall2 (fun c e => fst c = fst e /\ forall l, picks (snd c) y l -> majority l (snd e)) cols s.
Proof.
  intros T H. unfold stacked_class_predictions. rewrite (one_dimensional_target t y T). cbn [rbind].
  set (g := fun act => match column_prediction (class_column act y) with Ok c => c | Err _ => nan_label end).
  assert (G : forall k act, In (k, act) cols -> exists c, column_prediction (class_column act y) = Ok c /\
              forall l, picks act y l -> majority l c).
  { intros k act I. destruct (H k act I) as (B & l & P & N & C & G).
    set (l' := filter (fun x => negb (is_nan_label x)) (masked_column act y)).
    assert (F : Forall2 same_class l l') by (apply masked_classes; auto; apply one_kind_known; auto).
    destruct (column_majority l' (classes_same l l' F C) (filter_length_same _ _ _ F N)) as (c & E & M).
    exists c. split; auto. intros l2 P2. rewrite (picks_unique act y l2 l P2 P). apply (majority_same l l'); auto. }
  rewrite (apply_columns_ok _ g).
  - eexists. split; [reflexivity|]. apply Forall2_map_r. intros (k, act) I. cbn [fst snd]. split; auto.
    intros l P. unfold g. destruct (G k act I) as (c & -> & M). auto.
  - intros (k, act) I. cbn [snd]. unfold g. destruct (G k act I) as (c & -> & _). auto.
Qed.

Lemma picks_nil_masked act (y : list label) : picks act y [] -> filter (fun x => negb (is_nan_label x)) (masked_column act y) = [].
Proof.
  intros P. remember [] as l. revert Heql. induction P as [|a x act y l N P IH|x act y l P IH]; intros E; auto; [discriminate|].
  unfold masked_column. cbn [map combine fst snd]. rewrite masked_off by (destruct (is_text x); auto). cbn. auto.
Qed.

Lemma rseq_err {A} (l : list (res A)) e i : nth_error l i = Some (Err e) ->
  (forall j e', nth_error l j = Some (Err e') -> e' = e) -> rseq l = Err e.
Proof.
  revert i. induction l as [|x t IH]; intros i E H; [destruct i; discriminate|]. cbn [rseq].
  destruct x as [a|e']; [|cbn; f_equal; apply (H O e'); auto].
  destruct i as [|i]; [discriminate|]. rewrite (IH i E) by (intros j e' E'; apply (H (S j)); auto). reflexivity.
Qed.

Lemma stacked_no_point t y cols k act :
  is_target t y -> In (k, act) cols -> picks act y [] ->
  (forall k' act', In (k', act') cols -> bits act' /\ exists l, picks act' y l /\ classes l /\
     (forall c, In c l -> c <> LText "" /\ c <> LText "zero")) ->
  stacked_class_predictions cols t = Err EIndex.
Proof.
  intros T I P H. unfold stacked_class_predictions. rewrite (one_dimensional_target t y T). cbn [rbind].
  unfold apply_columns. destruct (In_nth_error cols (k, act) I) as (i & Ei).
  assert (X : column_prediction (class_column act y) = Err EIndex).
  { unfold class_column. rewrite (picks_nil_masked act y P). auto. }
  apply rseq_err with i.
  - rewrite nth_error_map, Ei. cbn [option_map fst snd]. rewrite X. auto.
  - intros j e Ej. rewrite nth_error_map in Ej. destruct (nth_error cols j) as [(k', act')|] eqn:Ec; [|discriminate].
    cbn [option_map fst snd] in Ej. injection Ej as Ej. apply nth_error_In in Ec.
    destruct (H k' act' Ec) as (B & l & Pl & C & G). destruct l as [|c0 t0] eqn:El.
    + unfold class_column in Ej. rewrite (picks_nil_masked act' y Pl) in Ej. cbn in Ej. congruence.
    + exfalso. set (l' := filter (fun x => negb (is_nan_label x)) (masked_column act' y)).
      assert (F : Forall2 same_class (c0 :: t0) l') by (apply masked_classes; auto; apply one_kind_known; auto).
      destruct (column_majority l' (classes_same _ l' F C)) as (c & E & _).
      { apply (filter_length_same _ _ _ F). discriminate. }
      unfold class_column in Ej. fold l' in Ej. rewrite E in Ej. discriminate.
Qed.

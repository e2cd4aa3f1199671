(** Proofs about the regression metrics. *)
From Coq Require Import List ZArith QArith Qabs Bool String Ascii Lia Lqa.
From Coq Require Import List.
From Coq Require Import Sorting.Sorted Sorting.Permutation.
From Verif Require Import Base Num Arith CondModel CondSpec CondBase MetModel MetSpec.
Import ListNotations.
Open Scope Z_scope.

(** ** Extraction *)

Lemma nonzero_shift a : forall i, nonzero (S i) a = map S (nonzero i a).
Proof.
  induction a as [|x t IH]; intros i; cbn; auto. rewrite (IH (S i)).
  destruct (x =? 0); auto. 
Qed.

Definition look {A} (y : list A) (i : nat) : res A :=
  match nth_error y i with Some v => Ok v | None => Err EIndex end.

Lemma extract_look {A} a (y : list A) : extract a y = rseq (map (look y) (nonzero O a)).
Proof. reflexivity. Qed.

Lemma extract_cons {A} x t (v : A) y :
  extract (x :: t) (v :: y) =
  if x =? 0 then extract t y else rmap (cons v) (extract t y).
Proof.
  rewrite !extract_look. cbn [nonzero]. rewrite nonzero_shift.
  assert (E : map (look (v :: y)) (map S (nonzero 0 t)) = map (look y) (nonzero 0 t)).
  { rewrite map_map. apply map_ext. reflexivity. }
  destruct (x =? 0).
  - rewrite E. auto.
  - cbn [map rseq]. rewrite E. cbn. destruct (rseq (map (look y) (nonzero 0 t))); auto.
Qed.

Lemma extract_picks {A} act (y l : list A) : picks act y l -> extract act y = Ok l.
Proof.
  induction 1.
  - reflexivity.
  - rewrite extract_cons, IHpicks. apply Z.eqb_neq in H. rewrite H. auto.
  - rewrite extract_cons, IHpicks. auto.
Qed.

Lemma picks_exist {A} act : forall y : list A, List.length act = List.length y -> exists l, picks act y l.
Proof.
  induction act as [|a t IH]; intros [|x y] E; try discriminate; [exists []; constructor|].
  destruct (IH y) as (l & P); [cbn in E; lia|].
  destruct (Z.eq_dec a 0) as [->|N]; [exists l|exists (x :: l)]; constructor; auto.
Qed.

Lemma picks_length {A} act (y l : list A) : picks act y l -> List.length act = List.length y.
Proof. induction 1; cbn; auto. Qed.

Lemma picks_unique {A} act (y l l' : list A) : picks act y l -> picks act y l' -> l = l'.
Proof. intros P P'. apply extract_picks in P, P'. congruence. Qed.

Lemma picks_In {A} act (y l : list A) x : picks act y l -> In x l -> In x y.
Proof. induction 1; cbn; intuition. Qed.

Lemma extract_short {A} : forall act (y : list A) i a,
  nth_error act i = Some a -> a <> 0 -> (List.length y <= i)%nat -> extract act y = Err EIndex.
Proof.
  induction act as [|x t IH]; intros y i a E N L; [destruct i; discriminate|].
  destruct y as [|v y].
  - rewrite extract_look. assert (X : exists j r, nonzero 0 (x :: t) = j :: r).
    { clear IH L. revert i E. generalize O. revert x. induction t as [|x' t IH]; intros x n i E.
      - destruct i as [|i]; [|destruct i; discriminate]. cbn in E. injection E as ->. cbn.
        apply Z.eqb_neq in N. rewrite N. eauto.
      - cbn [nonzero]. destruct (x =? 0) eqn:Ex; [|eauto].
        destruct i as [|i]; [cbn in E; injection E as ->; apply Z.eqb_neq in N; congruence|].
        apply (IH x' (S n) i). auto. }
    destruct X as (j & r & ->). cbn. unfold look. destruct j; auto.
  - rewrite extract_cons. destruct i as [|i]; [cbn in L; lia|]. cbn in E, L.
    rewrite (IH y i a E N) by lia. destruct (x =? 0); auto.
Qed.

(** ** Sums and means *)

Lemma values_drop l qs : values l qs -> drop_nan l = map Fin qs.
Proof. induction 1; cbn; auto. f_equal. auto. Qed.

Lemma nsum_fin qs : forall a, exists s, fold_left nadd (map Fin qs) (Fin a) = Fin s /\ (s == a + total qs)%Q.
Proof.
  induction qs as [|q t IH]; intros a; cbn [map fold_left].
  - exists a. split; auto. cbn. ring.
  - destruct (IH (a + q)%Q) as (s & E & S). exists s. split; auto. rewrite S. cbn [total fold_right].
    change (fold_right Qplus 0%Q t) with (total t). ring.
Qed.

Lemma size_pos {A} (l : list A) : l <> [] -> (0 < size l)%Q.
Proof.
  unfold size. intros N. change 0%Q with (inject_Z 0). rewrite <- Zlt_Qlt. destruct l; [congruence|].
  cbn [List.length]. lia.
Qed.

Lemma Qeq_bool_false x y : ~ (x == y)%Q -> Qeq_bool x y = false.
Proof. intros N. destruct (Qeq_bool x y) eqn:E; auto. apply Qeq_bool_iff in E. contradiction. Qed.

Lemma ndiv_fin a b : ~ (b == 0)%Q -> ndiv (Fin a) (Fin b) = Fin (a / b).
Proof. intros N. cbn. rewrite Qeq_bool_false; auto. Qed.

Lemma nmean_fin qs : mean_or_nan qs (nmean (map Fin qs)).
Proof.
  unfold nmean, nsum. destruct (nsum_fin qs 0%Q) as (s & E & S). rewrite E, map_length.
  destruct qs as [|q t]; [cbn in S|].
  - cbn. unfold signed_inf. rewrite (proj2 (Qeq_bool_iff s 0)); auto.
  - set (l := q :: t) in *. assert (P := size_pos l ltac:(discriminate)).
    cbn [mean_or_nan]. exists (s / size l)%Q. split.
    + unfold nat_num. fold (size l). apply ndiv_fin. lra.
    + split; [discriminate|]. fold l. rewrite S. field. lra.
Qed.

Lemma nanmean_values l qs : values l qs -> mean_or_nan qs (nanmean l).
Proof. intros V. unfold nanmean. rewrite (values_drop l qs V). apply nmean_fin. Qed.

Lemma values_all qs : values (map Fin qs) qs.
Proof. induction qs; cbn; constructor; auto. Qed.

Lemma total_app a b : (total (a ++ b) == total a + total b)%Q.
Proof.
  induction a as [|x t IH]; cbn [app total fold_right].
  - change (fold_right Qplus 0%Q b) with (total b). ring.
  - change (fold_right Qplus 0%Q (t ++ b)) with (total (t ++ b)).
    change (fold_right Qplus 0%Q t) with (total t). rewrite IH. ring.
Qed.

Lemma total_cons q t : total (q :: t) = (q + total t)%Q.
Proof. reflexivity. Qed.

Lemma size_cons {A} (x : A) t : (size (x :: t) == 1 + size t)%Q.
Proof. unfold size. cbn [List.length]. rewrite Nat2Z.inj_succ, <- Z.add_1_l, inject_Z_plus. reflexivity. Qed.

Lemma size_nil {A} : size (@nil A) = 0%Q.
Proof. reflexivity. Qed.

Lemma size_map {A B} (f : A -> B) l : size (map f l) = size l.
Proof. unfold size. rewrite map_length. auto. Qed.

Lemma size_nonneg {A} (l : list A) : (0 <= size l)%Q.
Proof. unfold size. change 0%Q with (inject_Z 0). rewrite <- Zle_Qle. lia. Qed.

Lemma average_unique qs m m' : average qs m -> average qs m' -> (m == m')%Q.
Proof.
  intros (N & A) (_ & B). assert (P := size_pos qs N).
  assert (E : ((m - m') * size qs == 0)%Q) 
    by (setoid_replace ((m - m') * size qs)%Q with (m * size qs - m' * size qs)%Q by ring; rewrite A, B; ring).
  apply Qmult_integral in E. destruct E; lra.
Qed.

Lemma total_between qs lo hi :
  (forall q, In q qs -> (lo <= q)%Q /\ (q <= hi)%Q) ->
  (lo * size qs <= total qs)%Q /\ (total qs <= hi * size qs)%Q.
Proof.
  induction qs as [|q t IH]; intros H.
  - rewrite size_nil. cbn. lra.
  - destruct IH as (A & B); [intros; apply H; right; auto|]. destruct (H q (or_introl eq_refl)).
    rewrite size_cons, total_cons. split; lra.
Qed.

Lemma average_between qs m lo hi :
  average qs m -> (forall q, In q qs -> (lo <= q)%Q /\ (q <= hi)%Q) -> (lo <= m)%Q /\ (m <= hi)%Q.
Proof.
  intros (N & A) H. destruct (total_between qs lo hi H) as (L & U). rewrite <- A in L, U.
  assert (P := size_pos qs N). split.
  - apply Qmult_le_r in L; auto.
  - apply Qmult_le_r in U; auto.
Qed.

(** ** Conditional mean *)

Lemma flat_target {A} (t : target A) y : is_target t y -> flat t = Ok y.
Proof. intros [-> | -> ]; auto. Qed.

Lemma one_dimensional_target {A} (t : target A) y : is_target t y -> one_dimensional t = Ok y.
Proof. intros [-> | -> ]; auto. Qed.

Lemma conditional_mean_array t y act l :
  is_target t y -> picks act y l -> conditional_mean (ActArray act) t = Ok (MNum (nanmean l)).
Proof.
  intros T P. cbn [conditional_mean]. rewrite (flat_target t y T). cbn [rbind].
  rewrite (extract_picks act y l P). cbn [rbind]. unfold nanmean. destruct (drop_nan l); auto.
Qed.

Lemma mean_one t y act l qs :
  is_target t y -> picks act y l -> values l qs ->
  exists m, conditional_mean (ActArray act) t = Ok (MNum m) /\ mean_or_nan qs m.
Proof.
  intros T P V. exists (nanmean l). split; [|apply nanmean_values; auto].
  apply (conditional_mean_array t y); auto.
Qed.

Lemma mean_between t y act l qs m lo hi :
  is_target t y -> picks act y l -> values l qs -> conditional_mean (ActArray act) t = Ok (MNum (Fin m)) ->
  (forall q, In q qs -> (lo <= q)%Q /\ (q <= hi)%Q) -> (lo <= m)%Q /\ (m <= hi)%Q.
Proof.
  intros T P V E H. destruct (mean_one t y act l qs T P V) as (x & E' & M). rewrite E in E'.
  injection E' as <-. destruct qs as [|q r]; [discriminate M|]. cbn [mean_or_nan] in M.
  destruct M as (m' & E' & A). injection E' as <-. eapply average_between; eauto.
Qed.

Lemma apply_columns_ok {A B} (f : list A -> res B) (g : list A -> B) cols :
  (forall c, In c cols -> f (snd c) = Ok (g (snd c))) ->
  apply_columns f cols = Ok (map (fun c => (fst c, g (snd c))) cols).
Proof.
  intros H. unfold apply_columns. apply rseq_ok. intros c Hc. rewrite (H c Hc). auto.
Qed.

Lemma Forall2_map_r {A B} (R : A -> B -> Prop) (g : A -> B) l :
  (forall x, In x l -> R x (g x)) -> Forall2 R l (map g l).
Proof. induction l; cbn; intros H; constructor; auto. Qed.

Lemma mean_stacked t y cols :
  is_target t y -> (forall k act, In (k, act) cols -> List.length act = List.length y) ->
  exists s, conditional_mean (ActFrame cols) t = Ok (MSeries s) /\
    Forall2 (fun c e => fst c = fst e /\ conditional_mean (ActArray (snd c)) t = Ok (MNum (snd e))) cols s.
Proof.
  intros T L.
  assert (E : conditional_mean (ActFrame cols) t =
              rmap MSeries (apply_columns (fun act => rmap nanmean (extract act y)) cols)).
  { cbn [conditional_mean]. rewrite (flat_target t y T). auto. }
  rewrite E. clear E.
  set (g := fun act => match extract act y with Ok v => nanmean v | Err _ => NaN end).
  assert (G : forall k act, In (k, act) cols -> exists l, extract act y = Ok l /\ picks act y l).
  { intros k act H. destruct (picks_exist act y (L k act H)) as (l & P).
    exists l. split; auto. apply extract_picks; auto. }
  rewrite (apply_columns_ok _ g).
  - cbn [rmap]. eexists. split; [reflexivity|]. apply Forall2_map_r. intros (k, act) H. cbn [fst snd].
    split; auto. destruct (G k act H) as (l & E & P). rewrite (conditional_mean_array t y act l T P).
    unfold g. rewrite E. auto.
  - intros (k, act) H. cbn [snd]. destruct (G k act H) as (l & E & _). unfold g. rewrite E. auto.
Qed.

Lemma mean_all t y qs :
  is_target t y -> values y qs ->
  exists m, conditional_mean ActNone t = Ok (MNum m) /\ mean_or_nan qs m.
Proof.
  intros T V. cbn. rewrite (flat_target t y T). cbn. eexists. split; [reflexivity|].
  apply nanmean_values; auto.
Qed.

Lemma mean_errors t y act i a :
  conditional_mean ActOther t = Err EType /\
  (is_target t y -> nth_error act i = Some a -> a <> 0 -> (List.length y <= i)%nat ->
   conditional_mean (ActArray act) t = Err EIndex).
Proof.
  split; auto. intros T E N L. cbn [conditional_mean]. rewrite (flat_target t y T). cbn [rbind].
  rewrite (extract_short act y i a E N L). auto.
Qed.

(** ** Conditional standard deviation *)

Lemma nanvar_values d l qs : values l qs -> (d < List.length qs)%nat ->
  exists v, nanvar d l = Fin v /\ variance (Z.of_nat d) qs v.
Proof.
  intros V L. unfold nanvar. rewrite (values_drop l qs V), map_length.
  replace (List.length qs <=? d)%nat with false by (symmetry; apply Nat.leb_gt; auto).
  pose proof (nmean_fin qs) as M. destruct qs as [|q t]; [cbn in L; lia|]. set (l' := q :: t) in *.
  cbn [mean_or_nan] in M. fold l' in M. destruct M as (m & E & A). rewrite E, map_map.
  assert (X : map (fun x => nsquare (nsub (Fin x) (Fin m))) l' = map Fin (map (fun q => (q + - m) * (q + - m))%Q l')).
  { rewrite map_map. apply map_ext. reflexivity. }
  rewrite X. unfold nsum. destruct (nsum_fin (map (fun q => (q + - m) * (q + - m))%Q l') 0%Q) as (s & Es & S).
  rewrite Es. unfold nat_num.
  assert (Z : inject_Z (Z.of_nat (List.length l' - d)) = (size l' - inject_Z (Z.of_nat d))%Q \/
              (inject_Z (Z.of_nat (List.length l' - d)) == size l' - inject_Z (Z.of_nat d))%Q).
  { right. unfold size. rewrite Nat2Z.inj_sub by lia. unfold Z.sub. rewrite inject_Z_plus, inject_Z_opp. reflexivity. }
  assert (Zq : (inject_Z (Z.of_nat (List.length l' - d)) == size l' - inject_Z (Z.of_nat d))%Q).
  { destruct Z as [-> | Z]; [reflexivity|auto]. }
  assert (P : (0 < inject_Z (Z.of_nat (List.length l' - d)))%Q).
  { change 0%Q with (inject_Z 0). rewrite <- Zlt_Qlt. lia. }
  rewrite ndiv_fin by lra. eexists. split; [reflexivity|]. exists m. split; auto.
  rewrite <- Zq. rewrite S. unfold deviations.
  assert (D : (total (map (fun q => (q + - m) * (q + - m)) l') == total (map (fun q => (q - m) * (q - m)) l'))%Q).
  { unfold Qminus. reflexivity. }
  rewrite D. field. lra.
Qed.

Lemma nanvar_few d l qs : values l qs -> (List.length qs <= d)%nat -> nanvar d l = NaN.
Proof.
  intros V L. unfold nanvar. rewrite (values_drop l qs V), map_length.
  rewrite (proj2 (Nat.leb_le _ _) L). auto.
Qed.

Lemma values_length l qs : values l qs -> (List.length qs <= List.length l)%nat.
Proof. induction 1; cbn; lia. Qed.

Lemma std_one sqrt t y act l qs :
  is_target t y -> picks act y l -> values l qs ->
  (l = [] -> conditional_std sqrt (ActArray act) t = Ok (MNum NaN)) /\
  (List.length l = 1%nat -> conditional_std sqrt (ActArray act) t = Ok (MNum (Fin 0))) /\
  ((2 <= List.length l)%nat -> (List.length qs <= 1)%nat ->
     conditional_std sqrt (ActArray act) t = Ok (MNum (sqrt NaN))) /\
  ((2 <= List.length qs)%nat ->
     exists v, conditional_std sqrt (ActArray act) t = Ok (MNum (sqrt (Fin v))) /\ variance 1 qs v).
Proof.
  intros T P V. cbn [conditional_std]. rewrite (flat_target t y T). cbn [rbind].
  rewrite (extract_picks act y l P). cbn [rbind]. pose proof (values_length l qs V) as LE.
  repeat split.
  - intros ->. auto.
  - intros ->. auto.
  - intros L L'. replace (List.length l =? 0)%nat with false by (symmetry; apply Nat.eqb_neq; lia).
    replace (List.length l =? 1)%nat with false by (symmetry; apply Nat.eqb_neq; lia).
    rewrite (nanvar_few 1 l qs); auto.
  - intros L. replace (List.length l =? 0)%nat with false by (symmetry; apply Nat.eqb_neq; lia).
    replace (List.length l =? 1)%nat with false by (symmetry; apply Nat.eqb_neq; lia).
    destruct (nanvar_values 1 l qs V) as (v & E & U); [lia|]. exists v. rewrite E. auto.
Qed.

(** The masked column has the activated targets and NaN. *)
Lemma masked_off x : is_text x = false \/ is_text x = true -> masked 0 x = nan_label.
Proof.
  intros _. unfold masked. destruct x as [v|s].
  - unfold replace at 4. cbn [label_eqb zero].
    destruct v as [| |q|]; try reflexivity. destruct (neqb (Fin q) (Fin 0)) eqn:E.
    + reflexivity.
    + cbn [times nmul numz]. unfold replace at 3. cbn [label_eqb].
      replace (neqb (Fin (inject_Z 0 * q)) (Fin 0)) with true; [reflexivity|].
      reflexivity.
  - unfold replace at 4. cbn [label_eqb]. cbn [times Z.eqb]. reflexivity.
Qed.

Lemma Qmult_1 q : (inject_Z 1 * q)%Q = q.
Proof. destruct q as (n, d). unfold inject_Z, Qmult. cbn [Qnum Qden]. rewrite Z.mul_1_l. auto. Qed.

Lemma masked_on_num x : exists x', masked 1 (LNum x) = LNum x' /\ same_num x x'.
Proof.
  unfold masked. unfold replace at 4. cbn [label_eqb zero].
  destruct x as [| |q|]; try (eexists; split; [reflexivity|exact I]).
  destruct (neqb (Fin q) (Fin 0)) eqn:E.
  - exists (Fin 0). split; [reflexivity|]. cbn in *. apply Qeq_bool_iff in E. auto.
  - exists (Fin q). cbn [times nmul numz]. rewrite Qmult_1. unfold replace. cbn [label_eqb zero].
    change (neqb (Fin q) (Fin 0)) with (Qeq_bool q 0) in *. cbn [neqb]. rewrite E. cbn [label_eqb].
    split; [reflexivity|cbn; reflexivity].
Qed.

Lemma masked_on_text s : s <> ""%string -> s <> "zero"%string -> masked 1 (LText s) = LText s.
Proof.
  intros N Z. unfold masked, replace. cbn [label_eqb zero times Z.eqb].
  destruct (str_eqb s "") eqn:E; [apply seqb_spec in E; contradiction|]. cbn [label_eqb].
  destruct (str_eqb s "zero") eqn:F; [apply seqb_spec in F; contradiction|]. auto.
Qed.

Lemma masked_values act y l : forall qs, picks act y l -> bits act -> values l qs ->
  exists qs', values (numbers (masked_column act (map LNum y))) qs' /\ Forall2 Qeq qs qs'.
Proof.
  intros qs P. revert qs. induction P as [|a x act y l N P IH|x act y l P IH]; intros qs B V.
  - inversion V; subst. exists []. split; constructor.
  - inversion B as [|? ? Ba B']; subst. destruct Ba as [->| ->]; [contradiction|].
    unfold masked_column. cbn [map combine fst snd].
    destruct (masked_on_num x) as (x' & -> & S). cbn [numbers flat_map app].
    inversion V as [|l0 qs0 V0|q l0 qs0 V0]; subst; cbn in S; destruct x' as [| |q0|]; try contradiction.
    + destruct (IH qs B' V0) as (qs' & V' & F). exists qs'. split; auto. constructor; auto.
    + destruct (IH qs0 B' V0) as (qs' & V' & F). exists (q0 :: qs'). split; constructor; auto.
  - inversion B as [|? ? Ba B']; subst. destruct (IH qs B' V) as (qs' & V' & F).
    exists qs'. split; auto. unfold masked_column. cbn [map combine fst snd].
    rewrite masked_off by (destruct (is_text (LNum x)); auto). cbn [numbers flat_map app nan_label].
    constructor. auto.
Qed.

Lemma total_eq a b : Forall2 Qeq a b -> (total a == total b)%Q.
Proof. induction 1; [reflexivity|]. rewrite !total_cons, H, IHForall2. reflexivity. Qed.

Lemma Forall2_len {A B} (R : A -> B -> Prop) a b : Forall2 R a b -> List.length a = List.length b.
Proof. induction 1; cbn; auto. Qed.

Lemma average_eq a b m : Forall2 Qeq a b -> average a m -> average b m.
Proof.
  intros F (N & A). split; [intros ->; inversion F; subst; auto|].
  rewrite <- (total_eq a b F), <- A. unfold size. rewrite (Forall2_len _ _ _ F). reflexivity.
Qed.

Lemma deviations_eq a b m m' : Forall2 Qeq a b -> (m == m')%Q -> (deviations a m == deviations b m')%Q.
Proof.
  intros F E. unfold deviations. apply total_eq. induction F; cbn; constructor; auto. rewrite H, E. reflexivity.
Qed.

Lemma variance_unique d a b v w : Forall2 Qeq a b -> (inject_Z d < size a)%Q ->
  variance d a v -> variance d b w -> (v == w)%Q.
Proof.
  intros F L (m & A & V) (m' & B & W).
  assert (E : (m == m')%Q) by (apply (average_unique b); auto; apply (average_eq a); auto).
  assert (S : size a = size b) by (unfold size; rewrite (Forall2_len _ _ _ F); auto).
  rewrite <- S in W.
  assert (X : ((v - w) * (size a - inject_Z d) == 0)%Q).
  { pose proof (deviations_eq a b m m' F E) as D. ring_simplify.
    assert (Y : (v * (size a - inject_Z d) - w * (size a - inject_Z d) == 0)%Q) by (rewrite V, W, D; ring).
    rewrite <- Y. ring. }
  apply Qmult_integral in X. destruct X; lra.
Qed.

Lemma variance_eq d a b v : Forall2 Qeq a b -> variance d b v -> variance d a v.
Proof.
  intros F (m & A & V). exists m.
  assert (F' : Forall2 Qeq b a) by (clear -F; induction F; constructor; auto; symmetry; auto).
  split; [apply (average_eq b); auto|]. rewrite (deviations_eq a b m m F) by reflexivity.
  rewrite <- V. unfold size. rewrite (Forall2_len _ _ _ F). reflexivity.
Qed.

Lemma conditional_std_frame sqrt t y cols : is_target t y ->
  conditional_std sqrt (ActFrame cols) t =
  Ok (MSeries (map (fun c => (fst c, sqrt (nanvar 1 (numbers (masked_column (snd c) (map LNum y)))))) cols)).
Proof.
  intros T. cbn [conditional_std]. rewrite (one_dimensional_target t y T). cbn [rbind].
  rewrite (apply_columns_ok _ (fun act => sqrt (nanvar 1 (numbers (masked_column act (map LNum y)))))); auto.
Qed.

Lemma std_stacked sqrt t y cols :
  is_target t y ->
  exists s, conditional_std sqrt (ActFrame cols) t = Ok (MSeries s) /\
    Forall2 (fun c e => fst c = fst e /\
      forall l qs, bits (snd c) -> picks (snd c) y l -> values l qs ->
        ((List.length qs <= 1)%nat -> snd e = sqrt NaN) /\
        ((2 <= List.length qs)%nat -> exists v, snd e = sqrt (Fin v) /\ variance 1 qs v)) cols s.
Proof.
  intros T. rewrite (conditional_std_frame sqrt t y cols T). eexists. split; [reflexivity|].
  apply Forall2_map_r. intros (k, act) H. cbn [fst snd]. split; auto. intros l qs B P V.
  destruct (masked_values act y l qs P B V) as (qs' & V' & F).
  pose proof (Forall2_len _ _ _ F) as L. split.
  - intros LE. rewrite (nanvar_few 1 _ qs' V'); auto. lia.
  - intros LE. destruct (nanvar_values 1 _ qs' V') as (v & E & U); [lia|]. exists v. rewrite E. split; auto.
    apply (variance_eq 1 qs qs'); auto.
Qed.

Lemma std_agree sqrt t y act l qs k x :
  (forall a b, (a == b)%Q -> sqrt (Fin a) = sqrt (Fin b)) ->
  is_target t y -> bits act -> picks act y l -> values l qs -> (2 <= List.length l)%nat ->
  conditional_std sqrt (ActArray act) t = Ok (MNum x) ->
  conditional_std sqrt (ActFrame [(k, act)]) t = Ok (MSeries [(k, x)]).
Proof.
  intros S T B P V L E. destruct (std_one sqrt t y act l qs T P V) as (_ & _ & H1 & H2).
  destruct (std_stacked sqrt t y [(k, act)] T) as (s & -> & F). inversion F as [|? e ? ? (K & G) F' ]; subst.
  inversion F'; subst. cbn [fst snd] in *. destruct (G l qs B P V) as (G1 & G2).
  destruct e as (k', x'). cbn [fst snd] in *. subst k'. do 4 f_equal.
  destruct (le_lt_dec (List.length qs) 1) as [LE|LT].
  - rewrite (G1 LE). rewrite (H1 L LE) in E. congruence.
  - destruct (G2 LT) as (v & -> & U). destruct (H2 LT) as (w & E' & W). rewrite E' in E. injection E as <-.
    apply S. apply (variance_unique 1 qs qs); auto.
    + clear. induction qs; constructor; auto. reflexivity.
    + unfold size. rewrite <- Zlt_Qlt. lia.
Qed.

Lemma std_all sqrt t y qs :
  is_target t y -> values y qs ->
  (qs = [] -> conditional_std sqrt ActNone t = Ok (MNum (sqrt NaN))) /\
  (qs <> [] -> exists v, conditional_std sqrt ActNone t = Ok (MNum (sqrt (Fin v))) /\ variance 0 qs v).
Proof.
  intros T V. cbn [conditional_std]. rewrite (flat_target t y T). cbn [rmap]. split.
  - intros ->. rewrite (nanvar_few 0 y []); auto.
  - intros N. destruct (nanvar_values 0 y qs V) as (v & E & U); [destruct qs; [congruence|cbn; lia]|].
    exists v. rewrite E. auto.
Qed.

Lemma std_errors sqrt t y act i a :
  conditional_std sqrt ActOther t = Err EType /\
  (forall cols, conditional_std sqrt (ActFrame cols) YTable = Err EValue) /\
  (is_target t y -> nth_error act i = Some a -> a <> 0 -> (List.length y <= i)%nat ->
   conditional_std sqrt (ActArray act) t = Err EIndex).
Proof.
  split; auto. split; auto. intros T E N L. cbn [conditional_std]. rewrite (flat_target t y T). cbn [rbind].
  rewrite (extract_short act y i a E N L). auto.
Qed.

(** Proofs about the success rate and about the most common class. *)
From Coq Require Import List ZArith QArith Qabs Bool String Ascii Lia Lqa.
From Coq Require Import List.
From Coq Require Import Sorting.Sorted Sorting.Permutation.
From Verif Require Import Base Num Arith CondModel CondSpec CondBase MetModel MetSpec MetReg MetErr MetClass.
Import ListNotations.
Open Scope Z_scope.

Lemma count_true_map {A} (f : A -> bool) l : count_true (map f l) = List.length (filter f l).
Proof. unfold count_true. induction l as [|x t IH]; cbn; auto. destruct (f x); cbn; auto. Qed.

Lemma ratio (k n : nat) : n <> O ->
  exists r, ndiv (nat_num k) (nat_num n) = Fin r /\ (r * inject_Z (Z.of_nat n) == inject_Z (Z.of_nat k))%Q.
Proof.
  intros N. assert (P : (0 < inject_Z (Z.of_nat n))%Q) by (change 0%Q with (inject_Z 0); rewrite <- Zlt_Qlt; lia).
  unfold nat_num. rewrite ndiv_fin by lra. eexists. split; [reflexivity|]. field. lra.
Qed.

Lemma ratio_bounds r (k n : nat) : n <> O -> (r * inject_Z (Z.of_nat n) == inject_Z (Z.of_nat k))%Q -> (k <= n)%nat ->
  (0 <= r)%Q /\ (r <= 1)%Q /\ ((r == 1)%Q <-> k = n) /\ ((r == 0)%Q <-> k = O).
Proof.
  intros N E L. assert (P : (0 < inject_Z (Z.of_nat n))%Q) by (change 0%Q with (inject_Z 0); rewrite <- Zlt_Qlt; lia).
  assert (K : (0 <= inject_Z (Z.of_nat k))%Q) by (change 0%Q with (inject_Z 0); rewrite <- Zle_Qle; lia).
  assert (KN : (inject_Z (Z.of_nat k) <= inject_Z (Z.of_nat n))%Q) by (rewrite <- Zle_Qle; lia).
  set (a := inject_Z (Z.of_nat n)) in *. repeat split.
  - assert (X : (0 * a <= r * a)%Q) by lra. apply Qmult_le_r in X; auto.
  - assert (X : (r * a <= 1 * a)%Q) by lra. apply Qmult_le_r in X; auto.
  - intros H. rewrite H in E. assert (X : (a == inject_Z (Z.of_nat k))%Q) by lra.
    unfold a in X. rewrite inject_Z_injective in X. lia.
  - intros ->. fold a in E. assert (X : ((r - 1) * a == 0)%Q) by lra. apply Qmult_integral in X. destruct X; lra.
  - intros H. rewrite H in E. assert (X : (inject_Z 0 == inject_Z (Z.of_nat k))%Q) by (change (inject_Z 0) with 0%Q; lra).
    rewrite inject_Z_injective in X. lia.
  - intros ->. change (inject_Z (Z.of_nat 0)) with 0%Q in E. apply Qmult_integral in E. destruct E; lra.
Qed.

Lemma rate_method_lower m : rate_method m ->
  str_eqb (lower (match m with Some s => s | None => "success_rate" end)) "success_rate" = true.
Proof. destruct m as [s|]; cbn [rate_method]; [|reflexivity]. intros H. apply ignoring_case_lower in H. rewrite H. reflexivity. Qed.

Lemma tally_same_class l c : tally (same_class c) l (List.length (filter (fun v => label_eqb c v) l)).
Proof. apply tally_filter. intros. apply label_eqb_spec. Qed.

(** One label *)
Lemma rate_label t y act l c m rows : is_target t y -> picks act y l ->
  rate_method m ->
  (l = [] -> calc_classification_criterion (ActArray act) rows (QLabel c) t m = Ok (RNum NaN)) /\
  (l <> [] -> exists r k, calc_classification_criterion (ActArray act) rows (QLabel c) t m = Ok (RNum (Fin r)) /\
     tally (same_class c) l k /\ (r * size l == inject_Z (Z.of_nat k))%Q /\ (0 <= r)%Q /\ (r <= 1)%Q).
Proof.
  intros T P M. unfold calc_classification_criterion. rewrite (flat_target t y T). cbn [rbind].
  rewrite (extract_picks act y l P). cbn [rbind]. rewrite (rate_method_lower m M). unfold success_rate_label. split.
  - intros ->. auto.
  - intros N. assert (NZ : List.length l <> O) by (destruct l; [congruence|discriminate]).
    rewrite (proj2 (Nat.eqb_neq _ _) NZ). rewrite count_true_map.
    destruct (ratio (List.length (filter (fun v => label_eqb c v) l)) _ NZ) as (r & E & R). rewrite E.
    assert (TL := tally_same_class l c).
    destruct (ratio_bounds r _ _ NZ R (tally_le _ _ _ TL)) as (A & B & _).
    eexists. eexists. split; [reflexivity|]. repeat split; eauto.
Qed.

Lemma rate_label_one t y act l c m rows r : is_target t y -> picks act y l -> rate_method m ->
  calc_classification_criterion (ActArray act) rows (QLabel c) t m = Ok (RNum (Fin r)) ->
  ((r == 1)%Q <-> forall d, In d l -> same_class c d) /\ ((r == 0)%Q <-> forall d, In d l -> ~ same_class c d).
Proof.
  intros T P M E. destruct (rate_label t y act l c m rows T P M) as (A & B).
  assert (N : l <> []) by (intros ->; rewrite A in E; [discriminate|auto]).
  destruct (B N) as (r' & k & E' & TL & R & _). rewrite E in E'. injection E' as <-.
  assert (NZ : List.length l <> O) by (destruct l; [congruence|discriminate]).
  destruct (ratio_bounds r k _ NZ R (tally_le _ _ _ TL)) as (_ & _ & O & Z). rewrite O, Z.
  split; [apply (tally_all _ _ _ TL)|]. split.
  - intros ->. apply tally_zero. auto.
  - intros H. destruct k; auto. exfalso. destruct (tally_witness l c (S k) TL) as (d & I & S); [lia|].
    apply (H d I). apply same_class_sym; auto.
Qed.

(** The majority class has the best rate. *)
Lemma rate_best t y act l c d m rows rc rd : is_target t y -> picks act y l -> rate_method m -> majority l c ->
  calc_classification_criterion (ActArray act) rows (QLabel c) t m = Ok (RNum (Fin rc)) ->
  calc_classification_criterion (ActArray act) rows (QLabel d) t m = Ok (RNum (Fin rd)) -> (rd <= rc)%Q.
Proof.
  intros T P M ((w & Iw & Sw) & k & TK & MAX) Ec Ed.
  assert (N : l <> []) by (intros ->; auto). assert (PS := size_pos l N).
  destruct (proj2 (rate_label t y act l c m rows T P M) N) as (r1 & k1 & E1 & T1 & R1 & _).
  destruct (proj2 (rate_label t y act l d m rows T P M) N) as (r2 & k2 & E2 & T2 & R2 & _).
  rewrite Ec in E1. injection E1 as <-. rewrite Ed in E2. injection E2 as <-.
  assert (k1 = k) as -> by (apply (tally_unique _ _ _ _ T1 TK)).
  assert (LE : (k2 <= k)%nat).
  { destruct k2 as [|k2]; [lia|]. destruct (tally_witness l d (S k2) T2) as (e & I & Se); [lia|].
    destruct (MAX e (S k2) I) as [L|(L & _)]; try lia. apply (tally_same l d e); auto. apply same_class_sym; auto. }
  assert (X : (rd * size l <= rc * size l)%Q) by (rewrite R1, R2, <- Zle_Qle; lia).
  apply Qmult_le_r in X; auto.
Qed.

(** One prediction per row *)
Lemma at_rows_picks {A} act (p pl : list A) : picks act p pl -> at_rows act p = pl.
Proof.
  induction 1 as [|a x act y l N P IH|x act y l P IH]; unfold at_rows in *; cbn [combine filter fst]; [reflexivity| |].
  - apply Z.eqb_neq in N. rewrite N. cbn [negb map snd]. f_equal. auto.
  - cbn [Z.eqb negb]. auto.
Qed.

Lemma picks_same_length {A B} act (y : list A) (p : list B) l pl : picks act y l -> picks act p pl -> List.length l = List.length pl.
Proof.
  intros P. revert p pl. induction P; intros p pl P'; inversion P'; subst; cbn; auto; try contradiction; f_equal; eauto.
Qed.

Definition is_known_dec (c : label) : bool := negb (is_nan_label c).

Lemma tally_known (l : list label) : tally (fun c => c <> LNum NaN) l (List.length (filter (fun v => negb (is_nan_label v)) l)).
Proof. apply tally_filter. intros x _. rewrite negb_true_iff. apply known_nan. Qed.

Lemma rate_rows t y act l p pl m rows n : is_target t y -> picks act y l -> picks act p pl -> rate_method m ->
  tally (fun c => c <> LNum NaN) pl n ->
  (l = [] -> calc_classification_criterion (ActArray act) rows (QSeries p) t m = Ok REmpty) /\
  (l <> [] -> n <> O -> exists r k, calc_classification_criterion (ActArray act) rows (QSeries p) t m = Ok (RNum (Fin r)) /\
     tally (fun c => same_class (fst c) (snd c)) (combine pl l) k /\ (r * inject_Z (Z.of_nat n) == inject_Z (Z.of_nat k))%Q /\
     (0 <= r)%Q /\ (r <= 1)%Q) /\
  (l <> [] -> n = O -> calc_classification_criterion (ActArray act) rows (QSeries p) t m = Err EZeroDiv).
Proof.
  intros T P Pp M TK. unfold calc_classification_criterion. rewrite (flat_target t y T). cbn [rbind].
  rewrite (extract_picks act y l P). cbn [rbind]. rewrite (rate_method_lower m M).
  assert (L := picks_length act p pl Pp). rewrite <- L, Nat.eqb_refl. cbn [negb].
  rewrite (at_rows_picks act p pl Pp). unfold success_rate_rows.
  assert (LL := picks_same_length act y p l pl P Pp). rewrite <- LL, Nat.eqb_refl. cbn [negb].
  rewrite <- (tally_unique _ _ _ _ TK (tally_known pl)). split; [|split].
  - intros ->. auto.
  - intros N NZ. assert (NL : List.length l <> O) by (destruct l; [congruence|discriminate]).
    rewrite (proj2 (Nat.eqb_neq _ _) NL), (proj2 (Nat.eqb_neq _ _) NZ), count_true_map.
    destruct (ratio (List.length (filter (fun c => label_eqb (fst c) (snd c)) (combine pl l))) n NZ) as (r & E & R). rewrite E.
    assert (TL : tally (fun c => same_class (fst c) (snd c)) (combine pl l)
                   (List.length (filter (fun c => label_eqb (fst c) (snd c)) (combine pl l)))).
    { apply tally_filter. intros. apply label_eqb_spec. }
    assert (LE : (List.length (filter (fun c => label_eqb (fst c) (snd c)) (combine pl l)) <= n)%nat).
    { clear -TK LL. revert l LL n TK. induction pl as [|x pl IH]; intros [|z l] LL n TK; cbn in LL; try discriminate; [cbn; lia|].
      cbn [combine filter fst snd]. destruct (label_eqb x z) eqn:E.
      - apply label_eqb_spec in E. apply same_known in E as (E & _). unfold known in E.
        inversion TK; subst; [|contradiction]. cbn [List.length]. apply le_n_S. apply IH; auto.
      - inversion TK; subst; [|apply IH; auto]. assert (X := IH l ltac:(lia) k H3). lia. }
    destruct (ratio_bounds r _ _ NZ R LE) as (A & B & _).
    eexists. eexists. split; [reflexivity|]. repeat split; eauto.
  - intros N ->. assert (NL : List.length l <> O) by (destruct l; [congruence|discriminate]).
    rewrite (proj2 (Nat.eqb_neq _ _) NL). auto.
Qed.

(** One prediction per rule *)
Lemma names_eqb_spec a : forall b, names_eqb a b = true <-> a = b.
Proof.
  induction a as [|x a IH]; intros [|y b]; cbn; split; intros H; try discriminate; auto.
  - apply andb_prop in H as (X & Y). apply seqb_spec in X. apply IH in Y. congruence.
  - injection H as -> ->. rewrite (proj2 (seqb_spec y y) eq_refl). cbn. apply IH. auto.
Qed.

Lemma masked_tallies act (y l : list label) c j k : picks act y l -> bits act ->
  (forall d, In d l -> d <> LText "" /\ d <> LText "zero") ->
  tally (same_class c) l k -> tally (fun d => d <> LNum NaN) l j ->
  tally (fun d => same_class d c) (masked_column act y) k /\ tally (fun d => d <> LNum NaN) (masked_column act y) j.
Proof.
  intros P. revert j k. induction P as [|a x act y l N P IH|x act y l P IH]; intros j k B G K J.
  - inversion K; inversion J; subst. split; constructor.
  - inversion B as [|? ? Ba B']; subst. destruct Ba as [->| ->]; [contradiction|].
    unfold masked_column. cbn [map combine fst snd].
    assert (X : (same_class c x <-> same_class (masked 1 x) c) /\ (x <> LNum NaN <-> masked 1 x <> LNum NaN)).
    { destruct x as [v|s].
      - destruct (masked_on_num v) as (v' & -> & S).
        assert (NN : v = NaN <-> v' = NaN) by (destruct v, v'; cbn in S; split; intros; try discriminate; tauto).
        split; [|split; intros E E'; apply E; injection E'; intros; f_equal; tauto].
        destruct (same_class_dec (LNum v) (LNum v')) as [SC|SC].
        + split; intros; eauto using same_class_trans, same_class_sym.
        + assert (v = NaN) as Ev by (destruct v; auto; exfalso; apply SC; constructor; auto; discriminate).
          assert (Ev' := proj1 NN Ev). subst. split; intros E; apply same_known in E; unfold known in E; tauto.
      - destruct (G (LText s) (or_introl eq_refl)) as (G1 & G2). rewrite masked_on_text by congruence.
        split; [|tauto]. split; apply same_class_sym. }
    destruct X as (X1 & X2).
    assert (G' : forall d, In d l -> d <> LText "" /\ d <> LText "zero") by (intros; apply G; right; auto).
    inversion K as [|? ? ? K1 K2|? ? ? K1 K2]; subst; inversion J as [|? ? ? J1 J2|? ? ? J1 J2]; subst.
    + destruct (IH _ _ B' G' K2 J2). split; apply tally_yes; tauto.
    + destruct (IH _ _ B' G' K2 J2). split; [apply tally_yes|apply tally_no]; tauto.
    + destruct (IH _ _ B' G' K2 J2). split; [apply tally_no|apply tally_yes]; tauto.
    + destruct (IH _ _ B' G' K2 J2). split; apply tally_no; tauto.
  - inversion B as [|? ? Ba B']; subst. destruct (IH _ _ B' G K J) as (A1 & A2).
    unfold masked_column. cbn [map combine fst snd]. rewrite masked_off by (destruct (is_text x); auto).
    split; apply tally_no; auto.
    intros E. apply same_known in E as (E & _). apply E. auto.
Qed.

Lemma rate_columns t y cols p n m : is_target t y -> map fst p = map fst cols -> n <> O ->
  exists s, calc_classification_criterion (ActFrame cols) n (QByRule p) t m = Ok (RSeries s) /\
    map fst s = map fst cols /\
    forall i k act c e, nth_error cols i = Some (k, act) -> nth_error p i = Some (k, c) -> nth_error s i = Some (k, e) ->
      forall l j a, bits act -> picks act y l -> (forall d, In d l -> d <> LText "" /\ d <> LText "zero") ->
        tally (same_class c) l j -> tally (fun d => d <> LNum NaN) l a ->
        (a = O -> e = NaN) /\
        (a <> O -> exists r, e = Fin r /\ (r * inject_Z (Z.of_nat a) == inject_Z (Z.of_nat j))%Q /\ (0 <= r)%Q /\ (r <= 1)%Q).
Proof.
  intros T E N. unfold calc_classification_criterion. rewrite (one_dimensional_target t y T). cbn [rbind].
  rewrite (proj2 (Nat.eqb_neq _ _) N). unfold success_rate_columns. rewrite map_map. cbn [fst].
  assert (X : names_eqb (map (fun x : string * list Z => fst x) cols) (map fst p) = true) by (apply names_eqb_spec; symmetry; auto).
  rewrite X. cbn [negb]. eexists. split; [reflexivity|]. clear X.
  assert (L : List.length p = List.length cols) by (rewrite <- (map_length fst p), E, map_length; auto).
  split.
  - rewrite map_map. clear E T N. revert p L. induction cols as [|(k, act) t' IH]; intros [|q p] L; cbn in *; try discriminate; auto.
    f_equal. apply IH. lia.
  - intros i k act c e Ec Ep Es l j a B P G TJ TA.
    assert (Es' : e = success_rate_column c (masked_column act y)).
    { clear -Ec Ep Es. revert cols p Ec Ep Es. induction i as [|i IH]; intros [|c0 cols] [|p0 p] Ec Ep Es; cbn [nth_error map combine fst snd] in *; try discriminate.
      - injection Ec as ->. injection Ep as ->. cbn [fst snd] in Es. congruence.
      - eapply IH; eauto. }
    destruct (masked_tallies act y l c a j P B G TJ TA) as (T1 & T2).
    rewrite Es'. unfold success_rate_column.
    rewrite <- (tally_unique _ _ _ _ T2 (tally_known _)). rewrite count_true_map.
    assert (T3 : tally (fun d => same_class d c) (masked_column act y) (List.length (filter (fun v => label_eqb v c) (masked_column act y)))).
    { apply tally_filter. intros. apply label_eqb_spec. }
    rewrite <- (tally_unique _ _ _ _ T1 T3).
    assert (LE : (j <= a)%nat).
    { clear -TJ TA. revert a TA. induction TJ as [|x l k X T IH|x l k X T IH]; intros a TA; inversion TA; subst; try lia.
      - specialize (IH _ H3). lia.
      - exfalso. apply same_known in X as (_ & X). contradiction.
      - specialize (IH _ H3). lia.
      - specialize (IH _ H3). lia. }
    split.
    + intros ->. assert (j = O) as -> by lia. reflexivity.
    + intros NZ. destruct (ratio j a NZ) as (r & Er & R). exists r. destruct (ratio_bounds r j a NZ R LE) as (? & ? & _). auto.
Qed.

Lemma rate_errors a n p t m s :
  calc_classification_criterion ActNone n p t m = Err EType /\
  calc_classification_criterion ActOther n p t m = Err EType /\
  calc_classification_criterion (ActArray a) n QArray t m = Err EType /\
  (forall cols, calc_classification_criterion (ActFrame cols) n QArray t m = Err EType) /\
  (forall cols c, calc_classification_criterion (ActFrame cols) n (QLabel c) t m = Err EType) /\
  (forall cols q, calc_classification_criterion (ActFrame cols) n (QByRule q) YTable m = Err EValue) /\
  (forall cols q y, is_target t y -> n <> O -> map fst q <> map fst cols ->
     calc_classification_criterion (ActFrame cols) n (QByRule q) t m = Err EValue) /\
  (forall y l c, is_target t y -> picks a y l -> ~ ignoring_case s "success_rate" ->
     calc_classification_criterion (ActArray a) n (QLabel c) t (Some s) = Err EValue) /\
  (forall y l c, is_target t y -> picks a y l -> ~ ignoring_case s "success_rate" -> List.length c = List.length a ->
     calc_classification_criterion (ActArray a) n (QSeries c) t (Some s) = Err EValue) /\
  (forall y l c, is_target t y -> picks a y l -> List.length c <> List.length a ->
     calc_classification_criterion (ActArray a) n (QSeries c) t m = Err EIndex).
Proof.
  assert (X : ~ ignoring_case s "success_rate" -> str_eqb (lower s) "success_rate" = false).
  { intros H. destruct (str_eqb (lower s) "success_rate") eqn:E; auto. apply seqb_spec in E.
    exfalso. apply H. apply ignoring_case_lower. auto. }
  repeat split; auto.
  - intros cols q y T N NE. unfold calc_classification_criterion. rewrite (one_dimensional_target t y T). cbn [rbind].
    rewrite (proj2 (Nat.eqb_neq _ _) N). unfold success_rate_columns. rewrite map_map. cbn [fst].
    destruct (names_eqb (map (fun x : string * list Z => fst x) cols) (map fst q)) eqn:E; auto.
    apply names_eqb_spec in E. exfalso. apply NE. symmetry. exact E.
  - intros y l c T P NI. unfold calc_classification_criterion. rewrite (flat_target t y T). cbn [rbind].
    rewrite (extract_picks a y l P). cbn [rbind]. rewrite (X NI). auto.
  - intros y l c T P NI L. unfold calc_classification_criterion. rewrite (flat_target t y T). cbn [rbind].
    rewrite (extract_picks a y l P). cbn [rbind]. rewrite (X NI), L, Nat.eqb_refl. auto.
  - intros y l c T P NL. unfold calc_classification_criterion. rewrite (flat_target t y T). cbn [rbind].
    rewrite (extract_picks a y l P). cbn [rbind]. rewrite (proj2 (Nat.eqb_neq _ _) NL). auto.
Qed.

(** ** numpy.bincount(y).argmax() *)

Lemma occurrences_tally l v : tally (eq v) l (occurrences l v).
Proof. unfold occurrences. apply tally_filter. intros x _. apply Nat.eqb_eq. Qed.

Lemma arg_max_spec (f : nat -> nat) : forall l b, (forall v, In v l -> (b <= v)%nat) -> StronglySorted lt l ->
  let r := arg_max b (f b) (map (fun v => (v, f v)) l) in
  (r = b \/ In r l) /\ (f b <= f r)%nat /\ (f b = f r -> r = b) /\
  forall v, In v l -> (f v < f r)%nat \/ (f v = f r /\ (r <= v)%nat).
Proof.
  induction l as [|x t IH]; intros b H S; cbn [map arg_max].
  - repeat split; auto. intros v [].
  - inversion S as [|? ? S' F]; subst. rewrite Forall_forall in F. destruct (f b <? f x)%nat eqn:E.
    + apply Nat.ltb_lt in E. destruct (IH x) as (I & L & U & M); auto.
      { intros v Hv. specialize (F v Hv). lia. }
      cbv zeta in *. set (r := arg_max x (f x) (map (fun v => (v, f v)) t)) in *. repeat split.
      * destruct I as [->|I]; right; [left|right]; auto.
      * lia.
      * lia.
      * intros v [<-|Hv]; auto. destruct (Nat.eq_dec (f x) (f r)); [right; rewrite (U e); auto|left; lia].
    + apply Nat.ltb_ge in E. destruct (IH b) as (I & L & U & M); auto.
      { intros v Hv. apply H. right; auto. }
      cbv zeta in *. set (r := arg_max b (f b) (map (fun v => (v, f v)) t)) in *. repeat split; auto.
      * destruct I as [->|I]; [left|right; right]; auto.
      * intros v [<-|Hv]; auto. destruct (Nat.eq_dec (f x) (f r)) as [Q|]; [|left; lia]. right. split; auto.
        rewrite (U ltac:(lia)). apply H. left; auto.
Qed.

Lemma occurrences_zero y v : ~ In v y -> occurrences y v = O.
Proof.
  intros NI. unfold occurrences. induction y as [|x t IH]; auto. cbn [filter].
  destruct (Nat.eqb v x) eqn:E; [apply Nat.eqb_eq in E; subst; exfalso; apply NI; left; auto|].
  apply IH. intros X. apply NI. right; auto.
Qed.

Lemma most_common_spec y : y <> [] ->
  exists v, most_common y = Ok v /\ In v y /\ exists k, tally (eq v) y k /\
    forall w j, tally (eq w) y j -> (j < k)%nat \/ (j = k /\ (v <= w)%nat).
Proof.
  intros N. unfold most_common. destruct y as [|y0 ys] eqn:Ey; [congruence|]. rewrite <- Ey in *. clear Ey.
  set (vs := seq 0 (S (list_max y))).
  destruct (arg_max_spec (occurrences y) vs 0) as (I & L & U & M).
  { intros; lia. }
  { unfold vs. generalize (S (list_max y)) as n. generalize O. intros a n. revert a. induction n as [|n IH]; intros a; cbn [seq]; constructor; auto.
    apply Forall_forall. intros x Hx. apply in_seq in Hx. lia. }
  cbv zeta in *. set (r := arg_max 0 (occurrences y 0) (map (fun v => (v, occurrences y v)) vs)) in *.
  assert (MEM : forall w, In w y -> In w vs).
  { intros w Hw. apply in_seq. assert (X := proj1 (list_max_le y (list_max y)) (le_n _)). rewrite Forall_forall in X. specialize (X w Hw). lia. }
  assert (POS : (0 < occurrences y r)%nat).
  { assert (Hy : exists w, In w y) by (destruct y as [|w t]; [congruence|exists w; left; auto]). destruct Hy as (w & Hw).
    assert (PW : (0 < occurrences y w)%nat) by (apply (tally_pos (eq w) y _ w (occurrences_tally y w)); auto).
    destruct (M w (MEM w Hw)); lia. }
  exists r. split; auto. split.
  - destruct (in_dec Nat.eq_dec r y) as [|NI]; auto. exfalso.
    assert (Z := occurrences_zero y r NI). lia.
  - exists (occurrences y r). split; [apply occurrences_tally|]. intros w j TJ.
    rewrite <- (tally_unique _ _ _ _ (occurrences_tally y w) TJ).
    destruct (in_dec Nat.eq_dec w y) as [Hw|NI]; [apply M; auto|]. left.
    assert (Z := occurrences_zero y w NI). lia.
Qed.

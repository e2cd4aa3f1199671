(** RuleSet.predict: which algorithm runs, errors, agreement. *)
From Coq Require Import List ZArith QArith Bool String Ascii Lia Lqa.
From Coq Require Import List.
From Verif Require Import Base Num Arith CondModel CondSpec CondBase ThrModel ThrProofs MetModel MetSpec MetReg MetClass RuleModel
  RuleSpec RuleProofs RuleValues RuleEval RuleMisc PredModel PredSpec PredReg PredEqual PredStack PredVote PredMode.
Import ListNotations.
Open Scope string_scope.
Open Scope list_scope.
Open Scope Z_scope.

Lemma route_unstacked E sf shared k rules st xs w : unstacked sf st -> rules <> [] ->
  predict_rules E sf shared (Some k) rules st xs w = predict_unstacked E shared k rules xs w.
Proof. intros U R. unfold predict_rules. destruct rules; [congruence|]. destruct U as [->| ->]; auto. destruct sf; auto. Qed.

Lemma predict_nothing E sf shared k rules st xs w : rules = [] \/ k = None ->
  predict_rules E sf shared k rules st xs w = (Ok Empty, rules).
Proof. intros [->| -> ]; auto. destruct rules; auto. Qed.

Lemma predict_untyped E sf shared rules st xs ws : unstacked sf st -> rules <> [] ->
  (forall ws', ws = Some ws' -> exists s, ws' = WSeries s) ->
  fst (predict_rules E sf shared (Some KRule) rules st xs ws) = Err EType.
Proof.
  intros U R W. rewrite route_unstacked by auto. unfold predict_unstacked. destruct ws as [w|]; auto.
  destruct (W w eq_refl) as (s & ->). auto.
Qed.

(** ** Regression without stacked activations *)

Lemma weighted_means E sf shared rules st xs ws bs n :
  unstacked sf st -> NoDup (map fst ws) -> collected (casts E ws regression_number xs) rules bs -> rows n bs -> starts_well bs ->
  exists l, fst (predict_rules E sf shared (Some KRegression) rules st xs (Some (WSeries ws))) = Ok (Numbers l) /\
    each_row n NaN l (fun i x => weighs i bs -> sum_counts i bs -> is_mean i bs x).
Proof.
  intros U N C R H. destruct (weighted_unstacked E rules ws xs bs n N C R H) as (l & L & P). exists l. split; auto.
  rewrite route_unstacked; auto.
  - unfold predict_unstacked. cbn [weights_of rbind fst]. rewrite L. auto.
  - intros ->. inversion C; subst. destruct H as [(b & H)|(b & t & H & _)]; discriminate.
Qed.

Lemma equal_means E sf shared rules st xs bs n :
  unstacked sf st -> collected (casts_one regression_number xs) rules bs -> rows n bs -> starts_well bs ->
  exists l, fst (predict_rules E sf shared (Some KRegression) rules st xs None) = Ok (Numbers l) /\
    each_row n NaN l (fun i x => (List.length (at_row i bs) < 256)%nat -> sum_counts i bs -> is_mean i bs x).
Proof.
  intros U C R H. destruct (equal_unstacked shared rules xs bs n C R H) as (l & L & P). exists l. split; auto.
  rewrite route_unstacked; auto.
  - unfold predict_unstacked. destruct (equal_regressor_unstacked shared rules xs) as (o & rs). cbn [fst] in *. rewrite L. auto.
  - intros ->. inversion C; subst. destruct H as [(b & H)|(b & t & H & _)]; discriminate.
Qed.

(** ** Classification without stacked activations *)

Lemma each_class n l (P : nat -> label -> Prop) : each_row n (LNum NaN) l P ->
  each_row n Frame (map Class l) (fun i x => exists c, x = Class c /\ P i c).
Proof.
  intros (L & H). split; [rewrite map_length; auto|]. intros i I. rewrite nth_map with (d := LNum NaN) by lia. eauto.
Qed.

Lemma weighted_classes E sf shared rules st xs ws bs n :
  unstacked sf st -> NoDup (map fst ws) -> all_present xs rules -> collected (casts E ws class_object xs) rules bs -> rows n bs ->
  fair bs -> somebody n bs ->
  exists l, fst (predict_rules E sf shared (Some KClassification) rules st xs (Some (WSeries ws))) = Ok (Outcomes l) /\
    each_row n Frame l (fun i x => exists c, x = Class c /\ is_verdict i bs c).
Proof.
  intros U N A C R F S. destruct (weighted_votes E rules ws xs bs n N A C R F S) as (l & L & P). exists (map Class l).
  split; [|apply each_class; auto]. rewrite route_unstacked; auto.
  - unfold predict_unstacked. cbn [weights_of rbind fst]. rewrite L. auto.
  - eapply collected_nonempty; eauto.
Qed.

Lemma equal_classes E sf shared rules st xs bs n :
  unstacked sf st -> (forall r, In r rules -> exists s, called E r s) -> all_present xs rules ->
  collected (casts_one class_object xs) rules bs -> rows n bs -> (forall b, In b bs -> comparable (b_value b)) -> somebody n bs ->
  exists l, fst (predict_rules E sf shared (Some KClassification) rules st xs None) = Ok (Outcomes l) /\
    each_row n Frame l (fun i x => exists c, x = Class c /\ is_verdict i bs c).
Proof.
  intros U N A C R F S. destruct (equal_votes E rules xs bs n N A C R F S) as (l & L & P). exists (map Class l).
  split; [|apply each_class; auto]. rewrite route_unstacked; auto.
  - unfold predict_unstacked. cbn [fst]. rewrite L. auto.
  - eapply collected_nonempty; eauto.
Qed.

(** ** Weights given by the name of an attribute *)

Lemma weights_by_name E rules a ws : rules <> [] -> attribute_values E rules a ws -> weights_of E rules (WName a) = Ok ws.
Proof.
  intros R (F & N). unfold weights_of.
  rewrite (by_name_ok E _ rules (map (fun p => (fst p, number (snd p))) ws)).
  - cbn [rbind]. unfold number_series.
    replace (forallb _ _) with false by (destruct ws; [inversion F; congruence|auto]).
    rewrite map_map. clear. induction ws as [|[s x] t IH]; auto. cbn [map rseq fst snd rbind]. cbn [map rseq fst snd rbind] in IH.
    rewrite IH. auto.
  - apply forall2_map. cbn [fst snd]. eapply forall2_weaken; [|exact F]. intros r p (C & G). split; auto. apply called_name. auto.
  - rewrite map_map. auto.
Qed.

Lemma attribute_weights E sf shared k rules st xs a ws : attribute_values E rules a ws ->
  predict_rules E sf shared k rules st xs (Some (WName a)) = predict_rules E sf shared k rules st xs (Some (WSeries ws)).
Proof.
  intros A. unfold predict_rules. destruct rules as [|r t]; auto. destruct k as [k|]; auto.
  assert (W : weights_of E (r :: t) (WName a) = Ok ws) by (apply weights_by_name; auto; discriminate).
  destruct (if sf then st else None) as [f|].
  - f_equal. destruct (match xs with Some _ => _ | None => _ end) as [g|e]; auto. cbn [rbind]. unfold predict_stacked.
    destruct (by_name E prediction (r :: t)) as [ps|e]; auto. cbn [rbind]. destruct (prediction r) as [p|e]; auto. cbn [rbind].
    destruct k; auto.
    + rewrite W. auto.
    + destruct p as [[]| | | | ]; rewrite ?W; auto.
    + destruct p as [[]| | | | ]; rewrite ?W; auto.
  - unfold predict_unstacked. rewrite W. auto.
Qed.

(** ** The rules afterwards *)

Lemma predict_keeps E sf shared k rules st xs w :
  shared = false \/ xs <> None \/ w <> None \/ k <> Some KRegression \/ (sf = true /\ st <> None) ->
  snd (predict_rules E sf shared k rules st xs w) = rules.
Proof.
  intros H. unfold predict_rules. destruct rules as [|r t]; auto. destruct k as [k|]; auto.
  destruct (if sf then st else None) as [f|] eqn:S; auto. unfold predict_unstacked. destruct w; auto. destruct k; auto.
  assert (K := equal_keeps shared (r :: t) xs). destruct (equal_regressor_unstacked shared (r :: t) xs) as (o & rs).
  cbn [snd] in *. apply K. destruct H as [H|[H|[H|[H|(-> & H)]]]]; auto; try congruence.
Qed.

(** ** Errors *)

Lemma weighted_first_zero E sf shared rules st xs ws b b2 t n :
  unstacked sf st -> NoDup (map fst ws) ->
  collected (casts E ws regression_number xs) rules (b :: b2 :: t) -> rows n (b :: b2 :: t) -> (b_value b == 0)%Q ->
  (exists i, (i < n)%nat /\ active i b) ->
  fst (predict_rules E sf shared (Some KRegression) rules st xs (Some (WSeries ws))) = Err EType.
Proof.
  intros U N C R V (i & I & A). destruct (loop_first E ws xs N rules b (b2 :: t) C n R) as (B & t' & cum & cumw & C' & L & -> & SW).
  destruct rules as [|r rules]; [inversion C|]. rewrite route_unstacked by (auto; discriminate).
  unfold predict_unstacked. cbn [weights_of rbind fst]. unfold weighted_regressor_unstacked. rewrite L.
  assert (LB : List.length (b_active b) = n) by (apply R; left; auto).
  assert (LB2 : List.length (b_active b2) = n) by (apply R; right; left; auto).
  set (cells := map (fun a => if a =? 0 then NaN else Fin (b_value b * inject_Z a * b_weight b)) (b_active b)).
  assert (Y : weighted_loop E ws xs t' (Some (cells, cumw)) = Err EType); [|rewrite Y; auto].
  clear L C. remember (b2 :: t) as bs eqn:X. induction C' as [|q u bs' Cq _ IH|q u b' bs' Cq _ _]; [discriminate| |].
  - cbn [weighted_loop]. rewrite step_ignored by auto. cbn [rbind]. auto.
  - injection X as -> ->. cbn [weighted_loop]. inversion Cq as [| |s w p v S Iw W (F & P & K & Bv & Vn)]; subst. cbn [b_active] in *.
    unfold weighted_step. rewrite (called_name E q s S). cbn [rbind]. rewrite (weight_found ws s w); auto. cbn [rbind].
    rewrite (usable_working xs q v); auto. cbn [rbind]. rewrite prediction_attr in P. rewrite P.
    cbn [rbind regression_number number times_prediction]. unfold accumulate.
    rewrite broadcasts_true, same_length_true by (unfold cells; rewrite !map_length; congruence). cbn [negb].
    replace (existsb (fun x => neqb x (Fin 0)) cells) with true; auto.
    symmetry. apply existsb_exists. exists (nth i cells NaN). split; [apply nth_In; unfold cells; rewrite map_length; congruence|].
    unfold cells. rewrite nth_map with (d := 0) by congruence. unfold active in A. rewrite A. cbn [Z.eqb neqb]. apply Qeq_bool_iff. rewrite V. ring.
Qed.

Lemma equal_zero_first E sf shared rules st xs b b2 t n :
  unstacked sf st -> collected (casts_one regression_number xs) rules (b :: b2 :: t) -> rows n (b :: b2 :: t) -> (b_value b == 0)%Q ->
  (exists i, (i < n)%nat /\ active i b) ->
  fst (predict_rules E sf shared (Some KRegression) rules st xs None) = Err EType.
Proof.
  intros U C R V A. pose proof (equal_first_zero shared rules xs b b2 t n C R V A) as H. rewrite route_unstacked; auto.
  - unfold predict_unstacked. destruct (equal_regressor_unstacked shared rules xs) as (o & rs). cbn [fst] in *. rewrite H. auto.
  - intros ->. inversion C.
Qed.

Lemma equal_sum_zero E sf shared rules st xs b b2 t n :
  unstacked sf st -> collected (casts_one regression_number xs) rules (b :: b2 :: t) -> rows n (b :: b2 :: t) -> ~ (b_value b == 0)%Q ->
  exists l, fst (predict_rules E sf shared (Some KRegression) rules st xs None) = Ok (Numbers l) /\
    each_row n NaN l (fun i x => (total i (b :: b2 :: t) == 0)%Q -> x = NaN).
Proof.
  intros U C R V. destruct (equal_zero_total shared rules xs b b2 t n C R V) as (l & L & H). exists l. split; auto. rewrite route_unstacked; auto.
  - unfold predict_unstacked. destruct (equal_regressor_unstacked shared rules xs) as (o & rs). cbn [fst] in *. rewrite L. auto.
  - intros ->. inversion C.
Qed.

Lemma weighted_sum_zero E sf shared rules st xs ws b b2 t n :
  unstacked sf st -> NoDup (map fst ws) ->
  collected (casts E ws regression_number xs) rules (b :: b2 :: t) -> rows n (b :: b2 :: t) -> ~ (b_value b == 0)%Q ->
  exists l, fst (predict_rules E sf shared (Some KRegression) rules st xs (Some (WSeries ws))) = Ok (Numbers l) /\
    each_row n NaN l (fun i x => (total i (b :: b2 :: t) == 0)%Q -> x = NaN).
Proof.
  intros U N C R V. destruct (loop_first E ws xs N rules b (b2 :: t) C n R) as (B & t' & cum & cumw & C' & L & -> & SW).
  assert (RN : rules <> []) by (intros ->; inversion C).
  assert (LB : List.length (b_active b) = n) by (apply R; left; auto).
  destruct (collected_in _ _ _ C b) as (r' & _ & Cb); [left; auto|]. apply vote_weight in Cb.
  destruct (loop_next E ws xs N t' (b2 :: t) C' n [b] (Some (map (fun a => if a =? 0 then NaN else Fin (b_value b * inject_Z a * b_weight b)) (b_active b), cumw)))
      as (acc & LL & (cum & cw & -> & SC & SW')).
  { intros x X. apply R. right. auto. }
  { eexists. eexists. split; [reflexivity|]. split; auto. apply first_total; auto. }
  rewrite LL in L. destruct SC as (LC & SC). destruct SW' as (LW & SW').
  exists (zip_with ndiv cum cw). split.
  - rewrite route_unstacked; auto. unfold predict_unstacked. cbn [weights_of rbind fst]. unfold weighted_regressor_unstacked.
    destruct rules as [|r rules]; [congruence|]. rewrite L. cbn [rbind]. unfold quotient. rewrite same_length_true by congruence. auto.
  - split; [rewrite zip_length; congruence|]. intros i I Z. rewrite zip_nth with (a := NaN) (b := NaN) by congruence.
    destruct (SC i I) as [(-> & _)|(q & _ & Q1 & Q2)]; auto. exfalso. apply Q2. rewrite Q1. auto.
Qed.

Lemma weighted_nobody E sf shared rules st xs ws :
  unstacked sf st -> NoDup (map fst ws) -> rules <> [] -> collected (casts E ws regression_number xs) rules [] ->
  fst (predict_rules E sf shared (Some KRegression) rules st xs (Some (WSeries ws))) = Err EValue.
Proof.
  intros U N R C. rewrite route_unstacked by auto. unfold predict_unstacked. cbn [weights_of rbind fst]. unfold weighted_regressor_unstacked.
  destruct rules as [|r rules]; [congruence|]. rewrite (loop_none E ws xs N); auto.
Qed.

Lemma equal_without E sf shared rules st xs :
  unstacked sf st -> rules <> [] -> collected (casts_one regression_number xs) rules [] ->
  fst (predict_rules E sf shared (Some KRegression) rules st xs None) = Err EValue.
Proof.
  intros U R C. rewrite route_unstacked by auto. unfold predict_unstacked. rewrite (equal_nobody shared rules xs); auto.
Qed.

(** ** Agreement *)

Lemma mean_unique i bs x y : is_mean i bs x -> is_mean i bs y -> same_num x y.
Proof.
  intros [(H & ->)|((b & I & A) & q & -> & Q1)] [(H' & ->)|((b' & I' & A') & q' & -> & Q2)]; cbn; auto.
  - destruct (H b' I'). auto.
  - destruct (H' b I). auto.
  - rewrite Q1, Q2. reflexivity.
Qed.

Lemma both_rows {A} n (d : A) l l' (P Q : nat -> A -> Prop) (R : nat -> Prop) (S : A -> A -> Prop) :
  each_row n d l (fun i x => R i -> P i x) -> each_row n d l' Q -> (forall i x y, P i x -> Q i y -> S x y) ->
  List.length l = List.length l' /\ forall i, (i < n)%nat -> R i -> S (nth i l d) (nth i l' d).
Proof. intros (L & H) (L' & H') K. split; [congruence|]. eauto. Qed.

Lemma equal_agree E sf shared shared' rules st st' xs bs n :
  unstacked sf st -> stacks E xs rules n st' -> predicts_numbers rules ->
  collected (casts_one regression_number xs) rules bs -> rows n bs -> starts_well bs ->
  exists l l', fst (predict_rules E sf shared (Some KRegression) rules st xs None) = Ok (Numbers l) /\
    fst (predict_rules E true shared' (Some KRegression) rules (Some st') xs None) = Ok (Numbers l') /\
    List.length l = n /\ List.length l' = n /\
    forall i, (i < n)%nat -> (List.length (at_row i bs) < 256)%nat -> sum_counts i bs -> same_num (nth i l NaN) (nth i l' NaN).
Proof.
  intros U S P C R H. destruct (equal_means E sf shared rules st xs bs n U C R H) as (l & L & L1 & L2).
  destruct (equal_stacked E shared' rules st' xs bs n S) as (l' & L' & L1' & L2'); auto.
  { intros ->. inversion C; subst. destruct H as [(b & H)|(b & t & H & _)]; discriminate. }
  exists l, l'. split; auto. split; auto. split; auto. split; auto. intros i I A B. eapply mean_unique; eauto.
Qed.

Lemma weighted_agree E sf shared shared' rules st st' xs ws bs n :
  unstacked sf st -> stacks E xs rules n st' -> predicts_numbers rules -> NoDup (map fst ws) ->
  collected (casts E ws regression_number xs) rules bs -> rows n bs -> starts_well bs -> somebody n bs ->
  exists l l', fst (predict_rules E sf shared (Some KRegression) rules st xs (Some (WSeries ws))) = Ok (Numbers l) /\
    fst (predict_rules E true shared' (Some KRegression) rules (Some st') xs (Some (WSeries ws))) = Ok (Numbers l') /\
    List.length l = n /\ List.length l' = n /\
    forall i, (i < n)%nat -> weighs i bs -> sum_counts i bs -> same_num (nth i l NaN) (nth i l' NaN).
Proof.
  intros U S P N C R H SB. destruct (weighted_means E sf shared rules st xs ws bs n U N C R H) as (l & L & L1 & L2).
  destruct (weighted_stacked E shared' rules st' xs ws bs n S P N C SB) as (l' & L' & L1' & L2').
  exists l, l'. split; auto. split; auto. split; auto. split; auto. intros i I A B. eapply mean_unique; eauto.
Qed.

(** Two winning classes at a row are the same. *)
Lemma winner_unique i bs c d : fair bs -> wins i bs c -> wins i bs d -> same_class c d.
Proof.
  intros F (p & P1 & P2 & P3) (q & Q1 & Q2 & Q3). pose proof (favors_favor _ _ _ _ P1) as P4. pose proof (favors_favor _ _ _ _ Q1) as Q4.
  destruct (same_class_dec c d) as [S|S]; auto. exfalso.
  rewrite P4 in P2. rewrite Q4 in Q2. apply favor_pos in P2 as (b & B1 & B2 & B3); auto. apply favor_pos in Q2 as (b' & B1' & B2' & B3'); auto.
  assert (X : (favor i (b_value b') bs < p)%Q).
  { apply (P3 b'); auto; [|apply favor_favors]. intros Y. apply S. eapply same_class_trans; [exact Y|apply same_class_sym; auto]. }
  assert (Y : (favor i (b_value b) bs < q)%Q).
  { apply (Q3 b); auto; [|apply favor_favors]. intros Y. apply S. eapply same_class_trans; [exact B3|apply same_class_sym; auto]. }
  rewrite <- (favor_same i d (b_value b')) in X by auto. rewrite <- (favor_same i c (b_value b)) in Y by auto. lra.
Qed.

Lemma votes_agree E sf shared shared' rules st st' xs bs n i j :
  unstacked sf st -> stacks E xs rules n st' -> predicts_texts rules \/ predicts_numbers rules ->
  collected (casts_one class_object xs) rules bs -> rows n bs -> (forall b, In b bs -> comparable (b_value b)) ->
  (i < j)%nat -> (j < n)%nat -> (exists c, wins i bs c) -> (exists c, wins j bs c) ->
  exists l l', fst (predict_rules E sf shared (Some KClassification) rules st xs None) = Ok (Outcomes l) /\
    fst (predict_rules E true shared' (Some KClassification) rules (Some st') xs None) = Ok (Outcomes l') /\
    List.length l = n /\ List.length l' = n /\
    forall k, (k < n)%nat -> exists c d, nth k l Frame = Class c /\ nth k l' Frame = Class d /\
      (same_class c d \/ c = LNum NaN /\ d = LNum NaN).
Proof.
  intros U S P C R CM I J Wi Wj.
  assert (FA : fair bs). { intros b B. split; auto. destruct (one_weight _ _ _ _ C b B) as (-> & _). reflexivity. }
  assert (SB : somebody n bs).
  { destruct Wi as (c & q & Q1 & Q2 & _). apply favors_favor in Q1. rewrite Q1 in Q2. apply favor_pos in Q2 as (b & B1 & B2 & _); auto.
    exists b, i. split; auto. split; auto. lia. }
  destruct S as (columns & V & X).
  destruct (equal_classes E sf shared rules st xs bs n) as (l & L & L1 & L2); auto.
  { intros r Ir. destruct V as (V & _). clear -V Ir. induction V as [|a c l m (H & _) _ IH]; [contradiction|]. destruct Ir as [->|Ir]; eauto. }
  { intros r Ir. destruct xs; [left; discriminate|]. right. destruct V as (V & _). clear -V Ir.
    induction V as [|a c l m (_ & H & _) _ IH]; [contradiction|]. destruct Ir as [->|Ir]; auto. destruct H as (a & A & _). congruence. }
  destruct (equal_votes_stacked E shared' rules st' xs bs n) as (l' & L' & PT & _); auto.
  { exists columns. auto. }
  { eapply collected_nonempty; eauto. }
  destruct (PT i j I J Wi Wj) as (L1' & L2'). exists l, l'. split; auto. split; auto. split; auto. split; auto.
  intros k K. destruct (L2 k K) as (c & -> & H). exists c. destruct (L2' k K) as [(d & W & ->)|(W & ->)]; eexists; split; auto; split; eauto.
  - destruct H as [(c' & W' & Sc)|(W' & _)]; [|destruct (W' d); auto]. left.
    eapply same_class_trans; [apply same_class_sym; exact Sc|]. eapply winner_unique; eauto.
  - destruct H as [(c' & W' & Sc)|(W' & ->)]; [destruct (W c'); auto|]. auto.
Qed.

(** ** The counter of the active rules is a byte. *)

Lemma equal_wraps E sf shared rules st xs bs n i :
  unstacked sf st -> collected (casts_one regression_number xs) rules bs -> rows n bs ->
  (exists b t, bs = b :: t /\ ~ (b_value b == 0)%Q) -> (i < n)%nat -> List.length (at_row i bs) = 256%nat -> (0 < total i bs)%Q ->
  exists l, fst (predict_rules E sf shared (Some KRegression) rules st xs None) = Ok (Numbers l) /\ nth i l NaN = PInf.
Proof.
  intros U C R (b & t & -> & V) I A T. destruct (equal_start xs rules b t C) as (B & W & t' & C' & L).
  assert (RN : rules <> []) by (intros ->; inversion C).
  assert (LB : List.length (b_active b) = n) by (apply R; left; auto).
  destruct (equal_rest xs t' t C' n [b] (Some (first_cells b, b_active b)))
      as (acc & LL & (cum & cw & -> & SC & SW')).
  { intros x X. apply R. right. auto. }
  { eexists. eexists. split; [reflexivity|]. split; [|apply first_bits; auto].
    pose proof (first_total b n B LB V) as T'. rewrite W in T'. specialize (T' ltac:(discriminate)).
    destruct T' as (_ & T'). destruct (first_cells_eq b W) as (L1 & L2). split; [congruence|]. intros k K.
    specialize (T' k K). rewrite nth_map with (d := 0) in T' by congruence. rewrite L2 by congruence.
    destruct (nth k (b_active b) 0 =? 0); auto. destruct T' as [T'|(q & T' & Q1 & Q2)]; [destruct T'; discriminate|].
    right. eexists. split; [reflexivity|]. injection T' as T'. subst q.
    split; [rewrite <- Q1; ring|]. intros Z. apply Q2. rewrite Z. ring. }
  rewrite LL in L. destruct SC as (LC & SC). destruct SW' as (LW & SW').
  exists (zip_with ndiv cum (map numz cw)). split.
  - rewrite route_unstacked; auto. unfold predict_unstacked, equal_regressor_unstacked. destruct rules as [|r rules]; [congruence|].
    rewrite L. unfold quotient. rewrite same_length_true by (rewrite map_length; congruence). auto.
  - rewrite zip_nth with (a := NaN) (b := NaN) by (rewrite ?map_length; congruence). rewrite nth_map with (d := 0) by congruence.
    assert (X := SW' i I). unfold is_count in X. change ([b] ++ t) with (b :: t) in *. rewrite A in X. rewrite X. change (Z.of_nat 256 mod 256) with 0.
    destruct (SC i I) as [(_ & Z)|(q & -> & Q1 & Q2)]; [rewrite Z in T; discriminate|]. cbn [ndiv numz]. cbn.
    unfold signed_inf. destruct (Qeq_bool q 0) eqn:Y; [apply Qeq_bool_iff in Y; contradiction|].
    destruct (qltb q 0) eqn:Z; auto. exfalso. rewrite <- Q1 in T. apply qltb_spec in Z. lra.
Qed.

(** ** Classification: a weighted rule without activation *)

Lemma vote_missing E sf shared rules st ws r t s w :
  unstacked sf st -> NoDup (map fst ws) -> rules = r :: t -> called E r s -> In (s, Fin w) ws -> ~ (w == 0)%Q -> r_act r = None ->
  fst (predict_rules E sf shared (Some KClassification) rules st None (Some (WSeries ws))) = Err EAttr.
Proof.
  intros U N -> C I W A. rewrite route_unstacked by (auto; discriminate). unfold predict_unstacked. cbn [weights_of rbind fst].
  unfold weighted_classificator_unstacked. cbn [vote_loop]. unfold vote_step. rewrite (called_name E r s C). cbn [rbind].
  rewrite (weight_found ws s w); auto. cbn [rbind]. unfold activation_vector. rewrite A. auto.
Qed.

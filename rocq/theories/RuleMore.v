(** More proofs about rules: computations that succeed, and histories. *)
From Coq Require Import List ZArith QArith Bool String Ascii Lia Lqa.
From Coq Require Import List.
From Verif Require Import Base Num Arith CondModel CondSpec CondBase ThrModel ThrSpec ThrProofs MetModel MetSpec
  MetReg MetClass RuleModel RuleSpec RuleProofs RuleFit RuleValues RuleEval RuleMisc RuleRoute.
Import ListNotations.
Open Scope string_scope.
Open Scope list_scope.
Open Scope Z_scope.

Section FREE.
Variables (E : env) (k : kind).
Hypothesis T : class_thresholds (e_classes E) k = None.

Lemma free_check a r : r_kind r = k -> check_attribute E a r = (Ok tt, r).
Proof. intros K. unfold check_attribute. rewrite K, T. auto. Qed.

Lemma free_step a t y act kw force r r1 : a <> "activation" -> r_good r = true \/ force = true -> r_kind r1 = k ->
  launch E a y act kw r = (Ok tt, r1) -> compute E (a :: t) y act kw force r = compute E t y act kw force r1.
Proof.
  intros N G K L. cbn [compute]. rewrite str_neq by auto.
  assert (B : negb (r_good r) && negb force = false) by (destruct G as [-> | ->]; [auto|apply andb_false_r]).
  rewrite B, L. cbn [andthen]. rewrite free_check by auto. destruct (r_good r1); auto.
Qed.

Lemma free_activation xs kw r act : r_kind r = k -> starts r xs kw -> working r xs act ->
  exists r1 a, calc_activation E xs r = (Ok tt, r1) /\ r_kind r1 = k /\ r_act r1 = Some a /\ raw a = Ok act /\
    r_good r1 = r_good r /\ (forall m, m <> "_time_calc_activation" -> slot m r1 = slot m r).
Proof.
  intros K (_ & X) W. destruct xs as [t|]; cbn in W.
  - destruct W as (c & C & Ev). apply Nat.eqb_neq in X.
    unfold calc_activation, evaluate_activation. rewrite X, C, Ev. cbn [rmap step]. rewrite free_check by auto.
    do 2 eexists. split; [reflexivity|]. split; auto. split; [reflexivity|]. split; auto. split; auto.
    intros m N. unfold put_time. rewrite slot_put_other by auto. auto.
  - destruct W as (a & A & R). exists r, a. unfold calc_activation. rewrite A. auto 7.
Qed.

Lemma free_end r : r_kind r = k -> e_subattributes E = false ->
  andthen (if r_good r then check_all E r else (Ok tt, r)) (fun r =>
  andthen (if e_subattributes E then (trigger r, r) else (Ok tt, r)) (fun r =>
  (Ok tt, with_fitted (put_time E "_time_fit" r)))) = (Ok tt, with_fitted (put_time E "_time_fit" r)).
Proof.
  intros K Sb. rewrite Sb.
  assert (C : (if r_good r then check_all E r else (Ok tt, r)) = (Ok tt, r)).
  { destruct (r_good r); auto. unfold check_all. rewrite K, T. auto. }
  rewrite C. auto.
Qed.

Lemma fit_runs xs y kw force r : starts r xs kw ->
  fit E y xs force kw r = andthen (calc_activation E xs r) (fun r =>
    andthen (compute E (train_attributes (r_kind r)) y None kw force r) (fun r =>
    andthen (if r_good r then check_all E r else (Ok tt, r)) (fun r =>
    andthen (if e_subattributes E then (trigger r, r) else (Ok tt, r)) (fun r =>
    (Ok tt, with_fitted (put_time E "_time_fit" r)))))).
Proof.
  intros (K & X). unfold fit. rewrite K. destruct xs as [t|].
  - rewrite andb_false_r. apply Nat.eqb_neq in X. rewrite X. auto.
  - rewrite X. auto.
Qed.
End FREE.

Lemma mean_total act ys l : picks act ys l -> exists m, conditional_mean (ActArray act) (YVector ys) = Ok (MNum m).
Proof.
  intros P. unfold conditional_mean. cbn [flat rbind]. rewrite (extract_picks _ _ _ P). cbn [rbind].
  destruct (_ =? _)%nat; eauto.
Qed.

Lemma std_total sqrt act ys l : picks act ys l -> exists m, conditional_std sqrt (ActArray act) (YVector ys) = Ok (MNum m).
Proof.
  intros P. unfold conditional_std. cbn [flat rbind]. rewrite (extract_picks _ _ _ P). cbn [rbind].
  destruct (_ =? 0)%nat; eauto. destruct (_ =? 1)%nat; eauto.
Qed.

(** Without limits a regression rule is fitted on a target of the right length. *)
Lemma fit_regression_total E y ys xs force kw r act l :
  r_kind r = KRegression -> class_thresholds (e_classes E) KRegression = None -> e_subattributes E = false ->
  is_target y (map LNum ys) -> starts r xs kw -> working r xs act -> picks act ys l -> is_good r \/ force = true ->
  exists r', fit E y xs force kw r = (Ok tt, r') /\ getattr r' "good" = getattr r "good" /\ r_fitted r' = true.
Proof.
  intros K T Sb Y St W P G.
  assert (G0 : r_good r = true \/ force = true) by (destruct G as [G|G]; [left; apply is_good_spec; auto|auto]).
  destruct (free_activation E KRegression T xs kw r act) as (r0 & a & C & K0 & A0 & R0 & G1 & _); auto.
  rewrite fit_runs by auto. rewrite C. cbn [andthen]. rewrite K0.
  destruct (number_target_ok y ys Y) as (t & Et & It).
  destruct (mean_total act ys l P) as (m & M). destruct (std_total (e_sqrt E) act ys l P) as (s & S0).
  cbn [train_attributes].
  set (r1 := put "_train_set_size" (integer (Z.of_nat (List.length (map LNum ys)))) r0).
  assert (L1 : launch E "train_set_size" y None kw r0 = (Ok tt, r1)).
  { unfold launch. rewrite K0. cbn. unfold calc_train_set_size. rewrite (target_len_ok y _ Y). auto. }
  rewrite <- G1 in G0.
  rewrite (free_step E KRegression T _ _ _ _ _ _ _ r1); auto; [|discriminate].
  set (r2 := put_time E "_time_calc_prediction" (put "_prediction" (number m) r1)).
  assert (L2 : launch E "prediction" y None kw r1 = (Ok tt, r2)).
  { unfold launch. change (r_kind r1) with (r_kind r0). rewrite K0. cbn.
    unfold calc_mean, if_activation, raw_of. change (r_act r1) with (r_act r0). rewrite A0, R0. cbn [step].
    rewrite Et. cbn [rbind]. rewrite (mean_target t ys _ It), M. cbn [rbind the_metric step].
    apply (free_check E KRegression); auto. }
  rewrite (free_step E KRegression T _ _ _ _ _ _ _ r2); auto; [|discriminate].
  set (r3 := put_time E "_time_calc_std" (put "_std" (number s) r2)).
  assert (L3 : launch E "std" y None kw r2 = (Ok tt, r3)).
  { unfold launch. change (r_kind r2) with (r_kind r0). rewrite K0. cbn.
    unfold calc_std, if_activation, raw_of. change (r_act r2) with (r_act r0). rewrite A0, R0. cbn [step].
    rewrite Et. cbn [rbind]. rewrite (std_target _ t ys _ It), S0. cbn [rbind the_metric step].
    apply (free_check E KRegression); auto. }
  rewrite (free_step E KRegression T _ _ _ _ _ _ _ r3); auto; [|discriminate].
  assert (P2 : slot "_prediction" r2 = number m).
  { unfold r2, put_time. rewrite slot_put_other by discriminate. apply slot_put. }
  assert (P3 : slot "_prediction" r3 = number m).
  { unfold r3, put_time. rewrite !slot_put_other by discriminate. auto. }
  set (r4 := put "_sign" (text (if nltb m (Fin 0) then "-" else "+")) r3).
  assert (L4 : launch E "sign" y None kw r3 = (Ok tt, r4)).
  { unfold launch. change (r_kind r3) with (r_kind r0). rewrite K0. cbn. unfold calc_sign. rewrite P3. auto. }
  rewrite (free_step E KRegression T _ _ _ _ _ _ _ r4); auto; [|discriminate].
  assert (P4 : slot "_prediction" r4 = number m).
  { unfold r4. rewrite slot_put_other by discriminate. auto. }
  set (r5 := put_time E "_time_calc_zscore" (put "_zscore" (number (calc_zscore (e_sqrt E) m true (nones a) ys (k_horizon kw))) r4)).
  assert (L5 : launch E "zscore" y None kw r4 = (Ok tt, r5)).
  { unfold launch. change (r_kind r4) with (r_kind r0). rewrite K0. cbn. unfold calc_rule_zscore.
    change (r_act r4) with (r_act r0). rewrite A0. rewrite Et. cbn [rbind]. rewrite (flat_ok _ _ It). cbn [step].
    rewrite P4. cbn [number]. rewrite (free_check E KRegression); auto. }
  rewrite (free_step E KRegression T _ _ _ _ _ _ _ r5); auto; [|discriminate].
  cbn [compute andthen]. rewrite (free_end E KRegression T r5) by auto.
  eexists. split; [reflexivity|]. split; auto. unfold getattr, properties.
  change (r_kind (with_fitted (put_time E "_time_fit" r5))) with (r_kind r0). rewrite K, K0. cbn. rewrite <- G1. auto.
Qed.

Lemma fit_classification_total E y ys xs force kw r act p :
  r_kind r = KClassification -> class_thresholds (e_classes E) KClassification = None -> e_subattributes E = false ->
  is_target y ys -> starts r xs kw -> working r xs act -> act <> [] ->
  class_probabilities (e_repr E) act ys = Ok p -> is_good r \/ force = true ->
  exists r', fit E y xs force kw r = (Ok tt, r') /\ getattr r' "good" = getattr r "good" /\ r_fitted r' = true.
Proof.
  intros K T Sb Y St W N P G.
  assert (G0 : r_good r = true \/ force = true) by (destruct G as [G|G]; [left; apply is_good_spec; auto|auto]).
  destruct (free_activation E KClassification T xs kw r act) as (r0 & a & C & K0 & A0 & R0 & G1 & _); auto.
  rewrite fit_runs by auto. rewrite C. cbn [andthen]. rewrite K0.
  cbn [train_attributes].
  set (r1 := put "_train_set_size" (integer (Z.of_nat (List.length ys))) r0).
  assert (L1 : launch E "train_set_size" y None kw r0 = (Ok tt, r1)).
  { unfold launch. rewrite K0. cbn. unfold calc_train_set_size. rewrite (target_len_ok y _ Y). auto. }
  rewrite <- G1 in G0.
  rewrite (free_step E KClassification T _ _ _ _ _ _ _ r1); auto; [|discriminate].
  set (r2 := put_time E "_time_calc_prediction" (put "_prediction" (OTable p) r1)).
  assert (L2 : launch E "prediction" y None kw r1 = (Ok tt, r2)).
  { unfold launch. change (r_kind r1) with (r_kind r0). rewrite K0. cbn.
    unfold calc_classes, activation_vector. change (r_act r1) with (r_act r0). rewrite A0.
    destruct (raw_inv _ _ R0) as (_ & V).
    assert (Al : alen a =? 0 = false) by (unfold alen; rewrite V; destruct act; [congruence|auto]).
    rewrite Al, R0. cbn [rmap step]. rewrite (flat_ok _ _ Y). cbn [rbind]. rewrite P. cbn [step].
    apply (free_check E KClassification); auto. }
  rewrite (free_step E KClassification T _ _ _ _ _ _ _ r2); auto; [|discriminate].
  cbn [compute andthen]. rewrite (free_end E KClassification T r2) by auto.
  eexists. split; [reflexivity|]. split; auto. unfold getattr, properties.
  change (r_kind (with_fitted (put_time E "_time_fit" r2))) with (r_kind r0). rewrite K, K0. cbn. rewrite <- G1. auto.
Qed.

(** Fitting again *)

Lemma regression_value_same E act ys h n o o' :
  regression_value E act ys h n o -> regression_value E act ys h n o' -> o = o'.
Proof.
  assert (Tl : forall a b, tally (eq 1) act a -> tally (eq 1) act b -> a = b).
  { clear. intros a b H. revert b. induction H; intros b' H'; inversion H'; subst; auto; congruence. }
  intros [(-> & ->)|[(-> & m & M & ->)|[(-> & m & M & ->)|[(-> & m & M & O)|(-> & m & c & M & T & ->)]]]] V;
    destruct V as [(X & V)|[(X & m' & M' & V)|[(X & m' & M' & V)|[(X & m' & M' & V)|(X & m' & c' & M' & T' & V)]]]];
    try discriminate X; try congruence.
  - assert (m' = m) by congruence. subst m'. destruct O as [(O & ->)|(O & ->)], V as [(V & ->)|(V & ->)]; auto; contradiction.
  - assert (m' = m) by congruence. subst m'. rewrite (Tl c c' T T') in *. congruence.
Qed.

Lemma fit_again E y ys xs kw r r1 r2 force force' :
  r_kind r = KRegression -> is_target y (map LNum ys) -> nrows xs <> 0%nat -> k_method kw = false ->
  fit E y (Some xs) force kw r = (Ok tt, r1) -> is_good r1 ->
  fit E y (Some xs) force' kw r1 = (Ok tt, r2) -> is_good r2 ->
  forall n, In n ["activation"; "train_set_size"; "prediction"; "std"; "sign"; "zscore"] ->
    getattr r2 n = getattr r1 n.
Proof.
  intros K Y N M F1 G1 F2 G2 n I.
  assert (K1 : r_kind r1 = r_kind r).
  { pose proof (w_kind _ _ (worse_fit E y (Some xs) force kw r)) as X. rewrite F1 in X. auto. }
  destruct (fit_activation _ _ _ _ _ _ _ M N F1) as (v1 & W1 & A1 & C1).
  destruct (fit_activation _ _ _ _ _ _ _ M N F2) as (v2 & W2 & A2 & C2).
  assert (v2 = v1).
  { destruct W1 as (c & Hc & W1), W2 as (d & Hd & W2). congruence. }
  subst v2.
  destruct (fit_regression E y ys (Some xs) force kw r r1) as (w1 & l1 & l1' & X1 & _ & S1 & V1 & _ & _ & N1 & _); auto.
  { split; auto. } { cbn; auto. }
  destruct (fit_regression E y ys (Some xs) force' kw r1 r2) as (w2 & l2 & l2' & X2 & _ & S2 & V2 & _ & _ & N2 & _); auto.
  { congruence. } { split; auto. } { cbn; auto. }
  rewrite (N1 G1), app_nil_r in S1. rewrite (N2 G2), app_nil_r in S2. subst l1 l2.
  assert (w1 = w2).
  { destruct X1 as (c & Hc & X1), X2 as (d & Hd & X2). congruence. }
  subst w2. destruct I as [<-|I].
  - rewrite !activation_attr. unfold activation_vector. rewrite A1, A2. auto.
  - destruct (V1 n I) as (o & O & P). destruct (V2 n I) as (o' & O' & P').
    rewrite O, O'. f_equal. symmetry. eapply regression_value_same; eauto.
Qed.

(** ** Histories *)

Lemma good_blames_nothing E ops k condition act r :
  new_rule E k condition act = Ok r ->
  (is_good (history E ops r) /\ blames_nothing (history E ops r)) \/
  (is_bad (history E ops r) /\ exists n, blames (history E ops r) n).
Proof.
  intros N. assert (Tr : truthful r).
  { destruct (new_rule_built _ _ _ _ _ N) as (_ & _ & _ & _ & _ & _ & _ & H).
    unfold truthful. destruct H as [(G & B)|(G & B & _)].
    - apply is_good_spec in G. rewrite G. unfold blames_nothing in B. rewrite bad_attr in B. destruct (r_bad r); [discriminate|tauto].
    - apply is_bad_spec in G. rewrite G. apply blames_spec in B. rewrite B. split; congruence. }
  pose proof (w_true _ _ (worse_history E ops r) Tr) as H. revert H. generalize (history E ops r). intros q H.
  unfold truthful in H. destruct (r_good q) eqn:G; [left|right].
  - split; [apply is_good_spec; auto|]. unfold blames_nothing. rewrite bad_attr. destruct (r_bad q); auto.
    exfalso. assert (X : true = true) by auto. apply H in X. discriminate.
  - split; [apply is_bad_spec; auto|]. destruct (r_bad q) as [n|] eqn:B.
    + exists n. apply blames_spec. auto.
    + exfalso. assert (X : @None string = None) by auto. apply H in X. discriminate.
Qed.

(** Assignments reach neither the condition nor the activation. *)
Lemma assign_keeps r n v : r_cond (snd (setattr r n v)) = r_cond r /\
  forall u, working (snd (setattr r n v)) None u <-> working r None u.
Proof.
  assert (H : r_cond (snd (super_setattr r n v)) = r_cond r /\
    forall u, working (snd (super_setattr r n v)) None u <-> working r None u).
  { unfold super_setattr, set_coverage. destruct (str_eqb n "coverage").
    - destruct (r_act r) as [a|] eqn:A; cbn; split; auto; intros u; [|rewrite A; tauto].
      split; intros (b & B & R); [exists a|exists (mkActv (v_bits a) (v_here a) (to_val v))]; (split; [congruence || auto|]).
      + injection B as <-. unfold raw in *. cbn in R. auto.
      + rewrite A in B. injection B as <-. unfold raw in *. cbn. auto.
    - destruct (str_eqb n "train_set_size"); [cbn; tauto|]. destruct (str_eqb n "test_set_size"); [cbn; tauto|].
      destruct (dget n _); cbn; tauto. }
  unfold setattr. destruct (hasattr r n) as [[]|]; auto; [|cbn; tauto].
  destruct (find_attribute activation_attributes (r_act r) n); [cbn; tauto|].
  destruct (find_attribute condition_attributes (r_cond r) n); cbn; tauto.
Qed.

(** ** The check of the constructor *)

Lemma numeric_meets f g th n row x : limits_of th n row -> numeric th n -> meets f row x -> meets g row x.
Proof.
  intros L N. apply meets_transfer. intros s (j & I & D). destruct (N row j (XText s) L I D) as (q & Q). discriminate.
Qed.

Lemma new_rule_decided E k c a w th row x :
  class_thresholds (e_classes E) k = Some th -> well_formed th -> limits_of th "coverage" row -> numeric th "coverage" ->
  v_bits a = ActSpec.as_01 w -> w <> [] -> v_coverage a = XNone ->
  measured (e_lib E) row (XNum (Fin (ActSpec.fraction (ActSpec.n_ones w) (ActSpec.size w)))) x ->
  exists r, new_rule E k (CCond c) (VActivation a) = Ok r /\
    (meets (attributes_of r) row x -> is_good r /\ blames_nothing r) /\
    (~ meets (attributes_of r) row x -> is_bad r /\ blames r "coverage").
Proof.
  intros T W L Nu B Nw Nc M.
  set (r0 := mkRule k (Some c) (Some a) (class_thresholds (e_classes E) k) true None false false (initial_dict k)).
  assert (V : attributes_of r0 "coverage" = Ok (XNum (Fin (ActSpec.fraction (ActSpec.n_ones w) (ActSpec.size w))))).
  { unfold attributes_of. rewrite (read_coverage r0 a w); auto. }
  assert (An : all_numbers (attributes_of r0) row).
  { intros j l I D. destruct (Nu row j l L I D) as (q & ->). exists q. left. auto. }
  destruct (check_decides E th "coverage" row _ x r0 T W L V) as (r1 & C & G & Bd); auto.
  { split; discriminate. }
  exists (regression_dict r1). split.
  { unfold new_rule. fold r0. rewrite C. auto. }
  destruct (regression_dict_same r1) as (_ & Gd & Bb & _). split; intros H.
  - assert (H0 : meets (attributes_of r0) row x) by (eapply numeric_meets; eauto).
    rewrite (G H0) in *. unfold blames_nothing. rewrite is_good_spec, bad_attr, Gd, Bb. auto.
  - assert (H0 : ~ meets (attributes_of r0) row x).
    { intros H0. apply H. eapply numeric_meets; eauto. }
    destruct (Bd H0) as (X & Y). rewrite is_bad_spec, blames_spec in *. rewrite Gd, Bb. auto.
Qed.

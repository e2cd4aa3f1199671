(** The values of the attributes of a list. *)
From Coq Require Import List ZArith QArith Bool String Ascii Lia.
From Coq Require Import List.
From Verif Require Import Base Num Arith CondModel CondSpec CondBase ThrModel ThrSpec ThrProofs MetModel MetSpec
  MetReg MetClass RuleModel RuleSpec RuleProofs RuleFit RuleValues RuleEval AttrModel AttrSpec AttrProofs.
Import ListNotations.
Open Scope string_scope.
Open Scope list_scope.
Open Scope Z_scope.

(** ** Regression rules *)

Section regression.
Variables (E : env) (y : target label) (ys : list num) (act : option activation) (v : list Z) (kw : keywords).
Hypothesis Y : is_target y (map LNum ys).

Definition at_value (n : string) (r : rule) : Prop :=
  value_on E v ys (k_horizon kw) n (slot ("_" ++ n)%string r).

Definition at_state (r : rule) : Prop :=
  r_kind r = KRegression /\
  exists a, match act with Some a => Some a | None => r_act r end = Some a /\ raw a = Ok v.

Lemma at_stable n names r r' : at_value n r -> same_but names r r' -> ~ In ("_" ++ n)%string names -> at_value n r'.
Proof. unfold at_value. intros V S1 N. rewrite (same_slot _ _ _ _ S1 N). auto. Qed.

Lemma at_state_stable names r r' : at_state r -> same_but names r r' -> at_state r'.
Proof.
  intros (K & a & A & R) [Bk Bc Ba Bt Bs]. split; [congruence|]. exists a. split; auto. destruct act; congruence.
Qed.

Lemma at_raw r f r1 : at_state r -> if_activation act r f = (Ok tt, r1) -> f v r = (Ok tt, r1).
Proof.
  intros (_ & a & A & R) H. unfold if_activation, raw_of in H. destruct act as [a0|].
  - injection A as ->. rewrite R in H. auto.
  - rewrite A, R in H. auto.
Qed.

Lemma at_prediction r : at_value "prediction" r ->
  exists m, conditional_mean (ActArray v) (YVector ys) = Ok (MNum m) /\ slot "_prediction" r = number m.
Proof.
  intros [(X & _)|V]; [discriminate|].
  destruct V as [(X & _)|[(_ & m & Em & V)|[(X & _)|[(X & _)|(X & _)]]]]; try discriminate X. eauto.
Qed.

Lemma at_launch done a r r1 : In a ["train_set_size"; "test_set_size"; "prediction"; "std"; "sign"; "zscore"] ->
  (a = "sign" \/ a = "zscore" -> In "prediction" done) -> at_state r -> (forall n, In n done -> at_value n r) ->
  launch E a y act kw r = (Ok tt, r1) -> at_value a r1.
Proof.
  intros I O St D L. pose proof St as (K & a0 & A & R). unfold launch in L. rewrite K in L.
  destruct (number_target_ok y ys Y) as (t & Et & It).
  assert (Len : target_len y = Ok (Z.of_nat (List.length ys))) by (rewrite (target_len_ok _ _ Y), map_length; auto).
  destruct I as [<-|[<-|[<-|[<-|[<-|[<-|[]]]]]]]; cbn -[calc_mean calc_std calc_sign calc_rule_zscore calc_train_set_size calc_test_set_size] in L.
  - apply step_inv in L. destruct L as (n & En & L). injection L as <-. rewrite Len in En. injection En as <-.
    right. left. split; auto. apply (slot_put "_train_set_size").
  - apply step_inv in L. destruct L as (n & En & L). injection L as <-. rewrite Len in En. injection En as <-.
    left. split; auto. apply (slot_put "_test_set_size").
  - unfold calc_mean in L. apply (at_raw _ _ _ St) in L.
    apply step_inv in L. destruct L as (m & Em & C). rewrite Et in Em. cbn [rbind] in Em.
    rewrite (mean_target t ys _ It) in Em.
    apply rbind_ok in Em. destruct Em as (me & Em & X). apply the_metric_inv in X. subst me.
    right. right. left. split; auto. exists m. split; auto. change ("_" ++ "prediction")%string with "_prediction".
    rewrite (check_slot _ _ _ _ _ C). unfold put_time. rewrite slot_put_other by discriminate. apply slot_put.
  - unfold calc_std in L. apply (at_raw _ _ _ St) in L.
    apply step_inv in L. destruct L as (m & Em & C). rewrite Et in Em. cbn [rbind] in Em.
    rewrite (std_target _ t ys _ It) in Em.
    apply rbind_ok in Em. destruct Em as (me & Em & X). apply the_metric_inv in X. subst me.
    right. right. right. left. split; auto. exists m. split; auto. change ("_" ++ "std")%string with "_std".
    rewrite (check_slot _ _ _ _ _ C). unfold put_time. rewrite slot_put_other by discriminate. apply slot_put.
  - destruct (at_prediction r (D _ (O (or_introl eq_refl)))) as (m & Em & V).
    unfold calc_sign in L. rewrite V in L. cbn [number] in L. injection L as <-.
    do 4 right. left. split; auto. exists m. split; auto.
    change ("_" ++ "sign")%string with "_sign". rewrite slot_put.
    destruct (nltb m (Fin 0)) eqn:B; [left|right]; (split; [|auto]); rewrite <- nltb_spec, B; auto.
  - destruct (at_prediction r (D _ (O (or_intror eq_refl)))) as (m & Em & V).
    unfold calc_rule_zscore in L. rewrite A in L. rewrite Et in L. cbn [rbind] in L. rewrite (flat_ok _ _ It) in L.
    cbn [step] in L. rewrite V in L. cbn [number] in L. apply andthen_ok in L. destruct L as (r2 & C & L). injection L as <-.
    do 5 right. split; auto. exists m, (List.length (filter (fun x => x =? 1) v)).
    apply raw_inv in R. destruct R as (_ & <-). split; auto. split; [apply tally_ones|].
    change ("_" ++ "zscore")%string with "_zscore". unfold put_time. rewrite slot_put_other by discriminate.
    rewrite (check_slot _ _ _ _ _ C). apply slot_put.
Qed.
End regression.

(** ** Classification rules *)

Section classification.
Variables (E : env) (y : target label) (ys : list label) (act : option activation) (v : list Z) (kw : keywords).
Hypothesis Y : is_target y ys.

Definition ct_value (n : string) (r : rule) : Prop :=
  (n = "test_set_size" /\ slot ("_" ++ n)%string r = integer (Z.of_nat (List.length ys))) \/ cls_value E ys v n r.

Lemma ct_stable n names r r' : ct_value n r -> same_but names r r' -> ~ In ("_" ++ n)%string names -> ct_value n r'.
Proof. unfold ct_value, cls_value. intros V S1 N. rewrite (same_slot _ _ _ _ S1 N). auto. Qed.

Lemma ct_launch a r r1 : In a ["train_set_size"; "test_set_size"; "prediction"] -> cls_state v r ->
  launch E a y act kw r = (Ok tt, r1) -> ct_value a r1.
Proof.
  intros I (K & ac & A & R) L. unfold launch in L. rewrite K in L.
  destruct I as [<-|[<-|[<-|[]]]]; cbn -[calc_classes calc_train_set_size calc_test_set_size] in L.
  - apply step_inv in L. destruct L as (n & En & L). injection L as <-. rewrite (target_len_ok _ _ Y) in En. injection En as <-.
    right. left. split; auto. apply (slot_put "_train_set_size").
  - apply step_inv in L. destruct L as (n & En & L). injection L as <-. rewrite (target_len_ok _ _ Y) in En. injection En as <-.
    left. split; auto. apply (slot_put "_test_set_size").
  - unfold calc_classes in L. apply step_inv in L. destruct L as (o & Eo & L).
    unfold activation_vector in Eo. rewrite A in Eo. destruct (alen ac =? 0); [injection Eo as <-; discriminate|].
    rewrite R in Eo. injection Eo as <-. apply step_inv in L. destruct L as (p & Ep & C).
    rewrite (flat_ok _ _ Y) in Ep. cbn [rbind] in Ep.
    right. right. split; auto. exists p. split; auto.
    change ("_" ++ "prediction")%string with "_prediction".
    rewrite (check_slot _ _ _ _ _ C). unfold put_time. rewrite slot_put_other by discriminate. apply slot_put.
Qed.
End classification.

(** ** The loop *)

Definition six : list string := ["train_set_size"; "test_set_size"; "prediction"; "std"; "sign"; "zscore"].
Definition three : list string := ["train_set_size"; "test_set_size"; "prediction"].

Lemma six_measure n : In n six -> In n (measures KRegression) /\ n <> "activation" /\ n <> "coverage".
Proof. intros I. apply computable_measure. cbn [six computable In] in *. tauto. Qed.

Lemma three_measure n : In n three -> In n (measures KClassification) /\ n <> "activation" /\ n <> "coverage".
Proof. intros I. apply computable_measure. cbn [three computable In] in *. tauto. Qed.

Lemma accepted_six names : (forall n, In n names -> In n six) -> accepted names.
Proof.
  intros H n I. specialize (H n I). cbn [six In] in H.
  repeat (destruct H as [<-|H]; [split; [reflexivity|cbn [In]; intuition discriminate]|]). contradiction.
Qed.

(** Reading the attributes of [r'] when it differs from [r2] by a duration *)
Lemma read_six r n : r_kind r = KRegression -> In n six -> getattr r n = Ok (slot ("_" ++ n)%string r).
Proof.
  intros K I. rewrite getattr_measure by (rewrite K; apply six_measure; auto).
  cbn [six In] in I. unfold measure_read.
  repeat (destruct I as [<-|I]; [cbn; unfold prediction; rewrite ?K; auto; destruct (slot "_prediction" r); auto|]).
  contradiction.
Qed.

Lemma compute_six E y ys act v kw force names r1 r2 : is_target y (map LNum ys) ->
  NoDup names -> (forall n, In n names -> In n six) -> in_order names ->
  at_state act v r1 -> compute E names y act kw force r1 = (Ok tt, r2) ->
  exists l1 l2, names = l1 ++ l2 /\ r_kind r2 = KRegression /\
    (forall n, In n l1 -> at_value E ys v kw n r2) /\ (forall n, In n l2 -> slot ("_" ++ n)%string r2 = nan) /\
    (force = true -> l2 = []) /\ (l2 <> [] -> r_good r2 = false) /\ (r_good r1 = false -> force = false -> l1 = []).
Proof.
  intros Y ND Sx Or St C.
  destruct (compute_values (at_value E ys v kw) (at_state act v) E y act kw force names) with
    (rest := names) (done := @nil string) (r := r1) (r' := r2)
    as (l1 & l2 & F1 & I2 & V1 & V2 & Q1 & Q2 & Q3 & Q4); auto.
  - intros J. apply Sx, six_measure in J. tauto.
  - intros n nm r0 r0'. apply at_stable.
  - intros nm r0 r0'. apply at_state_stable.
  - intros r0 (K & _) a J. rewrite K. apply Sx, six_measure in J. tauto.
  - intros done a rest r0 r0' F S0 D L. eapply at_launch; eauto.
    apply Sx. rewrite F. apply in_or_app. right; left; auto.
  - intros n [].
  - exists l1, l2. split; auto. split; [apply I2|]. auto.
Qed.

Lemma compute_three E y ys act v kw force names r1 r2 : is_target y ys ->
  NoDup names -> (forall n, In n names -> In n three) ->
  cls_state v r1 -> compute E names y act kw force r1 = (Ok tt, r2) ->
  exists l1 l2, names = l1 ++ l2 /\ r_kind r2 = KClassification /\
    (forall n, In n l1 -> ct_value E ys v n r2) /\ (forall n, In n l2 -> slot ("_" ++ n)%string r2 = nan) /\
    (force = true -> l2 = []) /\ (l2 <> [] -> r_good r2 = false) /\ (r_good r1 = false -> force = false -> l1 = []).
Proof.
  intros Y ND Sx St C.
  destruct (compute_values (ct_value E ys v) (cls_state v) E y act kw force names) with
    (rest := names) (done := @nil string) (r := r1) (r' := r2)
    as (l1 & l2 & F1 & I2 & V1 & V2 & Q1 & Q2 & Q3 & Q4); auto.
  - intros J. apply Sx, three_measure in J. tauto.
  - intros n nm r0 r0'. apply ct_stable.
  - intros nm r0 r0'. apply cls_state_stable.
  - intros r0 (K & _) a J. rewrite K. apply Sx, three_measure in J. tauto.
  - intros done a rest r0 r0' F S0 D L. eapply ct_launch; eauto.
    apply Sx. rewrite F. apply in_or_app. right; left; auto.
  - intros n [].
  - exists l1, l2. split; auto. split; [apply I2|]. auto.
Qed.

(** The last steps of fit and eval *)
Lemma ending E t (f : rule -> rule) r2 r3 : (forall r, same_but [] r (f r)) ->
  (if r_good r2 then check_all E r2 else (Ok tt, r2)) = (Ok tt, r3) ->
  same_but [t] r2 (f (put_time E t r3)).
Proof.
  intros F C. apply same_trans with r3.
  - apply same_nil. destruct (r_good r2).
    + pose proof (check_all_same E r2) as X. rewrite C in X. exact X.
    + injection C as <-. apply same_refl.
  - apply same_trans with (put_time E t r3); [apply same_put; left; auto|apply same_nil, F].
Qed.

Lemma not_clock k n : In n (measures k) -> ~ In ("_" ++ n)%string ["_time_fit"] /\ ~ In ("_" ++ n)%string ["_time_eval"].
Proof.
  intros I. split; intros [X|[]]; symmetry in X; revert X; apply (clock_not_measure k); auto; cbn; auto.
Qed.

Lemma finish_six E ys v kw l1 l2 t r2 r' : same_but [t] r2 r' -> r_kind r2 = KRegression ->
  t = "_time_fit" \/ t = "_time_eval" -> (forall n, In n (l1 ++ l2) -> In n six) ->
  (forall n, In n l1 -> at_value E ys v kw n r2) -> (forall n, In n l2 -> slot ("_" ++ n)%string r2 = nan) ->
  (forall n, In n l1 -> exists o, getattr r' n = Ok o /\ value_on E v ys (k_horizon kw) n o) /\
  (forall n, In n l2 -> getattr r' n = Ok nan).
Proof.
  intros S1 K T Sx V1 V2.
  assert (Sl : forall n, In n (l1 ++ l2) -> slot ("_" ++ n)%string r' = slot ("_" ++ n)%string r2).
  { intros n J. apply (same_slot _ _ _ _ S1). destruct (not_clock KRegression n); [apply six_measure; auto|].
    destruct T as [-> | -> ]; auto. }
  split; intros n J; assert (J' : In n (l1 ++ l2)) by (apply in_or_app; auto).
  all: rewrite read_six by (auto; rewrite (sb_kind _ _ _ S1); auto); rewrite Sl by auto.
  - eexists. split; [reflexivity|]. apply V1; auto.
  - rewrite V2; auto.
Qed.

Lemma finish_three E ys v l1 l2 t r2 r' : same_but [t] r2 r' -> r_kind r2 = KClassification ->
  t = "_time_fit" \/ t = "_time_eval" -> (forall n, In n (l1 ++ l2) -> In n three) ->
  (forall n, In n l1 -> ct_value E ys v n r2) -> (forall n, In n l2 -> slot ("_" ++ n)%string r2 = nan) ->
  (forall n, In n l1 -> exists o, getattr r' n = Ok o /\ class_value_on E v ys n o) /\
  (forall n, In n l2 -> getattr r' n = Ok nan).
Proof.
  intros S1 K T Sx V1 V2.
  assert (K' : r_kind r' = KClassification) by (rewrite (sb_kind _ _ _ S1); auto).
  assert (Sl : forall n, In n (l1 ++ l2) -> slot ("_" ++ n)%string r' = slot ("_" ++ n)%string r2).
  { intros n J. apply (same_slot _ _ _ _ S1). destruct (not_clock KClassification n); [apply three_measure; auto|].
    destruct T as [-> | -> ]; auto. }
  split; intros n J; assert (J' : In n (l1 ++ l2)) by (apply in_or_app; auto); pose proof (Sl n J') as X.
  all: rewrite getattr_measure by (rewrite K'; apply three_measure; auto).
  - destruct (V1 n J) as [(-> & V)|[(-> & V)|(-> & p & Ep & V)]]; rewrite V in X.
    + eexists. split; [cbn in X |- *; rewrite X; reflexivity|left; auto].
    + eexists. split; [cbn in X |- *; rewrite X; reflexivity|right; left; auto].
    + destruct (probabilities_ok _ _ _ _ Ep) as (c & Ec). exists (class_obj c). split.
      { cbn in X |- *. unfold prediction. rewrite K', X, Ec. auto. }
      right. right. split; auto. exists c. split; auto. rewrite Ep. auto.
  - pose proof (V2 n J) as V. rewrite V in X. specialize (Sx n J'). cbn [three In] in Sx.
    destruct Sx as [<-|[<-|[<-|[]]]]; cbn in X |- *; unfold prediction; rewrite ?K', X; auto.
Qed.

(** ** fit *)

Lemma fit_list E names y ys xs force kw r r' :
  r_kind r = KRegression -> is_target y (map LNum ys) -> starts r xs kw -> at_hand r xs ->
  NoDup names -> (forall n, In n names -> In n six) -> in_order names ->
  fit_with E names y xs force kw r = (Ok tt, r') ->
  exists act l1 l2, working r xs act /\ names = l1 ++ l2 /\
    (forall n, In n l1 -> exists o, getattr r' n = Ok o /\ value_on E act ys (k_horizon kw) n o) /\
    (forall n, In n l2 -> getattr r' n = Ok nan) /\
    (force = true -> l2 = []) /\ (is_good r' -> l2 = []) /\ (is_bad r -> force = false -> l1 = []).
Proof.
  intros K Y St H ND Sx Or F.
  destruct (fit_ok _ _ _ _ _ _ _ _ (accepted_six _ Sx) St F) as (r1 & r2 & r3 & A & B & C & ->).
  destruct (calc_activation_working _ _ _ _ _ St H A) as (act & a & Wk & Ra & Raw & K1 & Kp).
  destruct (compute_six E y ys None act kw force names r1 r2) as (l1 & l2 & -> & K2 & V1 & V2 & Q1 & Q2 & Q3); auto.
  { split; [congruence|eauto]. }
  pose proof (ending E "_time_fit" with_fitted r2 r3 (same_fitted _) C) as S3.
  destruct (finish_six E ys act kw l1 l2 _ _ _ S3 K2) as (X1 & X2); auto.
  exists act, l1, l2. split; auto. split; auto. split; auto. split; auto. split; auto. split.
  - intros G. apply is_good_spec in G. cbn in G. destruct l2; auto. rewrite Q2 in C by discriminate.
    injection C as <-. rewrite Q2 in G by discriminate. discriminate.
  - intros Bd Fo. apply is_bad_spec in Bd. apply Q3; auto.
    pose proof (w_bad _ _ (worse_calc_activation E xs r) Bd) as X. rewrite A in X. apply X.
Qed.

Lemma fit_list_classes E names y ys xs force kw r r' :
  r_kind r = KClassification -> is_target y ys -> starts r xs kw -> at_hand r xs ->
  NoDup names -> (forall n, In n names -> In n three) ->
  fit_with E names y xs force kw r = (Ok tt, r') ->
  exists act l1 l2, working r xs act /\ names = l1 ++ l2 /\
    (forall n, In n l1 -> exists o, getattr r' n = Ok o /\ class_value_on E act ys n o) /\
    (forall n, In n l2 -> getattr r' n = Ok nan) /\
    (force = true -> l2 = []) /\ (is_good r' -> l2 = []) /\ (is_bad r -> force = false -> l1 = []).
Proof.
  intros K Y St H ND Sx F.
  assert (Sx' : forall n, In n names -> In n six) by (intros n J; apply Sx in J; cbn [three six In] in *; tauto).
  destruct (fit_ok _ _ _ _ _ _ _ _ (accepted_six _ Sx') St F) as (r1 & r2 & r3 & A & B & C & ->).
  destruct (calc_activation_working _ _ _ _ _ St H A) as (act & a & Wk & Ra & Raw & K1 & Kp).
  destruct (compute_three E y ys None act kw force names r1 r2) as (l1 & l2 & -> & K2 & V1 & V2 & Q1 & Q2 & Q3); auto.
  { split; [congruence|eauto]. }
  pose proof (ending E "_time_fit" with_fitted r2 r3 (same_fitted _) C) as S3.
  destruct (finish_three E ys act l1 l2 _ _ _ S3 K2) as (X1 & X2); auto.
  exists act, l1, l2. split; auto. split; auto. split; auto. split; auto. split; auto. split.
  - intros G. apply is_good_spec in G. cbn in G. destruct l2; auto. rewrite Q2 in C by discriminate.
    injection C as <-. rewrite Q2 in G by discriminate. discriminate.
  - intros Bd Fo. apply is_bad_spec in Bd. apply Q3; auto.
    pose proof (w_bad _ _ (worse_calc_activation E xs r) Bd) as X. rewrite A in X. apply X.
Qed.

(** ** eval *)

Lemma eval_list E names y ys xs recompute force kw r r' :
  r_kind r = KRegression -> is_target y (map LNum ys) -> evaluates r xs force kw ->
  NoDup names -> (forall n, In n names -> In n six) -> in_order names ->
  eval_with E names y xs recompute force kw r = (Ok tt, r') ->
  exists act l1 l2, working r xs act /\ names = l1 ++ l2 /\
    (forall n, In n l1 -> exists o, getattr r' n = Ok o /\ value_on E act ys (k_horizon kw) n o) /\
    (forall n, In n l2 -> getattr r' n = Ok nan) /\
    (force = true -> l2 = []) /\ (is_good r' -> l2 = []).
Proof.
  intros K Y Ev ND Sx Or F.
  destruct (eval_ok _ _ _ _ _ _ _ _ _ (accepted_six _ Sx) Ev F) as (r1 & act & r2 & r3 & A & Av & Ea & B & C & ->).
  destruct (eval_working _ _ _ _ _ _ (proj2 (proj2 Ev)) A Av Ea) as (a & v & -> & Raw & Wk & K1 & _).
  destruct (compute_six E y ys (Some a) v kw force names r1 r2) as (l1 & l2 & -> & K2 & V1 & V2 & Q1 & Q2 & Q3); auto.
  { split; [congruence|eauto]. }
  pose proof (ending E "_time_eval" with_evaluated r2 r3 (same_evaluated _) C) as S3.
  destruct (finish_six E ys v kw l1 l2 _ _ _ S3 K2) as (X1 & X2); auto.
  exists v, l1, l2. split; auto. split; auto. split; auto. split; auto. split; auto.
  intros G. apply is_good_spec in G. cbn in G. destruct l2; auto. rewrite Q2 in C by discriminate.
  injection C as <-. rewrite Q2 in G by discriminate. discriminate.
Qed.

Lemma eval_classes E names y ys xs recompute force kw r r' :
  r_kind r = KClassification -> is_target y ys -> evaluates r xs force kw ->
  NoDup names -> (forall n, In n names -> In n three) ->
  eval_with E names y xs recompute force kw r = (Ok tt, r') ->
  exists own l1 l2, working r (if recompute then xs else None) own /\ names = l1 ++ l2 /\
    (forall n, In n l1 -> exists o, getattr r' n = Ok o /\ class_value_on E own ys n o) /\
    (forall n, In n l2 -> getattr r' n = Ok nan) /\
    (force = true -> l2 = []) /\ (is_good r' -> l2 = []).
Proof.
  intros K Y Ev ND Sx F.
  assert (Sx' : forall n, In n names -> In n six) by (intros n J; apply Sx in J; cbn [three six In] in *; tauto).
  destruct (eval_ok _ _ _ _ _ _ _ _ _ (accepted_six _ Sx') Ev F) as (r1 & act & r2 & r3 & A & Av & Ea & B & C & ->).
  destruct (eval_working _ _ _ _ _ _ (proj2 (proj2 Ev)) A Av Ea) as (a & v & -> & Raw & Wk & K1 & _ & _ & _ & Same).
  destruct (available_raw _ Av) as (b & Rb & Rawb).
  assert (Own : working r (if recompute then xs else None) (v_bits b)).
  { destruct recompute.
    - unfold given_act in Ea. rewrite Rb in Ea. injection Ea as <-. rewrite Rawb in Raw. injection Raw as ->. auto.
    - rewrite Same in Rb by auto. exists b. auto. }
  destruct (compute_three E y ys (Some a) (v_bits b) kw force names r1 r2) as (l1 & l2 & -> & K2 & V1 & V2 & Q1 & Q2 & Q3); auto.
  { split; [congruence|eauto]. }
  pose proof (ending E "_time_eval" with_evaluated r2 r3 (same_evaluated _) C) as S3.
  destruct (finish_three E ys (v_bits b) l1 l2 _ _ _ S3 K2) as (X1 & X2); auto.
  exists (v_bits b), l1, l2. split; auto. split; auto. split; auto. split; auto. split; auto.
  intros G. apply is_good_spec in G. cbn in G. destruct l2; auto. rewrite Q2 in C by discriminate.
  injection C as <-. rewrite Q2 in G by discriminate. discriminate.
Qed.

(** ** The order *)

Lemma value_on_fun E act ys h n o o' : value_on E act ys h n o -> value_on E act ys h n o' -> o = o'.
Proof.
  intros [(-> & ->)|V] [(X & ->)|V']; auto.
  - destruct V' as [(X & _)|[(X & _)|[(X & _)|[(X & _)|(X & _)]]]]; discriminate X.
  - subst n. destruct V as [(X & _)|[(X & _)|[(X & _)|[(X & _)|(X & _)]]]]; discriminate X.
  - destruct V as [(-> & ->)|[(-> & m & Em & ->)|[(-> & s & Es & ->)|[(-> & m & Em & V)|(-> & m & k & Em & T & ->)]]]];
    destruct V' as [(X & W)|[(X & m' & Em' & W)|[(X & s' & Es' & W)|[(X & m' & Em' & W)|(X & m' & k' & Em' & T' & W)]]]];
      try discriminate X; try congruence.
    + assert (m = m') by congruence. subst m'. destruct V as [(L & ->)|(L & ->)], W as [(L' & ->)|(L' & ->)]; auto; contradiction.
    + rewrite (tally_unique _ _ _ _ T' T) in W. congruence.
Qed.

Lemma working_same r xs v v' : working r xs v -> working r xs v' -> v = v'.
Proof. destruct xs; cbn; intros (a & A & B) (a' & A' & B'); congruence. Qed.

Lemma fit_orders E names names' y ys xs force kw r r1 r2 :
  r_kind r = KRegression -> is_target y (map LNum ys) -> starts r xs kw -> at_hand r xs ->
  NoDup names -> (forall n, In n names -> In n six) -> in_order names ->
  NoDup names' -> (forall n, In n names' <-> In n names) -> in_order names' ->
  fit_with E names y xs force kw r = (Ok tt, r1) -> fit_with E names' y xs force kw r = (Ok tt, r2) ->
  force = true \/ is_good r1 /\ is_good r2 ->
  forall n, In n (measures KRegression) -> n <> "coverage" -> getattr r1 n = getattr r2 n.
Proof.
  intros K Y St H ND Sx Or ND' Eq Or' F1 F2 G n I N.
  destruct (in_dec string_dec n names) as [J|J].
  - destruct (fit_list _ _ _ _ _ _ _ _ _ K Y St H ND Sx Or F1) as (v & l1 & l2 & W & -> & V & _ & Q1 & Q2 & _).
    destruct (fit_list E names' y ys xs force kw r r2) as (v' & m1 & m2 & W' & -> & V' & _ & Q1' & Q2' & _); auto.
    { intros k Jk. apply Sx, Eq. auto. }
    assert (l2 = []) by (destruct G as [G|(G & _)]; auto). assert (m2 = []) by (destruct G as [G|(_ & G)]; auto).
    subst l2 m2. rewrite !app_nil_r in *. rewrite (working_same _ _ _ _ W' W) in V'.
    destruct (V n J) as (o & -> & Vo). destruct (V' n (proj2 (Eq n) J)) as (o' & -> & Vo').
    f_equal. eapply value_on_fun; eauto.
  - pose proof (fit_unlisted E names y xs force kw r n) as A. pose proof (fit_unlisted E names' y xs force kw r n) as B.
    rewrite F1 in A. rewrite F2 in B. cbn [snd] in *. rewrite K in A, B. rewrite A, B; auto.
    intros X. apply J, Eq. auto.
Qed.

(** Proofs about eval and predict. *)
From Coq Require Import List ZArith QArith Bool String Ascii Lia.
From Coq Require Import List.
From Verif Require Import Base Num Arith CondModel CondSpec CondBase ThrModel ThrSpec ThrProofs MetModel MetSpec
  MetReg MetClass RuleModel RuleSpec RuleProofs RuleFit RuleValues.
Import ListNotations.
Open Scope string_scope.
Open Scope list_scope.
Open Scope Z_scope.

Lemma eval_phases E y xs recompute force kw r r' :
  evaluates r xs force kw -> eval E y xs recompute force kw r = (Ok tt, r') ->
  exists r1 act r2 r3,
    (if recompute then calc_activation E xs r else (Ok tt, r)) = (Ok tt, r1) /\
    activation_available r1 = true /\
    match (if recompute return option table then None else xs) with
    | Some t => rmap Some (evaluate_activation r1 t)
    | None => Ok (r_act r1)
    end = Ok act /\
    compute E (test_attributes (r_kind r1)) y act kw force r1 = (Ok tt, r2) /\
    (if r_good r2 then check_all E r2 else (Ok tt, r2)) = (Ok tt, r3) /\
    r' = with_evaluated (put_time E "_time_eval" r3).
Proof.
  intros (K & GF & X) F. unfold eval in F. rewrite K in F.
  assert (G : negb (r_good r) && negb force = false).
  { destruct GF as [G| -> ]; [apply is_good_spec in G; rewrite G|]; auto. apply andb_false_r. }
  rewrite G in F.
  assert (X' : match xs with Some t => (nrows t =? 0)%nat | None => false end = false).
  { destruct xs; auto. apply Nat.eqb_neq. auto. }
  rewrite X' in F. apply andthen_ok in F. destruct F as (r1 & A & F).
  destruct (activation_available r1) eqn:Av; [|discriminate]. cbn [negb] in F.
  apply step_inv in F. destruct F as (act & Ea & F).
  apply andthen_ok in F. destruct F as (r2 & B & F). apply andthen_ok in F. destruct F as (r3 & C & F).
  injection F as <-. exists r1, act, r2, r3. repeat (split; auto).
Qed.

Lemma available_raw r : activation_available r = true -> exists a, r_act r = Some a /\ raw a = Ok (v_bits a).
Proof.
  unfold activation_available. destruct (r_act r) as [a|]; [|discriminate]. intros V. exists a. unfold raw. rewrite V. auto.
Qed.

(** The activation given to the attributes *)
Lemma eval_working E (xs : option table) (recompute : bool) (r r1 : rule) (act : option activation) :
  match xs with Some t => nrows t <> 0%nat | None => True end ->
  (if recompute then calc_activation E xs r else (Ok tt, r)) = (Ok tt, r1) ->
  activation_available r1 = true ->
  match (if recompute return option table then None else xs) with
  | Some t => rmap Some (evaluate_activation r1 t)
  | None => Ok (r_act r1)
  end = Ok act ->
  exists a v, act = Some a /\ raw a = Ok v /\ working r xs v /\
    r_kind r1 = r_kind r /\ r_cond r1 = r_cond r /\ same_but ["_time_calc_activation"] (with_act (r_act r1) r) r1 /\
    (kept r r1 \/ (recompute = true /\ (exists t, xs = Some t) /\ spoilt E ["coverage"] r1)) /\
    (recompute = false -> r1 = r).
Proof.
  intros N A Av Ea.
  assert (Same : r1 = r -> r_kind r1 = r_kind r /\ r_cond r1 = r_cond r /\
    same_but ["_time_calc_activation"] (with_act (r_act r1) r) r1 /\ kept r r1).
  { intros ->. split; auto. split; auto. split; [constructor; auto|split; auto]. }
  destruct recompute.
  - injection Ea as <-. destruct (available_raw _ Av) as (a & Ra & Raw). exists a, (v_bits a).
    split; auto. split; auto. destruct xs as [t|].
    + destruct (calc_given _ _ _ _ A N) as (c & v & Rc & Ev & S1 & K). cbv zeta in S1.
      destruct S1 as [Bk Bc Ba Bt Bs]. cbn in *.
      assert (a = new_activation v) by congruence. subst a. cbn.
      split; [exists c; auto|]. split; auto. split; auto. split.
      { rewrite Ra. constructor; auto. cbn. intros m I. rewrite Bs by auto. rewrite dset_get, str_neq; auto. }
      split; [|discriminate]. destruct K; auto. right. split; auto. split; eauto.
    + unfold calc_activation in A. destruct (r_act r) eqn:Rr; [|discriminate]. injection A as <-.
      split; [exists a; split; congruence|]. destruct (Same eq_refl) as (X1 & X2 & X3 & X4). auto 8.
  - injection A as <-. destruct (Same eq_refl) as (X1 & X2 & X3 & X4). destruct xs as [t|].
    + unfold evaluate_activation in Ea. destruct (r_cond r) as [c|] eqn:Rc; [|discriminate].
      destruct (evaluate c t) as [v|] eqn:Ev; [|discriminate]. cbn in Ea. injection Ea as <-.
      exists (new_activation v), v. split; auto. split; auto. split; [exists c; auto|]. auto 8.
    + injection Ea as <-. destruct (available_raw _ Av) as (a & Ra & Raw). exists a, (v_bits a).
      split; auto. split; auto. split; [exists a; auto|]. auto 8.
Qed.

Lemma test_nodup k : NoDup (test_attributes k) /\ ~ In "activation" (test_attributes k) /\
  (forall a, In a (test_attributes k) -> In a (measures k) /\ a <> "coverage").
Proof.
  destruct k; cbn [test_attributes measures]; (split; [|split]).
  all: try (intros I; cbn [In] in I; intuition discriminate).
  all: try (repeat constructor; cbn [In]; intuition discriminate).
  all: intros a I; cbn [In] in I; repeat (destruct I as [<-|I]; [split; [cbn; tauto|discriminate]|]); contradiction.
Qed.

Lemma evaluated_same E r3 n : In n (measures (r_kind r3)) ->
  getattr (with_evaluated (put_time E "_time_eval" r3)) n = getattr r3 n.
Proof.
  intros I. apply (same_measure ["_time_eval"] r3); auto.
  - eapply same_trans; [apply same_put; left; auto|apply same_evaluated].
  - intros [K|[]]. symmetry in K. revert K. apply (clock_not_measure (r_kind r3)); auto. right; left; auto.
Qed.

Lemma eval_guilty E y xs recompute force kw r r' :
  evaluates r xs force kw -> eval E y xs recompute force kw r = (Ok tt, r') -> r_good r = true -> r_good r' = false ->
  guilty E r'.
Proof.
  intros Ev F G G'.
  destruct (eval_phases _ _ _ _ _ _ _ _ Ev F) as (r1 & act & r2 & r3 & A & Av & Ea & B & C & ->). cbn in G'.
  destruct (eval_working _ _ _ _ _ _ (proj2 (proj2 Ev)) A Av Ea) as (a & v & -> & Raw & Wk & Kd & Kc & S1 & H1' & _).
  assert (H1 : kept r r1 \/ spoilt E ["coverage"] r1) by tauto. clear H1'.
  destruct (test_nodup (r_kind r1)) as (ND & NA & Me).
  destruct (compute_effect _ _ _ _ _ _ _ _ ND NA (fun a I => proj1 (Me a I)) B) as (S2 & H2).
  assert (H : r_good r2 = false -> exists n, In n (measures (r_kind r2)) /\ r_bad r2 = Some n /\ denied E n r2).
  { intros G2. rewrite (sb_kind _ _ _ S2). destruct H2 as [(K1 & K2)|(n & I & _ & Bn & D)].
    - destruct H1 as [(K3 & K4)|(n & I & _ & Bn & D)]; [congruence|].
      destruct I as [<-|[]]. exists "coverage".
      assert (M : In "coverage" (measures (r_kind r1))) by (destruct (r_kind r1); left; auto).
      split; auto. split; [congruence|]. apply (denied_same E _ r1); auto; [apply S2|].
      apply (same_measure (touched (test_attributes (r_kind r1)))); auto.
      apply (measure_not_touched (r_kind r1)); auto. intros I. apply Me in I. tauto.
    - exists n. split; [apply Me; auto|]. auto. }
  assert (H3 : guilty E r3).
  { destruct (r_good r2) eqn:G2.
    - destruct (check_all_cases _ _ _ C) as [(-> & _)|(n & th & _ & -> & T & J)]; [congruence|].
      exists n. split; auto. split.
      + destruct (call_row _ _ _ _ J) as (row & R). exists th, row. auto.
      + intros I. apply (denied_same E n r2); auto.
        * apply (same_measure [] r2); auto. apply same_bad.
        * eapply denied_judge; eauto.
    - injection C as <-. destruct (H eq_refl) as (n & _ & Bn & D). exists n. split; auto. split; auto.
      destruct D as (th & T & (row & R) & _). exists th, row. auto. }
  destruct H3 as (n & Bn & X & D). exists n. split; auto. split; auto.
  intros I. apply (denied_same E n r3); auto. apply evaluated_same; auto.
Qed.

Lemma eval_blames E y xs recompute force kw r r' :
  evaluates r xs force kw -> eval E y xs recompute force kw r = (Ok tt, r') -> is_good r -> is_bad r' ->
  exists n th row, blames r' n /\ class_thresholds (e_classes E) (r_kind r) = Some th /\
    (well_formed th -> limits_of th n row /\
     (In n (measures (r_kind r)) -> numeric th n -> forall v x, attributes_of r' n = Ok v -> present v ->
        measured (e_lib E) row v x -> ~ meets (attributes_of r') row x)).
Proof.
  intros St F G B. apply is_good_spec in G. apply is_bad_spec in B.
  pose proof (w_kind _ _ (worse_eval E y xs recompute force kw r)) as K. rewrite F in K. cbn in K. rewrite <- K.
  apply guilty_meets. eapply eval_guilty; eauto.
Qed.

Lemma eval_limits E y xs recompute force kw r r' th n row v x :
  evaluates r xs force kw -> eval E y xs recompute force kw r = (Ok tt, r') -> is_good r' ->
  class_thresholds (e_classes E) (r_kind r) = Some th -> well_formed th ->
  In n (measures (r_kind r)) -> limits_of th n row ->
  (forall s, refers_to row s -> In s (measures (r_kind r))) ->
  attributes_of r' n = Ok v -> present v -> measured (e_lib E) row v x ->
  all_numbers (attributes_of r') row -> meets (attributes_of r') row x.
Proof.
  intros Ev F G T W I L Ref V P M N.
  destruct (eval_phases _ _ _ _ _ _ _ _ Ev F) as (r1 & act & r2 & r3 & A & Av & Ea & B & C & ->).
  apply is_good_spec in G. cbn in G.
  destruct (eval_working _ _ _ _ _ _ (proj2 (proj2 Ev)) A Av Ea) as (a & u & -> & Raw & Wk & Kd1 & _).
  assert (Kd2 : r_kind r2 = r_kind r).
  { pose proof (w_kind _ _ (worse_compute E (test_attributes (r_kind r1)) y (Some a) kw force r1)) as X.
    rewrite B in X. cbn in X. congruence. }
  destruct (r_good r2) eqn:G2.
  2: { injection C as <-. congruence. }
  destruct (check_all_cases _ _ _ C) as [(-> & J)|(m & th' & _ & -> & _)]; [|discriminate].
  destruct (judged_meets E th n row v x r2 (with_evaluated (put_time E "_time_eval" r2))) as (b & Jb & Bb); auto.
  - intros s R. unfold attributes_of. rewrite evaluated_same; auto. rewrite Kd2; auto.
  - unfold attributes_of. rewrite evaluated_same; auto. rewrite Kd2; auto.
  - apply Bb. rewrite (J th n) in Jb; [congruence|rewrite Kd2; auto|].
    apply dir_measure. rewrite Kd2. auto.
Qed.

(** ** Values *)

Lemma eval_common E y xs recompute force kw r r' :
  evaluates r xs force kw -> eval E y xs recompute force kw r = (Ok tt, r') ->
  exists a v r1 r2, working r xs v /\ raw a = Ok v /\
    r_kind r1 = r_kind r /\ r_cond r1 = r_cond r /\
    same_but ["_time_calc_activation"] (with_act (r_act r1) r) r1 /\
    compute E (test_attributes (r_kind r)) y (Some a) kw force r1 = (Ok tt, r2) /\
    same_but ["_time_eval"] r2 r' /\
    (r_good r2 = false -> r_bad r' = r_bad r2 /\ r_good r' = false) /\
    (recompute = false -> r1 = r) /\
    (recompute = true -> r_act r1 = Some a) /\
    (kept r r1 \/ (recompute = true /\ spoilt E ["coverage"] r1)).
Proof.
  intros Ev F. destruct (eval_phases _ _ _ _ _ _ _ _ Ev F) as (r1 & act & r2 & r3 & A & Av & Ea & B & C & ->).
  destruct (eval_working _ _ _ _ _ _ (proj2 (proj2 Ev)) A Av Ea) as (a & v & -> & Raw & Wk & Kd & Kc & S1 & H1 & R).
  exists a, v, r1, r2. rewrite Kd in B.
  assert (S3 : same_but ["_time_eval"] r2 (with_evaluated (put_time E "_time_eval" r3))).
  { apply same_trans with r3.
    - destruct (r_good r2).
      + destruct (check_all_cases _ _ _ C) as [(-> & _)|(n & th & _ & -> & _)]; [apply same_refl|apply same_bad].
      + injection C as <-. apply same_refl.
    - eapply same_trans; [apply same_put; left; auto|apply same_evaluated]. }
  repeat (split; [now auto|]). split.
  { intros G. rewrite G in C. injection C as <-. auto. }
  split; auto. split; [|tauto]. intros ->. injection Ea as Ea. auto.
Qed.

Lemma activation_attr r : getattr r "activation" =
  rmap (fun o => match o with Some l => OInts l | None => none end) (activation_vector r).
Proof.
  unfold getattr. assert (X : activation_vector r <> Err EAttr).
  { unfold activation_vector, raw. destruct (r_act r) as [a|]; [|discriminate].
    destruct (alen a =? 0), (v_here a); discriminate. }
  destruct (r_kind r); cbn; destruct (activation_vector r) as [o|[]]; auto; congruence.
Qed.

Lemma bad_attr r : getattr r "bad_because" = Ok (match r_bad r with Some a => text a | None => none end).
Proof. unfold getattr. destruct (r_kind r); reflexivity. Qed.

(** The attributes that eval leaves alone *)
Lemma eval_keeps E y xs recompute force kw r r' : 
  evaluates r xs force kw -> eval E y xs recompute force kw r = (Ok tt, r') ->
  exists act, working r xs act /\
    (forall n, In n (measures (r_kind r)) -> ~ In n (test_attributes (r_kind r)) ->
       n <> "coverage" \/ recompute = false -> getattr r' n = getattr r n) /\
    (recompute = false -> getattr r' "activation" = getattr r "activation") /\
    (recompute = true -> act <> [] -> getattr r' "activation" = Ok (OInts act)).
Proof.
  intros Ev F.
  destruct (eval_common _ _ _ _ _ _ _ _ Ev F) as (a & v & r1 & r2 & Wk & Raw & Kd & Kc & S1 & B & S3 & _ & R & Ra & _).
  destruct (test_nodup (r_kind r)) as (ND & NA & Me).
  destruct (compute_effect E y (Some a) kw force (test_attributes (r_kind r)) r1 r2) as (S2 & _); auto.
  { intros n I. rewrite Kd. apply Me. auto. }
  assert (SA : r_act r' = r_act r1) by (rewrite (sb_act _ _ _ S3), (sb_act _ _ _ S2); auto).
  assert (K' : r_kind r' = r_kind r) by (rewrite (sb_kind _ _ _ S3), (sb_kind _ _ _ S2); auto).
  exists v. split; auto. split; [|split].
  - intros n I T N.
    rewrite (same_measure ["_time_eval"] r2 r'); auto.
    2: { rewrite (sb_kind _ _ _ S2), Kd. auto. }
    2: { intros [K|[]]. symmetry in K. revert K. apply (clock_not_measure (r_kind r)); auto. right; left; auto. }
    rewrite (same_measure (touched (test_attributes (r_kind r))) r1 r2); auto.
    2: { rewrite Kd. auto. }
    2: { apply (measure_not_touched (r_kind r)); auto. }
    destruct N as [N|N]; [|rewrite R; auto].
    rewrite (same_measure ["_time_calc_activation"] (with_act (r_act r1) r) r1); auto.
    2: { intros [K|[]]. destruct (r_kind r); cbn [measures In] in I;
         repeat (destruct I as [<-|I]; [discriminate K|]); contradiction. }
    rewrite !getattr_measure by auto. unfold measure_read. cbn.
    destruct (r_kind r); cbn [measures In] in I; repeat (destruct I as [<-|I]; [first [congruence|reflexivity]|]); contradiction.
  - intros Rc. rewrite (R Rc) in *. rewrite !activation_attr. unfold activation_vector. rewrite SA. auto.
  - intros Rc N. apply (activation_read r' a v); auto. rewrite SA. auto.
Qed.

(** One attribute *)
Lemma eval_one a0 E y xs recompute force kw r r' :
  test_attributes (r_kind r) = [a0] ->
  evaluates r xs force kw -> eval E y xs recompute force kw r = (Ok tt, r') ->
  exists a v r1, working r xs v /\ raw a = Ok v /\ r_kind r1 = r_kind r /\ r_cond r1 = r_cond r /\
    (forall m, m <> "_time_calc_activation" -> slot m r1 = slot m r) /\
    ((exists r2, launch E a0 y (Some a) kw r1 = (Ok tt, r2) /\ slot ("_" ++ a0)%string r' = slot ("_" ++ a0)%string r2) \/
     (slot ("_" ++ a0)%string r' = nan /\ is_bad r' /\ blames r' "coverage" /\ recompute = true /\ force = false)).
Proof.
  intros T Ev F.
  destruct (eval_common _ _ _ _ _ _ _ _ Ev F) as (a & v & r1 & r2 & Wk & Raw & Kd & Kc & S1 & B & S3 & S4 & R & Ra & Kp).
  exists a, v, r1. rewrite T in B. repeat (split; [now auto|]). split.
  { intros m N. unfold slot. destruct S1 as [_ _ _ _ Bs]. cbn in Bs. rewrite Bs; auto. intros [X|[]]; congruence. }
  destruct (test_nodup (r_kind r)) as (ND & NA & Me). rewrite T in *.
  assert (Ma : In a0 (measures (r_kind r)) /\ a0 <> "coverage") by (apply Me; left; auto).
  assert (A0 : a0 <> "activation") by (intros ->; apply NA; left; auto).
  assert (X : slot ("_" ++ a0)%string r' = slot ("_" ++ a0)%string r2).
  { apply (same_slot _ _ _ _ S3). intros [K|[]]. symmetry in K. revert K. apply (clock_not_measure (r_kind r)).
    apply Ma. right; left; auto. }
  rewrite X. destruct (compute_cons _ _ _ _ _ _ _ _ _ A0 B) as [(G & Fo & C)|(_ & r3 & C & D)].
  - right. cbn in C. injection C as <-. split; [apply slot_put|].
    assert (G' : is_good r) by (destruct Ev as (_ & [G'|G'] & _); [auto|congruence]).
    apply is_good_spec in G'. destruct Kp as [(Kp & _)|(Rc & n & [<-|[]] & _ & Bn & _)]; [congruence|].
    destruct (S4 G) as (Y1 & Y2). split; [apply is_bad_spec; auto|].
    split; [apply blames_spec; rewrite Y1; auto|]. auto.
  - left. cbn in D. injection D as <-. apply andthen_ok in C. destruct C as (r4 & L & C).
    exists r4. split; auto. destruct (r_good r4); [eapply check_slot; eauto|injection C as <-; auto].
Qed.

Lemma cell_active q v : bits v -> where_active (fun x => same_num x q) NaN v
  (map (fun a => if a =? 0 then NaN else nmul q (numz a)) v).
Proof.
  intros B. induction v as [|a t IH]; cbn [map]; [constructor|]. inversion B as [|? ? [->| -> ] Bt]; subst.
  - apply wa_off. auto.
  - apply wa_on; auto. destruct q; cbn; auto. ring.
Qed.

Lemma eval_regression E y ys xs recompute force kw r r' q c :
  r_kind r = KRegression -> is_target y (map LNum ys) -> evaluates r xs force kw ->
  getattr r "prediction" = Ok (number q) -> r_cond r = Some c -> clen c <> 0%nat ->
  (forall act, working r xs act -> bits act) ->
  eval E y xs recompute force kw r = (Ok tt, r') ->
  exists act, working r xs act /\
   ((exists v m, where_active (fun x => same_num x q) NaN act v /\
       calc_regression_criterion (VSeries v) ys (k_criterion kw) = Ok (MNum m) /\
       getattr r' "criterion" = Ok (number m)) \/
    (getattr r' "criterion" = Ok nan /\ is_bad r' /\ blames r' "coverage" /\ recompute = true /\ force = false)).
Proof.
  intros K Y Ev P C N Bi F.
  assert (K' : r_kind r' = KRegression).
  { pose proof (w_kind _ _ (worse_eval E y xs recompute force kw r)) as X. rewrite F in X. cbn in X. congruence. }
  destruct (eval_one "criterion" E y xs recompute force kw r r') as (a & v & r1 & Wk & Raw & Kd & Kc & S1 & H); auto.
  { rewrite K. auto. }
  exists v. split; auto.
  rewrite (getattr_measure r' "criterion") by (rewrite K'; cbn; tauto).
  change (measure_read r' "criterion") with (Ok (slot "_criterion" r')).
  change ("_" ++ "criterion")%string with "_criterion" in H.
  destruct H as [(r2 & L & X)|(X & H)]; [left|right; rewrite X; auto]. rewrite X.
  unfold launch in L. rewrite Kd, K in L. cbn in L. unfold calc_error, if_activation in L. cbn [raw_of] in L.
  rewrite Raw in L. cbn [step] in L. apply step_inv in L. destruct L as (m & Em & L).
  destruct (number_target_ok y ys Y) as (t & Et & It). rewrite Et in Em. cbn [rbind] in Em.
  assert (P' : prediction r1 = Ok (number q)).
  { rewrite getattr_measure in P by (rewrite K; cbn; tauto). change (prediction r = Ok (number q)) in P.
    unfold prediction in *. rewrite Kd, S1 by discriminate. auto. }
  unfold prediction_vector in Em. rewrite P' in Em. cbn [rbind number] in Em.
  unfold rule_len in Em. rewrite Kc, C in Em. cbn [rbind] in Em. apply Nat.eqb_neq in N. rewrite N in Em. cbn [rbind] in Em.
  assert (Hn : rseq (map (fun c => match c with LNum x => Ok x | LText _ => Err EType end)
    (map (predicted_cell (number q)) v)) = Ok (map (fun a => if a =? 0 then NaN else nmul q (numz a)) v)).
  { clear. induction v as [|x t IH]; cbn [map]; auto. cbn [predicted_cell number]. destruct (x =? 0); cbn [rseq]; rewrite IH; auto. }
  change (OVal (XNum q)) with (number q) in Em.
  rewrite Hn in Em. cbn [rbind] in Em. apply rbind_ok in Em. destruct Em as (ys' & Eu & Em).
  rewrite (unsqueezed_ok _ _ _ It Eu) in Em.
  apply rbind_ok in Em. destruct Em as (me & Em & M). apply the_metric_inv in M. subst me.
  eexists _, m. split; [apply cell_active; auto|]. split; [apply Em|].
  rewrite (check_slot _ _ _ _ _ L). unfold put_time. rewrite slot_put_other by discriminate. rewrite slot_put. auto.
Qed.

Lemma eval_classification E y xs recompute force kw r r' c :
  r_kind r = KClassification -> evaluates r xs force kw ->
  getattr r "prediction" = Ok (class_obj c) ->
  eval E y xs recompute force kw r = (Ok tt, r') ->
  exists act, working r xs act /\
   ((exists m, calc_classification_criterion (ActArray act) (List.length act) (QLabel c) y (k_criterion kw) = Ok (RNum m) /\
       getattr r' "criterion" = Ok (number m)) \/
    (getattr r' "criterion" = Ok nan /\ is_bad r' /\ blames r' "coverage" /\ recompute = true /\ force = false)).
Proof.
  intros K Ev P F.
  assert (K' : r_kind r' = KClassification).
  { pose proof (w_kind _ _ (worse_eval E y xs recompute force kw r)) as X. rewrite F in X. cbn in X. congruence. }
  destruct (eval_one "criterion" E y xs recompute force kw r r') as (a & v & r1 & Wk & Raw & Kd & Kc & S1 & H); auto.
  { rewrite K. auto. }
  exists v. split; auto.
  rewrite (getattr_measure r' "criterion") by (rewrite K'; cbn; tauto).
  change (measure_read r' "criterion") with (Ok (slot "_criterion" r')).
  change ("_" ++ "criterion")%string with "_criterion" in H.
  destruct H as [(r2 & L & X)|(X & H)]; [left|right; rewrite X; auto]. rewrite X.
  unfold launch in L. rewrite Kd, K in L. cbn in L. unfold calc_rate, if_activation in L. cbn [raw_of] in L.
  rewrite Raw in L. cbn [step] in L. apply step_inv in L. destruct L as (m & Em & L).
  assert (P' : prediction r1 = Ok (class_obj c)).
  { rewrite getattr_measure in P by (rewrite K; cbn; tauto). change (prediction r = Ok (class_obj c)) in P.
    unfold prediction in *. rewrite Kd, S1 by discriminate. auto. }
  rewrite P' in Em. cbn [rbind] in Em.
  assert (Q : label_arg (class_obj c) = QLabel c) by (destruct c; auto). rewrite Q in Em.
  apply rbind_ok in Em. destruct Em as (me & Em & M). destruct me; try discriminate. injection M as ->.
  eexists. split; [apply Em|].
  rewrite (check_slot _ _ _ _ _ L). unfold put_time. rewrite slot_put_other by discriminate. rewrite slot_put. auto.
Qed.

Lemma eval_plain E y ys xs recompute force kw r r' :
  r_kind r = KRule -> is_target y ys -> evaluates r xs force kw ->
  eval E y xs recompute force kw r = (Ok tt, r') ->
  getattr r' "test_set_size" = Ok (integer (Z.of_nat (List.length ys))) \/
  (getattr r' "test_set_size" = Ok nan /\ is_bad r' /\ blames r' "coverage" /\ recompute = true /\ force = false).
Proof.
  intros K Y Ev F.
  assert (K' : r_kind r' = KRule).
  { pose proof (w_kind _ _ (worse_eval E y xs recompute force kw r)) as X. rewrite F in X. cbn in X. congruence. }
  destruct (eval_one "test_set_size" E y xs recompute force kw r r') as (a & v & r1 & Wk & Raw & Kd & Kc & S1 & H); auto.
  { rewrite K. auto. }
  rewrite (getattr_measure r' "test_set_size") by (rewrite K'; cbn; tauto).
  change (measure_read r' "test_set_size") with (Ok (slot "_test_set_size" r')).
  change ("_" ++ "test_set_size")%string with "_test_set_size" in H.
  destruct H as [(r2 & L & X)|(X & H)]; [left|right; rewrite X; auto]. rewrite X.
  unfold launch in L. rewrite Kd, K in L. cbn in L. apply step_inv in L. destruct L as (n & En & L). injection L as <-.
  rewrite (target_len_ok _ _ Y) in En. injection En as <-. rewrite slot_put. auto.
Qed.

Lemma put_all_same : forall names r, same_but (map (fun a => ("_" ++ a)%string) names) r (put_all names r).
Proof.
  unfold put_all. induction names as [|a t IH]; intros r; cbn [fold_left map]; [apply same_refl|].
  eapply same_trans; [apply same_put; left; reflexivity|]. eapply same_more; [|apply IH]. intros m I; right; auto.
Qed.

Lemma put_all_slot : forall names r a, NoDup names -> In a names -> slot ("_" ++ a)%string (put_all names r) = nan.
Proof.
  induction names as [|b t IH]; intros r a ND I; [contradiction|]. inversion ND as [|? ? Nb ND']; subst.
  unfold put_all. cbn [fold_left]. fold (put_all t (put ("_" ++ b)%string nan r)).
  destruct I as [<-|I]; auto.
  rewrite (same_slot _ _ _ ("_" ++ b)%string (put_all_same t _)).
  - apply slot_put.
  - intros I. apply in_map_iff in I. destruct I as (m & K & I). apply app_inj_str in K. subst. contradiction.
Qed.

(** A bad rule that is not forced *)
Lemma eval_bad E y xs recompute kw r : k_method kw = false -> is_bad r ->
  exists r', eval E y xs recompute false kw r = (Ok tt, r') /\ is_bad r' /\
    getattr r' "bad_because" = getattr r "bad_because" /\ getattr r' "activation" = getattr r "activation" /\
    (forall n, In n (measures (r_kind r)) -> ~ In n (test_attributes (r_kind r)) -> getattr r' n = getattr r n) /\
    (forall n, In n (test_attributes (r_kind r)) -> getattr r' n = Ok nan).
Proof.
  intros K B. pose proof B as B'. apply is_bad_spec in B'. unfold eval. rewrite K, B'. cbn [negb andb].
  set (r1 := with_fitted (put_time E "_time_eval" r)). set (names := test_attributes (r_kind r)).
  exists (put_all names r1). split; auto.
  pose proof (put_all_same names r1) as S1. destruct (test_nodup (r_kind r)) as (ND & NA & Me). fold names in ND, NA, Me.
  assert (G : forall n r0, r_good (put_all n r0) = r_good r0 /\ r_bad (put_all n r0) = r_bad r0).
  { unfold put_all. induction n as [|a t IH]; intros r0; cbn [fold_left]; auto.
    destruct (IH (put ("_" ++ a)%string nan r0)) as (-> & ->). auto. }
  destruct (G names r1) as (G1 & G2).
  assert (S2 : same_but ["_time_eval"] r r1).
  { eapply same_trans; [apply same_put; left; auto|apply same_fitted]. }
  split; [apply is_bad_spec; rewrite G1; auto|]. split; [|split; [|split]].
  - rewrite !bad_attr, G2. auto.
  - rewrite !activation_attr. unfold activation_vector. rewrite (sb_act _ _ _ S1). auto.
  - intros n I T. rewrite (same_measure _ r1 _ n S1).
    + apply (same_measure ["_time_eval"]); auto.
      intros [X|[]]. symmetry in X. revert X. apply (clock_not_measure (r_kind r)); auto. right; left; auto.
    + auto.
    + intros J. apply in_map_iff in J. destruct J as (m & X & J). apply app_inj_str in X. subst. contradiction.
  - intros n I. rewrite getattr_measure.
    + pose proof (put_all_slot names r1 n ND I) as V. destruct (Me n I) as (_ & NC).
      unfold measure_read. rewrite str_neq by auto.
      destruct (str_eqb n "prediction") eqn:P; [|rewrite V; auto].
      apply seqb_spec in P. subst n. unfold prediction. change ("_" ++ "prediction")%string with "_prediction" in V.
      rewrite V. destruct (r_kind (put_all names r1)); auto.
    + rewrite (sb_kind _ _ _ S1). apply Me. auto.
Qed.

(** Calls that do nothing *)
Lemma eval_nothing E y xs recompute force kw r :
  (k_method kw = true -> eval E y xs recompute force kw r = (Err EIndex, r)) /\
  (k_method kw = false -> is_good r \/ force = true -> (exists t, xs = Some t /\ nrows t = 0%nat) ->
     eval E y xs recompute force kw r = (Ok tt, r)) /\
  (evaluates r xs force kw -> recompute = false -> getattr r "activation_available" = Ok (boolean false) ->
     eval E y xs recompute force kw r = (Err EValue, r)) /\
  (evaluates r xs force kw -> xs = None -> r_act r = None -> eval E y xs recompute force kw r = (Err EValue, r)).
Proof.
  assert (G : is_good r \/ force = true -> negb (r_good r) && negb force = false).
  { intros [G| -> ]; [apply is_good_spec in G; rewrite G; auto|apply andb_false_r]. }
  unfold eval. split; [|split; [|split]].
  - intros ->. auto.
  - intros -> H (t & -> & N). rewrite G by auto. rewrite N. auto.
  - intros (-> & H & N) -> A. rewrite G by auto.
    assert (X : match xs with Some t => (nrows t =? 0)%nat | None => false end = false).
    { destruct xs; auto. apply Nat.eqb_neq. auto. }
    rewrite X. cbn [andthen]. rewrite available_spec in A. injection A as A.
    assert (activation_available r = false) by (destruct (activation_available r); auto; discriminate).
    rewrite H0. auto.
  - intros (-> & H & N) -> A. rewrite G by auto. unfold calc_activation. rewrite A.
    destruct recompute; auto. cbn [andthen]. unfold activation_available. rewrite A. auto.
Qed.

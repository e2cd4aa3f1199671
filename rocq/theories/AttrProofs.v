(** Proofs about fit and eval with any list of attributes. *)
From Coq Require Import List ZArith QArith Bool String Ascii Lia.
From Coq Require Import List.
From Verif Require Import Base Num Arith CondModel CondSpec CondBase ThrModel ThrSpec ThrProofs MetModel MetSpec
  MetReg MetClass RuleModel RuleSpec RuleProofs RuleFit RuleValues RuleEval AttrModel AttrSpec.
Import ListNotations.
Open Scope string_scope.
Open Scope list_scope.
Open Scope Z_scope.

(** ** The names *)

Lemma accepted_aside names : accepted names <-> left_aside names = false.
Proof.
  unfold left_aside. split.
  - intros A. destruct (existsb _ names) eqn:X; auto. apply existsb_exists in X. destruct X as (n & I & X).
    destruct (A n I) as (P & N). rewrite P, orb_false_r in X. apply existsb_exists in X. destruct X as (m & J & X).
    apply seqb_spec in X. subst m. contradiction.
  - intros X n I. assert (Y : existsb (str_eqb n) set_aside || prefix "_" n = false).
    { destruct (existsb (str_eqb n) set_aside || prefix "_" n) eqn:Y; auto.
      rewrite <- X. symmetry. apply existsb_exists. exists n. auto. }
    apply orb_false_iff in Y. destruct Y as (Y & Z). split; auto. intros J.
    assert (existsb (str_eqb n) set_aside = true) by (apply existsb_exists; exists n; split; auto; apply seqb_spec; auto).
    congruence.
Qed.

Lemma accepted_app u v : accepted (u ++ v) -> accepted u.
Proof. intros A n I. apply A. apply in_or_app. auto. Qed.

Lemma default_accepted k : accepted (train_attributes k) /\ accepted (test_attributes k).
Proof. rewrite !accepted_aside. destruct k; split; reflexivity. Qed.

Lemma kind_calc E xs r r1 o : calc_activation E xs r = (o, r1) -> r_kind r1 = r_kind r.
Proof. intros A. pose proof (w_kind _ _ (worse_calc_activation E xs r)) as X. rewrite A in X. auto. Qed.

(** ** The default lists *)

Lemma fit_default E y xs force kw r :
  fit_with E (train_attributes (r_kind r)) y xs force kw r = fit E y xs force kw r.
Proof.
  unfold fit_with, fit. rewrite (proj1 (accepted_aside _) (proj1 (default_accepted (r_kind r)))).
  destruct (k_method kw); auto. destruct (r_fitted r && _); auto.
  destruct (match xs with Some t => (nrows t =? 0)%nat | None => false end); auto.
  destruct (calc_activation E xs r) as ([[]|e] & r1) eqn:A; auto. cbn [andthen].
  rewrite (kind_calc _ _ _ _ _ A). auto.
Qed.

Lemma eval_default E y xs recompute force kw r :
  eval_with E (test_attributes (r_kind r)) y xs recompute force kw r = eval E y xs recompute force kw r.
Proof.
  unfold eval_with, eval. rewrite (proj1 (accepted_aside _) (proj2 (default_accepted (r_kind r)))).
  destruct (k_method kw); auto. destruct (negb (r_good r) && negb force).
  { destruct (r_kind r); auto. }
  destruct (match xs with Some t => (nrows t =? 0)%nat | None => false end); auto.
  destruct (if recompute then calc_activation E xs r else (Ok tt, r)) as ([[]|e] & r1) eqn:A; auto. cbn [andthen].
  assert (K : r_kind r1 = r_kind r) by (destruct recompute; [apply (kind_calc _ _ _ _ _ A)|congruence]).
  cbv zeta. destruct (negb (activation_available r1)); auto.
  destruct (match (if recompute return option table then None else xs) with
    | Some t => rmap Some (evaluate_activation r1 t) | None => Ok (r_act r1) end) as [act|e]; auto.
  cbn [step]. rewrite K. auto.
Qed.

(** ** What is not listed is kept *)

Lemma launch_unknown E a y act kw r : ~ In a (computable (r_kind r)) -> launch E a y act kw r = (Err EAttr, r).
Proof.
  intros N. unfold launch. destruct (r_kind r); cbn [computable In] in N.
  all: rewrite !str_neq by (intros ->; apply N; tauto).
  all: reflexivity.
Qed.

Lemma computable_measure k a : In a (computable k) -> In a (measures k) /\ a <> "activation" /\ a <> "coverage".
Proof.
  destruct k; cbn [computable measures In]; intros I;
    repeat (destruct I as [<-|I]; [split; [tauto|split; discriminate]|]); contradiction.
Qed.

Lemma launch_same E a y act kw r : same_but (touched [a]) r (snd (launch E a y act kw r)).
Proof.
  destruct (in_dec string_dec a (computable (r_kind r))) as [I|N].
  - apply (launch_effect E a y act kw r). apply computable_measure in I. tauto.
  - rewrite launch_unknown; auto. apply same_refl.
Qed.

Lemma check_same E a r : same_but [] r (snd (check_attribute E a r)).
Proof.
  destruct (check_attribute E a r) as (o, r') eqn:C.
  destruct (check_cases _ _ _ _ _ C) as [(-> & _)|(_ & -> & _)]; [apply same_refl|apply same_bad].
Qed.

Lemma check_names_same E th names r : same_but [] r (snd (check_names E th names r)).
Proof.
  induction names as [|a t IH]; cbn [check_names]; [apply same_refl|].
  destruct (judge E th a r) as [[]|e]; [auto|apply same_bad|apply same_refl].
Qed.

Lemma check_all_same E r : same_but [] r (snd (check_all E r)).
Proof. unfold check_all. destruct (class_thresholds _ _); [apply check_names_same|apply same_refl]. Qed.

Lemma same_andthen names m f r : same_but names r (snd m) ->
  (forall r1, same_but names r r1 -> same_but names r (snd (f r1))) -> same_but names r (snd (andthen m f)).
Proof. destruct m as ([[]|e] & r1); cbn [andthen snd]; auto. Qed.

Lemma same_nil names r r' : same_but [] r r' -> same_but names r r'.
Proof. apply same_more. intros m []. Qed.

Lemma touched_more a t : (forall m, In m (touched [a]) -> In m (touched (a :: t))) /\
  (forall m, In m (touched t) -> In m (touched (a :: t))).
Proof.
  unfold touched. cbn [map app]. split; intros m I.
  - destruct I as [<-|I]; [left; auto|right; apply in_or_app; auto].
  - right. auto.
Qed.

Lemma compute_same E y act kw force : forall names r, same_but (touched names) r (snd (compute E names y act kw force r)).
Proof.
  induction names as [|a t IH]; intros r; cbn [compute]; [apply same_refl|].
  destruct (touched_more a t) as (M1 & M2).
  destruct (str_eqb a "activation"); [apply same_refl|].
  destruct (negb (r_good r) && negb force).
  - eapply same_trans; [|eapply same_more; [apply M2|apply IH]]. apply same_put. apply touched_self. left; auto.
  - apply same_andthen.
    { eapply same_more; [apply M1|apply launch_same]. }
    intros r1 S1. apply same_andthen.
    { eapply same_trans; [apply S1|]. apply same_nil. destruct (r_good r1); [apply check_same|apply same_refl]. }
    intros r2 S2. eapply same_trans; [apply S2|]. eapply same_more; [apply M2|apply IH].
Qed.

(** The rules differ by their activation too. *)
Definition new_act (names : list string) (r r' : rule) : Prop :=
  exists a, same_but names (with_act a r) r'.

Lemma calc_new_act E xs r : new_act ["_time_calc_activation"] r (snd (calc_activation E xs r)).
Proof.
  assert (Same : new_act ["_time_calc_activation"] r r) by (exists (r_act r); destruct r; apply same_refl).
  unfold calc_activation. destruct xs as [t|]; [|destruct (r_act r); auto].
  destruct (nrows t =? 0)%nat; auto. destruct (evaluate_activation r t) as [a|e]; cbn [step snd]; auto.
  exists (Some a). eapply same_trans; [|apply same_nil, check_same]. apply same_put. left; auto.
Qed.

Lemma same_new_act names r r1 r2 : new_act names r r1 -> same_but names r1 r2 -> new_act names r r2.
Proof. intros (a & S1) S2. exists a. eapply same_trans; eauto. Qed.

Lemma new_act_more names names' r r' : (forall m, In m names -> In m names') -> new_act names r r' -> new_act names' r r'.
Proof. intros M (a & S1). exists a. eapply same_more; eauto. Qed.

Lemma new_act_refl names r : new_act names r r.
Proof. exists (r_act r). destruct r. apply same_refl. Qed.

Lemma new_act_andthen names m f r : new_act names r (snd m) ->
  (forall r1, new_act names r r1 -> new_act names r (snd (f r1))) -> new_act names r (snd (andthen m f)).
Proof. destruct m as ([[]|e] & r1); cbn [andthen snd]; auto. Qed.

Definition all_touched (names : list string) : list string :=
  touched names ++ ["_time_calc_activation"; "_time_fit"; "_time_eval"].

Lemma fit_new_act E names y xs force kw r : new_act (all_touched names) r (snd (fit_with E names y xs force kw r)).
Proof.
  unfold fit_with. destruct (left_aside names); [apply new_act_refl|]. destruct (k_method kw); [apply new_act_refl|].
  destruct (r_fitted r && _); [apply new_act_refl|].
  destruct (match xs with Some t => (nrows t =? 0)%nat | None => false end); [apply new_act_refl|].
  apply new_act_andthen.
  { eapply new_act_more; [|apply calc_new_act]. intros m [<-|[]]. apply in_or_app. right. left; auto. }
  intros r1 S1. apply new_act_andthen.
  { eapply same_new_act; [apply S1|]. eapply same_more; [|apply compute_same]. intros m I. apply in_or_app; auto. }
  intros r2 S2. apply new_act_andthen.
  { eapply same_new_act; [apply S2|]. apply same_nil. destruct (r_good r2); [apply check_all_same|apply same_refl]. }
  intros r3 S3. apply new_act_andthen; [destruct (e_subattributes E); auto|].
  intros r4 S4. cbn [snd]. eapply same_new_act; [apply S4|]. eapply same_trans; [apply same_put|apply same_fitted].
  apply in_or_app. right. right; left; auto.
Qed.

Lemma eval_new_act E names y xs recompute force kw r :
  new_act (all_touched names) r (snd (eval_with E names y xs recompute force kw r)) /\
  (recompute = false -> same_but (all_touched names) r (snd (eval_with E names y xs recompute force kw r))).
Proof.
  assert (Te : In "_time_eval" (all_touched names)) by (apply in_or_app; right; right; right; left; auto).
  assert (Both : forall r', same_but (all_touched names) r r' ->
    new_act (all_touched names) r r' /\ (recompute = false -> same_but (all_touched names) r r')).
  { intros r' S0. split; auto. eapply same_new_act; [apply new_act_refl|]. auto. }
  unfold eval_with. destruct (left_aside names); [apply Both, same_refl|]. destruct (k_method kw); [apply Both, same_refl|].
  destruct (negb (r_good r) && negb force).
  { destruct (existsb _ names); [apply Both, same_refl|]. apply Both. cbn [snd].
    eapply same_trans; [|eapply same_more; [|apply put_all_same]].
    - apply same_trans with (put_time E "_time_eval" r); [apply same_put; auto|apply same_fitted].
    - intros m I. apply in_or_app. left. apply in_or_app. auto. }
  destruct (match xs with Some t => (nrows t =? 0)%nat | None => false end); [apply Both, same_refl|].
  assert (Rest : forall r1, same_but (all_touched names) r1
    (snd (let xs := if recompute then None else xs in
    if negb (activation_available r1) then (Err EValue, r1)
    else
      step (match xs with Some t => rmap Some (evaluate_activation r1 t) | None => Ok (r_act r1) end) (fun act r =>
      andthen (compute E names y act kw force r) (fun r =>
      andthen (if r_good r then check_all E r else (Ok tt, r)) (fun r =>
      (Ok tt, with_evaluated (put_time E "_time_eval" r))))) r1))).
  { intros r1. cbv zeta. destruct (negb (activation_available r1)); [apply same_refl|].
    destruct (match (if recompute return option table then None else xs) with
      | Some t => rmap Some (evaluate_activation r1 t) | None => Ok (r_act r1) end) as [act|e]; [|apply same_refl].
    cbn [step]. apply same_andthen.
    { eapply same_more; [|apply compute_same]. intros m I. apply in_or_app; auto. }
    intros r2 S2. apply same_andthen.
    { eapply same_trans; [apply S2|]. apply same_nil. destruct (r_good r2); [apply check_all_same|apply same_refl]. }
    intros r3 S3. cbn [snd]. eapply same_trans; [apply S3|].
    apply same_trans with (put_time E "_time_eval" r3); [apply same_put; auto|apply same_evaluated]. }
  destruct recompute.
  - split; [|discriminate]. apply new_act_andthen.
    { eapply new_act_more; [|apply calc_new_act]. intros m [<-|[]]. apply in_or_app. right. left; auto. }
    intros r1 S1. eapply same_new_act; [apply S1|]. apply Rest.
  - apply Both. cbn [andthen]. apply Rest.
Qed.

Lemma not_all_touched k n names : In n (measures k) -> ~ In n names -> ~ In ("_" ++ n)%string (all_touched names).
Proof.
  intros I N J. apply in_app_or in J. destruct J as [J|J].
  - revert J. apply (measure_not_touched k); auto.
  - destruct k; cbn [measures In] in I; cbn [In] in J;
      repeat (destruct I as [<-|I]; [cbn in J; intuition discriminate|]); contradiction.
Qed.

Lemma new_act_measure names r r' n : new_act names r r' -> In n (measures (r_kind r)) -> n <> "coverage" ->
  ~ In ("_" ++ n)%string names -> getattr r' n = getattr r n.
Proof.
  intros (a & S1) I N T. rewrite (same_measure names (with_act a r) r' n); auto.
  rewrite !getattr_measure by auto. unfold measure_read. rewrite (str_neq _ _ N). auto.
Qed.

Lemma fit_unlisted E names y xs force kw r n : In n (measures (r_kind r)) -> n <> "coverage" -> ~ In n names ->
  getattr (snd (fit_with E names y xs force kw r)) n = getattr r n.
Proof.
  intros I N T. eapply new_act_measure; [apply fit_new_act|auto|auto|apply (not_all_touched (r_kind r)); auto].
Qed.

Lemma eval_unlisted E names y xs recompute force kw r n : In n (measures (r_kind r)) ->
  n <> "coverage" \/ recompute = false -> ~ In n names ->
  getattr (snd (eval_with E names y xs recompute force kw r)) n = getattr r n.
Proof.
  intros I N T. destruct (eval_new_act E names y xs recompute force kw r) as (S1 & S2). destruct N as [N|N].
  - eapply new_act_measure; [apply S1|auto|auto|apply (not_all_touched (r_kind r)); auto].
  - eapply same_measure; [apply S2; auto|auto|apply (not_all_touched (r_kind r)); auto].
Qed.

(** ** Refused names *)

Lemma compute_app E y act kw force u : forall v r,
  compute E (u ++ v) y act kw force r =
  andthen (compute E u y act kw force r) (fun r => compute E v y act kw force r).
Proof.
  induction u as [|a t IH]; intros v r; cbn [app compute]; auto.
  destruct (str_eqb a "activation"); auto. destruct (negb (r_good r) && negb force); auto.
  rewrite andthen_assoc. destruct (launch E a y act kw r) as ([[]|e] & r1); auto. cbn [andthen].
  destruct (if r_good r1 then check_attribute E a r1 else (Ok tt, r1)) as ([[]|e] & r2); auto. cbn [andthen]. auto.
Qed.

Lemma compute_activation E y act kw force : forall names r, In "activation" names ->
  exists e, fst (compute E names y act kw force r) = Err e.
Proof.
  induction names as [|a t IH]; intros r I; [contradiction|]. cbn [compute].
  destruct (str_eqb a "activation") eqn:A; [cbn; eauto|].
  assert (J : In "activation" t).
  { destruct I as [I|I]; auto. subst a. discriminate A. }
  destruct (negb (r_good r) && negb force); auto.
  destruct (launch E a y act kw r) as ([[]|e] & r1); cbn [andthen fst]; eauto.
  destruct (if r_good r1 then check_attribute E a r1 else (Ok tt, r1)) as ([[]|e] & r2); cbn [andthen fst]; eauto.
Qed.

Lemma fit_starts E names y xs force kw r : accepted names -> starts r xs kw ->
  fit_with E names y xs force kw r =
    andthen (calc_activation E xs r) (fun r =>
    andthen (compute E names y None kw force r) (fun r =>
    andthen (if r_good r then check_all E r else (Ok tt, r)) (fun r =>
    andthen (if e_subattributes E then (trigger r, r) else (Ok tt, r)) (fun r =>
    (Ok tt, with_fitted (put_time E "_time_fit" r)))))).
Proof.
  intros A (K & X). unfold fit_with. rewrite (proj1 (accepted_aside _) A), K. destruct xs as [t|].
  - rewrite andb_false_r. apply Nat.eqb_neq in X. rewrite X. auto.
  - rewrite X. auto.
Qed.

Definition given_act (recompute : bool) (xs : option table) (r : rule) : res (option activation) :=
  match (if recompute return option table then None else xs) with
  | Some t => rmap Some (evaluate_activation r t)
  | None => Ok (r_act r)
  end.

Lemma eval_starts E names y xs recompute force kw r : accepted names -> evaluates r xs force kw ->
  eval_with E names y xs recompute force kw r =
    andthen (if recompute then calc_activation E xs r else (Ok tt, r)) (fun r =>
    if negb (activation_available r) then (Err EValue, r)
    else
      step (given_act recompute xs r) (fun act r =>
      andthen (compute E names y act kw force r) (fun r =>
      andthen (if r_good r then check_all E r else (Ok tt, r)) (fun r =>
      (Ok tt, with_evaluated (put_time E "_time_eval" r))))) r).
Proof.
  intros A (K & GF & X). unfold eval_with. rewrite (proj1 (accepted_aside _) A), K.
  assert (G : negb (r_good r) && negb force = false).
  { destruct GF as [G| -> ]; [apply is_good_spec in G; rewrite G|]; auto. apply andb_false_r. }
  rewrite G.
  assert (X' : match xs with Some t => (nrows t =? 0)%nat | None => false end = false).
  { destruct xs; auto. apply Nat.eqb_neq. auto. }
  rewrite X'. reflexivity.
Qed.

Lemma fit_never E names y xs force kw r : accepted names -> starts r xs kw -> In "activation" names ->
  exists e, fst (fit_with E names y xs force kw r) = Err e.
Proof.
  intros A St I. rewrite fit_starts; auto.
  destruct (calc_activation E xs r) as ([[]|e] & r1); cbn [andthen fst]; eauto.
  destruct (compute_activation E y None kw force names r1 I) as (e & C).
  destruct (compute E names y None kw force r1) as (o & r2). cbn [fst] in C. subst o. cbn [andthen fst]. eauto.
Qed.

Lemma eval_never E names y xs recompute force kw r : accepted names -> evaluates r xs force kw -> In "activation" names ->
  exists e, fst (eval_with E names y xs recompute force kw r) = Err e.
Proof.
  intros A St I. rewrite eval_starts; auto.
  destruct (if recompute then calc_activation E xs r else (Ok tt, r)) as ([[]|e] & r1); cbn [andthen fst]; eauto.
  destruct (negb (activation_available r1)); cbn [fst]; eauto.
  destruct (given_act recompute xs r1) as [act|e]; cbn [step fst]; eauto.
  destruct (compute_activation E y act kw force names r1 I) as (e & C).
  destruct (compute E names y act kw force r1) as (o & r2). cbn [fst] in C. subst o. cbn [andthen fst]. eauto.
Qed.

Lemma fit_ok E names y xs force kw r r' : accepted names -> starts r xs kw -> fit_with E names y xs force kw r = (Ok tt, r') ->
  exists r1 r2 r3, calc_activation E xs r = (Ok tt, r1) /\ compute E names y None kw force r1 = (Ok tt, r2) /\
    (if r_good r2 then check_all E r2 else (Ok tt, r2)) = (Ok tt, r3) /\ r' = with_fitted (put_time E "_time_fit" r3).
Proof.
  intros A St F. rewrite fit_starts in F by auto.
  apply andthen_ok in F. destruct F as (r1 & A1 & F). apply andthen_ok in F. destruct F as (r2 & B & F).
  apply andthen_ok in F. destruct F as (r3 & C & F). apply andthen_ok in F. destruct F as (r4 & D & F).
  exists r1, r2, r3. repeat (split; auto). injection F as <-. destruct (e_subattributes E); congruence.
Qed.

Lemma eval_ok E names y xs recompute force kw r r' : accepted names -> evaluates r xs force kw ->
  eval_with E names y xs recompute force kw r = (Ok tt, r') ->
  exists r1 act r2 r3, (if recompute then calc_activation E xs r else (Ok tt, r)) = (Ok tt, r1) /\
    activation_available r1 = true /\ given_act recompute xs r1 = Ok act /\
    compute E names y act kw force r1 = (Ok tt, r2) /\
    (if r_good r2 then check_all E r2 else (Ok tt, r2)) = (Ok tt, r3) /\
    r' = with_evaluated (put_time E "_time_eval" r3).
Proof.
  intros A St F. rewrite eval_starts in F by auto.
  apply andthen_ok in F. destruct F as (r1 & A1 & F).
  destruct (activation_available r1) eqn:Av; [|discriminate]. cbn [negb] in F.
  apply step_inv in F. destruct F as (act & Ea & F).
  apply andthen_ok in F. destruct F as (r2 & B & F). apply andthen_ok in F. destruct F as (r3 & C & F).
  injection F as <-. exists r1, act, r2, r3. repeat (split; auto).
Qed.

(** The result of the first names, then a name that is refused. *)
Lemma fit_stops E u a v y xs force kw r r' e : accepted (u ++ a :: v) -> starts r xs kw ->
  fit_with E u y xs force kw r = (Ok tt, r') ->
  (forall r1 r2, compute E u y None kw force r1 = (Ok tt, r2) -> r_kind r1 = r_kind r ->
     (is_good r' -> r_good r2 = true) -> fst (compute E (a :: v) y None kw force r2) = Err e) ->
  fst (fit_with E (u ++ a :: v) y xs force kw r) = Err e.
Proof.
  intros A St F H. destruct (fit_ok _ _ _ _ _ _ _ _ (accepted_app _ _ A) St F) as (r1 & r2 & r3 & A1 & B & C & ->).
  rewrite fit_starts by auto. rewrite A1. cbn [andthen]. rewrite compute_app, B. cbn [andthen].
  specialize (H r1 r2 B (kind_calc _ _ _ _ _ A1)).
  destruct (compute E (a :: v) y None kw force r2) as (o & r4). cbn [fst] in H. rewrite H; auto.
  intros G. apply is_good_spec in G. cbn in G. destruct (r_good r2) eqn:G2; auto. congruence.
Qed.

Lemma eval_stops E u a v y xs recompute force kw r r' e : accepted (u ++ a :: v) -> evaluates r xs force kw ->
  eval_with E u y xs recompute force kw r = (Ok tt, r') ->
  (forall act r1 r2, compute E u y act kw force r1 = (Ok tt, r2) -> r_kind r1 = r_kind r ->
     (is_good r' -> r_good r2 = true) -> fst (compute E (a :: v) y act kw force r2) = Err e) ->
  fst (eval_with E (u ++ a :: v) y xs recompute force kw r) = Err e.
Proof.
  intros A St F H.
  destruct (eval_ok _ _ _ _ _ _ _ _ _ (accepted_app _ _ A) St F) as (r1 & act & r2 & r3 & A1 & Av & Ea & B & C & ->).
  rewrite eval_starts by auto. rewrite A1. cbn [andthen]. rewrite Av. cbn [negb]. rewrite Ea. cbn [step].
  rewrite compute_app, B. cbn [andthen].
  assert (K : r_kind r1 = r_kind r) by (destruct recompute; [apply (kind_calc _ _ _ _ _ A1)|congruence]).
  specialize (H act r1 r2 B K).
  destruct (compute E (a :: v) y act kw force r2) as (o & r4). cbn [fst] in H. rewrite H; auto.
  intros G. apply is_good_spec in G. cbn in G. destruct (r_good r2) eqn:G2; auto. congruence.
Qed.

Lemma fit_refuses E u v y xs force kw r : accepted (u ++ "activation" :: v) -> starts r xs kw ->
  fst (fit_with E u y xs force kw r) = Ok tt -> fst (fit_with E (u ++ "activation" :: v) y xs force kw r) = Err EValue.
Proof.
  intros A St F. destruct (fit_with E u y xs force kw r) as (o & r') eqn:X. cbn [fst] in F. subst o.
  eapply fit_stops; eauto.
Qed.

Lemma eval_refuses E u v y xs recompute force kw r : accepted (u ++ "activation" :: v) -> evaluates r xs force kw ->
  fst (eval_with E u y xs recompute force kw r) = Ok tt ->
  fst (eval_with E (u ++ "activation" :: v) y xs recompute force kw r) = Err EValue.
Proof.
  intros A St F. destruct (eval_with E u y xs recompute force kw r) as (o & r') eqn:X. cbn [fst] in F. subst o.
  eapply eval_stops; eauto.
Qed.

(** ** Names without method *)

Lemma compute_unknown E a v y act kw force r k : r_kind r = k -> ~ In a ("activation" :: computable k) ->
  r_good r = true \/ force = true -> fst (compute E (a :: v) y act kw force r) = Err EAttr.
Proof.
  intros K N GF. cbn [compute]. rewrite str_neq by (intros ->; apply N; left; auto).
  assert (G : negb (r_good r) && negb force = false) by (destruct GF as [-> | -> ]; auto; apply andb_false_r).
  rewrite G, launch_unknown; auto. intros I. apply N. right. congruence.
Qed.

Lemma kind_compute E names y act kw force r r2 o : compute E names y act kw force r = (o, r2) -> r_kind r2 = r_kind r.
Proof.
  intros C. pose proof (w_kind _ _ (worse_compute E names y act kw force r)) as X. rewrite C in X. auto.
Qed.

Lemma fit_unknown E u a v y xs force kw r r' : accepted (u ++ a :: v) -> starts r xs kw ->
  ~ In a ("activation" :: computable (r_kind r)) ->
  fit_with E u y xs force kw r = (Ok tt, r') -> is_good r' \/ force = true ->
  fst (fit_with E (u ++ a :: v) y xs force kw r) = Err EAttr.
Proof.
  intros A St N F GF. eapply fit_stops; eauto. intros r1 r2 B K G.
  eapply compute_unknown; [|apply N|tauto]. rewrite (kind_compute _ _ _ _ _ _ _ _ _ B). auto.
Qed.

Lemma eval_unknown E u a v y xs recompute force kw r r' : accepted (u ++ a :: v) -> evaluates r xs force kw ->
  ~ In a ("activation" :: computable (r_kind r)) ->
  eval_with E u y xs recompute force kw r = (Ok tt, r') -> is_good r' \/ force = true ->
  fst (eval_with E (u ++ a :: v) y xs recompute force kw r) = Err EAttr.
Proof.
  intros A St N F GF. eapply eval_stops; eauto. intros act r1 r2 B K G.
  eapply compute_unknown; [|apply N|tauto]. rewrite (kind_compute _ _ _ _ _ _ _ _ _ B). auto.
Qed.

(** A bad rule that is not forced: nothing is computed, whatever the names. *)
Lemma compute_bad E y act kw : forall names r, ~ In "activation" names -> r_good r = false ->
  compute E names y act kw false r = (Ok tt, put_all names r).
Proof.
  unfold put_all. induction names as [|a t IH]; intros r N G; cbn [compute fold_left]; auto.
  rewrite str_neq by (intros ->; apply N; left; auto). rewrite G. cbn [negb andb]. apply IH; auto.
  intros I. apply N. right; auto.
Qed.

Lemma put_all_last : forall names r a, In a names -> slot ("_" ++ a)%string (put_all names r) = nan.
Proof.
  unfold put_all. induction names as [|b t IH]; intros r a I; [contradiction|]. cbn [fold_left].
  destruct (in_dec string_dec a t) as [J|J]; auto. destruct I as [->|I]; [|contradiction].
  fold (put_all t (put ("_" ++ a)%string nan r)). rewrite (same_slot _ _ _ ("_" ++ a)%string (put_all_same t _)).
  - apply slot_put.
  - intros I. apply in_map_iff in I. destruct I as (m & K & I). apply app_inj_str in K. subst. contradiction.
Qed.

Lemma put_all_flags names : forall r, r_good (put_all names r) = r_good r /\ r_bad (put_all names r) = r_bad r.
Proof.
  unfold put_all. induction names as [|a t IH]; intros r; cbn [fold_left]; auto.
  destruct (IH (put ("_" ++ a)%string nan r)) as (-> & ->). auto.
Qed.

Lemma private_read r m v : dget m (properties (r_kind r)) = None -> dget m (r_dict r) = Some v -> getattr r m = Ok v.
Proof.
  intros P D. unfold getattr. rewrite P.
  assert (X : dget m (r_dict r ++ fields r ++ constants (r_kind r)) = Some v); [|rewrite X; auto].
  induction (r_dict r) as [|(k, x) t IH]; cbn [dget app] in *; [discriminate|]. destruct (str_eqb m k); auto.
Qed.

Lemma no_private_property k n : dget ("_" ++ n)%string (properties k) = None.
Proof. destruct k; reflexivity. Qed.

Lemma slot_nan m r : slot m r = nan -> dget m (r_dict r) = Some nan.
Proof. unfold slot. destruct (dget m (r_dict r)); [congruence|discriminate]. Qed.

Lemma fit_bad_names E names y xs kw r : accepted names -> ~ In "activation" names -> starts r xs kw -> is_bad r ->
  e_subattributes E = false ->
  fst (fit_with E names y xs false kw r) = fst (fit_with E [] y xs false kw r) /\
  (fst (fit_with E names y xs false kw r) = Ok tt -> ~ In "time_fit" names ->
   forall n, In n names -> getattr (snd (fit_with E names y xs false kw r)) ("_" ++ n)%string = Ok nan).
Proof.
  intros A N St B Sa. apply is_bad_spec in B.
  rewrite !fit_starts by (auto; intros n []).
  destruct (calc_activation E xs r) as ([[]|e] & r1) eqn:C; cbn [andthen fst]; [|split; auto; discriminate].
  assert (G1 : r_good r1 = false).
  { pose proof (w_bad _ _ (worse_calc_activation E xs r) B) as X. rewrite C in X. apply X. }
  rewrite compute_bad by auto. cbn [compute andthen]. destruct (put_all_flags names r1) as (G2 & _).
  rewrite G2, G1. cbn [andthen]. rewrite Sa. cbn [andthen fst snd]. split; auto. intros _ Nt n I.
  apply private_read; [apply no_private_property|]. apply slot_nan. unfold with_fitted, put_time.
  change (slot ("_" ++ n)%string (put "_time_fit" (number (e_time E "_time_fit")) (put_all names r1)) = nan).
  rewrite slot_put_other; [apply put_all_last; auto|].
  intros X. apply (app_inj_str n "time_fit") in X. subst. contradiction.
Qed.

Lemma eval_bad_names E names y xs recompute kw r : accepted names -> ~ In "activation" names -> is_bad r ->
  k_method kw = false ->
  exists r', eval_with E names y xs recompute false kw r = (Ok tt, r') /\ is_bad r' /\
    getattr r' "bad_because" = getattr r "bad_because" /\ getattr r' "activation" = getattr r "activation" /\
    forall n, In n names -> getattr r' ("_" ++ n)%string = Ok nan.
Proof.
  intros A N B K. apply is_bad_spec in B. unfold eval_with. rewrite (proj1 (accepted_aside _) A), K, B. cbn [negb andb].
  assert (X : existsb (str_eqb "activation") names = false).
  { destruct (existsb _ names) eqn:X; auto. apply existsb_exists in X. destruct X as (n & I & X). apply seqb_spec in X.
    subst n. contradiction. }
  rewrite X. set (r1 := with_fitted (put_time E "_time_eval" r)). exists (put_all names r1).
  destruct (put_all_flags names r1) as (G1 & G2). pose proof (put_all_same names r1) as S1.
  split; auto. split; [apply is_bad_spec; rewrite G1; auto|]. split; [rewrite !bad_attr, G2; auto|].
  split; [rewrite !activation_attr; unfold activation_vector; rewrite (sb_act _ _ _ S1); auto|].
  intros n I. apply private_read; [apply no_private_property|]. apply slot_nan. apply put_all_last; auto.
Qed.

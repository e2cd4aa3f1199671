(** Proofs about fit and eval. *)
From Coq Require Import List ZArith QArith Bool String Ascii Lia.
From Coq Require Import List.
From Verif Require Import Base Num Arith CondModel CondSpec CondBase ThrModel ThrSpec ThrProofs MetModel MetSpec
  MetReg MetClass RuleModel RuleSpec RuleProofs.
Import ListNotations.
Open Scope string_scope.
Open Scope list_scope.
Open Scope Z_scope.

(** ** One check *)

Lemma check_cases E a r o r' : check_attribute E a r = (o, r') ->
  (r' = r /\ (o = Ok tt -> forall th, class_thresholds (e_classes E) (r_kind r) = Some th -> judge E th a r = Ok true)) \/
  (o = Ok tt /\ r' = with_bad a r /\
   exists th, class_thresholds (e_classes E) (r_kind r) = Some th /\ judge E th a r = Ok false).
Proof.
  unfold check_attribute. destruct (class_thresholds _ _) as [th|].
  - destruct (judge E th a r) as [[]|e] eqn:J; intros K; injection K as <- <-; [left|right|left].
    + split; auto. intros _ th' T. congruence.
    + split; auto. split; eauto.
    + split; auto. discriminate.
  - intros K. injection K as <- <-. left. split; auto. discriminate.
Qed.

Lemma check_ok E a r : exists o r', check_attribute E a r = (o, r').
Proof. destruct (check_attribute E a r); eauto. Qed.

(** The limits of the class refuse attribute [n] of [r]. *)
Definition denied (E : env) (n : string) (r : rule) : Prop :=
  exists th, class_thresholds (e_classes E) (r_kind r) = Some th /\
    (exists row, row_of th n = Some row) /\
    (well_formed th -> numeric th n -> fst (call (e_lib E) th n (attributes_of r)) = Ok false).

Lemma call_row lib th n f : fst (call lib th n f) = Ok false -> exists row, row_of th n = Some row.
Proof.
  unfold call, row_of. destruct (dget n (t_limits th)) as [p|]; [eauto|discriminate].
Qed.

Lemma resolved_plain f g : forall lims r,
  (forall j l, dget j r = Some l -> j <> "arg" -> exists x, l = XNum x) ->
  resolved f lims r = resolved g lims r.
Proof.
  induction lims as [|j t IH]; intros r H; cbn [resolved]; auto.
  destruct (str_eqb j "arg") eqn:A; auto.
  assert (N : j <> "arg") by (intros ->; rewrite str_refl in A; discriminate).
  destruct (dget j r) as [l|] eqn:D; auto.
  destruct (H j l D N) as (x & ->). cbn. auto.
Qed.

(** The verdict of numeric limits only depends on the attribute. *)
Lemma call_local lib th n f g : well_formed th -> numeric th n -> f n = g n ->
  fst (call lib th n f) = fst (call lib th n g).
Proof.
  intros W H E. rewrite !(proj1 (call_eq lib th n _ (proj1 (proj2 W)))).
  destruct (row_of th n) as [row|] eqn:R; auto. cbn [verdict]. rewrite E.
  assert (P : resolved f (map fst row) row = resolved g (map fst row) row).
  { apply resolved_plain. intros j l D N. apply dget_some in D. apply row_of_spec in R; auto. eauto. }
  rewrite P. auto.
Qed.

Lemma denied_judge E a r th : class_thresholds (e_classes E) (r_kind r) = Some th -> judge E th a r = Ok false ->
  denied E a r.
Proof. intros C J. exists th. split; auto. split; [eapply call_row; eauto|]. intros _ _. exact J. Qed.

Lemma denied_same E n r r' : r_kind r' = r_kind r -> getattr r' n = getattr r n -> denied E n r -> denied E n r'.
Proof.
  intros K G (th & C & R & H). exists th. rewrite K. split; auto. split; auto. intros W N.
  rewrite <- (H W N). apply call_local; auto. unfold attributes_of. rewrite G. auto.
Qed.

(** ** One attribute *)

Definition clocks : list string :=
  ["_time_calc_prediction"; "_time_calc_std"; "_time_calc_zscore"; "_time_calc_criterion"].

Definition touched (attrs : list string) : list string := map (fun a => ("_" ++ a)%string) attrs ++ clocks.

Definition kept (r r' : rule) : Prop := r_good r' = r_good r /\ r_bad r' = r_bad r.

Definition spoilt (E : env) (names : list string) (r' : rule) : Prop :=
  exists n, In n names /\ r_good r' = false /\ r_bad r' = Some n /\ denied E n r'.

Lemma measure_not_clock k n : In n (measures k) -> ~ In ("_" ++ n)%string clocks.
Proof.
  intros I J. destruct k; cbn [measures In] in I; cbn [clocks In] in J;
    repeat (destruct I as [<-|I]; [cbn in J; intuition discriminate|]); contradiction.
Qed.

Lemma measure_not_touched k n attrs : In n (measures k) -> ~ In n attrs -> ~ In ("_" ++ n)%string (touched attrs).
Proof.
  intros I N J. unfold touched in J. apply in_app_or in J. destruct J as [J|J].
  - apply in_map_iff in J. destruct J as (m & K & J). apply app_inj_str in K. subst. contradiction.
  - eapply measure_not_clock; eauto.
Qed.

Lemma touched_self a attrs : In a attrs -> In ("_" ++ a)%string (touched attrs).
Proof. intros I. apply in_or_app. left. apply (in_map (fun a => ("_" ++ a)%string)). auto. Qed.

Lemma touched_clock c attrs : In c clocks -> In c (touched attrs).
Proof. intros I. apply in_or_app. auto. Qed.

Lemma check_effect E a r r1 o r' : In a (measures (r_kind r)) ->
  same_but (touched [a]) r r1 -> kept r r1 -> check_attribute E a r1 = (o, r') ->
  same_but (touched [a]) r r' /\ (kept r r' \/ (o = Ok tt /\ spoilt E [a] r')).
Proof.
  intros M B K C. destruct (check_cases _ _ _ _ _ C) as [(-> & _)|(-> & -> & th & T & J)].
  - auto.
  - split; [eapply same_trans; [apply B|apply same_bad]|]. right. split; auto.
    exists a. split; [left; auto|]. split; auto. split; auto.
    apply (denied_same E a r1 (with_bad a r1)); auto.
    + rewrite (same_measure [] r1 (with_bad a r1) a); auto.
      * apply same_bad.
      * destruct B as [Bk _ _ _ _]. rewrite Bk. auto.
    + eapply denied_judge; eauto.
Qed.

Definition effect (E : env) (a : string) (r : rule) (m : res unit * rule) : Prop :=
  same_but (touched [a]) r (snd m) /\ (kept r (snd m) \/ (fst m = Ok tt /\ spoilt E [a] (snd m))).

Lemma effect_none E a r o : effect E a r (o, r).
Proof. split; [apply same_refl|left; split; auto]. Qed.

Lemma effect_step {A} E a (v : res A) f r : (forall x, v = Ok x -> effect E a r (f x r)) -> effect E a r (step v f r).
Proof. destruct v; cbn; intros H; auto. apply effect_none. Qed.

Lemma effect_check E a r r1 : In a (measures (r_kind r)) -> same_but (touched [a]) r r1 -> kept r r1 ->
  effect E a r (check_attribute E a r1).
Proof.
  intros M B K. destruct (check_attribute E a r1) as (o, r') eqn:C. eapply check_effect; eauto.
Qed.

Lemma effect_if E a act f r : (forall v, effect E a r (f v r)) -> effect E a r (if_activation act r f).
Proof.
  intros H. unfold if_activation. destruct (raw_of act r) as [v|]; [|apply effect_none].
  apply effect_step. auto.
Qed.

Lemma same_put2 a n v t r : n = ("_" ++ a)%string -> In t clocks -> forall w,
  same_but (touched [a]) r (put t w (put n v r)) /\ kept r (put t w (put n v r)).
Proof.
  intros -> I w. split; [|split; auto].
  eapply same_trans; apply same_put; [apply touched_self; left; auto|apply touched_clock; auto].
Qed.

Lemma effect_put2 E a n v t r : In a (measures (r_kind r)) -> n = ("_" ++ a)%string -> In t clocks ->
  effect E a r (check_attribute E a (put_time E t (put n v r))).
Proof.
  intros M H I. destruct (same_put2 a n v t r H I (number (e_time E t))) as (S1 & K1). apply effect_check; auto.
Qed.

Lemma effect_put E a n v r : n = ("_" ++ a)%string -> effect E a r (Ok tt, put n v r).
Proof.
  intros ->. split; [apply same_put, touched_self; left; auto|]. left. split; auto.
Qed.

Lemma launch_effect E a y act kw r : In a (measures (r_kind r)) -> effect E a r (launch E a y act kw r).
Proof.
  intros M. unfold launch.
  assert (Train : str_eqb a "train_set_size" = true -> effect E a r (calc_train_set_size y r)).
  { intros K. apply seqb_spec in K. subst. apply effect_step. intros n _. apply effect_put. auto. }
  assert (Test : str_eqb a "test_set_size" = true -> effect E a r (calc_test_set_size y r)).
  { intros K. apply seqb_spec in K. subst. apply effect_step. intros n _. apply effect_put. auto. }
  destruct (r_kind r) eqn:Kd.
  - destruct (str_eqb a "train_set_size"); auto. destruct (str_eqb a "test_set_size"); auto. apply effect_none.
  - destruct (str_eqb a "prediction") eqn:A1.
    { apply seqb_spec in A1. subst a. apply effect_if. intros v. apply effect_step. intros m _.
      apply effect_put2; [rewrite Kd; auto|auto|left; auto]. }
    destruct (str_eqb a "std") eqn:A2.
    { apply seqb_spec in A2. subst a. apply effect_if. intros v. apply effect_step. intros m _.
      apply effect_put2; [rewrite Kd; auto|auto|right; left; auto]. }
    destruct (str_eqb a "sign") eqn:A3.
    { apply seqb_spec in A3. subst a. unfold calc_sign.
      destruct (slot "_prediction" r) as [[]| | | |]; auto using effect_none, effect_put. }
    destruct (str_eqb a "zscore") eqn:A4.
    { apply seqb_spec in A4. subst a. unfold calc_rule_zscore.
      destruct (match act with Some a => Some a | None => r_act r end) as [ac|]; [|apply effect_none].
      apply effect_step. intros q _. destruct (slot "_prediction" r) as [[]| | | |]; try apply effect_none.
      set (r1 := put "_zscore" _ r).
      assert (S1 : same_but (touched ["zscore"]) r r1) by (apply same_put; left; auto).
      destruct (check_attribute E "zscore" r1) as (o, r2) eqn:C.
      destruct (check_effect E "zscore" r r1 o r2) as (S2 & K2); auto; [rewrite Kd; auto|split; auto|].
      destruct o as [[]|e]; cbn [andthen]; [|split; auto].
      split; cbn [fst snd].
      - eapply same_trans; [apply S2|]. apply same_put. right. right. right. left. auto.
      - destruct K2 as [(G & B)|(_ & n & I & G & B & D)]; [left; split; auto|right; split; auto].
        exists n. split; auto. split; auto. split; auto.
        cbn [In] in I. destruct I as [<-|[]].
        apply (denied_same E "zscore" r2 _); auto.
        apply (same_measure ["_time_calc_zscore"] r2); auto.
        + apply same_put. left; auto.
        + rewrite (sb_kind _ _ _ S2), Kd. auto.
        + intros [K|[]]. discriminate. }
    destruct (str_eqb a "criterion") eqn:A5.
    { apply seqb_spec in A5. subst a. apply effect_if. intros v. apply effect_step. intros m _.
      apply effect_put2; [rewrite Kd; auto|auto|do 3 right; left; auto]. }
    destruct (str_eqb a "train_set_size"); auto. destruct (str_eqb a "test_set_size"); auto. apply effect_none.
  - destruct (str_eqb a "prediction") eqn:A1.
    { apply seqb_spec in A1. subst a. apply effect_step. intros [v|] _; [|apply effect_none].
      apply effect_step. intros p _. apply effect_put2; [rewrite Kd; auto|auto|left; auto]. }
    destruct (str_eqb a "criterion") eqn:A5.
    { apply seqb_spec in A5. subst a. apply effect_if. intros v. apply effect_step. intros m _.
      apply effect_put2; [rewrite Kd; auto|auto|do 3 right; left; auto]. }
    destruct (str_eqb a "train_set_size"); auto. destruct (str_eqb a "test_set_size"); auto. apply effect_none.
Qed.

(** ** The loop over the attributes *)

Lemma same_touched_cons a t r1 r2 r3 :
  same_but (touched [a]) r1 r2 -> same_but (touched t) r2 r3 -> same_but (touched (a :: t)) r1 r3.
Proof.
  intros A B. eapply same_trans; eapply same_more; [|apply A| |apply B].
  - intros m I. unfold touched in *. cbn [map] in *. apply in_app_or in I. apply in_or_app.
    destruct I as [[->|[]]|I]; [left; left; auto|right; auto].
  - intros m I. unfold touched in *. cbn [map] in *. apply in_app_or in I. apply in_or_app.
    destruct I as [I|I]; [left; right; auto|right; auto].
Qed.

(** One turn of the loop on an attribute that is computed. *)
Lemma turn_effect E a y act kw r r2 : In a (measures (r_kind r)) ->
  andthen (launch E a y act kw r) (fun r => if r_good r then check_attribute E a r else (Ok tt, r)) = (Ok tt, r2) ->
  exists r1, launch E a y act kw r = (Ok tt, r1) /\ same_but [] r1 r2 /\
    same_but (touched [a]) r r2 /\ (kept r r2 \/ spoilt E [a] r2).
Proof.
  intros M H. destruct (launch_effect E a y act kw r M) as (S1 & K1).
  destruct (launch E a y act kw r) as ([[]|e] & r1) eqn:L; cbn [andthen fst snd] in *; [|discriminate].
  exists r1. split; auto. destruct (r_good r1) eqn:G.
  - destruct K1 as [K1|(_ & n & _ & X & _)]; [|congruence].
    destruct (check_effect E a r r1 _ _ M S1 K1 H) as (S2 & K2). split; [|split; tauto].
    destruct (check_cases _ _ _ _ _ H) as [(-> & _)|(_ & -> & _)]; [apply same_refl|apply same_bad].
  - injection H as <-. split; [apply same_refl|]. split; auto. tauto.
Qed.

Lemma andthen_assoc m f g : andthen (andthen m f) g = andthen m (fun r => andthen (f r) g).
Proof. destruct m as [[a|e] r]; auto. Qed.

Lemma andthen_inv m f o r' : andthen m f = (o, r') ->
  (exists r1, m = (Ok tt, r1) /\ f r1 = (o, r')) \/ (exists e, m = (Err e, r') /\ o = Err e).
Proof.
  destruct m as [[[]|e] r1]; cbn [andthen]; intros H; [left; eauto|right].
  injection H as <- <-. eauto.
Qed.

Lemma andthen_ok m f r' : andthen m f = (Ok tt, r') -> exists r1, m = (Ok tt, r1) /\ f r1 = (Ok tt, r').
Proof. intros H. destruct (andthen_inv _ _ _ _ H) as [?|(e & _ & K)]; auto. discriminate. Qed.

Lemma compute_cons E a t y act kw force r r' : a <> "activation" ->
  compute E (a :: t) y act kw force r = (Ok tt, r') ->
  (r_good r = false /\ force = false /\ compute E t y act kw force (put ("_" ++ a)%string nan r) = (Ok tt, r')) \/
  ((r_good r = true \/ force = true) /\ exists r2,
     andthen (launch E a y act kw r) (fun r => if r_good r then check_attribute E a r else (Ok tt, r)) = (Ok tt, r2) /\
     compute E t y act kw force r2 = (Ok tt, r')).
Proof.
  intros N H. cbn [compute] in H. rewrite (str_neq _ _ N) in H.
  destruct (negb (r_good r) && negb force) eqn:S.
  - left. apply andb_true_iff in S. destruct S as (G & F). apply negb_true_iff in G, F. auto.
  - right. split.
    + destruct (r_good r), force; auto.
    + rewrite <- andthen_assoc in H. apply andthen_ok in H. auto.
Qed.

Lemma compute_effect E y act kw force : forall attrs r r',
  NoDup attrs -> ~ In "activation" attrs -> (forall a, In a attrs -> In a (measures (r_kind r))) ->
  compute E attrs y act kw force r = (Ok tt, r') ->
  same_but (touched attrs) r r' /\ (kept r r' \/ spoilt E attrs r').
Proof.
  induction attrs as [|a t IH]; intros r r' ND NA M C.
  - cbn in C. injection C as <-. split; [apply same_refl|left; split; auto].
  - inversion ND as [|? ? Na ND']; subst.
    assert (A : a <> "activation") by (intros ->; apply NA; left; auto).
    destruct (compute_cons _ _ _ _ _ _ _ _ _ A C) as [(G & F & C')|(_ & r2 & H & C')].
    + destruct (IH (put ("_" ++ a)%string nan r) r') as (S2 & K2); auto.
      { intros I. apply NA. right; auto. } { intros n I. apply M. right; auto. }
      split.
      * eapply same_touched_cons; eauto. apply same_put, touched_self. left; auto.
      * destruct K2 as [(K1 & K2)|(n & I & K)]; [left; split; auto|right]. exists n. split; [right|]; auto.
    + destruct (turn_effect E a y act kw r r2) as (r1 & L & S0 & S1 & K1); auto.
      { apply M. left; auto. }
      destruct (IH r2 r') as (S2 & K2); auto.
      { intros I. apply NA. right; auto. }
      { intros n I. rewrite (sb_kind _ _ _ S1). apply M. right; auto. }
      split; [eapply same_touched_cons; eauto|].
      destruct K2 as [(G2 & B2)|(n & I & K)].
      * destruct K1 as [(G1 & B1)|(n & I & G1 & B1 & D)].
        { left. split; congruence. }
        right. destruct I as [<-|[]]. exists a. split; [left; auto|]. split; [congruence|]. split; [congruence|].
        apply (denied_same E a r2); auto; [apply S2|].
        apply (same_measure (touched t) r2); auto.
        { rewrite (sb_kind _ _ _ S1). apply M. left; auto. }
        { apply (measure_not_touched (r_kind r)); auto. apply M. left; auto. }
      * right. exists n. split; [right|]; auto.
Qed.

(** A bad rule that is not forced. *)
Lemma compute_skip E y act kw : forall attrs r r',
  ~ In "activation" attrs -> NoDup attrs -> r_good r = false -> compute E attrs y act kw false r = (Ok tt, r') ->
  kept r r' /\ same_but (map (fun a => ("_" ++ a)%string) attrs) r r' /\
  forall a, In a attrs -> slot ("_" ++ a)%string r' = nan.
Proof.
  induction attrs as [|a t IH]; intros r r' NA ND G C.
  - cbn in C. injection C as <-. split; [split; auto|]. split; [apply same_refl|]. intros a [].
  - assert (A : a <> "activation") by (intros ->; apply NA; left; auto).
    inversion ND as [|? ? Na ND']; subst.
    destruct (compute_cons _ _ _ _ _ _ _ _ _ A C) as [(_ & _ & C')|([X|X] & _)]; try congruence.
    destruct (IH (put ("_" ++ a)%string nan r) r') as ((G1 & B1) & S1 & V); auto.
    { intros I. apply NA. right; auto. }
    split; [split; auto|]. split.
    + eapply same_trans; [apply same_put; left; reflexivity|]. eapply same_more; [|apply S1]. intros m I; right; auto.
    + intros n [<-|I]; auto.
      rewrite (same_slot _ _ _ ("_" ++ a)%string S1).
      * apply slot_put.
      * intros I. apply in_map_iff in I. destruct I as (m & K & I). apply app_inj_str in K. subst. contradiction.
Qed.

(** The attributes are computed up to the one that makes the rule bad. *)
Lemma compute_values (P : string -> rule -> Prop) (I : rule -> Prop) E y act kw force full :
  NoDup full -> ~ In "activation" full ->
  (forall n names r r', P n r -> same_but names r r' -> ~ In ("_" ++ n)%string names -> P n r') ->
  (forall names r r', I r -> same_but names r r' -> I r') ->
  (forall r, I r -> forall a, In a full -> In a (measures (r_kind r))) ->
  (forall done a rest r r1, full = done ++ a :: rest -> I r -> (forall n, In n done -> P n r) ->
     launch E a y act kw r = (Ok tt, r1) -> P a r1) ->
  forall rest done r r', full = done ++ rest -> I r -> (forall n, In n done -> P n r) ->
    compute E rest y act kw force r = (Ok tt, r') ->
    exists l1 l2, rest = l1 ++ l2 /\ I r' /\ (forall n, In n (done ++ l1) -> P n r') /\
      (forall n, In n l2 -> slot ("_" ++ n)%string r' = nan) /\
      (force = true -> l2 = []) /\ (l2 <> [] -> r_good r' = false) /\
      (r_good r = true -> l2 <> [] -> exists l0 n, l1 = l0 ++ [n] /\ r_bad r' = Some n) /\
      (r_good r = false -> force = false -> l1 = []).
Proof.
  intros ND NA Stable IStable Meas Step.
  induction rest as [|a t IH]; intros done r r' F Ir D C.
  - cbn in C. injection C as <-. exists [], []. rewrite ?app_nil_r. split; auto. split; auto. split; auto.
    split; [intros n []|]. split; auto. split; [intros X; congruence|]. split; [intros _ X; congruence|]. auto.
  - assert (A : a <> "activation").
    { intros ->. apply NA. rewrite F. apply in_or_app. right; left; auto. }
    assert (ND' : NoDup (a :: t)).
    { rewrite F in ND. clear - ND. induction done as [|x d IHd]; auto. inversion ND; auto. }
    assert (Dt : forall n, In n done -> ~ In n (a :: t)).
    { rewrite F in ND. clear - ND. induction done as [|x d IHd]; intros n [].
      - subst. cbn in ND. inversion ND as [|? ? X Y]; subst. intros I. apply X. apply in_or_app; auto.
      - cbn in ND. inversion ND; subst. apply IHd; auto. }
    destruct (compute_cons _ _ _ _ _ _ _ _ _ A C) as [(G & Fo & C')|(GF & r2 & H & C')].
    + subst force. destruct (compute_skip E y act kw (a :: t) r r') as ((G1 & B1) & S1 & V); auto.
      { intros K. apply NA. rewrite F. apply in_or_app. auto. }
      exists [], (a :: t). rewrite ?app_nil_r. split; auto. split; [eapply IStable; eauto|].
      split. { intros n K. eapply Stable; eauto. intros J. apply in_map_iff in J.
        destruct J as (m & Q & J). apply app_inj_str in Q. subst m. eapply Dt; eauto. }
      split; auto. split; [congruence|]. split; [congruence|]. split; [intros; congruence|auto].
    + assert (Ma : In a (measures (r_kind r))).
      { apply Meas; auto. rewrite F. apply in_or_app. right; left; auto. }
      destruct (turn_effect E a y act kw r r2) as (r1 & L & S0 & S1 & K1); auto.
      assert (Pa : P a r2).
      { eapply Stable; [eapply Step; eauto|apply S0|]. intros []. }
      destruct (IH (done ++ [a]) r2 r') as (l1 & l2 & E1 & Ir' & V1 & V2 & Q1 & Q2 & Q3 & Q4).
      { rewrite <- app_assoc. auto. }
      { eapply IStable; eauto. }
      { intros n K. apply in_app_or in K. destruct K as [K|[<-|[]]]; auto.
        eapply Stable; eauto. apply (measure_not_touched (r_kind r)).
        - apply Meas; auto. rewrite F. apply in_or_app; auto.
        - intros [<-|[]]. apply (Dt a K). left; auto. }
      { auto. }
      exists (a :: l1), l2. split; [cbn; congruence|]. split; auto.
      split. { intros n K. apply V1. rewrite <- app_assoc. auto. }
      split; auto. split; auto. split; auto. split.
      * intros G N. destruct (r_good r2) eqn:G2.
        { destruct (Q3 eq_refl N) as (l0 & n & -> & B). exists (a :: l0), n. auto. }
        exists [], a. assert (Fo : force = false) by (destruct force; auto; rewrite Q1 in N; congruence).
        rewrite (Q4 eq_refl Fo). split; auto. subst force.
        destruct (compute_skip E y act kw t r2 r') as ((_ & B1) & _); auto.
        { intros K. apply NA. rewrite F. apply in_or_app. right; right; auto. }
        { inversion ND'; auto. }
        rewrite B1. destruct K1 as [(K1 & _)|(n & [<-|[]] & _ & B2 & _)]; auto. congruence.
      * intros G Fo. destruct GF; congruence.
Qed.

(** ** The phases of fit *)

Lemma calc_given E t r r1 : calc_activation E (Some t) r = (Ok tt, r1) -> nrows t <> 0%nat ->
  exists c act, r_cond r = Some c /\ evaluate c t = Ok act /\
    let r0 := put_time E "_time_calc_activation" (with_act (Some (new_activation act)) r) in
    same_but [] r0 r1 /\ (kept r r1 \/ spoilt E ["coverage"] r1).
Proof.
  intros C N. unfold calc_activation in C. apply Nat.eqb_neq in N. rewrite N in C.
  unfold evaluate_activation in C. destruct (r_cond r) as [c|] eqn:Rc; [|discriminate].
  destruct (evaluate c t) as [act|e] eqn:Ev; [|discriminate]. cbn [rmap step] in C.
  exists c, act. split; auto. split; auto. cbv zeta. set (r0 := put_time _ _ _) in *.
  assert (M : In "coverage" (measures (r_kind r0))) by (destruct (r_kind r0); left; auto).
  destruct (check_cases _ _ _ _ _ C) as [(-> & _)|(_ & -> & th & T & J)].
  - split; [apply same_refl|]. left. split; auto.
  - split; [apply same_bad|]. right. exists "coverage". split; [left; auto|]. split; auto. split; auto.
    apply (denied_same E "coverage" r0); auto.
    + apply (same_measure [] r0); auto. apply same_bad.
    + eapply denied_judge; eauto.
Qed.

Lemma check_names_cases E th names r r' : check_names E th names r = (Ok tt, r') ->
  (r' = r /\ forall n, In n names -> judge E th n r = Ok true) \/
  (exists n, In n names /\ r' = with_bad n r /\ judge E th n r = Ok false).
Proof.
  induction names as [|a t IH]; cbn [check_names]; intros C.
  - injection C as <-. left. split; auto. intros n [].
  - destruct (judge E th a r) as [[]|e] eqn:J.
    + destruct (IH C) as [(-> & H)|(n & I & H)].
      * left. split; auto. intros n [<-|I]; auto.
      * right. exists n. split; [right|]; auto.
    + right. injection C as <-. exists a. split; [left|]; auto.
    + discriminate.
Qed.

Lemma check_all_cases E r r' : check_all E r = (Ok tt, r') ->
  (r' = r /\ forall th n, class_thresholds (e_classes E) (r_kind r) = Some th -> In n (dir r) -> judge E th n r = Ok true) \/
  (exists n th, In n (dir r) /\ r' = with_bad n r /\ class_thresholds (e_classes E) (r_kind r) = Some th /\
     judge E th n r = Ok false).
Proof.
  unfold check_all. destruct (class_thresholds _ _) as [th|].
  - intros C. destruct (check_names_cases _ _ _ _ _ C) as [(-> & H)|(n & I & B & J)].
    + left. split; auto. intros th' n T I. injection T as <-. auto.
    + right. exists n, th. auto.
  - intros C. injection C as <-. left. split; auto. discriminate.
Qed.

Lemma dir_measure r n : In n (measures (r_kind r)) -> In n (dir r).
Proof.
  intros I. unfold dir. apply sorted_In, set_of_In; [apply seqb_spec|]. apply in_or_app. left.
  destruct (r_kind r); cbn [measures In] in I;
    repeat (destruct I as [<-|I]; [cbn; tauto|]); contradiction.
Qed.

Lemma fit_phases E y xs force kw r r' : starts r xs kw -> fit E y xs force kw r = (Ok tt, r') ->
  exists r1 r2 r3,
    calc_activation E xs r = (Ok tt, r1) /\
    compute E (train_attributes (r_kind r1)) y None kw force r1 = (Ok tt, r2) /\
    (if r_good r2 then check_all E r2 else (Ok tt, r2)) = (Ok tt, r3) /\
    r' = with_fitted (put_time E "_time_fit" r3).
Proof.
  intros (K & X) F. unfold fit in F. rewrite K in F.
  assert (F' : andthen (calc_activation E xs r) (fun r =>
    andthen (compute E (train_attributes (r_kind r)) y None kw force r) (fun r =>
    andthen (if r_good r then check_all E r else (Ok tt, r)) (fun r =>
    andthen (if e_subattributes E then (trigger r, r) else (Ok tt, r)) (fun r =>
    (Ok tt, with_fitted (put_time E "_time_fit" r)))))) = (Ok tt, r')).
  { destruct xs as [t|].
    - rewrite andb_false_r in F. apply Nat.eqb_neq in X. rewrite X in F. auto.
    - rewrite X in F. auto. }
  clear F. apply andthen_ok in F'. destruct F' as (r1 & A & F). apply andthen_ok in F. destruct F as (r2 & B & F).
  apply andthen_ok in F. destruct F as (r3 & C & F). apply andthen_ok in F. destruct F as (r4 & D & F).
  exists r1, r2, r3. split; auto. split; auto. split; auto. injection F as <-.
  destruct (e_subattributes E); congruence.
Qed.

Lemma train_nodup k : NoDup (train_attributes k) /\ ~ In "activation" (train_attributes k) /\
  (forall a, In a (train_attributes k) -> In a (measures k) /\ a <> "coverage").
Proof.
  destruct k; cbn [train_attributes measures]; (split; [|split]).
  all: try (intros I; cbn [In] in I; intuition discriminate).
  all: try (repeat constructor; cbn [In]; intuition discriminate).
  all: intros a I; cbn [In] in I; repeat (destruct I as [<-|I]; [split; [cbn; tauto|discriminate]|]); contradiction.
Qed.

(** ** Limits after fit *)

Lemma limit_transfer f g row k x : (forall s, refers_to row s -> f s = g s) -> k <> "arg" ->
  limit f row k x -> limit g row k x.
Proof.
  intros H N [I|(s & I & E)]; [left; auto|right]. exists s. split; auto. rewrite <- H; auto. exists k. auto.
Qed.

Lemma meets_transfer f g row x : (forall s, refers_to row s -> f s = g s) -> meets f row x -> meets g row x.
Proof.
  intros H (A & B & C & D). split; [|split; [|split]]; intros l L; eauto using limit_transfer.
  all: apply (limit_transfer g f) in L; auto; try discriminate; intros s R; symmetry; auto.
Qed.

Lemma numbers_transfer f g row : (forall s, refers_to row s -> f s = g s) -> all_numbers f row -> all_numbers g row.
Proof.
  intros H A k l I N. destruct (A k l I N) as (x & L). exists x. eapply limit_transfer; eauto.
Qed.

Lemma judged_meets E th n row v x r r' :
  well_formed th -> limits_of th n row -> (forall s, refers_to row s -> attributes_of r s = attributes_of r' s) ->
  attributes_of r n = attributes_of r' n -> attributes_of r' n = Ok v -> present v ->
  measured (e_lib E) row v x -> all_numbers (attributes_of r') row ->
  exists b, judge E th n r = Ok b /\ (b = true <-> meets (attributes_of r') row x).
Proof.
  intros W L H A V P M N.
  destruct (check_number (e_lib E) th n (attributes_of r) row v x) as (b & J & B); auto.
  - congruence.
  - eapply numbers_transfer; [|apply N]. intros s R. symmetry; auto.
  - exists b. split; auto. rewrite B. split; apply meets_transfer; auto. intros s R. symmetry; auto.
Qed.

Lemma clock_not_measure k n c : In n (measures k) -> In c ["_time_fit"; "_time_eval"; "_time_calc_activation"; "_time_predict"] ->
  ("_" ++ n)%string <> c.
Proof.
  intros I J K. subst c. destruct k; cbn [measures In] in I;
    repeat (destruct I as [<-|I]; [cbn in J; intuition discriminate|]); contradiction.
Qed.

Lemma fitted_same E r3 n : In n (measures (r_kind r3)) ->
  getattr (with_fitted (put_time E "_time_fit" r3)) n = getattr r3 n.
Proof.
  intros I. apply (same_measure ["_time_fit"] r3); auto.
  - eapply same_trans; [apply same_put; left; auto|apply same_fitted].
  - intros [K|[]]. symmetry in K. revert K. apply (clock_not_measure (r_kind r3)); auto. left; auto.
Qed.

Lemma fit_limits E y xs force kw r r' th n row v x :
  starts r xs kw -> fit E y xs force kw r = (Ok tt, r') -> is_good r' ->
  class_thresholds (e_classes E) (r_kind r) = Some th -> well_formed th ->
  In n (measures (r_kind r)) -> limits_of th n row ->
  (forall s, refers_to row s -> In s (measures (r_kind r))) ->
  attributes_of r' n = Ok v -> present v -> measured (e_lib E) row v x ->
  all_numbers (attributes_of r') row -> meets (attributes_of r') row x.
Proof.
  intros St F G T W I L Ref V P M N.
  destruct (fit_phases _ _ _ _ _ _ _ St F) as (r1 & r2 & r3 & A & B & C & ->).
  apply is_good_spec in G. cbn in G.
  assert (Kd1 : r_kind r1 = r_kind r).
  { pose proof (w_kind _ _ (worse_calc_activation E xs r)) as X. rewrite A in X. auto. }
  assert (Kd2 : r_kind r2 = r_kind r).
  { pose proof (w_kind _ _ (worse_compute E (train_attributes (r_kind r1)) y None kw force r1)) as X.
    rewrite B in X. cbn in X. congruence. }
  destruct (r_good r2) eqn:G2.
  2: { injection C as <-. congruence. }
  destruct (check_all_cases _ _ _ C) as [(-> & J)|(m & th' & _ & -> & _)]; [|discriminate].
  destruct (judged_meets E th n row v x r2 (with_fitted (put_time E "_time_fit" r2))) as (b & Jb & Bb); auto.
  - intros s R. unfold attributes_of. rewrite fitted_same; auto. rewrite Kd2; auto.
  - unfold attributes_of. rewrite fitted_same; auto. rewrite Kd2; auto.
  - apply Bb. rewrite (J th n) in Jb; [congruence|rewrite Kd2; auto|].
    apply dir_measure. rewrite Kd2. auto.
Qed.

Lemma denied_meets E n r row v x th :
  denied E n r -> class_thresholds (e_classes E) (r_kind r) = Some th -> well_formed th -> numeric th n ->
  limits_of th n row -> attributes_of r n = Ok v -> present v -> measured (e_lib E) row v x ->
  ~ meets (attributes_of r) row x.
Proof.
  intros (th' & T' & _ & D) T W N L V P M. assert (th' = th) by congruence. subst th'.
  destruct (check_number (e_lib E) th n (attributes_of r) row v x) as (b & J & B); auto.
  - intros k l I K. destruct (N row k l L I K) as (q & ->). exists q. left; auto.
  - rewrite (D W N) in J. injection J as <-. intros H. apply B in H. discriminate.
Qed.

(** Why [r] is bad *)
Definition guilty (E : env) (r : rule) : Prop := exists n, r_bad r = Some n /\
  (exists th row, class_thresholds (e_classes E) (r_kind r) = Some th /\ row_of th n = Some row) /\
  (In n (measures (r_kind r)) -> denied E n r).

Lemma fit_guilty E y xs force kw r r' :
  starts r xs kw -> fit E y xs force kw r = (Ok tt, r') -> r_good r = true -> r_good r' = false -> guilty E r'.
Proof.
  intros St F G G'.
  destruct (fit_phases _ _ _ _ _ _ _ St F) as (r1 & r2 & r3 & A & B & C & ->). cbn in G'.
  assert (H1 : kept r r1 \/ spoilt E ["coverage"] r1).
  { destruct xs as [t|].
    - destruct St as (_ & N). destruct (calc_given _ _ _ _ A N) as (c & act & _ & _ & _ & H). auto.
    - unfold calc_activation in A. destruct (r_act r); [|discriminate]. injection A as <-. left; split; auto. }
  destruct (train_nodup (r_kind r1)) as (ND & NA & Me).
  destruct (compute_effect _ _ _ _ _ _ _ _ ND NA (fun a I => proj1 (Me a I)) B) as (S2 & H2).
  assert (H : r_good r2 = false -> exists n, In n (measures (r_kind r2)) /\ r_bad r2 = Some n /\ denied E n r2).
  { intros G2. rewrite (sb_kind _ _ _ S2). destruct H2 as [(K1 & K2)|(n & I & _ & Bn & D)].
    - destruct H1 as [(K3 & K4)|(n & I & _ & Bn & D)]; [congruence|].
      destruct I as [<-|[]]. exists "coverage".
      assert (M : In "coverage" (measures (r_kind r1))) by (destruct (r_kind r1); left; auto).
      split; auto. split; [congruence|]. apply (denied_same E _ r1); auto; [apply S2|].
      apply (same_measure (touched (train_attributes (r_kind r1)))); auto.
      apply (measure_not_touched (r_kind r1)); auto. intros I. apply Me in I. tauto.
    - exists n. split; [apply Me; auto|]. auto. }
  assert (H3 : guilty E r3).
  { destruct (r_good r2) eqn:G2.
    - destruct (check_all_cases _ _ _ C) as [(-> & _)|(n & th & _ & -> & T & J)]; [congruence|].
      exists n. split; auto. split.
      + destruct (call_row _ _ _ _ J) as (row & R). exists th, row. auto.
      + intros I. apply (denied_same E n r2); auto.
        * apply (same_measure [] r2); auto. apply same_bad.
        * eapply denied_judge; eauto.
    - injection C as <-. destruct (H eq_refl) as (n & _ & Bn & D). exists n. split; auto. split; auto.
      destruct D as (th & T & (row & R) & _). exists th, row. auto. }
  destruct H3 as (n & Bn & X & D). exists n. split; auto. split; auto.
  intros I. apply (denied_same E n r3); auto. apply fitted_same; auto.
Qed.

Lemma guilty_meets E r : guilty E r -> exists n th row, blames r n /\
  class_thresholds (e_classes E) (r_kind r) = Some th /\
  (well_formed th -> limits_of th n row /\
   (In n (measures (r_kind r)) -> numeric th n -> forall v x, attributes_of r n = Ok v -> present v ->
      measured (e_lib E) row v x -> ~ meets (attributes_of r) row x)).
Proof.
  intros (n & B & (th & row & T & R) & D). exists n, th, row. split; [apply blames_spec; auto|]. split; auto.
  intros W. apply row_of_spec in R; auto. split; auto.
  intros I N v x V P M. eapply denied_meets; eauto.
Qed.

Lemma fit_blames E y xs force kw r r' :
  starts r xs kw -> fit E y xs force kw r = (Ok tt, r') -> is_good r -> is_bad r' ->
  exists n th row, blames r' n /\ class_thresholds (e_classes E) (r_kind r) = Some th /\
    (well_formed th -> limits_of th n row /\
     (In n (measures (r_kind r)) -> numeric th n -> forall v x, attributes_of r' n = Ok v -> present v ->
        measured (e_lib E) row v x -> ~ meets (attributes_of r') row x)).
Proof.
  intros St F G B. apply is_good_spec in G. apply is_bad_spec in B.
  pose proof (w_kind _ _ (worse_fit E y xs force kw r)) as K. rewrite F in K. cbn in K. rewrite <- K.
  apply guilty_meets. eapply fit_guilty; eauto.
Qed.

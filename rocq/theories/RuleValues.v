(** Proofs about the values that fit and eval compute. *)
From Coq Require Import List ZArith QArith Bool String Ascii Lia.
From Coq Require Import List.
From Verif Require Import Base Num Arith CondModel CondSpec CondBase ThrModel ThrSpec ThrProofs MetModel MetSpec
  MetReg MetClass RuleModel RuleSpec RuleProofs RuleFit.
Import ListNotations.
Open Scope string_scope.
Open Scope list_scope.
Open Scope Z_scope.

(** ** Targets *)

Lemma numbers_of ys : rseq (map (fun c => match c with LNum x => Ok x | LText _ => Err EType end) (map LNum ys)) = Ok ys.
Proof. induction ys as [|y t IH]; cbn; auto. rewrite IH. auto. Qed.

Lemma number_target_ok y ys : is_target y (map LNum ys) -> exists t, number_target y = Ok t /\ is_target t ys.
Proof.
  intros [->| -> ]; cbn [number_target]; rewrite numbers_of; cbn [rmap]; eexists; split; eauto; [left|right]; auto.
Qed.

Lemma mean_target t ys a : is_target t ys -> conditional_mean a t = conditional_mean a (YVector ys).
Proof. intros [->| -> ]; auto. Qed.

Lemma std_target sqrt t ys a : is_target t ys -> conditional_std sqrt a t = conditional_std sqrt a (YVector ys).
Proof. intros [->| -> ]; auto. Qed.

Lemma target_len_ok {A} (y : target A) ys : is_target y ys -> target_len y = Ok (Z.of_nat (List.length ys)).
Proof. intros [->| -> ]; auto. Qed.

Lemma unsqueezed_ok {A} (y : target A) ys l : is_target y ys -> unsqueezed y = Ok l -> l = ys.
Proof. intros [-> | -> ]; cbn [unsqueezed]; intros H; [injection H as <-; reflexivity | discriminate H]. Qed.

Lemma flat_ok {A} (y : target A) ys : is_target y ys -> flat y = Ok ys.
Proof. intros [->| -> ]; auto. Qed.

Lemma raw_inv a act : raw a = Ok act -> v_here a = true /\ v_bits a = act.
Proof. unfold raw. destruct (v_here a); [|discriminate]. intros K. injection K as ->. auto. Qed.

Lemma the_metric_inv m x : the_metric m = Ok x -> m = MNum x.
Proof. destruct m; cbn; congruence. Qed.

Lemma rbind_ok {A B} (m : res A) (f : A -> res B) b : rbind m f = Ok b -> exists a, m = Ok a /\ f a = Ok b.
Proof. destruct m; cbn; [eauto|discriminate]. Qed.

Lemma step_inv {A} (v : res A) f r r' : step v f r = (Ok tt, r') -> exists a, v = Ok a /\ f a r = (Ok tt, r').
Proof. destruct v; cbn; [eauto|discriminate]. Qed.

Lemma check_slot E a r r' m : check_attribute E a r = (Ok tt, r') -> slot m r' = slot m r.
Proof. intros C. destruct (check_cases _ _ _ _ _ C) as [(-> & _)|(_ & -> & _)]; auto. Qed.

Lemma tally_ones a : tally (eq 1) (v_bits a) (List.length (filter (fun x => x =? 1) (v_bits a))).
Proof. apply tally_filter. intros x _. rewrite Z.eqb_eq. split; congruence. Qed.

(** ** Regression rules *)

Section regression.
Variables (E : env) (y : target label) (ys : list num) (act : list Z) (kw : keywords).
Hypothesis Y : is_target y (map LNum ys).

Definition reg_value (n : string) (r : rule) : Prop :=
  regression_value E act ys (k_horizon kw) n (slot ("_" ++ n)%string r).

Definition reg_state (r : rule) : Prop :=
  r_kind r = KRegression /\ exists a, r_act r = Some a /\ raw a = Ok act.

Lemma reg_stable n names r r' : reg_value n r -> same_but names r r' -> ~ In ("_" ++ n)%string names -> reg_value n r'.
Proof. unfold reg_value. intros V S1 N. rewrite (same_slot _ _ _ _ S1 N). auto. Qed.

Lemma reg_state_stable names r r' : reg_state r -> same_but names r r' -> reg_state r'.
Proof. intros (K & a & A & R) [Bk Bc Ba Bt Bs]. split; [congruence|]. exists a. split; congruence. Qed.

Lemma launch_mean r r1 : reg_state r -> launch E "prediction" y None kw r = (Ok tt, r1) ->
  exists m, conditional_mean (ActArray act) (YVector ys) = Ok (MNum m) /\ slot "_prediction" r1 = number m.
Proof.
  intros (K & a & A & R) L. unfold launch in L. rewrite K in L. cbn in L.
  unfold calc_mean, if_activation, raw_of in L. rewrite A in L. apply step_inv in L. destruct L as (v & Rv & L).
  assert (v = act) by congruence. subst v.
  apply step_inv in L. destruct L as (m & Em & C).
  destruct (number_target_ok y ys Y) as (t & Et & It). rewrite Et in Em. cbn [rbind] in Em.
  rewrite (mean_target t ys _ It) in Em.
  apply rbind_ok in Em. destruct Em as (me & Em & X). apply the_metric_inv in X. subst me. exists m. split; auto.
  rewrite (check_slot _ _ _ _ _ C). unfold put_time. rewrite slot_put_other by discriminate. apply slot_put.
Qed.

Lemma launch_std r r1 : reg_state r -> launch E "std" y None kw r = (Ok tt, r1) -> reg_value "std" r1.
Proof.
  intros (K & a & A & R) L. unfold launch in L. rewrite K in L. cbn in L.
  unfold calc_std, if_activation, raw_of in L. rewrite A in L. apply step_inv in L. destruct L as (v & Rv & L).
  assert (v = act) by congruence. subst v.
  apply step_inv in L. destruct L as (m & Em & C).
  destruct (number_target_ok y ys Y) as (t & Et & It). rewrite Et in Em. cbn [rbind] in Em.
  rewrite (std_target _ t ys _ It) in Em.
  apply rbind_ok in Em. destruct Em as (me & Em & X). apply the_metric_inv in X. subst me.
  right. right. left. split; auto. exists m. split; auto.
  rewrite (check_slot _ _ _ _ _ C). unfold put_time. rewrite slot_put_other by discriminate. apply slot_put.
Qed.

Lemma launch_sign r r1 : reg_state r -> reg_value "prediction" r -> launch E "sign" y None kw r = (Ok tt, r1) ->
  reg_value "sign" r1.
Proof.
  intros (K & _) V L. unfold launch in L. rewrite K in L. cbn in L.
  unfold reg_value, regression_value in V.
  destruct V as [(X & _)|[(_ & m & Em & V)|[(X & _)|[(X & _)|(X & _)]]]]; try discriminate X.
  cbn in V. unfold calc_sign in L. rewrite V in L. cbn [number] in L. injection L as <-.
  do 3 right. left. split; auto. exists m. split; auto.
  change ("_" ++ "sign")%string with "_sign". rewrite slot_put.
  destruct (nltb m (Fin 0)) eqn:B; [left|right]; (split; [|auto]); rewrite <- nltb_spec, B; auto.
Qed.

Lemma launch_zscore r r1 : reg_state r -> reg_value "prediction" r -> launch E "zscore" y None kw r = (Ok tt, r1) ->
  reg_value "zscore" r1.
Proof.
  intros (K & a & A & R) V L. unfold launch in L. rewrite K in L. cbn in L.
  unfold reg_value, regression_value in V.
  destruct V as [(X & _)|[(_ & m & Em & V)|[(X & _)|[(X & _)|(X & _)]]]]; try discriminate X.
  cbn in V. unfold calc_rule_zscore in L. rewrite A in L.
  destruct (number_target_ok y ys Y) as (t & Et & It). rewrite Et in L. cbn [rbind] in L. rewrite (flat_ok _ _ It) in L.
  cbn [step] in L. rewrite V in L. cbn [number] in L. apply andthen_ok in L. destruct L as (r2 & C & L). injection L as <-.
  do 4 right. split; auto. exists m, (List.length (filter (fun x => x =? 1) act)).
  apply raw_inv in R. destruct R as (_ & <-). split; auto. split; [apply tally_ones|].
  change ("_" ++ "zscore")%string with "_zscore". unfold put_time. rewrite slot_put_other by discriminate.
  rewrite (check_slot _ _ _ _ _ C). apply slot_put.
Qed.

Lemma reg_launch done a rest r r1 :
  train_attributes KRegression = done ++ a :: rest -> reg_state r -> (forall n, In n done -> reg_value n r) ->
  launch E a y None kw r = (Ok tt, r1) -> reg_value a r1.
Proof.
  intros F St D L. cbn [train_attributes] in F.
  destruct done as [|d0 done]; cbn [app] in F; injection F as F0 F; subst.
  { destruct St as (K & _). unfold launch in L. rewrite K in L. cbn in L.
    apply step_inv in L. destruct L as (n & En & L). injection L as <-.
    rewrite (target_len_ok _ _ Y), map_length in En. injection En as <-.
    left. split; auto. apply (slot_put "_train_set_size"). }
  destruct done as [|d1 done]; cbn [app] in F; injection F as F1 F; subst.
  { destruct (launch_mean _ _ St L) as (m & Em & V). right. left. split; auto. exists m. split; auto. }
  destruct done as [|d2 done]; cbn [app] in F; injection F as F2 F; subst.
  { apply (launch_std r); auto. }
  destruct done as [|d3 done]; cbn [app] in F; injection F as F3 F; subst.
  { apply (launch_sign r); auto. apply D. right; left; auto. }
  destruct done as [|d4 done]; cbn [app] in F; injection F as F4 F; subst.
  { apply (launch_zscore r); auto. apply D. right; left; auto. }
  destruct done; discriminate.
Qed.
End regression.

(** ** Classification rules *)

Lemma find_row_ok {A B} (eqb : B -> B -> bool) m (rows : list (A * B)) :
  (exists r, In r rows /\ eqb (snd r) m = true) -> exists c, find_row eqb m rows = Ok c.
Proof. intros H. destruct (find_row_spec eqb m rows H) as (pre & c & p & post & _ & _ & _ & F). eauto. Qed.

Lemma first_max_in {A} (lt : A -> A -> bool) : forall l x, In (first_max lt x l) (x :: l).
Proof.
  induction l as [|z t IH]; intros x; cbn [first_max]; [left; auto|].
  destruct (lt x z).
  - right. apply IH.
  - destruct (IH x) as [H|H]; [left; auto|right; right; auto].
Qed.

Lemma most_probable_ok p :
  match p with PNumbers rows => rows <> [] /\ (forall r, In r rows -> exists q, snd r = Fin q)
             | PTexts rows => rows <> []
             | PPairs rows => rows <> [] /\ (forall r, In r rows -> exists q, snd r = Fin q) end ->
  exists c, most_probable p = Ok c.
Proof.
  destruct p as [rows|rows|rows].
  - intros (N & F). destruct rows as [|(c, p) t]; [congruence|]. cbn [most_probable].
    destruct (find_row_ok neqb (first_max nltb p (map snd t)) ((c, p) :: t)) as (c' & ->); [|cbn; eauto].
    pose proof (first_max_in nltb (map snd t) p) as I. set (m := first_max nltb p (map snd t)) in *. clearbody m.
    change (p :: map snd t) with (map snd ((c, p) :: t)) in I. apply in_map_iff in I. destruct I as (r & <- & I).
    exists r. split; auto. destruct (F r I) as (q & ->). cbn. apply Qeq_bool_iff. reflexivity.
  - intros N. destruct rows as [|(c, p) t]; [congruence|]. cbn [most_probable].
    destruct (find_row_ok str_eqb (first_max str_ltb p (map snd t)) ((c, p) :: t)) as (c' & ->); [|cbn; eauto].
    pose proof (first_max_in str_ltb (map snd t) p) as I. set (m := first_max str_ltb p (map snd t)) in *. clearbody m.
    change (p :: map snd t) with (map snd ((c, p) :: t)) in I. apply in_map_iff in I. destruct I as (r & <- & I).
    exists r. split; auto. apply str_refl.
  - intros (N & F). destruct rows as [|(c, p) t]; [congruence|]. cbn [most_probable].
    destruct (find_row_ok neqb (first_max nltb p (map snd t)) ((c, p) :: t)) as (c' & ->); [|cbn; eauto].
    pose proof (first_max_in nltb (map snd t) p) as I. set (m := first_max nltb p (map snd t)) in *. clearbody m.
    change (p :: map snd t) with (map snd ((c, p) :: t)) in I. apply in_map_iff in I. destruct I as (r & <- & I).
    exists r. split; auto. destruct (F r I) as (q & ->). cbn. apply Qeq_bool_iff. reflexivity.
Qed.

Lemma count_one_nonempty {K} (eqb : K -> K -> bool) x d : count_one eqb x d <> [].
Proof. destruct d as [|(k, n) t]; cbn; [discriminate|]. destruct (eqb x k); discriminate. Qed.

Lemma counter_nil {K} (eqb : K -> K -> bool) l : counter eqb l = [] -> l = [].
Proof.
  unfold counter. destruct l as [|x t] using rev_ind; auto. rewrite fold_left_app. cbn.
  intros H. destruct (count_one_nonempty _ _ _ H).
Qed.

Lemma sorted_nil {A} lt (l : list A) : sorted lt l = [] -> l = [].
Proof. intros H. apply Permutation.Permutation_nil. rewrite <- H. apply sorted_perm. Qed.

Lemma probabilities_ok repr act ys p : class_probabilities repr act ys = Ok p -> exists c, most_probable p = Ok c.
Proof.
  unfold class_probabilities. intros H. apply rbind_ok in H. destruct H as (v & Ev & H). cbv zeta in H.
  set (rows := map _ (counter label_eqb v)) in H.
  assert (Fi : forall r, In r rows -> exists q, snd r = Fin q).
  { intros r I. subst rows. apply in_map_iff in I. destruct I as ((k, n) & <- & I). cbn [snd].
    destruct v as [|x t]; [contradiction|]. cbn [List.length]. unfold nat_num. rewrite ndiv_fin; eauto.
    unfold Qeq. cbn. lia. }
  assert (Ne : rows <> []) by (intros K; rewrite K in H; discriminate).
  assert (H' : (if existsb is_text v
      then Ok (PTexts (sorted (fun p q => str_ltb (fst p) (fst q))
                      (map (fun p => (word repr (fst p), repr (snd p))) rows)))
      else Ok (PNumbers (sorted (fun p q => before (fst p) (fst q))
                        (map (fun p => (the_number (fst p), snd p)) rows)))) = Ok p)
    by (destruct rows; [congruence|exact H]).
  clear H. destruct (existsb is_text v); injection H' as <-; apply most_probable_ok.
  - intros N. apply sorted_nil in N. destruct rows; [congruence|discriminate].
  - split.
    + intros N. apply sorted_nil in N. destruct rows; [congruence|discriminate].
    + intros r I. apply sorted_In in I. apply in_map_iff in I. destruct I as (r0 & <- & I). cbn [snd]. auto.
Qed.

Section classification.
Variables (E : env) (y : target label) (ys : list label) (act : list Z) (kw : keywords).
Hypothesis Y : is_target y ys.

Definition cls_value (n : string) (r : rule) : Prop :=
  (n = "train_set_size" /\ slot ("_" ++ n)%string r = integer (Z.of_nat (List.length ys))) \/
  (n = "prediction" /\ exists p, class_probabilities (e_repr E) act ys = Ok p /\ slot ("_" ++ n)%string r = OTable p).

Definition cls_state (r : rule) : Prop :=
  r_kind r = KClassification /\ exists a, r_act r = Some a /\ raw a = Ok act.

Lemma cls_stable n names r r' : cls_value n r -> same_but names r r' -> ~ In ("_" ++ n)%string names -> cls_value n r'.
Proof. unfold cls_value. intros V S1 N. rewrite (same_slot _ _ _ _ S1 N). auto. Qed.

Lemma cls_state_stable names r r' : cls_state r -> same_but names r r' -> cls_state r'.
Proof. intros (K & a & A & R) [Bk Bc Ba Bt Bs]. split; [congruence|]. exists a. split; congruence. Qed.

Lemma cls_launch done a rest r r1 :
  train_attributes KClassification = done ++ a :: rest -> cls_state r -> (forall n, In n done -> cls_value n r) ->
  launch E a y None kw r = (Ok tt, r1) -> cls_value a r1.
Proof.
  intros F (K & ac & A & R) D L. cbn [train_attributes] in F.
  destruct done as [|d0 done]; cbn [app] in F; injection F as F0 F; subst.
  { unfold launch in L. rewrite K in L. cbn in L.
    apply step_inv in L. destruct L as (n & En & L). injection L as <-.
    rewrite (target_len_ok _ _ Y) in En. injection En as <-.
    left. split; auto. apply (slot_put "_train_set_size"). }
  destruct done as [|d1 done]; cbn [app] in F; injection F as F1 F; subst.
  2: { destruct done; discriminate. }
  unfold launch in L. rewrite K in L. cbn in L. unfold calc_classes in L.
  apply step_inv in L. destruct L as (o & Eo & L).
  unfold activation_vector in Eo. rewrite A in Eo. destruct (alen ac =? 0); [injection Eo as <-; discriminate|].
  rewrite R in Eo. injection Eo as <-. apply step_inv in L. destruct L as (p & Ep & C).
  rewrite (flat_ok _ _ Y) in Ep. cbn [rbind] in Ep.
  right. split; auto. exists p. split; auto.
  change ("_" ++ "prediction")%string with "_prediction".
  rewrite (check_slot _ _ _ _ _ C). unfold put_time. rewrite slot_put_other by discriminate. apply slot_put.
Qed.
End classification.

(** ** fit *)

Lemma available_spec r : getattr r "activation_available" = Ok (boolean (activation_available r)).
Proof. unfold getattr. destruct (r_kind r); reflexivity. Qed.

Lemma boolean_inj a b : boolean a = boolean b -> a = b.
Proof. destruct a, b; auto; discriminate. Qed.

Lemma calc_activation_working E xs r r1 kw : starts r xs kw -> at_hand r xs -> calc_activation E xs r = (Ok tt, r1) ->
  exists act a, working r xs act /\ r_act r1 = Some a /\ raw a = Ok act /\ r_kind r1 = r_kind r /\
    (kept r r1 \/ spoilt E ["coverage"] r1).
Proof.
  intros St H C. destruct xs as [t|].
  - destruct (calc_given _ _ _ _ C (proj2 St)) as (c & act & Rc & Ev & S1 & K).
    exists act, (new_activation act). split; [exists c; auto|]. destruct S1 as [Bk Bc Ba Bt Bs]. cbn in *.
    split; auto.
  - cbn in H. rewrite available_spec in H. injection H as H. 
    unfold calc_activation in C. unfold activation_available in H.
    destruct (r_act r) as [a|] eqn:A; [|discriminate]. injection C as <-.
    assert (V : v_here a = true) by (destruct (v_here a); auto; discriminate).
    exists (v_bits a), a. assert (Ra : raw a = Ok (v_bits a)) by (unfold raw; rewrite V; auto).
    split; [exists a; auto|]. split; auto. split; auto. split; auto. left. split; auto.
Qed.

Section fit_values.
Variables (P : list Z -> string -> rule -> Prop) (I : list Z -> rule -> Prop) (k : kind).
Variables (E : env) (y : target label) (kw : keywords) (force : bool).
Hypothesis stable : forall act n names r r', P act n r -> same_but names r r' -> ~ In ("_" ++ n)%string names -> P act n r'.
Hypothesis istable : forall act names r r', I act r -> same_but names r r' -> I act r'.
Hypothesis ikind : forall act r, I act r -> r_kind r = k.
Hypothesis istart : forall act r a, r_kind r = k -> r_act r = Some a -> raw a = Ok act -> I act r.
Hypothesis ilaunch : forall act done a rest r r1, train_attributes k = done ++ a :: rest -> I act r ->
  (forall n, In n done -> P act n r) -> launch E a y None kw r = (Ok tt, r1) -> P act a r1.

Lemma fit_values_common xs r r' : r_kind r = k -> starts r xs kw -> at_hand r xs ->
  fit E y xs force kw r = (Ok tt, r') ->
  exists act l1 l2, working r xs act /\ I act r' /\ train_attributes k = l1 ++ l2 /\
    (forall n, In n l1 -> P act n r') /\
    (forall n, In n l2 -> slot ("_" ++ n)%string r' = nan) /\
    (force = true -> l2 = []) /\ (is_good r' -> l2 = []) /\
    (is_good r -> l2 <> [] -> exists l0 n, "coverage" :: l1 = l0 ++ [n] /\ blames r' n) /\
    (is_bad r -> force = false -> l1 = []).
Proof.
  intros K St H F.
  destruct (fit_phases _ _ _ _ _ _ _ St F) as (r1 & r2 & r3 & A & B & C & ->).
  destruct (calc_activation_working _ _ _ _ _ St H A) as (act & a & Wk & Ra & Raw & K1 & Kp).
  rewrite K1, K in B.
  destruct (train_nodup k) as (ND & NA & Me).
  destruct (compute_values (P act) (I act) E y None kw force (train_attributes k) ND NA
    (stable act) (istable act)) with (rest := train_attributes k) (done := @nil string) (r := r1) (r' := r2)
    as (l1 & l2 & F1 & I2 & V1 & V2 & Q1 & Q2 & Q3 & Q4).
  { intros r0 I0 n J. rewrite (ikind _ _ I0). apply Me; auto. }
  { apply ilaunch. } { auto. } { apply (istart act r1 a); congruence. } { intros n []. } { auto. }
  assert (S3 : same_but ["_time_fit"] r2 (with_fitted (put_time E "_time_fit" r3))).
  { apply same_trans with r3.
    - destruct (r_good r2).
      + destruct (check_all_cases _ _ _ C) as [(-> & _)|(n & th & _ & -> & _)]; [apply same_refl|apply same_bad].
      + injection C as <-. apply same_refl.
    - eapply same_trans; [apply same_put; left; auto|apply same_fitted]. }
  assert (NT : forall n, In n (train_attributes k) -> ~ In ("_" ++ n)%string ["_time_fit"]).
  { intros n J [X|[]]. symmetry in X. revert X. apply (clock_not_measure k); [apply Me; auto|left; auto]. }
  exists act, l1, l2. split; auto. split; [eapply istable; eauto|]. split; auto. split.
  { intros n J. eapply stable; [apply V1; auto|apply S3|]. apply NT. rewrite F1. apply in_or_app; auto. }
  split.
  { intros n J. rewrite (same_slot _ _ _ _ S3); auto. apply NT. rewrite F1. apply in_or_app; auto. }
  split; auto.
  assert (Bad : l2 <> [] -> r_good r2 = false /\ r3 = r2).
  { intros N. rewrite (Q2 N) in C. injection C as <-. auto. }
  split. { intros G. apply is_good_spec in G. cbn in G. destruct l2; auto. destruct Bad as (X & ->); congruence. }
  split.
  - intros G N. apply is_good_spec in G. destruct (Bad N) as (X & ->).
    destruct (r_good r1) eqn:G1.
    + destruct (Q3 eq_refl N) as (l0 & n & -> & Bn). exists ("coverage" :: l0), n. split; auto.
      apply blames_spec. auto.
    + assert (Fo : force = false) by (destruct force; auto; rewrite Q1 in N; congruence).
      rewrite (Q4 eq_refl Fo). exists [], "coverage". split; auto. apply blames_spec. cbn.
      destruct Kp as [(Kp & _)|(n & [<-|[]] & _ & Bn & _)]; [congruence|].
      subst force. destruct (compute_skip E y None kw (train_attributes k) r1 r2) as ((_ & Y) & _); auto. congruence.
  - intros G Fo. apply is_bad_spec in G. apply Q4; auto.
    pose proof (w_bad _ _ (worse_calc_activation E xs r) G) as X. rewrite A in X. auto.
Qed.
End fit_values.

Lemma activation_read r a act : r_act r = Some a -> raw a = Ok act -> act <> [] ->
  getattr r "activation" = Ok (OInts act).
Proof.
  intros A R N. unfold getattr.
  assert (V : activation_vector r = Ok (Some act)).
  { unfold activation_vector. rewrite A, R. apply raw_inv in R. destruct R as (_ & R).
    unfold alen. rewrite R. destruct act; [congruence|]. auto. }
  destruct (r_kind r); cbn; rewrite V; auto.
Qed.

Lemma fit_regression E y ys xs force kw r r' :
  r_kind r = KRegression -> is_target y (map LNum ys) -> starts r xs kw -> at_hand r xs ->
  fit E y xs force kw r = (Ok tt, r') ->
  exists act l1 l2, working r xs act /\ (act <> [] -> getattr r' "activation" = Ok (OInts act)) /\
    ["train_set_size"; "prediction"; "std"; "sign"; "zscore"] = l1 ++ l2 /\
    (forall n, In n l1 -> exists o, getattr r' n = Ok o /\ regression_value E act ys (k_horizon kw) n o) /\
    (forall n, In n l2 -> getattr r' n = Ok nan) /\
    (force = true -> l2 = []) /\ (is_good r' -> l2 = []) /\
    (is_good r -> l2 <> [] -> exists l0 n, "coverage" :: l1 = l0 ++ [n] /\ blames r' n) /\
    (is_bad r -> force = false -> l1 = []).
Proof.
  intros K Y St H F.
  destruct (fit_values_common (fun act n r => reg_value E ys act kw n r) reg_state KRegression E y kw force)
    with (xs := xs) (r := r) (r' := r')
    as (act & l1 & l2 & Wk & (K' & a & Ra & Raw) & F1 & V1 & V2 & Q); auto.
  - intros act n names r0 r1. apply reg_stable.
  - intros act names r0 r1. apply reg_state_stable.
  - intros act r0 (X & _). auto.
  - intros act r0 a X1 X2 X3. split; eauto.
  - intros act done a rest r0 r1. apply reg_launch. auto.
  - assert (Rd : forall n, In n (train_attributes KRegression) -> getattr r' n = Ok (slot ("_" ++ n)%string r')).
    { intros n J. rewrite getattr_measure by (rewrite K'; apply train_nodup; auto).
      cbn [train_attributes In] in J. unfold measure_read.
      repeat (destruct J as [<-|J]; [cbn; unfold prediction; rewrite ?K'; auto; destruct (slot "_prediction" r'); auto|]).
      contradiction. }
    exists act, l1, l2. split; auto. split; [eapply activation_read; eauto|]. split; auto.
    split; [|split; [|exact Q]].
    + intros n J. exists (slot ("_" ++ n)%string r'). split; [apply Rd; rewrite F1; apply in_or_app; auto|]. apply V1; auto.
    + intros n J. rewrite Rd by (rewrite F1; apply in_or_app; auto). rewrite V2; auto.
Qed.

Lemma fit_classification E y ys xs force kw r r' :
  r_kind r = KClassification -> is_target y ys -> starts r xs kw -> at_hand r xs ->
  fit E y xs force kw r = (Ok tt, r') ->
  exists act l1 l2, working r xs act /\ (act <> [] -> getattr r' "activation" = Ok (OInts act)) /\
    ["train_set_size"; "prediction"] = l1 ++ l2 /\
    (forall n, In n l1 -> exists o, getattr r' n = Ok o /\ classification_value E act ys n o) /\
    (forall n, In n l2 -> getattr r' n = Ok nan) /\
    (force = true -> l2 = []) /\ (is_good r' -> l2 = []) /\
    (is_good r -> l2 <> [] -> exists l0 n, "coverage" :: l1 = l0 ++ [n] /\ blames r' n) /\
    (is_bad r -> force = false -> l1 = []).
Proof.
  intros K Y St H F.
  destruct (fit_values_common (fun act n r => cls_value E ys act n r) cls_state KClassification E y kw force)
    with (xs := xs) (r := r) (r' := r')
    as (act & l1 & l2 & Wk & (K' & a & Ra & Raw) & F1 & V1 & V2 & Q); auto.
  - intros act n names r0 r1. apply cls_stable.
  - intros act names r0 r1. apply cls_state_stable.
  - intros act r0 (X & _). auto.
  - intros act r0 a X1 X2 X3. split; eauto.
  - intros act done a rest r0 r1. apply cls_launch. auto.
  - exists act, l1, l2. split; auto. split; [eapply activation_read; eauto|]. split; auto.
    assert (Mm : forall n, In n (train_attributes KClassification) -> In n (measures (r_kind r'))).
    { intros n J. rewrite K'. apply train_nodup; auto. }
    split; [|split; [|exact Q]].
    + intros n J. assert (J' : In n (train_attributes KClassification)) by (rewrite F1; apply in_or_app; auto).
      rewrite getattr_measure by auto. destruct (V1 n J) as [(-> & V)|(-> & p & Ep & V)].
      * exists (integer (Z.of_nat (List.length ys))). split; [cbn; rewrite <- V; auto|left; auto].
      * destruct (probabilities_ok _ _ _ _ Ep) as (c & Ec). exists (class_obj c). split.
        { cbn in V |- *. unfold prediction. rewrite K', V, Ec. auto. }
        right. split; auto. exists c. split; auto. rewrite Ep. auto.
    + intros n J. assert (J' : In n (train_attributes KClassification)) by (rewrite F1; apply in_or_app; auto).
      rewrite getattr_measure by auto. cbn [train_attributes In] in J'. pose proof (V2 n J) as V.
      destruct J' as [<-|[<-|[]]].
      * cbn in *. rewrite V. auto.
      * cbn in V |- *. unfold prediction. rewrite K', V. auto.
Qed.

Lemma fit_plain E y ys xs force kw r r' :
  r_kind r = KRule -> is_target y ys -> starts r xs kw -> at_hand r xs ->
  fit E y xs force kw r = (Ok tt, r') ->
  exists act, working r xs act /\ (act <> [] -> getattr r' "activation" = Ok (OInts act)) /\
    (is_good r' \/ force = true -> getattr r' "train_set_size" = Ok (integer (Z.of_nat (List.length ys)))) /\
    (is_bad r -> force = false -> getattr r' "train_set_size" = Ok nan).
Proof.
  intros K Y St H F.
  destruct (fit_values_common
      (fun _ n r => n = "train_set_size" -> slot "_train_set_size" r = integer (Z.of_nat (List.length ys)))
      (fun act r => r_kind r = KRule /\ exists a, r_act r = Some a /\ raw a = Ok act) KRule E y kw force)
    with (xs := xs) (r := r) (r' := r')
    as (act & l1 & l2 & Wk & (K' & a & Ra & Raw) & F1 & V1 & V2 & Q1 & Q2 & Q3 & Q4); auto.
  - intros _ n names r0 r1 P S1 N ->. rewrite (same_slot _ _ _ "_train_set_size" S1 N). auto.
  - intros act names r0 r1 (X & a & X1 & X2) [Bk Bc Ba Bt Bs]. split; [congruence|]. exists a. split; congruence.
  - intros act r0 (X & _). auto.
  - intros act r0 a X1 X2 X3. split; eauto.
  - intros act done a rest r0 r1 F1 (K0 & _) _ L ->. cbn [train_attributes] in F1.
    unfold launch in L. rewrite K0 in L. cbn in L. apply step_inv in L. destruct L as (n & En & L). injection L as <-.
    rewrite (target_len_ok _ _ Y) in En. injection En as <-. apply slot_put.
  - assert (Rd : getattr r' "train_set_size" = Ok (slot "_train_set_size" r')).
    { rewrite getattr_measure; auto. rewrite K'. right; left; auto. }
    exists act. split; auto. split; [eapply activation_read; eauto|]. rewrite Rd. split.
    + intros G. assert (l2 = []) by tauto. subst l2. rewrite app_nil_r in F1. subst l1.
      f_equal. apply (V1 "train_set_size"); auto. left; auto.
    + intros B Fo. rewrite (Q4 B Fo) in F1. cbn in F1. subst l2. f_equal. apply (V2 "train_set_size"). left; auto.
Qed.

(** Calls that do nothing *)
Lemma fit_nothing E y xs force kw r :
  (k_method kw = true -> fit E y xs force kw r = (Err EIndex, r)) /\
  (k_method kw = false -> r_fitted r = true -> xs = None -> fit E y xs force kw r = (Ok tt, r)) /\
  (k_method kw = false -> (exists t, xs = Some t /\ nrows t = 0%nat) -> fit E y xs force kw r = (Ok tt, r)) /\
  (k_method kw = false -> r_fitted r = false -> xs = None -> r_act r = None -> fit E y xs force kw r = (Err EValue, r)) /\
  (forall t c e, k_method kw = false -> xs = Some t -> nrows t <> 0%nat -> r_cond r = Some c -> evaluate c t = Err e ->
     fit E y xs force kw r = (Err e, r)).
Proof.
  unfold fit. split; [|split; [|split; [|split]]].
  - intros ->. auto.
  - intros -> -> ->. auto.
  - intros -> (t & -> & N). rewrite andb_false_r, N. auto.
  - intros -> -> -> A. cbn. rewrite A. auto.
  - intros t c e -> -> N C Ev. rewrite andb_false_r. apply Nat.eqb_neq in N. rewrite N. unfold calc_activation.
    rewrite N. unfold evaluate_activation. rewrite C, Ev. auto.
Qed.

(** Proofs about rules: flags, thresholds and computed attributes. *)
From Coq Require Import List ZArith QArith Bool String Ascii Lia.
From Coq Require Import List.
From Verif Require Import Base Num Arith CondModel CondSpec CondBase ThrModel ThrSpec ThrProofs MetModel MetSpec
  MetReg MetClass RuleModel RuleSpec.
Import ListNotations.
Open Scope string_scope.
Open Scope list_scope.
Open Scope Z_scope.

(** ** Slots *)

Lemma app_inj_str a b : ("_" ++ a = "_" ++ b)%string -> a = b.
Proof. cbn. congruence. Qed.

Lemma str_neq a b : a <> b -> str_eqb a b = false.
Proof. intros N. destruct (str_eqb a b) eqn:E; auto. apply seqb_spec in E. contradiction. Qed.

Lemma slot_put n v r : slot n (put n v r) = v.
Proof. unfold slot, put. cbn [r_dict]. rewrite dset_get, str_refl. auto. Qed.

Lemma slot_put_other n m v r : n <> m -> slot n (put m v r) = slot n r.
Proof. intros N. unfold slot, put. cbn [r_dict]. rewrite dset_get, (str_neq _ _ N). auto. Qed.

(** The rules differ by their flags and by some instance attributes. *)
Record same_but (names : list string) (r r' : rule) : Prop := mkSame {
  sb_kind : r_kind r' = r_kind r;
  sb_cond : r_cond r' = r_cond r;
  sb_act : r_act r' = r_act r;
  sb_thr : r_thr r' = r_thr r;
  sb_slot : forall m, ~ In m names -> dget m (r_dict r') = dget m (r_dict r) }.

Lemma same_refl names r : same_but names r r.
Proof. constructor; auto. Qed.

Lemma same_trans names r1 r2 r3 : same_but names r1 r2 -> same_but names r2 r3 -> same_but names r1 r3.
Proof.
  intros [A B C D F] [A' B' C' D' F']. constructor; try congruence.
  intros m I. rewrite F', F; auto.
Qed.

Lemma same_more names names' r r' : (forall m, In m names -> In m names') -> same_but names r r' -> same_but names' r r'.
Proof. intros H [A B C D F]. constructor; auto. Qed.

Lemma same_put names n v r : In n names -> same_but names r (put n v r).
Proof.
  intros I. constructor; auto. intros m N. cbn [put r_dict]. rewrite dset_get, str_neq; auto.
  intros ->. contradiction.
Qed.

Lemma same_bad names a r : same_but names r (with_bad a r).
Proof. constructor; auto. Qed.

Lemma same_fitted names r : same_but names r (with_fitted r).
Proof. constructor; auto. Qed.

Lemma same_evaluated names r : same_but names r (with_evaluated r).
Proof. constructor; auto. Qed.

Lemma same_slot names r r' m : same_but names r r' -> ~ In m names -> slot m r' = slot m r.
Proof. intros [A B C D F] N. unfold slot. rewrite F; auto. Qed.

(** ** Reading *)

Definition measure_read (r : rule) (n : string) : res obj :=
  if str_eqb n "coverage" then coverage r
  else if str_eqb n "prediction" then prediction r
  else Ok (slot ("_" ++ n)%string r).

Lemma find_row_err {A B} (eqb : B -> B -> bool) m (rows : list (A * B)) e :
  find_row eqb m rows = Err e -> e = EValue.
Proof.
  induction rows as [|(c, p) t IH]; cbn; [congruence|]. destruct (eqb p m); [discriminate|auto].
Qed.

Lemma most_probable_err p e : most_probable p = Err e -> e = EValue.
Proof.
  destruct p as [[|(c, p) t]|[|(c, p) t]|[|(c, p) t]]; cbn [most_probable]; try congruence.
  - destruct (find_row _ _ _) eqn:F; cbn; [discriminate|]. intros K. apply find_row_err in F. congruence.
  - destruct (find_row _ _ _) eqn:F; cbn; [discriminate|]. intros K. apply find_row_err in F. congruence.
  - apply find_row_err.
Qed.

Lemma prediction_err r e : prediction r = Err e -> e = EValue.
Proof.
  unfold prediction. destruct (r_kind r), (slot "_prediction" r); try discriminate.
  destruct (most_probable p) eqn:F; cbn; [discriminate|]. intros K. apply most_probable_err in F. congruence.
Qed.

Lemma coverage_err r e : coverage r = Err e -> e = EZeroDiv.
Proof.
  unfold coverage, act_coverage. destruct (r_act r) as [a|]; [|discriminate].
  destruct (v_coverage a); try discriminate. destruct (alen a =? 0); cbn; congruence.
Qed.

Lemma getattr_measure r n : In n (measures (r_kind r)) -> getattr r n = measure_read r n.
Proof.
  intros I. unfold getattr, measure_read.
  assert (C : match coverage r with Err EAttr => delegated r "coverage" | v => v end = coverage r).
  { destruct (coverage r) as [|e] eqn:F; auto. apply coverage_err in F. subst; auto. }
  assert (P : match prediction r with Err EAttr => delegated r "prediction" | v => v end = prediction r).
  { destruct (prediction r) as [|e] eqn:F; auto. apply prediction_err in F. subst; auto. }
  destruct (r_kind r); cbn [measures In] in I;
    repeat (destruct I as [<-|I]; [first [exact C|exact P|reflexivity]|]); contradiction.
Qed.

Lemma getattr_good r : getattr r "good" = Ok (boolean (r_good r)).
Proof. unfold getattr. destruct (r_kind r); reflexivity. Qed.

Lemma getattr_bad r : getattr r "bad_because" = Ok (match r_bad r with Some a => text a | None => none end).
Proof. unfold getattr. destruct (r_kind r); reflexivity. Qed.

Lemma is_good_spec r : is_good r <-> r_good r = true.
Proof. unfold is_good. rewrite getattr_good. destruct (r_good r); split; auto; discriminate. Qed.

Lemma is_bad_spec r : is_bad r <-> r_good r = false.
Proof. unfold is_bad. rewrite getattr_good. destruct (r_good r); split; auto; discriminate. Qed.

Lemma blames_spec r n : blames r n <-> r_bad r = Some n.
Proof.
  unfold blames. rewrite getattr_bad. unfold text, none. destruct (r_bad r); split; congruence.
Qed.

Lemma blames_nothing_spec r : blames_nothing r <-> r_bad r = None.
Proof. unfold blames_nothing. rewrite getattr_bad. unfold text, none. destruct (r_bad r); split; congruence. Qed.

Lemma same_measure names r r' n :
  same_but names r r' -> In n (measures (r_kind r)) -> ~ In ("_" ++ n)%string names ->
  getattr r' n = getattr r n.
Proof.
  intros B I N. pose proof B as [Bk Bc Ba Bt Bs].
  rewrite (getattr_measure r n I), (getattr_measure r' n) by (rewrite Bk; auto).
  unfold measure_read, coverage, prediction. rewrite Bk, Ba.
  destruct (str_eqb n "coverage") eqn:C.
  - apply seqb_spec in C. subst. rewrite (same_slot _ _ _ "_coverage" B N). auto.
  - destruct (str_eqb n "prediction") eqn:P.
    + apply seqb_spec in P. subst. rewrite (same_slot _ _ _ "_prediction" B N). auto.
    + rewrite (same_slot _ _ _ _ B N). auto.
Qed.

(** ** Flags *)

Definition truthful (r : rule) : Prop := r_good r = true <-> r_bad r = None.

Record worse (r r' : rule) : Prop := mkWorse {
  w_kind : r_kind r' = r_kind r;
  w_bad : r_good r = false -> r_good r' = false;
  w_true : truthful r -> truthful r' }.

Lemma worse_refl r : worse r r.
Proof. constructor; auto. Qed.

Lemma worse_trans r1 r2 r3 : worse r1 r2 -> worse r2 r3 -> worse r1 r3.
Proof. intros [A B C] [A' B' C']. constructor; auto; congruence. Qed.

Lemma worse_same r r' : r_kind r' = r_kind r -> r_good r' = r_good r -> r_bad r' = r_bad r -> worse r r'.
Proof. intros K G B. constructor; auto; unfold truthful; rewrite ?G, ?B; auto. Qed.

Lemma worse_with_bad a r : worse r (with_bad a r).
Proof. constructor; auto. unfold truthful. cbn. intros _. split; discriminate. Qed.

Lemma worse_check E a r : worse r (snd (check_attribute E a r)).
Proof.
  unfold check_attribute. destruct (class_thresholds _ _) as [th|]; [|apply worse_refl].
  destruct (judge E th a r) as [[]|]; cbn [snd]; auto using worse_refl, worse_with_bad.
Qed.

Lemma worse_names E th names r : worse r (snd (check_names E th names r)).
Proof.
  induction names as [|a t IH]; cbn [check_names]; [apply worse_refl|].
  destruct (judge E th a r) as [[]|]; cbn [snd]; auto using worse_refl, worse_with_bad.
Qed.

Lemma worse_check_all E r : worse r (snd (check_all E r)).
Proof.
  unfold check_all. destruct (class_thresholds _ _) as [th|]; [apply worse_names|apply worse_refl].
Qed.

Lemma worse_andthen r m f : worse r (snd m) -> (forall r1, worse r1 (snd (f r1))) -> worse r (snd (andthen m f)).
Proof. destruct m as [[a|e] r1]; cbn; intros A B; auto. eapply worse_trans; eauto. Qed.

Lemma worse_step {A} (v : res A) f r : (forall a, worse r (snd (f a r))) -> worse r (snd (step v f r)).
Proof. destruct v; cbn; auto using worse_refl. Qed.

Lemma worse_put n v r : worse r (put n v r).
Proof. apply worse_same; auto. Qed.

Lemma worse_then_check E a r r' : worse r r' -> worse r (snd (check_attribute E a r')).
Proof. intros W. eapply worse_trans; [apply W|apply worse_check]. Qed.

Lemma worse_calc_activation E xs r : worse r (snd (calc_activation E xs r)).
Proof.
  unfold calc_activation. destruct xs as [t|].
  - destruct (nrows t =? 0)%nat; [apply worse_refl|]. apply worse_step. intros a.
    apply worse_then_check. apply worse_same; auto.
  - destruct (r_act r); apply worse_refl.
Qed.

Lemma worse_if_activation act f r : (forall v, worse r (snd (f v r))) -> worse r (snd (if_activation act r f)).
Proof. intros H. unfold if_activation. destruct (raw_of act r) as [v|]; [apply worse_step; auto|apply worse_refl]. Qed.

Lemma worse_launch E attr y act kw r : worse r (snd (launch E attr y act kw r)).
Proof.
  assert (Train : worse r (snd (calc_train_set_size y r))) by (apply worse_step; intros; apply worse_put).
  assert (Test : worse r (snd (calc_test_set_size y r))) by (apply worse_step; intros; apply worse_put).
  unfold launch. destruct (r_kind r).
  - repeat match goal with |- context[if ?b then _ else _] => destruct b end; auto using worse_refl.
  - repeat match goal with |- context[if ?b then _ else _] => destruct b end; auto using worse_refl.
    + apply worse_if_activation. intros v. apply worse_step. intros m. apply worse_then_check. apply worse_same; auto.
    + apply worse_if_activation. intros v. apply worse_step. intros m. apply worse_then_check. apply worse_same; auto.
    + unfold calc_sign. destruct (slot "_prediction" r) as [[]| | | |]; cbn [snd]; auto using worse_refl, worse_put.
    + unfold calc_rule_zscore. destruct (match act with Some a => Some a | None => r_act r end); [|apply worse_refl].
      apply worse_step. intros q. destruct (slot "_prediction" r) as [[]| | | |]; try apply worse_refl.
      apply worse_andthen; [apply worse_then_check, worse_put|]. intros; apply worse_put.
    + apply worse_if_activation. intros v. apply worse_step. intros m. apply worse_then_check. apply worse_same; auto.
  - repeat match goal with |- context[if ?b then _ else _] => destruct b end; auto using worse_refl.
    + apply worse_step. intros [v|]; [|apply worse_refl]. apply worse_step. intros p.
      apply worse_then_check. apply worse_same; auto.
    + apply worse_if_activation. intros v. apply worse_step. intros m. apply worse_then_check. apply worse_same; auto.
Qed.

Lemma worse_compute E attrs y act kw force : forall r, worse r (snd (compute E attrs y act kw force r)).
Proof.
  induction attrs as [|attr t IH]; intros r; cbn [compute]; [apply worse_refl|].
  destruct (str_eqb attr "activation"); [apply worse_refl|].
  destruct (negb (r_good r) && negb force).
  - eapply worse_trans; [|apply IH]. apply worse_put.
  - apply worse_andthen; [apply worse_launch|]. intros r1. apply worse_andthen; auto.
    destruct (r_good r1); [apply worse_check|apply worse_refl].
Qed.

Lemma worse_fit E y xs force kw r : worse r (snd (fit E y xs force kw r)).
Proof.
  unfold fit. destruct (k_method kw); [apply worse_refl|].
  destruct (r_fitted r && _); [apply worse_refl|].
  destruct (match xs with Some t => (nrows t =? 0)%nat | None => false end); [apply worse_refl|].
  apply worse_andthen; [apply worse_calc_activation|]. intros r1.
  apply worse_andthen; [apply worse_compute|]. intros r2.
  apply worse_andthen; [destruct (r_good r2); [apply worse_check_all|apply worse_refl]|]. intros r3.
  apply worse_andthen; [destruct (e_subattributes E); apply worse_refl|]. intros r4.
  cbn [snd]. apply worse_same; auto.
Qed.

Lemma worse_put_all names r : worse r (put_all names r).
Proof.
  unfold put_all. revert r. induction names as [|a t IH]; intros r; cbn [fold_left]; [apply worse_refl|].
  eapply worse_trans; [|apply IH]. apply worse_put.
Qed.

Lemma worse_eval E y xs recompute force kw r : worse r (snd (eval E y xs recompute force kw r)).
Proof.
  unfold eval. destruct (k_method kw); [apply worse_refl|].
  destruct (negb (r_good r) && negb force).
  { cbn [snd]. eapply worse_trans; [|apply worse_put_all]. apply worse_same; auto. }
  destruct (match xs with Some t => (nrows t =? 0)%nat | None => false end); [apply worse_refl|].
  apply worse_andthen; [destruct recompute; [apply worse_calc_activation|apply worse_refl]|]. intros r1.
  destruct (negb (activation_available r1)); [apply worse_refl|].
  apply worse_step. intros act.
  apply worse_andthen; [apply worse_compute|]. intros r2.
  apply worse_andthen; [destruct (r_good r2); [apply worse_check_all|apply worse_refl]|]. intros r3.
  cbn [snd]. apply worse_same; auto.
Qed.

Lemma worse_setattr r n v : worse r (snd (setattr r n v)).
Proof.
  unfold setattr. destruct (hasattr r n) as [[]|]; try apply worse_refl.
  - unfold super_setattr. destruct (str_eqb n "coverage").
    { cbn [snd]. unfold set_coverage. destruct (r_act r); apply worse_same; auto. }
    destruct (str_eqb n "train_set_size"); [apply worse_put|].
    destruct (str_eqb n "test_set_size"); [apply worse_put|].
    destruct (dget n _); [apply worse_refl|apply worse_put].
  - destruct (find_attribute activation_attributes _ _); [apply worse_refl|].
    destruct (find_attribute condition_attributes _ _); apply worse_refl.
Qed.

Lemma worse_predict E xs r : worse r (snd (predict E xs r)).
Proof.
  unfold predict.
  destruct (match xs with Some t => _ | None => _ end) as [v|e]; [|apply worse_refl].
  destruct (prediction r) as [p|e]; [|apply worse_refl].
  assert (H : worse r (snd match rseq (map (predict_cell p) v) with
                           | Ok l => (Ok (squeezed xs l), put_time E "_time_predict" r)
                           | Err e => (Err e, r) end)).
  { destruct (rseq _); cbn [snd]; [apply worse_put|apply worse_refl]. }
  destruct p as [[]| | | |]; auto.
  repeat (match goal with
          | |- context[match ?s with EmptyString => _ | String _ _ => _ end] => destruct s
          | |- context[match ?a with Ascii _ _ _ _ _ _ _ _ => _ end] => destruct a
          | |- context[if ?b then _ else _] => destruct b
          end; auto using worse_refl).
Qed.

Lemma worse_after E op r : worse r (after E op r).
Proof.
  destruct op; cbn [after];
    auto using worse_fit, worse_eval, worse_calc_activation, worse_check, worse_check_all, worse_setattr,
               worse_predict, worse_launch.
  - unfold set_thresholds. destruct path; [apply worse_same; auto|destruct (r_thr r); apply worse_refl].
  - unfold del_activation. destruct (r_act r); [apply worse_same; auto|apply worse_refl].
Qed.

Lemma worse_history E ops : forall r, worse r (history E ops r).
Proof.
  induction ops as [|op t IH]; intros r; cbn [history]; [apply worse_refl|].
  eapply worse_trans; [apply worse_after|apply IH].
Qed.

Lemma bad_forever E ops r : is_bad r -> is_bad (history E ops r).
Proof. rewrite !is_bad_spec. apply worse_history. Qed.

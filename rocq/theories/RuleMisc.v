(** Proofs about the other methods of rules. *)
From Coq Require Import List ZArith QArith Bool String Ascii Lia Lqa.
From Coq Require Import List.
From Verif Require Import Base Num Arith CondModel CondSpec CondBase CondProofs CondEval CondMore CondSet ThrModel ThrSpec ThrProofs MetModel MetSpec
  MetReg MetClass RuleModel RuleSpec RuleProofs RuleFit RuleValues RuleEval.
Import ListNotations.
Open Scope string_scope.
Open Scope list_scope.
Open Scope Z_scope.

(** ** predict *)

Lemma getattr_put_time v r : same_attributes ["time_predict"; "_time_predict"] r (put "_time_predict" v r).
Proof.
  intros n N.
  assert (N1 : n <> "time_predict") by (intros ->; apply N; left; auto).
  assert (N2 : n <> "_time_predict") by (intros ->; apply N; right; left; auto).
  assert (S1 : forall m, m <> "_time_predict" -> slot m (put "_time_predict" v r) = slot m r).
  { intros m M. apply slot_put_other. auto. }
  assert (Dl : forall m, delegated (put "_time_predict" v r) m = delegated r m) by reflexivity.
  unfold getattr. change (r_kind (put "_time_predict" v r)) with (r_kind r).
  destruct (dget n (properties (r_kind r))) as [f|] eqn:D.
  - assert (Ff : f (put "_time_predict" v r) = f r).
    { apply dget_some in D.
      unfold properties in D. apply in_app_or in D. destruct D as [D|D].
      - destruct (r_kind r); cbn [In] in D; unfold reads in D;
          repeat (destruct D as [D|D]; [injection D as <- <-; rewrite S1; [reflexivity|discriminate]|]); contradiction.
      - cbn [In] in D. unfold reads in D.
        repeat (destruct D as [D|D]; [injection D as Dn Df; subst; first
          [reflexivity | congruence | rewrite S1; [reflexivity|discriminate]
          | unfold coverage; rewrite S1; [reflexivity|discriminate]
          | unfold prediction; rewrite S1; [reflexivity|discriminate]]|]). contradiction. }
    rewrite Ff. reflexivity.
  - assert (X : forall d c, dget n (dset "_time_predict" v d ++ c) = dget n (d ++ c)).
    { intros d c. induction d as [|(k, w) t IH]; cbn [dset app dget].
      - rewrite str_neq by auto. auto.
      - destruct (str_eqb "_time_predict" k) eqn:K; cbn [app dget].
        + apply seqb_spec in K. subst k. rewrite str_neq by auto. auto.
        + destruct (str_eqb n k); auto. }
    change (r_dict (put "_time_predict" v r)) with (dset "_time_predict" v (r_dict r)).
    rewrite X.
    change (fields (put "_time_predict" v r)) with (fields r). reflexivity.
Qed.

Lemma predict_steps E xs r act : working r xs act -> xs <> None \/ act <> [] ->
  predict E xs r =
  match prediction r with
  | Err e => (Err e, r)
  | Ok p =>
      match p with
      | OVal (XText "nan") => (Err EValue, r)
      | _ =>
          match rseq (map (predict_cell p) act) with
          | Err e => (Err e, r)
          | Ok l => (Ok (squeezed xs l), put_time E "_time_predict" r)
          end
      end
  end.
Proof.
  intros W N. unfold predict.
  assert (H : match xs with
    | Some t => rbind (evaluate_activation r t) raw
    | None => rbind (activation_vector r) (fun o => match o with None => Err EValue | Some v => Ok v end)
    end = Ok act); [|rewrite H; auto].
  destruct xs as [t|].
  - destruct W as (c & C & V). unfold evaluate_activation. rewrite C, V. auto.
  - destruct W as (a & A & R). unfold activation_vector. rewrite A, R. apply raw_inv in R. destruct R as (_ & R).
    unfold alen. rewrite R. destruct act as [|x t]; [destruct N; congruence|]. auto.
Qed.

Lemma squeezed_returns xs l : returns xs l (squeezed xs l).
Proof. destruct xs as [[|]|]; cbn; auto. destruct l as [|c [|]]; auto. Qed.

Lemma prediction_attr r : getattr r "prediction" = prediction r.
Proof. rewrite getattr_measure; auto. destruct (r_kind r); cbn; tauto. Qed.

Lemma cells p q act (P : label -> Prop) : bits act ->
  (exists x, predict_cell p 1 = Ok x /\ P x) -> predict_cell p 0 = Ok q ->
  exists l, rseq (map (predict_cell p) act) = Ok l /\ where_active P q act l.
Proof.
  intros B (x & X & Px) Q. induction B as [|a t Ha Bt IH]; cbn [map rseq].
  - exists []. split; auto. constructor.
  - destruct IH as (l & IH & W). destruct Ha as [->| -> ].
    + rewrite Q, IH. exists (q :: l). split; auto. apply wa_off; auto.
    + rewrite X, IH. exists (x :: l). split; auto. apply wa_on; auto.
Qed.

Lemma predict_number E xs r act x :
  getattr r "prediction" = Ok (number x) -> working r xs act -> bits act -> xs <> None \/ act <> [] ->
  exists l p r', predict E xs r = (Ok p, r') /\ returns xs l p /\
    where_active (eq (LNum x)) (LNum NaN) act l /\ same_attributes ["time_predict"; "_time_predict"] r r'.
Proof.
  intros P W B N. rewrite prediction_attr in P. rewrite (predict_steps E xs r act W N), P.
  destruct (cells (number x) (LNum NaN) act (eq (LNum x))) as (l & L & A); auto.
  { exists (LNum x). auto. }
  cbn [number] in *. rewrite L.
  exists l, (squeezed xs l), (put_time E "_time_predict" r). split; auto. split; [apply squeezed_returns|].
  split; auto. apply getattr_put_time.
Qed.

Lemma predict_text E xs r act s :
  getattr r "prediction" = Ok (text s) -> s <> "nan" -> (String.length s <= 32)%nat ->
  working r xs act -> bits act -> xs <> None \/ act <> [] ->
  exists l p r', predict E xs r = (Ok p, r') /\ returns xs l p /\
    where_active (eq (LText s)) (LText "nan") act l /\ same_attributes ["time_predict"; "_time_predict"] r r'.
Proof.
  intros P Ns Le W B N. rewrite prediction_attr in P. rewrite (predict_steps E xs r act W N), P.
  assert (F : first_32 s = s).
  { unfold first_32. clear -Le. revert Le. generalize 32%nat. induction s as [|a t IH]; intros n L; destruct n; cbn in *; auto.
    - lia. - f_equal. apply IH. lia. }
  destruct (cells (text s) (LText "nan") act (eq (LText s))) as (l & L & A); auto.
  { exists (LText s). cbn. rewrite F. auto. }
  cbn [text].
  assert (M : forall (X Y : res predicted * rule), match OVal (XText s) with OVal (XText "nan") => X | _ => Y end = Y).
  { intros X Y. destruct (string_dec s "nan") as [|Ne]; [congruence|]. clear -Ne.
    repeat (match goal with |- context [match ?v with _ => _ end] =>
      match v with | context [match _ with _ => _ end] => fail 1 | _ => is_var v; destruct v end end; try reflexivity).
    congruence. }
  rewrite M. cbn [text] in L. rewrite L.
  exists l, (squeezed xs l), (put_time E "_time_predict" r). split; auto. split; [apply squeezed_returns|].
  split; auto. apply getattr_put_time.
Qed.

Lemma predict_unset E xs r act :
  getattr r "prediction" = Ok none -> working r xs act -> bits act -> xs <> None \/ act <> [] ->
  exists l p r', predict E xs r = (Ok p, r') /\ returns xs l p /\
    where_active (eq (LNum NaN)) (LNum NaN) act l /\ same_attributes ["time_predict"; "_time_predict"] r r'.
Proof.
  intros P W B N. rewrite prediction_attr in P. rewrite (predict_steps E xs r act W N), P.
  destruct (cells none (LNum NaN) act (eq (LNum NaN))) as (l & L & A); auto.
  { exists (LNum NaN). auto. }
  cbn [none] in *. rewrite L.
  exists l, (squeezed xs l), (put_time E "_time_predict" r). split; auto. split; [apply squeezed_returns|].
  split; auto. apply getattr_put_time.
Qed.

Lemma predict_refused E r :
  (getattr r "activation" = Ok none -> predict E None r = (Err EValue, r)) /\
  (getattr r "activation" = Err EFileNotFound -> predict E None r = (Err EFileNotFound, r)) /\
  (forall xs act, getattr r "prediction" = Ok (text "nan") -> working r xs act -> xs <> None \/ act <> [] ->
     predict E xs r = (Err EValue, r)) /\
  (forall t, r_cond r = None -> predict E (Some t) r = (Err EAttr, r)) /\
  (forall t c e, r_cond r = Some c -> evaluate c t = Err e -> predict E (Some t) r = (Err e, r)).
Proof.
  split; [|split; [|split; [|split]]].
  - rewrite activation_attr. unfold predict. destruct (activation_vector r) as [[l|]|e]; cbn; try discriminate. auto.
  - rewrite activation_attr. unfold predict. destruct (activation_vector r) as [[l|]|e]; cbn; try discriminate.
    intros K. congruence.
  - intros xs act P W N. rewrite prediction_attr in P. rewrite (predict_steps E xs r act W N), P. auto.
  - intros t C. unfold predict, evaluate_activation. rewrite C. auto.
  - intros t c e C V. unfold predict, evaluate_activation. rewrite C, V. auto.
Qed.

Lemma fit_activation E y t force kw r r' : k_method kw = false -> nrows t <> 0%nat ->
  fit E y (Some t) force kw r = (Ok tt, r') ->
  exists act, working r (Some t) act /\ r_act r' = Some (new_activation act) /\ r_cond r' = r_cond r.
Proof.
  intros K N F.
  destruct (fit_phases E y (Some t) force kw r r') as (r1 & r2 & r3 & A & B & C & ->); [split; auto|auto|].
  destruct (calc_given _ _ _ _ A N) as (c & v & Rc & Ev & S1 & _). cbv zeta in S1.
  destruct (train_nodup (r_kind r1)) as (ND & NA & Me).
  destruct (compute_effect _ _ _ _ _ _ _ _ ND NA (fun a I => proj1 (Me a I)) B) as (S2 & _).
  assert (S3 : same_but [] r2 r3).
  { destruct (r_good r2); [|injection C as <-; apply same_refl].
    destruct (check_all_cases _ _ _ C) as [(-> & _)|(n & th & _ & -> & _)]; [apply same_refl|apply same_bad]. }
  exists v. split; [exists c; auto|]. cbn.
  rewrite (sb_act _ _ _ S3), (sb_act _ _ _ S2), (sb_act _ _ _ S1).
  rewrite (sb_cond _ _ _ S3), (sb_cond _ _ _ S2), (sb_cond _ _ _ S1). auto.
Qed.

(** predict() uses the data of the fit. *)
Lemma predict_after_fit E y d rows force kw r r' : k_method kw = false -> rows <> [] ->
  (forall act, working r (Some (TArray d rows)) act -> act <> []) ->
  fit E y (Some (TArray d rows)) force kw r = (Ok tt, r') ->
  predict E None r' = predict E (Some (TArray d rows)) r'.
Proof.
  intros K N A F.
  destruct (fit_activation E y (TArray d rows) force kw r r') as (act & W & Ra & Rc); auto.
  { cbn. destruct rows; [congruence|discriminate]. }
  assert (W1 : working r' (Some (TArray d rows)) act) by (destruct W as (c & C & V); exists c; split; congruence).
  assert (W2 : working r' None act) by (exists (new_activation act); auto).
  rewrite (predict_steps E _ r' act W1) by (left; discriminate).
  rewrite (predict_steps E _ r' act W2) by (right; auto).
  auto.
Qed.

Lemma prediction_vector_number r act x c : getattr r "prediction" = Ok (number x) ->
  getattr r "activation" = Ok (OInts act) -> bits act -> r_cond r = Some c -> clen c <> 0%nat ->
  exists l, calc_prediction_vector r = Ok (Some (map LNum l)) /\ where_active (fun z => same_num z x) NaN act l.
Proof.
  intros P A B C N. rewrite prediction_attr in P. rewrite activation_attr in A.
  unfold calc_prediction_vector. destruct (activation_vector r) as [[v|]|e]; try discriminate. injection A as ->.
  cbn [rbind]. unfold prediction_vector. rewrite P. cbn [rbind number]. unfold rule_len. rewrite C. cbn [rbind].
  apply Nat.eqb_neq in N. rewrite N. cbn [rmap].
  exists (map (fun a => if a =? 0 then NaN else nmul x (numz a)) act). split; [|apply cell_active; auto].
  do 2 f_equal. rewrite map_map. apply map_ext. intros a. cbn. destruct (a =? 0); auto.
Qed.

Lemma prediction_vector_text r act s c : getattr r "prediction" = Ok (text s) ->
  getattr r "activation" = Ok (OInts act) -> bits act -> r_cond r = Some c -> clen c <> 0%nat ->
  exists l, calc_prediction_vector r = Ok (Some l) /\ where_active (eq (LText s)) (LNum NaN) act l.
Proof.
  intros P A B C N. rewrite prediction_attr in P. rewrite activation_attr in A.
  unfold calc_prediction_vector. destruct (activation_vector r) as [[v|]|e]; try discriminate. injection A as ->.
  cbn [rbind]. unfold prediction_vector. rewrite P. cbn [rbind text]. unfold rule_len. rewrite C. cbn [rbind].
  apply Nat.eqb_neq in N. rewrite N. cbn [rmap]. eexists. split; [reflexivity|].
  clear -B. induction B as [|a t Ha Bt IH]; cbn [map]; [constructor|]. destruct Ha as [->| -> ]; [apply wa_off|apply wa_on]; auto.
Qed.

Lemma prediction_vector_unset r act : getattr r "prediction" = Ok none ->
  getattr r "activation" = Ok (OInts act) -> calc_prediction_vector r = Ok (Some (repeat (LNum NaN) (List.length act))).
Proof.
  intros P A. rewrite prediction_attr in P. rewrite activation_attr in A.
  unfold calc_prediction_vector. destruct (activation_vector r) as [[v|]|e]; try discriminate. injection A as ->.
  cbn [rbind]. unfold prediction_vector. rewrite P. cbn [rbind none rmap]. do 2 f_equal.
  induction act as [|a t IH]; cbn; auto. rewrite IH. auto.
Qed.

Lemma prediction_vector_missing r :
  (getattr r "activation" = Ok none -> calc_prediction_vector r = Ok None) /\
  (getattr r "activation" = Err EFileNotFound -> calc_prediction_vector r = Err EFileNotFound) /\
  (forall act c p, getattr r "activation" = Ok (OInts act) -> getattr r "prediction" = Ok p -> p <> none ->
     r_cond r = Some c -> clen c = 0%nat -> calc_prediction_vector r = Ok (Some [])).
Proof.
  rewrite activation_attr, prediction_attr. unfold calc_prediction_vector. split; [|split].
  - destruct (activation_vector r) as [[v|]|e]; try discriminate. auto.
  - destruct (activation_vector r) as [[v|]|e]; try discriminate. cbn. congruence.
  - intros act c p. destruct (activation_vector r) as [[v|]|e]; try discriminate. cbn. intros _ P N C L.
    unfold prediction_vector. rewrite P. cbn [rbind]. unfold rule_len. rewrite C. cbn [rbind]. rewrite L.
    destruct p as [[]| | | |]; auto. destruct N; reflexivity.
Qed.

(** ** Construction *)

Lemma regression_dict_same r : same_but ["_std"; "_sign"; "_time_calc_std"] r (regression_dict r) /\
  r_good (regression_dict r) = r_good r /\ r_bad (regression_dict r) = r_bad r /\
  r_fitted (regression_dict r) = r_fitted r /\ r_evaluated (regression_dict r) = r_evaluated r.
Proof.
  unfold regression_dict. destruct (r_kind r); (split; [|auto]); try apply same_refl.
  eapply same_trans; [|apply same_put; right; right; left; auto].
  eapply same_trans; apply same_put; [left; auto|right; left; auto].
Qed.

Lemma new_rule_built E k condition act r : new_rule E k condition act = Ok r ->
  r_kind r = k /\ r_cond r = condition_of condition /\ r_act r = activation_of act /\
  r_fitted r = false /\ r_evaluated r = false /\
  (forall n, In n (measures k) -> n <> "coverage" -> getattr r n = Ok none) /\
  (act = VNone -> getattr r "coverage" = Ok none) /\
  ((is_good r /\ blames_nothing r) \/ (is_bad r /\ blames r "coverage" /\ act <> VNone /\ denied E "coverage" r)).
Proof.
  intros H. unfold new_rule in H.
  set (r0 := mkRule k (condition_of condition) (activation_of act) (class_thresholds (e_classes E) k) true None
    false false (initial_dict k)).
  assert (H' : (act = VNone /\ r = regression_dict r0) \/
    (act <> VNone /\ exists r1, check_attribute E "coverage" r0 = (Ok tt, r1) /\ r = regression_dict r1)).
  { destruct condition, act; try discriminate H; cbv beta iota zeta in H.
    - left. split; auto. injection H as <-. reflexivity.
    - left. split; auto. injection H as <-. reflexivity.
    - right. split; [discriminate|].
      change (mkRule k (Some c) (Some a) (class_thresholds (e_classes E) k) true None false false (initial_dict k)) with r0 in H.
      destruct (check_attribute E "coverage" r0) as [[[]|e] r1]; [|discriminate]. exists r1. split; auto. congruence. }
  assert (M : exists r1, r = regression_dict r1 /\ (r1 = r0 \/ (r1 = with_bad "coverage" r0 /\ act <> VNone /\ denied E "coverage" r0))).
  { destruct H' as [(_ & ->)|(N & r1 & C & ->)]; [exists r0; auto|].
    exists r1. split; auto. destruct (check_cases _ _ _ _ _ C) as [(-> & _)|(_ & -> & th & T & J)]; auto.
    right. split; auto. split; auto. eapply denied_judge; eauto. }
  destruct M as (r1 & -> & R1). destruct (regression_dict_same r1) as (S1 & G1 & B1 & F1 & E1).
  assert (S0 : same_but [] r0 r1).
  { destruct R1 as [->|(-> & _)]; [apply same_refl|apply same_bad]. }
  assert (F0 : r_fitted r1 = false /\ r_evaluated r1 = false) by (destruct R1 as [->|(-> & _)]; auto).
  destruct F0 as (F0 & E0).
  assert (K1 : r_kind (regression_dict r1) = k) by (rewrite (sb_kind _ _ _ S1), (sb_kind _ _ _ S0); auto).
  split; auto. split; [rewrite (sb_cond _ _ _ S1), (sb_cond _ _ _ S0); auto|].
  split; [rewrite (sb_act _ _ _ S1), (sb_act _ _ _ S0); auto|]. split; [congruence|]. split; [congruence|].
  assert (D : r_dict r1 = initial_dict k) by (destruct R1 as [->|(-> & _)]; auto).
  assert (Kr : r_kind r1 = k) by (rewrite (sb_kind _ _ _ S0); auto).
  split; [|split].
  - intros n I N. rewrite getattr_measure by (rewrite K1; auto). unfold measure_read. rewrite str_neq by auto.
    assert (V : slot ("_" ++ n)%string (regression_dict r1) = none).
    { unfold regression_dict. rewrite Kr. unfold slot. destruct k; cbn [measures In] in I;
        repeat (destruct I as [<-|I]; [try congruence; unfold put; cbn [r_dict]; rewrite ?D; reflexivity|]); contradiction. }
    destruct (str_eqb n "prediction") eqn:P; [|rewrite V; auto].
    apply seqb_spec in P. subst n. unfold prediction. rewrite K1.
    change ("_" ++ "prediction")%string with "_prediction" in V. rewrite V. destruct k; auto.
  - intros ->. rewrite getattr_measure by (rewrite K1; destruct k; left; auto).
    change (coverage (regression_dict r1) = Ok none). unfold coverage.
    rewrite (sb_act _ _ _ S1), (sb_act _ _ _ S0). cbn. f_equal.
    rewrite (same_slot _ _ _ "_coverage" S1) by (cbn; intuition discriminate). unfold slot. rewrite D. auto.
  - destruct R1 as [->|(-> & N & Dn)]; [left|right].
    + split; [apply is_good_spec; rewrite G1; auto|apply blames_nothing_spec; rewrite B1; auto].
    + split; [apply is_bad_spec; rewrite G1; auto|]. split; [apply blames_spec; rewrite B1; auto|]. split; auto.
      apply (denied_same E "coverage" r0); auto.
      apply (same_measure ["_std"; "_sign"; "_time_calc_std"] r0).
      * eapply same_trans; [|apply S1]. apply same_bad.
      * cbn. destruct k; left; auto.
      * cbn. intuition discriminate.
Qed.

Lemma new_rule_errors E k :
  (forall act, new_rule E k COther act = Err EType) /\
  (forall condition, new_rule E k condition VOther = Err EType) /\
  (forall a, new_rule E k CNone (VActivation a) = Err EValue) /\
  (forall c, c <> COther -> exists r, new_rule E k c VNone = Ok r) /\
  (forall c a, class_thresholds (e_classes E) k = None -> exists r, new_rule E k (CCond c) (VActivation a) = Ok r).
Proof.
  split; [|split; [|split; [|split]]]; auto.
  - intros []; auto.
  - intros [] N; cbn; eauto. congruence.
  - intros c a T. unfold new_rule, check_attribute. cbn. rewrite T. eauto.
Qed.

(** ** AND *)

Lemma and_product x y : map (fun p => fst p * snd p) (combine x y) = product x y.
Proof. revert y. induction x as [|a t IH]; intros [|b u]; cbn; auto. rewrite IH. auto. Qed.

Lemma rule_and_ok E r1 r2 c1 c2 c v1 v2 :
  r_cond r1 = Some c1 -> r_cond r2 = Some c2 -> band (e_sort E) c1 c2 = Ok c ->
  working r1 None v1 -> working r2 None v2 -> List.length v1 = List.length v2 ->
  rule_and E r1 r2 = new_rule E (r_kind r1) (CCond c) (VActivation (new_activation (product v1 v2))).
Proof.
  intros C1 C2 B (a1 & A1 & R1) (a2 & A2 & R2) L. unfold rule_and. rewrite C1, C2, B, A1, A2. cbn [rbind].
  unfold act_and, alen. destruct (raw_inv _ _ R1) as (_ & V1). destruct (raw_inv _ _ R2) as (_ & V2).
  rewrite V1, V2, L, Z.eqb_refl, R1, R2. cbn [rbind negb]. rewrite and_product. auto.
Qed.

Lemma rule_and_consistent E r1 r2 c1 c2 fs1 fs2 xs v1 v2 r :
  CondSpec.known (e_sort E) -> r_cond r1 = Some c1 -> r_cond r2 = Some c2 -> condition c1 fs1 -> condition c2 fs2 ->
  no_nan fs1 -> no_nan fs2 -> well_shaped xs ->
  working r1 (Some xs) v1 -> working r2 (Some xs) v2 -> working r1 None v1 -> working r2 None v2 ->
  rule_and E r1 r2 = Ok r ->
  working r None (product v1 v2) /\ working r (Some xs) (product v1 v2) /\
  r_kind r = r_kind r1 /\ r_fitted r = false /\
  (exists c, band (e_sort E) c1 c2 = Ok c /\ r_cond r = Some c) /\
  (forall n, In n (measures (r_kind r1)) -> n <> "coverage" -> getattr r n = Ok none).
Proof.
  intros K C1 C2 D1 D2 Q1 Q2 W (c1' & X1 & Ev1) (c2' & X2 & Ev2) W1 W2 R.
  assert (c1' = c1) by congruence. assert (c2' = c2) by congruence. subst c1' c2'.
  destruct (band (e_sort E) c1 c2) as [c|e] eqn:B.
  2: { unfold rule_and in R. rewrite C1, C2, B in R. discriminate. }
  assert (L : List.length v1 = List.length v2).
  { rewrite (proj1 (evaluate_inv _ _ _ _ D1 W Ev1)), (proj1 (evaluate_inv _ _ _ _ D2 W Ev2)). auto. }
  rewrite (rule_and_ok E r1 r2 c1 c2 c v1 v2) in R; auto.
  destruct (new_rule_built _ _ _ _ _ R) as (Kr & Cr & Ar & Fr & _ & Nr & _).
  cbn in Cr, Ar. split; [exists (new_activation (product v1 v2)); auto|].
  split; [exists c; split; auto; apply (band_evaluate (e_sort E) c1 c2 fs1 fs2 c xs v1 v2); auto|].
  split; auto. split; auto. split; eauto.
Qed.

Lemma copied_ok (sett : settings) (c : cond) (fs : list feature) :
  condition c fs -> CondSpec.known sett -> exists d, copied sett c = Ok d /\ condition d (arranged sett fs).
Proof.
  intros ((A1 & A2 & A3 & A4) & D & _) K. unfold copied. rewrite A1, A2, A3, A4. apply (rebuild_ok sett fs D K).
Qed.

Lemma rule_and_refused E r1 r2 :
  (r_cond r1 = None -> rule_and E r1 r2 = Err EType) /\
  (forall c1 fs, r_cond r1 = Some c1 -> condition c1 fs -> CondSpec.known (e_sort E) -> r_cond r2 = None ->
    rule_and E r1 r2 = Err EAttr) /\
  (forall c1, r_cond r1 = Some c1 -> c_min c1 = None -> r_cond r2 = None -> rule_and E r1 r2 = Err EValue) /\
  (forall c1 c2 e, r_cond r1 = Some c1 -> r_cond r2 = Some c2 -> band (e_sort E) c1 c2 = Err e -> rule_and E r1 r2 = Err e) /\
  (forall c1 c2 c, r_cond r1 = Some c1 -> r_cond r2 = Some c2 -> band (e_sort E) c1 c2 = Ok c ->
    (r_act r1 = None -> rule_and E r1 r2 = Err EType) /\
    (r_act r1 <> None -> r_act r2 = None -> rule_and E r1 r2 = Err EAttr) /\
    (forall v1 v2, working r1 None v1 -> working r2 None v2 -> List.length v1 <> List.length v2 ->
       rule_and E r1 r2 = Err EValue)).
Proof.
  unfold rule_and. split; [|split; [|split; [|split]]].
  - intros ->. auto.
  - intros c1 fs -> C K ->. destruct (copied_ok (e_sort E) c1 fs C K) as (d & -> & _). auto.
  - intros c1 -> M ->. unfold copied, build. rewrite M. auto.
  - intros c1 c2 e -> -> ->. auto.
  - intros c1 c2 c -> -> ->. cbn [rbind]. split; [|split].
    + intros ->. auto.
    + intros N ->. destruct (r_act r1); [auto|congruence].
    + intros v1 v2 (a1 & -> & R1) (a2 & -> & R2) L. unfold act_and, alen.
      destruct (raw_inv _ _ R1) as (_ & ->). destruct (raw_inv _ _ R2) as (_ & ->).
      destruct (Z.eqb_spec (Z.of_nat (List.length v1)) (Z.of_nat (List.length v2))); [lia|auto].
Qed.

(** ** Comparisons *)

Lemma equal_rules H r1 r2 c d fs gs :
  unordered H -> r_cond r1 = Some c -> r_cond r2 = Some d -> condition c fs -> condition d gs -> same_content fs gs ->
  rule_eq H r1 r2 = Ok true /\ exists h, rule_hash H r1 = Ok h /\ rule_hash H r2 = Ok h.
Proof.
  intros U C D Cc Cd S1. destruct (equal_conditions H c d fs gs U Cc Cd S1) as (_ & _ & _ & Eq).
  unfold rule_eq, rule_hash, rule_to_hash. rewrite C, D, Eq. split; auto.
  rewrite (to_hash_lists H c fs) by apply Cc. rewrite (to_hash_lists H d gs) by apply Cd. cbn [rmap tl].
  exists (h_set H (h_str H "r" :: map (hash_feature H) fs)). split; auto. f_equal. apply U. constructor.
  symmetry. apply same_content_hashes; auto; [apply Cc|apply Cd].
Qed.

Lemma rule_eq_only_condition H r1 r2 r1' r2' : r_cond r1' = r_cond r1 -> r_cond r2' = r_cond r2 ->
  rule_eq H r1' r2' = rule_eq H r1 r2 /\ rule_hash H r1' = rule_hash H r1.
Proof. intros A B. unfold rule_eq, rule_hash, rule_to_hash. rewrite A, B. auto. Qed.

Lemma different_rules H r1 r2 c d fs gs :
  collision_free H -> r_cond r1 = Some c -> r_cond r2 = Some d -> condition c fs -> condition d gs ->
  plain_bounds fs -> plain_bounds gs -> ~ same_content fs gs ->
  rule_eq H r1 r2 = Ok false.
Proof.
  intros U C D Cc Cd P1 P2 N. unfold rule_eq. rewrite C, D.
  assert (X : ceq H c d <> Ok true).
  { intros X. apply N. eapply equal_converse; eauto. }
  unfold ceq, hash in *. rewrite (to_hash_lists H c fs) in * by apply Cc. rewrite (to_hash_lists H d gs) in * by apply Cd.
  cbn [rmap rbind] in *. destruct (Z.eqb _ _); congruence.
Qed.
